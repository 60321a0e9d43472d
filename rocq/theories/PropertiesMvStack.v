(** Motion vector prediction: C38, C59, C60. *)
From Coq Require Import ZArith List Bool Lia.
From Verif Require Import Base BlockTables GeomModel ElementSpec MvStackModel MvStackSpec MvFindProofs MvStackExamples.
Import ListNotations.
Open Scope Z_scope.

(** C38. Offering any sequence of blocks with any weights to an empty list gives the
    first eight distinct candidates in the order of their first occurrence, each with
    the sum of its weights; nothing is out of range. *)
Theorem C38_any_candidates : forall e c nbs s,
  Forall (fun bw => nbr_ok (fst bw) /\ 0 <= snd bw) nbs -> refs_ok e c -> global_ok c (s_global s) ->
  s_num s = 0 -> s_new s = 0 -> arrays_ok s -> weight_sum nbs < 2 ^ 62 -> len nbs < 2 ^ 62 ->
  let cs := cands_of (plain e) c (s_global s) nbs in
  exists s', add_all e c nbs s = Ok s' /\
    entries c s' = kept cs /\ weights s' = map (fun k => total k cs) (kept cs) /\
    NoDup (entries c s') /\ s_num s' = len (entries c s') /\ s_num s' <= 8 /\ arrays_ok s' /\
    s_new s' = new_count (plain e) c (s_global s) nbs /\ s_found s' = s_found s || has_cand cs /\ s_global s' = s_global s.
Proof. exact any_candidates. Qed.
Print Assumptions C38_any_candidates.
(** Ten blocks with nine vectors: the second vector occurs twice, the ninth is dropped. *)
Example C38_any_candidates_case :
  let b k := ex_block (2 * k, 0) 3 13 in
  match add_all (ex_env false 0 ex_params 4) false [(b 1, 4); (b 2, 2); (b 3, 8); (b 2, 6); (b 4, 2); (b 5, 2); (b 6, 2); (b 7, 2); (b 8, 2); (b 9, 2)] ex_start with
  | Ok s => map fst (entries false s) = [(2, 0); (4, 0); (6, 0); (8, 0); (10, 0); (12, 0); (14, 0); (16, 0)] /\ weights s = [4; 8; 8; 2; 2; 2; 2; 2]
  | _ => False
  end.
Proof. vm_compute. split; reflexivity. Qed.

(** C59. The list of a block, exactly: the candidates of the blocks above, to the left
    and above to the right, those with a bonus of 640, then the temporal samples. The
    vectors are always reduced to quarter samples ([plain]). *)
Theorem C59_find_mv_stack_exactly : forall e c s, env_ok e c -> around_ok e -> tables_right e -> arrays_ok s ->
  exists s', find_mv_stack e c s = Ok s' /\
    fst (s_global s') = code_global e (v_ref0 e) /\ (c = true -> snd (s_global s') = code_global e (v_ref1 e)) /\
    let near := near_cands (plain e) c (s_global s') in
    let all := near ++ temporal_cands (plain e) c in
    entries c s' = kept all /\ weights s' = map (fun k => total k all + bonus_of near k) (kept all) /\
    s_num s' = len (entries c s') /\ arrays_ok s' /\
    s_new s' = new_count (plain e) c (s_global s') (above_blocks e ++ left_blocks e ++ corner_blocks e) /\
    s_close s' = close_matches (plain e) c (s_global s') /\ s_zero_ctx s' = zero_context (plain e) c (s_global s').
Proof. exact find_exact. Qed.
Print Assumptions C59_find_mv_stack_exactly.

(** Without high precision and with translations only these parts conform to AV1. *)
Theorem C59_find_mv_stack_conforms : forall e c s, env_ok e c -> around_ok e -> tables_right e -> arrays_ok s -> v_hp e = false ->
  0 <= gm_type_of e (v_ref0 e) <= 1 -> (c = true -> 0 <= gm_type_of e (v_ref1 e) <= 1) ->
  exists s', find_mv_stack e c s = Ok s' /\
    fst (s_global s') = av1_global_mv e (v_ref0 e) /\ (c = true -> snd (s_global s') = av1_global_mv e (v_ref1 e)) /\
    let near := near_cands e c (s_global s') in
    let all := near ++ temporal_cands e c in
    entries c s' = kept all /\ weights s' = map (fun k => total k all + bonus_of near k) (kept all) /\
    s_new s' = new_count e c (s_global s') (above_blocks e ++ left_blocks e ++ corner_blocks e) /\
    s_close s' = close_matches e c (s_global s') /\ s_zero_ctx s' = zero_context e c (s_global s').
Proof. exact find_conforms. Qed.
Print Assumptions C59_find_mv_stack_conforms.
Example C59_case : env_ok (ex_env false 1 ex_params 4) false /\ around_ok (ex_env false 1 ex_params 4) /\ tables_right (ex_env false 1 ex_params 4) /\ arrays_ok ex_start /\
  match find_mv_stack (ex_env false 1 ex_params 4) false ex_start with
  | Ok s => map fst (entries false s) = [(6, 0); (2, 4); (-8, 2); (20, 4)] /\ weights s = [642; 646; 644; 2] /\ s_new s = 1 /\ s_close s = 2 /\ s_zero_ctx s = 1 /\
      fst (s_global s) = (2, 0)
  | _ => False
  end.
Proof.
  split; [ex_ok|]. split; [apply ex_around|]. split; [apply ex_tables|]. split; [exact ex_arrays|].
  vm_compute. repeat split; reflexivity.
Qed.

(** The list is not sorted by weight, as 7.10.2.11 requires. *)
Theorem C59_sorted_refuted : exists e s s' i, env_ok e false /\ around_ok e /\ tables_right e /\ arrays_ok s /\ v_hp e = false /\
  find_mv_stack e false s = Ok s' /\ (S i < length (weights s'))%nat /\ nth i (weights s') 0 < nth (S i) (weights s') 0 /\ 640 <= nth i (weights s') 0.
Proof.
  exists (ex_env false 1 ex_params 4), ex_start. eexists. exists 0%nat.
  split; [ex_ok|]. split; [apply ex_around|]. split; [apply ex_tables|]. split; [exact ex_arrays|].
  split; [reflexivity|]. split; [vm_compute; reflexivity|]. vm_compute. repeat split; try discriminate. repeat constructor.
Qed.
Print Assumptions C59_sorted_refuted.

(** With high precision vectors the candidates are not those of AV1. *)
Theorem C59_high_precision_refuted : exists e s s', env_ok e false /\ around_ok e /\ tables_right e /\ arrays_ok s /\ v_hp e = true /\
  find_mv_stack e false s = Ok s' /\ entries false s' <> kept (near_cands e false (s_global s') ++ temporal_cands e false).
Proof.
  exists (ex_env_at (21, 5) true 0 ex_params 4), ex_start. eexists.
  split; [ex_ok|]. split; [apply ex_around|]. split; [apply ex_tables|]. split; [exact ex_arrays|].
  split; [reflexivity|]. split; [vm_compute; reflexivity|vm_compute; discriminate].
Qed.
Print Assumptions C59_high_precision_refuted.

(** In the first row of a frame (blocks up to 64x64) it never returns ... *)
Theorem C59_first_row_refuted : forall e c s s', 0 <= v_size e < 22 -> width_of (v_size e) <= 64 -> height_of (v_size e) <= 64 -> v_row e = 0 ->
  find_mv_stack e c s <> Ok s'.
Proof. exact find_first_row. Qed.
Print Assumptions C59_first_row_refuted.
Example C59_first_row_case : find_mv_stack (ex_env false 0 ex_params 0) false ex_start = Panic.
Proof. vm_compute. reflexivity. Qed.

(** ... nor where the block above to the right has not been coded yet. *)
Theorem C59_missing_corner_refuted : forall e c s s', 0 <= v_size e < 22 -> table_right (v_size e) -> bw4 e <= 16 -> bh4 e <= 16 ->
  0 < v_row e -> 0 <= v_col e -> nb_at e (v_row e - 1) (v_col e + bw4 e) = None -> find_mv_stack e c s <> Ok s'.
Proof. exact find_no_corner. Qed.
Print Assumptions C59_missing_corner_refuted.
Example C59_missing_corner_case :
  let e := mkMvEnv ex_tile 4 14 3 1 2 false false (repeat 0 8) ex_params (ex_field (20, 4)) ex_mis in
  nb_at e (v_row e - 1) (v_col e + bw4 e) = None /\ find_mv_stack e false ex_start = Panic.
Proof. vm_compute. split; reflexivity. Qed.

(** C60. Global motion vectors: conforming for no motion and translations (x is the row) ... *)
Theorem C60_translation_conforms : forall e c rf, env_ok e c -> 0 <= rf < 8 -> v_hp e = false -> rf = 0 \/ 0 <= gm_type_of e rf <= 1 ->
  global_mv e rf = Ok (av1_global_mv e rf).
Proof. exact global_conforms. Qed.
Print Assumptions C60_translation_conforms.
Example C60_translation_case : global_mv (ex_env false 1 ex_params 4) 3 = Ok (2, 0) /\ env_ok (ex_env false 1 ex_params 4) false.
Proof. split; [vm_compute; reflexivity|]. ex_ok. Qed.

(** ... but for a warp x is the column and the signs are lost. *)
Theorem C60_warp_exactly : forall e c rf, env_ok e c -> 0 < rf < 8 -> v_hp e = false -> 1 < gm_type_of e rf ->
  global_mv e rf = Ok (Z.abs (snd (av1_global_mv e rf)), Z.abs (fst (av1_global_mv e rf))).
Proof. exact global_warp. Qed.
Print Assumptions C60_warp_exactly.
Example C60_warp_case : global_mv (ex_env false 2 (repeat [2 ^ 16; 0; 2 ^ 16 - 2 ^ 12; 2 ^ 12; - 2 ^ 12; 2 ^ 16 - 2 ^ 12] 8) 4) 1 = Ok (8, 20) /\
  av1_global_mv (ex_env false 2 (repeat [2 ^ 16; 0; 2 ^ 16 - 2 ^ 12; 2 ^ 12; - 2 ^ 12; 2 ^ 16 - 2 ^ 12] 8) 4) 1 = (-20, 8).
Proof. vm_compute. split; reflexivity. Qed.

(** No reading of x and y as row and column makes it conform, and warps with a negative
    component are wrong in both readings. *)
Definition swap (m : mv) : mv := (snd m, fst m).
Theorem C60_global_motion_refuted : exists e, env_ok e false /\ v_hp e = false /\ exists m,
  global_mv e 1 = Ok m /\ m <> av1_global_mv e 1 /\ m <> swap (av1_global_mv e 1).
Proof.
  exists (ex_env false 2 (repeat [2 ^ 16; 0; 2 ^ 16 - 2 ^ 12; 2 ^ 12; - 2 ^ 12; 2 ^ 16 - 2 ^ 12] 8) 4).
  split; [ex_ok|]. split; [reflexivity|].
  eexists. split; [vm_compute; reflexivity|]. split; vm_compute; discriminate.
Qed.
Print Assumptions C60_global_motion_refuted.
Theorem C60_one_reading_refuted : exists e1 e2, env_ok e1 false /\ env_ok e2 false /\ v_hp e1 = false /\ v_hp e2 = false /\
  global_mv e1 1 = Ok (av1_global_mv e1 1) /\ global_mv e1 1 <> Ok (swap (av1_global_mv e1 1)) /\
  global_mv e2 1 = Ok (swap (av1_global_mv e2 1)) /\ global_mv e2 1 <> Ok (av1_global_mv e2 1).
Proof.
  exists (ex_env false 1 ex_params 4), (ex_env false 2 ex_params 4).
  split; [ex_ok|].
  split; [ex_ok|].
  vm_compute. repeat split; discriminate.
Qed.
Print Assumptions C60_one_reading_refuted.
