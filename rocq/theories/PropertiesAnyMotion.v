(** Properties C104 and C112 for any kind of global motion and any precision. *)
From Coq Require Import String ZArith List Bool Lia.
From Verif Require Import Base TableLemmas BlockTables GeomModel SeqSpec ContextModel ContextSpec ContextProofs MvStackModel MvStackSpec MvStackExamples MvFindProofs
  ModeInfoModel ModeInfoSpec ModeInfoProofs ModeIndexProofs MvAssignProofs ModeWholeProofs MotionSpec PairSpec AnyMotionSpec AnyMotionProofs AnyPairProofs PropertiesModeInfo PropertiesMotion PropertiesPair.
Import ListNotations.
Open Scope string_scope.
Open Scope list_scope.
Open Scope Z_scope.

(** One reference, as C104_motion_exactly, but the encoder has its own global vector
    ([code_global], C59 and C60) and its own list, made without high precision. *)
Theorem C104_any_motion_exactly : forall x b t es r0 c0 y (int hp : bool) (lists : Z -> list (Z * Z)),
  let rf := p_ref0 b in let e := motion_env x (p_bsize b) rf in let m := mode_of_flags (p_new_mv b) (p_zero_mv b) (p_ref_mv b) in
  let g := code_global e rf in let cs := own_candidates e g in let num := len cs in
  let own := mkModeCtx (t_new_ctx t) (zero_context (plain e) false (g, (0, 0))) (t_ref_ctx t) (t_drl_ctx t) in
  let i := chosen m num (p_drl b) in let p := av1_pred m i num cs g in
  x_seg_on x = false -> p_intrabc b = false -> frame_ok (x_frame x) (x_row x) (x_col x) -> inner r0 c0 (x_row x) (x_col x) -> 0 <= p_bsize b < 22 ->
  1 <= rf <= 7 -> (p_comp_mode b = 0 \/ x_ref_select x && large_enough (p_bsize b) = false) ->
  env_ok e false -> around_ok e -> tables_right e -> arrays_ok (t_mv t) ->
  (3 <= List.length (p_drl b))%nat -> (3 <= List.length (t_drl_ctx t))%nat ->
  mode_contexts m num (p_drl b) y own -> listed m num -> let v := if is_new m then fst (p_mvs b) else p in (m = New -> vec_small (fst (p_mvs b)) /\ vec_small p) ->
  (m = Near \/ m = New -> len (lists rf) = num) -> let p' := av1_pred m i (len (lists rf)) (lists rf) (av1_global_mv e rf) in
  exists ds b' t', code_inter x b t es = Ok ((es ++ ds)%list, b', t') /\
    p_ref0 b' = rf /\ p_ref1 b' = -1 /\ fst (p_mvs b') = v /\ t_y_mode t' = single_mode m /\ t_idx t' = i /\
    let reader := av1_motion (above_of (x_frame x) r0 (x_row x) (x_col x)) (left_of (x_frame x) c0 (x_row x) (x_col x)) (p_bsize b) (x_ref_select x)
                    (motion_env x (p_bsize b)) lists y int hp in
    (v = p /\ v = p' -> reads_as ds reader ((rf, -1), (single_mode m, i), v)) /\
    (~ (v = p /\ v = p') -> never_reads_as ds reader ((rf, -1), (single_mode m, i), v)).
Proof. exact motion_any. Qed.
Print Assumptions C104_any_motion_exactly.

(** So a block with the mode GLOBALMV in a frame with a warp is read back exactly if both
    components of the global vector are the same and not negative. *)
Theorem C104_global_warp_exactly : forall x b t es r0 c0 (int hp : bool) (lists : Z -> list (Z * Z)),
  let rf := p_ref0 b in let e := motion_env x (p_bsize b) rf in let g := av1_global_mv e rf in let v := (Z.abs (snd g), Z.abs (fst g)) in
  let y := mkModeCtx (t_new_ctx t) (zero_context e false (v, (0, 0))) (t_ref_ctx t) (t_drl_ctx t) in
  x_seg_on x = false -> p_intrabc b = false -> frame_ok (x_frame x) (x_row x) (x_col x) -> inner r0 c0 (x_row x) (x_col x) -> 0 <= p_bsize b < 22 ->
  1 <= rf <= 7 -> (p_comp_mode b = 0 \/ x_ref_select x && large_enough (p_bsize b) = false) ->
  env_ok e false -> around_ok e -> tables_right e -> arrays_ok (t_mv t) -> (3 <= List.length (p_drl b))%nat -> (3 <= List.length (t_drl_ctx t))%nat ->
  p_new_mv b = true -> p_zero_mv b = false -> x_hp x = false -> 1 < gm_type_of e rf ->
  exists ds b' t', code_inter x b t es = Ok ((es ++ ds)%list, b', t') /\ fst (p_mvs b') = v /\
    let reader := av1_motion (above_of (x_frame x) r0 (x_row x) (x_col x)) (left_of (x_frame x) c0 (x_row x) (x_col x)) (p_bsize b) (x_ref_select x)
                    (motion_env x (p_bsize b)) lists y int hp in
    (0 <= fst g -> snd g = fst g -> reads_as ds reader ((rf, -1), (16, 0), v)) /\ (~ (0 <= fst g /\ snd g = fst g) -> never_reads_as ds reader ((rf, -1), (16, 0), v)).
Proof. exact global_warp_read. Qed.
Print Assumptions C104_global_warp_exactly.

Definition ex_warp_env (p : list Z) : mode_env :=
  mkModeEnv ex_tile 4 4 true true ex_motion_mis true true
    true false false (repeat [None; None; None; None; None; None; None] 8) (repeat false 8)
    false true false 3 false 1 true false 2 3 false false false (repeat 2 8) (repeat p 8) (ex_field (20, 4)).
Definition ex_turn : list Z := [2 ^ 16; 0; 2 ^ 16 - 2 ^ 12; 2 ^ 12; - 2 ^ 12; 2 ^ 16 - 2 ^ 12].
Definition ex_still : list Z := [0; 0; 2 ^ 16; 0; 0; 2 ^ 16].
Lemma ex_warp_same p : v_mis (motion_env (ex_warp_env p) 3 1) = ex_mis.
Proof. reflexivity. Qed.
Lemma ex_warp_frame p : frame_ok (x_frame (ex_warp_env p)) 4 4.
Proof. exact ex_motion_frame. Qed.
Lemma ex_warp_env_ok p : p = ex_turn \/ p = ex_still -> env_ok (motion_env (ex_warp_env p) 3 1) false.
Proof.
  intros P. constructor; cbn [motion_env ex_warp_env v_size v_ref0 v_ref1 v_gm_type v_gm_params v_tile v_row v_col v_field x_tile x_row x_col x_gm_type x_gm_params x_field ex_tile
    e_row_start e_row_end e_col_start e_col_end e_mi_rows e_mi_cols]; try lia.
  - reflexivity.
  - destruct P as [-> | ->]; unfold ex_turn, ex_still; small_params.
  - intros r c b H. exact (proj1 (ex_nbrs _ _ _ _ H (ex_warp_same p))).
  - split; [reflexivity|]. intros f H. apply repeat_spec in H. subst f. split; [vm_compute; discriminate|].
    intros r H. apply repeat_spec in H. subst r. split; [vm_compute; discriminate|]. apply Forall_forall. intros m' H. apply repeat_spec in H. subst m'.
    unfold mv_ok. cbn [fst snd]. lia.
Qed.
Lemma ex_warp_around p : around_ok (motion_env (ex_warp_env p) 3 1).
Proof.
  constructor.
  - change (bw4 (motion_env (ex_warp_env p) 3 1)) with 2. intros i H _. assert (i = 0 \/ i = 1) as [-> | ->] by lia; eexists; reflexivity.
  - change (bh4 (motion_env (ex_warp_env p) 3 1)) with 2. intros i H _. assert (i = 0 \/ i = 1) as [-> | ->] by lia; eexists; reflexivity.
  - intros _. split; [cbn; lia|]. eexists. split; [reflexivity|]. cbn. lia.
Qed.
Lemma ex_warp_tables p : tables_right (motion_env (ex_warp_env p) 3 1).
Proof. split; [unfold table_right; cbn; lia|]. intros r c b H. exact (proj2 (ex_nbrs _ _ _ _ H (ex_warp_same p))). Qed.
Lemma ex_warp_holds p lists : p = ex_turn \/ p = ex_still -> let e := motion_env (ex_warp_env p) 3 1 in let g := av1_global_mv e 1 in let v := (Z.abs (snd g), Z.abs (fst g)) in
  let y := mkModeCtx 0 (zero_context e false (v, (0, 0))) 0 [0; 0; 0; 0; 0; 0; 0; 0] in
  exists ds b' t', code_inter (ex_warp_env p) (ex_motion_blk true false false [0; 0; 0] (0, 0)) ex_t [] = Ok (ds, b', t') /\ fst (p_mvs b') = v /\
    let reader := av1_motion (above_of (x_frame (ex_warp_env p)) 0 4 4) (left_of (x_frame (ex_warp_env p)) 0 4 4) 3 false (motion_env (ex_warp_env p) 3) lists y false false in
    (0 <= fst g -> snd g = fst g -> reads_as ds reader ((1, -1), (16, 0), v)) /\ (~ (0 <= fst g /\ snd g = fst g) -> never_reads_as ds reader ((1, -1), (16, 0), v)).
Proof.
  intros P. apply (C104_global_warp_exactly (ex_warp_env p) (ex_motion_blk true false false [0; 0; 0] (0, 0)) ex_t [] 0 0 false false lists).
  - reflexivity.
  - reflexivity.
  - exact (ex_warp_frame p).
  - split; left; reflexivity.
  - cbn; lia.
  - cbn; lia.
  - left; reflexivity.
  - exact (ex_warp_env_ok p P).
  - exact (ex_warp_around p).
  - exact (ex_warp_tables p).
  - exact ex_arrays.
  - cbn; lia.
  - cbn; lia.
  - reflexivity.
  - reflexivity.
  - reflexivity.
  - reflexivity.
Qed.
Theorem C104_warp_refuted : forall lists, exists x b t ds b' t' y, code_inter x b t [] = Ok (ds, b', t') /\ fst (p_mvs b') = (8, 20) /\
  never_reads_as ds (av1_motion (above_of (x_frame x) 0 4 4) (left_of (x_frame x) 0 4 4) 3 false (motion_env x 3) lists y false false) ((1, -1), (16, 0), (8, 20)).
Proof.
  intros lists. destruct (ex_warp_holds ex_turn lists (or_introl eq_refl)) as (ds & b' & t' & E & F & _ & N).
  assert (G : av1_global_mv (motion_env (ex_warp_env ex_turn) 3 1) 1 = (-20, 8)) by (vm_compute; reflexivity). rewrite G in F, N.
  exists (ex_warp_env ex_turn), (ex_motion_blk true false false [0; 0; 0] (0, 0)), ex_t, ds, b', t'. eexists. split; [exact E|]. split; [exact F|].
  apply N. intros [A _]. apply A. reflexivity.
Qed.
Print Assumptions C104_warp_refuted.
Example C104_warp_case : exists ds b' t' y, code_inter (ex_warp_env ex_still) (ex_motion_blk true false false [0; 0; 0] (0, 0)) ex_t [] = Ok (ds, b', t') /\
  reads_as ds (av1_motion (above_of (x_frame (ex_warp_env ex_still)) 0 4 4) (left_of (x_frame (ex_warp_env ex_still)) 0 4 4) 3 false (motion_env (ex_warp_env ex_still) 3) (fun _ => []) y false false)
    ((1, -1), (16, 0), (0, 0)).
Proof.
  destruct (ex_warp_holds ex_still (fun _ => []) (or_intror eq_refl)) as (ds & b' & t' & E & F & R & _).
  assert (G : av1_global_mv (motion_env (ex_warp_env ex_still) 3 1) 1 = (0, 0)) by (vm_compute; reflexivity). rewrite G in F, R.
  exists ds, b', t'. eexists. split; [exact E|]. apply R; [cbn; lia|reflexivity].
Qed.

(** Two references, as C112_pair_exactly, with the same difference. *)
Theorem C112_any_motion_exactly : forall x b t es r0 c0 (int hp : bool) lists,
  let ra := p_ref0 b in let rb := p_ref1 b in let e := pair_env x (p_bsize b) ra rb in
  let ga := code_global e ra in let gb := code_global e rb in let cs := own_pairs e (ga, gb) in let num := len cs in
  let y := mkModeCtx (t_new_ctx t) (zero_context (plain e) true (ga, gb)) (t_ref_ctx t) (t_drl_ctx t) in
  let old := t_y_mode t in let i := chosen (old_mode old) num (p_drl b) in let p := av1_pred (old_mode old) i num (map fst cs) ga in
  x_seg_on x = false -> p_intrabc b = false -> frame_ok (x_frame x) (x_row x) (x_col x) -> inner r0 c0 (x_row x) (x_col x) -> 0 <= p_bsize b < 22 ->
  p_comp_mode b = 1 -> x_ref_select x && large_enough (p_bsize b) = true ->
  (p_comp_ref_type b = 0 /\ unidir_pair ra rb \/ p_comp_ref_type b = 1 /\ bidir_pair ra rb) ->
  env_ok e true -> around_ok e -> tables_right e -> arrays_ok (t_mv t) ->
  (3 <= List.length (p_drl b))%nat -> (3 <= List.length (t_drl_ctx t))%nat -> 0 <= t_ref_ctx t < 6 -> 0 <= t_new_ctx t < 6 ->
  18 <= p_mode b <= 25 -> In old [0; 14; 15; 16; 17] -> 2 <= num -> len (lists (ra, rb)) = num ->
  (old = 17 -> vec_small (fst (p_mvs b)) /\ vec_small p) ->
  let da := av1_global_mv e ra in let db := av1_global_mv e rb in
  let v := if old =? 17 then fst (p_mvs b) else p in
  let want := fun m (second : bool) => av1_pred m i num (map (if second then snd else fst) (lists (ra, rb))) (if second then db else da) in
  let u := above_of (x_frame x) r0 (x_row x) (x_col x) in let l := left_of (x_frame x) c0 (x_row x) (x_col x) in
  let good := readable_pair (p_comp_ref_type b) ra rb /\ ~ both_uni_above u l /\ kind_ok old (p_mode b) /\
    exists m0 m1, modes_of (p_mode b) = Some (m0, m1) /\ v = want m0 false /\ gb = want m1 true in
  exists ds b' t', code_inter x b t es = Ok (es ++ ds, b', t') /\
    p_ref0 b' = ra /\ p_ref1 b' = rb /\ p_mvs b' = (v, gb) /\ p_mode b' = 16 /\ t_y_mode t' = old /\ t_idx t' = i /\
    let reader := av1_pair_motion u l (p_bsize b) (x_ref_select x) (pair_env x (p_bsize b)) lists y int hp in
    (good -> reads_as ds reader ((ra, rb), (p_mode b, i), (v, gb))) /\ (~ good -> never_reads_as ds reader ((ra, rb), (p_mode b, i), (v, gb))).
Proof. exact pair_any. Qed.
Print Assumptions C112_any_motion_exactly.

Definition ex_pair_warp (p : list Z) : mode_env :=
  mkModeEnv ex_tile 4 4 true true ex_pair_mis true true
    true false false (repeat [None; None; None; None; None; None; None] 8) (repeat false 8)
    false true false 3 false 1 true false 2 3 true false false (repeat 2 8) (repeat p 8) (ex_field (20, 4)).
Definition ex_pair_warp_list : list (mv * mv) := [((2, 4), (2, 0)); ((-8, 2), (4, 4)); ((20, 4), (20, 4))].
Lemma ex_pair_warp_candidates p (g : mv) : p = ex_turn /\ g = (8, 20) \/ p = ex_still /\ g = (0, 0) ->
  code_global (pair_env (ex_pair_warp p) 3 4 7) 4 = g /\ code_global (pair_env (ex_pair_warp p) 3 4 7) 7 = g /\
  own_pairs (pair_env (ex_pair_warp p) 3 4 7) (g, g) = ex_pair_warp_list.
Proof. intros [[-> ->]|[-> ->]]; vm_compute; repeat split. Qed.
Lemma ex_pair_warp_ok p : p = ex_turn \/ p = ex_still -> env_ok (pair_env (ex_pair_warp p) 3 4 7) true.
Proof.
  intros P. constructor; cbn [pair_env ex_pair_warp v_size v_ref0 v_ref1 v_gm_type v_gm_params v_tile v_row v_col v_field x_tile x_row x_col x_gm_type x_gm_params x_field ex_tile
    e_row_start e_row_end e_col_start e_col_end e_mi_rows e_mi_cols]; try lia.
  - reflexivity.
  - destruct P as [-> | ->]; unfold ex_turn, ex_still; small_params.
  - intros r c b H. exact (proj1 (ex_pair_nbrs _ _ _ H)).
  - split; [reflexivity|]. intros f H. apply repeat_spec in H. subst f. split; [vm_compute; discriminate|].
    intros r H. apply repeat_spec in H. subst r. split; [vm_compute; discriminate|]. apply Forall_forall. intros m' H. apply repeat_spec in H. subst m'.
    unfold mv_ok. cbn [fst snd]. lia.
Qed.
Lemma ex_pair_warp_around p : around_ok (pair_env (ex_pair_warp p) 3 4 7).
Proof.
  constructor.
  - change (bw4 (pair_env (ex_pair_warp p) 3 4 7)) with 2. intros i H _. assert (i = 0 \/ i = 1) as [-> | ->] by lia; eexists; reflexivity.
  - change (bh4 (pair_env (ex_pair_warp p) 3 4 7)) with 2. intros i H _. assert (i = 0 \/ i = 1) as [-> | ->] by lia; eexists; reflexivity.
  - intros _. split; [cbn; lia|]. eexists. split; [reflexivity|]. cbn. lia.
Qed.
Lemma ex_pair_warp_tables p : tables_right (pair_env (ex_pair_warp p) 3 4 7).
Proof. split; [unfold table_right; cbn; lia|]. intros r c b H. exact (proj2 (ex_pair_nbrs _ _ _ H)). Qed.
Definition ex_pair_warp_reader (p : list Z) (g : mv) : list ev -> option (((Z * Z) * (Z * Z) * (mv * mv)) * list ev) :=
  av1_pair_motion (above_of (x_frame (ex_pair_warp p)) 0 4 4) (left_of (x_frame (ex_pair_warp p)) 0 4 4) 3 true (pair_env (ex_pair_warp p) 3) (fun _ => ex_pair_warp_list)
    (mkModeCtx 0 (zero_context (plain (pair_env (ex_pair_warp p) 3 4 7)) true (g, g)) 0 [0; 0; 0; 0; 0; 0; 0; 0]) false false.
(** Global motion for both references: read back without motion, not with a turn. *)
Lemma ex_pair_warp_holds p (g : mv) : p = ex_turn /\ g = (8, 20) \/ p = ex_still /\ g = (0, 0) ->
  exists ds b' t', code_inter (ex_pair_warp p) (ex_pair_blk 24) (ex_pair_state 16) [] = Ok (ds, b', t') /\ p_mvs b' = (g, g) /\
    (g = av1_global_mv (pair_env (ex_pair_warp p) 3 4 7) 4 -> g = av1_global_mv (pair_env (ex_pair_warp p) 3 4 7) 7 -> reads_as ds (ex_pair_warp_reader p g) ((4, 7), (24, 0), (g, g))) /\
    (g <> av1_global_mv (pair_env (ex_pair_warp p) 3 4 7) 4 -> never_reads_as ds (ex_pair_warp_reader p g) ((4, 7), (24, 0), (g, g))).
Proof.
  intros P. destruct (ex_pair_warp_candidates p g P) as (G1 & G2 & C). assert (P' : p = ex_turn \/ p = ex_still) by tauto.
  pose proof (C112_any_motion_exactly (ex_pair_warp p) (ex_pair_blk 24) (ex_pair_state 16) [] 0 0 false false (fun _ => ex_pair_warp_list)) as H. cbv zeta in H.
  change (p_ref0 (ex_pair_blk 24)) with 4 in H. change (p_ref1 (ex_pair_blk 24)) with 7 in H. change (p_bsize (ex_pair_blk 24)) with 3 in H.
  change (t_y_mode (ex_pair_state 16)) with 16 in H. change (p_mode (ex_pair_blk 24)) with 24 in H. rewrite G1, G2 in H. rewrite (C : own_pairs (pair_env (ex_pair_warp p) 3 4 7) (@pair mv mv g g) = _) in H.
  change (old_mode 16) with Global in H. cbn [chosen av1_pred] in H. change (16 =? 17) with false in H. cbv iota in H.
  destruct H as (ds & b' & t' & E & _ & _ & V & _ & _ & _ & RG & RB).
  - reflexivity.
  - reflexivity.
  - exact ex_pair_frame.
  - split; left; reflexivity.
  - lia.
  - reflexivity.
  - reflexivity.
  - right. split; [reflexivity|]. unfold bidir_pair. lia.
  - exact (ex_pair_warp_ok p P').
  - exact (ex_pair_warp_around p).
  - exact (ex_pair_warp_tables p).
  - exact ex_arrays.
  - cbn; lia.
  - cbn; lia.
  - cbn; lia.
  - cbn; lia.
  - lia.
  - cbn; tauto.
  - cbn; lia.
  - reflexivity.
  - discriminate.
  - exists ds, b', t'. split; [exact E|]. split; [exact V|]. split.
    + intros A B. apply RG. split; [right; split; [reflexivity|cbn; tauto]|]. split; [intros U; vm_compute in U; decompose [and] U; discriminate|].
      split; [unfold kind_ok; lia|]. exists Global, Global. split; [reflexivity|]. split; [exact A|exact B].
    + intros A. apply RB. intros (_ & _ & _ & m0 & m1 & M & B & _). injection M as <- <-. exact (A B).
Qed.
Example C112_any_motion_case : (exists ds b' t', code_inter (ex_pair_warp ex_still) (ex_pair_blk 24) (ex_pair_state 16) [] = Ok (ds, b', t') /\
    reads_as ds (ex_pair_warp_reader ex_still (0, 0)) ((4, 7), (24, 0), ((0, 0), (0, 0)))) /\
  (exists ds b' t', code_inter (ex_pair_warp ex_turn) (ex_pair_blk 24) (ex_pair_state 16) [] = Ok (ds, b', t') /\
    never_reads_as ds (ex_pair_warp_reader ex_turn (8, 20)) ((4, 7), (24, 0), ((8, 20), (8, 20)))).
Proof.
  split.
  - destruct (ex_pair_warp_holds ex_still (0, 0)) as (ds & b' & t' & E & _ & R & _); [tauto|]. exists ds, b', t'. split; [exact E|]. apply R; vm_compute; reflexivity.
  - destruct (ex_pair_warp_holds ex_turn (8, 20)) as (ds & b' & t' & E & _ & _ & R); [tauto|]. exists ds, b', t'. split; [exact E|]. apply R. vm_compute. discriminate.
Qed.

(** Segmentation: without the skip feature for its segment a block cannot be coded (the
    table of features lacks the last one, C66); with it nothing is written, and a decoder
    gets the same motion exactly if the global vectors are the same. *)
Theorem C104_segment_panics : forall x b t es r, features_ok x -> x_seg_on x = true -> feature x (p_seg b) 6 = Ok None -> code_inter x b t es <> Ok r.
Proof. exact segment_motion_panics. Qed.
Print Assumptions C104_segment_panics.
Theorem C104_segment_exactly : forall x b t es fixed w u l size select y (int hp : bool) lists,
  let rf := match fixed with Some v => v | None => 1 end in let e := motion_env x (p_bsize b) rf in let v := code_global e rf in
  x_seg_on x = true -> feature x (p_seg b) 5 = Ok fixed -> feature x (p_seg b) 6 = Ok (Some w) ->
  p_intrabc b = false -> 1 <= rf <= 7 -> env_ok e false -> around_ok e -> tables_right e -> arrays_ok (t_mv t) ->
  exists b' t', code_inter x b t es = Ok (es, b', t') /\ p_ref0 b' = rf /\ p_ref1 b' = -1 /\ fst (p_mvs b') = v /\ t_y_mode t' = 16 /\ t_idx t' = 0 /\
    let reader := av1_motion_segment fixed true u l size select (motion_env x (p_bsize b)) lists y int hp in
    (v = av1_global_mv e rf -> reads_as [] reader ((rf, -1), (16, 0), v)) /\ (v <> av1_global_mv e rf -> never_reads_as [] reader ((rf, -1), (16, 0), v)).
Proof. exact segment_motion_read. Qed.
Print Assumptions C104_segment_exactly.
Definition ex_segment_env (typ : Z) (p : list Z) (skip : option Z) : mode_env :=
  mkModeEnv ex_tile 4 4 true true ex_motion_mis true true
    true false true (repeat [None; None; None; None; None; None; skip] 8) (repeat false 8)
    false true false 3 false 1 true false 2 3 false false false (repeat typ 8) (repeat p 8) (ex_field (20, 4)).
Example C104_segment_case : features_ok (ex_segment_env 1 [2 ^ 14; 0; 2 ^ 16; 0; 0; 2 ^ 16] None) /\
  code_inter (ex_segment_env 1 [2 ^ 14; 0; 2 ^ 16; 0; 0; 2 ^ 16] None) (ex_motion_blk true true true [0; 0; 0] (0, 0)) ex_t [] = Panic /\
  (exists b' t', code_inter (ex_segment_env 1 [2 ^ 14; 0; 2 ^ 16; 0; 0; 2 ^ 16] (Some 0)) (ex_motion_blk true true true [0; 0; 0] (0, 0)) ex_t [] = Ok ([], b', t') /\ fst (p_mvs b') = (2, 0) /\
    reads_as [] (av1_motion_segment None true None None 3 false (motion_env (ex_segment_env 1 [2 ^ 14; 0; 2 ^ 16; 0; 0; 2 ^ 16] (Some 0)) 3) (fun _ => []) ex_own false false) ((1, -1), (16, 0), (2, 0))) /\
  exists b' t', code_inter (ex_segment_env 2 ex_turn (Some 0)) (ex_motion_blk true true true [0; 0; 0] (0, 0)) ex_t [] = Ok ([], b', t') /\ fst (p_mvs b') = (8, 20) /\
    never_reads_as [] (av1_motion_segment None true None None 3 false (motion_env (ex_segment_env 2 ex_turn (Some 0)) 3) (fun _ => []) ex_own false false) ((1, -1), (16, 0), (8, 20)).
Proof.
  split; [intros row H; apply repeat_spec in H; subst row; reflexivity|]. split; [vm_compute; reflexivity|]. split.
  - destruct (C104_segment_exactly (ex_segment_env 1 [2 ^ 14; 0; 2 ^ 16; 0; 0; 2 ^ 16] (Some 0)) (ex_motion_blk true true true [0; 0; 0] (0, 0)) ex_t [] None 0 None None 3 false ex_own false false (fun _ => []))
      as (b' & t' & E & _ & _ & V & _ & _ & R & _).
    1-4: reflexivity.
    { lia. }
    { exact ex_motion_env_ok. }
    { exact ex_motion_around. }
    { exact ex_motion_tables. }
    { exact ex_arrays. }
    change (p_bsize (ex_motion_blk true true true [0; 0; 0] (0, 0))) with 3 in *.
    assert (G : code_global (motion_env (ex_segment_env 1 [2 ^ 14; 0; 2 ^ 16; 0; 0; 2 ^ 16] (Some 0)) 3 1) 1 = (2, 0)) by (vm_compute; reflexivity). rewrite G in V, R.
    exists b', t'. split; [exact E|]. split; [exact V|]. apply R. vm_compute. reflexivity.
  - destruct (C104_segment_exactly (ex_segment_env 2 ex_turn (Some 0)) (ex_motion_blk true true true [0; 0; 0] (0, 0)) ex_t [] None 0 None None 3 false ex_own false false (fun _ => []))
      as (b' & t' & E & _ & _ & V & _ & _ & _ & R).
    1-4: reflexivity.
    { lia. }
    { exact (ex_warp_env_ok ex_turn (or_introl eq_refl)). }
    { exact (ex_warp_around ex_turn). }
    { exact (ex_warp_tables ex_turn). }
    { exact ex_arrays. }
    change (p_bsize (ex_motion_blk true true true [0; 0; 0] (0, 0))) with 3 in *.
    assert (G : code_global (motion_env (ex_segment_env 2 ex_turn (Some 0)) 3 1) 1 = (8, 20)) by (vm_compute; reflexivity). rewrite G in V, R.
    exists b', t'. split; [exact E|]. split; [exact V|]. apply R. vm_compute. discriminate.
Qed.
