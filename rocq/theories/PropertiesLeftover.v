(** Property C117: the vector of a block and the lists of earlier blocks; C112 for blocks
    with fewer than two candidates. *)
From Coq Require Import String ZArith List Bool Lia.
From Verif Require Import Base TableLemmas BlockTables GeomModel SeqSpec ContextModel ContextSpec ContextProofs MvStackModel MvStackSpec MvStackExamples MvFindProofs
  ModeInfoModel ModeInfoSpec ModeInfoProofs ModeIndexProofs MvAssignProofs MotionSpec PairSpec AnyMotionSpec LeftoverSpec LeftoverProofs PairFewProofs PropertiesModeInfo PropertiesMotion PropertiesPair.
Import ListNotations.
Open Scope string_scope.
Open Scope list_scope.
Open Scope Z_scope.

(** The list of candidates is not cleared: entries beyond the candidates found are those
    of earlier blocks. *)
Theorem C117_not_cleared : forall e c s s', find_mv_stack e c s = Ok s' ->
  0 <= s_num s' /\ length (s_stack s') = length (s_stack s) /\ forall k, s_num s' <= Z.of_nat k -> nth_error (s_stack s') k = nth_error (s_stack s) k.
Proof. exact find_keeps. Qed.
Print Assumptions C117_not_cleared.

(** The vector of a block with one reference (no new vector) is its own, that is the same
    whatever list earlier blocks left, exactly if there is a candidate for its mode. *)
Theorem C117_own_iff : forall x b t es r0 c0,
  let rf := p_ref0 b in let e := motion_env x (p_bsize b) rf in let m := mode_of_flags (p_new_mv b) (p_zero_mv b) (p_ref_mv b) in
  let num := len (own_candidates e (code_global e rf)) in
  x_seg_on x = false -> p_intrabc b = false -> frame_ok (x_frame x) (x_row x) (x_col x) -> inner r0 c0 (x_row x) (x_col x) -> 0 <= p_bsize b < 22 ->
  1 <= rf <= 7 -> (p_comp_mode b = 0 \/ x_ref_select x && large_enough (p_bsize b) = false) ->
  env_ok e false -> around_ok e -> tables_right e ->
  (3 <= List.length (p_drl b))%nat -> (3 <= List.length (t_drl_ctx t))%nat -> m <> New ->
  ((forall s1 s2 es1 b1 t1 es2 b2 t2, arrays_ok s1 -> arrays_ok s2 -> code_inter x b (with_list s1 t) es = Ok (es1, b1, t1) -> code_inter x b (with_list s2 t) es = Ok (es2, b2, t2) ->
     fst (p_mvs b1) = fst (p_mvs b2)) <-> listed m num).
Proof. exact vector_own_iff. Qed.
Print Assumptions C117_own_iff.

(** Without one (the case C104 leaves out) the prediction [p] is the entry an earlier block
    left, and a decoder, which has the global vector there, reads the block back exactly if
    the two happen to be equal. *)
Theorem C117_leftover_exactly : forall x b t es r0 c0 y (int hp : bool) (lists : Z -> list (Z * Z)),
  let rf := p_ref0 b in let e := motion_env x (p_bsize b) rf in let m := mode_of_flags (p_new_mv b) (p_zero_mv b) (p_ref_mv b) in
  let g := code_global e rf in let cs := own_candidates e g in let num := len cs in
  let own := mkModeCtx (t_new_ctx t) (zero_context (plain e) false (g, (0, 0))) (t_ref_ctx t) (t_drl_ctx t) in
  let i := Z.of_nat (first_entry m) in let p := fst (nth (first_entry m) (s_stack (t_mv t)) ((0, 0), (0, 0))) in
  x_seg_on x = false -> p_intrabc b = false -> frame_ok (x_frame x) (x_row x) (x_col x) -> inner r0 c0 (x_row x) (x_col x) -> 0 <= p_bsize b < 22 ->
  1 <= rf <= 7 -> (p_comp_mode b = 0 \/ x_ref_select x && large_enough (p_bsize b) = false) ->
  env_ok e false -> around_ok e -> tables_right e -> arrays_ok (t_mv t) ->
  (3 <= List.length (p_drl b))%nat -> (3 <= List.length (t_drl_ctx t))%nat ->
  mode_contexts m num (p_drl b) y own -> ~ listed m num -> let v := if is_new m then fst (p_mvs b) else p in (m = New -> vec_small (fst (p_mvs b)) /\ vec_small p) ->
  (m = Near -> len (lists rf) <= 2) -> (m = New -> len (lists rf) <= 1) -> let d := av1_global_mv e rf in let p' := av1_pred m i (len (lists rf)) (filled (lists rf) d) d in
  exists ds b' t', code_inter x b t es = Ok ((es ++ ds)%list, b', t') /\
    p_ref0 b' = rf /\ p_ref1 b' = -1 /\ fst (p_mvs b') = v /\ t_y_mode t' = single_mode m /\ t_idx t' = i /\
    let reader := av1_motion_filled (above_of (x_frame x) r0 (x_row x) (x_col x)) (left_of (x_frame x) c0 (x_row x) (x_col x)) (p_bsize b) (x_ref_select x)
                    (motion_env x (p_bsize b)) lists y int hp in
    (v = p /\ v = p' -> reads_as ds reader ((rf, -1), (single_mode m, i), v)) /\
    (~ (v = p /\ v = p') -> never_reads_as ds reader ((rf, -1), (single_mode m, i), v)).
Proof. exact leftover_read. Qed.
Print Assumptions C117_leftover_exactly.

(** The block of C104_case is followed (in the same place, for short) by a block with
    another reference, for which there is one candidate, and the mode NEARMV. *)
Definition ex_left_blk : blk := mkBlk 3 0 false 5 40 [0; 0; 0; 0] true 2 (-1) 0 0 0 true true true [0; 0; 0] false ((0, 0), (0, 0)).
Definition ex_left_state : mode_state :=
  match code_inter ex_motion_env (ex_motion_blk true true true [0; 1; 0] (4, 4)) ex_t [] with Ok (_, _, t) => t | _ => ex_t end.
Lemma ex_left_env_ok : env_ok (motion_env ex_motion_env 3 2) false.
Proof.
  constructor; cbn [motion_env ex_motion_env v_size v_ref0 v_ref1 v_gm_type v_gm_params v_tile v_row v_col v_field x_tile x_row x_col x_gm_type x_gm_params x_field ex_tile
    e_row_start e_row_end e_col_start e_col_end e_mi_rows e_mi_cols]; try lia.
  - reflexivity.
  - unfold ex_params. small_params.
  - intros r c b H. exact (proj1 (ex_nbrs _ _ _ _ H ex_motion_same)).
  - split; [reflexivity|]. intros f H. apply repeat_spec in H. subst f. split; [vm_compute; discriminate|].
    intros r H. apply repeat_spec in H. subst r. split; [vm_compute; discriminate|]. apply Forall_forall. intros m' H. apply repeat_spec in H. subst m'.
    unfold mv_ok. cbn [fst snd]. lia.
Qed.
Lemma ex_left_around : around_ok (motion_env ex_motion_env 3 2).
Proof.
  constructor.
  - change (bw4 (motion_env ex_motion_env 3 2)) with 2. intros i H _. assert (i = 0 \/ i = 1) as [-> | ->] by lia; eexists; reflexivity.
  - change (bh4 (motion_env ex_motion_env 3 2)) with 2. intros i H _. assert (i = 0 \/ i = 1) as [-> | ->] by lia; eexists; reflexivity.
  - intros _. split; [cbn; lia|]. eexists. split; [reflexivity|]. cbn. lia.
Qed.
Lemma ex_left_tables : tables_right (motion_env ex_motion_env 3 2).
Proof. split; [unfold table_right; cbn; lia|]. intros r c b H. exact (proj2 (ex_nbrs _ _ _ _ H ex_motion_same)). Qed.
Definition ex_left_own : mode_ctx := mkModeCtx 0 1 0 [0; 0; 0; 0; 0; 0; 0; 0].
Definition ex_left_reader : list ev -> option (((Z * Z) * (Z * Z) * (Z * Z)) * list ev) :=
  av1_motion_filled (above_of (x_frame ex_motion_env) 0 4 4) (left_of (x_frame ex_motion_env) 0 4 4) 3 false (motion_env ex_motion_env 3) (fun _ => [(20, 4)]) ex_left_own false false.

Definition ds_of (r : res (list ev * blk * mode_state)) : list ev := match r with Ok (ds, _, _) => ds | _ => [] end.
Definition ex_left_ds : list ev :=
  [ESym "single_ref" [2; 0] 0; ESym "single_ref" [2; 2] 0; ESym "single_ref" [2; 3] 1; ESym "new_mv" [0] 1; ESym "zero_mv" [1] 1; ESym "ref_mv" [0] 1].
Lemma ex_left_written : ds_of (code_inter ex_motion_env ex_left_blk ex_left_state []) = ex_left_ds.
Proof. vm_compute. reflexivity. Qed.
Lemma ex_left_global : reads_as ex_left_ds ex_left_reader ((2, -1), (15, 1), (2, 0)).
Proof. intros more. vm_compute. reflexivity. Qed.

(** It takes the second candidate of that block, (2, 4); a decoder has (2, 0). *)
Theorem C117_refuted : exists x b1 b2 t es1 c1 t1 ds c2 t2, code_inter x b1 t [] = Ok (es1, c1, t1) /\ code_inter x b2 t1 [] = Ok (ds, c2, t2) /\
  p_ref0 b1 <> p_ref0 b2 /\ fst (p_mvs c2) = (2, 4) /\ nth 1 (candidates (motion_env x (p_bsize b1) (p_ref0 b1)) (p_ref0 b1)) (0, 0) = (2, 4) /\
  candidates (motion_env x (p_bsize b2) (p_ref0 b2)) (p_ref0 b2) = [(20, 4)] /\
  never_reads_as ds ex_left_reader ((2, -1), (15, 1), (2, 4)) /\ reads_as ds ex_left_reader ((2, -1), (15, 1), (2, 0)).
Proof.
  exists ex_motion_env, (ex_motion_blk true true true [0; 1; 0] (4, 4)), ex_left_blk, ex_t.
  assert (C : candidates (motion_env ex_motion_env 3 2) 2 = [(20, 4)]) by (vm_compute; reflexivity).
  assert (ST : s_stack (t_mv ex_left_state) = [((6, 0), (0, 0)); ((2, 4), (0, 0)); ((-8, 2), (0, 0)); ((20, 4), (0, 0)); ((0, 0), (0, 0)); ((0, 0), (0, 0)); ((0, 0), (0, 0)); ((0, 0), (0, 0))]) by (vm_compute; reflexivity).
  pose proof (C117_leftover_exactly ex_motion_env ex_left_blk ex_left_state [] 0 0 ex_left_own false false (fun _ => [(20, 4)])) as H.
  cbv zeta in H. cbn [ex_left_blk p_ref0 p_bsize p_new_mv p_zero_mv p_ref_mv p_drl p_mvs p_intrabc p_comp_mode fst] in H.
  assert (G : code_global (motion_env ex_motion_env 3 2) 2 = (2, 0)) by (vm_compute; reflexivity). rewrite G in H.
  assert (C' : own_candidates (motion_env ex_motion_env 3 2) (2, 0) = [(20, 4)]) by (vm_compute; reflexivity). rewrite C' in H.
  destruct H as (ds & b' & t' & E & _ & _ & F & _ & _ & _ & R2).
  - reflexivity.
  - reflexivity.
  - exact ex_motion_frame.
  - split; left; reflexivity.
  - lia.
  - lia.
  - left; reflexivity.
  - exact ex_left_env_ok.
  - exact ex_left_around.
  - exact ex_left_tables.
  - unfold arrays_ok. split; vm_compute; reflexivity.
  - cbn; lia.
  - vm_compute. lia.
  - split; [vm_compute; reflexivity|]. split; [intros _; vm_compute; reflexivity|]. split; [intros _; vm_compute; reflexivity|]. intros j J. exfalso. revert J. vm_compute. tauto.
  - cbn. intros Q. discriminate Q.
  - discriminate.
  - intros _. discriminate.
  - discriminate.
  - assert (E1 : exists es1 c1, code_inter ex_motion_env (ex_motion_blk true true true [0; 1; 0] (4, 4)) ex_t [] = Ok (es1, c1, ex_left_state)).
    { unfold ex_left_state. destruct (code_inter ex_motion_env (ex_motion_blk true true true [0; 1; 0] (4, 4)) ex_t []) as [[[a c] t]| |] eqn:Q; [do 2 eexists; reflexivity|vm_compute in Q; discriminate Q|vm_compute in Q; discriminate Q]. }
    destruct E1 as (es1 & c1 & E1). exists es1, c1, ex_left_state, ds, b', t'. split; [exact E1|]. split; [exact E|]. split; [cbn; discriminate|].
    rewrite ST in F. split; [exact F|]. split; [vm_compute; reflexivity|]. split; [exact C|]. split.
    + unfold ex_left_reader. rewrite ST in R2. apply R2. vm_compute. intros [_ Q]. discriminate Q.
    + pose proof ex_left_written as D. change (code_inter ex_motion_env ex_left_blk ex_left_state [] = Ok (ds, b', t')) in E. rewrite E in D.
      change (ds = ex_left_ds) in D. rewrite D. exact ex_left_global.
Qed.
Print Assumptions C117_refuted.

(** Two references and fewer than two candidates (the case C112_exactly leaves out).  The
    list a decoder has is of length two: it is filled up. *)
Theorem C112_few_exactly : forall x b t es r0 c0 (int hp : bool) lists,
  let ra := p_ref0 b in let rb := p_ref1 b in let e := pair_env x (p_bsize b) ra rb in
  let ga := code_global e ra in let gb := code_global e rb in let cs := own_pairs e (ga, gb) in
  let y := mkModeCtx (t_new_ctx t) (zero_context (plain e) true (ga, gb)) (t_ref_ctx t) (t_drl_ctx t) in
  let old := t_y_mode t in let i := if old =? 15 then 1 else 0 in
  let held := cs ++ skipn (length cs) (s_stack (t_mv t)) in
  let p := match old_mode old with Global => ga | m => fst (nth (first_entry m) held ((0, 0), (0, 0))) end in
  x_seg_on x = false -> p_intrabc b = false -> frame_ok (x_frame x) (x_row x) (x_col x) -> inner r0 c0 (x_row x) (x_col x) -> 0 <= p_bsize b < 22 ->
  p_comp_mode b = 1 -> x_ref_select x && large_enough (p_bsize b) = true ->
  (p_comp_ref_type b = 0 /\ unidir_pair ra rb \/ p_comp_ref_type b = 1 /\ bidir_pair ra rb) ->
  env_ok e true -> around_ok e -> tables_right e -> arrays_ok (t_mv t) ->
  (3 <= List.length (p_drl b))%nat -> (3 <= List.length (t_drl_ctx t))%nat -> 0 <= t_ref_ctx t < 6 -> 0 <= t_new_ctx t < 6 ->
  18 <= p_mode b <= 25 -> In old [0; 14; 15; 16; 17] -> len cs <= 1 -> len (lists (ra, rb)) = 2 ->
  (old = 17 -> vec_small (fst (p_mvs b)) /\ vec_small p) ->
  let da := av1_global_mv e ra in let db := av1_global_mv e rb in
  let v := if old =? 17 then fst (p_mvs b) else p in
  let want := fun m (second : bool) => av1_pred m i 2 (map (if second then snd else fst) (lists (ra, rb))) (if second then db else da) in
  let u := above_of (x_frame x) r0 (x_row x) (x_col x) in let l := left_of (x_frame x) c0 (x_row x) (x_col x) in
  let good := readable_pair (p_comp_ref_type b) ra rb /\ ~ both_uni_above u l /\ (kind_ok old (p_mode b) \/ (p_mode b = 20 \/ p_mode b = 21) /\ old = 17 /\ v = p) /\
    exists m0 m1, modes_of (p_mode b) = Some (m0, m1) /\ v = want m0 false /\ gb = want m1 true in
  exists ds b' t', code_inter x b t es = Ok (es ++ ds, b', t') /\
    p_ref0 b' = ra /\ p_ref1 b' = rb /\ p_mvs b' = (v, gb) /\ p_mode b' = 16 /\ t_y_mode t' = old /\ t_idx t' = i /\
    let reader := av1_pair_motion u l (p_bsize b) (x_ref_select x) (pair_env x (p_bsize b)) lists y int hp in
    (good -> reads_as ds reader ((ra, rb), (p_mode b, i), (v, gb))) /\ (~ good -> never_reads_as ds reader ((ra, rb), (p_mode b, i), (v, gb))).
Proof. exact pair_few. Qed.
Print Assumptions C112_few_exactly.

(** The references 3 and 7, which no neighbour has: one candidate, from the field of
    motion. *)
Definition ex_few_blk (mode : Z) : blk := mkBlk 3 0 false 5 40 [0; 0; 0; 0] true 3 7 1 1 mode false false false [1; 1; 0] false ((7, 3), (1, 1)).
Definition ex_few_list : list (mv * mv) := [((20, 4), (20, 4)); ((2, 0), (2, 0))].
Lemma ex_few_candidates : own_pairs (pair_env ex_pair_env 3 3 7) ((2, 0), (2, 0)) = [((20, 4), (20, 4))].
Proof. vm_compute. reflexivity. Qed.
Definition ex_few_state (old : Z) : mode_state :=
  mkModeState false (mkMvState 0 0 false (repeat ((-8, 2), (4, 4)) 8) (repeat 0 8) ((0, 0), (0, 0)) 0 0) old 0 0 [0; 0; 0; 0; 0; 0; 0; 0] 0 ((0, 0), (0, 0)) 40 [0; 0; 0; 0] false [].
Lemma ex_few_env_ok : env_ok (pair_env ex_pair_env 3 3 7) true.
Proof.
  constructor; cbn [pair_env ex_pair_env v_size v_ref0 v_ref1 v_gm_type v_gm_params v_tile v_row v_col v_field x_tile x_row x_col x_gm_type x_gm_params x_field ex_tile
    e_row_start e_row_end e_col_start e_col_end e_mi_rows e_mi_cols]; try lia.
  - reflexivity.
  - unfold ex_params. small_params.
  - intros r c b H. exact (proj1 (ex_pair_nbrs _ _ _ H)).
  - split; [reflexivity|]. intros f H. apply repeat_spec in H. subst f. split; [vm_compute; discriminate|].
    intros r H. apply repeat_spec in H. subst r. split; [vm_compute; discriminate|]. apply Forall_forall. intros m' H. apply repeat_spec in H. subst m'.
    unfold mv_ok. cbn [fst snd]. lia.
Qed.
Lemma ex_few_around : around_ok (pair_env ex_pair_env 3 3 7).
Proof.
  constructor.
  - change (bw4 (pair_env ex_pair_env 3 3 7)) with 2. intros i H _. assert (i = 0 \/ i = 1) as [-> | ->] by lia; eexists; reflexivity.
  - change (bh4 (pair_env ex_pair_env 3 3 7)) with 2. intros i H _. assert (i = 0 \/ i = 1) as [-> | ->] by lia; eexists; reflexivity.
  - intros _. split; [cbn; lia|]. eexists. split; [reflexivity|]. cbn. lia.
Qed.
Lemma ex_few_tables : tables_right (pair_env ex_pair_env 3 3 7).
Proof. split; [unfold table_right; cbn; lia|]. intros r c b H. exact (proj2 (ex_pair_nbrs _ _ _ H)). Qed.
Definition ex_few_reader (l : list (mv * mv)) : list ev -> option (((Z * Z) * (Z * Z) * (mv * mv)) * list ev) :=
  av1_pair_motion (above_of (x_frame ex_pair_env) 0 4 4) (left_of (x_frame ex_pair_env) 0 4 4) 3 true (pair_env ex_pair_env 3) (fun _ => l)
    (mkModeCtx 0 (zero_context (pair_env ex_pair_env 3 3 7) true ((2, 0), (2, 0))) 0 [0; 0; 0; 0; 0; 0; 0; 0]) false false.
Lemma ex_few_holds : forall old mode l, In old [0; 14; 15; 16; 17] -> 18 <= mode <= 25 -> len l = 2 ->
  let p := match old_mode old with Global => (2, 0) | m => fst (nth (first_entry m) (((20, 4), (20, 4)) :: repeat ((-8, 2), (4, 4)) 7) ((0, 0), (0, 0))) end in
  let v := if old =? 17 then (7, 3) else p in let i := if old =? 15 then 1 else 0 in
  let good := (kind_ok old mode \/ (mode = 20 \/ mode = 21) /\ old = 17 /\ v = p) /\
    exists m0 m1, modes_of mode = Some (m0, m1) /\ v = av1_pred m0 i 2 (map fst l) (2, 0) /\ (2, 0) = av1_pred m1 i 2 (map snd l) (2, 0) in
  exists ds b' t', code_inter ex_pair_env (ex_few_blk mode) (ex_few_state old) [] = Ok (ds, b', t') /\ p_mvs b' = (v, (2, 0)) /\
    (good -> reads_as ds (ex_few_reader l) ((3, 7), (mode, i), p_mvs b')) /\
    (~ good -> never_reads_as ds (ex_few_reader l) ((3, 7), (mode, i), p_mvs b')).
Proof.
  intros old mode l O M L p v i good.
  assert (G : forall r, r = 3 \/ r = 7 -> av1_global_mv (pair_env ex_pair_env 3 3 7) r = (2, 0)) by (intros r [-> | ->]; vm_compute; reflexivity).
  assert (G' : forall r, r = 3 \/ r = 7 -> code_global (pair_env ex_pair_env 3 3 7) r = (2, 0)) by (intros r [-> | ->]; vm_compute; reflexivity).
  pose proof (C112_few_exactly ex_pair_env (ex_few_blk mode) (ex_few_state old) [] 0 0 false false (fun _ => l)) as H. cbv zeta in H.
  change (p_ref0 (ex_few_blk mode)) with 3 in H. change (p_ref1 (ex_few_blk mode)) with 7 in H. change (p_bsize (ex_few_blk mode)) with 3 in H.
  change (t_y_mode (ex_few_state old)) with old in H. change (p_mode (ex_few_blk mode)) with mode in H. rewrite (G 3), (G 7), (G' 3), (G' 7) in H by tauto. rewrite (ex_few_candidates : own_pairs (pair_env ex_pair_env 3 3 7) (@pair mv mv (2, 0) (2, 0)) = _) in H.
  change ([((20, 4), (20, 4))] ++ skipn (Datatypes.length [((20, 4), (20, 4))]) (s_stack (t_mv (ex_few_state old)))) with (((20, 4), (20, 4)) :: repeat ((-8, 2), (4, 4)) 7) in H.
  change (fst (p_mvs (ex_few_blk mode))) with (7, 3) in H. fold p in H. fold v in H. fold i in H.
  destruct H as (ds & b' & t' & E & _ & _ & V & _ & _ & _ & RG & RB).
  - reflexivity.
  - reflexivity.
  - exact ex_pair_frame.
  - split; left; reflexivity.
  - lia.
  - reflexivity.
  - reflexivity.
  - right. split; [reflexivity|]. unfold bidir_pair. cbn. lia.
  - exact ex_few_env_ok.
  - exact ex_few_around.
  - exact ex_few_tables.
  - split; reflexivity.
  - cbn; lia.
  - cbn; lia.
  - cbn; lia.
  - cbn; lia.
  - exact M.
  - exact O.
  - cbn; lia.
  - exact L.
  - intros X. subst old. split; [unfold vec_small; cbn; lia|]. vm_compute. repeat split.
  - exists ds, b', t'. split; [exact E|]. rewrite V. split; [reflexivity|].
    split; intros Q; [apply RG|apply RB].
    + destruct Q as [Q1 Q2]. split; [right; split; [reflexivity|cbn; tauto]|]. split; [intros B; vm_compute in B; decompose [and] B; discriminate|]. split; [exact Q1|exact Q2].
    + intros (_ & _ & Q1 & Q2). apply Q. split; [exact Q1|exact Q2].
Qed.

(** After a block with the mode NEARMV it is the vector (-8, 2), which an earlier block
    left, and a decoder does not find that; after a block with the mode GLOBALMV a block
    with global motion for both references is read back. *)
Example C112_few_case : exists ds b' t' ds1 b1 t1,
  code_inter ex_pair_env (ex_few_blk 19) (ex_few_state 15) [] = Ok (ds, b', t') /\ p_mvs b' = ((-8, 2), (2, 0)) /\
  never_reads_as ds (ex_few_reader ex_few_list) ((3, 7), (19, 1), ((-8, 2), (2, 0))) /\
  code_inter ex_pair_env (ex_few_blk 24) (ex_few_state 16) [] = Ok (ds1, b1, t1) /\ reads_as ds1 (ex_few_reader ex_few_list) ((3, 7), (24, 0), ((2, 0), (2, 0))).
Proof.
  destruct (ex_few_holds 15 19 ex_few_list) as (ds & b' & t' & E & V & _ & R); [cbn; tauto|lia|reflexivity|].
  destruct (ex_few_holds 16 24 ex_few_list) as (ds1 & b1 & t1 & E1 & V1 & R1 & _); [cbn; tauto|lia|reflexivity|].
  exists ds, b', t', ds1, b1, t1. split; [exact E|]. split; [exact V|]. rewrite V in R. rewrite V1 in R1. split; [|split; [exact E1|]].
  - apply R. intros (_ & m0 & m1 & Q & Q1 & Q2). injection Q as <- <-. discriminate Q1.
  - apply R1. split; [left; unfold kind_ok; lia|]. exists Global, Global. split; [reflexivity|]. split; reflexivity.
Qed.
