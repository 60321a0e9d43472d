(** Proofs about the entries earlier blocks left in the list of candidates (C117). *)
From Coq Require Import String ZArith List Bool Lia ZifyBool ZifyNat.
From Verif Require Import Base BaseProofs TableLemmas SeqSpec UtilModel SessionModel BlockTables GeomModel ContextModel ContextSpec ContextProofs MvStackModel MvStackSpec MvFindProofs ModeInfoModel ModeInfoSpec
  ModeInfoProofs ModeIndexProofs ModeWholeProofs FloorProofs MvAssignProofs MotionSpec MotionProofs AnyMotionSpec AnyMotionProofs LeftoverSpec.
Import ListNotations.
Open Scope Z_scope.

(** ** Entries beyond those found stay *)
Definition keeps (s s' : mv_state) : Prop :=
  0 <= s_num s -> s_num s <= s_num s' /\ length (s_stack s') = length (s_stack s) /\
  forall k, s_num s' <= Z.of_nat k -> nth_error (s_stack s') k = nth_error (s_stack s) k.
Lemma keeps_same : forall s s', s_num s' = s_num s -> s_stack s' = s_stack s -> keeps s s'.
Proof. intros s s' A B P. rewrite A, B. split; [lia|]. split; reflexivity. Qed.
Lemma keeps_refl : forall s, keeps s s.
Proof. intros s. now apply keeps_same. Qed.
Lemma keeps_trans : forall a b c, keeps a b -> keeps b c -> keeps a c.
Proof.
  intros a b c H1 H2 P. destruct (H1 P) as (A1 & A2 & A3). destruct (H2 ltac:(lia)) as (B1 & B2 & B3).
  split; [lia|]. split; [lia|]. intros k K. rewrite B3 by lia. apply A3. lia.
Qed.
Lemma set_nth_err : forall (A : Type) (l : list A) i k v, i <> k -> nth_error (set_nth i v l) k = nth_error l k.
Proof. induction l as [|a l IH]; intros [|i] [|k] v H; cbn; try reflexivity; try contradiction. apply IH. lia. Qed.
Lemma keeps_add : forall c m w s s', stack_add c m w s = Ok s' -> keeps s s'.
Proof.
  intros c m w s s' H. unfold stack_add in H. bi H. destruct (a <? s_num s).
  - bi H. bi H. injection H as <-. now apply keeps_same.
  - destruct (s_num s <? MAX_REF_MV_STACK_SIZE); [|injection H as <-; apply keeps_refl].
    bi H. bi H. injection H as <-. intros P. cbn [set_list s_num s_stack]. split; [lia|]. split; [apply set_nth_len|].
    intros k K. apply set_nth_err. lia.
Qed.
Lemma keeps_count : forall m s s', count_new m s = Ok s' -> keeps s s'.
Proof. intros m s s' H. unfold count_new in H. destruct (has_newmv m); [bi H|]; injection H as <-; now apply keeps_same. Qed.
Lemma keeps_search : forall e b m w s s', search_stack e b m w s = Ok s' -> keeps s s'.
Proof.
  intros e b m w s s' H. unfold search_stack in H. do 4 (bi H). bi H. eapply keeps_trans; [exact (keeps_count _ _ _ E3)|].
  eapply keeps_trans; [|exact (keeps_add _ _ _ _ _ H)]. now apply keeps_same.
Qed.
Lemma keeps_compound : forall e b w s s', compound_search_stack e b w s = Ok s' -> keeps s s'.
Proof.
  intros e b w s s' H. unfold compound_search_stack in H. bi H. destruct a as [c0 c1]. do 2 (bi H). bi H.
  eapply keeps_trans; [|exact (keeps_count _ _ _ H)]. eapply keeps_trans; [|exact (keeps_add _ _ _ _ _ E2)]. now apply keeps_same.
Qed.
Lemma keeps_candidate : forall e c w b s s', add_ref_mv_candidate e c w b s = Ok s' -> keeps s s'.
Proof.
  intros e c w b s s' H. unfold add_ref_mv_candidate in H. destruct (b_is_inter b); [|injection H as <-; apply keeps_refl].
  destruct (negb c).
  - bi H. apply keeps_trans with a.
    + destruct (b_ref0 b =? v_ref0 e); [exact (keeps_search _ _ _ _ _ _ E)|injection E as <-; apply keeps_refl].
    + destruct (b_ref1 b =? v_ref0 e); [exact (keeps_search _ _ _ _ _ _ H)|injection H as <-; apply keeps_refl].
  - destruct (_ && _); [exact (keeps_compound _ _ _ _ _ H)|injection H as <-; apply keeps_refl].
Qed.
Lemma keeps_row : forall n e c bw4 end4 i s s', scan_row_loop n e c bw4 end4 i s = Ok s' -> keeps s s'.
Proof.
  induction n as [|n IH]; intros e c bw4 end4 i s s' H; cbn [scan_row_loop] in H; (destruct (i <? end4); [|injection H as <-; apply keeps_refl]); [discriminate|].
  destruct (negb _); [injection H as <-; apply keeps_refl|]. bi H. bi H. bi H. eapply keeps_trans; [exact (keeps_candidate _ _ _ _ _ _ E1)|exact (IH _ _ _ _ _ _ _ H)].
Qed.
Lemma keeps_col : forall n e c bw4 end4 i s s', scan_col_loop n e c bw4 end4 i s = Ok s' -> keeps s s'.
Proof.
  induction n as [|n IH]; intros e c bw4 end4 i s s' H; cbn [scan_col_loop] in H; (destruct (i <? end4); [|injection H as <-; apply keeps_refl]); [discriminate|].
  destruct (negb _); [injection H as <-; apply keeps_refl|]. bi H. bi H. bi H. eapply keeps_trans; [exact (keeps_candidate _ _ _ _ _ _ E1)|exact (IH _ _ _ _ _ _ _ H)].
Qed.
Lemma keeps_sample : forall e c dr dc s s', temporal_sample e c dr dc s = Ok s' -> keeps s s'.
Proof.
  intros e c dr dc s s' H. unfold temporal_sample in H. destruct (is_inside _ _ _); [|injection H as <-; apply keeps_refl].
  set (s1 := if (dr =? 0) && (dc =? 0) then set_zero 1 s else s) in *.
  assert (K : keeps s s1) by (unfold s1; destruct (_ && _); [now apply keeps_same|apply keeps_refl]). apply (keeps_trans s s1 s' K). clearbody s1. clear K.
  destruct (negb c).
  - bi H. destruct (fst a =? INVALID_MV); [injection H as <-; apply keeps_refl|]. bi H. bi H.
    eapply keeps_trans; [|exact (keeps_add _ _ _ _ _ H)]. destruct (_ && _); [bi E1|]; injection E1 as <-; now apply keeps_same.
  - bi H. bi H. destruct (_ || _); [injection H as <-; apply keeps_refl|]. bi H. bi H. bi H.
    eapply keeps_trans; [|exact (keeps_add _ _ _ _ _ H)]. destruct (_ && _); [bi E3; bi E3|]; injection E3 as <-; now apply keeps_same.
Qed.
Lemma keeps_cols : forall n e c dr st lim dc s s', temporal_cols n e c dr st lim dc s = Ok s' -> keeps s s'.
Proof.
  induction n as [|n IH]; intros e c dr st lim dc s s' H; cbn [temporal_cols] in H; (destruct (dc <? lim); [|injection H as <-; apply keeps_refl]); [discriminate|].
  bi H. eapply keeps_trans; [exact (keeps_sample _ _ _ _ _ _ E)|exact (IH _ _ _ _ _ _ _ _ H)].
Qed.
Lemma keeps_rows : forall n e c sr lr sc lc dr s s', temporal_rows n e c sr lr sc lc dr s = Ok s' -> keeps s s'.
Proof.
  induction n as [|n IH]; intros e c sr lr sc lc dr s s' H; cbn [temporal_rows] in H; (destruct (dr <? lr); [|injection H as <-; apply keeps_refl]); [discriminate|].
  bi H. eapply keeps_trans; [exact (keeps_cols _ _ _ _ _ _ _ _ _ E)|exact (IH _ _ _ _ _ _ _ _ _ H)].
Qed.
Lemma find_keeps : forall e c s s', find_mv_stack e c s = Ok s' ->
  0 <= s_num s' /\ length (s_stack s') = length (s_stack s) /\ forall k, s_num s' <= Z.of_nat k -> nth_error (s_stack s') k = nth_error (s_stack s) k.
Proof.
  intros e c s s' H. unfold find_mv_stack in H. bi H. bi H. bi H. rename a1 into s1. bi H. rename a1 into s2. bi H. rename a1 into s3. bi H. rename a1 into s4. bi H.
  set (s0 := set_new 0 (set_list 0 (s_stack s) (s_weights s) s)) in *.
  assert (K : keeps s0 s').
  { apply keeps_trans with s1; [unfold setup_global_mvs in E1; bi E1; destruct c; [bi E1|]; injection E1 as <-; now apply keeps_same|].
    apply keeps_trans with s2; [unfold scan_row in E2; bi E2; bi E2; eapply keeps_trans; [|exact (keeps_row _ _ _ _ _ _ _ _ E2)]; now apply keeps_same|].
    apply keeps_trans with s3; [unfold scan_col in E3; bi E3; bi E3; eapply keeps_trans; [|exact (keeps_col _ _ _ _ _ _ _ _ E3)]; now apply keeps_same|].
    apply keeps_trans with s4.
    - apply keeps_trans with (set_found false s3); [now apply keeps_same|]. destruct (_ <=? 16); [|injection E4 as <-; apply keeps_refl].
      unfold scan_point in E4. bi E4. destruct (_ && _); [exact (keeps_candidate _ _ _ _ _ _ E4)|injection E4 as <-; apply keeps_refl].
    - eapply keeps_trans; [|exact (keeps_rows _ _ _ _ _ _ _ _ _ _ H)]. now apply keeps_same. }
  destruct (K ltac:(reflexivity)) as (A & B & C). change (s_num s0) with 0 in A. split; [exact A|]. split; [exact B|]. exact C.
Qed.

(** ** The vector of a mode without a candidate *)
Lemma assign_with s y row start sb i m mvs pred mode es int hp p : y = single_mode m ->
  pred_mvs (mkMvIn (single_mode m) false (s_num s) i (s_stack s) (s_global s) row start sb) 0 (single_mode m) pred = Ok (p, snd pred) ->
  let v := if is_new m then fst mvs else p in
  (m = New -> vec_small (fst mvs) /\ vec_small p) ->
  exists ds, assign_mv false (mkMvIn y false (s_num s) i (s_stack s) (s_global s) row start sb) mvs pred mode es =
    Ok ((es ++ ds)%list, (v, snd mvs), (p, snd pred), single_mode m) /\
    forall p', (v = p /\ v = p' -> reads_as ds (av1_list_mv m 0 int hp p') v) /\
      (~ (v = p /\ v = p') -> never_reads_as ds (av1_list_mv m 0 int hp p') v).
Proof.
  intros Y P v E. unfold assign_mv. cbn [assign_mv_loop n_intrabc n_y_mode]. rewrite Y.
  assert (M : get_mode (single_mode m) 0 = single_mode m) by (destruct m; reflexivity). rewrite M.
  rewrite P. cbn [bind]. rewrite single_new. destruct mvs as [w0 w1]. cbn [fst snd] in *. unfold reads_as, never_reads_as. destruct m; cbn [is_new] in *; subst v.
  1-3: exists []; rewrite app_nil_r; split; [reflexivity|]; intros p'; split; [intros [_ <-] k; reflexivity|intros H k Q; apply H; split; [reflexivity|cbn in Q; congruence]].
  destruct (E eq_refl) as [[S1 S2] [P1 P2]]. rewrite (diff_ok _ _ S1 P1). cbn [bind]. rewrite (diff_ok _ _ S2 P2). cbn [bind].
  unfold encode_mv_joint, emit. cbn [bind]. fold (joint 0 (fst w0 - fst p, snd w0 - snd p)). eexists. split; [reflexivity|]. cbn [av1_list_mv app].
  intros p'. split.
  - intros [H1 H2] k. rewrite (proj2 (mv_diff w0 p) H1), joint_zero. rewrite H2. reflexivity.
  - intros H k Q. destruct (Z.eq_dec (fst w0 - fst p) 0) as [X|X], (Z.eq_dec (snd w0 - snd p) 0) as [Y1|Y1].
    1: { rewrite X, Y1, joint_zero in Q. apply H. split; [|congruence]. apply mv_diff. congruence. }
    all: apply joint_short in Q; [lia|]; intros D; injection D; intros; contradiction.
Qed.

Lemma leftover_pred s0 s m i pred row start sb g : arrays_ok s0 -> find_mv_stack g false s0 = Ok s -> ~ listed m (s_num s) -> (m = Near -> i = 1) ->
  pred_mvs (mkMvIn (single_mode m) false (s_num s) i (s_stack s) (s_global s) row start sb) 0 (single_mode m) pred =
  Ok (fst (nth (first_entry m) (s_stack s0) ((0, 0), (0, 0))), snd pred).
Proof.
  intros [A _] F L I. destruct (find_keeps _ _ _ _ F) as (N & LN & K).
  assert (G : forall j, s_num s <= Z.of_nat j -> (j < 8)%nat -> idx (s_stack s) (Z.of_nat j) = Ok (nth j (s_stack s0) ((0, 0), (0, 0)))).
  { intros j J J8. rewrite (nth_idx _ (s_stack s) (Z.of_nat j) ((0, 0), (0, 0))) by (unfold len in *; lia). f_equal. rewrite Nat2Z.id.
    specialize (K j J). destruct (nth_error (s_stack s0) j) as [a|] eqn:Q; [|apply nth_error_None in Q; unfold len in A; lia].
    rewrite (nth_error_nth _ _ _ K), (nth_error_nth _ _ _ Q). reflexivity. }
  unfold pred_mvs. cbn [n_intrabc n_num n_idx n_list n_globals]. destruct m; unfold single_mode, GLOBALMV, NEWMV, NEARESTMV; cbn [Z.eqb Pos.eqb andb first_entry]; cbn [listed] in L.
  - change (idx (s_stack s) 0) with (idx (s_stack s) (Z.of_nat 0)). rewrite G by lia. reflexivity.
  - rewrite (I eq_refl). change (idx (s_stack s) 1) with (idx (s_stack s) (Z.of_nat 1)). rewrite G by lia. reflexivity.
  - exfalso. apply L. exact Logic.I.
  - replace (s_num s <=? 1) with true by lia. change (idx (s_stack s) 0) with (idx (s_stack s) (Z.of_nat 0)). rewrite G by lia. reflexivity.
Qed.

Lemma no_index : forall m n drl ctx, (m = Near -> n <= 2) -> (m = New -> n <= 1) ->
  index_used (single_mode m) n drl = [] /\ index_ds (class_of (single_mode m)) n drl ctx = [] /\ index_i (class_of (single_mode m)) n drl = Z.of_nat (first_entry m).
Proof.
  intros m n drl ctx A B. unfold index_used, index_ds, index_i, class_of, drl_used, drl_ds, drl_i. destruct m; cbn [single_mode both_new has_near existsb Z.eqb Pos.eqb orb first_entry]; try (repeat split; reflexivity).
  - specialize (A eq_refl). cbn -[Z.of_nat Z.ltb Z.add]. replace (Z.of_nat 1 + 1 <? n) with false by lia. repeat split; reflexivity.
  - specialize (B eq_refl). cbn -[Z.of_nat Z.ltb Z.add]. replace (Z.of_nat 0 + 1 <? n) with false by lia. repeat split; reflexivity.
Qed.

Lemma leftover_read x b t es r0 c0 y (int hp : bool) (lists : Z -> list (Z * Z)) :
  let rf := p_ref0 b in let e := motion_env x (p_bsize b) rf in let m := mode_of_flags (p_new_mv b) (p_zero_mv b) (p_ref_mv b) in
  let g := code_global e rf in let cs := own_candidates e g in let num := len cs in
  let own := mkModeCtx (t_new_ctx t) (zero_context (plain e) false (g, (0, 0))) (t_ref_ctx t) (t_drl_ctx t) in
  let i := Z.of_nat (first_entry m) in let p := fst (nth (first_entry m) (s_stack (t_mv t)) ((0, 0), (0, 0))) in
  x_seg_on x = false -> p_intrabc b = false -> frame_ok (x_frame x) (x_row x) (x_col x) -> inner r0 c0 (x_row x) (x_col x) -> 0 <= p_bsize b < 22 ->
  1 <= rf <= 7 -> (p_comp_mode b = 0 \/ x_ref_select x && large_enough (p_bsize b) = false) ->
  env_ok e false -> around_ok e -> tables_right e -> arrays_ok (t_mv t) ->
  (3 <= List.length (p_drl b))%nat -> (3 <= List.length (t_drl_ctx t))%nat ->
  mode_contexts m num (p_drl b) y own -> ~ listed m num -> let v := if is_new m then fst (p_mvs b) else p in (m = New -> vec_small (fst (p_mvs b)) /\ vec_small p) ->
  (m = Near -> len (lists rf) <= 2) -> (m = New -> len (lists rf) <= 1) -> let d := av1_global_mv e rf in let p' := av1_pred m i (len (lists rf)) (filled (lists rf) d) d in
  exists ds b' t', code_inter x b t es = Ok ((es ++ ds)%list, b', t') /\
    p_ref0 b' = rf /\ p_ref1 b' = -1 /\ fst (p_mvs b') = v /\ t_y_mode t' = single_mode m /\ t_idx t' = i /\
    let reader := av1_motion_filled (above_of (x_frame x) r0 (x_row x) (x_col x)) (left_of (x_frame x) c0 (x_row x) (x_col x)) (p_bsize b) (x_ref_select x)
                    (motion_env x (p_bsize b)) lists y int hp in
    (v = p /\ v = p' -> reads_as ds reader ((rf, -1), (single_mode m, i), v)) /\
    (~ (v = p /\ v = p') -> never_reads_as ds reader ((rf, -1), (single_mode m, i), v)).
Proof.
  intros rf e m g cs num own i p SEG BC FO INN BS RF CM EO AO TR AR D1 D2 MC L v NV NL1 NL2 d p'.
  destruct (one_reference_ok (x_frame x) r0 c0 (x_row x) (x_col x) (p_bsize b) (x_ref_select x) (p_comp_mode b) (p_comp_ref_type b) rf (p_ref1 b) es FO INN BS RF CM) as (d1 & E1 & R1).
  destruct (find_exact e false (t_mv t) EO AO TR AR) as (s & ES & G0 & _ & P1 & _ & P3 & P4 & _ & _ & P7).
  change (v_ref0 e) with rf in G0. fold g in G0.
  assert (CS : map fst (entries false s) = cs).
  { unfold cs, own_candidates. cbv zeta in P1. rewrite P1. destruct (s_global s) as [s0 s1]. cbn [fst] in G0. subst s0. reflexivity. }
  assert (NS : s_num s = num) by (unfold num; rewrite <- CS, P3; unfold len; rewrite map_length; reflexivity).
  assert (ZC : s_zero_ctx s = zero_context (plain e) false (g, (0, 0))).
  { rewrite P7. destruct (s_global s) as [s0 s1]. cbn [fst] in G0. subst s0. reflexivity. }
  set (num' := len (lists rf)) in *.
  assert (N1 : m = Near -> num <= 2) by (intros M; rewrite M in L; cbn [listed] in L; lia).
  assert (N2 : m = New -> num <= 1) by (intros M; rewrite M in L; cbn [listed] in L; lia).
  destruct (no_index m num' (p_drl b) (t_drl_ctx t) NL1 NL2) as (U1 & I1 & X1). destruct (no_index m num (p_drl b) (t_drl_ctx t) N1 N2) as (U2 & I2 & X2).
  destruct (one_mode_exactly (p_mode b) (p_new_mv b) (p_zero_mv b) (p_ref_mv b) own y (t_y_mode t) num' (p_drl b) (es ++ d1)%list D1 D2) as (es1 & d2 & i' & EM & EI & RI & _).
  fold m in EM, EI, RI. assert (MC' : mode_contexts m num' (p_drl b) y own).
  { destruct MC as (A & B & C & _). split; [exact A|]. split; [exact B|]. split; [exact C|]. rewrite U1. intros j []. }
  specialize (RI MC'). unfold own in EM, EI. cbn [c_ref c_new c_zero c_drl] in EM, EI.
  rewrite mv_index_ok, I1, X1 in EI by assumption. fold i in EI. injection EI as EI <-.
  assert (EI' : mv_index (single_mode m) num (p_drl b) (t_drl_ctx t) es1 = Ok (((es ++ d1) ++ d2)%list, i)) by (rewrite mv_index_ok, I2, X2, EI by assumption; reflexivity).
  clear EI. rename EI' into EI.
  destruct (assign_with s (single_mode m) (x_row x) (e_row_start (x_tile x)) (x_sb128 x) i m (p_mvs b) (t_pred t) (p_mode b) (((es ++ d1) ++ d2)%list) int hp p eq_refl)
    as (d3 & EA & R3).
  { apply (leftover_pred (t_mv t) s m i (t_pred t) _ _ _ e AR ES); [rewrite NS; exact L|intros M; unfold i; rewrite M; reflexivity]. }
  { exact NV. }
  rewrite NS in EA. fold v in EA, R3. destruct (R3 p') as [R4 N4].
  exists (d1 ++ d2 ++ d3)%list. eexists. eexists. split; [|].
  - unfold code_inter, code_refs, feature_on. rewrite SEG. cbn [bind]. fold rf. rewrite E1. cbn [bind p_ref1 with_refs p_seg p_mode p_new_mv p_zero_mv p_ref_mv p_drl p_mvs p_intrabc].
    change (0 <? NONE) with false. unfold NONE. rewrite env_same. fold e. rewrite ES. cbn [bind]. rewrite ZC, EM. cbn [bind]. rewrite NS, EI. cbn [bind]. rewrite BC, EA. cbn [bind].
    rewrite <- !app_assoc. reflexivity.
  - cbn [p_ref0 p_ref1 with_mvs with_refs p_mvs fst t_y_mode t_idx with_motion]. do 5 (split; [reflexivity|]).
    assert (RD : forall k, av1_motion_filled (above_of (x_frame x) r0 (x_row x) (x_col x)) (left_of (x_frame x) c0 (x_row x) (x_col x)) (p_bsize b) (x_ref_select x)
                  (motion_env x (p_bsize b)) lists y int hp ((d1 ++ d2 ++ d3) ++ k)%list =
                  LET (v, q) := av1_list_mv m 0 int hp p' (d3 ++ k)%list IN Some (((rf, -1), (single_mode m, i), v), q)).
    { intros k. unfold av1_motion_filled. rewrite <- !app_assoc, R1. cbn [obind fst]. fold e. fold d. fold num'. rewrite RI. cbn [obind fst snd].
      replace (modes_of (single_mode m)) with (Some (m, Global)) by (destruct m; reflexivity). fold p'. reflexivity. }
    cbv zeta. split.
    + intros H k. rewrite RD, (R4 H). reflexivity.
    + intros H k. rewrite RD. specialize (N4 H k). destruct (av1_list_mv m 0 int hp p' (d3 ++ k)%list) as [[v' q]|]; cbn [obind]; [|discriminate].
      intros Q. apply N4. injection Q as -> ->. reflexivity.
Qed.

(** ** The vector depends on earlier blocks *)
Lemma contexts_refl : forall m n drl y, mode_contexts m n drl y y.
Proof. intros m n drl y. repeat split. Qed.
Lemma vector_own_iff x b t es r0 c0 :
  let rf := p_ref0 b in let e := motion_env x (p_bsize b) rf in let m := mode_of_flags (p_new_mv b) (p_zero_mv b) (p_ref_mv b) in
  let num := len (own_candidates e (code_global e rf)) in
  x_seg_on x = false -> p_intrabc b = false -> frame_ok (x_frame x) (x_row x) (x_col x) -> inner r0 c0 (x_row x) (x_col x) -> 0 <= p_bsize b < 22 ->
  1 <= rf <= 7 -> (p_comp_mode b = 0 \/ x_ref_select x && large_enough (p_bsize b) = false) ->
  env_ok e false -> around_ok e -> tables_right e ->
  (3 <= List.length (p_drl b))%nat -> (3 <= List.length (t_drl_ctx t))%nat -> m <> New ->
  ((forall s1 s2 es1 b1 t1 es2 b2 t2, arrays_ok s1 -> arrays_ok s2 -> code_inter x b (with_list s1 t) es = Ok (es1, b1, t1) -> code_inter x b (with_list s2 t) es = Ok (es2, b2, t2) ->
     fst (p_mvs b1) = fst (p_mvs b2)) <-> listed m num).
Proof.
  intros rf e m num SEG BC FO INN BS RF CM EO AO TR D1 D2 NN. set (g := code_global e rf).
  set (own := mkModeCtx (t_new_ctx t) (zero_context (plain e) false (g, (0, 0))) (t_ref_ctx t) (t_drl_ctx t)).
  assert (NI : is_new m = false) by (destruct m; try reflexivity; contradiction).
  assert (LD : listed m num \/ ~ listed m num) by (destruct m; cbn [listed]; try lia; left; exact I).
  split.
  - intros H. destruct LD as [L|L]; [exact L|]. exfalso.
    assert (X : forall k : Z * Z, exists es' b' t', code_inter x b (with_list (mkMvState 0 0 false (repeat (k, (0, 0)) 8) (repeat 0 8) ((0, 0), (0, 0)) 0 0) t) es = Ok (es', b', t') /\ fst (p_mvs b') = k).
    { intros k. destruct (leftover_read x b (with_list (mkMvState 0 0 false (repeat (k, (0, 0)) 8) (repeat 0 8) ((0, 0), (0, 0)) 0 0) t) es r0 c0 own false false (fun _ => [])
        SEG BC FO INN BS RF CM EO AO TR) as (ds & b' & t' & E & _ & _ & V & _); try assumption.
      - split; reflexivity.
      - apply contexts_refl.
      - intros M. contradiction.
      - intros _. cbn. lia.
      - intros _. cbn. lia.
      - exists (es ++ ds)%list, b', t'. split; [exact E|]. rewrite V. fold m. rewrite NI. destruct (first_entry m) as [|[|n]] eqn:F; try reflexivity. destruct m; discriminate F. }
    destruct (X (0, 0)) as (e1 & b1 & t1 & E1 & V1). destruct (X (1, 0)) as (e2 & b2 & t2 & E2 & V2).
    assert (Q : fst (p_mvs b1) = fst (p_mvs b2)).
    { refine (H _ _ _ _ _ _ _ _ _ _ E1 E2); split; reflexivity. }
    rewrite V1, V2 in Q. discriminate Q.
  - intros L s1 s2 es1 b1 t1 es2 b2 t2 A1 A2 E1 E2.
    assert (X : forall s es' b' t', arrays_ok s -> code_inter x b (with_list s t) es = Ok (es', b', t') -> fst (p_mvs b') = av1_pred m (chosen m num (p_drl b)) num (own_candidates e g) g).
    { intros s es' b' t' A E. destruct (motion_any x b (with_list s t) es r0 c0 own false false (fun _ => own_candidates e g)
        SEG BC FO INN BS RF CM EO AO TR A D1 D2 (contexts_refl _ _ _ _) L) as (ds & b2' & t2' & E' & _ & _ & V & _).
      - intros M. contradiction.
      - intros _. reflexivity.
      - rewrite E in E'. injection E' as _ <- _. rewrite V. fold m. rewrite NI. reflexivity. }
    rewrite (X s1 es1 b1 t1 A1 E1), (X s2 es2 b2 t2 A2 E2). reflexivity.
Qed.
