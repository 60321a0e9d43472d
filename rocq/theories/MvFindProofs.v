(** Temporal samples, global motion and the whole of find_mv_stack. *)
From Coq Require Import ZArith List Bool Lia ZifyBool ZifyNat.
From Verif Require Import Base BaseProofs BitsProofs SessionModel BlockTables GeomModel ElementModel ElementSpec ElementProofs MvStackModel MvStackSpec
  MvStackListProofs MvStackProofs.
Import ListNotations.
Open Scope Z_scope.
Ltac Zify.zify_post_hook ::= Z.div_mod_to_equations.

Lemma lor_1 : forall x, Z.lor x 1 = 2 * (x / 2) + 1.
Proof.
  intros x. apply Z.bits_inj'. intros n Hn. rewrite Z.lor_spec.
  destruct (Z.eq_dec n 0) as [->|N].
  - rewrite Z.testbit_odd_0. rewrite orb_true_r. reflexivity.
  - replace n with (Z.succ (n - 1)) by lia. rewrite Z.testbit_odd_succ by lia.
    replace (Z.testbit 1 (Z.succ (n - 1))) with false.
    + rewrite orb_false_r. rewrite <- Z.div2_div, Z.div2_spec, Z.shiftr_spec by lia. f_equal.
    + symmetry. pose proof (Z.testbit_odd_succ 0 (n - 1) ltac:(lia)) as Q. rewrite Z.testbit_0_l in Q. exact Q.
Qed.
Lemma shiftr_1 : forall x, Z.shiftr x 1 = x / 2.
Proof. intros. rewrite Z.shiftr_div_pow2 by lia. reflexivity. Qed.

Lemma far_ok : forall m g, - 2 ^ 32 <= fst m <= 2 ^ 32 -> - 2 ^ 32 <= snd m <= 2 ^ 32 -> vec_range g -> far m g = Ok (distant m g).
Proof.
  intros m g H1 H2 [G1 G2]. unfold far, distant. rewrite chk_i64_ok by lia. cbn [bind].
  assert (A : forall z, - 2 ^ 62 - 2 ^ 32 <= z <= 2 ^ 62 + 2 ^ 32 -> (if 0 <=? z then Ok z else chk_i64 (- z)) = Ok (Z.abs z)).
  { intros z Hz. destruct (Z.leb_spec 0 z); [rewrite Z.abs_eq by lia; reflexivity|]. rewrite chk_i64_ok by lia. rewrite Z.abs_neq by lia. reflexivity. }
  rewrite A by lia. cbn [bind]. destruct (16 <=? Z.abs (fst m - fst g)); [reflexivity|].
  rewrite chk_i64_ok by lia. cbn [bind]. rewrite A by lia. reflexivity.
Qed.

Lemma field_mv_ok : forall e c rf r cc, env_ok e c -> 0 <= rf < 8 -> inside e r cc ->
  field_mv e rf (r / 2) (cc / 2) = Ok (motion_field e rf r cc) /\ mv_ok (motion_field e rf r cc).
Proof.
  intros e c rf r cc [OB O0 O1 OT OP OTI OPO OM [OF1 OF2]] HR [I1 I2]. destruct OTI as (Q1 & Q2 & Q3 & Q4).
  unfold field_mv, motion_field.
  rewrite (idx_nth _ (v_field e) rf []) by lia. cbn [bind]. set (f := nth (Z.to_nat rf) (v_field e) []).
  assert (If : In f (v_field e)) by (apply nth_In; unfold len in OF1; lia).
  destruct (OF2 f If) as [L1 L2].
  rewrite (idx_nth _ f (r / 2) []) by lia. cbn [bind]. set (row := nth (Z.to_nat (r / 2)) f []).
  assert (Ir : In row f) by (apply nth_In; unfold len in L1; lia).
  destruct (L2 row Ir) as [L3 L4].
  rewrite (idx_nth _ row (cc / 2) (0, 0)) by lia. split; [reflexivity|].
  rewrite Forall_forall in L4. apply L4. apply nth_In. unfold len in L3. lia.
Qed.

Lemma lower_bound : forall e m, mv_ok m -> - 2 ^ 32 <= fst (lower (plain e) m) <= 2 ^ 32 /\ - 2 ^ 32 <= snd (lower (plain e) m) <= 2 ^ 32.
Proof.
  intros e m [A B]. unfold lower. cbn [fst snd v_hp plain].
  pose proof (av1_lower_bound (v_int (plain e)) (fst m) (2 ^ 31) ltac:(lia) A).
  pose proof (av1_lower_bound (v_int (plain e)) (snd m) (2 ^ 31) ltac:(lia) B). lia.
Qed.

Definition sample_cands (e : mv_env) (c : bool) (d : Z * Z) : list (vec * Z) :=
  match sample e c d with Some k => [(k, 2)] | None => [] end.
(** What a sample does to the context; [z] is the value before. *)
Definition zero_after (e : mv_env) (c : bool) (g : mv * mv) (d : Z * Z) (z : Z) : Z :=
  if (fst d =? 0) && (snd d =? 0) then
    if is_inside (v_tile e) (2 * (v_row e / 2) + 1) (2 * (v_col e / 2) + 1) then
      match sample e c (0, 0) with
      | Some (m0, m1) => b2z (distant m0 (fst g) || (c && distant m1 (snd g)))
      | None => 1
      end
    else z
  else z.

Definition after_t (c : bool) (bonus : vec -> Z) (cs : list (vec * Z)) (z : Z) (s s' : mv_state) : Prop :=
  repr c bonus cs s' /\ s_new s' = s_new s /\ s_found s' = s_found s /\ s_global s' = s_global s /\
  s_close s' = s_close s /\ s_zero_ctx s' = z.

Lemma sample_ok : forall e c d s bonus B cs, env_ok e c -> global_ok c (s_global s) ->
  room bonus B cs 2 -> repr c bonus cs s ->
  exists s', temporal_sample e c (fst d) (snd d) s = Ok s' /\
    after_t c bonus (cs ++ sample_cands (plain e) c d) (zero_after (plain e) c (s_global s) d (s_zero_ctx s)) s s'.
Proof.
  intros e c [dr dc] s bonus B cs HE HG (A1 & A2 & A3 & A4 & A5) HC. cbn [fst snd]. unfold temporal_sample. rewrite !lor_1, !shiftr_1.
  unfold sample_cands, zero_after, sample. cbn [fst snd v_tile v_row v_col v_ref0 v_ref1 plain]. rewrite !Z.add_0_r.
  set (r := 2 * ((v_row e + dr) / 2) + 1). set (cc := 2 * ((v_col e + dc) / 2) + 1).
  replace ((e_row_start (v_tile e) <=? r) && (r <? e_row_end (v_tile e)) && (e_col_start (v_tile e) <=? cc) && (cc <? e_col_end (v_tile e)))
    with (is_inside (v_tile e) r cc) by (unfold is_inside; lia).
  set (r0 := 2 * (v_row e / 2) + 1). set (c0 := 2 * (v_col e / 2) + 1).
  replace ((e_row_start (v_tile e) <=? r0) && (r0 <? e_row_end (v_tile e)) && (e_col_start (v_tile e) <=? c0) && (c0 <? e_col_end (v_tile e)))
    with (is_inside (v_tile e) r0 c0) by (unfold is_inside; lia).
  pose proof HE as HE'. destruct HE' as [OB O0 O1 OT OP OTI OPO OM OF].
  destruct ((dr =? 0) && (dc =? 0)) eqn:FI.
  - assert (dr = 0 /\ dc = 0) as [-> ->] by lia.
    assert (Er : r = r0) by (unfold r, r0; f_equal; f_equal; f_equal; lia).
    assert (Ec : cc = c0) by (unfold cc, c0; f_equal; f_equal; f_equal; lia).
    rewrite Er, Ec. clear Er Ec r cc.
    destruct (is_inside (v_tile e) r0 c0) eqn:I.
    2:{ exists s. split; [reflexivity|]. rewrite app_nil_r. split; [exact HC|]. repeat split. }
    apply inside_iff in I. change (motion_field (plain e)) with (motion_field e).
    destruct c; cbn [negb].
    + destruct (field_mv_ok e true (v_ref0 e) r0 c0 HE O0 I) as [F0 M0]. destruct (field_mv_ok e true (v_ref1 e) r0 c0 HE (O1 eq_refl) I) as [F1 M1].
      rewrite F0. cbn [bind]. rewrite F1. cbn [bind].
      set (m0 := motion_field e (v_ref0 e) r0 c0) in *. set (m1 := motion_field e (v_ref1 e) r0 c0) in *.
      unfold projected. change INVALID_MV with (- 2 ^ 15). rewrite <- negb_orb.
      destruct ((fst m0 =? - 2 ^ 15) || (fst m1 =? - 2 ^ 15)); cbn [negb].
      * eexists. split; [reflexivity|]. rewrite app_nil_r. split; [eapply repr_ext; [exact HC|reflexivity..]|]. repeat split.
      * rewrite !lower_mv_ok by (apply mv_ok_range; assumption). cbn [bind].
        destruct (lower_bound e m0 M0) as [B1 B2]. destruct (lower_bound e m1 M1) as [B3 B4].
        set (k0 := lower (plain e) m0) in *. set (k1 := lower (plain e) m1) in *. cbn [s_global set_zero].
        destruct HG as [G0 G1]. specialize (G1 eq_refl).
        rewrite (far_ok k0) by assumption. cbn [bind].
        assert (X : (if distant k0 (fst (s_global s)) then Ok true else far k1 (snd (s_global s))) =
                    Ok (distant k0 (fst (s_global s)) || distant k1 (snd (s_global s)))).
        { destruct (distant k0 _); [reflexivity|]. apply far_ok; assumption. }
        rewrite X. cbn [bind andb].
        match goal with |- context [stack_add true (k0, k1) 2 ?t] =>
          destruct (stack_add_ok true bonus cs t (k0, k1) 2 B) as (s' & E & R & S1 & S2 & S3 & S4 & S5) end; try assumption; try lia.
        exists s'. split; [exact E|]. split; [exact R|]. cbn in S1, S2, S3, S4, S5. repeat split; assumption.
    + destruct (field_mv_ok e false (v_ref0 e) r0 c0 HE O0 I) as [F0 M0].
      rewrite F0. cbn [bind].
      set (m0 := motion_field e (v_ref0 e) r0 c0) in *.
      unfold projected. change INVALID_MV with (- 2 ^ 15).
      destruct (fst m0 =? - 2 ^ 15); cbn [negb].
      * eexists. split; [reflexivity|]. rewrite app_nil_r. split; [eapply repr_ext; [exact HC|reflexivity..]|]. repeat split.
      * rewrite !lower_mv_ok by (apply mv_ok_range; assumption). cbn [bind].
        destruct (lower_bound e m0 M0) as [B1 B2].
        set (k0 := lower (plain e) m0) in *. cbn [s_global set_zero].
        destruct HG as [G0 _].
        rewrite (far_ok k0) by assumption. cbn [bind andb]. rewrite orb_false_r.
        match goal with |- context [stack_add false (k0, (0, 0)) 2 ?t] =>
          destruct (stack_add_ok false bonus cs t (k0, (0, 0)) 2 B) as (s' & E & R & S1 & S2 & S3 & S4 & S5) end; try assumption; try lia.
        exists s'. split; [exact E|]. split; [exact R|]. cbn in S1, S2, S3, S4, S5. repeat split; assumption.
  - destruct (is_inside (v_tile e) r cc) eqn:I.
    2:{ exists s. split; [reflexivity|]. rewrite app_nil_r. split; [exact HC|]. repeat split. }
    apply inside_iff in I. change (motion_field (plain e)) with (motion_field e).
    destruct c; cbn [negb].
    + destruct (field_mv_ok e true (v_ref0 e) r cc HE O0 I) as [F0 M0]. destruct (field_mv_ok e true (v_ref1 e) r cc HE (O1 eq_refl) I) as [F1 M1].
      rewrite F0. cbn [bind]. rewrite F1. cbn [bind].
      set (m0 := motion_field e (v_ref0 e) r cc) in *. set (m1 := motion_field e (v_ref1 e) r cc) in *.
      unfold projected. change INVALID_MV with (- 2 ^ 15). rewrite <- negb_orb.
      destruct ((fst m0 =? - 2 ^ 15) || (fst m1 =? - 2 ^ 15)); cbn [negb].
      * eexists. split; [reflexivity|]. rewrite app_nil_r. split; [exact HC|]. repeat split.
      * rewrite !lower_mv_ok by (apply mv_ok_range; assumption). cbn [bind].
        destruct (stack_add_ok true bonus cs s (lower (plain e) m0, lower (plain e) m1) 2 B) as (s' & E & R & S1 & S2 & S3 & S4 & S5); try assumption; try lia.
        exists s'. split; [exact E|]. split; [exact R|]. repeat split; assumption.
    + destruct (field_mv_ok e false (v_ref0 e) r cc HE O0 I) as [F0 M0].
      rewrite F0. cbn [bind].
      set (m0 := motion_field e (v_ref0 e) r cc) in *.
      unfold projected. change INVALID_MV with (- 2 ^ 15).
      destruct (fst m0 =? - 2 ^ 15); cbn [negb].
      * eexists. split; [reflexivity|]. rewrite app_nil_r. split; [exact HC|]. repeat split.
      * rewrite !lower_mv_ok by (apply mv_ok_range; assumption). cbn [bind].
        destruct (stack_add_ok false bonus cs s (lower (plain e) m0, (0, 0)) 2 B) as (s' & E & R & S1 & S2 & S3 & S4 & S5); try assumption; try lia.
        exists s'. split; [exact E|]. split; [exact R|]. repeat split; assumption.
Qed.

Fixpoint run_samples (e : mv_env) (c : bool) (ds : list (Z * Z)) (s : mv_state) : res mv_state :=
  match ds with
  | [] => Ok s
  | d :: r => s <- temporal_sample e c (fst d) (snd d) s ;; run_samples e c r s
  end.
Lemma run_samples_app : forall e c a b s, run_samples e c (a ++ b) s = bind (run_samples e c a s) (run_samples e c b).
Proof.
  induction a as [|d a IH]; intros b s; [reflexivity|]. cbn [app run_samples].
  destruct (temporal_sample e c (fst d) (snd d) s); cbn [bind]; [apply IH|reflexivity..].
Qed.

Definition step_of (n4 : Z) : Z := if 16 <=? n4 then 4 else 2.
Fixpoint loop (f : Z -> mv_state -> res mv_state) (fuel : nat) (step lim d : Z) (s : mv_state) : res mv_state :=
  if d <? lim then match fuel with O => Hang | S fuel => s <- f d s ;; loop f fuel step lim (d + step) s end else Ok s.
Fixpoint each (f : Z -> mv_state -> res mv_state) (l : list Z) (s : mv_state) : res mv_state :=
  match l with [] => Ok s | d :: r => s <- f d s ;; each f r s end.
Lemma loop_each : forall f n4 s, In n4 [1; 2; 4; 8; 16; 32] -> loop f 16 (step_of n4) (Z.min n4 16) 0 s = each f (steps n4) s.
Proof. intros f n4 s H. cbn [In] in H. repeat (destruct H as [<-|H]; [reflexivity|]). destruct H. Qed.
Lemma cols_loop : forall e c dr step lim fuel dc s,
  temporal_cols fuel e c dr step lim dc s = loop (temporal_sample e c dr) fuel step lim dc s.
Proof.
  induction fuel as [|fuel IH]; intros dc s; cbn [temporal_cols loop]; [reflexivity|]. destruct (dc <? lim); [|reflexivity].
  destruct (temporal_sample e c dr dc s); cbn [bind]; [apply IH|reflexivity..].
Qed.
Lemma rows_loop : forall e c stepr limr stepc limc fuel dr s,
  temporal_rows fuel e c stepr limr stepc limc dr s = loop (fun dr => temporal_cols 16 e c dr stepc limc 0) fuel stepr limr dr s.
Proof.
  induction fuel as [|fuel IH]; intros dr s; cbn [temporal_rows loop]; [reflexivity|]. destruct (dr <? limr); [|reflexivity].
  destruct (temporal_cols 16 e c dr stepc limc 0 s); cbn [bind]; [apply IH|reflexivity..].
Qed.
Lemma each_samples : forall e c dr l s, each (temporal_sample e c dr) l s = run_samples e c (map (fun dc => (dr, dc)) l) s.
Proof.
  induction l as [|d l IH]; intros s; [reflexivity|]. cbn [each map run_samples fst snd].
  destruct (temporal_sample e c dr d s); cbn [bind]; [apply IH|reflexivity..].
Qed.
Lemma rows_steps : forall e c n4 m4 s, In n4 [1; 2; 4; 8; 16; 32] -> In m4 [1; 2; 4; 8; 16; 32] ->
  temporal_rows 16 e c (step_of n4) (Z.min n4 16) (step_of m4) (Z.min m4 16) 0 s =
  run_samples e c (flat_map (fun dr => map (fun dc => (dr, dc)) (steps m4)) (steps n4)) s.
Proof.
  intros e c n4 m4 s H M. rewrite rows_loop, loop_each by exact H. generalize (steps n4). intros l. revert s.
  induction l as [|dr l IH]; intros s; [reflexivity|]. cbn [each flat_map]. rewrite run_samples_app, cols_loop, loop_each, each_samples by exact M.
  destruct (run_samples e c _ s); cbn [bind]; [apply IH|reflexivity..].
Qed.

Lemma samples_ok : forall e c ds s bonus B cs, env_ok e c -> global_ok c (s_global s) ->
  room bonus B cs (2 * len ds) -> repr c bonus cs s ->
  exists s', run_samples e c ds s = Ok s' /\
    after_t c bonus (cs ++ flat_map (sample_cands (plain e) c) ds)
      (fold_left (fun z d => zero_after (plain e) c (s_global s) d z) ds (s_zero_ctx s)) s s'.
Proof.
  intros e c. induction ds as [|d ds IH]; intros s bonus B cs HE HG HR HC.
  - exists s. split; [reflexivity|]. cbn [flat_map]. rewrite app_nil_r. split; [exact HC|]. repeat split.
  - rewrite len_cons in HR. pose proof (len_nonneg _ ds) as LN.
    destruct (sample_ok e c d s bonus B cs) as (s1 & E1 & R1 & P1 & P2 & P3 & P4 & P5); try assumption.
    { eapply room_less; [exact HR|lia]. }
    assert (W : Forall (fun c => 0 <= snd c) (sample_cands (plain e) c d) /\ 0 <= all_weights (sample_cands (plain e) c d) <= 2).
    { unfold sample_cands. destruct (sample _ _ _); cbn [all_weights]; (split; [repeat (apply Forall_cons; [cbn; lia|]); apply Forall_nil|lia]). }
    destruct (IH s1 bonus B (cs ++ sample_cands (plain e) c d)) as (s2 & E2 & R2 & Q1 & Q2 & Q3 & Q4 & Q5); try assumption.
    { rewrite P3. exact HG. }
    { apply room_app; [|apply W|lia]. eapply room_less; [exact HR|lia]. }
    exists s2. cbn [run_samples]. rewrite E1. cbn [bind]. split; [exact E2|]. cbn [flat_map fold_left].
    rewrite app_assoc. split; [exact R2|]. rewrite <- P5, <- P3, Q1, Q2, Q3, Q4. repeat split; assumption.
Qed.

(** ** Global motion *)

Lemma round_bound : forall x n M, 0 < n -> 0 <= M -> - M <= x <= M -> - (M + 1) <= av1_round x n <= M + 1.
Proof.
  intros x n M Hn HM H. unfold av1_round.
  assert (P : 2 ^ n = 2 * 2 ^ (n - 1)) by (rewrite <- Z.pow_succ_r by lia; f_equal; lia).
  assert (P1 : 1 <= 2 ^ (n - 1)) by (apply Z.lt_pred_le, Z.pow_pos_nonneg; lia).
  assert (0 <= (Z.abs x + 2 ^ (n - 1)) / 2 ^ n <= M + 1).
  { split; [apply Z.div_pos; lia|]. apply Z.lt_succ_r. apply Z.div_lt_upper_bound; [lia|]. rewrite P. nia. }
  destruct (Z.sgn_spec x) as [[? ->]|[[? ->]|[? ->]]]; lia.
Qed.
Lemma Round2Signed_ok : forall x n, 0 < n < 20 -> - 2 ^ 60 <= x <= 2 ^ 60 -> Round2Signed x n = Ok (Z.abs (av1_round x n)).
Proof.
  intros x n Hn H. unfold Round2Signed, Round2.
  assert (P1 : 1 <= 2 ^ (n - 1)) by (apply Z.lt_pred_le, Z.pow_pos_nonneg; lia).
  assert (P2 : 2 ^ (n - 1) <= 2 ^ 20) by (apply Z.pow_le_mono_r; lia).
  assert (P : 0 < 2 ^ n) by (apply Z.pow_pos_nonneg; lia).
  rewrite Z.shiftl_1_l. unfold av1_round. rewrite Z.abs_mul.
  assert (0 <= (Z.abs x + 2 ^ (n - 1)) / 2 ^ n) by (apply Z.div_pos; lia).
  rewrite (Z.abs_eq ((Z.abs x + 2 ^ (n - 1)) / 2 ^ n)) by assumption.
  destruct (Z.leb_spec 0 x).
  - rewrite chk_i64_ok by lia. cbn [bind]. rewrite Z.shiftr_div_pow2 by lia. rewrite (Z.abs_eq x) by lia. f_equal.
    destruct (Z.eq_dec x 0) as [->|N].
    + rewrite Z.add_0_l. cbn [Z.sgn Z.abs Z.mul]. apply Z.div_small. split; [lia|].
      apply Z.pow_lt_mono_r; lia.
    + rewrite Z.sgn_pos by lia. change (Z.abs 1) with 1. lia.
  - rewrite chk_i64_ok by lia. cbn [bind]. rewrite chk_i64_ok by lia. cbn [bind]. rewrite Z.shiftr_div_pow2 by lia.
    rewrite (Z.abs_neq x) by lia. rewrite Z.sgn_neg by lia. change (Z.abs (-1)) with 1. f_equal. lia.
Qed.
Lemma lower_abs : forall f v, av1_lower_mv false f (Z.abs v) = Z.abs (av1_lower_mv false f v).
Proof.
  intros f v. unfold av1_lower_mv. destruct f.
  - rewrite Z.abs_involutive, Z.abs_mul. f_equal; [destruct v; reflexivity|]. symmetry. apply Z.abs_eq. lia.
  - replace (Z.odd (Z.abs v)) with (Z.odd v) by (destruct v; reflexivity). destruct (Z.odd v) eqn:O; [|reflexivity].
    destruct (Z.sgn_spec v) as [[? E]|[[? E]|[? E]]]; rewrite E.
    + rewrite Z.abs_eq by lia. rewrite E. lia.
    + subst v. discriminate.
    + rewrite (Z.abs_neq v) by lia. rewrite Z.sgn_pos by lia. lia.
Qed.

Lemma param_ok : forall e c rf i, env_ok e c -> 0 <= rf < 8 -> 0 <= i < 6 ->
  (p <- idx (v_gm_params e) rf ;; idx p i) = Ok (param e rf i) /\ - 2 ^ 31 <= param e rf i < 2 ^ 31.
Proof.
  intros e c rf i [OB O0 O1 OT [OP1 OP2] OTI OPO OM OF] HR HI. unfold param. rewrite (idx_nth _ _ rf []) by lia. cbn [bind].
  set (p := nth (Z.to_nat rf) (v_gm_params e) []). assert (I : In p (v_gm_params e)) by (apply nth_In; unfold len in OP1; lia).
  destruct (OP2 p I) as [L F]. rewrite (idx_nth _ p i 0) by lia. split; [reflexivity|].
  rewrite Forall_forall in F. apply F, nth_In. unfold len in L. lia.
Qed.

Lemma mul_bound : forall a b A B, 0 <= A -> 0 <= B -> - A <= a <= A -> - B <= b <= B -> - (A * B) <= a * b <= A * B.
Proof. intros. nia. Qed.

Lemma global_mv_ok : forall e c rf, env_ok e c -> 0 <= rf < 8 ->
  global_mv e rf = Ok (code_global e rf) /\ vec_range (code_global e rf).
Proof.
  intros e c rf HE HR. pose proof HE as [OB O0 O1 OT OP OTI OPO OM OF].
  destruct OTI as (Q1 & Q2 & Q3 & Q4).
  unfold global_mv, INTRA. destruct (units _ OB) as [U1 U2]. apply units_pos in U1. apply units_pos in U2.
  assert (T : (if rf =? 0 then Ok 0 else idx (v_gm_type e) rf) = Ok (if rf =? 0 then 0 else gm_type_of e rf)).
  { destruct (rf =? 0); [reflexivity|]. apply type_ok; assumption. }
  rewrite T. clear T. cbn [bind]. rewrite width_ok, height_ok by exact OB. cbn [bind].
  unfold code_global, av1_global_raw. change IDENTITY with 0. change TRANSLATION with 1. change (WARPEDMODEL_PREC_BITS - 3) with 13. change (WARPEDMODEL_PREC_BITS - 2) with 14.
  change (gm_type_of (plain e)) with (gm_type_of e).
  destruct (Z.eqb_spec rf 0) as [E0|N0]; cbn [orb].
  { cbn [bind]. rewrite lower_mv_ok by (unfold vec_range; cbn; lia). split; [reflexivity|].
    unfold lower. cbn [fst snd v_hp plain]. pose proof (av1_lower_bound (v_int (plain e)) 0 0 ltac:(lia) ltac:(lia)). unfold vec_range. cbn [fst snd]. lia. }
  set (t := gm_type_of e rf). destruct (Z.eqb_spec t 0) as [Et|Nt]; cbn [orb].
  { cbn [bind]. rewrite lower_mv_ok by (unfold vec_range; cbn; lia). split; [reflexivity|].
    unfold lower. cbn [fst snd v_hp plain]. pose proof (av1_lower_bound (v_int (plain e)) 0 0 ltac:(lia) ltac:(lia)). unfold vec_range. cbn [fst snd]. lia. }
  pose proof (param_ok e c rf 0 HE HR ltac:(lia)) as [R0 B0]. pose proof (param_ok e c rf 1 HE HR ltac:(lia)) as [R1 B1].
  pose proof (param_ok e c rf 2 HE HR ltac:(lia)) as [R2 B2]. pose proof (param_ok e c rf 3 HE HR ltac:(lia)) as [R3 B3].
  pose proof (param_ok e c rf 4 HE HR ltac:(lia)) as [R4 B4]. pose proof (param_ok e c rf 5 HE HR ltac:(lia)) as [R5 B5].
  destruct (idx (v_gm_params e) rf) as [p| |]; cbn [bind] in *; try discriminate. rewrite R0. cbn [bind]. rewrite R1. cbn [bind].
  destruct (Z.eqb_spec t 1) as [E1|N1].
  { cbn [bind]. rewrite !Z.shiftr_div_pow2 by lia.
    assert (M0 : - 2 ^ 31 <= param e rf 0 / 2 ^ 13 <= 2 ^ 31) by (change (2 ^ 13) with 8192; lia).
    assert (M1 : - 2 ^ 31 <= param e rf 1 / 2 ^ 13 <= 2 ^ 31) by (change (2 ^ 13) with 8192; lia).
    rewrite lower_mv_ok by (unfold vec_range; cbn [fst snd]; lia). split; [reflexivity|].
    pose proof (lower_bound e (param e rf 0 / 2 ^ 13, param e rf 1 / 2 ^ 13) (conj M0 M1)). unfold vec_range. lia. }
  rewrite R2. cbn [bind]. rewrite R3. cbn [bind]. rewrite R4. cbn [bind]. rewrite R5. cbn [bind].
  change (Z.shiftl 1 WARPEDMODEL_PREC_BITS) with 65536.
  assert (X : 0 <= v_col e * 4 + width_of (v_size e) / 2 - 1 <= 2 ^ 19) by lia.
  assert (Y : 0 <= v_row e * 4 + height_of (v_size e) / 2 - 1 <= 2 ^ 19) by lia.
  assert (WX : warp_x e rf = (param e rf 2 - 65536) * (v_col e * 4 + width_of (v_size e) / 2 - 1) + param e rf 3 * (v_row e * 4 + height_of (v_size e) / 2 - 1) + param e rf 0) by reflexivity.
  assert (WY : warp_y e rf = param e rf 4 * (v_col e * 4 + width_of (v_size e) / 2 - 1) + (param e rf 5 - 65536) * (v_row e * 4 + height_of (v_size e) / 2 - 1) + param e rf 1) by reflexivity.
  set (x := v_col e * 4 + width_of (v_size e) / 2 - 1) in *. set (y := v_row e * 4 + height_of (v_size e) / 2 - 1) in *.
  clearbody x y.
  assert (D2 : - (2 ^ 32 * 2 ^ 19) <= (param e rf 2 - 65536) * x <= 2 ^ 32 * 2 ^ 19) by (apply mul_bound; lia).
  assert (D3 : - (2 ^ 32 * 2 ^ 19) <= param e rf 3 * y <= 2 ^ 32 * 2 ^ 19) by (apply mul_bound; lia).
  assert (D4 : - (2 ^ 32 * 2 ^ 19) <= param e rf 4 * x <= 2 ^ 32 * 2 ^ 19) by (apply mul_bound; lia).
  assert (D5 : - (2 ^ 32 * 2 ^ 19) <= (param e rf 5 - 65536) * y <= 2 ^ 32 * 2 ^ 19) by (apply mul_bound; lia).
  change (2 ^ 32 * 2 ^ 19) with 2251799813685248 in *.
  rewrite (chk_i64_ok (param e rf 2 - 65536)) by lia. cbn [bind].
  rewrite (chk_i64_ok ((param e rf 2 - 65536) * x)) by lia. cbn [bind].
  rewrite (chk_i64_ok (param e rf 3 * y)) by lia. cbn [bind].
  rewrite (chk_i64_ok ((param e rf 2 - 65536) * x + param e rf 3 * y)) by lia. cbn [bind].
  rewrite (chk_i64_ok ((param e rf 2 - 65536) * x + param e rf 3 * y + param e rf 0)) by lia. cbn [bind].
  rewrite (chk_i64_ok (param e rf 5 - 65536)) by lia. cbn [bind].
  rewrite (chk_i64_ok (param e rf 4 * x)) by lia. cbn [bind].
  rewrite (chk_i64_ok ((param e rf 5 - 65536) * y)) by lia. cbn [bind].
  rewrite (chk_i64_ok (param e rf 4 * x + (param e rf 5 - 65536) * y)) by lia. cbn [bind].
  rewrite (chk_i64_ok (param e rf 4 * x + (param e rf 5 - 65536) * y + param e rf 1)) by lia. cbn [bind].
  rewrite <- WX, <- WY.
  assert (VX : - 2 ^ 53 <= warp_x e rf <= 2 ^ 53) by (rewrite WX; lia).
  assert (VY : - 2 ^ 53 <= warp_y e rf <= 2 ^ 53) by (rewrite WY; lia). clear WX WY D2 D3 D4 D5.
  assert (K : forall a b, - 2 ^ 55 <= a <= 2 ^ 55 -> - 2 ^ 55 <= b <= 2 ^ 55 ->
    lower_mv e (Z.abs a, Z.abs b) = Ok (Z.abs (snd (lower (plain e) (b, a))), Z.abs (fst (lower (plain e) (b, a)))) /\
    vec_range (Z.abs (snd (lower (plain e) (b, a))), Z.abs (fst (lower (plain e) (b, a))))).
  { intros a b Ha Hb. rewrite lower_mv_ok by (unfold vec_range; cbn [fst snd]; lia). unfold lower. cbn [fst snd v_hp plain]. rewrite !lower_abs.
    split; [reflexivity|]. pose proof (av1_lower_bound (v_int (plain e)) a (2 ^ 55) ltac:(lia) Ha). pose proof (av1_lower_bound (v_int (plain e)) b (2 ^ 55) ltac:(lia) Hb).
    unfold vec_range. cbn [fst snd]. lia. }
  destruct (v_hp e).
  - rewrite !Round2Signed_ok by lia. cbn [bind].
    pose proof (round_bound (warp_x e rf) 13 (2 ^ 53) ltac:(lia) ltac:(lia) VX). pose proof (round_bound (warp_y e rf) 13 (2 ^ 53) ltac:(lia) ltac:(lia) VY).
    apply K; lia.
  - rewrite (Round2Signed_ok (warp_x e rf)) by lia. cbn [bind].
    pose proof (round_bound (warp_x e rf) 14 (2 ^ 53) ltac:(lia) ltac:(lia) VX). pose proof (round_bound (warp_y e rf) 14 (2 ^ 53) ltac:(lia) ltac:(lia) VY).
    rewrite (chk_i64_ok (Z.abs (av1_round (warp_x e rf) 14) * 2)) by lia. cbn [bind].
    rewrite (Round2Signed_ok (warp_y e rf)) by lia. cbn [bind].
    rewrite (chk_i64_ok (Z.abs (av1_round (warp_y e rf) 14) * 2)) by lia. cbn [bind].
    replace (Z.abs (av1_round (warp_x e rf) 14) * 2) with (Z.abs (2 * av1_round (warp_x e rf) 14)) by lia.
    replace (Z.abs (av1_round (warp_y e rf) 14) * 2) with (Z.abs (2 * av1_round (warp_y e rf) 14)) by lia.
    apply K; lia.
Qed.

(** ** find_mv_stack *)

Lemma cands_of_app : forall e c g a b, cands_of e c g (a ++ b) = cands_of e c g a ++ cands_of e c g b.
Proof. intros. unfold cands_of. apply flat_map_app. Qed.
Lemma new_count_app : forall e c g a b, new_count e c g (a ++ b) = new_count e c g a + new_count e c g b.
Proof. intros. unfold new_count. induction a as [|x a IH]; cbn [app map fold_right]; [lia|]. rewrite IH. lia. Qed.
Lemma cands_of_weights : forall e c g nbs, Forall (fun bw => nbr_ok (fst bw) /\ 0 <= snd bw) nbs ->
  Forall (fun c => 0 <= snd c) (cands_of e c g nbs) /\ 0 <= all_weights (cands_of e c g nbs) <= 2 * weight_sum nbs.
Proof.
  intros e c g. induction nbs as [|[b w] nbs IH]; intros H; [split; [constructor|cbn [cands_of flat_map all_weights weight_sum]; lia]|].
  inversion H as [|? ? [_ W] F]; subst. cbn [fst snd] in W. destruct (IH F) as [A B]. destruct (cands_weights e c g b w W) as [A' B'].
  unfold cands_of. cbn [flat_map fst snd]. fold (cands_of e c g nbs). split; [apply Forall_app; split; assumption|].
  rewrite all_weights_app. cbn [weight_sum]. lia.
Qed.
Lemma new_count_bound : forall e c g nbs, 0 <= new_count e c g nbs <= 2 * len nbs.
Proof.
  intros e c g. induction nbs as [|[b w] nbs IH]; [cbn; lia|]. rewrite len_cons. unfold new_count. cbn [map fold_right fst snd]. fold (new_count e c g nbs).
  assert (LC : 0 <= (if newmv_mode b then len (cands e c g b w) else 0) <= 2).
  { destruct (newmv_mode b); [|lia]. unfold cands. destruct (b_is_inter b); [|unfold len; cbn; lia].
    destruct c; repeat (destruct (_ =? _)); unfold len; cbn; lia. }
  lia.
Qed.

Lemma add_level_ok : forall W P R, Forall (fun w => 0 <= w < 2 ^ 63) W ->
  add_level (length W) (len P) (P ++ W ++ R) = Ok (P ++ map (fun w => w + 640) W ++ R).
Proof.
  induction W as [|w W IH]; intros P R H; cbn [length add_level map app]; [reflexivity|].
  inversion H as [|? ? Hw HW]; subst.
  assert (I : idx (P ++ w :: W ++ R) (len P) = Ok w).
  { unfold idx, len. destruct (Z.ltb_spec (Z.of_nat (length P)) 0); [lia|]. rewrite Nat2Z.id, nth_error_app2 by lia.
    rewrite Nat.sub_diag. reflexivity. }
  rewrite I. cbn [bind]. change REF_CAT_LEVEL with 640. rewrite chk_u64_ok by lia. cbn [bind].
  unfold len. rewrite Nat2Z.id, set_nth_app_r. specialize (IH (P ++ [w + 640]) R HW). rewrite <- !app_assoc in IH. cbn [app] in IH.
  replace (Z.of_nat (length P) + 1) with (len (P ++ [w + 640])) by (rewrite len_app; reflexivity). exact IH.
Qed.
Lemma add_level_repr : forall c cs s B, repr c (fun _ => 0) cs s -> room (fun _ => 0) B cs 0 -> 0 <= B -> all_weights cs < 2 ^ 63 ->
  exists ws, add_level (Z.to_nat (s_num s)) 0 (s_weights s) = Ok ws /\
    repr c (bonus_of cs) cs (set_zero 0 (set_list (s_num s) (s_stack s) ws s)).
Proof.
  intros c cs s B (E & rE & rW & HN & HS & HL & HW & HL2 & HE) (_ & _ & HF & _) HB HT.
  pose proof (map_length (entry c) E) as LE. rewrite HE in LE.
  rewrite HN, HW. unfold len. rewrite Nat2Z.id, <- LE.
  set (W := map (fun k => total k cs + 0) (kept cs)). replace (length (kept cs)) with (length W) by (unfold W; apply map_length).
  pose proof (add_level_ok W [] rW) as A. cbn [app] in A. change (len (@nil Z)) with 0 in A. rewrite A.
  2:{ unfold W. apply Forall_forall. intros w I. apply in_map_iff in I. destruct I as (k & <- & _). pose proof (total_le cs k HF). lia. }
  eexists. split; [reflexivity|]. exists E, rE, rW. cbn [s_num s_stack s_weights set_zero set_list]. unfold len. rewrite <- LE.
  repeat split; try assumption; try lia.
  - unfold W. rewrite map_length. reflexivity.
  - f_equal. unfold W. rewrite map_map. apply map_ext_in. intros k I. unfold bonus_of. destruct (in_dec vec_dec k (kept cs)); [lia|contradiction].
Qed.

Lemma positions_len : forall e c, env_ok e c -> exists tl, positions e = (0, 0) :: tl /\
  forallb (fun d => negb ((fst d =? 0) && (snd d =? 0))) tl = true /\ len tl <= 63.
Proof.
  intros e c [OB _ _ _ _ _ _ _ _]. destruct (units _ OB) as [U1 U2]. unfold positions. fold (bw4 e) in U1. fold (bh4 e) in U2.
  generalize (bw4 e) (bh4 e) U1 U2. clear. intros n m A B. cbn [In] in A, B.
  decompose [or] A; try contradiction; subst n; decompose [or] B; try contradiction; subst m;
    (eexists; split; [vm_compute; reflexivity|split; [vm_compute; reflexivity|vm_compute; discriminate]]).
Qed.
Lemma zero_skip : forall e c g ds z, forallb (fun d => negb ((fst d =? 0) && (snd d =? 0))) ds = true ->
  fold_left (fun z d => zero_after e c g d z) ds z = z.
Proof.
  induction ds as [|d ds IH]; intros z H; [reflexivity|]. cbn [forallb fold_left] in *. apply andb_true_iff in H. destruct H as [H1 H2].
  unfold zero_after at 2. destruct ((fst d =? 0) && (snd d =? 0)); [discriminate|]. apply IH. exact H2.
Qed.
Lemma zero_first : forall e c g, zero_after e c g (0, 0) 0 = zero_context e c g.
Proof.
  intros. unfold zero_after, zero_context. cbn [fst snd]. change (0 =? 0) with true. cbn [andb].
  set (r0 := 2 * (v_row e / 2) + 1). set (c0 := 2 * (v_col e / 2) + 1).
  replace (is_inside (v_tile e) r0 c0) with ((e_row_start (v_tile e) <=? r0) && (r0 <? e_row_end (v_tile e)) && (e_col_start (v_tile e) <=? c0) && (c0 <? e_col_end (v_tile e)))
    by (unfold is_inside; lia). reflexivity.
Qed.

Lemma above_facts : forall e c, env_ok e c ->
  Forall (fun bw => nbr_ok (fst bw) /\ 0 <= snd bw) (above_blocks e) /\ weight_sum (above_blocks e) <= 1024 /\ len (above_blocks e) <= 16.
Proof.
  intros e c [OB _ _ _ _ _ _ OM _]. destruct (units _ OB) as [U _]. apply units_pos in U. unfold above_blocks.
  match goal with |- context [walk 16 ?at_ ?sz ?n ?d 0] => destruct (walk_facts at_ sz n d) with (f := 16%nat) (i := 0) as (A & B & C) end.
  { exact U. } { intros i b H. apply visible_some in H. exact (OM _ _ _ H). } repeat split; try assumption; lia.
Qed.
Lemma left_facts : forall e c, env_ok e c ->
  Forall (fun bw => nbr_ok (fst bw) /\ 0 <= snd bw) (left_blocks e) /\ weight_sum (left_blocks e) <= 1024 /\ len (left_blocks e) <= 16.
Proof.
  intros e c [OB _ _ _ _ _ _ OM _]. destruct (units _ OB) as [_ U]. apply units_pos in U. unfold left_blocks.
  match goal with |- context [walk 16 ?at_ ?sz ?n ?d 0] => destruct (walk_facts at_ sz n d) with (f := 16%nat) (i := 0) as (A & B & C) end.
  { exact U. } { intros i b H. apply visible_some in H. exact (OM _ _ _ H). } repeat split; try assumption; lia.
Qed.
Lemma corner_facts : forall e c, env_ok e c ->
  Forall (fun bw => nbr_ok (fst bw) /\ 0 <= snd bw) (corner_blocks e) /\ weight_sum (corner_blocks e) <= 4 /\ len (corner_blocks e) <= 1.
Proof.
  intros e c [OB _ _ _ _ _ _ OM _]. unfold corner_blocks. destruct (_ <=? 16); [|repeat split; [constructor|cbn; lia..]].
  destruct (visible e (v_row e - 1) (v_col e + bw4 e)) as [b|] eqn:H; [|repeat split; [constructor|cbn; lia..]].
  apply visible_some in H. split; [constructor; [|constructor]; cbn [fst snd]; split; [exact (OM _ _ _ H)|lia]|]. cbn; lia.
Qed.
Lemma weight_sum_nonneg : forall nbs, Forall (fun bw => nbr_ok (fst bw) /\ 0 <= snd bw) nbs -> 0 <= weight_sum nbs.
Proof. induction nbs as [|[b w] nbs IH]; intros H; cbn [weight_sum]; [lia|]. inversion H as [|? ? [_ W] F]; subst. cbn [snd] in W. specialize (IH F). lia. Qed.

Lemma visible_plain : forall e, visible (plain e) = visible e.
Proof. reflexivity. Qed.
Lemma bw4_plain : forall e, bw4 (plain e) = bw4 e.
Proof. reflexivity. Qed.
Lemma bh4_plain : forall e, bh4 (plain e) = bh4 e.
Proof. reflexivity. Qed.
Lemma above_plain : forall e, above_blocks (plain e) = above_blocks e.
Proof. intros. unfold above_blocks. rewrite visible_plain, bw4_plain. reflexivity. Qed.
Lemma left_plain : forall e, left_blocks (plain e) = left_blocks e.
Proof. intros. unfold left_blocks. rewrite visible_plain, bh4_plain. reflexivity. Qed.
Lemma corner_plain : forall e, corner_blocks (plain e) = corner_blocks e.
Proof. intros. unfold corner_blocks. rewrite visible_plain, bw4_plain, bh4_plain. reflexivity. Qed.
Lemma positions_plain : forall e, positions (plain e) = positions e.
Proof. intros. unfold positions. rewrite bw4_plain, bh4_plain. reflexivity. Qed.
Lemma corner_big : forall e, 16 < Z.max (bw4 e) (bh4 e) -> corner_blocks e = [].
Proof. intros e H. unfold corner_blocks. destruct (Z.leb_spec (Z.max (bw4 e) (bh4 e)) 16); [lia|]. reflexivity. Qed.
Opaque above_blocks left_blocks corner_blocks positions.
Lemma near_plain : forall e c g, near_cands (plain e) c g = cands_of (plain e) c g (above_blocks e ++ left_blocks e ++ corner_blocks e).
Proof. intros. unfold near_cands. rewrite (above_plain e), (left_plain e), (corner_plain e). reflexivity. Qed.
Lemma close_plain : forall e c g, close_matches (plain e) c g =
  b2z (has_cand (cands_of (plain e) c g (above_blocks e ++ corner_blocks e))) + b2z (has_cand (cands_of (plain e) c g (left_blocks e))).
Proof. intros. unfold close_matches. rewrite (above_plain e), (left_plain e), (corner_plain e). reflexivity. Qed.

Lemma setup_ok : forall e c s, env_ok e c -> exists g, setup_global_mvs e c s = Ok (set_global g s) /\
  fst g = code_global e (v_ref0 e) /\ snd g = (if c then code_global e (v_ref1 e) else snd (s_global s)) /\ global_ok c g.
Proof.
  intros e c s HE. pose proof HE as [OB O0 O1 OT OP OTI OPO OM OF]. unfold setup_global_mvs.
  destruct (global_mv_ok e c (v_ref0 e) HE O0) as [G0 V0]. rewrite G0. cbn [bind]. destruct c.
  - destruct (global_mv_ok e true (v_ref1 e) HE (O1 eq_refl)) as [G1 V1]. rewrite G1. cbn [bind]. eexists. split; [reflexivity|].
    cbn [fst snd]. split; [reflexivity|]. split; [reflexivity|]. split; [exact V0|]. intros _. exact V1.
  - eexists. split; [reflexivity|]. cbn [fst snd]. split; [reflexivity|]. split; [reflexivity|]. split; [exact V0|]. discriminate.
Qed.

Lemma find_ok : forall e c s, env_ok e c -> around_ok e -> tables_right e -> arrays_ok s ->
  exists s' g, find_mv_stack e c s = Ok s' /\ s_global s' = g /\
    fst g = code_global e (v_ref0 e) /\ (c = true -> snd g = code_global e (v_ref1 e)) /\
    repr c (bonus_of (near_cands (plain e) c g)) (near_cands (plain e) c g ++ temporal_cands (plain e) c) s' /\
    s_new s' = new_count (plain e) c g (above_blocks e ++ left_blocks e ++ corner_blocks e) /\
    s_close s' = close_matches (plain e) c g /\ s_zero_ctx s' = zero_context (plain e) c g.
Proof.
  intros e c s HE HA HT HS. pose proof HE as [OB O0 O1 OT OP OTI OPO OM OF].
  destruct (units _ OB) as [U1 U2]. pose proof (units_pos _ U1) as V1. pose proof (units_pos _ U2) as V2.
  unfold find_mv_stack. rewrite wide_table by (apply OB || apply HT). rewrite high_table by exact OB. cbn [bind]. fold (bw4 e). fold (bh4 e). fold (bw4 e) in U1, V1. fold (bh4 e) in U2, V2.
  set (s0 := set_new 0 (set_list 0 (s_stack s) (s_weights s) s)).
  destruct (setup_ok e c s0 HE) as (g & EG & G0 & G1 & GO). rewrite EG. cbn [bind].
  assert (HR : refs_ok e c) by (split; [exact OT|split; [exact O0|exact O1]]).
  destruct (above_facts e c HE) as (FA & WA & LA). destruct (left_facts e c HE) as (FL & WL & LL). destruct (corner_facts e c HE) as (FC & WC & LC).
  pose proof (weight_sum_nonneg _ FA) as NA. pose proof (weight_sum_nonneg _ FL) as NL. pose proof (weight_sum_nonneg _ FC) as NC.
  rewrite scan_row_ok by assumption.
  destruct (cands_of_weights (plain e) c g _ FA) as [CA1 CA2]. destruct (cands_of_weights (plain e) c g _ FL) as [CL1 CL2]. destruct (cands_of_weights (plain e) c g _ FC) as [CC1 CC2].
  assert (RM0 : room (fun _ => 0) 0 [] (2 ^ 62)).
  { repeat split; try lia; [constructor]. }
  destruct (add_all_ok e c (above_blocks e) (set_found false (set_global g s0)) (fun _ => 0) 0 []) as (s1 & E1 & A1); try assumption; try (cbn [s_new set_found set_global s0 set_new]; lia).
  { eapply room_less; [exact RM0|lia]. }
  { apply repr_start; [reflexivity|exact HS]. }
  rewrite E1. cbn [bind]. cbn [app s_global set_found set_global s_new set_new] in A1. destruct A1 as (R1 & N1 & F1 & P1 & C1 & Z1). cbn [s0 s_new set_new set_found set_global s_found s_global] in N1, F1, P1.
  rewrite scan_col_ok by assumption.
  assert (RM1 : room (fun _ => 0) 0 (cands_of (plain e) c g (above_blocks e)) (2 ^ 61)).
  { apply (room_app (cands_of (plain e) c g (above_blocks e)) (fun _ => 0) 0 []); [|exact CA1|lia]. apply (room_less _ _ _ _ _ RM0). lia. }
  pose proof (new_count_bound (plain e) c g (above_blocks e)) as NA'.
  destruct (add_all_ok e c (left_blocks e) (set_found false s1) (fun _ => 0) 0 (cands_of (plain e) c g (above_blocks e))) as (s2 & E2 & A2); try assumption.
  { cbn [s_global set_found]. rewrite P1. exact GO. } { cbn [s_new set_found]. lia. } { cbn [s_new set_found]. lia. }
  { eapply room_less; [exact RM1|lia]. }
  rewrite E2. cbn [bind]. cbn [s_global set_found] in A2. rewrite P1 in A2. destruct A2 as (R2 & N2 & F2 & P2 & C2 & Z2). cbn [s_new s_found s_global set_found] in N2, F2, P2. rewrite P1 in P2.
  assert (RM2 : room (fun _ => 0) 0 (cands_of (plain e) c g (above_blocks e) ++ cands_of (plain e) c g (left_blocks e)) (2 ^ 60)).
  { apply room_app; [|exact CL1|lia]. eapply room_less; [exact RM1|lia]. }
  pose proof (new_count_bound (plain e) c g (left_blocks e)) as NL'.
  assert (E3 : (if Z.max (bw4 e) (bh4 e) <=? 16 then scan_point e c (bw4 e) (set_found false s2) else Ok (set_found false s2)) =
               add_all e c (corner_blocks e) (set_found false s2)).
  { destruct (Z.leb_spec (Z.max (bw4 e) (bh4 e)) 16); [apply scan_point_ok; assumption|].
    rewrite corner_big by assumption. reflexivity. }
  rewrite E3. clear E3.
  destruct (add_all_ok e c (corner_blocks e) (set_found false s2) (fun _ => 0) 0 (cands_of (plain e) c g (above_blocks e) ++ cands_of (plain e) c g (left_blocks e))) as (s3 & E3 & A3); try assumption.
  { cbn [s_global set_found]. rewrite P2. exact GO. } { cbn [s_new set_found]. lia. } { cbn [s_new set_found]. lia. }
  { eapply room_less; [exact RM2|lia]. }
  rewrite E3. cbn [bind]. cbn [s_global set_found] in A3. rewrite P2 in A3. destruct A3 as (R3 & N3 & F3 & P3 & C3 & Z3). cbn [s_new s_found s_global set_found] in N3, F3, P3. rewrite P2 in P3.
  assert (EN : near_cands (plain e) c g = (cands_of (plain e) c g (above_blocks e) ++ cands_of (plain e) c g (left_blocks e)) ++ cands_of (plain e) c g (corner_blocks e)).
  { rewrite near_plain, !cands_of_app, app_assoc. reflexivity. }
  assert (RM3 : room (fun _ => 0) 0 (near_cands (plain e) c g) (2 ^ 59)).
  { rewrite EN. apply room_app; [|exact CC1|lia]. eapply room_less; [exact RM2|lia]. }
  rewrite <- EN in R3.
  assert (WN : 0 <= all_weights (near_cands (plain e) c g) <= 5000) by (rewrite EN, !all_weights_app; lia).
  set (s4 := set_close (b2z (s_found s1 || s_found s3) + b2z (s_found s2)) s3).
  destruct (add_level_repr c (near_cands (plain e) c g) s4 0) as (ws & EW & R4); try lia.
  { eapply repr_ext; [exact R3|reflexivity..]. } { eapply room_less; [exact RM3|lia]. }
  change (s_num s3) with (s_num s4). change (s_weights s3) with (s_weights s4). rewrite EW. cbn [bind].
  change (if 16 <=? bh4 e then 4 else 2) with (step_of (bh4 e)). change (if 16 <=? bw4 e then 4 else 2) with (step_of (bw4 e)).
  rewrite rows_steps by assumption. change (flat_map (fun dr => map (fun dc => (dr, dc)) (steps (bw4 e))) (steps (bh4 e))) with (positions e).
  set (s5 := set_zero 0 (set_list (s_num s4) (s_stack s4) ws s4)) in *.
  destruct (positions_len e c HE) as (tl & EP & TF & TL).
  assert (RM4 : room (bonus_of (near_cands (plain e) c g)) 640 (near_cands (plain e) c g) (2 * len (positions e))).
  { rewrite EP, len_cons. pose proof (len_nonneg _ tl). destruct RM3 as (_ & _ & X & _). repeat split; try lia; try assumption.
    - intros k NK. unfold bonus_of. destruct (in_dec vec_dec k _); [contradiction|reflexivity].
    - unfold bonus_of. destruct (in_dec vec_dec k _); lia.
    - unfold bonus_of. destruct (in_dec vec_dec k _); lia. }
  assert (G5 : s_global s5 = g) by exact P3.
  destruct (samples_ok e c (positions e) s5 (bonus_of (near_cands (plain e) c g)) 640 (near_cands (plain e) c g)) as (s6 & E6 & R6 & N6 & F6 & P6 & C6 & Z6); try assumption.
  { rewrite G5. exact GO. }
  exists s6, g. split; [exact E6|]. rewrite P6, N6, C6, Z6, G5.
  split; [reflexivity|]. split; [exact G0|]. split; [intros ->; exact G1|]. split; [unfold temporal_cands; rewrite positions_plain; exact R6|].
  split; [|split].
  - change (s_new s5) with (s_new s3). rewrite N3, N2, N1, !new_count_app. lia.
  - change (s_close s5) with (b2z (s_found s1 || s_found s3) + b2z (s_found s2)). rewrite F1, F2, F3. cbn [orb].
    rewrite close_plain, cands_of_app, has_cand_app. reflexivity.
  - rewrite EP. cbn [fold_left]. rewrite zero_skip by exact TF. change (s_zero_ctx s5) with 0. apply zero_first.
Qed.

(** In the first row of the frame the look-up of the corner fails. *)
Lemma get_nbr_neg : forall e r c, r < 0 -> get_nbr e r c = Panic.
Proof. intros e r c H. unfold get_nbr. rewrite idx_oob by lia. reflexivity. Qed.
Lemma find_first_row : forall e c s s', 0 <= v_size e < 22 -> width_of (v_size e) <= 64 -> height_of (v_size e) <= 64 -> v_row e = 0 ->
  find_mv_stack e c s <> Ok s'.
Proof.
  intros e c s s' HB HW HH HR H. unfold find_mv_stack in H.
  apply bind_inv in H. destruct H as (w & Ew & H). apply bind_inv in H. destruct H as (h & Eh & H).
  rewrite high_table in Eh by exact HB. injection Eh as <-.
  assert (Hw : w <= 16).
  { apply in_sizes in HB. cbn [In sizes] in HB. clear -HB Ew HW.
    repeat (destruct HB as [E|HB]; [rewrite <- E in *; vm_compute in Ew; injection Ew as <-; vm_compute in HW; first [lia|exfalso; apply HW; reflexivity]|]). destruct HB. }
  apply bind_inv in H. destruct H as (s1 & _ & H). apply bind_inv in H. destruct H as (s2 & _ & H).
  apply bind_inv in H. destruct H as (s3 & _ & H). apply bind_inv in H. destruct H as (s4 & E4 & _).
  destruct (Z.leb_spec (Z.max w (height_of (v_size e) / 4)) 16); [|lia].
  unfold scan_point in E4. rewrite get_nbr_neg in E4 by lia. discriminate.
Qed.
(** The same wherever the block above to the right has not been coded. *)
Lemma find_no_corner : forall e c s s', 0 <= v_size e < 22 -> table_right (v_size e) -> bw4 e <= 16 -> bh4 e <= 16 ->
  0 < v_row e -> 0 <= v_col e -> nb_at e (v_row e - 1) (v_col e + bw4 e) = None -> find_mv_stack e c s <> Ok s'.
Proof.
  intros e c s s' HB HT HW HH HR HC HN H. unfold find_mv_stack in H. rewrite wide_table in H by assumption. rewrite high_table in H by assumption. cbn [bind] in H.
  fold (bw4 e) in H. fold (bh4 e) in H. destruct (units _ HB) as [U _]. apply units_pos in U. fold (bw4 e) in U.
  apply bind_inv in H. destruct H as (s1 & _ & H). apply bind_inv in H. destruct H as (s2 & _ & H).
  apply bind_inv in H. destruct H as (s3 & _ & H). apply bind_inv in H. destruct H as (s4 & E4 & _).
  destruct (Z.leb_spec (Z.max (bw4 e) (bh4 e)) 16); [|lia].
  unfold scan_point, get_nbr, nb_at, idx in *. destruct (Z.ltb_spec (v_row e - 1) 0); [lia|]. destruct (Z.ltb_spec (v_col e + bw4 e) 0); [lia|].
  destruct (nth_error (v_mis e) (Z.to_nat (v_row e - 1))) as [row|]; [|discriminate]. cbn [bind] in E4.
  destruct (nth_error row (Z.to_nat (v_col e + bw4 e))) as [o|]; [|discriminate]. cbn [bind] in E4. subst o. discriminate.
Qed.

(** ** Statements *)

Lemma any_candidates : forall e c nbs s,
  Forall (fun bw => nbr_ok (fst bw) /\ 0 <= snd bw) nbs -> refs_ok e c -> global_ok c (s_global s) ->
  s_num s = 0 -> s_new s = 0 -> arrays_ok s -> weight_sum nbs < 2 ^ 62 -> len nbs < 2 ^ 62 ->
  let cs := cands_of (plain e) c (s_global s) nbs in
  exists s', add_all e c nbs s = Ok s' /\
    entries c s' = kept cs /\ weights s' = map (fun k => total k cs) (kept cs) /\
    NoDup (entries c s') /\ s_num s' = len (entries c s') /\ s_num s' <= 8 /\ arrays_ok s' /\
    s_new s' = new_count (plain e) c (s_global s) nbs /\ s_found s' = s_found s || has_cand cs /\ s_global s' = s_global s.
Proof.
  intros e c nbs s HF HR HG HN HW HA HS HL cs. pose proof (weight_sum_nonneg _ HF) as W0.
  destruct (add_all_ok e c nbs s (fun _ => 0) 0 []) as (s' & E & R & N & F & G & _ & _); try assumption; try lia.
  { repeat split; try lia; [constructor|]. cbn [all_weights]. lia. }
  { apply repr_start; assumption. }
  cbn [app] in R. fold cs in R. destruct (repr_spec _ _ _ _ R) as (P1 & P2 & P3 & P4).
  exists s'. split; [exact E|]. split; [exact P2|]. split; [rewrite P3; apply map_ext; intros; lia|].
  split; [rewrite P2; apply kept_nodup|]. split; [rewrite P1, P2; reflexivity|].
  split; [rewrite P1; unfold len; pose proof (kept_length cs); lia|]. split; [exact P4|]. split; [rewrite N, HW; reflexivity|]. split; [exact F|exact G].
Qed.

Lemma find_exact : forall e c s, env_ok e c -> around_ok e -> tables_right e -> arrays_ok s ->
  exists s', find_mv_stack e c s = Ok s' /\
    fst (s_global s') = code_global e (v_ref0 e) /\ (c = true -> snd (s_global s') = code_global e (v_ref1 e)) /\
    let near := near_cands (plain e) c (s_global s') in
    let all := near ++ temporal_cands (plain e) c in
    entries c s' = kept all /\ weights s' = map (fun k => total k all + bonus_of near k) (kept all) /\
    s_num s' = len (entries c s') /\ arrays_ok s' /\
    s_new s' = new_count (plain e) c (s_global s') (above_blocks e ++ left_blocks e ++ corner_blocks e) /\
    s_close s' = close_matches (plain e) c (s_global s') /\ s_zero_ctx s' = zero_context (plain e) c (s_global s').
Proof.
  intros e c s HE HA HT HS. destruct (find_ok e c s HE HA HT HS) as (s' & g & E & <- & G0 & G1 & R & N & C & Z).
  destruct (repr_spec _ _ _ _ R) as (P1 & P2 & P3 & P4).
  exists s'. cbv zeta. rewrite P2. repeat split; try assumption; apply P4.
Qed.

Lemma plain_same : forall e, v_hp e = false -> plain e = e.
Proof. intros [] H. cbn in H. subst. reflexivity. Qed.
Lemma code_global_translation : forall e rf, v_hp e = false -> gm_type_of e rf <= 1 -> 0 <= gm_type_of e rf -> code_global e rf = av1_global_mv e rf.
Proof.
  intros e rf H T T0. unfold code_global, av1_global_mv. rewrite plain_same by exact H.
  replace ((rf =? 0) || (gm_type_of e rf =? 0) || (gm_type_of e rf =? 1)) with true by lia. reflexivity.
Qed.
Lemma find_conforms : forall e c s, env_ok e c -> around_ok e -> tables_right e -> arrays_ok s -> v_hp e = false ->
  0 <= gm_type_of e (v_ref0 e) <= 1 -> (c = true -> 0 <= gm_type_of e (v_ref1 e) <= 1) ->
  exists s', find_mv_stack e c s = Ok s' /\
    fst (s_global s') = av1_global_mv e (v_ref0 e) /\ (c = true -> snd (s_global s') = av1_global_mv e (v_ref1 e)) /\
    let near := near_cands e c (s_global s') in
    let all := near ++ temporal_cands e c in
    entries c s' = kept all /\ weights s' = map (fun k => total k all + bonus_of near k) (kept all) /\
    s_new s' = new_count e c (s_global s') (above_blocks e ++ left_blocks e ++ corner_blocks e) /\
    s_close s' = close_matches e c (s_global s') /\ s_zero_ctx s' = zero_context e c (s_global s').
Proof.
  intros e c s HE HA HT HS HH T0 T1. destruct (find_exact e c s HE HA HT HS) as (s' & E & G0 & G1 & P1 & P2 & P3 & P4 & P5 & P6 & P7).
  rewrite (plain_same e HH) in *. exists s'. cbv zeta. repeat split; try assumption.
  - rewrite G0. apply code_global_translation; lia || assumption.
  - intros C. rewrite (G1 C). specialize (T1 C). apply code_global_translation; lia || assumption.
Qed.
Lemma global_conforms : forall e c rf, env_ok e c -> 0 <= rf < 8 -> v_hp e = false -> rf = 0 \/ 0 <= gm_type_of e rf <= 1 ->
  global_mv e rf = Ok (av1_global_mv e rf).
Proof.
  intros e c rf HE HR HH HT. destruct (global_mv_ok e c rf HE HR) as [-> _]. f_equal.
  unfold code_global, av1_global_mv. rewrite plain_same by exact HH.
  replace ((rf =? 0) || (gm_type_of e rf =? 0) || (gm_type_of e rf =? 1)) with true by lia. reflexivity.
Qed.
(** A warp: the components are swapped and their signs lost. *)
Lemma global_warp : forall e c rf, env_ok e c -> 0 < rf < 8 -> v_hp e = false -> 1 < gm_type_of e rf ->
  global_mv e rf = Ok (Z.abs (snd (av1_global_mv e rf)), Z.abs (fst (av1_global_mv e rf))).
Proof.
  intros e c rf HE HR HH HT. destruct (global_mv_ok e c rf HE) as [-> _]; [lia|]. f_equal.
  unfold code_global, av1_global_mv. rewrite plain_same by exact HH.
  replace ((rf =? 0) || (gm_type_of e rf =? 0) || (gm_type_of e rf =? 1)) with false by lia. reflexivity.
Qed.

(** To check examples. *)
Lemma nb_at_all : forall e (P : nbr -> Prop), (forall row o, In row (v_mis e) -> In o row -> match o with Some b => P b | None => True end) ->
  forall r c b, nb_at e r c = Some b -> P b.
Proof.
  intros e P H r c b E. unfold nb_at in E. destruct (nth_error (v_mis e) (Z.to_nat r)) as [row|] eqn:E1; [|discriminate].
  destruct (nth_error row (Z.to_nat c)) as [o|] eqn:E2; [|discriminate]. subst o.
  exact (H row (Some b) (nth_error_In _ _ E1) (nth_error_In _ _ E2)).
Qed.
