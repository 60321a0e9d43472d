(** Proofs about the assignment and coding of motion vectors (ModeInfoModel). *)
From Coq Require Import String ZArith List Bool Lia ZifyBool.
From Verif Require Import Base BaseProofs BlockTables SeqSpec ElementModel ElementSpec ContextModel ContextSpec ContextProofs MvStackModel
  ModeInfoModel ModeInfoSpec ModeInfoProofs.
Import ListNotations.
Open Scope string_scope.
Open Scope list_scope.
Open Scope Z_scope.
Ltac Zify.zify_post_hook ::= Z.div_mod_to_equations.

(** ** Readers only consume *)

Lemma bits_len : forall ctx comp n i q v r, av1_bits ctx comp n i q = Some (v, r) -> (List.length r <= List.length q)%nat.
Proof.
  intros ctx comp. induction n as [|n IH]; intros i q v r; cbn [av1_bits].
  - intros H. injection H as <- <-. lia.
  - destruct (sym _ _ q) as [[b q']|] eqn:E; [|discriminate]. cbn [obind]. apply sym_len in E.
    fold (av1_bits ctx comp). destruct (av1_bits ctx comp n (i + 1) q') as [[d q'']|] eqn:E'; [|discriminate]. cbn [obind].
    apply IH in E'. intros H. injection H as <- <-. lia.
Qed.
Lemma opt_len : forall (b : bool) n p q (c : Z) v r, (if b then Some (c, q) else sym n p q) = Some (v, r) -> (List.length r <= List.length q)%nat.
Proof. intros [] n p q c v r H; [injection H as <- <-; lia|apply sym_len in H; lia]. Qed.
Lemma opt_len' : forall (b : bool) n p q (c : Z) v r, (if b then sym n p q else Some (c, q)) = Some (v, r) -> (List.length r <= List.length q)%nat.
Proof. intros [] n p q c v r H; [apply sym_len in H; lia|injection H as <- <-; lia]. Qed.
Lemma component_len : forall ctx comp int hp q v r, av1_component ctx comp int hp q = Some (v, r) -> (List.length r < List.length q)%nat.
Proof.
  intros ctx comp int hp q v r. unfold av1_component.
  destruct (sym _ _ q) as [[s q1]|] eqn:E1; [|discriminate]. cbn [obind]. apply sym_len in E1.
  destruct (sym _ _ q1) as [[c q2]|] eqn:E2; [|discriminate]. cbn [obind]. apply sym_len in E2.
  destruct (c =? 0).
  - destruct (sym _ _ q2) as [[b q3]|] eqn:E3; [|discriminate]. cbn [obind]. apply sym_len in E3.
    destruct (if int then _ else _) as [[fr q4]|] eqn:E4; [|discriminate]. cbn [obind]. apply opt_len in E4.
    destruct (if hp then _ else _) as [[h q5]|] eqn:E5; [|discriminate]. cbn [obind]. apply opt_len' in E5.
    intros H. injection H as <- <-. lia.
  - destruct (av1_bits _ _ _ _ q2) as [[d q3]|] eqn:E3; [|discriminate]. cbn [obind]. apply bits_len in E3.
    destruct (if int then _ else _) as [[fr q4]|] eqn:E4; [|discriminate]. cbn [obind]. apply opt_len in E4.
    destruct (if hp then _ else _) as [[h q5]|] eqn:E5; [|discriminate]. cbn [obind]. apply opt_len' in E5.
    intros H. injection H as <- <-. lia.
Qed.
Lemma component_joint : forall ctx comp int hp p s q, av1_component ctx comp int hp (ESym "mv_joint" p s :: q) = None.
Proof. intros. unfold av1_component. rewrite sym_name by discriminate. reflexivity. Qed.

(** ** One coded joint *)

Definition joint (ctx : Z) (d : mv) : ev := ESym "mv_joint" [ctx] (mv_joint d).
Lemma joint_zero : forall ctx int hp p q, av1_mv ctx int hp p (joint ctx (0, 0) :: q) = Some (p, q).
Proof. intros ctx int hp [a b] q. unfold av1_mv, joint. rewrite sym_hit. cbn. rewrite !Z.add_0_r. reflexivity. Qed.
Lemma joint_short : forall ctx int hp p d q v r, d <> (0, 0) -> av1_mv ctx int hp p (joint ctx d :: q) = Some (v, r) ->
  (List.length r < List.length q)%nat.
Proof.
  intros ctx int hp p [x y] q v r D. unfold av1_mv, joint. rewrite sym_hit. cbn [obind]. unfold mv_joint. cbn [fst snd].
  destruct (Z.eqb_spec x 0), (Z.eqb_spec y 0); cbn [Z.eqb Pos.eqb orb]; [subst; congruence| | |].
  - destruct (av1_component ctx 0 int hp q) as [[a q1]|] eqn:E; [|discriminate]. cbn [obind]. apply component_len in E.
    intros H. injection H as <- <-. lia.
  - cbn [obind]. destruct (av1_component ctx 1 int hp q) as [[a q1]|] eqn:E; [|discriminate]. cbn [obind]. apply component_len in E.
    intros H. injection H as <- <-. lia.
  - destruct (av1_component ctx 0 int hp q) as [[a q1]|] eqn:E; [|discriminate]. cbn [obind]. apply component_len in E.
    destruct (av1_component ctx 1 int hp q1) as [[a' q2]|] eqn:E'; [|discriminate]. cbn [obind]. apply component_len in E'.
    intros H. injection H as <- <-. lia.
Qed.
Lemma joint_joint : forall ctx int hp p d e q, d <> (0, 0) -> av1_mv ctx int hp p (joint ctx d :: joint ctx e :: q) = None.
Proof.
  intros ctx int hp p [x y] e q D. unfold av1_mv, joint. generalize (mv_joint e) as je. intros je. rewrite sym_hit. cbn [obind]. unfold mv_joint. cbn [fst snd].
  destruct (Z.eqb_spec x 0), (Z.eqb_spec y 0); cbn [Z.eqb Pos.eqb orb]; [subst; congruence| | |];
    cbn [obind]; rewrite component_joint; reflexivity.
Qed.

(** ** Modes of the lists *)

Lemma mode_0 : forall y m0 m1, modes_of y = Some (m0, m1) -> get_mode y 0 = single_mode m0.
Proof.
  intros y m0 m1 H. assert (B : In y [14; 15; 16; 17; 18; 19; 20; 21; 22; 23; 24; 25]).
  { unfold modes_of in H. destruct (Z.ltb_spec y 18).
    - destruct y as [|y|y]; try discriminate. do 5 (destruct y as [y|y|]; try discriminate; try (cbn; tauto)).
    - assert (L : nth_error compound_modes (Z.to_nat (y - 18)) <> None) by congruence. apply nth_error_Some in L. cbn in L. cbn. lia. }
  cbn in B. decompose [or] B; try contradiction; subst y; cbn in H; injection H as <- <-; reflexivity.
Qed.
Lemma mode_1 : forall y m0 m1, modes_of y = Some (m0, m1) -> get_mode y 1 = single_mode m1.
Proof.
  intros y m0 m1 H. assert (B : In y [14; 15; 16; 17; 18; 19; 20; 21; 22; 23; 24; 25]).
  { unfold modes_of in H. destruct (Z.ltb_spec y 18).
    - destruct y as [|y|y]; try discriminate. do 5 (destruct y as [y|y|]; try discriminate; try (cbn; tauto)).
    - assert (L : nth_error compound_modes (Z.to_nat (y - 18)) <> None) by congruence. apply nth_error_Some in L. cbn in L. cbn. lia. }
  cbn in B. decompose [or] B; try contradiction; subst y; cbn in H; injection H as <- <-; reflexivity.
Qed.

(** The inputs: a list with the chosen entry, vectors whose differences fit. *)
Definition vec_small (m : mv) : Prop := - 2 ^ 62 < fst m < 2 ^ 62 /\ - 2 ^ 62 < snd m < 2 ^ 62.
Record mv_in_ok (x : mv_in) : Prop := {
  ok_list : Forall (fun t => vec_small (fst t) /\ vec_small (snd t)) (n_list x);
  ok_room : 2 <= len (n_list x);
  ok_idx : 0 <= n_idx x < len (n_list x);
  ok_globals : vec_small (fst (n_globals x)) /\ vec_small (snd (n_globals x))
}.

Lemma nth_idx : forall (A : Type) (l : list A) i d, 0 <= i < len l -> idx l i = Ok (nth (Z.to_nat i) l d).
Proof.
  intros A l i d H. unfold idx, len in *. destruct (Z.ltb_spec i 0); [lia|].
  destruct (nth_error l (Z.to_nat i)) eqn:E; [|apply nth_error_None in E; lia]. rewrite (nth_error_nth _ _ d E). reflexivity.
Qed.

Lemma pred_ok : forall x i m pred, n_intrabc x = false -> mv_in_ok x -> i = 0 \/ i = 1 ->
  pred_mvs x i (single_mode m) pred =
  Ok (set_at i (av1_pred m (n_idx x) (n_num x) (map (at_list i) (n_list x)) (at_list i (n_globals x))) pred).
Proof.
  intros x i m pred NB X I. destruct X as [_ OR OI _]. unfold pred_mvs. rewrite NB.
  assert (N : forall j, 0 <= j < len (n_list x) ->
    exists t, idx (n_list x) j = Ok t /\ @nth (Z * Z) (Z.to_nat j) (map (at_list i) (n_list x)) (0, 0) = at_list i t).
  { intros j J. rewrite (nth_idx _ (n_list x) j ((0, 0), (0, 0)) J). eexists. split; [reflexivity|].
    replace (0, 0) with (at_list i ((0, 0) : mv, (0, 0) : mv)) at 1 by (destruct I as [-> | ->]; reflexivity).
    unfold mv. rewrite map_nth. reflexivity. }
  destruct m; unfold single_mode, GLOBALMV, NEWMV, NEARESTMV; cbn [Z.eqb Pos.eqb andb av1_pred].
  - destruct (N 0) as (t & E & E'); [lia|]. rewrite E. cbn [bind]. change (Z.to_nat 0) with 0%nat in E'. rewrite E'. reflexivity.
  - destruct (N (n_idx x)) as (t & E & E'); [lia|]. rewrite E. cbn [bind]. rewrite E'. reflexivity.
  - reflexivity.
  - destruct (n_num x <=? 1).
    + destruct (N 0) as (t & E & E'); [lia|]. rewrite E. cbn [bind]. change (Z.to_nat 0) with 0%nat in E'. rewrite E'. reflexivity.
    + destruct (N (n_idx x)) as (t & E & E'); [lia|]. rewrite E. cbn [bind]. rewrite E'. reflexivity.
Qed.

Definition pred_of (x : mv_in) (i : Z) (m : imode) : mv :=
  av1_pred m (n_idx x) (n_num x) (map (at_list i) (n_list x)) (at_list i (n_globals x)).
Lemma pred_small : forall x i m, mv_in_ok x -> i = 0 \/ i = 1 -> vec_small (pred_of x i m).
Proof.
  intros x i m X I. unfold pred_of. destruct X as [OL OR OI OG].
  assert (N : forall j, (j < List.length (n_list x))%nat -> vec_small (@nth (Z * Z) j (map (at_list i) (n_list x)) (0, 0))).
  { intros j J. replace (0, 0) with (at_list i ((0, 0) : mv, (0, 0) : mv)) by (destruct I as [-> | ->]; reflexivity).
    unfold mv. rewrite map_nth. rewrite Forall_forall in OL. specialize (OL _ (nth_In (n_list x) ((0, 0), (0, 0)) J)). destruct I as [-> | ->]; cbn [at_list Z.eqb]; tauto. }
  unfold len in *. destruct m; cbn [av1_pred].
  - apply N. lia.
  - apply N. lia.
  - destruct I as [-> | ->]; cbn [at_list Z.eqb]; tauto.
  - destruct (n_num x <=? 1); apply N; lia.
Qed.

Lemma diff_ok : forall a b, - 2 ^ 62 < a < 2 ^ 62 -> - 2 ^ 62 < b < 2 ^ 62 -> chk_i64 (a - b) = Ok (a - b).
Proof. intros a b A B. apply chk_i64_ok. lia. Qed.

Definition is_new (m : imode) : bool := match m with New => true | _ => false end.
Lemma single_new : forall m, (single_mode m =? NEWMV) = is_new m.
Proof. intros []; reflexivity. Qed.
Lemma mv_diff : forall (a b : mv), (fst a - fst b, snd a - snd b) = (0, 0) <-> a = b.
Proof. intros [x y] [z w]. cbn [fst snd]. split; intros H; [injection H; intros; f_equal; lia|injection H as -> ->; f_equal; lia]. Qed.

(** ** One list *)
Lemma one_mv_exactly : forall x mvs pred mode es m0 m1 int hp, n_intrabc x = false -> mv_in_ok x ->
  modes_of (n_y_mode x) = Some (m0, m1) -> vec_small (fst mvs) ->
  let p0 := pred_of x 0 m0 in
  exists ds mvs', assign_mv false x mvs pred mode es = Ok (es ++ ds, mvs', (p0, snd pred), single_mode m0) /\
    mvs' = (if is_new m0 then fst mvs else p0, snd mvs) /\
    ((is_new m0 = true -> fst mvs = p0) -> reads_as ds (av1_list_mv m0 0 int hp p0) (fst mvs')) /\
    (~ (is_new m0 = true -> fst mvs = p0) -> never_reads_as ds (av1_list_mv m0 0 int hp p0) (fst mvs')).
Proof.
  intros x mvs pred mode es m0 m1 int hp NB X M S p0. unfold assign_mv. cbn [assign_mv_loop]. rewrite NB, (mode_0 _ _ _ M).
  rewrite (pred_ok x 0 m0 pred NB X (or_introl eq_refl)). cbn [bind]. fold (pred_of x 0 m0). fold p0. unfold set_at. cbn [Z.eqb]. rewrite single_new.
  assert (P := pred_small x 0 m0 X (or_introl eq_refl)). fold p0 in P. destruct P as [P1 P2], S as [S1 S2]. cbn [fst snd].
  unfold reads_as, never_reads_as. destruct (is_new m0) eqn:N.
  - destruct m0; try discriminate. rewrite (diff_ok _ _ S1 P1). cbn [bind]. rewrite (diff_ok _ _ S2 P2). cbn [bind].
    unfold encode_mv_joint, emit. cbn [bind]. fold (joint 0 (fst (fst mvs) - fst p0, snd (fst mvs) - snd p0)).
    eexists. eexists. split; [reflexivity|]. split; [destruct mvs; reflexivity|]. cbn [av1_list_mv app]. split.
    + intros H k. specialize (H eq_refl). rewrite (proj2 (mv_diff (fst mvs) p0) H), joint_zero. rewrite H. reflexivity.
    + intros H k E. apply joint_short in E; [lia|]. intros D. apply (proj1 (mv_diff _ _)) in D. apply H. intros _. exact D.
  - exists (@nil ev). eexists. split; [rewrite app_nil_r; reflexivity|]. split; [reflexivity|].
    cbn [app fst]. split; [intros _ k; destruct m0; try discriminate; reflexivity|]. intros H. exfalso. apply H. discriminate.
Qed.

(** ** Two lists *)
Definition both_equal (m0 m1 : imode) (mvs : mv * mv) (p0 p1 : mv) : Prop :=
  (is_new m0 = true -> fst mvs = p0) /\ (is_new m1 = true -> snd mvs = p1).
Lemma two_mvs_exactly : forall x mvs pred mode es m0 m1 int hp, n_intrabc x = false -> mv_in_ok x ->
  modes_of (n_y_mode x) = Some (m0, m1) -> vec_small (fst mvs) ->
  let p0 := pred_of x 0 m0 in let p1 := pred_of x 1 m1 in
  exists ds mvs', assign_mv true x mvs pred mode es = Ok (es ++ ds, mvs', (p0, p1), single_mode m1) /\
    mvs' = (if is_new m0 then fst mvs else p0, if is_new m1 then snd mvs else p1) /\
    (both_equal m0 m1 mvs p0 p1 -> reads_as ds (av1_assign_mv m0 m1 p0 p1 int hp) mvs') /\
    (~ both_equal m0 m1 mvs p0 p1 -> never_reads_as ds (av1_assign_mv m0 m1 p0 p1 int hp) mvs').
Proof.
  intros x mvs pred mode es m0 m1 int hp NB X M S p0 p1. unfold assign_mv. cbn [assign_mv_loop]. rewrite NB, (mode_0 _ _ _ M), (mode_1 _ _ _ M).
  rewrite (pred_ok x 0 m0 pred NB X (or_introl eq_refl)). cbn [bind]. fold (pred_of x 0 m0). fold p0.
  rewrite !(pred_ok x 1 m1 _ NB X (or_intror eq_refl)). unfold set_at, at_list. cbn [Z.eqb fst snd]. rewrite !single_new.
  fold (pred_of x 1 m1). change (av1_pred m1 (n_idx x) (n_num x) (map (fun p : mv * mv => snd p) (n_list x)) (snd (n_globals x))) with p1.
  assert (P := pred_small x 0 m0 X (or_introl eq_refl)). fold p0 in P. destruct P as [P1 P2], S as [S1 S2].
  unfold reads_as, never_reads_as, both_equal, av1_assign_mv.
  set (d := (fst (fst mvs) - fst p0, snd (fst mvs) - snd p0)).
  destruct (is_new m0) eqn:N0, (is_new m1) eqn:N1; unfold encode_mv_joint, emit; cbn [bind fst snd].
  - rewrite (diff_ok _ _ S1 P1). cbn [bind]. rewrite (diff_ok _ _ S2 P2). cbn [bind]. fold d. fold (joint 0 d). rewrite <- app_assoc. cbn [app].
    eexists. eexists. split; [reflexivity|]. split; [destruct mvs; reflexivity|].
    destruct m0; try discriminate. destruct m1; try discriminate. cbn [av1_list_mv app]. split.
    + intros [H0 H1] k. specialize (H0 eq_refl). specialize (H1 eq_refl). subst d. rewrite (proj2 (mv_diff (fst mvs) p0) H0), joint_zero. cbn [obind].
      rewrite joint_zero. cbn [obind]. rewrite <- H0, <- H1. destruct mvs; reflexivity.
    + intros H k E. destruct (Z.eq_dec (fst d) 0) as [D0|D0]; [destruct (Z.eq_dec (snd d) 0) as [D1|D1]|].
      * assert (D : d = (0, 0)) by (rewrite (surjective_pairing d), D0, D1; reflexivity). rewrite D, joint_zero in E. cbn [obind] in E.
        rewrite joint_zero in E. cbn [obind] in E. injection E as E. apply H. destruct mvs as [a b]. cbn [fst snd]. injection E as <- <-. tauto.
      * rewrite joint_joint in E by (intros X'; rewrite X' in D1; apply D1; reflexivity). discriminate.
      * rewrite joint_joint in E by (intros X'; rewrite X' in D0; apply D0; reflexivity). discriminate.
  - rewrite (diff_ok _ _ S1 P1). cbn [bind]. rewrite (diff_ok _ _ S2 P2). cbn [bind]. fold d. fold (joint 0 d).
    eexists. eexists. split; [reflexivity|]. split; [reflexivity|]. destruct m0; try discriminate. cbn [av1_list_mv app].
    replace (av1_list_mv m1 0 int hp p1) with (fun q : list ev => Some (p1, q)) by (destruct m1; try discriminate; reflexivity). split.
    + intros [H0 _] k. specialize (H0 eq_refl). subst d. rewrite (proj2 (mv_diff (fst mvs) p0) H0), joint_zero. cbn [obind]. rewrite <- H0. reflexivity.
    + intros H k E. destruct (av1_mv _ _ _ _ _) as [[v q]|] eqn:E1 in E; [|discriminate]. cbn [obind] in E. injection E as _ ->.
      apply joint_short in E1; [lia|]. intros D. apply (proj1 (mv_diff _ _)) in D. apply H. split; [intros _; exact D|discriminate].
  - replace (fst p0 - fst p0) with 0 by lia. replace (snd p0 - snd p0) with 0 by lia. cbn [chk_i64]. rewrite !chk_i64_ok by lia. cbn [bind].
    fold (joint 0 (0, 0)). eexists. eexists. split; [reflexivity|]. split; [reflexivity|]. destruct m1; try discriminate. cbn [av1_list_mv app].
    replace (av1_list_mv m0 0 int hp p0) with (fun q : list ev => Some (p0, q)) by (destruct m0; try discriminate; reflexivity). cbn [obind]. split.
    + intros [_ H1] k. specialize (H1 eq_refl). rewrite joint_zero. cbn [obind]. rewrite <- H1. reflexivity.
    + intros H k E. rewrite joint_zero in E. cbn [obind] in E. injection E as E. apply H. split; [discriminate|]. intros _. congruence.
  - exists (@nil ev). eexists. split; [rewrite app_nil_r; reflexivity|]. split; [reflexivity|]. cbn [app].
    replace (av1_list_mv m0 0 int hp p0) with (fun q : list ev => Some (p0, q)) by (destruct m0; try discriminate; reflexivity).
    replace (av1_list_mv m1 0 int hp p1) with (fun q : list ev => Some (p1, q)) by (destruct m1; try discriminate; reflexivity). cbn [obind].
    split; [reflexivity|]. intros H. exfalso. apply H. split; discriminate.
Qed.

(** ** Intra block copy *)
Definition sb4 (x : mv_in) : Z := if n_sb128 x then 32 else 16.
Lemma intrabc_exactly : forall x mvs pred mode es int hp, n_intrabc x = true -> mv_in_ok x -> vec_small (fst mvs) -> 0 <= n_row x < 2 ^ 32 ->
  let c0 := fst (nth 0 (n_list x) ((0, 0), (0, 0))) in let c1 := fst (nth 1 (n_list x) ((0, 0), (0, 0))) in
  let p := av1_intrabc_pred c0 c1 (n_row x) (n_row_start x) (sb4 x) in
  (c0 = (0, 0) /\ c1 = (0, 0) /\ n_row x < sb4 x -> assign_mv false x mvs pred mode es = Panic) /\
  (~ (c0 = (0, 0) /\ c1 = (0, 0) /\ n_row x < sb4 x) ->
    exists ds, assign_mv false x mvs pred mode es = Ok (es ++ ds, mvs, (p, snd pred), 17) /\
      (fst mvs = p -> reads_as ds (av1_mv 1 int hp p) (fst mvs)) /\
      (fst mvs <> p -> never_reads_as ds (av1_mv 1 int hp p) (fst mvs))).
Proof.
  intros x mvs pred mode es int hp B X S R c0 c1 p. unfold assign_mv. cbn [assign_mv_loop]. rewrite B. unfold pred_mvs. rewrite B. unfold intrabc_pred.
  destruct X as [OL OR OI _]. rewrite (nth_idx _ (n_list x) 0 ((0, 0), (0, 0))) by lia. rewrite (nth_idx _ (n_list x) 1 ((0, 0), (0, 0))) by lia.
  cbn [bind]. change (Z.to_nat 0) with 0%nat. change (Z.to_nat 1) with 1%nat. fold c0 c1. fold (sb4 x).
  assert (L : (1 < List.length (n_list x))%nat) by (unfold len in OR; lia).
  assert (V0 : vec_small c0). { rewrite Forall_forall in OL. assert (L0 : (0 < List.length (n_list x))%nat) by lia. apply (proj1 (OL _ (nth_In _ _ L0))). }
  assert (V1 : vec_small c1). { rewrite Forall_forall in OL. apply (proj1 (OL _ (nth_In _ _ L))). }
  assert (Q : forall m : mv, mv_eqb m (0, 0) = (fst m =? 0) && (snd m =? 0)) by reflexivity.
  assert (Z0 : forall m : mv, mv_eqb m (0, 0) = true <-> m = (0, 0)).
  { intros [a b]. unfold mv_eqb. cbn [fst snd]. rewrite andb_true_iff, !Z.eqb_eq. split; [intros [-> ->]; reflexivity|intros E; injection E; tauto]. }
  assert (SB : sb4 x = 16 \/ sb4 x = 32) by (unfold sb4; destruct (n_sb128 x); tauto).
  assert (fin : forall q, vec_small q ->
    exists ds,
      (dx <- chk_i64 (fst (fst mvs) - fst (fst (q, snd pred))) ;;
       dy <- chk_i64 (snd (fst mvs) - snd (fst (q, snd pred))) ;;
       es <- emit (encode_mv_joint (mv_joint (dx, dy)) 1) es ;; Ok (es, mvs, (q, snd pred), NEWMV)) = Ok (es ++ ds, mvs, (q, snd pred), 17) /\
      (fst mvs = q -> reads_as ds (av1_mv 1 int hp q) (fst mvs)) /\
      (fst mvs <> q -> never_reads_as ds (av1_mv 1 int hp q) (fst mvs))).
  { intros q [V V']. cbn [fst]. destruct S as [S1 S2]. rewrite (diff_ok _ _ S1 V). cbn [bind]. rewrite (diff_ok _ _ S2 V'). cbn [bind].
    unfold encode_mv_joint, emit. cbn [bind]. fold (joint 1 (fst (fst mvs) - fst q, snd (fst mvs) - snd q)).
    eexists. split; [reflexivity|]. unfold reads_as, never_reads_as. cbn [app]. split.
    - intros H k. rewrite (proj2 (mv_diff (fst mvs) q) H), joint_zero. rewrite H. reflexivity.
    - intros H k E. apply joint_short in E; [lia|]. intros D. apply (proj1 (mv_diff _ _)) in D. exact (H D). }
  split.
  - intros (E0 & E1 & L1). rewrite E0, E1. cbn [mv_eqb fst snd Z.eqb andb]. unfold chk_u64, chk.
    destruct (Z.leb_spec 0 (n_row x - sb4 x)); [lia|]. reflexivity.
  - intros H. unfold p, av1_intrabc_pred. rewrite <- !Q. destruct (mv_eqb c0 (0, 0)) eqn:E0; cbn [negb].
    2: { rewrite E0. cbn [bind Z.eqb]. unfold set_at. cbn [Z.eqb NEWMV Pos.eqb]. apply fin. exact V0. }
    destruct (mv_eqb c1 (0, 0)) eqn:E1; cbn [negb].
    2: { cbn [bind Z.eqb]. unfold set_at. cbn [Z.eqb NEWMV Pos.eqb]. apply fin. exact V1. }
    apply Z0 in E0. apply Z0 in E1.
    assert (L2 : sb4 x <= n_row x) by (destruct (Z.le_gt_cases (sb4 x) (n_row x)); [assumption|exfalso; apply H; tauto]).
    rewrite chk_u64_ok by lia. cbn [bind]. destruct (n_row x - sb4 x <? n_row_start x); cbn [bind]; unfold set_at; cbn [Z.eqb NEWMV Pos.eqb]; apply fin;
      unfold vec_small; cbn [fst snd]; destruct SB as [-> | ->]; lia.
Qed.
