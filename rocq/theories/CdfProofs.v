(** Adaptation of a CDF: never panics on a valid one and keeps it valid. *)
From Coq Require Import ZArith List Bool Lia ZifyBool ZifyNat Sorted.
From Verif Require Import Base BaseProofs UtilModel UtilProofs RangeCoderModel RangeCoderSpec.
Import ListNotations.
Open Scope Z_scope.
Ltac Zify.zify_post_hook ::= Z.div_mod_to_equations.

(** [c - ((c - t) >> k)]: pull [c] towards [t]. *)
Definition pull (k c t : Z) : Z := c - (c - t) / 2 ^ k.

Lemma pull_mono : forall k c1 t1 c2 t2, 0 <= k -> c1 < c2 -> t1 < t2 -> pull k c1 t1 < pull k c2 t2.
Proof.
  intros k c1 t1 c2 t2 Hk Hc Ht. unfold pull.
  assert (Hp : 0 < 2 ^ k) by (apply Z.pow_pos_nonneg; lia).
  set (p := 2 ^ k) in *.
  pose proof (Z.div_mod (c1 - t1) p ltac:(lia)).
  pose proof (Z.mod_pos_bound (c1 - t1) p ltac:(lia)).
  pose proof (Z.div_mod (c2 - t2) p ltac:(lia)).
  pose proof (Z.mod_pos_bound (c2 - t2) p ltac:(lia)).
  set (q1 := (c1 - t1) / p) in *. set (q2 := (c2 - t2) / p) in *.
  destruct (Z_le_gt_dec q2 q1); [lia|].
  assert (p * (q2 - q1) <= (c2 - t2) - (c1 - t1) + p - 1) by lia.
  assert ((q2 - q1 - 1) * 1 <= (q2 - q1 - 1) * p) by (apply Z.mul_le_mono_nonneg_l; lia).
  lia.
Qed.

Lemma pull_fix : forall k c, pull k c c = c.
Proof. intros. unfold pull. replace (c - c) with 0 by lia. rewrite Zdiv_0_l. lia. Qed.

(** The loop without its overflow checks. *)
Fixpoint adapt_pure (k : nat) (i symbol tmp diff rate : Z) (l : list Z) : list Z :=
  match k, l with
  | S k', c :: r =>
      let t := tmp + (if i =? symbol then diff else 0) in
      pull rate c t :: adapt_pure k' (i + 1) symbol (t + 32) diff rate r
  | _, _ => l
  end.

Lemma adapt_pure_length : forall k i s t d r l, length (adapt_pure k i s t d r l) = length l.
Proof.
  induction k; intros; simpl; [reflexivity|]. destruct l; simpl; [reflexivity|]. rewrite IHk. reflexivity.
Qed.

Lemma adapt_loop_ok : forall k i s t d r l,
  0 <= r ->
  (k <= length l)%nat ->
  (forall j, (j < k)%nat -> 0 <= nth j l 0 <= 32768) ->
  0 <= d -> 0 <= t ->
  t + 32 * Z.of_nat k + (if i <=? s then d else 0) <= 1000000 ->
  adapt_loop k i s t d r l = Ok (adapt_pure k i s t d r l).
Proof.
  induction k; intros i s t d r l Hr Hl Hc Hd Ht Hb; [reflexivity|].
  destruct l as [|c l]; [simpl in Hl; lia|].
  simpl. pose proof (Hc 0%nat ltac:(lia)) as Hc0. simpl in Hc0.
  set (t1 := t + (if i =? s then d else 0)) in *.
  assert (Ht1 : 0 <= t1 /\ t1 + 32 + 32 * Z.of_nat k + (if i + 1 <=? s then d else 0) <= 1000000).
  { subst t1. destruct (i =? s) eqn:E; destruct (i <=? s) eqn:E2; destruct (i + 1 <=? s) eqn:E3; lia. }
  rewrite chk_i32_ok by (destruct (i + 1 <=? s); lia). cbn [bind].
  rewrite chk_i32_ok by (destruct (i + 1 <=? s); lia). cbn [bind].
  rewrite shiftr_div by lia.
  assert (Hp : 0 < 2 ^ r) by (apply Z.pow_pos_nonneg; lia).
  assert (Hq : - 1000000 <= (c - t1) / 2 ^ r <= 32768).
  { split.
    - apply Z.div_le_lower_bound; [lia|]. destruct (i + 1 <=? s); nia.
    - apply Z.div_le_upper_bound; [lia|]. nia. }
  rewrite chk_i32_ok by lia. cbn [bind].
  rewrite chk_i32_ok by (destruct (i + 1 <=? s); lia). cbn [bind].
  rewrite IHk.
  - reflexivity.
  - assumption.
  - simpl in Hl; lia.
  - intros j Hj. apply (Hc (S j)). lia.
  - assumption.
  - lia.
  - lia.
Qed.

Lemma Sorted_lt_cons : forall a l, Sorted Z.lt (a :: l) ->
  match l with [] => True | b :: _ => a < b end /\ Sorted Z.lt l.
Proof.
  intros a l H. inversion H; subst. split; [|assumption].
  destruct l; [trivial|]. inversion H3; subst. assumption.
Qed.

(** Key induction: along the pulled prefix the order is kept, and the last
    pulled element stays below the fixed point (32768, 32768). *)
Lemma adapt_sorted : forall k i s t d r prev tprev l,
  0 <= r -> 0 <= d ->
  length l = S k ->
  Sorted Z.lt (prev :: l) ->
  last l 0 = 32768 ->
  tprev < t ->
  t + 32 * Z.of_nat k + (if i <=? s then d else 0) <= 32768 ->
  Sorted Z.lt (pull r prev tprev :: adapt_pure k i s t d r l) /\
  last (adapt_pure k i s t d r l) 0 = 32768.
Proof.
  induction k; intros i s t d r prev tprev l Hr Hd Hl Hs Hlast Ht Hb.
  - destruct l as [|c l]; [discriminate|]. destruct l; [|discriminate].
    simpl in Hlast. subst c. simpl. split; [|reflexivity].
    apply Sorted_lt_cons in Hs. destruct Hs as [Hlt _].
    constructor; [constructor; constructor|]. constructor.
    rewrite <- (pull_fix r 32768) at 1. apply pull_mono; [lia|lia|].
    destruct (i <=? s); lia.
  - destruct l as [|c l]; [discriminate|]. injection Hl as Hl.
    cbn [adapt_pure]. set (t1 := t + (if i =? s then d else 0)) in *.
    apply Sorted_lt_cons in Hs. destruct Hs as [Hlt Hs].
    assert (Hl2 : last l 0 = 32768). { destruct l; [discriminate|]. exact Hlast. }
    specialize (IHk (i + 1) s (t1 + 32) d r c t1 l Hr Hd Hl Hs Hl2 ltac:(lia)).
    assert (Hb' : t1 + 32 + 32 * Z.of_nat k + (if i + 1 <=? s then d else 0) <= 32768).
    { subst t1. destruct (i =? s) eqn:E; destruct (i <=? s) eqn:E2; destruct (i + 1 <=? s) eqn:E3; lia. }
    destruct (IHk Hb') as [IH1 IH2]. split.
    + constructor; [exact IH1|]. constructor. apply pull_mono; [lia|lia|].
      subst t1. destruct (i =? s); lia.
    + assert (Hn : adapt_pure k (i + 1) s (t1 + 32) d r l <> []).
      { intros E. apply (f_equal (@length Z)) in E. rewrite adapt_pure_length in E. simpl in E. lia. }
      destruct (adapt_pure k (i + 1) s (t1 + 32) d r l); [congruence|]. exact IH2.
Qed.

Lemma bump_last_ok : forall l c, - 1000 <= c <= 1000000 ->
  bump_last (l ++ [c]) = Ok (l ++ [c + b2z (c <? 32)]).
Proof.
  intros l c Hc. induction l as [|x l IH].
  - simpl. rewrite chk_i32_ok by (destruct (c <? 32); simpl; lia). reflexivity.
  - simpl app. destruct (l ++ [c]) eqn:E; [destruct l; discriminate|].
    cbn [bump_last]. cbn [bump_last] in IH. rewrite IH. reflexivity.
Qed.

Lemma adapt_pure_app : forall k i s t d r a b, (k <= length a)%nat ->
  adapt_pure k i s t d r (a ++ b) = adapt_pure k i s t d r a ++ b.
Proof.
  induction k; intros; simpl; [destruct (a ++ b), a; reflexivity|].
  destruct a as [|c a]; [simpl in H; lia|]. simpl. rewrite IHk by (simpl in H; lia). reflexivity.
Qed.

Lemma sorted_bounds : forall l a b, Sorted Z.lt (a :: l) -> last l a = b -> 0 <= a ->
  forall j, (j < length l)%nat -> a < nth j l 0 <= b.
Proof.
  induction l as [|x l IH]; intros a b Hs Hb Ha j Hj; [simpl in Hj; lia|].
  apply Sorted_lt_cons in Hs. destruct Hs as [Hlt Hs].
  destruct l as [|y l].
  - simpl in Hb, Hj. subst. assert (j = 0)%nat by lia. subst. simpl. lia.
  - assert (Hb' : last (y :: l) x = b).
    { rewrite <- Hb. clear. cbn [last]. revert y. induction l as [|z l IH]; intros y; [reflexivity|]. exact (IH z). }
    specialize (IH x b Hs Hb' ltac:(lia)). destruct j.
    + simpl. specialize (IH 0%nat ltac:(simpl; lia)). simpl in IH. lia.
    + specialize (IH j ltac:(simpl in *; lia)). simpl in *. lia.
Qed.

Lemma last_default : forall (l : list Z) a b, l <> [] -> last l a = last l b.
Proof.
  induction l as [|x l IH]; intros a b H; [congruence|].
  destruct l; [reflexivity|]. cbn [last]. cbn [last] in IH. apply IH. discriminate.
Qed.

(** Values of a valid CDF. *)
Lemma valid_cdf_nth : forall N cdf j, valid_cdf N cdf -> (j < N)%nat -> 0 < nth j cdf 0 <= 32768.
Proof.
  intros N cdf j (probs & cnt & -> & Hl & HN & Hs & Hla & Hc) Hj.
  rewrite app_nth1 by lia. apply (sorted_bounds probs 0 32768 Hs Hla ltac:(lia) j). lia.
Qed.

Lemma sorted_nth_lt : forall l a, Sorted Z.lt (a :: l) ->
  forall i j, (i < j < length l)%nat -> nth i l 0 < nth j l 0.
Proof.
  induction l as [|x l IH]; intros a Hs i j H; [simpl in H; lia|].
  apply Sorted_lt_cons in Hs. destruct Hs as [_ Hs].
  destruct j; [lia|]. destruct i.
  - simpl. apply Sorted_StronglySorted in Hs; [|intros p q r; lia].
    inversion Hs; subst. rewrite Forall_forall in H3. apply H3. apply nth_In. simpl in H; lia.
  - simpl. apply (IH x Hs). simpl in H; lia.
Qed.

Lemma valid_cdf_lt : forall N cdf i j, valid_cdf N cdf -> (i < j < N)%nat -> nth i cdf 0 < nth j cdf 0.
Proof.
  intros N cdf i j (probs & cnt & -> & Hl & HN & Hs & Hla & Hc) Hj.
  rewrite !app_nth1 by lia. apply (sorted_nth_lt probs 0 Hs). lia.
Qed.

Lemma valid_cdf_last : forall N cdf, valid_cdf N cdf -> nth (N - 1) cdf 0 = 32768.
Proof.
  intros N cdf (probs & cnt & -> & Hl & HN & Hs & Hla & Hc).
  rewrite app_nth1 by lia. rewrite <- Hla. subst N.
  destruct (exists_last (l := probs)) as (l' & a & ->).
  { intros ->. simpl in HN. lia. }
  rewrite last_last, app_length. simpl length.
  rewrite app_nth2 by lia. replace (length l' + 1 - 1 - length l')%nat with 0%nat by lia. reflexivity.
Qed.

Lemma valid_cdf_len : forall N cdf, valid_cdf N cdf -> length cdf = S N /\ (2 <= N <= 1024)%nat.
Proof.
  intros N cdf (probs & cnt & -> & Hl & HN & _). rewrite app_length. simpl. lia.
Qed.

(** Main result on adaptation. *)
Lemma update_cdf_valid : forall N cdf s,
  valid_cdf N cdf -> exists cdf', update_cdf s cdf = Ok cdf' /\ valid_cdf N cdf'.
Proof.
  intros N cdf s (probs & cnt & -> & Hl & HN & Hs & Hla & Hc).
  unfold update_cdf. rewrite len_app. unfold len. rewrite Hl. cbn [length].
  rewrite chk_u64_ok by lia. cbn [bind].
  replace (Z.of_nat N + Z.of_nat 1 - 1) with (Z.of_nat N) by lia.
  rewrite as_i32_id by lia.
  rewrite idx_nth with (d := 0).
  2:{ rewrite len_app. unfold len. rewrite Hl. simpl. lia. }
  rewrite app_nth2 by lia. rewrite Nat2Z.id, Hl, Nat.sub_diag. simpl nth. cbn [bind].
  rewrite as_u16_id by lia. rewrite msb16_log2 by lia. cbn [bind].
  set (rate := 4 + b2z (31 <? cnt) + Z.log2 (Z.of_nat N)).
  assert (Hlog : 0 <= Z.log2 (Z.of_nat N) <= 10).
  { split; [apply Z.log2_nonneg|]. change 10 with (Z.log2 1024). apply Z.log2_le_mono. lia. }
  assert (Hrate : 4 <= rate <= 15). { subst rate. destruct (31 <? cnt); simpl b2z; lia. }
  clearbody rate.
  rewrite !shiftl_mul by lia. change (2 ^ 5) with 32. change (1 * 2 ^ 15) with 32768.
  rewrite as_i32_id by lia. rewrite chk_i32_ok by lia. cbn [bind].
  rewrite shiftr_div by lia.
  assert (Hp : 0 < 2 ^ rate) by (apply Z.pow_pos_nonneg; lia).
  set (d := 32768 - Z.of_nat N * 32) in *.
  assert (Hdd : d + Z.of_nat N * 32 = 32768) by (subst d; lia). clearbody d.
  assert (Hd : 0 <= d / 2 ^ rate * 2 ^ rate <= d).
  { pose proof (Z.div_mod d (2 ^ rate) ltac:(lia)).
    pose proof (Z.mod_pos_bound d (2 ^ rate) Hp).
    assert (0 <= d / 2 ^ rate) by (apply Z.div_pos; lia). nia. }
  rewrite (shiftl_mul (d / 2 ^ rate)) by lia.
  set (diff := d / 2 ^ rate * 2 ^ rate) in *. clearbody diff.
  rewrite (as_i32_id diff) by lia.
  replace (Z.to_nat (Z.of_nat N - 1)) with (N - 1)%nat by lia.
  rewrite adapt_loop_ok; try lia.
  2:{ rewrite app_length; simpl; lia. }
  2:{ intros j Hj. rewrite app_nth1 by lia.
      pose proof (sorted_bounds probs 0 32768 Hs Hla ltac:(lia) j ltac:(lia)). lia. }
  2:{ destruct (0 <=? s); lia. }
  cbn [bind]. rewrite adapt_pure_app by lia. rewrite bump_last_ok by lia.
  eexists. split; [reflexivity|].
  destruct (adapt_sorted (N - 1) 0 s 32 diff rate 0 0 probs ltac:(lia) ltac:(lia) ltac:(lia) Hs Hla ltac:(lia))
    as [A1 A2]. { destruct (0 <=? s); lia. }
  exists (adapt_pure (N - 1) 0 s (1 * 32) diff rate probs), (cnt + b2z (cnt <? 32)).
  split; [reflexivity|]. split; [rewrite adapt_pure_length; assumption|].
  split; [assumption|]. split; [rewrite pull_fix in A1; exact A1|].
  split; [exact A2|]. destruct (cnt <? 32) eqn:E; simpl b2z; lia.
Qed.
