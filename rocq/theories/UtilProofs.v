(** Proofs about util.rs. *)
From Coq Require Import ZArith List Bool Lia ZifyBool ZifyNat.
From Verif Require Import Base BaseProofs UtilModel UtilSpec.
Import ListNotations.
Open Scope Z_scope.
Ltac Zify.zify_post_hook ::= Z.div_mod_to_equations.

Lemma lut_lookup : forall (lut : list Z) (n : nat) m,
  forallb (fun k => match nth_error lut k with
                    | Some v => v =? Z.log2 (Z.of_nat k)
                    | None => false end) (seq 0 n) = true ->
  0 <= m < Z.of_nat n -> idx lut m = Ok (Z.log2 m).
Proof.
  intros lut n m H Hm. rewrite forallb_forall in H.
  specialize (H (Z.to_nat m)). rewrite in_seq in H.
  assert (Hs : (0 <= Z.to_nat m < 0 + n)%nat) by lia.
  specialize (H Hs). unfold idx. destruct (m <? 0) eqn:E; [lia|].
  destruct (nth_error lut (Z.to_nat m)) eqn:En; [|discriminate].
  rewrite Z2Nat.id in H by lia. apply Z.eqb_eq in H. subst. reflexivity.
Qed.

Lemma lut16_ok : forall m, 0 <= m < 16 -> idx lut16 m = Ok (Z.log2 m).
Proof. intros. apply lut_lookup with (n := 16%nat); [reflexivity|lia]. Qed.
Lemma lut32_ok : forall m, 0 <= m < 16 -> idx lut32 m = Ok (Z.log2 m).
Proof. intros. apply lut_lookup with (n := 16%nat); [reflexivity|lia]. Qed.
Lemma lut64_ok : forall m, 0 <= m < 16 -> idx lut64 m = Ok (Z.log2 m).
Proof. intros. apply lut_lookup with (n := 16%nat); [reflexivity|lia]. Qed.

(** One halving step of the msb functions. *)
Lemma msb_step : forall n k, 0 <= k -> 0 < Z.shiftr n k -> Z.log2 n = k + Z.log2 (Z.shiftr n k).
Proof.
  intros n k Hk H.
  assert (0 <= n) by (apply (Z.shiftr_nonneg n k); lia).
  assert (Hn : 2 ^ k <= n).
  { rewrite shiftr_div in H by lia.
    assert (0 < 2 ^ k) by (apply Z.pow_pos_nonneg; lia).
    destruct (Z_lt_le_dec n (2 ^ k)) as [L|L]; [|lia].
    rewrite Z.div_small in H by lia. lia. }
  assert (0 < 2 ^ k) by (apply Z.pow_pos_nonneg; lia).
  rewrite Z.log2_shiftr by lia.
  assert (k <= Z.log2 n) by (apply Z.log2_le_pow2; lia).
  lia.
Qed.

Lemma shiftr_bound : forall n k b, 0 <= k -> 0 <= b -> 0 <= n < 2 ^ (k + b) -> 0 <= Z.shiftr n k < 2 ^ b.
Proof.
  intros n k b Hk Hb H. rewrite shiftr_div by lia.
  rewrite Z.pow_add_r in H by lia.
  assert (0 < 2 ^ k) by (apply Z.pow_pos_nonneg; lia).
  split. { apply Z.div_pos; lia. }
  apply Z.div_lt_upper_bound; lia.
Qed.

Lemma shiftr_zero_small : forall n k, 0 <= k -> 0 <= n -> ~ (0 < Z.shiftr n k) -> n < 2 ^ k.
Proof.
  intros n k Hk Hn H. rewrite shiftr_div in H by lia.
  assert (0 < 2 ^ k) by (apply Z.pow_pos_nonneg; lia).
  destruct (Z_lt_le_dec n (2 ^ k)) as [L|L]; [assumption|].
  assert (1 <= n / 2 ^ k) by (apply Z.div_le_lower_bound; lia). lia.
Qed.

Ltac msb_split n k b :=
  let E := fresh "E" in
  destruct (0 <? Z.shiftr n k) eqn:E;
  [ apply Z.ltb_lt in E;
    pose proof (msb_step n k ltac:(lia) E);
    pose proof (shiftr_bound n k b ltac:(lia) ltac:(lia) ltac:(lia))
  | apply Z.ltb_ge in E;
    pose proof (shiftr_zero_small n k ltac:(lia) ltac:(lia) ltac:(lia)) ].

Lemma log2_bound : forall m b, 0 < b -> 0 <= m < 2 ^ b -> 0 <= Z.log2 m < b.
Proof.
  intros m b Hb H. split; [apply Z.log2_nonneg|].
  destruct (Z.eq_dec m 0) as [->|N]; [simpl; lia|].
  apply Z.log2_lt_pow2; lia.
Qed.

Lemma log2_small : forall m, 0 <= m < 16 -> 0 <= Z.log2 m < 4.
Proof. intros. apply log2_bound; [lia|]. change (2 ^ 4) with 16. lia. Qed.

Ltac msb_fin lutok :=
  match goal with
  | |- context [idx _ ?m] =>
      rewrite (lutok m) by lia; pose proof (log2_small m ltac:(lia))
  end;
  cbn [bind]; rewrite chk_u8_ok by lia; f_equal; lia.

(** Tail shared by msb16, msb32 and msb64: from an 8-bit value down. *)
Definition msb_tail8 (lut : list Z) (bit m : Z) : res Z :=
  let m2 := Z.shiftr m 4 in
  let bit2 := if 0 <? m2 then bit + 4 else bit in
  let m2 := if 0 <? m2 then m2 else m in
  v <- idx lut m2 ;; chk_u8 (bit2 + v).
Lemma msb_tail8_ok : forall lut bit m,
  (forall m, 0 <= m < 16 -> idx lut m = Ok (Z.log2 m)) ->
  0 <= bit <= 200 -> 0 <= m < 256 -> msb_tail8 lut bit m = Ok (bit + Z.log2 m).
Proof.
  intros lut bit m Hl Hb Hm. unfold msb_tail8.
  change 256 with (2 ^ (4 + 4)) in Hm.
  msb_split m 4 4; change (2 ^ 4) with 16 in *; change (2 ^ (4 + 4)) with 256 in *;
    msb_fin Hl.
Qed.
Definition msb_tail16 (lut : list Z) (bit m : Z) : res Z :=
  let m1 := Z.shiftr m 8 in
  let bit1 := if 0 <? m1 then bit + 8 else bit in
  let m1 := if 0 <? m1 then m1 else m in
  msb_tail8 lut bit1 m1.
Lemma msb_tail16_ok : forall lut bit m,
  (forall m, 0 <= m < 16 -> idx lut m = Ok (Z.log2 m)) ->
  0 <= bit <= 100 -> 0 <= m < 65536 -> msb_tail16 lut bit m = Ok (bit + Z.log2 m).
Proof.
  intros lut bit m Hl Hb Hm. unfold msb_tail16.
  change 65536 with (2 ^ (8 + 8)) in Hm.
  msb_split m 8 8; change (2 ^ 8) with 256 in *; change (2 ^ (8 + 8)) with 65536 in *;
    (rewrite msb_tail8_ok; [f_equal; lia|assumption|lia|lia]).
Qed.

Lemma msb16_log2 : forall n, 0 <= n < 65536 -> msb16 n = Ok (Z.log2 n).
Proof.
  intros n Hn. change (msb16 n) with (msb_tail16 lut16 0 n).
  rewrite msb_tail16_ok; [f_equal; lia|exact lut16_ok|lia|lia].
Qed.

Lemma msb32_log2 : forall n, 0 <= n < 2 ^ 32 -> msb32 n = Ok (Z.log2 n).
Proof.
  intros n Hn.
  change (msb32 n) with
    (msb_tail16 lut32 (if 0 <? Z.shiftr n 16 then 16 else 0)
       (if 0 <? Z.shiftr n 16 then Z.shiftr n 16 else n)).
  change 32 with (16 + 16) in Hn.
  msb_split n 16 16; change (2 ^ 16) with 65536 in *;
    (rewrite msb_tail16_ok; [f_equal; lia|exact lut32_ok|lia|lia]).
Qed.

Lemma msb64_log2 : forall n, 0 <= n < 2 ^ 64 -> msb64 n = Ok (Z.log2 n).
Proof.
  intros n Hn.
  pose (m := if 0 <? Z.shiftr n 32 then Z.shiftr n 32 else n).
  pose (b := if 0 <? Z.shiftr n 32 then 32 else 0).
  change (msb64 n) with
    (msb_tail16 lut64 (if 0 <? Z.shiftr m 16 then b + 16 else b)
       (if 0 <? Z.shiftr m 16 then Z.shiftr m 16 else m)).
  assert (Hm : 0 <= m < 2 ^ (16 + 16) /\ Z.log2 n = b + Z.log2 m /\ 0 <= b <= 32).
  { subst m b. change 64 with (32 + 32) in Hn. msb_split n 32 32;
      change (2 ^ (16 + 16)) with (2 ^ 32); lia. }
  clearbody m b. destruct Hm as [Hm [Hl Hb]]. rewrite Hl.
  msb_split m 16 16; change (2 ^ 16) with 65536 in *;
    (rewrite msb_tail16_ok; [f_equal; lia|exact lut64_ok|lia|lia]).
Qed.

Lemma log2_is_floor : forall n, 0 < n -> is_floor_log2 n (Z.log2 n).
Proof.
  intros n H. unfold is_floor_log2. split; [apply Z.log2_nonneg|].
  replace (Z.log2 n + 1) with (Z.succ (Z.log2 n)) by lia. apply Z.log2_spec. assumption.
Qed.

Lemma floor_log2_unique : forall n k, is_floor_log2 n k -> Z.log2 n = k.
Proof.
  intros n k [H0 H]. apply Z.log2_unique; [assumption|].
  replace (Z.succ k) with (k + 1) by lia. assumption.
Qed.

Lemma floorlog2_loop_ok : forall fuel t s,
  0 <= t < 2 ^ (Z.of_nat fuel - 1) ->
  floorlog2_loop fuel t s = Ok (if t =? 0 then s else s + Z.log2 t + 1).
Proof.
  induction fuel as [|f IH]; intros t s H.
  - simpl in H. change (2 ^ (0 - 1)) with 0 in H. lia.
  - simpl. destruct (t =? 0) eqn:E; [reflexivity|].
    assert (Hf : 0 < Z.of_nat f).
    { destruct f; [|lia]. simpl in H. change (2 ^ (1 - 1)) with 1 in H. lia. }
    rewrite IH.
    2:{ rewrite Z.shiftr_div_pow2 by lia. change (2 ^ 1) with 2.
        replace (Z.of_nat (S f) - 1) with (Z.succ (Z.of_nat f - 1)) in H by lia.
        rewrite Z.pow_succ_r in H by lia. lia. }
    f_equal. destruct (Z.shiftr t 1 =? 0) eqn:E2.
    + rewrite Z.shiftr_div_pow2 in E2 by lia. change (2 ^ 1) with 2 in E2.
      assert (t = 1) by lia. subst. simpl Z.log2. lia.
    + assert (Hs : Z.log2 (Z.shiftr t 1) = Z.max 0 (Z.log2 t - 1)) by (apply Z.log2_shiftr; lia).
      assert (2 <= t). { rewrite Z.shiftr_div_pow2 in E2 by lia. change (2 ^ 1) with 2 in E2. lia. }
      assert (1 <= Z.log2 t) by (apply Z.log2_le_pow2; lia). lia.
Qed.

Lemma FloorLog2_ok : forall n, 0 < n < 2 ^ 64 -> FloorLog2 n = Ok (Z.log2 n).
Proof.
  intros n H. unfold FloorLog2. rewrite floorlog2_loop_ok by (change (Z.of_nat 65 - 1) with 64; lia).
  destruct (n =? 0) eqn:E; [lia|]. cbn [bind].
  pose proof (log2_bound n 64 ltac:(lia) ltac:(lia)).
  rewrite chk_u64_ok by lia. f_equal. lia.
Qed.

Lemma FloorLog2_zero : FloorLog2 0 = Panic.
Proof. reflexivity. Qed.

Lemma Round2_rounded : forall x n, 0 <= n -> is_rounded x n (Round2 x n).
Proof.
  intros x n Hn. unfold Round2, is_rounded.
  destruct (n =? 0) eqn:E.
  - apply Z.eqb_eq in E. subst. rewrite Z.pow_0_r. lia.
  - rewrite shiftr_div, shiftl_mul by lia.
    assert (Hp : 2 ^ n = 2 * 2 ^ (n - 1)).
    { rewrite <- Z.pow_succ_r by lia. f_equal. lia. }
    assert (0 < 2 ^ (n - 1)) by (apply Z.pow_pos_nonneg; lia).
    set (h := 2 ^ (n - 1)) in *. rewrite Hp.
    pose proof (Z.div_mod (x + 1 * h) (2 * h) ltac:(lia)).
    pose proof (Z.mod_pos_bound (x + 1 * h) (2 * h) ltac:(lia)). lia.
Qed.

Lemma is_rounded_unique : forall x n r r', 0 <= n -> is_rounded x n r -> is_rounded x n r' -> r = r'.
Proof.
  intros x n r r' Hn. unfold is_rounded. intros H1 H2.
  assert (0 < 2 ^ n) by (apply Z.pow_pos_nonneg; lia). nia.
Qed.
