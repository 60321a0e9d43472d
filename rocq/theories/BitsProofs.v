(** Lemmas about bit strings. *)
From Coq Require Import ZArith List Bool Lia ZifyBool ZifyNat.
From Verif Require Import Base BaseProofs BitsSpec.
Import ListNotations.
Open Scope Z_scope.
Ltac Zify.zify_post_hook ::= Z.div_mod_to_equations.

Lemma pow2_pos : forall n, 0 <= n -> 0 < 2 ^ n.
Proof. intros. apply Z.pow_pos_nonneg; lia. Qed.
Lemma pow2_nat_pos : forall n, 0 < 2 ^ Z.of_nat n.
Proof. intros. apply pow2_pos. lia. Qed.
Lemma pow2_S : forall n, 2 ^ Z.of_nat (S n) = 2 * 2 ^ Z.of_nat n.
Proof. intros. rewrite Nat2Z.inj_succ, Z.pow_succ_r by lia. reflexivity. Qed.
Lemma pow2_add : forall a b, 2 ^ Z.of_nat (a + b) = 2 ^ Z.of_nat a * 2 ^ Z.of_nat b.
Proof. intros. rewrite Nat2Z.inj_add, Z.pow_add_r by lia. reflexivity. Qed.
Lemma pow2_le : forall a b, 0 <= a <= b -> 2 ^ a <= 2 ^ b.
Proof. intros. apply Z.pow_le_mono_r; lia. Qed.

Lemma fold_bits : forall l a,
  fold_left (fun a b => 2 * a + b) l a = a * 2 ^ Z.of_nat (length l) + bits_val l.
Proof.
  unfold bits_val. induction l as [|b l IH]; intros a; cbn [fold_left].
  - simpl length. change (2 ^ Z.of_nat 0) with 1. lia.
  - simpl length. rewrite (IH (2 * a + b)), (IH (2 * 0 + b)), pow2_S. lia.
Qed.

Lemma bits_val_nil : bits_val [] = 0.
Proof. reflexivity. Qed.
Lemma bits_val_cons : forall b l, bits_val (b :: l) = b * 2 ^ Z.of_nat (length l) + bits_val l.
Proof. intros. unfold bits_val at 1. cbn [fold_left]. rewrite fold_bits. reflexivity. Qed.
Lemma bits_val_app : forall a b, bits_val (a ++ b) = bits_val a * 2 ^ Z.of_nat (length b) + bits_val b.
Proof. intros. unfold bits_val at 1. rewrite fold_left_app. rewrite fold_bits. reflexivity. Qed.
Lemma bits_val_snoc : forall a b, bits_val (a ++ [b]) = 2 * bits_val a + b.
Proof.
  intros. rewrite bits_val_app. simpl length. change (2 ^ Z.of_nat 1) with 2.
  rewrite bits_val_cons, bits_val_nil. simpl length. change (2 ^ Z.of_nat 0) with 1. lia.
Qed.

Lemma bits_val_bound : forall l, is_bits l -> 0 <= bits_val l < 2 ^ Z.of_nat (length l).
Proof.
  induction l as [|b l IH]; intros H.
  - rewrite bits_val_nil. simpl. lia.
  - inversion H; subst. specialize (IH H3). rewrite bits_val_cons. simpl length. rewrite pow2_S.
    destruct H2; subst; lia.
Qed.

Lemma is_bits_app : forall a b, is_bits (a ++ b) <-> is_bits a /\ is_bits b.
Proof. intros. unfold is_bits. apply Forall_app. Qed.
Lemma is_bits_cons : forall a b, is_bits (a :: b) <-> is_bit a /\ is_bits b.
Proof. intros. unfold is_bits. split; intros H; [inversion H; auto|constructor; tauto]. Qed.

Lemma mod2_bit : forall v, is_bit (v mod 2).
Proof. intros. unfold is_bit. pose proof (Z.mod_pos_bound v 2 ltac:(lia)). lia. Qed.

Lemma to_bits_bits : forall n v, is_bits (to_bits n v).
Proof.
  induction n; intros; simpl; [constructor|]. constructor; [apply mod2_bit|apply IHn].
Qed.
Lemma to_bits_length : forall n v, length (to_bits n v) = n.
Proof. induction n; intros; simpl; auto. Qed.

Lemma mod_pow2_S : forall v n, v mod 2 ^ Z.of_nat (S n) =
  ((v / 2 ^ Z.of_nat n) mod 2) * 2 ^ Z.of_nat n + v mod 2 ^ Z.of_nat n.
Proof.
  intros. rewrite pow2_S. pose proof (pow2_nat_pos n).
  rewrite (Z.mul_comm 2), Z.rem_mul_r by lia. lia.
Qed.

Lemma bits_val_to_bits : forall n v, bits_val (to_bits n v) = v mod 2 ^ Z.of_nat n.
Proof.
  induction n; intros.
  - simpl. rewrite bits_val_nil. change (2 ^ 0) with 1. rewrite Z.mod_1_r. reflexivity.
  - simpl to_bits. rewrite bits_val_cons, to_bits_length, IHn, mod_pow2_S. reflexivity.
Qed.

Lemma bits_val_to_bits_small : forall n v, 0 <= v < 2 ^ Z.of_nat n -> bits_val (to_bits n v) = v.
Proof. intros. rewrite bits_val_to_bits. apply Z.mod_small. assumption. Qed.

Lemma to_bits_mod : forall n v, to_bits n (v mod 2 ^ Z.of_nat n) = to_bits n v.
Proof.
  assert (G : forall n m v, (n <= m)%nat -> to_bits n (v mod 2 ^ Z.of_nat m) = to_bits n v).
  { induction n; intros m v H; [reflexivity|]. simpl. rewrite IHn by lia. f_equal.
    replace m with ((m - n - 1) + (S n))%nat at 1 by lia.
    rewrite pow2_add, pow2_S.
    pose proof (pow2_nat_pos n). pose proof (pow2_nat_pos (m - n - 1)).
    set (p := 2 ^ Z.of_nat n) in *. set (k := 2 ^ Z.of_nat (m - n - 1)) in *.
    replace (k * (2 * p)) with (p * (2 * k)) by lia.
    rewrite Z.rem_mul_r by lia.
    rewrite Z.mul_comm, Z.div_add by lia.
    rewrite (Z.div_small (v mod p) p) by (apply Z.mod_pos_bound; lia).
    rewrite Z.add_0_l. rewrite Z.rem_mul_r by lia.
    rewrite Z.mul_comm, Z.mod_add by lia. apply Z.mod_mod. lia. }
  intros. apply G. lia.
Qed.

Lemma to_bits_val : forall l, is_bits l -> to_bits (length l) (bits_val l) = l.
Proof.
  induction l as [|b l IH]; intros H; [reflexivity|].
  apply is_bits_cons in H. destruct H as [Hb Hl].
  simpl length. simpl to_bits. pose proof (bits_val_bound l Hl).
  rewrite bits_val_cons. f_equal.
  - rewrite Z.add_comm, Z.div_add by (pose proof (pow2_nat_pos (length l)); lia).
    rewrite Z.div_small by assumption. rewrite Z.add_0_l.
    destruct Hb; subst; reflexivity.
  - rewrite <- to_bits_mod. rewrite Z.add_comm, Z.mod_add by (pose proof (pow2_nat_pos (length l)); lia).
    rewrite Z.mod_small by assumption. apply IH. assumption.
Qed.

Lemma bits_val_inj : forall a b, is_bits a -> is_bits b -> length a = length b ->
  bits_val a = bits_val b -> a = b.
Proof.
  intros a b Ha Hb Hl Hv. rewrite <- (to_bits_val a Ha), <- (to_bits_val b Hb), Hl, Hv. reflexivity.
Qed.

Lemma to_bits_app : forall a b v, to_bits (a + b) v = to_bits a (v / 2 ^ Z.of_nat b) ++ to_bits b v.
Proof.
  induction a; intros; simpl; [reflexivity|]. rewrite IHa. f_equal.
  rewrite Z.div_div by (try (pose proof (pow2_nat_pos b); lia); apply pow2_nat_pos).
  rewrite <- pow2_add. rewrite Nat.add_comm. reflexivity.
Qed.

Lemma to_bits_snoc : forall k v, to_bits (S k) v = to_bits k (v / 2) ++ [v mod 2].
Proof.
  intros. replace (S k) with (k + 1)%nat by lia. rewrite to_bits_app.
  change (2 ^ Z.of_nat 1) with 2. f_equal. simpl. change (2 ^ 0) with 1.
  rewrite Z.div_1_r. reflexivity.
Qed.

Lemma is_bits_repeat : forall b n, is_bit b -> is_bits (repeat b n).
Proof. intros. apply Forall_forall. intros x Hx. apply repeat_spec in Hx. subst. assumption. Qed.

Lemma bits_val_zeros : forall n, bits_val (repeat 0 n) = 0.
Proof. induction n; [reflexivity|]. simpl repeat. rewrite bits_val_cons, IHn. lia. Qed.
Lemma bits_val_ones : forall n, bits_val (repeat 1 n) = 2 ^ Z.of_nat n - 1.
Proof.
  induction n; [reflexivity|]. simpl repeat. rewrite bits_val_cons, IHn, repeat_length, pow2_S. lia.
Qed.

Lemma bits_val_firstn : forall l n, is_bits l -> (n <= length l)%nat ->
  bits_val (firstn n l) = bits_val l / 2 ^ Z.of_nat (length l - n).
Proof.
  intros l n Hl H. rewrite <- (firstn_skipn n l) at 2.
  rewrite <- (firstn_skipn n l) in Hl. apply is_bits_app in Hl. destruct Hl as [_ Hs].
  rewrite bits_val_app, skipn_length.
  pose proof (bits_val_bound _ Hs) as B. rewrite skipn_length in B.
  rewrite Z.add_comm, Z.div_add by (pose proof (pow2_nat_pos (length l - n)); lia).
  rewrite Z.div_small by lia. lia.
Qed.
