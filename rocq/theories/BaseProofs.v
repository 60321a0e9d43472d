(** Lemmas about the common definitions; no property statements here. *)
From Coq Require Import ZArith List Bool Lia ZifyBool ZifyNat.
From Verif Require Import Base.
Import ListNotations.
Open Scope Z_scope.

Ltac Zify.zify_post_hook ::= Z.div_mod_to_equations.

Lemma chk_ok : forall lo hi z, lo <= z <= hi -> chk lo hi z = Ok z.
Proof.
  intros lo hi z H. unfold chk.
  destruct (lo <=? z) eqn:E1; destruct (z <=? hi) eqn:E2; simpl; try reflexivity; lia.
Qed.

Lemma chk_inv : forall lo hi z a, chk lo hi z = Ok a -> a = z /\ lo <= z <= hi.
Proof.
  intros lo hi z a. unfold chk.
  destruct (lo <=? z) eqn:E1; destruct (z <=? hi) eqn:E2; simpl; intros H;
    inversion H; subst; split; lia.
Qed.

Lemma chk_not_ok : forall lo hi z, ~ (lo <= z <= hi) -> chk lo hi z = Panic.
Proof.
  intros lo hi z H. unfold chk.
  destruct (lo <=? z) eqn:E1; destruct (z <=? hi) eqn:E2; simpl; try reflexivity; lia.
Qed.

Lemma chk_i32_ok : forall z, - 2147483648 <= z <= 2147483647 -> chk_i32 z = Ok z.
Proof. intros. apply chk_ok. lia. Qed.
Lemma chk_i64_ok : forall z, - 9223372036854775808 <= z <= 9223372036854775807 -> chk_i64 z = Ok z.
Proof. intros. apply chk_ok. lia. Qed.
Lemma chk_u8_ok : forall z, 0 <= z <= 255 -> chk_u8 z = Ok z.
Proof. intros. apply chk_ok. lia. Qed.
Lemma chk_u16_ok : forall z, 0 <= z <= 65535 -> chk_u16 z = Ok z.
Proof. intros. apply chk_ok. lia. Qed.
Lemma chk_u32_ok : forall z, 0 <= z <= 4294967295 -> chk_u32 z = Ok z.
Proof. intros. apply chk_ok. lia. Qed.
Lemma chk_u64_ok : forall z, 0 <= z <= 18446744073709551615 -> chk_u64 z = Ok z.
Proof. intros. apply chk_ok. lia. Qed.

Lemma as_i32_id : forall z, - 2147483648 <= z <= 2147483647 -> as_i32 z = z.
Proof.
  intros. unfold as_i32. change (2 ^ 31) with 2147483648. change (2 ^ 32) with 4294967296.
  rewrite Z.mod_small; lia.
Qed.
Lemma as_i64_id : forall z, - 9223372036854775808 <= z <= 9223372036854775807 -> as_i64 z = z.
Proof.
  intros. unfold as_i64. change (2 ^ 63) with 9223372036854775808.
  change (2 ^ 64) with 18446744073709551616.
  rewrite Z.mod_small; lia.
Qed.
Lemma as_u8_id : forall z, 0 <= z <= 255 -> as_u8 z = z.
Proof. intros. unfold as_u8. change (2 ^ 8) with 256. rewrite Z.mod_small; lia. Qed.
Lemma as_u16_id : forall z, 0 <= z <= 65535 -> as_u16 z = z.
Proof. intros. unfold as_u16. change (2 ^ 16) with 65536. rewrite Z.mod_small; lia. Qed.
Lemma as_u32_id : forall z, 0 <= z <= 4294967295 -> as_u32 z = z.
Proof. intros. unfold as_u32. change (2 ^ 32) with 4294967296. rewrite Z.mod_small; lia. Qed.
Lemma as_u64_id : forall z, 0 <= z <= 18446744073709551615 -> as_u64 z = z.
Proof.
  intros. unfold as_u64. change (2 ^ 64) with 18446744073709551616.
  rewrite Z.mod_small; lia.
Qed.

Lemma shift_ok_ok : forall w a, 0 <= a < w -> shift_ok w a = Ok tt.
Proof.
  intros w a H. unfold shift_ok.
  destruct (0 <=? a) eqn:E1; destruct (a <? w) eqn:E2; simpl; try reflexivity; lia.
Qed.

Lemma shift_ok_bad : forall w a, ~ (0 <= a < w) -> shift_ok w a = Panic.
Proof.
  intros w a H. unfold shift_ok.
  destruct (0 <=? a) eqn:E1; destruct (a <? w) eqn:E2; simpl; try reflexivity; lia.
Qed.

Lemma idx_nth : forall (A : Type) (l : list A) i d,
  0 <= i < len l -> idx l i = Ok (nth (Z.to_nat i) l d).
Proof.
  intros A l i d H. unfold idx, len in *.
  destruct (i <? 0) eqn:E; [lia|].
  assert (Hn : (Z.to_nat i < length l)%nat) by lia.
  rewrite (nth_error_nth' l d Hn). reflexivity.
Qed.

Lemma idx_inv : forall (A : Type) (l : list A) i a,
  idx l i = Ok a -> 0 <= i < len l /\ nth_error l (Z.to_nat i) = Some a.
Proof.
  intros A l i a. unfold idx, len.
  destruct (i <? 0) eqn:E; [discriminate|].
  destruct (nth_error l (Z.to_nat i)) eqn:En; [|discriminate].
  intros H; inversion H; subst.
  assert (nth_error l (Z.to_nat i) <> None) by congruence.
  apply nth_error_Some in H0. split; [lia|reflexivity].
Qed.

Lemma idx_oob : forall (A : Type) (l : list A) i, ~ (0 <= i < len l) -> idx l i = Panic.
Proof.
  intros A l i H. unfold idx, len in *.
  destruct (i <? 0) eqn:E; [reflexivity|].
  destruct (nth_error l (Z.to_nat i)) eqn:En; [|reflexivity].
  assert (nth_error l (Z.to_nat i) <> None) by congruence.
  apply nth_error_Some in H0. lia.
Qed.

Lemma bind_ok : forall (A B : Type) (a : A) (f : A -> res B), bind (Ok a) f = f a.
Proof. reflexivity. Qed.

Lemma bind_inv : forall (A B : Type) (x : res A) (f : A -> res B) b,
  bind x f = Ok b -> exists a, x = Ok a /\ f a = Ok b.
Proof. intros A B [a| |] f b H; simpl in H; try discriminate. exists a; split; auto. Qed.

Lemma shiftr_div : forall a n, 0 <= n -> Z.shiftr a n = a / 2 ^ n.
Proof. intros. apply Z.shiftr_div_pow2. assumption. Qed.
Lemma shiftl_mul : forall a n, 0 <= n -> Z.shiftl a n = a * 2 ^ n.
Proof. intros. apply Z.shiftl_mul_pow2. assumption. Qed.

Lemma land_1 : forall a, Z.land a 1 = a mod 2.
Proof. intros. change 1 with (Z.ones 1). rewrite Z.land_ones by lia. reflexivity. Qed.

Lemma land_ones_mod : forall a n, 0 <= n -> Z.land a (2 ^ n - 1) = a mod 2 ^ n.
Proof.
  intros. replace (2 ^ n - 1) with (Z.ones n) by (rewrite Z.ones_equiv; lia).
  apply Z.land_ones. assumption.
Qed.

Lemma len_app : forall (A : Type) (a b : list A), len (a ++ b) = len a + len b.
Proof. intros. unfold len. rewrite app_length. lia. Qed.
Lemma len_nonneg : forall (A : Type) (a : list A), 0 <= len a.
Proof. intros. unfold len. lia. Qed.
Lemma len_cons : forall (A : Type) (x : A) l, len (x :: l) = 1 + len l.
Proof. intros. unfold len. simpl length. lia. Qed.
