(** Whatever a decoder reads as a difference of motion vectors is one that [expressible] has. *)
From Coq Require Import String ZArith List Bool Lia ZifyBool ZifyNat.
From Verif Require Import BitsSpec Base BaseProofs SeqSpec CdfTableSpec ContextModel ContextSpec ContextCallSpec ModeInfoModel ModeInfoSpec BridgeSpec BridgeProofs MvCallSpec MvCallProofs.
Import ListNotations.
Open Scope string_scope.
Open Scope list_scope.
Open Scope Z_scope.

Definition alphabet (name : string) (N : Z) : bool := forallb (fun t => let '(n, _, k) := t in negb (String.eqb n name) || (Z.of_nat k =? N)) cdf_shapes.
Lemma sym_bound : forall name path N q v r, Forall codable_element q -> sym name path q = Some (v, r) -> alphabet name N = true ->
  0 <= v < N /\ Forall codable_element r.
Proof.
  intros name path N q v r F H A. destruct q as [|[n p s|n p] q]; try discriminate. cbn [sym] in H.
  destruct (String.eqb_spec n name) as [->|]; [|discriminate]. destruct (list_eq_dec Z.eq_dec p path) as [->|]; [|discriminate]. cbn [andb] in H. injection H as <- <-.
  inversion F as [|? ? C Fr]; subst. split; [|exact Fr]. destruct C as (dims & k & I & _ & B).
  unfold alphabet in A. rewrite forallb_forall in A. specialize (A _ I). cbn in A. rewrite String.eqb_refl in A. cbn in A. apply Z.eqb_eq in A. lia.
Qed.
Lemma bits_bound : forall ctx comp n i q v r, Forall codable_element q -> av1_bits ctx comp n i q = Some (v, r) -> 0 <= v < 2 ^ Z.of_nat n /\ Forall codable_element r.
Proof.
  intros ctx comp. induction n as [|n IH]; intros i q v r F H; cbn [av1_bits] in H.
  - injection H as <- <-. split; [cbn; lia|exact F].
  - destruct (sym "mv_bit" [ctx; comp; i] q) as [(b, q1)|] eqn:E; [|discriminate]. cbn [obind] in H.
    destruct (sym_bound _ _ 2 _ _ _ F E eq_refl) as (B & F1).
    destruct (av1_bits ctx comp n (i + 1) q1) as [(d, q2)|] eqn:E2; [|discriminate]. cbn [obind] in H. injection H as <- <-.
    destruct (IH _ _ _ _ F1 E2) as (D & F2). split; [|exact F2]. replace (Z.of_nat (S n)) with (1 + Z.of_nat n) by lia. rewrite Z.pow_add_r by lia. change (2 ^ 1) with 2. set (w := 2 ^ Z.of_nat n) in *. clearbody w. change (0 <= b + 2 * d < 2 * w). lia.
Qed.
Lemma some2 : forall (a c : Z) (b d : list ev), Some (a, b) = Some (c, d) -> c = a /\ d = b.
Proof. intros a c b d H. split; congruence. Qed.
Ltac st H := match type of H with obind ?e _ = Some _ => destruct e as [(?, ?)|] eqn:?; [cbn [obind] in H|discriminate H] end.
Lemma component_only : forall ctx comp int hp q d r, Forall codable_element q -> (int = true -> hp = false) ->
  av1_component ctx comp int hp q = Some (d, r) -> d <> 0 /\ expressible int hp d /\ Forall codable_element r.
Proof.
  intros ctx comp int hp q d r F I H. unfold av1_component in H. st H. destruct (sym_bound _ _ 2 _ _ _ F Heqo eq_refl) as (Bs & F1).
  st H. destruct (sym_bound _ _ 11 _ _ _ F1 Heqo0 eq_refl) as (Bc & F2). st H. rename z1 into mag. injection H as <- <-.
  enough (X : 1 <= mag <= 2 ^ 14 /\ (int = true -> mag mod 8 = 0) /\ (hp = false -> mag mod 2 = 0) /\ Forall codable_element l1).
  { destruct X as (X1 & X2 & X3 & X4). unfold expressible. destruct (z =? 0); (split; [lia|]; split; [|exact X4]; split; [lia|]; split; [|split; [|exact I]]; intros Y;
      [specialize (X2 Y)|specialize (X3 Y)]; try lia). }
  destruct (Z.eqb_spec z0 0) as [C|C].
  - st Heqo1. destruct (sym_bound _ _ 2 _ _ _ F2 Heqo2 eq_refl) as (Bb & F3).
    st Heqo1. assert (X : 0 <= z2 < 4 /\ (int = true -> z2 = 3) /\ Forall codable_element l3).
    { destruct int; [injection Heqo3 as <- <-; split; [lia|split; [reflexivity|exact F3]]|].
      destruct (sym_bound _ _ 4 _ _ _ F3 Heqo3 eq_refl). split; [assumption|split; [discriminate|assumption]]. }
    destruct X as (X1 & X2 & X3). st Heqo1. apply some2 in Heqo1. destruct Heqo1 as (-> & ->).
    assert (Y : 0 <= z3 < 2 /\ (hp = false -> z3 = 1) /\ Forall codable_element l4).
    { destruct hp; [|injection Heqo4 as <- <-; split; [lia|split; [reflexivity|exact X3]]].
      destruct (sym_bound _ _ 2 _ _ _ X3 Heqo4 eq_refl). split; [assumption|split; [discriminate|assumption]]. }
    destruct Y as (Y1 & Y2 & Y3). change (2 ^ 14) with 16384. split; [lia|]. split; [|split; [|exact Y3]].
    + intros T. specialize (X2 T). specialize (Y2 (I T)). lia.
    + intros T. specialize (Y2 T). lia.
  - st Heqo1. destruct (bits_bound _ _ _ _ _ _ _ F2 Heqo2) as (Bb & F3). rewrite Z2Nat.id in Bb by lia.
    st Heqo1. assert (X : 0 <= z2 < 4 /\ (int = true -> z2 = 3) /\ Forall codable_element l3).
    { destruct int; [injection Heqo3 as <- <-; split; [lia|split; [reflexivity|exact F3]]|].
      destruct (sym_bound _ _ 4 _ _ _ F3 Heqo3 eq_refl). split; [assumption|split; [discriminate|assumption]]. }
    destruct X as (X1 & X2 & X3). st Heqo1. apply some2 in Heqo1. destruct Heqo1 as (-> & ->).
    assert (Y : 0 <= z3 < 2 /\ (hp = false -> z3 = 1) /\ Forall codable_element l4).
    { destruct hp; [|injection Heqo4 as <- <-; split; [lia|split; [reflexivity|exact X3]]].
      destruct (sym_bound _ _ 2 _ _ _ X3 Heqo4 eq_refl). split; [assumption|split; [discriminate|assumption]]. }
    destruct Y as (Y1 & Y2 & Y3). rewrite Z.pow_add_r by lia. change (2 ^ 2) with 4.
    assert (W : 2 ^ z0 <= 2 ^ 10) by (apply Z.pow_le_mono_r; lia). assert (W0 : 0 < 2 ^ z0) by (apply Z.pow_pos_nonneg; lia).
    change (2 ^ 10) with 1024 in W. change (2 ^ 14) with 16384. set (w := 2 ^ z0) in *. clearbody w. split; [lia|]. split; [|split; [|exact Y3]].
    + intros T. specialize (X2 T). specialize (Y2 (I T)). lia.
    + intros T. specialize (Y2 T). lia.
Qed.
Lemma zero_expressible : forall int hp, (int = true -> hp = false) -> expressible int hp 0.
Proof. intros int hp I. unfold expressible. split; [lia|]. split; [reflexivity|]. split; [reflexivity|exact I]. Qed.
Lemma mv_only : forall ctx int hp pred q v r, Forall codable_element q -> (int = true -> hp = false) ->
  av1_mv ctx int hp pred q = Some (v, r) -> expressible int hp (fst v - fst pred) /\ expressible int hp (snd v - snd pred).
Proof.
  intros ctx int hp pred q v r F I H. unfold av1_mv in H. st H. destruct (sym_bound _ _ 4 _ _ _ F Heqo eq_refl) as (_ & F1).
  st H. assert (X : expressible int hp z0 /\ Forall codable_element l0).
  { destruct (_ || _) in Heqo0; [destruct (component_only _ _ _ _ _ _ _ F1 I Heqo0) as (_ & A & B); split; assumption|].
    injection Heqo0 as <- <-. split; [now apply zero_expressible|exact F1]. }
  destruct X as (X1 & F2). st H. assert (Y : expressible int hp z1).
  { destruct (_ || _) in Heqo1; [destruct (component_only _ _ _ _ _ _ _ F2 I Heqo1) as (_ & A & B); assumption|].
    injection Heqo1 as <- <-. now apply zero_expressible. }
  injection H as <- <-. cbn [fst snd]. replace (fst pred + z0 - fst pred) with z0 by lia. replace (snd pred + z1 - snd pred) with z1 by lia. split; assumption.
Qed.
