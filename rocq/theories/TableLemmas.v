(** Tables as lists of rows: entries and assignments. Used in statements about the table
    of cdef indices. *)
From Coq Require Import ZArith List Bool Lia ZifyBool ZifyNat.
From Verif Require Import Base SessionModel.
Import ListNotations.
Open Scope Z_scope.

(** R rows of C entries, and the entry at a position. *)
Definition table (m : list (list Z)) (R C : Z) : Prop := len m = R /\ forall row, In row m -> len row = C.
Definition entry (m : list (list Z)) (i j : Z) : option Z :=
  if (i <? 0) || (j <? 0) then None
  else match nth_error m (Z.to_nat i) with Some row => nth_error row (Z.to_nat j) | None => None end.

Lemma nth_set : forall (A : Type) (l : list A) i j x, (i < length l)%nat ->
  nth_error (set_nth i x l) j = if Nat.eqb j i then Some x else nth_error l j.
Proof.
  induction l as [|a l IH]; intros i j x L; [inversion L|]. destruct i as [|i], j as [|j]; cbn [set_nth nth_error Nat.eqb]; try reflexivity.
  cbn [length] in L. apply IH. lia.
Qed.
Lemma set_len : forall (A : Type) (l : list A) i x, length (set_nth i x l) = length l.
Proof. induction l as [|a l IH]; intros [|i] x; cbn [set_nth length]; try reflexivity. f_equal. apply IH. Qed.
Lemma in_set : forall (A : Type) (l : list A) i x y, In y (set_nth i x l) -> y = x \/ In y l.
Proof.
  induction l as [|a l IH]; intros [|i] x y H; cbn [set_nth In] in *; try tauto.
  - destruct H as [H|H]; [left; congruence|tauto].
  - destruct H as [H|H]; [tauto|]. apply IH in H. tauto.
Qed.
Lemma idx_hit : forall (A : Type) (l : list A) i, 0 <= i < len l -> exists a, idx l i = Ok a /\ nth_error l (Z.to_nat i) = Some a.
Proof.
  intros A l i L. unfold idx. destruct (Z.ltb_spec i 0); [lia|]. destruct (nth_error l (Z.to_nat i)) as [a|] eqn:E; [exists a; tauto|].
  apply nth_error_None in E. unfold len in L. lia.
Qed.
Lemma idx_miss : forall (A : Type) (l : list A) i, len l <= i -> idx l i = Panic.
Proof.
  intros A l i L. unfold idx. destruct (Z.ltb_spec i 0); [reflexivity|]. destruct (nth_error l (Z.to_nat i)) as [a|] eqn:E; [|reflexivity].
  assert (G : nth_error l (Z.to_nat i) <> None) by congruence. apply nth_error_Some in G. unfold len in L. lia.
Qed.

(** Assigning an entry. *)
Lemma assign_ok : forall m R C i j (v : Z), table m R C -> 0 <= i < R -> 0 <= j < C ->
  exists row o, idx m i = Ok row /\ idx row j = Ok o /\
    let m' := set_nth (Z.to_nat i) (set_nth (Z.to_nat j) v row) m in
    table m' R C /\ forall a b, entry m' a b = if (a =? i) && (b =? j) then Some v else entry m a b.
Proof.
  intros m R C i j v [TR TC] HI HJ. rewrite <- TR in HI. destruct (idx_hit _ m i HI) as (row & E & N).
  assert (RI : In row m) by (eapply nth_error_In; exact N). pose proof (TC _ RI) as LR. rewrite <- LR in HJ.
  destruct (idx_hit _ row j HJ) as (o & Eo & No). exists row, o. split; [exact E|]. split; [exact Eo|]. cbv zeta. split.
  - split; [unfold len; rewrite set_len; exact TR|]. intros r0 H. apply in_set in H. destruct H as [-> | H]; [|apply TC; exact H].
    unfold len. rewrite set_len. exact LR.
  - intros a b. unfold entry. destruct (Z.ltb_spec a 0); [cbn; destruct (Z.eqb_spec a i); [lia|reflexivity]|].
    destruct (Z.ltb_spec b 0); [cbn; destruct (Z.eqb_spec b j); [lia|rewrite andb_false_r; reflexivity]|]. cbn [orb].
    rewrite nth_set by (unfold len in HI; lia). destruct (Nat.eqb_spec (Z.to_nat a) (Z.to_nat i)) as [Ea|Ea].
    + replace a with i by lia. rewrite Z.eqb_refl. cbn [andb]. rewrite nth_set by (unfold len in HJ; lia). rewrite N.
      destruct (Nat.eqb_spec (Z.to_nat b) (Z.to_nat j)), (Z.eqb_spec b j); try lia; reflexivity.
    + destruct (Z.eqb_spec a i); [lia|]. reflexivity.
Qed.
