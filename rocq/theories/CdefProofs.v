(** Proofs about the tables of CdefTables: finite checks. *)
From Coq Require Import ZArith List Bool Lia ZifyBool ZifyNat.
From Verif Require Import Base ContextSpec ContextProofs CdefTables CdefSpec.
Import ListNotations.
Open Scope Z_scope.

Ltac each d := do 8 (destruct d as [|d]; [vm_compute; intuition congruence|]); lia.

Lemma quarter_turns d : (d < 8)%nat -> same_line (far ((d + 4) mod 8)) (turn (far d)) /\ same_line (near ((d + 4) mod 8)) (turn (near d)).
Proof. intros H. each d. Qed.
Lemma transposes d : (d < 8)%nat -> same_line (far ((8 - d) mod 8)) (transpose (far d)) /\ same_line (near ((8 - d) mod 8)) (transpose (near d)).
Proof. intros H. each d. Qed.
Lemma lines_differ d e : (d < 8)%nat -> (e < 8)%nat -> parallel (far d) (far e) -> d = e.
Proof.
  intros D E. do 8 (destruct d as [|d]; [do 8 (destruct e as [|e]; [vm_compute; congruence|]); lia|]). lia.
Qed.
Lemma near_far d : (d < 8)%nat -> Z.abs (2 * fst (near d) - fst (far d)) <= 1 /\ Z.abs (2 * snd (near d) - snd (far d)) <= 1 /\
  Z.max (Z.abs (fst (near d))) (Z.abs (snd (near d))) = 1 /\ Z.max (Z.abs (fst (far d))) (Z.abs (snd (far d))) = 2.
Proof. intros H. each d. Qed.

Lemma uv_square s d : (s < 2)%nat -> (d < 8)%nat -> uv_dir s s d = d.
Proof. intros S H. destruct s as [|[|s]]; [each d|each d|lia]. Qed.
Lemma uv_422 d : (d < 8)%nat -> if orb (Nat.eqb d 5) (Nat.eqb d 7) then uv_dir 1 0 d = 6%nat else parallel (on_chroma 1 0 (far d)) (far (uv_dir 1 0 d)).
Proof. intros H. each d. Qed.
Lemma uv_440 d : (d < 8)%nat -> uv_dir 0 1 d = ((8 - uv_dir 1 0 ((8 - d) mod 8)) mod 8)%nat.
Proof. intros H. each d. Qed.
Lemma uv_range sx sy d : (sx < 2)%nat -> (sy < 2)%nat -> (d < 8)%nat -> (uv_dir sx sy d < 8)%nat.
Proof. intros A B H. destruct sx as [|[|sx]]; [| |lia]; (destruct sy as [|[|sy]]; [| |lia]); do 8 (destruct d as [|d]; [vm_compute; lia|]); lia. Qed.

Lemma row_shifts t : 0 <= t < 19 -> nth_error transform_row_shift (Z.to_nat t) = Some (row_shift (Z.log2 (Tx_Width t * Tx_Height t))).
Proof.
  intros T. set (P := fun t => match nth_error transform_row_shift (Z.to_nat t) with Some v => v =? row_shift (Z.log2 (Tx_Width t * Tx_Height t)) | None => false end).
  assert (X : P t = true) by (apply (forall_below 19 P); [vm_compute; reflexivity|exact T]). unfold P in X.
  destruct (nth_error transform_row_shift (Z.to_nat t)); [f_equal; lia|discriminate X].
Qed.
Lemma sign_pairs k u v : nth_error cfl_alpha_signs k = Some (u, v) <-> 0 <= u <= 2 /\ 0 <= v <= 2 /\ Z.of_nat k = 3 * u + v - 1.
Proof.
  split.
  - intros H. do 8 (destruct k as [|k]; [cbn in H; injection H as <- <-; lia|]). destruct k; discriminate H.
  - intros (U & V & K). assert (u = 0 \/ u = 1 \/ u = 2) as [->|[->| ->]] by lia; assert (v = 0 \/ v = 1 \/ v = 2) as [->|[->| ->]] by lia;
      do 8 (destruct k as [|k]; [try lia; reflexivity|]); lia.
Qed.
