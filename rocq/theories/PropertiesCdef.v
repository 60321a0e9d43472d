(** C103: the tables for directional filters, chroma from luma and transforms. *)
From Coq Require Import ZArith List Bool Lia.
From Verif Require Import ContextSpec CdefTables CdefSpec CdefProofs.
Import ListNotations.
Open Scope Z_scope.

(** C103: the eight directions are different lines; turning by four is a quarter turn,
    and counting down is a transposition. *)
Theorem C103_directions : forall d, (d < 8)%nat ->
  (same_line (far ((d + 4) mod 8)) (turn (far d)) /\ same_line (near ((d + 4) mod 8)) (turn (near d))) /\
  (same_line (far ((8 - d) mod 8)) (transpose (far d)) /\ same_line (near ((8 - d) mod 8)) (transpose (near d))) /\
  (forall e, (e < 8)%nat -> parallel (far d) (far e) -> d = e) /\
  (Z.abs (2 * fst (near d) - fst (far d)) <= 1 /\ Z.abs (2 * snd (near d) - snd (far d)) <= 1 /\
   Z.max (Z.abs (fst (near d))) (Z.abs (snd (near d))) = 1 /\ Z.max (Z.abs (fst (far d))) (Z.abs (snd (far d))) = 2).
Proof.
  intros d H. split; [exact (quarter_turns d H)|]. split; [exact (transposes d H)|]. split; [|exact (near_far d H)].
  intros e E. exact (lines_differ d e H E).
Qed.
Print Assumptions C103_directions.

(** C103: the direction on chroma planes: the same for equal subsampling; for 4:2:2 the
    line of the luma direction as seen there, or the vertical for the two directions
    whose line is none of the eight; for 4:4:0 the transposition of that. *)
Theorem C103_chroma : forall d, (d < 8)%nat ->
  (forall sx sy, (sx < 2)%nat -> (sy < 2)%nat -> (uv_dir sx sy d < 8)%nat /\ (sx = sy -> uv_dir sx sy d = d)) /\
  (if orb (Nat.eqb d 5) (Nat.eqb d 7) then uv_dir 1 0 d = 6%nat else parallel (on_chroma 1 0 (far d)) (far (uv_dir 1 0 d))) /\
  uv_dir 0 1 d = ((8 - uv_dir 1 0 ((8 - d) mod 8)) mod 8)%nat.
Proof.
  intros d H. split; [|split; [exact (uv_422 d H)|exact (uv_440 d H)]].
  intros sx sy A B. split; [exact (uv_range sx sy d A B H)|]. intros <-. exact (uv_square sx d A H).
Qed.
Print Assumptions C103_chroma.

(** C103: the two exceptions of 4:2:2 have no line among the eight. *)
Theorem C103_no_line : forall d e, (d = 5 \/ d = 7)%nat -> (e < 8)%nat -> ~ parallel (on_chroma 1 0 (far d)) (far e).
Proof. intros d e [->| ->] E; do 8 (destruct e as [|e]; [vm_compute; congruence|]); lia. Qed.
Print Assumptions C103_no_line.

(** C103: either choice of primary taps has the same weight; the secondary taps do not
    depend on it. *)
Theorem C103_taps : Forall (fun r => fold_right Z.add 0 r = 6 /\ length r = 2%nat) cdef_pri_taps /\ length cdef_pri_taps = 2%nat /\
  Forall (fun r => r = [2; 1]) cdef_sec_taps /\ length cdef_sec_taps = 2%nat /\ nth_error cdef_pri_taps 0 = Some [4; 2] /\ nth_error cdef_pri_taps 1 = Some [3; 3].
Proof. repeat split; repeat (apply Forall_cons; [split; reflexivity || reflexivity|]); try apply Forall_nil; repeat (apply Forall_cons; [reflexivity|]); apply Forall_nil. Qed.
Print Assumptions C103_taps.

(** C103: the row shift depends on the number of pixels only. *)
Theorem C103_row_shift : forall t, 0 <= t < 19 -> nth_error transform_row_shift (Z.to_nat t) = Some (row_shift (Z.log2 (Tx_Width t * Tx_Height t))).
Proof. exact row_shifts. Qed.
Print Assumptions C103_row_shift.

(** C103: entry k is the pair of signs that the standard reads from k: all pairs but
    two zeros. *)
Theorem C103_signs : forall k u v, nth_error cfl_alpha_signs k = Some (u, v) <-> 0 <= u <= 2 /\ 0 <= v <= 2 /\ Z.of_nat k = 3 * u + v - 1.
Proof. exact sign_pairs. Qed.
Print Assumptions C103_signs.

Example C103_case : far 1 = (-1, 2) /\ turn (far 1) = (2, 1) /\ far 5 = (2, 1) /\ uv_dir 1 0 1 = 0%nat /\ on_chroma 1 0 (far 1) = (-2, 2) /\
  nth_error transform_row_shift 9 = Some 1 /\ nth_error cfl_alpha_signs 4 = Some (1, 2).
Proof. repeat split. Qed.
