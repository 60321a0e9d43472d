(** Independent vocabulary for the header codecs. *)
From Coq Require Import ZArith List.
From Verif Require Import BitsSpec.
Import ListNotations.
Open Scope Z_scope.

(** The number of 7-bit groups of [v]: the least s >= 1 with v < 128^s. *)
Definition is_leb_size (v s : Z) : Prop :=
  1 <= s /\ v < 128 ^ s /\ (s = 1 \/ 128 ^ (s - 1) <= v).

(** A leb128 byte string is minimal when its last byte ends the number and is not
    a superfluous zero. *)
Definition leb_minimal (D : list Z) : Prop :=
  let last8 := bits_val (skipn (length D - 8) D) in
  last8 < 128 /\ (length D = 8%nat \/ 0 < last8).

(** Little endian value of a string of bits taken byte by byte. *)
Fixpoint le_val (k : nat) (D : list Z) : Z :=
  match k with
  | O => 0
  | S k' => bits_val (firstn 8 D) + 256 * le_val k' (skipn 8 D)
  end.

(** Two's complement reading of a bit string. *)
Definition twos_val (D : list Z) : Z :=
  match D with
  | [] => 0
  | b :: r => bits_val r - b * 2 ^ Z.of_nat (length r)
  end.
