(** Independent view of a bit writer: the stream of bits it was asked to write. *)
From Coq Require Import ZArith List.
From Verif Require Import BitsSpec WriterModel.
Import ListNotations.
Open Scope Z_scope.

(** Zeros needed to reach a multiple of 8. *)
Definition pad8 (n : nat) : nat := match (n mod 8)%nat with O => O | S k => (7 - k)%nat end.

Definition stream_step (s : list Z) (c : wcall) : list Z :=
  match c with
  | WBit b => s ++ [b]
  | WBits l => s ++ l
  | WAlign => s ++ repeat 0 (pad8 (length s))
  end.
Definition stream (s : list Z) (l : list wcall) : list Z := fold_left stream_step l s.

Definition call_ok (c : wcall) : Prop :=
  match c with WBit b => is_bit b | WBits l => is_bits l | WAlign => True end.

(** The bits of a byte string, most significant bit first. *)
Definition unpack (bytes : list Z) : list Z := flat_map (to_bits 8) bytes.
Definition is_byte (b : Z) : Prop := 0 <= b < 256.
