(** Model of /repo/src/binary_writer.rs. The sink is the list of bytes handed to
    [output.write]; simplification: the sink accepts every byte (an I/O error
    panics in the code, [write] of one byte to a [BufWriter] or [Stdout] either
    takes it or fails). *)
From Coq Require Import ZArith List Bool.
From Verif Require Import Base.
Import ListNotations.
Open Scope Z_scope.

(** binary_writer.rs 7-11, struct [BinaryWriter]. *)
Record writer : Type := mkWriter { w_buf : Z; w_index : Z; w_bytes : list Z }.

(** binary_writer.rs 14-28: the state after [standard] or [file]. *)
Definition new_writer : writer := mkWriter 0 0 [].

(** binary_writer.rs 30-41, [write_bit]. *)
Definition write_bit (w : writer) (bit : Z) : res writer :=
  b <- chk_u8 (as_u8 (Z.shiftl (w_buf w) 1) + bit) ;;
  i <- chk_u64 (w_index w + 1) ;;
  if i =? 8 then Ok (mkWriter 0 0 (w_bytes w ++ [b]))
  else Ok (mkWriter b i (w_bytes w)).

(** binary_writer.rs 43-47, [write_bits]. *)
Fixpoint write_bits (w : writer) (bits : list Z) : res writer :=
  match bits with
  | [] => Ok w
  | b :: r => w <- write_bit w b ;; write_bits w r
  end.

(** binary_writer.rs 49-54, [byte_align]. *)
Definition byte_align (w : writer) : res writer :=
  rem <- (if 0 <? w_index w then chk_u64 (8 - w_index w) else Ok 0) ;;
  write_bits w (repeat 0 (Z.to_nat rem)).

(** A client's sequence of calls. *)
Inductive wcall : Type := WBit (b : Z) | WBits (l : list Z) | WAlign.
Definition write_call (w : writer) (c : wcall) : res writer :=
  match c with
  | WBit b => write_bit w b
  | WBits l => write_bits w l
  | WAlign => byte_align w
  end.
Fixpoint write_calls (w : writer) (l : list wcall) : res writer :=
  match l with
  | [] => Ok w
  | c :: r => w <- write_call w c ;; write_calls w r
  end.
