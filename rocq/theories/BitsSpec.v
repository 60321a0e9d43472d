(** Independent vocabulary for bit strings. A bit string is a list of 0/1
    integers, most significant bit first. *)
From Coq Require Import ZArith List.
Import ListNotations.
Open Scope Z_scope.

Definition is_bit (b : Z) : Prop := b = 0 \/ b = 1.
Definition is_bits (l : list Z) : Prop := Forall is_bit l.

(** The number a bit string denotes. *)
Definition bits_val (l : list Z) : Z := fold_left (fun a b => 2 * a + b) l 0.

(** The [n]-bit string of [v] (its [n] low bits). *)
Fixpoint to_bits (n : nat) (v : Z) : list Z :=
  match n with
  | O => []
  | S k => (v / 2 ^ Z.of_nat k) mod 2 :: to_bits k v
  end.
