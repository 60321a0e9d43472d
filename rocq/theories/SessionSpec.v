(** Well-formed sessions and their ideal cost. *)
From Coq Require Import ZArith List.
From Verif Require Import Base BitsSpec RangeCoderSpec RangeCoderModel SessionModel.
Import ListNotations.
Open Scope Z_scope.

(** [sizes] lists the alphabet size of every CDF of the table. *)
Definition valid_table (sizes : list nat) (t : cdf_table) : Prop := Forall2 valid_cdf sizes t.

Definition valid_op (sizes : list nat) (o : op) : Prop :=
  match o with
  | OSym ctx s => exists N, nth_error sizes ctx = Some N /\ (s < N)%nat
  | OBit p b => 0 <= p <= 255 /\ is_bit b
  | OBits p bs => 0 <= p <= 255 /\ is_bits bs
  | OLit n v => (n <= 64)%nat /\ 0 <= v < 2 ^ Z.of_nat n
  end.

(** Number of arithmetic-coded symbols a call stands for. *)
Definition op_symbols (o : op) : nat :=
  match o with
  | OSym _ _ => 1
  | OBit _ _ => 1
  | OBits _ bs => length bs
  | OLit n _ => n
  end.
Definition session_symbols (ops : list op) : nat := fold_right (fun o a => (op_symbols o + a)%nat) 0%nat ops.

(** The coder counts bits in 32-bit signed integers; a session of at most
    2^26 symbols (at most 15 bits each, 120 megabytes) stays far below. *)
Definition fits (ops : list op) : Prop := Z.of_nat (session_symbols ops) <= 2 ^ 26.

(** Ideal cost in whole bits of symbol [s] under [cdf]: the least k such that
    2^-k does not exceed its probability, i.e. ceil(log2(1/p)). *)
Definition cost (cdf : list Z) (s : nat) : nat := Z.to_nat (15 - Z.log2 (prob cdf s)).

(** Cost of a bit coded with fixed probability [p]/256 of being 0. *)
Definition bit_cost (p b : Z) : nat := cost [(p * 32768 + 256 - p) / 256; 32768; 0] (Z.to_nat b).

(** Cost of a run of bits: the CDF of the run adapts along. *)
Fixpoint run_cost (cdf : list Z) (bs : list Z) : nat :=
  match bs with
  | [] => 0
  | b :: r => cost cdf (Z.to_nat b) +
              match update_cdf b cdf with Ok cdf' => run_cost cdf' r | _ => 0 end
  end.

Definition op_cost (t : cdf_table) (o : op) : nat :=
  match o with
  | OSym ctx s => cost (nth ctx t []) s
  | OBit p b => bit_cost p b
  | OBits p bs => run_cost [(p * 32768 + 256 - p) / 256; 32768; 0] bs
  | OLit n _ => n
  end.

(** The table of CDFs after a call. *)
Definition table_after (t : cdf_table) (o : op) : cdf_table :=
  match o with
  | OSym ctx s =>
      match update_cdf (Z.of_nat s) (nth ctx t []) with
      | Ok cdf' => set_nth ctx cdf' t
      | _ => t
      end
  | _ => t
  end.

(** Ideal cost of a whole session, every symbol priced with the CDF in force
    when it is coded. *)
Fixpoint session_cost (t : cdf_table) (ops : list op) : nat :=
  match ops with
  | [] => 0
  | o :: r => op_cost t o + session_cost (table_after t o) r
  end.
