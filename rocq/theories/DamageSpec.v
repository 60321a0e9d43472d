(** What may be asked of the arithmetic decoder when the bits were not made by the encoder. *)
From Coq Require Import ZArith List.
From Verif Require Import Base BitsSpec RangeCoderModel SessionModel SessionSpec.
Import ListNotations.
Open Scope Z_scope.

(** Calls that make sense for tables with alphabets of these [sizes]. *)
Definition shape_ok (sizes : list nat) (s : shape) : Prop :=
  match s with
  | SSym ctx => (ctx < length sizes)%nat
  | SBit p => 0 <= p <= 255
  | SBits p _ => 0 <= p <= 255
  | SLit n => (n <= 64)%nat
  end.
Definition shape_symbols (s : shape) : nat :=
  match s with SSym _ => 1 | SBit _ => 1 | SBits _ n => n | SLit n => n end.
Definition few_symbols (ss : list shape) : Prop := Z.of_nat (fold_right (fun s a => (shape_symbols s + a)%nat) 0%nat ss) <= 2 ^ 26.

(** The calls [ss] read exactly the bits [used], whatever follows them, and get [ops]:
    a value of its alphabet for each call; the tables are as valid as before. *)
Definition session_reads (sizes : list nat) (d : coder) (t : cdf_table) (sz : Z) (ss : list shape) (used : list Z) (ops : list op) (t' : cdf_table) : Prop :=
  map shape_of ops = ss /\ Forall (valid_op sizes) ops /\ valid_table sizes t' /\
  exists d', forall tail, decode_session d t (used ++ tail) sz ss = Ok (ops, d', t', tail).
(** A reader of plain bits: on any bits it reads a value it may read, or the bits are a
    proper beginning of bits from which it reads one, and it panics. *)
Definition reads_any {A : Type} (P : A -> Prop) (f : list Z -> res (A * list Z)) : Prop :=
  forall q, is_bits q ->
  (exists a used q', q = used ++ q' /\ P a /\ forall tail, f (used ++ tail) = Ok (a, tail)) \/
  (f q = Panic /\ exists a more, more <> [] /\ is_bits more /\ P a /\ forall tail, f (q ++ more ++ tail) = Ok (a, tail)).
(** The same for a parser that chooses each of [n] calls by what it has read before. *)
Definition parser_reads (sizes : list nat) (d : coder) (t : cdf_table) (sz : Z) (n : nat) (f : list op -> shape) (used : list Z) (ops : list op) (t' : cdf_table) : Prop :=
  (length ops = n /\ forall i, (i < n)%nat -> shape_of (nth i ops (OLit 0 0)) = f (firstn i ops)) /\ Forall (valid_op sizes) ops /\ valid_table sizes t' /\
  exists d', forall tail, ('(c, q) <- init_decoder d (used ++ tail) sz ;; decode_adaptive n f [] c t q) = Ok (ops, d', t', tail).
