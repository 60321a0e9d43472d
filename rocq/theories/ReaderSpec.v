(** Syntax readers for arithmetic-coded data, as the AV1 specification describes
    them: a reader asks for one coded value after the other, each time saying
    how it is coded, and what it asks next may depend on the answers. *)
From Coq Require Import ZArith List Bool.
From Verif Require Import Base BitsSpec RangeCoderModel SessionModel.
Import ListNotations.
Open Scope Z_scope.

Inductive reader (A : Type) : Type :=
| Done (a : A)
| Ask (s : shape) (k : op -> reader A).
Arguments Done {A} a.
Arguments Ask {A} s k.

(** The number an answer carries. *)
Definition val (o : op) : Z :=
  match o with
  | OSym _ s => Z.of_nat s
  | OBit _ b => b
  | OBits _ _ => 0
  | OLit _ v => v
  end.

(** A reader fed by the arithmetic decoder. *)
Fixpoint run_reader {A : Type} (r : reader A) (c : coder) (t : cdf_table) (q : list Z)
  : res (A * coder * cdf_table * list Z) :=
  match r with
  | Done a => Ok (a, c, t, q)
  | Ask s k => '(o, c, t, q) <- decode_op c t q s ;; run_reader (k o) c t q
  end.

(** [reads r ops a]: given exactly the answers [ops], the reader returns [a]. *)
Fixpoint reads {A : Type} (r : reader A) (ops : list op) (a : A) : Prop :=
  match r, ops with
  | Done x, [] => x = a
  | Ask s k, o :: ops => shape_of o = s /\ reads (k o) ops a
  | _, _ => False
  end.

(** L(n) of the specification, and a symbol coded with CDF number [ctx]. *)
Definition ask_lit {A : Type} (n : Z) (k : Z -> reader A) : reader A := Ask (SLit (Z.to_nat n)) (fun o => k (val o)).
Definition ask_sym {A : Type} (ctx : nat) (k : Z -> reader A) : reader A := Ask (SSym ctx) (fun o => k (val o)).

(** A segment in which [pre], [ops] and [post] are coded one after the other: a
    decoder that has read [pre] and then follows [r] gets [a], and goes on to read
    [post] correctly. *)
Definition transmits {A : Type} (t : cdf_table) (pre ops post : list op) (r : reader A) (a : A) : Prop :=
  forall sz tail, 0 <= sz < 2 ^ 28 -> is_bits tail ->
  exists c' t' D d1 t1 q1 d2 t2 q2 d3 q3,
    encode_session new_coder t [] (pre ++ ops ++ post) = Ok (c', t', D) /\
    decode_session new_coder t (D ++ tail) sz (map shape_of pre) = Ok (pre, d1, t1, q1) /\
    run_reader r d1 t1 q1 = Ok (a, d2, t2, q2) /\
    decode_ops d2 t2 q2 (map shape_of post) = Ok (post, d3, t', q3).

(** The same whenever the encoder returns, however long the segment; the size given to
    the decoder covers it. *)
Definition carries {A : Type} (t : cdf_table) (pre ops post : list op) (r : reader A) (a : A) : Prop :=
  forall c' t' D, encode_session new_coder t [] (pre ++ ops ++ post) = Ok (c', t', D) ->
  forall sz tail, Z.of_nat (length D) <= 8 * sz -> 0 <= sz < 2 ^ 28 -> is_bits tail ->
  exists d1 t1 q1 d2 t2 q2 d3 q3,
    decode_session new_coder t (D ++ tail) sz (map shape_of pre) = Ok (pre, d1, t1, q1) /\
    run_reader r d1 t1 q1 = Ok (a, d2, t2, q2) /\
    decode_ops d2 t2 q2 (map shape_of post) = Ok (post, d3, t', q3).
