(** A coding session: the sequence of calls a client of the arithmetic coder
    makes (as /repo/tests/test_bool_coder.rs 14-58 does; the encoder itself
    never calls [init_encoder] or [exit_encoder], see WholeTileModel):
    [init_encoder], any number of
    coding calls, [exit_encoder]; and on the other side [init_decoder], the
    matching decoding calls, [exit_decoder]. No code of its own: it only drives
    the functions of RangeCoderModel. *)
From Coq Require Import ZArith List Bool.
From Verif Require Import Base UtilModel RangeCoderModel.
Import ListNotations.
Open Scope Z_scope.

(** One coding call. [OSym ctx s] codes symbol [s] with the adaptive CDF number
    [ctx] of the table of CDFs that encoder and decoder each hold. *)
Inductive op : Type :=
| OSym (ctx : nat) (s : nat)          (* encode_symbol / decode_symbol *)
| OBit (p : Z) (b : Z)                (* encode_symbolp / decode_symbolp *)
| OBits (p : Z) (bs : list Z)         (* encode_symbols / decode_symbols *)
| OLit (n : nat) (v : Z).             (* encode_literal / decode_literal *)

(** What the decoder is told about a call: everything but the coded value. *)
Inductive shape : Type :=
| SSym (ctx : nat)
| SBit (p : Z)
| SBits (p : Z) (n : nat)
| SLit (n : nat).

Definition shape_of (o : op) : shape :=
  match o with
  | OSym ctx _ => SSym ctx
  | OBit p _ => SBit p
  | OBits p bs => SBits p (length bs)
  | OLit n _ => SLit n
  end.

Fixpoint set_nth {A : Type} (i : nat) (x : A) (l : list A) : list A :=
  match i, l with
  | _, [] => []
  | O, _ :: r => x :: r
  | S i', y :: r => y :: set_nth i' x r
  end.

Definition cdf_table := list (list Z).

Definition encode_op (c : coder) (t : cdf_table) (out : list Z) (o : op)
  : res (coder * cdf_table * list Z) :=
  match o with
  | OSym ctx s =>
      cdf <- idx t (Z.of_nat ctx) ;;
      '(c, out, cdf) <- encode_symbol c (Z.of_nat s) out cdf ;;
      Ok (c, set_nth ctx cdf t, out)
  | OBit p b => '(c, out) <- encode_symbolp c b out p ;; Ok (c, t, out)
  | OBits p bs => '(c, out) <- encode_symbols c bs out p ;; Ok (c, t, out)
  | OLit n v => '(c, out) <- encode_literal c out v n ;; Ok (c, t, out)
  end.

Fixpoint encode_ops (c : coder) (t : cdf_table) (out : list Z) (ops : list op)
  : res (coder * cdf_table * list Z) :=
  match ops with
  | [] => Ok (c, t, out)
  | o :: r => '(c, t, out) <- encode_op c t out o ;; encode_ops c t out r
  end.

Definition decode_op (c : coder) (t : cdf_table) (q : list Z) (s : shape)
  : res (op * coder * cdf_table * list Z) :=
  match s with
  | SSym ctx =>
      cdf <- idx t (Z.of_nat ctx) ;;
      '(s, c, q, cdf) <- decode_symbol c q cdf ;;
      Ok (OSym ctx (Z.to_nat s), c, set_nth ctx cdf t, q)
  | SBit p => '(s, c, q) <- decode_symbolp c q p ;; Ok (OBit p s, c, t, q)
  | SBits p n => '(bs, c, q) <- decode_symbols c q (Z.of_nat n) p ;; Ok (OBits p bs, c, t, q)
  | SLit n => '(v, c, q) <- decode_literal c q n ;; Ok (OLit n v, c, t, q)
  end.

Fixpoint decode_ops (c : coder) (t : cdf_table) (q : list Z) (ss : list shape)
  : res (list op * coder * cdf_table * list Z) :=
  match ss with
  | [] => Ok ([], c, t, q)
  | s :: r =>
      '(o, c, t, q) <- decode_op c t q s ;;
      '(os, c, t, q) <- decode_ops c t q r ;;
      Ok (o :: os, c, t, q)
  end.

(** A whole encoding session on coder [c], appending to [out]. *)
Definition encode_session (c : coder) (t : cdf_table) (out : list Z) (ops : list op)
  : res (coder * cdf_table * list Z) :=
  '(c, t, out) <- encode_ops (init_encoder c) t out ops ;;
  '(c, out) <- exit_encoder c out ;;
  Ok (c, t, out).

(** A decoding session up to, but without, [exit_decoder]. *)
Definition decode_session (c : coder) (t : cdf_table) (q : list Z) (sz : Z) (ss : list shape)
  : res (list op * coder * cdf_table * list Z) :=
  '(c, q) <- init_decoder c q sz ;;
  decode_ops c t q ss.

(** A decoder that, like a real parser, chooses the next call from what it has
    decoded so far: [f] maps the history (most recent call last) to the shape of
    the next call; [n] calls are made. *)
Fixpoint decode_adaptive (n : nat) (f : list op -> shape) (hist : list op)
  (c : coder) (t : cdf_table) (q : list Z) : res (list op * coder * cdf_table * list Z) :=
  match n with
  | O => Ok (hist, c, t, q)
  | S n' =>
      '(o, c, t, q) <- decode_op c t q (f hist) ;;
      decode_adaptive n' f (hist ++ [o]) c t q
  end.
