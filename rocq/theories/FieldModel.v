(** A header as the callers of bool_coder.rs write it: a list of calls of
    [push_bits_with_size], [encode_uvlc], [encode_le], [encode_leb128],
    [encode_su] and [encode_ns] on one buffer (bool_coder.rs 51-53 and 232-347),
    and the matching list of readers. *)
From Coq Require Import ZArith List Bool.
From Verif Require Import Base BitsSpec RangeCoderModel BitCodecModel.
Import ListNotations.
Open Scope Z_scope.

Inductive field : Type :=
| FBits (v n : Z)
| FUvlc (v : Z)
| FLe (v n : Z)
| FLeb (v : Z)
| FSu (v n : Z)
| FNs (v n : Z).

Definition write_field (out : list Z) (f : field) : res (list Z) :=
  match f with
  | FBits v n => push_bits_with_size out v n
  | FUvlc v => encode_uvlc out v
  | FLe v n => encode_le out v n
  | FLeb v => encode_leb128 out v
  | FSu v n => encode_su out v n
  | FNs v n => encode_ns out v n
  end.
Fixpoint write_fields (out : list Z) (l : list field) : res (list Z) :=
  match l with
  | [] => Ok out
  | f :: r => out <- write_field out f ;; write_fields out r
  end.

(** What a parser knows about a field before it reads it. *)
Inductive syntax : Type := SyBits (n : Z) | SyUvlc | SyLe (n : Z) | SyLeb | SySu (n : Z) | SyNs (n : Z).
Definition syntax_of (f : field) : syntax :=
  match f with
  | FBits _ n => SyBits n | FUvlc _ => SyUvlc | FLe _ n => SyLe n | FLeb _ => SyLeb
  | FSu _ n => SySu n | FNs _ n => SyNs n
  end.

(** The code has no reader for f(n) fields; this one takes the next [n] bits. *)
Definition read_f (q : list Z) (n : Z) : res (Z * list Z) :=
  let k := Z.to_nat n in
  if (length q <? k)%nat then Panic else Ok (bits_val (firstn k q), skipn k q).

Definition read_field (nb : Z) (q : list Z) (s : syntax) : res (field * Z * list Z) :=
  match s with
  | SyBits n => '(v, q) <- read_f q n ;; Ok (FBits v n, nb, q)
  | SyUvlc => '(v, q) <- decode_uvlc q ;; Ok (FUvlc v, nb, q)
  | SyLe n => '(v, q) <- decode_le q n ;; Ok (FLe v n, nb, q)
  | SyLeb => '(v, nb, q) <- decode_leb128 nb q ;; Ok (FLeb v, nb, q)
  | SySu n => '(v, q) <- decode_su q n ;; Ok (FSu v n, nb, q)
  | SyNs n => '(v, q) <- decode_ns q n ;; Ok (FNs v n, nb, q)
  end.
Fixpoint read_fields (nb : Z) (q : list Z) (l : list syntax) : res (list field * Z * list Z) :=
  match l with
  | [] => Ok ([], nb, q)
  | s :: r =>
      '(f, nb, q) <- read_field nb q s ;;
      '(fs, nb, q) <- read_fields nb q r ;;
      Ok (f :: fs, nb, q)
  end.

(** The values each writer is meant for. *)
Definition field_ok (f : field) : Prop :=
  match f with
  | FBits v n => 0 <= n <= 32 /\ 0 <= v < 2 ^ n
  | FUvlc v => 0 <= v < 2 ^ 32 - 1
  | FLe v n => 0 <= n <= 8 /\ 0 <= v < 256 ^ n
  | FLeb v => 0 <= v < 2 ^ 56
  | FSu v n => 1 <= n <= 62 /\ - 2 ^ (n - 1) <= v < 2 ^ (n - 1)
  | FNs v n => 1 <= n < 2 ^ 63 /\ 0 <= v < n
  end.
