(** What the tables of CdefTables mean, without reference to them. *)
From Coq Require Import ZArith List.
From Verif Require Import CdefTables.
Import ListNotations.
Open Scope Z_scope.

(** Offsets (down, right): a quarter turn, the transposition, and being parallel. *)
Definition turn (p : Z * Z) : Z * Z := (snd p, - fst p).
Definition transpose (p : Z * Z) : Z * Z := (snd p, fst p).
Definition parallel (p q : Z * Z) : Prop := fst p * snd q = snd p * fst q.
(** A direction has no sense: a tap and its opposite are used together. *)
Definition same_line (p q : Z * Z) : Prop := p = q \/ p = (- fst q, - snd q).

(** The taps of direction d: near and far. *)
Definition near (d : nat) : Z * Z := fst (nth d cdef_direction ((0, 0), (0, 0))).
Definition far (d : nat) : Z * Z := snd (nth d cdef_direction ((0, 0), (0, 0))).
Definition uv_dir (sx sy d : nat) : nat := Z.to_nat (nth d (nth sy (nth sx cdef_uv_dir []) []) 8).

(** A luma offset seen on chroma planes, both sides doubled to stay whole: halved in
    each subsampled direction. *)
Definition on_chroma (sx sy : nat) (p : Z * Z) : Z * Z :=
  ((if Nat.eqb sy 1 then fst p else 2 * fst p), (if Nat.eqb sx 1 then snd p else 2 * snd p)).

(** The row shift of a transform with 2^a pixels: half of what exceeds 4x4, at most 2, or
    at most 1 if one side is twice the other. *)
Definition row_shift (a : Z) : Z := Z.min (if Z.even a then 2 else 1) ((a - 4) / 2).
