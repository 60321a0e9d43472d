(** What a decoder does with the deltas of a block: the AV1 specification, 5.11.38
    (read_delta_qindex) and 5.11.39 (read_delta_lf). *)
From Coq Require Import String ZArith List Bool.
From Verif Require Import Base SeqSpec ModeInfoModel ModeInfoSpec.
Import ListNotations.
Open Scope string_scope.
Open Scope list_scope.
Open Scope Z_scope.

(** One delta, the magnitude being coded with the CDF [name], [path]. A literal of
    [n] bits carries the low [n] bits of what was given to the coder. *)
Definition low (n : Z) (q : list ev) : option (Z * list ev) :=
  LET (v, q) := lit n q IN Some (v mod 2 ^ n, q).
Definition av1_delta_of (name : string) (path : list Z) (q : list ev) : option (Z * list ev) :=
  LET (a, q) := sym name path q IN
  LET (a, q) := (if a =? 3 then LET (rem, q) := low 3 q IN LET (bits, q) := low (rem + 1) q IN Some (bits + 2 ^ (rem + 1) + 1, q)
                 else Some (a, q)) IN
  if a =? 0 then Some (0, q) else LET (s, q) := low 1 q IN Some (if s =? 0 then a else - a, q).

(** [n] loop filter deltas from number [i] on, each with a CDF of its own if [multi]. *)
Fixpoint av1_lf_deltas (multi : bool) (n : nat) (i : Z) (q : list ev) : option (list Z * list ev) :=
  match n with
  | O => Some ([], q)
  | S n =>
      LET (d, q) := (if multi then av1_delta_of "delta_lf_multi" [i] q else av1_delta_of "delta_lf" [] q) IN
      LET (ds, q) := av1_lf_deltas multi n (i + 1) q IN
      Some (d :: ds, q)
  end.
(** How many there are: 0 without delta_lf_present. *)
Definition lf_count (present multi mono : bool) : nat :=
  if present then if multi then if mono then 2%nat else 4%nat else 1%nat else 0%nat.
Definition av1_deltas (multi : bool) (n : nat) (q : list ev) : option ((Z * list Z) * list ev) :=
  LET (d, q) := av1_delta_of "delta_q" [] q IN
  LET (ds, q) := av1_lf_deltas multi n 0 q IN
  Some ((d, ds), q).

(** What it makes of them, [res] being the resolution. *)
Definition av1_lf_value (cur delta res : Z) : Z := Z.max (-63) (Z.min 63 (cur + delta * 2 ^ res)).

(** What the block wants, in units of the resolution. *)
Definition in_units (res want have : Z) : Z := (want - have) / 2 ^ res.
