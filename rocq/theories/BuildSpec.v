(** Vocabulary for the two build profiles. *)
From Coq Require Import ZArith List.
From Verif Require Import Base SessionModel SessionSpec.
Open Scope Z_scope.

(** A release build does what a debug build does, wherever that does not panic:
    the same value, or the same endless loop. *)
Definition same_unless_panic {A : Type} (debug release : res A) : Prop :=
  debug <> Panic -> release = debug.

(** Calls of a session, with literals of any [u8] width: the value has to fit
    the width and the [u64] it is passed in. *)
Definition wide_op (sizes : list nat) (o : op) : Prop :=
  match o with
  | OLit n v => (n <= 255)%nat /\ 0 <= v < 2 ^ Z.min 64 (Z.of_nat n)
  | _ => valid_op sizes o
  end.
