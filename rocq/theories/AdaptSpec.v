(** Which distributions a sequence of syntax elements changes, and how (C120). *)
From Coq Require Import String ZArith List Bool.
From Verif Require Import SyntaxSpec CdfTables CdfTableSpec.
Import ListNotations.
Open Scope Z_scope.

(** The row at some indices of the table of a syntax element. *)
Definition entry (s : list (string * tab)) (name : string) (path : list nat) : option (list Z) :=
  match find (fun e => String.eqb (fst e) name) s with Some (_, t) => tab_at t path | None => None end.

(** A row adapted to one symbol after the other; it has one number more than its alphabet
    has symbols. *)
Inductive adapted_over : list Z -> list Z -> list Z -> Prop :=
  | adapted_none : forall row, adapted_over [] row row
  | adapted_next : forall v vs row row1 row2, draft_adapted (length row - 1) v row row1 -> adapted_over vs row1 row2 ->
      adapted_over (v :: vs) row row2.

(** The symbols coded with the row of [name] at [path], in order. *)
Definition same_path (p : list Z) (q : list nat) : bool := if list_eq_dec Nat.eq_dec (map Z.to_nat p) q then true else false.
Definition symbols_of (es : list (string * list Z * Z)) (name : string) (path : list nat) : list Z :=
  map snd (filter (fun '(n, p, _) => String.eqb n name && same_path p path) es).

(** What a decoder asks for: an existing row. *)
Definition selects (e : string * list Z) : Prop :=
  exists dims N, In (fst e, dims, N) cdf_shapes /\ Forall2 (fun i d => 0 <= i < Z.of_nat d) (snd e) dims.
