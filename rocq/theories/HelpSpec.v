(** How a user reads the help text (C126): the part of a line before the first colon
    names flags, separated by a space and with parentheses around the second. *)
From Coq Require Import List Ascii String Bool.
From Verif Require Import Base OptionModel.
Import ListNotations.
Open Scope list_scope.

Fixpoint before_colon (s : list ascii) : list ascii :=
  match s with
  | [] => []
  | c :: r => if Ascii.eqb c ":"%char then [] else c :: before_colon r
  end.
(** The words of a text. *)
Fixpoint words (word s : list ascii) : list (list ascii) :=
  match s with
  | [] => [word]
  | c :: r => if Ascii.eqb c " "%char then word :: words [] r else words (word ++ [c]) r
  end.
Definition parenthesis (c : ascii) : bool := Ascii.eqb c "("%char || Ascii.eqb c ")"%char.
Definition flags_of_line (l : list ascii) : list (list ascii) :=
  map (filter (fun c => negb (parenthesis c))) (words [] (before_colon l)).

(** A flag can be used: some command line that starts with it is not an error. *)
Definition usable (f : str) : Prop :=
  exists args c c' p, parse (f :: args) c = Ok (c', p) /\ p <> PErr.
