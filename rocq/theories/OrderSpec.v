(** Which setting an option is for (C121). *)
From Coq Require Import ZArith.
From Verif Require Import OptionSpec.
Open Scope Z_scope.

Definition setting (i : item) : Z :=
  match i with IInput _ => 0 | IOutput _ => 1 | IFrames _ => 2 | ISize _ _ => 3 | IRate _ => 4 | IFrac _ _ => 4 end.
