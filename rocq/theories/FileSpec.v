(** Vocabulary for the output file and for read errors (C122). *)
From Coq Require Import List.
From Verif Require Import MainModel.

(** The read with this number is the first that fails. *)
Definition first_failure (rep : nat -> reply) (k : nat) : Prop := rep k = Fail /\ forall j, (j < k)%nat -> rep j <> Fail.
