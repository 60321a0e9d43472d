(** Lower bounds for the probabilities of symbols. *)
From Coq Require Import ZArith List.
From Verif Require Import RangeCoderSpec SessionModel.
Import ListNotations.
Open Scope Z_scope.

(** A CDF of [N] symbols with no probability below [m] (of 32768). *)
Definition floored (m : Z) (N : nat) (cdf : list Z) : Prop := valid_cdf N cdf /\ forall j, (j < N)%nat -> m <= prob cdf j.
Definition floored_table (m : Z) (sizes : list nat) (t : cdf_table) : Prop := Forall2 (floored m) sizes t.
(** Nothing that was at least 32 is now below 32, and nothing below 32 has shrunk. *)
Definition no_lower (N : nat) (cdf cdf' : list Z) : Prop := forall j, (j < N)%nat -> Z.min 32 (prob cdf j) <= prob cdf' j.
Definition table_no_lower (sizes : list nat) (t t' : cdf_table) : Prop :=
  length t' = length t /\ forall i N, nth_error sizes i = Some N -> no_lower N (nth i t []) (nth i t' []).
