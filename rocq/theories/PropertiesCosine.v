(** The property C98, continued: the cosines against the real cosine. Uses the axioms of
    the real numbers of the standard library. *)
From Coq Require Import ZArith Reals.
From Verif Require Import FilterTables FilterSpec CosineProofs.

(** Every cosine is the real one in units of 1 / 4096, rounded to nearest. *)
Theorem C98_cosine_real : forall x, exists v, cos128 cos128_lookup x = Some v /\ (Rabs (4096 * cos (2 * PI * IZR x / 256) - IZR v) <= / 2)%R.
Proof. exact cosine. Qed.
Print Assumptions C98_cosine_real.
Example C98_cosine_case : cos128 cos128_lookup 100 = Some (-3166)%Z.
Proof. reflexivity. Qed.
