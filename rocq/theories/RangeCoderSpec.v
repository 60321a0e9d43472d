(** Independent vocabulary for the arithmetic coder. *)
From Coq Require Import ZArith List Sorted.
Import ListNotations.
Open Scope Z_scope.

(** A valid CDF for an alphabet of [N] symbols, 2 <= N <= 1024 (AV1 uses at most
    16): [N] strictly increasing values above 0, the last one 32768, followed by
    an adaptation counter between 0 and 32. *)
Definition valid_cdf (N : nat) (cdf : list Z) : Prop :=
  exists probs cnt,
    cdf = probs ++ [cnt] /\
    length probs = N /\ (2 <= N <= 1024)%nat /\
    Sorted Z.lt (0 :: probs) /\
    last probs 0 = 32768 /\
    0 <= cnt <= 32.

(** Probability of symbol [s] under [cdf], in units of 1/32768. *)
Definition prob (cdf : list Z) (s : nat) : Z :=
  match s with
  | O => nth 0 cdf 0
  | S s' => nth s cdf 0 - nth s' cdf 0
  end.
