(** Independent specification for util.rs: integer logarithm and rounding. *)
From Coq Require Import ZArith.
Open Scope Z_scope.

(** [k] is floor(log2 n): the position of the most significant one bit. *)
Definition is_floor_log2 (n k : Z) : Prop := 0 <= k /\ 2 ^ k <= n < 2 ^ (k + 1).

(** [r] is [x / 2^n] rounded to the nearest integer, ties upwards. *)
Definition is_rounded (x n r : Z) : Prop := 2 * x - 2 ^ n < 2 * (r * 2 ^ n) <= 2 * x + 2 ^ n.
