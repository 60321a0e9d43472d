(** What the prediction and filter tables are for (AV1 specification 7.11.3, 7.11.3.4,
    7.11.3.5, 7.11.3.11, 7.13.2.2 and 7.16), apart from the tables. *)
From Coq Require Import ZArith List.
Import ListNotations.
Open Scope Z_scope.

(** A filter applied to as many samples, before rounding by 7 bits. *)
Fixpoint filtered (taps samples : list Z) : Z :=
  match taps, samples with t :: ts, s :: ss => t * s + filtered ts ss | _, _ => 0 end.

(** Rows of a table. *)
Definition row {A : Type} (l : list A) (i : Z) : option A := if i <? 0 then None else nth_error l (Z.to_nat i).

(** [cos128 x] of 7.13.2.2, the cosine of [x] times 2 pi / 256 in units of 1 / 4096, from
    its values for the first quarter. *)
Definition cos128 (t : list Z) (x : Z) : option Z :=
  let x := x mod 256 in
  if x <=? 64 then row t x
  else if x <=? 128 then option_map Z.opp (row t (128 - x))
  else if x <=? 192 then option_map Z.opp (row t (x - 128))
  else row t (256 - x).

(** [Sgr_Params] of 7.17.3: for every set the radius and the strength of the two passes of
    the self guided filter. The strengths of a pass with radius 0 are not used. *)
Definition av1_sgr_params : list (list (Z * Z)) :=
  [[(2, 140); (1, 3236)]; [(2, 112); (1, 2158)]; [(2, 93); (1, 1618)]; [(2, 80); (1, 1438)];
   [(2, 70); (1, 1295)]; [(2, 58); (1, 1177)]; [(2, 47); (1, 1079)]; [(2, 37); (1, 996)];
   [(2, 30); (1, 925)]; [(2, 25); (1, 863)]; [(0, 0); (1, 2589)]; [(0, 0); (1, 1618)];
   [(0, 0); (1, 1177)]; [(0, 0); (1, 925)]; [(2, 56); (0, 0)]; [(2, 22); (0, 0)]].
