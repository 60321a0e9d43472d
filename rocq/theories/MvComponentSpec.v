(** What a decoder makes of a magnitude [a] the closure [encode_mv_component] has coded: of
    its bits only the lowest four arrive, 16 is added if the lowest 16 bits are 256 or
    more, and the 1 the syntax leaves out is added. *)
From Coq Require Import ZArith Bool.
Open Scope Z_scope.

Definition read_magnitude (int hp : bool) (a : Z) : Z :=
  (if a mod 65536 <? 256 then 0 else 16) + 8 * (a / 8 mod 2) + 2 * (if int then 3 else a / 2 mod 4) + (if hp then a mod 2 else 1) + 1.
