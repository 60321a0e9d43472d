(** Transform type symbols: which type each symbol stands for (AV1 specification 6.10.19,
    Tx_Type_Intra_Inv_Set1 and so on). *)
From Coq Require Import ZArith List.
Import ListNotations.
Open Scope Z_scope.

Definition std_symbols (is_inter : bool) (set : Z) : list Z :=
  if is_inter then
    (if set =? 1 then [9; 10; 11; 12; 13; 14; 15; 0; 1; 2; 4; 5; 3; 6; 7; 8]
     else if set =? 2 then [9; 10; 11; 0; 1; 2; 4; 5; 3; 6; 7; 8] else [9; 0])
  else (if set =? 1 then [9; 0; 10; 11; 3; 1; 2] else [9; 0; 3; 1; 2]).
