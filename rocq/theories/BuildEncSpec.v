(** Vocabulary for the encoder in a release build. *)
From Coq Require Import ZArith List Bool.
From Verif Require Import Base RangeCoderModel RangeCoderSpec GeomModel PartSpec.
From Verif Require BuildModel.
Import ListNotations.
Open Scope Z_scope.

(** What the writers of forced divisions do with the row [row] of the table: the sum
    taken as a shift keeps its five low bits. *)
Definition release_split_outcome (w : Z) (row : list Z) (types : list nat) (c : coder) (out : list Z) (s : Z) : res (coder * list Z) :=
  if (w =? 32) || (w =? 64) then Panic
  else
    let q := total row types + (if w =? 128 then 0 else prob row 9) in
    match BuildModel.encode_symbol BuildModel.Release c s out [as_i32 (2 ^ ((15 - q) mod 32)); 32768; 0] with
    | Ok (c', out', _) => Ok (c', out') | Panic => Panic | Hang => Hang
    end.

(** One flag coded alone from the default tables: the bits. *)
Definition flag_alone (write : coder -> part_cdfs -> list Z -> Z -> bool -> bool -> Z -> res (coder * list Z))
    (t : part_cdfs) (b : Z) (above left : bool) (s : Z) : res (list Z) :=
  '(c, out) <- write (init_encoder new_coder) t [] b above left s ;;
  '(_, out) <- BuildModel.exit_encoder BuildModel.Release c out ;;
  Ok out.
