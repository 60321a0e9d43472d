(** How the AV1 specification reads the quantizer tables (7.12.2 and 7.12.3), apart
    from the tables themselves. *)
From Coq Require Import ZArith List.
Import ListNotations.
Open Scope Z_scope.

(** Entry [i] of a table, if there is one. *)
Definition at_ {A : Type} (l : list A) (i : Z) : option A := if i <? 0 then None else nth_error l (Z.to_nat i).

(** Width and height of the 19 transform sizes, in the order of the standard; a matrix
    covers the 32 by 32 lowest frequencies at most. *)
Definition tx_dims : list (Z * Z) :=
  [(4, 4); (8, 8); (16, 16); (32, 32); (64, 64); (4, 8); (8, 4); (8, 16); (16, 8); (16, 32); (32, 16); (32, 64); (64, 32);
   (4, 16); (16, 4); (8, 32); (32, 8); (16, 64); (64, 16)].
Definition qm_w (size : Z) : Z := match at_ tx_dims size with Some (w, _) => Z.min 32 w | None => 0 end.
Definition qm_h (size : Z) : Z := match at_ tx_dims size with Some (_, h) => Z.min 32 h | None => 0 end.

(** The weight of the coefficient in row [r] and column [c]: 7.12.3 reads the matrix of
    the level and plane at the offset of the size, row by row. *)
Definition weight (matrix : list (list (list Z))) (offsets : list Z) (level plane size r c : Z) : option Z :=
  match at_ matrix level with
  | Some planes =>
      match at_ planes plane, at_ offsets size with
      | Some l, Some o => at_ l (o + r * qm_w size + c)
      | _, _ => None
      end
  | None => None
  end.

(** A coefficient of a transform. *)
Definition coefficient (size r c : Z) : Prop := 0 <= size < 19 /\ 0 <= r < qm_h size /\ 0 <= c < qm_w size.
Definition table (level plane : Z) : Prop := 0 <= level < 16 /\ 0 <= plane < 2.

(** Step size for the bit depth 8 + 2 * [depth] and the quantizer index. *)
Definition step (lookup : list (list Z)) (depth q : Z) : option Z :=
  match at_ lookup depth with Some l => at_ l q | None => None end.
