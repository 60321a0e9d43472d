(** Contexts that depend on several neighbours along an edge (AV1 8.3.2), and the
    vocabulary in which the exact conditions of C57 are stated. *)
From Coq Require Import ZArith List Bool.
From Verif Require Import Base ContextModel ContextSpec.
Import ListNotations.
Open Scope Z_scope.

(** The 4x4 units along an edge of a transform block of [n] units starting at unit
    [pos] that lie inside the plane, which has [limit] units. *)
Definition edge_units (pos n limit : Z) : list Z :=
  filter (fun x => x <? limit) (map (fun k => pos + Z.of_nat k) (seq 0 (Z.to_nat n))).

(** The number of units of a plane, for a plane halved if [sub]. *)
Definition plane_units (units : Z) (sub : bool) : Z := if sub then (units + 1) / 2 else units.

(** The largest level context along the edge; [level] is AboveLevelContext or
    LeftLevelContext of the plane. *)
Definition edge_level (level : Z -> Z) (pos n limit : Z) : Z := fold_right Z.max 0 (map level (edge_units pos n limit)).
(** Whether some unit along the edge has coefficients: a level or a sign. *)
Definition edge_coded (level dc : Z -> Z) (pos n limit : Z) : bool :=
  existsb (fun x => negb (level x =? 0) || negb (dc x =? 0)) (edge_units pos n limit).

(** The context of the all-zero flag of a chroma transform block. *)
Definition spec_all_zero_chroma (smaller above left : bool) : Z := 7 + b2z above + b2z left + (if smaller then 3 else 0).

(** What the context of the luma flag tells about an edge: no level, a small one
    (up to 3), a large one. *)
Definition level_class (v : Z) : Z := if v <=? 0 then 0 else if v <=? 3 then 1 else 2.
(** The same two values, in either order. *)
Definition same_two (a b c d : Z) : Prop := (a = c /\ b = d) \/ (a = d /\ b = c).

(** Of two neighbours with filters [a] and [b] (3: none), [v] is the only filter. *)
Definition only_filter (v a b : Z) : Prop := (a = v \/ b = v) /\ (a = v \/ a = 3) /\ (b = v \/ b = 3).
(** The filter of a neighbour that counts as using the same reference, else 3. *)
Definition taken_filter (dir : Z) (match_ : option mi -> bool) (n : option mi) : Z :=
  if Avail n && match_ n then nth (Z.to_nat dir) (at_nb m_filter [] n) 3 else 3.
