(** Tables of the deblocking and directional filters, of chroma from luma and of the
    transforms in constants.rs. *)
From Coq Require Import ZArith List.
Import ListNotations.
Open Scope Z_scope.

(** constants.rs 225-234, [cfl_alpha_signs]; 219-223: zero, negative, positive are 0, 1, 2. *)
Definition cfl_alpha_signs : list (Z * Z) := [(0, 1); (0, 2); (1, 0); (1, 1); (1, 2); (2, 0); (2, 1); (2, 2)].

(** constants.rs 932-935. *)
Definition transform_row_shift : list Z := [0; 1; 2; 2; 2; 0; 0; 1; 1; 1; 1; 1; 1; 1; 1; 2; 2; 2; 2].

(** constants.rs 937-946, indexed by the horizontal and the vertical subsampling. *)
Definition cdef_uv_dir : list (list (list Z)) :=
  [[[0; 1; 2; 3; 4; 5; 6; 7]; [1; 2; 2; 2; 3; 4; 6; 0]];
   [[7; 0; 2; 4; 5; 6; 6; 6]; [0; 1; 2; 3; 4; 5; 6; 7]]].

(** constants.rs 948-954. *)
Definition cdef_pri_taps : list (list Z) := [[4; 2]; [3; 3]].
Definition cdef_sec_taps : list (list Z) := [[2; 1]; [2; 1]].

(** constants.rs 956-965: for each direction the offsets (down, right) of the two taps. *)
Definition cdef_direction : list ((Z * Z) * (Z * Z)) :=
  [((-1, 1), (-2, 2)); ((0, 1), (-1, 2)); ((0, 1), (0, 2)); ((0, 1), (1, 2));
   ((1, 1), (2, 2)); ((1, 0), (2, 1)); ((1, 0), (2, 0)); ((1, 0), (2, -1))].
