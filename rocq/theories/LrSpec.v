(** Loop restoration units as in the AV1 specification, written from sections 5.11.57
    (read_lr), 5.11.58 (read_lr_unit), 7.17 (sizes) and independent of the model. *)
From Coq Require Import ZArith List Bool.
From Verif Require Import SeqSpec SyntaxSpec ReaderSpec ElementSpec TileSpec.
Import ListNotations.
Open Scope Z_scope.

(** A frame: whether the planes are subsampled, height, width after upscaling,
    superres denominator (if superres is used). *)
Record av1_lr : Type := mkAv1Lr {
  a_planes : Z; a_type : Z -> Z; a_size : Z -> Z; a_ssx : Z; a_ssy : Z;
  a_height : Z; a_up : Z; a_denom : option Z }.
Definition plane_ss (ss plane : Z) : Z := if plane =? 0 then 0 else ss.
(** Round2 of a size by the subsampling (0 or 1). *)
Definition av1_plane_size (size ss : Z) : Z := (size + ss) / (1 + ss).
(** count_units_in_frame. *)
Definition av1_unit_count (unit_size size : Z) : Z := Z.max ((size + unit_size / 2) / unit_size) 1.
Definition av1_unit_rows (f : av1_lr) (plane : Z) : Z :=
  av1_unit_count (a_size f plane) (av1_plane_size (a_height f) (plane_ss (a_ssy f) plane)).
Definition av1_unit_cols (f : av1_lr) (plane : Z) : Z :=
  av1_unit_count (a_size f plane) (av1_plane_size (a_up f) (plane_ss (a_ssx f) plane)).
(** unitRowStart and unitRowEnd, unitColStart and unitColEnd, for a block of [n] by
    [n] cells of 4 samples at row [r], column [c]. *)
Definition av1_row_start (f : av1_lr) (plane r : Z) : Z :=
  cdiv (r * (4 / (1 + plane_ss (a_ssy f) plane))) (a_size f plane).
Definition av1_row_end (f : av1_lr) (plane r n : Z) : Z :=
  Z.min (av1_unit_rows f plane) (av1_row_start f plane (r + n)).
Definition av1_col_start (f : av1_lr) (plane c : Z) : Z :=
  let cell := 4 / (1 + plane_ss (a_ssx f) plane) in
  match a_denom f with
  | Some d => cdiv (c * (cell * d)) (a_size f plane * 8)
  | None => cdiv (c * cell) (a_size f plane)
  end.
Definition av1_col_end (f : av1_lr) (plane c n : Z) : Z :=
  Z.min (av1_unit_cols f plane) (av1_col_start f plane (c + n)).

Definition up_to (lo hi : Z) : list Z := map (fun i => lo + Z.of_nat i) (seq 0 (Z.to_nat (hi - lo))).
(** The units read with a superblock, in order: plane, row and column. *)
Definition av1_plane_units (f : av1_lr) (r c n plane : Z) : list (Z * Z * Z) :=
  if a_type f plane =? 0 then []
  else flat_map (fun row => map (fun col => (plane, row, col)) (up_to (av1_col_start f plane c) (av1_col_end f plane c n)))
                (up_to (av1_row_start f plane r) (av1_row_end f plane r n)).
Definition av1_read_lr (f : av1_lr) (r c n : Z) : list (Z * Z * Z) :=
  flat_map (av1_plane_units f r c n) (up_to 0 (a_planes f)).

(** MiRows or MiCols (5.9.9), FrameWidth (5.9.8), and the number of superblocks of
    [sb] cells. *)
Definition av1_cells (size : Z) : Z := 2 * ((size + 7) / 8).
Definition av1_frame_width (f : av1_lr) : Z :=
  match a_denom f with Some d => (a_up f * 8 + d / 2) / d | None => a_up f end.
Definition av1_superblocks (size sb : Z) : Z := cdiv (av1_cells size) sb.

(** decode_subexp_bool (5.11.58), with everything read by the symbol decoder: bits
    here are the literal bits decoded. *)
Fixpoint rd_subexp_bool_loop (fuel : nat) (i mk numSyms k : Z) (q : list Z) : option (Z * list Z) :=
  match fuel with
  | O => None
  | S f =>
      let b2 := if i =? 0 then k else k + i - 1 in
      let a := 2 ^ b2 in
      if numSyms <=? mk + 3 * a then
        LET (v, q) := rd_ns (Z.to_pos (numSyms - mk)) q IN Some (v + mk, q)
      else
        LET (more, q) := rd1 q IN
        if more then rd_subexp_bool_loop f (i + 1) (mk + a) numSyms k q
        else LET (v, q) := rd (Z.to_nat b2) q IN Some (v + mk, q)
  end.
Definition rd_signed_subexp_bool (low high k r : Z) (q : list Z) : option (Z * list Z) :=
  let mx := high - low in
  let r := r - low in
  LET (v, q) := rd_subexp_bool_loop 65 0 0 mx k q IN
  if 2 * r <=? mx then Some (av1_inverse_recenter r v + low, q)
  else Some (mx - 1 - av1_inverse_recenter (mx - 1 - r) v + low, q).

(** The weights of the self-guided filter (Sgrproj_Xqd_Min, Sgrproj_Xqd_Max). *)
Definition xqd_min (i : Z) : Z := if i =? 0 then -96 else -32.
Definition xqd_max (i : Z) : Z := if i =? 0 then 31 else 95.
Definition rd_weight (i r : Z) (q : list Z) : option (Z * list Z) :=
  rd_signed_subexp_bool (xqd_min i) (xqd_max i + 1) 4 r q.

(** Which of the two passes of a set have weights of their own (Sgr_Params). *)
Definition has_weight (set i : Z) : bool := if i =? 0 then negb ((10 <=? set) && (set <=? 13)) else set <=? 13.
(** The weights in force after a unit, which are the references of the next unit of
    the plane: 5.11.58, with SGRPROJ_PRJ_BITS 7. *)
Definition av1_weights (set x0 x1 : Z) : list Z :=
  let v0 := if has_weight set 0 then x0 else 0 in
  let v1 := if has_weight set 1 then x1 else Z.min (xqd_max 1) (Z.max (xqd_min 1) (128 - v0)) in
  [v0; v1].
