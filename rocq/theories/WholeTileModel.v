(** Model of [encode_tile] as a whole, /repo/src/tile_encoder.rs 112-177, with what it
    does to the encoder context before the first superblock, the restoration units
    (LrModel) and the partition search (GeomModel) of every superblock. The mode
    information of a block is any function here (ModeInfoModel has the real one).

    The lines "init symbol" and "exit symbol" (124 and 176) are comments: the coder is
    used as it was handed over. *)
From Coq Require Import ZArith List Bool.
From Verif Require Import Base UtilModel RangeCoderModel SessionModel BlockTables GeomModel TileModel FrameParamModel LrModel CdfTables CdfTableSpec.
Import ListNotations.
Open Scope Z_scope.

(** The rest of the state of a tile: of the context (encoder.rs 68, 83-86)
    [current_q_index], [delta_lf], [read_deltas] and, in [w_lr], the references of the
    restoration units; of the frame [cdef_idx]; [w_other] is what only the mode
    information touches. *)
Record rest (S : Type) : Type := mkRest {
  w_lr : lrstate; w_q : Z; w_lf : list Z; w_read : bool; w_cdef : list (list Z); w_other : S }.
Arguments mkRest {S}. Arguments w_lr {S}. Arguments w_q {S}. Arguments w_lf {S}. Arguments w_read {S}.
Arguments w_cdef {S}. Arguments w_other {S}.

(** constants.rs 431 and 440. *)
Definition FRAME_LF_COUNT := 4.
Definition WIENER_COEFFS := 3.

(** tile_encoder.rs 128-130. *)
Fixpoint reset_lf (is : list Z) (lf : list Z) : res (list Z) :=
  match is with
  | [] => Ok lf
  | i :: is => lf <- put lf i 0 ;; reset_lf is lf
  end.

(** tile_encoder.rs 134-136. *)
Fixpoint reset_taps (is : list Z) (plane pass : Z) (taps : list (list (list Z))) : res (list (list (list Z))) :=
  match is with
  | [] => Ok taps
  | i :: is =>
      m <- idx wiener_taps_mid i ;;
      taps <- put3 taps plane pass i m ;;
      reset_taps is plane pass taps
  end.

(** tile_encoder.rs 132-137. *)
Fixpoint reset_passes (ps : list Z) (plane : Z) (xqd : list (list Z)) (taps : list (list (list Z)))
  : res (list (list Z) * list (list (list Z))) :=
  match ps with
  | [] => Ok (xqd, taps)
  | pass :: ps =>
      m <- idx sgrproj_xqd_mid pass ;;
      xqd <- upd xqd plane (fun l => put l pass m) ;;
      taps <- reset_taps (zrange 0 WIENER_COEFFS) plane pass taps ;;
      reset_passes ps plane xqd taps
  end.

(** tile_encoder.rs 131-138. *)
Fixpoint reset_planes (planes : list Z) (xqd : list (list Z)) (taps : list (list (list Z)))
  : res (list (list Z) * list (list (list Z))) :=
  match planes with
  | [] => Ok (xqd, taps)
  | plane :: planes =>
      '(xqd, taps) <- reset_passes (zrange 0 2) plane xqd taps ;;
      reset_planes planes xqd taps
  end.

(** tile_encoder.rs 122 and 128-138: the context at the start of a tile. *)
Definition start_tile {S : Type} (base_q planes : Z) (w : rest S) : res (rest S) :=
  lf <- reset_lf (zrange 0 FRAME_LF_COUNT) (w_lf w) ;;
  '(xqd, taps) <- reset_planes (zrange 0 planes) (t_ref_xqd (w_lr w)) (t_ref_taps (w_lr w)) ;;
  let l := w_lr w in
  Ok (mkRest (mkLrState xqd taps (t_type l) (t_taps l) (t_set l) (t_xqd l)) base_q lf (w_read w) (w_cdef w) (w_other w)).

(** The CDFs of the partition symbols in [default_cdf], which [TileEncoder::new]
    copies (tile_encoder.rs 80). *)
Definition default_part : part_cdfs :=
  mkPart (tab_rows cdf_partition_w8) (tab_rows cdf_partition_w16) (tab_rows cdf_partition_w32)
    (tab_rows cdf_partition_w64) (tab_rows cdf_partition_w128).

(** What a tile is encoded with: the frame and the unchanging part of the context. *)
Record tile_in : Type := mkTileIn {
  i_use128 : bool; i_cols : Z; i_rows : Z; i_cs : list Z; i_rs : list Z;
  i_mi_rows : Z; i_mi_cols : Z; i_subx : bool; i_suby : bool; i_planes : Z;
  i_base_q : Z; i_deltas : bool; i_lr : lrenv; i_units : list (list (list (list (list lrunit)))) }.

Section Whole.
Variable S : Type.
Variable mode_info : tstate (rest S) -> block_env -> list Z -> res (tstate (rest S) * list Z).

(** tile_encoder.rs 150 and 164-168: one superblock. The recursion of the partition
    search has depth 6 at most. *)
Definition superblock (x : tile_in) (e : tile_env) (st : tstate (rest S)) (cdef : list (list Z)) (r c sb_size : Z) (out : list Z)
  : res (tstate (rest S) * list (list Z) * list Z) :=
  let w := t_rest st in
  '(lr, es) <- encode_lr (i_lr x) (i_units x) r c sb_size (w_lr w) [] ;;
  '(cd, out) <- run_levs (t_coder st) out es ;;
  let w := mkRest lr (w_q w) (w_lf w) (i_deltas x) cdef (w_other w) in
  '(st, out, _) <- encode_superblock (rest S) mode_info e 6 (mkT cd (t_cdf st) (t_avail_u st) (t_avail_l st) w) sb_size (c * 4) (r * 4) out ;;
  Ok (st, w_cdef (t_rest st), out).

(** tile_encoder.rs 112-177. *)
Definition encode_whole_tile (borrowed : bool) (x : tile_in) (tile_num : Z) (st : tstate (rest S)) (out : list Z)
  : res (tstate (rest S) * list (list Z) * list Z) :=
  _ <- borrow_mut borrowed ;;
  '(r0, r1, c0, c1) <- tile_bounds tile_num (i_cols x) (i_rows x) (i_cs x) (i_rs x) ;;
  w <- start_tile (i_base_q x) (i_planes x) (t_rest st) ;;
  let e := mkEnv r0 r1 c0 c1 (i_mi_rows x) (i_mi_cols x) (i_subx x) (i_suby x) (i_planes x) in
  encode_tile (tstate (rest S)) (superblock x e) false (i_use128 x) tile_num (i_cols x) (i_rows x) (i_cs x) (i_rs x)
    (mkT (t_coder st) (t_cdf st) (t_avail_u st) (t_avail_l st) w) (w_cdef w) out.

(** obu_encoder.rs 1434-1435 for the first tile of a run of the program: the tile
    encoder is new (tile_encoder.rs 69-106) and the coder as main.rs 97 creates it. *)
Definition first_tile_state (w : rest S) : tstate (rest S) := mkT new_coder default_part false false w.
End Whole.
