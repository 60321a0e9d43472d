(** Model of the tile layer: tile_info in the frame header
    (/repo/src/obu_encoder.rs 749-816), the tile group
    (/repo/src/obu_encoder.rs 1408-1450) and [encode_tile]
    (/repo/src/tile_encoder.rs 112-177).

    Simplification: frame sizes are below 2^31, so the sums and products of
    superblock counts do not overflow a usize; subtractions and shifts are checked. *)
From Coq Require Import ZArith List Bool.
From Verif Require Import Base UtilModel RangeCoderModel BitCodecModel SessionModel BlockTables GeomModel.
Import ListNotations.
Open Scope Z_scope.

(** constants.rs 322-325. *)
Definition MAX_TILE_WIDTH := 4096.
Definition MAX_TILE_AREA := 4096 * 2304.
Definition MAX_TILE_ROWS := 64.
Definition MAX_TILE_COLS := 64.

(** obu_encoder.rs 762-768, closure [tile_log2]. At k = 64 the shift panics. *)
Fixpoint tile_log2_loop (fuel : nat) (k blk_size target : Z) : res Z :=
  match fuel with
  | O => Panic
  | S f => if as_u64 (Z.shiftl blk_size k) <? target then tile_log2_loop f (k + 1) blk_size target else Ok k
  end.
Definition tile_log2 (blk_size target : Z) : res Z := tile_log2_loop 64 0 blk_size target.

(** frame.rs 385-391, [tile_cols_log2] and [tile_rows_log2] of a number of tiles. *)
Definition tiles_log2 (n : Z) : res Z := msb16 (as_u16 n).

(** Assignment [v[i] = x] to a vector. *)
Definition set_at (v : list Z) (i : nat) (x : Z) : res (list Z) :=
  _ <- idx v (Z.of_nat i) ;; Ok (set_nth i x v).

(** obu_encoder.rs 781-788 (797-805 for rows): [while start_sb < sb_cols { .. }]
    and the final entry. Each step is at least one superblock, so [sb + 1] steps of
    fuel are enough. *)
Fixpoint fill_starts (fuel : nat) (v : list Z) (i : nat) (start sb step sb_shift mi : Z) : res (list Z) :=
  match fuel with
  | O => Hang
  | S f =>
      if start <? sb then
        v <- set_at v i (Z.shiftl start sb_shift) ;;
        fill_starts f v (S i) (start + step) sb step sb_shift mi
      else set_at v i mi
  end.

(** The quantities of obu_encoder.rs 750-772. *)
Record tile_limits : Type := mkLim {
  l_sb_cols : Z; l_sb_rows : Z; l_sb_shift : Z;
  l_min_cols : Z; l_max_cols : Z; l_max_rows : Z; l_min_tiles : Z
}.

Definition compute_limits (mi_cols mi_rows : Z) (use128 : bool) : res tile_limits :=
  let sb_cols := if use128 then Z.shiftr (mi_cols + 31) 5 else Z.shiftr (mi_cols + 15) 4 in
  let sb_rows := if use128 then Z.shiftr (mi_rows + 31) 5 else Z.shiftr (mi_rows + 15) 4 in
  let sb_shift := if use128 then 5 else 4 in
  let sb_size := sb_shift + 2 in
  let max_tile_width_sb := Z.shiftr MAX_TILE_WIDTH sb_size in
  let max_tile_area_sb := Z.shiftr MAX_TILE_AREA (2 * sb_size) in
  min_cols <- tile_log2 max_tile_width_sb sb_cols ;;
  max_cols <- tile_log2 1 (if sb_cols <? MAX_TILE_COLS then sb_cols else MAX_TILE_COLS) ;;
  max_rows <- tile_log2 1 (if sb_rows <? MAX_TILE_ROWS then sb_rows else MAX_TILE_ROWS) ;;
  area <- tile_log2 max_tile_area_sb (sb_rows * sb_cols) ;;
  Ok (mkLim sb_cols sb_rows sb_shift min_cols max_cols max_rows (if area <? min_cols then min_cols else area)).

(** obu_encoder.rs 773-816. [tile_cols] and [tile_rows] are the lengths of the
    frame's tile_col_starts and tile_row_starts; [cs] and [rs] are the vectors
    mi_col_starts and mi_row_starts of the encoder context. The branch for
    non-uniform spacing is an empty TODO. Returns the output and the vectors. *)
Definition encode_tile_info (out : list Z) (mi_cols mi_rows : Z) (use128 uniform : bool) (tile_cols tile_rows : Z)
    (update_id size_bytes : Z) (cs rs : list Z) : res (list Z * list Z * list Z) :=
  L <- compute_limits mi_cols mi_rows use128 ;;
  let out := push out (b2z uniform) in
  '(out, cs, rs) <-
    (if uniform then
       cl <- tiles_log2 tile_cols ;;
       n <- chk_u64 (cl - l_min_cols L) ;;
       let out := push (push_n (Z.to_nat n) out 1) 0 in
       _ <- shift_ok 64 cl ;;
       let tile_width_sb := Z.shiftr (l_sb_cols L + Z.shiftl 1 cl - 1) cl in
       cs <- fill_starts (S (Z.to_nat (l_sb_cols L))) cs 0 0 (l_sb_cols L) tile_width_sb (l_sb_shift L) mi_cols ;;
       min_rows <- chk_u64 (l_min_tiles L - cl) ;;
       rl <- tiles_log2 tile_rows ;;
       n <- chk_u64 (rl - min_rows) ;;
       let out := push (push_n (Z.to_nat n) out 1) 0 in
       let tile_height_sb := Z.shiftr (l_sb_rows L + Z.shiftl 1 rl - 1) rl in
       rs <- fill_starts (S (Z.to_nat (l_sb_rows L))) rs 0 0 (l_sb_rows L) tile_height_sb (l_sb_shift L) mi_rows ;;
       Ok (out, cs, rs)
     else Ok (out, cs, rs)) ;;
  cl <- tiles_log2 tile_cols ;;
  rl <- tiles_log2 tile_rows ;;
  if (0 <? cl) || (0 <? rl) then
    out <- push_bits_with_size out (as_u32 update_id) (as_u8 (rl + cl)) ;;
    b <- chk_u64 (size_bytes - 1) ;;
    out <- push_bits_with_size out (as_u32 b) 2 ;;
    Ok (out, cs, rs)
  else Ok (out, cs, rs).

(** tile_encoder.rs 116-121: where the tile is. Division by zero panics. *)
Definition tile_position (tile_num tile_cols tile_rows : Z) : res (Z * Z) :=
  if (tile_cols =? 0) || (tile_rows =? 0) then Panic
  else Ok (tile_num / tile_rows, tile_num / tile_cols). (* (row, column) *)

Definition tile_bounds (tile_num tile_cols tile_rows : Z) (cs rs : list Z) : res (Z * Z * Z * Z) :=
  '(row, col) <- tile_position tile_num tile_cols tile_rows ;;
  a <- idx rs row ;;
  b <- idx rs (row + 1) ;;
  c <- idx cs col ;;
  d <- idx cs (col + 1) ;;
  Ok (a, b, c, d).

(** [ecx = self.ectx.borrow_mut()]: panics if the cell is borrowed already. *)
Definition borrow_mut (borrowed : bool) : res unit := if borrowed then Panic else Ok tt.

(** tile_encoder.rs 152-159: [frame.cdef_idx[r][c] = -1] and the like. *)
Definition set_cdef (cdef : list (list Z)) (r c : Z) : res (list (list Z)) :=
  row <- idx cdef r ;;
  _ <- idx row c ;;
  Ok (set_nth (Z.to_nat r) (set_nth (Z.to_nat c) (-1) row) cdef).
Definition clear_cdef (cdef : list (list Z)) (use128 : bool) (r c : Z) : res (list (list Z)) :=
  cdef <- set_cdef cdef r c ;;
  if use128 then
    s <- idx num_4x4_blocks_wide BLOCK_64X64 ;;
    cdef <- set_cdef cdef r (c + s) ;;
    cdef <- set_cdef cdef (r + s) c ;;
    set_cdef cdef (r + s) (c + s)
  else Ok cdef.

Section Tile.
(** The state of the encoder apart from frame.cdef_idx, and the code of one
    superblock (tile_encoder.rs 164-168: [encode_lr] and [encode_superblock]),
    which is handed row and column: any function. *)
Variable T : Type.
Variable superblock : T -> list (list Z) -> Z -> Z -> Z -> list Z -> res (T * list (list Z) * list Z).

(** tile_encoder.rs 147-171: one row of superblocks; fuel as for [fill_starts]. *)
Fixpoint sb_row (fuel : nat) (use128 : bool) (sb_size sb4 r c col_end : Z) (st : T) (cdef : list (list Z)) (out : list Z)
  : res (T * list (list Z) * list Z) :=
  match fuel with
  | O => Hang
  | S f =>
      if c <? col_end then
        cdef <- clear_cdef cdef use128 r c ;;
        '(st, cdef, out) <- superblock st cdef r c sb_size out ;;
        sb_row f use128 sb_size sb4 r (c + sb4) col_end st cdef out
      else Ok (st, cdef, out)
  end.

Fixpoint sb_rows (fuel : nat) (use128 : bool) (sb_size sb4 r row_end col_start col_end : Z)
    (st : T) (cdef : list (list Z)) (out : list Z) : res (T * list (list Z) * list Z) :=
  match fuel with
  | O => Hang
  | S f =>
      if r <? row_end then
        '(st, cdef, out) <-
           sb_row (S (Z.to_nat (col_end - col_start))) use128 sb_size sb4 r col_start col_end st cdef out ;;
        sb_rows f use128 sb_size sb4 (r + sb4) row_end col_start col_end st cdef out
      else Ok (st, cdef, out)
  end.

(** tile_encoder.rs 112-177, [encode_tile]. Left out here and modelled
    in WholeTileModel: the reset of delta_lf, ref_sgr_xqd and ref_lr_wiener
    (126-138) and the restoration units (168). *)
Definition encode_tile (borrowed use128 : bool) (tile_num tile_cols tile_rows : Z) (cs rs : list Z)
    (st : T) (cdef : list (list Z)) (out : list Z) : res (T * list (list Z) * list Z) :=
  _ <- borrow_mut borrowed ;;
  '(row_start, row_end, col_start, col_end) <- tile_bounds tile_num tile_cols tile_rows cs rs ;;
  let sb_size := if use128 then BLOCK_128X128 else BLOCK_64X64 in
  sb4 <- idx num_4x4_blocks_wide sb_size ;;
  sb_rows (S (Z.to_nat (row_end - row_start))) use128 sb_size sb4 row_start row_end col_start col_end st cdef out.

(** obu_encoder.rs 1428-1441: the tiles from [n] on, [k] of them. The borrow taken
    in line 1409 is held during the whole loop, so [encode_tile] is called with the
    cell borrowed. The bits of the tile go to a local vector that is dropped. *)
Fixpoint tile_loop (k : nat) (n tg_end : Z) (use128 : bool) (tile_cols tile_rows size_bytes : Z) (cs rs : list Z)
    (st : T) (cdef : list (list Z)) (out : list Z) : res (T * list (list Z) * list Z) :=
  match k with
  | O => Ok (st, cdef, out)
  | S k' =>
      '(st, cdef, bits) <- encode_tile true use128 n tile_cols tile_rows cs rs st cdef [] ;;
      let bytes := (len bits + 7) / 8 in
      out <- (if n =? tg_end then Ok out
              else b <- chk_u64 (bytes - 1) ;; encode_le out b (as_u8 size_bytes)) ;;
      tile_loop k' (n + 1) tg_end use128 tile_cols tile_rows size_bytes cs rs st cdef out
  end.

(** obu_encoder.rs 1408-1450, the payload of OBU_TILE_GROUP. [groups] is the length
    of frame.tile_groups. *)
Definition encode_tile_group (out : list Z) (use128 : bool) (tile_cols tile_rows groups tg_start tg_end size_bytes : Z)
    (cs rs : list Z) (st : T) (cdef : list (list Z)) : res (T * list (list Z) * list Z) :=
  let num_tiles := tile_cols * tile_rows in
  let out := if 1 <? num_tiles then push out (b2z (0 <? groups)) else out in
  '(tg_start, tg_end, out) <-
    (if (num_tiles =? 1) || (groups =? 0) then
       e <- chk_u64 (num_tiles - 1) ;; Ok (0, e, out)
     else
       cl <- tiles_log2 tile_cols ;;
       rl <- tiles_log2 tile_rows ;;
       out <- push_bits_with_size out (as_u32 tg_start) (as_u8 (cl + rl)) ;;
       out <- push_bits_with_size out (as_u32 tg_end) (as_u8 (cl + rl)) ;;
       Ok (tg_start, tg_end, out)) ;;
  let out := push_bits_align out in
  tile_loop (Z.to_nat (tg_end + 1 - tg_start)) tg_start tg_end use128 tile_cols tile_rows size_bytes cs rs st cdef out.

End Tile.

(** encoder.rs 134-135 and frame.rs 347: the vectors as created; nothing in the
    sources ever lengthens them. *)
Definition initial_starts : list Z := [].
Definition initial_cdef : list (list Z) := [[]].
