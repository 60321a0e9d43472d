(** Model of the block geometry: the tables of /repo/src/constants.rs as used by
    /repo/src/common.rs 41-54, the partition search of
    /repo/src/tile_encoder.rs 324-546 and the partition writers of
    /repo/src/bool_coder.rs 424-492.

    Simplifications: rows and columns are unbounded integers (no usize overflow
    in [r + half]); the mode information of a block, its residual and the rest of
    the encoder state are a function parameter and an abstract state type, since
    nothing here depends on them. *)
From Coq Require Import ZArith List Bool.
From Verif Require Import Base UtilModel RangeCoderModel BitCodecModel BlockTables SessionModel.
Import ListNotations.
Open Scope Z_scope.

(** constants.rs 97-108, [Partition], and 111-135, [BlockSize], as numbers. *)
Definition PARTITION_NONE := 0.
Definition PARTITION_HORZ := 1.
Definition PARTITION_VERT := 2.
Definition PARTITION_SPLIT := 3.
Definition PARTITION_HORZ_A := 4.
Definition PARTITION_HORZ_B := 5.
Definition PARTITION_VERT_A := 6.
Definition PARTITION_VERT_B := 7.
Definition PARTITION_HORZ_4 := 8.
Definition PARTITION_VERT_4 := 9.
Definition BLOCK_8X8 := 3.
Definition BLOCK_64X64 := 12.
Definition BLOCK_128X128 := 15.
Definition TX_INVALID := 19.
Definition TX_SIZES_ALL := 19.

(** Two-dimensional table access. *)
Definition idx2 (t : list (list Z)) (i j : Z) : res Z := r <- idx t i ;; idx r j.
Definition idx3 (t : list (list (list Z))) (i j k : Z) : res Z := r <- idx t i ;; idx2 r j k.

(** common.rs 41-45, [get_plane_residual_size]. *)
Definition get_plane_residual_size (subsize plane : Z) (subsampling_x subsampling_y : bool) : res Z :=
  let subx := if 0 <? plane then b2z subsampling_x else 0 in
  let suby := if 0 <? plane then b2z subsampling_y else 0 in
  idx3 subsampled_size subsize subx suby.

(** common.rs 47-54, [find_tx_size]: first matching entry of the two tables.
    [k] entries are left to look at, [t] is the current index. *)
Fixpoint find_tx_loop (k : nat) (t w h : Z) : res Z :=
  match k with
  | O => Ok TX_INVALID
  | S k' =>
      tw <- idx tx_width t ;;
      if tw =? w then
        th <- idx tx_height t ;;
        if th =? h then Ok t else find_tx_loop k' (t + 1) w h
      else find_tx_loop k' (t + 1) w h
  end.
Definition find_tx_size (w h : Z) : res Z := find_tx_loop (Z.to_nat TX_SIZES_ALL) 0 w h.

(** frame.rs 365-371, [mi_rows] and [mi_cols] of a frame height or width. *)
Definition mi_units (size : Z) : Z := 2 * Z.shiftr (size + 7) 3.

(** tile_encoder.rs 384-489: the calls of [encode_block] (of [encode_partition]
    for [PARTITION_SPLIT]) made for one partition type, in order, as triples
    (row, column, size of the block). *)
Definition sub_calls (p r c half quarter mi_rows mi_cols sub_size split_size : Z) (has_rows has_cols : bool)
  : list (Z * Z * Z) :=
  if p =? PARTITION_NONE then [(r, c, sub_size)]
  else if p =? PARTITION_HORZ then
    (r, c, sub_size) :: (if has_rows then [(r + half, c, sub_size)] else [])
  else if p =? PARTITION_VERT then
    (r, c, sub_size) :: (if has_cols then [(r, c + half, sub_size)] else [])
  else if p =? PARTITION_SPLIT then
    [(r, c, sub_size); (r, c + half, sub_size); (r + half, c, sub_size); (r + half, c + half, sub_size)]
  else if p =? PARTITION_HORZ_A then
    [(r, c, split_size); (r, c + half, split_size); (r + half, c, sub_size)]
  else if p =? PARTITION_HORZ_B then
    [(r, c, sub_size); (r + half, c, split_size); (r, c + half, split_size)]
  else if p =? PARTITION_VERT_A then
    [(r, c, split_size); (r + half, c, split_size); (r, c + half, sub_size)]
  else if p =? PARTITION_VERT_B then
    [(r, c, sub_size); (r, c + half, split_size); (r + half, c, split_size)]
  else if p =? PARTITION_HORZ_4 then
    [(r + quarter * 0, c, sub_size); (r + quarter * 1, c, sub_size); (r + quarter * 2, c, sub_size)] ++
    (if r + quarter * 3 <? mi_rows then [(r + quarter * 3, c, sub_size)] else [])
  else
    [(r, c + quarter * 0, sub_size); (r, c + quarter * 1, sub_size); (r, c + quarter * 2, sub_size)] ++
    (if c + quarter * 3 <? mi_cols then [(r + quarter * 3, c, sub_size)] else []).

(** tile_encoder.rs 353-381: which partition types are tried. *)
Definition partition_tried (bsize : Z) (has_rows has_cols : bool) (p : Z) : bool :=
  if bsize <? BLOCK_8X8 then p =? PARTITION_NONE
  else if has_rows && has_cols then true
  else if has_cols then (p =? PARTITION_SPLIT) || (p =? PARTITION_HORZ)
  else if has_rows then (p =? PARTITION_SPLIT) || (p =? PARTITION_VERT)
  else p =? PARTITION_SPLIT.

(** tile_encoder.rs 341-345 and 383-384: the sub-blocks of a partition of the
    block of size [bsize] at (r, c). In the [PARTITION_NONE] branch the code
    passes the node itself, whose size is [bsize]. *)
Definition sub_blocks (p bsize r c mi_rows mi_cols : Z) : res (list (Z * Z * Z)) :=
  num4x4 <- idx num_4x4_blocks_wide bsize ;;
  let half := Z.shiftr num4x4 1 in
  let quarter := Z.shiftr half 1 in
  let has_rows := r + half <? mi_rows in
  let has_cols := c + half <? mi_cols in
  sub_size <- idx2 partition_subsize p bsize ;;
  split_size <- idx2 partition_subsize PARTITION_SPLIT bsize ;;
  Ok (sub_calls p r c half quarter mi_rows mi_cols
        (if p =? PARTITION_NONE then bsize else sub_size) split_size has_rows has_cols).

(** The five partition tables of the CDF context (cdf.rs, [CDF]). *)
Record part_cdfs : Type := mkPart {
  partition_w8 : cdf_table; partition_w16 : cdf_table; partition_w32 : cdf_table;
  partition_w64 : cdf_table; partition_w128 : cdf_table
}.

(** bool_coder.rs 427-437 (and 444-454, 470-480): the table selected by [bsl]. *)
Definition part_table (t : part_cdfs) (bsl : Z) : cdf_table :=
  if bsl =? 1 then partition_w8 t
  else if bsl =? 2 then partition_w16 t
  else if bsl =? 3 then partition_w32 t
  else if bsl =? 4 then partition_w64 t
  else partition_w128 t.

(** Write-back of the adapted table. *)
Definition part_set (t : part_cdfs) (bsl : Z) (x : cdf_table) : part_cdfs :=
  if bsl =? 1 then mkPart x (partition_w16 t) (partition_w32 t) (partition_w64 t) (partition_w128 t)
  else if bsl =? 2 then mkPart (partition_w8 t) x (partition_w32 t) (partition_w64 t) (partition_w128 t)
  else if bsl =? 3 then mkPart (partition_w8 t) (partition_w16 t) x (partition_w64 t) (partition_w128 t)
  else if bsl =? 4 then mkPart (partition_w8 t) (partition_w16 t) (partition_w32 t) x (partition_w128 t)
  else mkPart (partition_w8 t) (partition_w16 t) (partition_w32 t) (partition_w64 t) x.

(** bool_coder.rs 424-439, [encode_partition] of the symbol writer. *)
Definition code_partition (c : coder) (t : part_cdfs) (out : list Z) (bsize : Z) (above left : bool) (p : Z)
  : res (coder * part_cdfs * list Z) :=
  bsl <- idx mi_width_log2 bsize ;;
  let ctx := b2z left * 2 + b2z above in
  cdf <- idx (part_table t bsl) ctx ;;
  '(c, out, cdf) <- encode_symbol c p out cdf ;;
  Ok (c, part_set t bsl (set_nth (Z.to_nat ctx) cdf (part_table t bsl)), out).

(** One term of the sums: [partition_cdf[X] - partition_cdf[X - 1]], added to the
    running total from left to right (i32). *)
Definition psum_term (cdf : list Z) (acc x : Z) : res Z :=
  a <- idx cdf x ;;
  s <- chk_i32 (acc + a) ;;
  b <- idx cdf (x - 1) ;;
  chk_i32 (s - b).

Fixpoint psum_terms (cdf : list Z) (acc : Z) (xs : list Z) : res Z :=
  match xs with
  | [] => Ok acc
  | x :: r => s <- psum_term cdf acc x ;; psum_terms cdf s r
  end.

(** bool_coder.rs 455-464 and 481-490: the two-symbol CDF. Note the precedence:
    [1<<15 - psum] is [1 << (15 - psum)]. *)
Definition split_cdf (cdf : list Z) (bsize : Z) (terms : list Z) : res (list Z) :=
  psum <- psum_terms cdf 0 terms ;;
  psum <- (if bsize =? BLOCK_128X128 then Ok psum
           else a <- idx cdf PARTITION_VERT_4 ;; b <- idx cdf (PARTITION_VERT_4 - 1) ;;
                d <- chk_i32 (a - b) ;; chk_i32 (psum + d)) ;;
  k <- chk_i32 (15 - psum) ;;
  _ <- shift_ok 32 k ;;
  Ok [as_i32 (Z.shiftl 1 k); 32768; 0].

(** bool_coder.rs 441-465, [encode_split_or_horz]. *)
Definition code_split_or_horz (c : coder) (t : part_cdfs) (out : list Z) (bsize : Z) (above left : bool) (s : Z)
  : res (coder * list Z) :=
  bsl <- idx mi_width_log2 bsize ;;
  cdf <- idx (part_table t bsl) (b2z left * 2 + b2z above) ;;
  two <- split_cdf cdf bsize [PARTITION_VERT; PARTITION_VERT; PARTITION_VERT; PARTITION_VERT; PARTITION_VERT] ;;
  '(c, out, _) <- encode_symbol c s out two ;;
  Ok (c, out).

(** bool_coder.rs 467-491, [encode_split_or_vert]. *)
Definition code_split_or_vert (c : coder) (t : part_cdfs) (out : list Z) (bsize : Z) (above left : bool) (s : Z)
  : res (coder * list Z) :=
  bsl <- idx mi_width_log2 bsize ;;
  cdf <- idx (part_table t bsl) (b2z left * 2 + b2z above) ;;
  two <- split_cdf cdf bsize [PARTITION_VERT; PARTITION_SPLIT; PARTITION_HORZ_A; PARTITION_VERT_A; PARTITION_VERT_B] ;;
  '(c, out, _) <- encode_symbol c s out two ;;
  Ok (c, out).

(** block.rs 20-40, [PartitionTree]: the fields set by the partition search. *)
Inductive ptree : Type := PTree (part_type bsize : Z) (partitions : list ptree).

(** The state of [TileEncoder] (tile_encoder.rs 22-64) the search touches; [S] is
    all the rest, including the frame and the superblock. *)
Record tstate (S : Type) : Type := mkT {
  t_coder : coder; t_cdf : part_cdfs; t_avail_u : bool; t_avail_l : bool; t_rest : S
}.
Arguments mkT {S}. Arguments t_coder {S}. Arguments t_cdf {S}. Arguments t_avail_u {S}. Arguments t_avail_l {S}.
Arguments t_rest {S}.

(** What does not change while a tile is encoded. *)
Record tile_env : Type := mkEnv {
  e_row_start : Z; e_row_end : Z; e_col_start : Z; e_col_end : Z;
  e_mi_rows : Z; e_mi_cols : Z; e_subx : bool; e_suby : bool; e_num_planes : Z
}.

(** tile_encoder.rs 108-110, [is_inside]. *)
Definition is_inside (e : tile_env) (r c : Z) : bool :=
  (e_col_start e <=? c) && (c <? e_col_end e) && (e_row_start e <=? r) && (r <? e_row_end e).

(** tile_encoder.rs 515-523: does the block code chroma? *)
Definition has_chroma (e : tile_env) (r c bw4 bh4 : Z) : bool :=
  if (bh4 =? 1) && e_suby e && (Z.land r 1 =? 0) then false
  else if (bw4 =? 1) && e_subx e && (Z.land c 1 =? 0) then false
  else 1 <? e_num_planes e.

(** What [encode_block] works out before it codes the mode information. *)
Record block_env : Type := mkBlk {
  k_row : Z; k_col : Z; k_size : Z; k_has_chroma : bool; k_avail_u_chroma : bool; k_avail_l_chroma : bool
}.

Section Search.
Variable S : Type.
(** tile_encoder.rs 544, [encode_mode_info]: any function. *)
Variable mode_info : tstate S -> block_env -> list Z -> res (tstate S * list Z).
Variable e : tile_env.

(** tile_encoder.rs 509-545, [encode_block]. *)
Definition encode_block (st : tstate S) (r c bsize : Z) (out : list Z) : res (tstate S * list Z) :=
  bw4 <- idx num_4x4_blocks_wide bsize ;;
  bh4 <- idx num_4x4_blocks_high bsize ;;
  let hc := has_chroma e r c bw4 bh4 in
  let u := is_inside e (r - 1) c in
  let l := is_inside e r (c - 1) in
  let uc := if hc then if e_suby e && (bh4 =? 1) then is_inside e (r - 2) c else u else false in
  let lc := if hc then if e_subx e && (bw4 =? 1) then is_inside e r (c - 2) else l else false in
  mode_info (mkT (t_coder st) (t_cdf st) u l (t_rest st)) (mkBlk r c bsize hc uc lc) out.

(** tile_encoder.rs 355-381: the partition symbol. [None] is [continue]. *)
Definition signal_partition (st : tstate S) (bsize : Z) (has_rows has_cols : bool) (p : Z)
  : res (option (tstate S * list Z)) :=
  if negb (partition_tried bsize has_rows has_cols p) then Ok None
  else if bsize <? BLOCK_8X8 then Ok (Some (st, []))
  else if has_rows && has_cols then
    '(c, t, out) <- code_partition (t_coder st) (t_cdf st) [] bsize (t_avail_u st) (t_avail_l st) p ;;
    Ok (Some (mkT c t (t_avail_u st) (t_avail_l st) (t_rest st), out))
  else if has_cols then
    '(c, out) <- code_split_or_horz (t_coder st) (t_cdf st) [] bsize (t_avail_u st) (t_avail_l st)
                   (b2z (p =? PARTITION_SPLIT)) ;;
    Ok (Some (mkT c (t_cdf st) (t_avail_u st) (t_avail_l st) (t_rest st), out))
  else if has_rows then
    '(c, out) <- code_split_or_vert (t_coder st) (t_cdf st) [] bsize (t_avail_u st) (t_avail_l st)
                   (b2z (p =? PARTITION_SPLIT)) ;;
    Ok (Some (mkT c (t_cdf st) (t_avail_u st) (t_avail_l st) (t_rest st), out))
  else Ok (Some (st, [])).

(** The calls for one partition type, in order. *)
Fixpoint run_calls (f : tstate S -> Z -> Z -> Z -> list Z -> res (tstate S * list Z * ptree))
    (st : tstate S) (out : list Z) (calls : list (Z * Z * Z)) : res (tstate S * list Z * list ptree) :=
  match calls with
  | [] => Ok (st, out, [])
  | (r, c, b) :: rest =>
      '(st, out, t) <- f st r c b out ;;
      '(st, out, ts) <- run_calls f st out rest ;;
      Ok (st, out, t :: ts)
  end.

Definition leaf_call (st : tstate S) (r c b : Z) (out : list Z) : res (tstate S * list Z * ptree) :=
  '(st, out) <- encode_block st r c b out ;;
  Ok (st, out, PTree PARTITION_NONE b []).

(** tile_encoder.rs 352-502: the loop over the candidates. The coder, the CDFs
    and the rest of the state are not reset between candidates. [best] is what
    the first candidate left: the cost is always 0 and the comparison strict. *)
Fixpoint try_all (rec : tstate S -> Z -> Z -> Z -> list Z -> res (tstate S * list Z * ptree))
    (st : tstate S) (r c bsize : Z) (has_rows has_cols : bool)
    (best : option (coder * part_cdfs * list Z * ptree)) (ps : list Z)
  : res (tstate S * option (coder * part_cdfs * list Z * ptree)) :=
  match ps with
  | [] => Ok (st, best)
  | p :: ps =>
      sg <- signal_partition st bsize has_rows has_cols p ;;
      match sg with
      | None => try_all rec st r c bsize has_rows has_cols best ps
      | Some (st, bits) =>
          calls <- sub_blocks p bsize r c (e_mi_rows e) (e_mi_cols e) ;;
          '(st, bits, ts) <- run_calls (if p =? PARTITION_SPLIT then rec else leaf_call) st bits calls ;;
          let node := PTree p bsize (if p =? PARTITION_NONE then [] else ts) in
          try_all rec st r c bsize has_rows has_cols
            (match best with Some b => Some b | None => Some (t_coder st, t_cdf st, bits, node) end) ps
      end
  end.

Definition partitions_in_order : list Z := [0; 1; 2; 3; 4; 5; 6; 7; 8; 9].

(** tile_encoder.rs 332-507, [encode_partition]. [fuel] bounds the recursion
    depth; block sizes shrink, so 6 is enough. *)
Fixpoint encode_partition (fuel : nat) (st : tstate S) (r c bsize : Z) (out : list Z)
  : res (tstate S * list Z * ptree) :=
  match fuel with
  | O => Hang
  | Datatypes.S fuel =>
      if (e_mi_rows e <=? r) || (e_mi_cols e <=? c) then Ok (st, out, PTree PARTITION_NONE bsize [])
      else
        let st := mkT (t_coder st) (t_cdf st) (is_inside e (r - 1) c) (is_inside e r (c - 1)) (t_rest st) in
        num4x4 <- idx num_4x4_blocks_wide bsize ;;
        let half := Z.shiftr num4x4 1 in
        let has_rows := r + half <? e_mi_rows e in
        let has_cols := c + half <? e_mi_cols e in
        '(st', best) <- try_all (encode_partition fuel) st r c bsize has_rows has_cols None partitions_in_order ;;
        match best with
        | Some (cd, t, bits, node) =>
            Ok (mkT cd t (t_avail_u st') (t_avail_l st') (t_rest st'), push_bits out bits, node)
        | None =>
            Ok (mkT (t_coder st) (t_cdf st) (t_avail_u st') (t_avail_l st') (t_rest st'), out,
                PTree PARTITION_NONE bsize [])
        end
  end.

(** tile_encoder.rs 324-330, [encode_superblock]; x and y are in pixels. *)
Definition encode_superblock (fuel : nat) (st : tstate S) (sb_size x y : Z) (out : list Z)
  : res (tstate S * list Z * ptree) :=
  encode_partition fuel st (y / 4) (x / 4) sb_size out.

End Search.
