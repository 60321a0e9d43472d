(** Properties C43, C44, C54 and C55: block geometry and the partition search. *)
From Coq Require Import ZArith List Bool Lia.
From Verif Require Import Base UtilModel RangeCoderModel BitCodecModel SessionModel CdfTables CdfTableSpec BlockTables
  GeomModel GeomSpec GeomProofs.
Import ListNotations.
Open Scope Z_scope.

(** C43. Block sizes: width, height and the number of rows of 4x4 cells are right
    for all 22 sizes ... *)
Theorem C43_block_tables : forall b w h, dims b = Some (w, h) ->
  idx block_width b = Ok w /\ idx block_height b = Ok h /\ idx num_4x4_blocks_high b = Ok (h / 4) /\
  idx num_4x4_blocks_wide b = Ok (if (b =? 5) || (b =? 6) || (b =? 7) then 3 else w / 4) /\
  exists lw lh, idx mi_width_log2 b = Ok lw /\ idx mi_height_log2 b = Ok lh /\ 2 ^ lw = w /\ 2 ^ lh = h.
Proof. exact block_tables. Qed.
Print Assumptions C43_block_tables.

(** ... but the number of columns is 3 instead of 4 for 16x8, 16x16 and 16x32, and
    right for all others. *)
Theorem C43_columns_exactly : forall b w h, dims b = Some (w, h) ->
  (idx num_4x4_blocks_wide b = Ok (w / 4) <-> ~ (b = 5 \/ b = 6 \/ b = 7)).
Proof. exact wide_iff. Qed.
Print Assumptions C43_columns_exactly.

Theorem C43_columns_refuted : exists b w h, dims b = Some (w, h) /\ idx num_4x4_blocks_wide b <> Ok (w / 4).
Proof. exists 6, 16, 16. split; [reflexivity|discriminate]. Qed.
Print Assumptions C43_columns_refuted.

(** The logarithms are those of the size in pixels, not in 4x4 cells as the
    standard's Mi_Width_Log2 (section 9.3) which the writers expect. *)
Theorem C43_log2_refuted : forall b w h, dims b = Some (w, h) ->
  exists k, idx mi_width_log2 b = Ok k /\ 2 ^ k = 4 * (w / 4) /\ 2 ^ k <> w / 4.
Proof.
  intros b w h D. destruct (block_tables b w h D) as (_ & _ & _ & _ & k & l & K & _ & E & _). exists k.
  split; [exact K|]. pose proof (dims_range _ _ D) as B. clear K. revert w h D E.
  each_index 22%nat b; intros w h D E; injection D as <- <-; rewrite E; vm_compute; (split; [reflexivity|discriminate]).
Qed.
Print Assumptions C43_log2_refuted.

(** The sub-block table: an entry is either invalid or the size of the sub-block,
    and exactly the squares from 8x8 (for the four-way partitions 16x16 to 64x64)
    can be divided. *)
Theorem C43_partition_subsize : forall p b w h, 0 <= p < 10 -> dims b = Some (w, h) ->
  exists s, idx2 partition_subsize p b = Ok s /\
    (s = 22 \/ dims s = Some (sub_dims p w h)) /\
    (s <> 22 <-> w = h /\ (p = 0 \/ 8 <= w) /\ (8 <= p -> 16 <= w <= 64)).
Proof. exact subsize_table. Qed.
Print Assumptions C43_partition_subsize.

(** Chroma block sizes: halved where subsampled, never below 4; undefined only for
    a single subsampled dimension that is the shorter one already. *)
Theorem C43_plane_residual_size : forall b w h plane subx suby, dims b = Some (w, h) -> 0 <= plane ->
  let sx := negb (plane =? 0) && subx in
  let sy := negb (plane =? 0) && suby in
  exists s, get_plane_residual_size b plane subx suby = Ok s /\
    (s = 22 \/ dims s = Some (Z.max 4 (if sx then w / 2 else w), Z.max 4 (if sy then h / 2 else h))) /\
    (s = 22 <-> (sx = true /\ sy = false /\ w < h) \/ (sx = false /\ sy = true /\ h < w)).
Proof. exact residual_table. Qed.
Print Assumptions C43_plane_residual_size.

(** Transform sizes. *)
Theorem C43_tx_tables : forall t w h, txdims t = Some (w, h) ->
  idx tx_width t = Ok w /\ idx tx_height t = Ok h /\
  (exists lw lh, idx tx_width_log2 t = Ok lw /\ idx tx_height_log2 t = Ok lh /\ 2 ^ lw = w /\ 2 ^ lh = h) /\
  (exists s, idx tx_size_sqr t = Ok s /\ txdims s = Some (Z.min w h, Z.min w h)) /\
  (exists s, idx tx_size_sqr_up t = Ok s /\ txdims s = Some (Z.max w h, Z.max w h)) /\
  (exists s, idx adjusted_tx_size t = Ok s /\ txdims s = Some (Z.min 32 w, Z.min 32 h)).
Proof. exact tx_tables. Qed.
Print Assumptions C43_tx_tables.

(** [find_tx_size] finds the transform of any given size, or says there is none. *)
Theorem C43_find_tx_size : forall w h, exists t, find_tx_size w h = Ok t /\
  ((0 <= t < 19 /\ txdims t = Some (w, h)) \/ (t = 19 /\ forall t', txdims t' <> Some (w, h))).
Proof. exact find_tx_ok. Qed.
Print Assumptions C43_find_tx_size.

(** The number of depths: so many times the largest transform of the block is divided to
    get 4x4, and no fewer. *)
Theorem C43_tx_depth : forall b w h, dims b = Some (w, h) ->
  exists d, idx max_tx_depth b = Ok (Z.of_nat d) /\ forall k, (k <= d)%nat -> (tx_at_depth w h k = (4, 4) <-> k = d).
Proof. exact tx_depth_table. Qed.
Print Assumptions C43_tx_depth.
(** The transform of a chroma block: type 0 is DCT in both directions, 1 is ADST down the
    columns, 2 along the rows, 3 both. *)
Theorem C43_mode_transform : forall m, 0 <= m < 14 ->
  idx mode_to_txfm m = Ok ((if fst (mode_edges m) then 1 else 0) + (if snd (mode_edges m) then 2 else 0)).
Proof. exact mode_transform_table. Qed.
Print Assumptions C43_mode_transform.

Example C43_case :
  dims 6 = Some (16, 16) /\ idx2 partition_subsize 8 6 = Ok 17 /\ dims 17 = Some (16, 4) /\
  get_plane_residual_size 16 1 true true = Ok 1 /\ get_plane_residual_size 16 1 true false = Ok 22 /\
  find_tx_size 16 64 = Ok 17 /\ find_tx_size 4 64 = Ok 19.
Proof. repeat split. Qed.

(** C44. For a block of any position in a frame of any size and every partition
    type the encoder tries, the sub-blocks form a partition of the block (of its
    part in the frame) exactly if the block is not divided, or it is not 16x16 and
    the type is none of HORZ_B, VERT_B and VERT_4; VERT_4 is right only if the
    fourth strip is outside the frame. *)
Theorem C44_partition_exactly : forall p b r c rows cols w h,
  In b [3; 6; 9; 12; 15] -> 0 <= p < 10 -> dims b = Some (w, h) -> (8 <= p -> 16 <= w <= 64) ->
  Z.even r = true -> Z.even c = true -> Z.even rows = true -> Z.even cols = true ->
  0 <= r < rows -> 0 <= c < cols ->
  (exists n, idx num_4x4_blocks_wide b = Ok n /\
     partition_tried b (r + Z.shiftr n 1 <? rows) (c + Z.shiftr n 1 <? cols) p = true) ->
  exists l, sub_blocks p b r c rows cols = Ok l /\
    (tiles l r c b rows cols <->
       (p = 0 \/ (b <> 6 /\ (In p [1; 2; 3; 4; 6; 8] \/ (p = 9 /\ cols <= c + 3 * (w / 16)))))).
Proof. exact partition_exact. Qed.
Print Assumptions C44_partition_exactly.

Theorem C44_partition_refuted : exists p b r c rows cols l,
  sub_blocks p b r c rows cols = Ok l /\ partition_tried b true true p = true /\ r + 8 < rows /\ c + 8 < cols /\
  b = 12 /\ ~ tiles l r c b rows cols.
Proof.
  exists 5, 12, 0, 0, 100, 100.
  destruct (partition_exact 5 12 0 0 100 100 64 64) as (l & L & T);
    [cbn; tauto|lia|reflexivity|lia|reflexivity|reflexivity|reflexivity|reflexivity|lia|lia|
     exists 16; split; reflexivity|].
  exists l. split; [exact L|]. split; [reflexivity|]. split; [lia|]. split; [lia|]. split; [reflexivity|].
  intros H. apply T in H. destruct H as [H|[_ [H|[H _]]]]; [discriminate| |discriminate].
  cbn [In] in H. lia.
Qed.
Print Assumptions C44_partition_refuted.

(** In the right cases the sub-blocks are those of the standard, in its order. *)
Theorem C44_partition_conforms : forall p b r c rows cols w,
  In b [3; 9; 12; 15] -> In p [0; 1; 2; 3; 4; 6; 8] -> dims b = Some (w, w) ->
  exists sub split, dims sub = Some (sub_dims p w w) /\ dims split = Some (sub_dims 3 w w) /\
    sub_blocks p b r c rows cols = Ok (av1_blocks p r c (w / 4) rows cols sub split) \/
  (8 <= p /\ ~ 16 <= w <= 64).
Proof. exact partition_conforms. Qed.
Print Assumptions C44_partition_conforms.

(** The types tried for a block are those that can be coded there, and in addition, for
    8x8 and 128x128 blocks inside the frame, types these sizes do not have. *)
Theorem C44_types_tried_exactly : forall b w hr hc p, In b [0; 3; 6; 9; 12; 15] -> 0 <= p < 10 -> dims b = Some (w, w) ->
  (partition_tried b hr hc p = true <->
   av1_codable w hr hc p \/ hr = true /\ hc = true /\ (w = 8 /\ 4 <= p \/ w = 128 /\ 8 <= p)).
Proof. exact tried_iff. Qed.
Print Assumptions C44_types_tried_exactly.
Theorem C44_types_tried_refuted : exists b w p, dims b = Some (w, w) /\ partition_tried b true true p = true /\ ~ av1_codable w true true p.
Proof. exists 3, 8, 8. split; [reflexivity|]. split; [reflexivity|]. unfold av1_codable. cbn. lia. Qed.
Print Assumptions C44_types_tried_refuted.

Example C44_case :
  sub_blocks 1 12 0 16 10 100 = Ok [(0, 16, 11); (8, 16, 11)] /\ sub_blocks 1 12 0 16 8 100 = Ok [(0, 16, 11)] /\
  sub_blocks 9 9 8 8 100 100 = Ok [(8, 8, 18); (8, 10, 18); (8, 12, 18); (14, 8, 18)] /\
  sub_blocks 3 6 4 4 100 100 = Ok [(4, 4, 3); (4, 5, 3); (5, 4, 3); (5, 5, 3)] /\
  partition_tried 12 false true 1 = true.
Proof. repeat split. Qed.

(** C54 is false: whatever the mode information writer does and whatever the state
    of coder and CDFs, encoding a superblock that begins inside the frame never
    returns. (The search always tries SPLIT down to 8x8, and at 8x8 it tries
    HORZ_4, whose sub-block size is BLOCK_INVALID, an index out of range.) *)
Theorem C54_superblock_never_returns :
  forall S (mode_info : tstate S -> block_env -> list Z -> res (tstate S * list Z)) e width height,
  e_mi_rows e = mi_units height -> e_mi_cols e = mi_units width ->
  forall fuel st sb_size i j out v, In sb_size [12; 15] ->
  16 * j < e_mi_cols e -> 16 * i < e_mi_rows e ->
  encode_superblock S mode_info e fuel st sb_size (64 * j) (64 * i) out <> Ok v.
Proof.
  intros S mi e w h R C fuel st sb i j out v B J I. unfold encode_superblock.
  replace (64 * i / 4) with (16 * i) by (replace (64 * i) with (16 * i * 4) by ring; rewrite Z.div_mul; lia).
  replace (64 * j / 4) with (16 * j) by (replace (64 * j) with (16 * j * 4) by ring; rewrite Z.div_mul; lia).
  apply never_partition; try assumption; rewrite ?R, ?C; try apply mi_units_even;
    try (rewrite Z.even_mul; reflexivity).
  destruct B as [<-|[<-|[]]]; cbn; tauto.
Qed.
Print Assumptions C54_superblock_never_returns.

(** The same for every block from 8x8 at an even position. *)
Theorem C54_partition_never_returns :
  forall S (mode_info : tstate S -> block_env -> list Z -> res (tstate S * list Z)) e fuel st r c b out v,
  In b [3; 6; 9; 12; 15] ->
  Z.even r = true -> Z.even c = true -> Z.even (e_mi_rows e) = true -> Z.even (e_mi_cols e) = true ->
  r < e_mi_rows e -> c < e_mi_cols e -> encode_partition S mode_info e fuel st r c b out <> Ok v.
Proof. exact never_partition. Qed.
Print Assumptions C54_partition_never_returns.

(** A frame of 64x64 pixels, one tile, mode information that codes nothing, the
    default CDFs: the outcome is a panic. Blocks below 8x8 and superblocks outside
    the frame do return. *)
Definition env64 : tile_env := mkEnv 0 16 0 16 (mi_units 64) (mi_units 64) true true 3.
Definition no_info (st : tstate unit) (k : block_env) (out : list Z) : res (tstate unit * list Z) := Ok (st, out).
Definition start64 : tstate unit :=
  mkT (init_encoder new_coder)
    (mkPart (tab_rows cdf_partition_w8) (tab_rows cdf_partition_w16) (tab_rows cdf_partition_w32)
       (tab_rows cdf_partition_w64) (tab_rows cdf_partition_w128)) false false tt.

Example C54_case : encode_superblock unit no_info env64 6 start64 12 0 0 [] = Panic.
Proof. vm_compute. reflexivity. Qed.

Example C54_case_outside : encode_superblock unit no_info env64 6 start64 12 64 0 [1] = Ok (start64, [1], PTree 0 12 []).
Proof. vm_compute. reflexivity. Qed.

Example C54_case_4x4 : encode_partition unit no_info env64 1 start64 0 0 0 [1] = Ok (start64, [1], PTree 0 0 []).
Proof. vm_compute. reflexivity. Qed.

(** C55. A block is given chroma exactly if it holds a cell at an odd row (column)
    where rows (columns) are subsampled, so among the blocks of an 8x8 area exactly
    the one with the last cell; the neighbours of the chroma block are available
    exactly if the cell above (left of) the chroma block lies in the tile. For any
    mode information writer, which is handed these facts. *)
Theorem C55_chroma : forall S (mode_info : tstate S -> block_env -> list Z -> res (tstate S * list Z)) e st r c b w h out,
  dims b = Some (w, h) -> (h = 4 \/ Z.even r = true) -> (w = 4 \/ Z.even c = true) ->
  exists hc uc lc,
    encode_block S mode_info e st r c b out =
      mode_info (mkT (t_coder st) (t_cdf st) (is_inside e (r - 1) c) (is_inside e r (c - 1)) (t_rest st))
        (mkBlk r c b hc uc lc) out /\
    (hc = true <-> 1 < e_num_planes e /\ carries_chroma (e_subx e) (e_suby e) r c (w / 4) (h / 4)) /\
    uc = hc && is_inside e ((if e_suby e then 2 * (r / 2) else r) - 1) c /\
    lc = hc && is_inside e r ((if e_subx e then 2 * (c / 2) else c) - 1).
Proof. exact block_chroma. Qed.
Print Assumptions C55_chroma.

(** The tile test used there. *)
Theorem C55_is_inside : forall e r c, is_inside e r c = true <->
  e_row_start e <= r < e_row_end e /\ e_col_start e <= c < e_col_end e.
Proof. intros e r c. unfold is_inside. rewrite !andb_true_iff. rewrite !Z.leb_le, !Z.ltb_lt. tauto. Qed.
Print Assumptions C55_is_inside.

Example C55_case :
  has_chroma env64 2 2 1 1 = false /\ has_chroma env64 2 3 1 1 = false /\ has_chroma env64 3 3 1 1 = true /\
  has_chroma env64 2 3 1 2 = true /\ has_chroma env64 0 0 16 16 = true /\
  carries_chroma true true 3 3 1 1 /\ dims 0 = Some (4, 4) /\ is_inside env64 (-1) 3 = false.
Proof.
  repeat split; try reflexivity; intros _; exists 3; split; (lia || reflexivity).
Qed.
