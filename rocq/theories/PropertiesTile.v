(** Properties of the tile layer: C37 (tiles are coded once each) and C56 (tile
    information in the frame header). *)
From Coq Require Import ZArith List Bool Lia.
From Verif Require Import Base TableLemmas UtilModel BitCodecModel BitsSpec SeqSpec GeomSpec GeomModel TileModel TileSpec TileProofs.
Import ListNotations.
Open Scope Z_scope.

(** C37. The position computed for every tile is its own position exactly if the
    frame has one tile. *)
Theorem C37_position_exactly : forall rows cols, 1 <= rows -> 1 <= cols ->
  ((forall n, 0 <= n < rows * cols -> tile_position n cols rows = Ok (av1_tile_position n cols)) <->
   rows = 1 /\ cols = 1).
Proof. exact positions_iff. Qed.
Print Assumptions C37_position_exactly.

(** With two columns the second tile is taken to be in row 1, and its column is 0. *)
Theorem C37_position_refuted : exists n rows cols, 0 <= n < rows * cols /\
  tile_position n cols rows = Ok (1, 0) /\ av1_tile_position n cols = (0, 1).
Proof. exists 1, 1, 2. repeat split; lia. Qed.
Print Assumptions C37_position_refuted.

(** The bounds of the tile at a position are the entries of the vectors for it and the
    next one; so for a single tile they are right. *)
Theorem C37_tile_bounds : forall n tile_cols tile_rows cs rs row col r0 r1 c0 c1,
  tile_position n tile_cols tile_rows = Ok (row, col) -> 0 <= row -> 0 <= col ->
  nth_error rs (Z.to_nat row) = Some r0 -> nth_error rs (S (Z.to_nat row)) = Some r1 ->
  nth_error cs (Z.to_nat col) = Some c0 -> nth_error cs (S (Z.to_nat col)) = Some c1 ->
  tile_bounds n tile_cols tile_rows cs rs = Ok (r0, r1, c0, c1).
Proof. exact bounds_ok. Qed.
Print Assumptions C37_tile_bounds.
Example C37_bounds_case : tile_position 0 1 1 = Ok (0, 0) /\ tile_bounds 0 1 1 [0; 16; 30] [0; 20; 9] = Ok (0, 20, 0, 16).
Proof. split; reflexivity. Qed.

(** Before a superblock the cdef indices of its 64x64 units, and no others, are reset. *)
Theorem C37_cdef_reset : forall m R C (use128 : bool) r c, table m R C -> 0 <= r -> 0 <= c -> r + (if use128 then 16 else 0) < R -> c + (if use128 then 16 else 0) < C ->
  exists m', clear_cdef m use128 r c = Ok m' /\ table m' R C /\
    forall i j, entry m' i j = if ((i =? r) || use128 && (i =? r + 16)) && ((j =? c) || use128 && (j =? c + 16)) then Some (-1) else entry m i j.
Proof. exact clear_ok. Qed.
Print Assumptions C37_cdef_reset.
Example C37_reset_case : table (repeat (repeat 0 40) 40) 40 40 /\
  match clear_cdef (repeat (repeat 0 40) 40) true 0 16 with Ok m => entry m 16 32 = Some (-1) /\ entry m 32 16 = Some 0 | _ => False end.
Proof. split; [split; [reflexivity|intros row H; apply repeat_spec in H; subst row; reflexivity]|vm_compute; split; reflexivity]. Qed.

(** A tile group whose tiles exist is never encoded: the call returns only for an
    empty range of tiles. True for any code of a superblock. *)
Theorem C37_tile_group_never_returns : forall T (superblock : T -> list (list Z) -> Z -> Z -> Z -> list Z -> res (T * list (list Z) * list Z))
    out use128 tile_cols tile_rows groups tg_start tg_end size_bytes cs rs st cdef v,
  0 <= tile_cols -> 0 <= tile_rows ->
  encode_tile_group T superblock out use128 tile_cols tile_rows groups tg_start tg_end size_bytes cs rs st cdef = Ok v ->
  tile_cols * tile_rows <> 1 /\ groups <> 0 /\ tg_end < tg_start.
Proof. exact tile_group_never. Qed.
Print Assumptions C37_tile_group_never_returns.

(** Even without the second borrow, a tile is never encoded from the state the
    encoder starts in: the vectors of tile starts are empty, and so is the array of
    CDEF indices. *)
Theorem C37_empty_starts_panic : forall T (superblock : T -> list (list Z) -> Z -> Z -> Z -> list Z -> res (T * list (list Z) * list Z))
    borrowed use128 n tile_cols tile_rows st cdef out,
  encode_tile T superblock borrowed use128 n tile_cols tile_rows initial_starts initial_starts st cdef out = Panic.
Proof. exact tile_initial_starts. Qed.
Print Assumptions C37_empty_starts_panic.

Theorem C37_empty_cdef_panics : forall T (superblock : T -> list (list Z) -> Z -> Z -> Z -> list Z -> res (T * list (list Z) * list Z))
    borrowed use128 n tile_cols tile_rows cs rs st out r0 r1 c0 c1,
  tile_bounds n tile_cols tile_rows cs rs = Ok (r0, r1, c0, c1) -> r0 < r1 -> c0 < c1 ->
  encode_tile T superblock borrowed use128 n tile_cols tile_rows cs rs st initial_cdef out = Panic.
Proof. exact tile_initial_cdef. Qed.
Print Assumptions C37_empty_cdef_panics.

(** What is right: were the vectors filled, the superblocks visited by [encode_tile]
    begin in the tile and hold every cell of it exactly once. [recorder] lists the
    superblocks it is called with. *)
Theorem C37_superblocks_cover_tile : forall use128 n tile_cols tile_rows cs rs cdef out visited cdef' out',
  encode_tile _ recorder false use128 n tile_cols tile_rows cs rs [] cdef out = Ok (visited, cdef', out') ->
  exists r0 r1 c0 c1, tile_bounds n tile_cols tile_rows cs rs = Ok (r0, r1, c0, c1) /\
    (forall b, In b visited -> exists i k, b = (i, k, if use128 then 15 else 12) /\ r0 <= i < r1 /\ c0 <= k < c1) /\
    (forall y x, r0 <= y < r1 -> c0 <= x < c1 -> held_once visited y x).
Proof. exact tile_covered. Qed.
Print Assumptions C37_superblocks_cover_tile.

Definition cdef20 : list (list Z) := repeat (repeat 0 40) 40.

Example C37_case_visits : exists cdef', encode_tile _ recorder false false 0 1 1 [0; 36] [0; 20] [] cdef20 [] =
  Ok ([(0, 0, 12); (0, 16, 12); (0, 32, 12); (16, 0, 12); (16, 16, 12); (16, 32, 12)], cdef', []).
Proof. eexists. vm_compute. reflexivity. Qed.

Example C37_case_empty_cdef : tile_bounds 0 1 1 [0; 36] [0; 20] = Ok (0, 20, 0, 36) /\
  encode_tile _ recorder false false 0 1 1 [0; 36] [0; 20] [] initial_cdef [] = Panic.
Proof. split; vm_compute; reflexivity. Qed.

Example C37_case_group :
  encode_tile_group _ recorder [] false 1 1 0 0 0 1 [0; 36] [0; 20] [] cdef20 = Panic /\
  encode_tile_group _ recorder [] false 2 1 1 1 0 1 [0; 16; 36] [0; 20] [] cdef20 = Ok ([], cdef20, [1; 1; 0; 0; 0; 0; 0; 0]).
Proof. split; vm_compute; reflexivity. Qed.

(** C56. When tile_info() is written (uniform spacing), and what is written: the
    sizes must admit the tile counts, there must be at least as many tiles as the
    limit on the area asks for after the columns ([cl <= mt], unlike the standard,
    which has Max(mt - cl, 0)), and the vectors of starts must be long enough. *)
Theorem C56_tile_info_writes : forall out mi_cols mi_rows (use128 : bool) tile_cols tile_rows update_id size_bytes cs rs,
  0 < mi_cols <= 2 ^ 19 -> 0 < mi_rows <= 2 ^ 19 -> 1 <= tile_cols <= 65535 -> 1 <= tile_rows <= 65535 ->
  0 <= update_id < 2 ^ 32 -> 0 <= size_bytes < 2 ^ 32 ->
  let sb := if use128 then 32 else 16 in
  let sc := cdiv mi_cols sb in let sr := cdiv mi_rows sb in
  let cl := Z.log2 tile_cols in let rl := Z.log2 tile_rows in
  let wc := cdiv sc (2 ^ cl) in let wr := cdiv sr (2 ^ rl) in
  let mt := av1_min_tiles sb sc sr in
  encode_tile_info out mi_cols mi_rows use128 true tile_cols tile_rows update_id size_bytes cs rs =
  if (av1_min_cols sb sc <=? cl) && (cdiv sc wc + 1 <=? len cs) && (cl <=? mt) && (mt - cl <=? rl)
     && (cdiv sr wr + 1 <=? len rs) && (((cl =? 0) && (rl =? 0)) || (1 <=? size_bytes))
  then Ok (out ++ info_bits (av1_min_cols sb sc) cl (mt - cl) rl (info_tail cl rl update_id size_bytes),
           av1_starts sc wc sb mi_cols ++ skipn (Z.to_nat (cdiv sc wc + 1)) cs,
           av1_starts sr wr sb mi_rows ++ skipn (Z.to_nat (cdiv sr wr + 1)) rs)
  else Panic.
Proof. exact tile_info_writes. Qed.
Print Assumptions C56_tile_info_writes.

(** A decoder reads those bits back exactly if neither count is the largest that is
    allowed: the terminating 0 is written even where no increment bit is expected. *)
Theorem C56_tile_info_decoded_exactly : forall mi_cols mi_rows (use128 : bool) cl rl update_id size_bytes,
  0 < mi_cols -> 0 < mi_rows ->
  let sb := if use128 then 32 else 16 in
  let sc := cdiv mi_cols sb in let sr := cdiv mi_rows sb in
  let mt := av1_min_tiles sb sc sr in
  av1_min_cols sb sc <= cl <= mt -> mt - cl <= rl ->
  0 <= update_id < 2 ^ (rl + cl) -> 1 <= size_bytes <= 4 ->
  let bits := info_bits (av1_min_cols sb sc) cl (mt - cl) rl (info_tail cl rl update_id size_bytes) in
  let info := mkTI cl rl (av1_starts sc (cdiv sc (2 ^ cl)) sb mi_cols) (av1_starts sr (cdiv sr (2 ^ rl)) sb mi_rows)
                (if (0 <? cl) || (0 <? rl) then update_id else 0) (if (0 <? cl) || (0 <? rl) then size_bytes else 0) in
  (forall rest, rd_tile_info mi_cols mi_rows use128 (bits ++ rest) = Some (info, rest)) <->
  (cl < av1_max sc /\ rl < av1_max sr).
Proof. exact tile_info_read. Qed.
Print Assumptions C56_tile_info_decoded_exactly.

(** The frame of one 64x64 superblock: two bits too many are written, and every
    later field of the header is read two bits early. *)
Theorem C56_tile_info_refuted : exists mi_cols mi_rows bits cs rs info,
  encode_tile_info [] mi_cols mi_rows false true 1 1 0 1 [0; 0] [0; 0] = Ok (bits, cs, rs) /\
  rd_tile_info mi_cols mi_rows false bits = Some (info, [0; 0]).
Proof. exists 16, 16, [1; 0; 0]. do 3 eexists. split; vm_compute; reflexivity. Qed.
Print Assumptions C56_tile_info_refuted.

(** More tile columns than the limit on the area asks for: the encoder panics where
    the standard allows it. 512x256 pixels in two columns. *)
Theorem C56_two_columns_refuted : exists mi_cols mi_rows,
  encode_tile_info [] mi_cols mi_rows false true 2 1 0 1 (repeat 0 64) (repeat 0 64) = Panic /\
  (exists info, rd_tile_info mi_cols mi_rows false [1; 1; 0; 0; 0; 0; 0] = Some (info, []) /\
     ti_col_starts info = [0; 64; 128] /\ ti_row_starts info = [0; 64]).
Proof. exists 128, 64. split; [vm_compute; reflexivity|]. eexists. split; [vm_compute; reflexivity|split; reflexivity]. Qed.
Print Assumptions C56_two_columns_refuted.

(** With uniform spacing and the vectors as the encoder creates them tile_info() is
    never written. *)
Theorem C56_never_from_start : forall out mi_cols mi_rows use128 tile_cols tile_rows update_id size_bytes rs,
  0 < mi_cols <= 2 ^ 19 -> 0 < mi_rows <= 2 ^ 19 -> 1 <= tile_cols <= 65535 -> 1 <= tile_rows <= 65535 ->
  0 <= update_id < 2 ^ 32 -> 0 <= size_bytes < 2 ^ 32 ->
  encode_tile_info out mi_cols mi_rows use128 true tile_cols tile_rows update_id size_bytes initial_starts rs = Panic.
Proof. exact tile_info_initial. Qed.
Print Assumptions C56_never_from_start.

(** The starts that are written split the frame into consecutive non-empty tiles. *)
Theorem C56_starts_split : forall sbs step sb mi, 0 < step -> 0 < sb -> 0 < sbs -> sb * (sbs - 1) < mi ->
  splits (av1_starts sbs step sb mi) mi.
Proof. exact starts_split. Qed.
Print Assumptions C56_starts_split.

Example C56_case_split : splits (av1_starts 5 2 16 75) 75 /\ av1_starts 5 2 16 75 = [0; 32; 64; 75].
Proof. split; [apply C56_starts_split; lia|reflexivity]. Qed.

(** 8192x4352 pixels, two columns and two rows, both below the maximum. *)
Example C56_case : exists bits cs rs,
  encode_tile_info [] 2048 1088 false true 2 2 3 4 (repeat 0 3) (repeat 0 4) = Ok (bits, cs, rs) /\
  cs = [0; 1024; 2048] /\ rs = [0; 544; 1088; 0] /\
  bits = [1; 0; 0; 1; 1; 1; 1] /\
  rd_tile_info 2048 1088 false bits = Some (mkTI 1 1 [0; 1024; 2048] [0; 544; 1088] 3 4, []) /\
  1 < av1_max (cdiv 2048 16) /\ 1 < av1_max (cdiv 1088 16) /\ av1_min_cols 16 (cdiv 2048 16) = 1 /\
  av1_min_tiles 16 (cdiv 2048 16) (cdiv 1088 16) = 2.
Proof. do 3 eexists. repeat split; vm_compute; reflexivity. Qed.
