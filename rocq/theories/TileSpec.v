(** Tile layout as AV1 defines it (sections 5.9.15, 5.9.16 and 5.11.1), written
    independently of the model. *)
From Coq Require Import ZArith List Bool.
From Verif Require Import BitsSpec SeqSpec.
Import ListNotations.
Open Scope Z_scope.

(** tile_log2(blkSize, target): the smallest k with blkSize * 2^k >= target. *)
Definition is_tile_log2 (blk target k : Z) : Prop :=
  0 <= k /\ target <= blk * 2 ^ k /\ forall j, 0 <= j < k -> blk * 2 ^ j < target.

(** The same as a closed formula. *)
Definition av1_tile_log2 (blk target : Z) : Z := Z.log2_up ((target + blk - 1) / blk).

(** Quotient rounded up. *)
Definition cdiv (a b : Z) : Z := (a + b - 1) / b.

(** Limits for a frame of [mi] cells with superblocks of [sb] cells. *)
Definition av1_min_cols (sb sb_cols : Z) : Z := av1_tile_log2 (1024 / sb) sb_cols.
Definition av1_max (n : Z) : Z := av1_tile_log2 1 (Z.min n 64).
Definition av1_min_tiles (sb sb_cols sb_rows : Z) : Z :=
  Z.max (av1_min_cols sb sb_cols) (av1_tile_log2 (4096 * 2304 / 16 / (sb * sb)) (sb_rows * sb_cols)).

(** MiColStarts / MiRowStarts for uniform spacing: tiles of [step] superblocks of
    [sb] cells each, and the end of the frame. *)
Definition av1_starts (sbs step sb mi : Z) : list Z :=
  map (fun i => Z.of_nat i * step * sb) (seq 0 (Z.to_nat (cdiv sbs step))) ++ [mi].

(** Up to [k] increment bits. *)
Fixpoint rd_increments (k : nat) (q : list Z) : option (Z * list Z) :=
  match k with
  | O => Some (0, q)
  | S k' =>
      LET (b, q) := rd1 q IN
      if b then LET (n, q) := rd_increments k' q IN Some (1 + n, q) else Some (0, q)
  end.

Record tile_info : Type := mkTI {
  ti_cols_log2 : Z; ti_rows_log2 : Z; ti_col_starts : list Z; ti_row_starts : list Z;
  ti_update_id : Z; ti_size_bytes : Z
}.

(** tile_info() with uniform_tile_spacing_flag = 1 ([None] if it is 0). *)
Definition rd_tile_info (mi_cols mi_rows : Z) (use128 : bool) (q : list Z) : option (tile_info * list Z) :=
  let sb := if use128 then 32 else 16 in
  let sb_cols := cdiv mi_cols sb in
  let sb_rows := cdiv mi_rows sb in
  let min_cols := av1_min_cols sb sb_cols in
  LET (uniform, q) := rd1 q IN
  if negb uniform then None else
  LET (n, q) := rd_increments (Z.to_nat (av1_max sb_cols - min_cols)) q IN
  let cl := min_cols + n in
  let min_rows := Z.max (av1_min_tiles sb sb_cols sb_rows - cl) 0 in
  LET (m, q) := rd_increments (Z.to_nat (av1_max sb_rows - min_rows)) q IN
  let rl := min_rows + m in
  LET (id, q) := (if (0 <? cl) || (0 <? rl) then rd (Z.to_nat (rl + cl)) q else Some (0, q)) IN
  LET (bytes, q) := (if (0 <? cl) || (0 <? rl) then rd 2 q else Some (-1, q)) IN
  Some (mkTI cl rl (av1_starts sb_cols (cdiv sb_cols (2 ^ cl)) sb mi_cols)
          (av1_starts sb_rows (cdiv sb_rows (2 ^ rl)) sb mi_rows) id (bytes + 1), q).

(** 5.11.1: tile number [n] of a grid with [cols] columns is in row n / cols and
    column n mod cols. *)
Definition av1_tile_position (n cols : Z) : Z * Z := (n / cols, n mod cols).

(** A list of starts splits [0, mi) into consecutive non-empty intervals. *)
Definition splits (l : list Z) (mi : Z) : Prop :=
  nth_error l 0 = Some 0 /\ (exists m, l = m ++ [mi]) /\
  forall i a b, nth_error l i = Some a -> nth_error l (S i) = Some b -> a < b.

(** The bits of tile_info() the encoder writes when it succeeds. *)
Definition info_tail (cl rl update_id size_bytes : Z) : list Z :=
  if (0 <? cl) || (0 <? rl)
  then to_bits (Z.to_nat (rl + cl)) update_id ++ to_bits 2 (size_bytes - 1) else [].
Definition info_bits (min_cols cl min_rows rl : Z) (tail : list Z) : list Z :=
  1 :: repeat 1 (Z.to_nat (cl - min_cols)) ++ 0 :: repeat 1 (Z.to_nat (rl - min_rows)) ++ 0 :: tail.
