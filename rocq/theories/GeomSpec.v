(** What the block geometry should be, without reference to the tables of the
    code: block sizes are pairs width x height in pixels, areas are sets of 4x4
    cells. *)
From Coq Require Import ZArith List Bool.
Import ListNotations.
Open Scope Z_scope.

(** The 22 block sizes of AV1 (section 6.10.4, "mi_size") in order. *)
Definition block_dims : list (Z * Z) :=
  [(4,4); (4,8); (8,4); (8,8); (8,16); (16,8); (16,16); (16,32); (32,16); (32,32); (32,64); (64,32); (64,64);
   (64,128); (128,64); (128,128); (4,16); (16,4); (8,32); (32,8); (16,64); (64,16)].

(** The 19 transform sizes (section 6.10.19, "tx_size") in order. *)
Definition tx_dims : list (Z * Z) :=
  [(4,4); (8,8); (16,16); (32,32); (64,64); (4,8); (8,4); (8,16); (16,8); (16,32); (32,16); (32,64); (64,32);
   (4,16); (16,4); (8,32); (32,8); (16,64); (64,16)].

Definition dims (b : Z) : option (Z * Z) := if b <? 0 then None else nth_error block_dims (Z.to_nat b).
Definition txdims (t : Z) : option (Z * Z) := if t <? 0 then None else nth_error tx_dims (Z.to_nat t).

(** Size in pixels of the first sub-block of full extent made by partition [p] of
    a w x h block: halved for HORZ, HORZ_A, HORZ_B / VERT, VERT_A, VERT_B, both
    for SPLIT, quartered for HORZ_4 / VERT_4. *)
Definition sub_dims (p w h : Z) : Z * Z :=
  match p with
  | 0 => (w, h)
  | 1 | 4 | 5 => (w, h / 2)
  | 2 | 6 | 7 => (w / 2, h)
  | 3 => (w / 2, h / 2)
  | 8 => (w, h / 4)
  | _ => (w / 4, h)
  end.

(** The cell (y, x) belongs to the block of [b]'s size at (r, c). *)
Definition holds (blk : Z * Z * Z) (y x : Z) : Prop :=
  let '(r, c, b) := blk in
  exists w h, dims b = Some (w, h) /\ r <= y < r + h / 4 /\ c <= x < c + w / 4.

(** Exactly one of the blocks holds the cell: one of them does, and no two at
    different places of the list do. *)
Definition held_once (l : list (Z * Z * Z)) (y x : Z) : Prop :=
  (exists i blk, nth_error l i = Some blk /\ holds blk y x /\
     forall j blk', nth_error l j = Some blk' -> holds blk' y x -> j = i).

(** The list of blocks is a partition of the block [b] at (r, c), as far as it
    lies in the frame of [rows] x [cols] cells. *)
Definition tiles (l : list (Z * Z * Z)) (r c b rows cols : Z) : Prop :=
  (forall blk, In blk l -> let '(_, _, s) := blk in dims s <> None) /\
  (forall blk y x, In blk l -> holds blk y x -> holds (r, c, b) y x) /\
  (forall y x, holds (r, c, b) y x -> y < rows -> x < cols -> held_once l y x).

(** The chroma samples of a block that is subsampled vertically (horizontally)
    are coded with the luma block that holds an odd row (column): the block
    carries chroma iff it has a cell at an odd row, if rows are subsampled, and
    at an odd column, if columns are. *)
Definition carries_chroma (subx suby : bool) (r c w4 h4 : Z) : Prop :=
  (suby = true -> exists y, r <= y < r + h4 /\ Z.odd y = true) /\
  (subx = true -> exists x, c <= x < c + w4 /\ Z.odd x = true).

(** AV1 section 5.11.4, decode_partition: blocks of one partition type; [n] is
    the size of the block in cells, [sub] and [split] the sub-block sizes. *)
Definition av1_blocks (p r c n rows cols sub split : Z) : list (Z * Z * Z) :=
  let half := n / 2 in
  let quarter := n / 4 in
  match p with
  | 0 => [(r, c, sub)]
  | 1 => (r, c, sub) :: (if r + half <? rows then [(r + half, c, sub)] else [])
  | 2 => (r, c, sub) :: (if c + half <? cols then [(r, c + half, sub)] else [])
  | 3 => [(r, c, sub); (r, c + half, sub); (r + half, c, sub); (r + half, c + half, sub)]
  | 4 => [(r, c, split); (r, c + half, split); (r + half, c, sub)]
  | 5 => [(r, c, sub); (r + half, c, split); (r + half, c + half, split)]
  | 6 => [(r, c, split); (r + half, c, split); (r, c + half, sub)]
  | 7 => [(r, c, sub); (r, c + half, split); (r + half, c + half, split)]
  | 8 => [(r, c, sub); (r + quarter, c, sub); (r + quarter * 2, c, sub)] ++
         (if r + quarter * 3 <? rows then [(r + quarter * 3, c, sub)] else [])
  | _ => [(r, c, sub); (r, c + quarter, sub); (r, c + quarter * 2, sub)] ++
         (if c + quarter * 3 <? cols then [(r, c + quarter * 3, sub)] else [])
  end.

(** 5.11.4: the partition types that can be coded for a square block of [w] pixels,
    [has_rows] and [has_cols] telling that half of it lies inside the frame. *)
Definition av1_codable (w : Z) (has_rows has_cols : bool) (p : Z) : Prop :=
  if w <? 8 then p = 0
  else match has_rows, has_cols with
       | true, true => 0 <= p < (if w =? 8 then 4 else if w =? 128 then 8 else 10)
       | false, true => p = 3 \/ p = 1
       | true, false => p = 3 \/ p = 2
       | false, false => p = 3
       end.

(** The transform one depth further down (5.11.16, Split_Tx_Size): a square is quartered,
    anything else halved along its longer side. *)
Definition split_tx (d : Z * Z) : Z * Z :=
  let '(w, h) := d in if w =? h then (w / 2, h / 2) else if h <? w then (w / 2, h) else (w, h / 2).
(** From the largest transform of a block, [depth] times. *)
Definition tx_at_depth (w h : Z) (depth : nat) : Z * Z := Nat.iter depth split_tx (Z.min 64 w, Z.min 64 h).

(** Which way an intra mode predicts: from above, from the left. The angles of the
    directional modes are those of the standard; the others in order: DC, the three
    smooth modes and Paeth, then chroma from luma. A transform is an ADST along a
    direction in which the prediction gets worse with the distance. *)
Definition mode_edges (m : Z) : bool * bool :=
  nth (Z.to_nat m)
    [(false, false);                                            (* DC *)
     (true, false); (false, true);                              (* 90, 180 *)
     (false, false); (true, true);                              (* 45, 135 *)
     (true, false); (false, true); (false, true); (true, false); (* 113, 157, 203, 67 *)
     (true, true); (true, false); (false, true); (true, true);  (* smooth, smooth_v, smooth_h, paeth *)
     (false, false)]                                            (* chroma from luma *)
    (false, false).
