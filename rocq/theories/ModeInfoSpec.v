(** What a decoder does with the mode info of a block: the syntax of the AV1
    specification, sections 5.11.7 (intra_frame_mode_info), 5.11.9 (read_segment_id),
    5.11.23 (inter_block_mode_info), 5.11.25 (read_ref_frames), 5.11.26 (assign_mv),
    5.11.31 and 5.11.32 (read_mv), 5.11.56 (read_cdef).

    A decoder asks for an element by the CDF it selects, or for a literal by its
    length. It gets the next element only if that was coded with the same CDF, or with
    the same length. By the properties of the arithmetic coder (C45, C57) this is what
    makes a written element readable. *)
From Coq Require Import String ZArith List Bool.
From Verif Require Import Base SeqSpec ElementSpec ContextModel ContextSpec ModeInfoModel.
Import ListNotations.
Open Scope string_scope.
Open Scope list_scope.
Open Scope Z_scope.

Definition sym (name : string) (path : list Z) (q : list ev) : option (Z * list ev) :=
  match q with
  | ESym n p s :: r => if String.eqb n name && (if list_eq_dec Z.eq_dec p path then true else false) then Some (s, r) else None
  | _ => None
  end.
Definition lit (n : Z) (q : list ev) : option (Z * list ev) :=
  match q with
  | ELit m v :: r => if m =? n then Some (v, r) else None
  | _ => None
  end.

(** What has been written is read: [v] is obtained, and what follows is left. *)
Definition reads_as {A : Type} (es : list ev) (rd : list ev -> option (A * list ev)) (v : A) : Prop :=
  forall k, rd (es ++ k) = Some (v, k).
(** Whatever follows, it is not. *)
Definition never_reads_as {A : Type} (es : list ev) (rd : list ev -> option (A * list ev)) (v : A) : Prop :=
  forall k, rd (es ++ k) <> Some (v, k).

(** ** 5.11.25 read_ref_frames, without segment features. [u], [l]: blocks above and
    to the left, as in ContextSpec. *)
Definition pick {A : Type} (s : Z) (x y : A) : A := if s =? 0 then x else y.

Definition av1_single_ref (u l : option mi) (q : list ev) : option (Z * list ev) :=
  let ctx := spec_counts in
  LET (p1, q) := sym "single_ref" [ctx [1; 2; 3; 4] [5; 6; 7] u l; 0] q IN
  if p1 =? 0 then
    LET (p3, q) := sym "single_ref" [ctx [1; 2] [3; 4] u l; 2] q IN
    if p3 =? 0 then LET (p4, q) := sym "single_ref" [ctx [1] [2] u l; 3] q IN Some (pick p4 1 2, q)
    else LET (p5, q) := sym "single_ref" [ctx [3] [4] u l; 4] q IN Some (pick p5 3 4, q)
  else
    LET (p2, q) := sym "single_ref" [ctx [5; 6] [7] u l; 1] q IN
    if p2 =? 0 then LET (p6, q) := sym "single_ref" [ctx [5] [6] u l; 5] q IN Some (pick p6 5 6, q)
    else Some (7, q).

Definition av1_unidir (u l : option mi) (q : list ev) : option (Z * Z * list ev) :=
  let ctx := spec_counts in
  LET (b, q) := sym "uni_comp_ref" [ctx [1; 2; 3; 4] [5; 6; 7] u l; 0] q IN
  if b =? 0 then
    LET (p1, q) := sym "uni_comp_ref" [ctx [2] [3; 4] u l; 1] q IN
    if p1 =? 0 then Some (1, 2, q)
    else LET (p2, q) := sym "uni_comp_ref" [ctx [3] [4] u l; 2] q IN Some (1, pick p2 3 4, q)
  else Some (5, 7, q).

Definition av1_bidir (u l : option mi) (q : list ev) : option (Z * Z * list ev) :=
  let ctx := spec_counts in
  LET (a, q) := sym "comp_ref" [ctx [1; 2] [3; 4] u l; 0] q IN
  LET (r0, q) := (if a =? 0 then LET (p1, q) := sym "comp_ref" [ctx [1] [2] u l; 1] q IN Some (pick p1 1 2, q)
                  else LET (p2, q) := sym "comp_ref" [ctx [3] [4] u l; 2] q IN Some (pick p2 3 4, q)) IN
  LET (b, q) := sym "comp_bwd_ref" [ctx [5; 6] [7] u l; 0] q IN
  if b =? 0 then LET (p1, q) := sym "comp_bwd_ref" [ctx [5] [6] u l; 1] q IN Some (r0, pick p1 5 6, q)
  else Some (r0, 7, q).

(** [bsize] is the block size, [select] the reference_select of the frame. *)
Definition av1_ref_frames (u l : option mi) (bsize : Z) (select : bool) (q : list ev) : option ((Z * Z) * list ev) :=
  LET (comp, q) := (if select && (8 <=? Z.min (Block_Width bsize) (Block_Height bsize))
                    then sym "comp_mode" [spec_comp_mode u l] q else Some (0, q)) IN
  if comp =? 0 then LET (r, q) := av1_single_ref u l q IN Some ((r, NONE), q)
  else
    LET (t, q) := sym "comp_ref_type" [spec_comp_ref_type u l] q IN
    if t =? 0 then LET (r0, r1, q) := av1_unidir u l q IN Some ((r0, r1), q)
    else LET (r0, r1, q) := av1_bidir u l q IN Some ((r0, r1), q).

(** The pairs of references a block may have. *)
Definition unidir_pair (r0 r1 : Z) : Prop := In (r0, r1) [(1, 2); (1, 3); (1, 4); (5, 7)].
Definition bidir_pair (r0 r1 : Z) : Prop := 1 <= r0 <= 4 /\ 5 <= r1 <= 7.

(** ** 5.11.23: mode and index in the list of candidates. The numbers of the modes are
    those of the crate, one more than in the specification. *)
Inductive imode := Nearest | Near | Global | New.
(** The single modes, and the compound modes by their coded value. *)
Definition single_mode (m : imode) : Z := match m with Nearest => 14 | Near => 15 | Global => 16 | New => 17 end.
Definition compound_modes : list (imode * imode) :=
  [(Nearest, Nearest); (Near, Near); (Nearest, New); (New, Nearest); (Near, New); (New, Near); (Global, Global); (New, New)].
Definition modes_of (y : Z) : option (imode * imode) :=
  if y <? 18 then
    match y with 14 => Some (Nearest, Global) | 15 => Some (Near, Global) | 16 => Some (Global, Global) | 17 => Some (New, Global)
    | _ => None end
  else nth_error compound_modes (Z.to_nat (y - 18)).

(** The contexts the specification derives from the neighbours (7.10.2). *)
Record mode_ctx : Type := mkModeCtx { c_new : Z; c_zero : Z; c_ref : Z; c_drl : list Z }.

Definition av1_mode (is_compound : bool) (x : mode_ctx) (q : list ev) : option (Z * list ev) :=
  if is_compound then LET (m, q) := sym "compound_mode" [spec_compound_mode (c_ref x) (c_new x)] q IN Some (18 + m, q)
  else
    LET (n, q) := sym "new_mv" [c_new x] q IN
    if n =? 0 then Some (single_mode New, q)
    else
      LET (z, q) := sym "zero_mv" [c_zero x] q IN
      if z =? 0 then Some (single_mode Global, q)
      else LET (r, q) := sym "ref_mv" [c_ref x] q IN Some (pick r (single_mode Nearest) (single_mode Near), q).

(** The index: from [i], while there are more candidates. [n] rounds are left. *)
Fixpoint av1_drl (n : nat) (i num : Z) (ctx : list Z) (q : list ev) : option (Z * list ev) :=
  match n with
  | O => Some (i, q)
  | S n =>
      if i + 1 <? num then
        LET (d, q) := sym "drl_mode" [nth (Z.to_nat i) ctx 0] q IN
        if d =? 0 then Some (i, q) else av1_drl n (i + 1) num ctx q
      else Some (i, q)
  end.
Definition both_new (y : Z) : bool := (y =? single_mode New) || (y =? 25).
Definition has_near (y : Z) : bool := existsb (Z.eqb y) [15; 19; 22; 23].
Definition av1_index (y num : Z) (ctx : list Z) (q : list ev) : option (Z * list ev) :=
  if both_new y then av1_drl 2 0 num ctx q
  else if has_near y then av1_drl 2 1 num ctx q
  else Some (0, q).
Definition av1_mode_index (is_compound : bool) (x : mode_ctx) (num : Z) (q : list ev) : option ((Z * Z) * list ev) :=
  LET (y, q) := av1_mode is_compound x q IN
  LET (i, q) := av1_index y num (c_drl x) q IN
  Some ((y, i), q).

(** ** 5.11.26, 5.11.31, 5.11.32: motion vectors, as (row, column). *)
Definition av1_bits (ctx comp : Z) : nat -> Z -> list ev -> option (Z * list ev) :=
  fix go (n : nat) (i : Z) (q : list ev) :=
    match n with
    | O => Some (0, q)
    | S n =>
        LET (b, q) := sym "mv_bit" [ctx; comp; i] q IN
        LET (d, q) := go n (i + 1) q IN
        Some (b + 2 * d, q)
    end.
Definition av1_component (ctx comp : Z) (int hp : bool) (q : list ev) : option (Z * list ev) :=
  LET (s, q) := sym "mv_sign" [ctx; comp] q IN
  LET (c, q) := sym "mv_class" [ctx; comp] q IN
  LET (mag, q) :=
    (if c =? 0 then
       LET (b, q) := sym "mv_class0_bit" [ctx; comp] q IN
       LET (fr, q) := (if int then Some (3, q) else sym "mv_class0_fr" [ctx; comp; b] q) IN
       LET (h, q) := (if hp then sym "mv_class0_hp" [ctx; comp] q else Some (1, q)) IN
       Some (8 * b + 2 * fr + h + 1, q)
     else
       LET (d, q) := av1_bits ctx comp (Z.to_nat c) 0 q IN
       LET (fr, q) := (if int then Some (3, q) else sym "mv_fr" [ctx; comp] q) IN
       LET (h, q) := (if hp then sym "mv_hp" [ctx; comp] q else Some (1, q)) IN
       Some (2 * 2 ^ (c + 2) + 8 * d + 2 * fr + h + 1, q)) IN
  Some (if s =? 0 then mag else - mag, q).
Definition av1_mv (ctx : Z) (int hp : bool) (pred : Z * Z) (q : list ev) : option ((Z * Z) * list ev) :=
  LET (j, q) := sym "mv_joint" [ctx] q IN
  LET (d0, q) := (if (j =? 2) || (j =? 3) then av1_component ctx 0 int hp q else Some (0, q)) IN
  LET (d1, q) := (if (j =? 1) || (j =? 3) then av1_component ctx 1 int hp q else Some (0, q)) IN
  Some ((fst pred + d0, snd pred + d1), q).

(** The prediction of a list; for intra block copy see [av1_intrabc_pred]. *)
Definition av1_pred (m : imode) (idx num : Z) (cands : list (Z * Z)) (global : Z * Z) : Z * Z :=
  match m with
  | Global => global
  | Nearest => nth 0 cands (0, 0)
  | Near => nth (Z.to_nat idx) cands (0, 0)
  | New => nth (if num <=? 1 then 0 else Z.to_nat idx) cands (0, 0)
  end.
Definition av1_list_mv (m : imode) (ctx : Z) (int hp : bool) (pred : Z * Z) (q : list ev) : option ((Z * Z) * list ev) :=
  match m with New => av1_mv ctx int hp pred q | _ => Some (pred, q) end.
(** Both vectors of a block with modes [m0] and [m1]. *)
Definition av1_assign_mv (m0 m1 : imode) (p0 p1 : Z * Z) (int hp : bool) (q : list ev)
  : option (((Z * Z) * (Z * Z)) * list ev) :=
  LET (v0, q) := av1_list_mv m0 0 int hp p0 q IN
  LET (v1, q) := av1_list_mv m1 0 int hp p1 q IN
  Some ((v0, v1), q).

Definition av1_intrabc_pred (c0 c1 : Z * Z) (row row_start sb4 : Z) : Z * Z :=
  let zero (m : Z * Z) := (fst m =? 0) && (snd m =? 0) in
  if negb (zero c0) then c0
  else if negb (zero c1) then c1
  else if row - sb4 <? row_start then (0, - (sb4 * 4 + 256) * 8)
  else (- (sb4 * 4 * 8), 0).

(** ** 5.11.9: segment ids. [ul], [u], [l] are -1 if not available; [max] is the last
    active segment id plus 1. *)
Definition av1_seg_pred (ul u l : Z) : Z :=
  if u =? -1 then (if l =? -1 then 0 else l)
  else if l =? -1 then u
  else if ul =? u then u else l.
Definition av1_segment_id (ul u l max : Z) (q : list ev) : option (Z * list ev) :=
  LET (v, q) := sym "segment_id" [spec_segment_id ul u l] q IN
  Some (Z.max 0 (Z.min (max - 1) (av1_neg_deinterleave v (av1_seg_pred ul u l) max)), q).

(** ** 5.11.7 up to the prediction mode, without segmentation and deltas: the skip flag
    (its neighbours [u], [l]), the cdef index if it is to be read ([cdef]: it is
    enabled for the frame and not known yet), then either use_intrabc or the mode. *)
Definition av1_skip_cdef (u l : option mi) (cdef : bool) (bits : Z) (q : list ev) : option ((Z * option Z) * list ev) :=
  LET (s, q) := sym "skip" [b2z (at_nb m_skip false u) + b2z (at_nb m_skip false l)] q IN
  if (s =? 0) && cdef then LET (v, q) := lit bits q IN Some ((s, Some v), q)
  else Some ((s, None), q).

(** ** 5.11.7, all of it up to the prediction mode. What a decoder knows: *)
Record intra_in : Type := mkIntraIn {
  d_above : option mi; d_left : option mi;
  d_pre_skip : bool; d_seg_on : bool; d_seg_ul : Z; d_seg_u : Z; d_seg_l : Z; d_seg_max : Z;
  d_skip_feature : Z -> bool;          (* SEG_LVL_SKIP of a segment *)
  d_cdef : bool; d_cdef_bits : Z;      (* a cdef index is to be read unless the block is skipped *)
  d_deltas : bool; d_whole_sb : bool;  (* ReadDeltas; the block is a superblock *)
  d_lf : bool; d_lf_multi : bool; d_lf_count : nat;
  d_intrabc : bool; d_mode_ctx : list Z
}.
Definition av1_intra_segment_id (x : intra_in) (skip : Z) (q : list ev) : option (Z * list ev) :=
  if negb (d_seg_on x) then Some (0, q)
  else if negb (skip =? 0) then Some (av1_seg_pred (d_seg_ul x) (d_seg_u x) (d_seg_l x), q)
  else av1_segment_id (d_seg_ul x) (d_seg_u x) (d_seg_l x) (d_seg_max x) q.
Definition av1_read_skip (x : intra_in) (seg : Z) (q : list ev) : option (Z * list ev) :=
  if d_pre_skip x && d_seg_on x && d_skip_feature x seg then Some (1, q)
  else sym "skip" [b2z (at_nb m_skip false (d_above x)) + b2z (at_nb m_skip false (d_left x))] q.
(** 5.11.38, 5.11.39: the part delta q and delta lf share. *)
Definition av1_read_delta (name : string) (path : list Z) (q : list ev) : option (Z * list ev) :=
  LET (a, q) := sym name path q IN
  LET (a, q) := (if a =? 3 then
                   LET (n, q) := lit 3 q IN
                   LET (v, q) := lit (n + 1) q IN Some (v + 2 ^ (n + 1) + 1, q)
                 else Some (a, q)) IN
  if a =? 0 then Some (0, q) else LET (s, q) := lit 1 q IN Some (if s =? 0 then a else - a, q).
Fixpoint av1_read_lfs (x : intra_in) (n : nat) (i : Z) (q : list ev) : option (list Z * list ev) :=
  match n with
  | O => Some ([], q)
  | S n =>
      LET (v, q) := (if d_lf_multi x then av1_read_delta "delta_lf_multi" [i] q else av1_read_delta "delta_lf" [] q) IN
      LET (vs, q) := av1_read_lfs x n (i + 1) q IN
      Some (v :: vs, q)
  end.

(** Segment, skip, cdef index, deltas, and the prediction mode or [None] for
    intra block copy. *)
Record intra_out : Type := mkIntraOut {
  o_seg : Z; o_skip : Z; o_cdef : option Z; o_q : Z; o_lf : list Z; o_mode : option Z
}.
Definition av1_intra_frame (x : intra_in) (q : list ev) : option (intra_out * list ev) :=
  LET (seg, q) := (if d_pre_skip x then av1_intra_segment_id x 0 q else Some (0, q)) IN
  LET (skip, q) := av1_read_skip x seg q IN
  LET (seg, q) := (if d_pre_skip x then Some (seg, q) else av1_intra_segment_id x skip q) IN
  LET (cdef, q) := (if (skip =? 0) && d_cdef x then LET (v, q) := lit (d_cdef_bits x) q IN Some (Some v, q) else Some (None, q)) IN
  let deltas := d_deltas x && negb (d_whole_sb x && negb (skip =? 0)) in
  LET (dq, q) := (if deltas then av1_read_delta "delta_q" [] q else Some (0, q)) IN
  LET (lf, q) := (if deltas && d_lf x then av1_read_lfs x (d_lf_count x) 0 q else Some ([], q)) IN
  LET (bc, q) := (if d_intrabc x then sym "intrabc" [] q else Some (0, q)) IN
  LET (m, q) := (if bc =? 0 then LET (m, q) := sym "intra_frame_y_mode" (d_mode_ctx x) q IN Some (Some m, q) else Some (None, q)) IN
  Some (mkIntraOut seg skip cdef dq lf m, q).

(** ** 5.11.56: which entries of the table of cdef indices a block at (r, c) sets, for
    a block of w4 by h4 units: those of its own 64x64 units. *)
Definition av1_cdef_sets (r c w4 h4 i j : Z) : bool :=
  (i mod 16 =? 0) && (j mod 16 =? 0) && (r - r mod 16 <=? i) && (i <? r - r mod 16 + h4) && (c - c mod 16 <=? j) && (j <? c - c mod 16 + w4).

(** ** 5.11.18 (inter_frame_mode_info) up to the skip flag, without segmentation and
    skip mode. *)
Definition av1_inter_skip (u l : option mi) (q : list ev) : option (Z * list ev) :=
  sym "skip" [b2z (at_nb m_skip false u) + b2z (at_nb m_skip false l)] q.
