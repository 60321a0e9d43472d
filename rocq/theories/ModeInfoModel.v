(** Model of the mode info of a block, /repo/src/tile_encoder.rs 543-592 and 594-880,
    and of [assign_mv], 1329-1440.

    What is written is the list of calls on the arithmetic coder: a symbol with the
    CDF it is coded with (as in ContextModel), or a literal of some number of bits.

    Simplifications: sums of positions inside a frame do not overflow. The borrow of
    the encoder context is never taken twice here. [skip_mode] is the constant 0, so
    the branches for [skip_mode > 0] are left out; so are [palette_size_y] and
    [palette_size_uv], which are set to 0 and not read. *)
From Coq Require Import String ZArith List Bool.
From Verif Require Import Base UtilModel RangeCoderModel SessionModel BlockTables CdfTables GeomModel ElementModel ContextModel
  MvStackModel.
Import ListNotations.
Open Scope string_scope.
Open Scope list_scope.
Open Scope Z_scope.

(** A call on the coder: [encode_symbol] on an entry of the CDFs, or [encode_literal]. *)
Inductive ev : Type :=
| ESym (name : string) (path : list Z) (s : Z)
| ELit (n v : Z).

(** Run a writer and append its call. *)
Definition emit (w : wr) (es : list ev) : res (list ev) :=
  '(name, path, s) <- w ;; Ok (es ++ [ESym name path s]).

(** ** Reference frames *)

(** constants.rs 254-280. *)
Definition SINGLE_REFERENCE := 0.
Definition COMPOUND_REFERENCE := 1.
Definition UNIDIR_COMP_REFERENCE := 0.
Definition LAST_FRAME := 1.
Definition LAST2_FRAME := 2.
Definition LAST3_FRAME := 3.
Definition GOLDEN_FRAME := 4.
Definition ALTREF2_FRAME := 6.
Definition is_one_of (rf : Z) (l : list Z) : bool := existsb (Z.eqb rf) l.

(** tile_encoder.rs 784-813 *)
Definition single_refs (f : frame) (r c ref0 : Z) (es : list ev) : res (list ev) :=
  let p1 := is_one_of ref0 [ALTREF2_FRAME; BWDREF_FRAME; ALTREF_FRAME] in
  es <- emit (encode_single_ref_p1 (b2z p1) f r c) es ;;
  if p1 then
    let p2 := ref0 =? ALTREF_FRAME in
    es <- emit (encode_single_ref_p2 (b2z p2) f r c) es ;;
    if negb p2 then emit (encode_single_ref_p6 (b2z (ref0 =? ALTREF2_FRAME)) f r c) es else Ok es
  else
    let p3 := is_one_of ref0 [GOLDEN_FRAME; LAST3_FRAME] in
    es <- emit (encode_single_ref_p3 (b2z p3) f r c) es ;;
    if p3 then emit (encode_single_ref_p5 (b2z (ref0 =? GOLDEN_FRAME)) f r c) es
    else emit (encode_single_ref_p4 (b2z (ref0 =? LAST2_FRAME)) f r c) es.

(** tile_encoder.rs 762-769; [uni_comp_ref_p2] is not coded. *)
Definition unidir_refs (f : frame) (r c ref0 ref1 : Z) (es : list ev) : res (list ev) :=
  let u := (ref0 =? BWDREF_FRAME) && (ref1 =? ALTREF_FRAME) in
  es <- emit (encode_uni_comp_ref (b2z u) f r c) es ;;
  if negb u then
    let p1 := (ref0 =? LAST_FRAME) && is_one_of ref1 [GOLDEN_FRAME; LAST3_FRAME] in
    emit (encode_uni_comp_ref_p1 (b2z p1) f r c) es
  else Ok es.

(** tile_encoder.rs 770-783; the last element is coded with [encode_comp_ref_p1] and
    guarded by [comp_ref]. *)
Definition bidir_refs (f : frame) (r c ref0 ref1 : Z) (es : list ev) : res (list ev) :=
  let cr := is_one_of ref0 [GOLDEN_FRAME; LAST3_FRAME] in
  es <- emit (encode_comp_ref (b2z cr) f r c) es ;;
  es <- (if negb cr then emit (encode_comp_ref_p1 (b2z (ref0 =? LAST2_FRAME)) f r c) es
         else emit (encode_comp_ref_p2 (b2z (ref0 =? GOLDEN_FRAME)) f r c) es) ;;
  es <- emit (encode_comp_bwdref (b2z (ref1 =? ALTREF_FRAME)) f r c) es ;;
  if negb cr then emit (encode_comp_ref_p1 (b2z (ref1 =? ALTREF2_FRAME)) f r c) es else Ok es.

(** tile_encoder.rs 752-815: the branch without segment features. The result is what
    has been written, [comp_mode] and the references afterwards. *)
Definition ref_frames (f : frame) (r c bsize : Z) (reference_select : bool) (comp_mode comp_ref_type ref0 ref1 : Z)
  (es : list ev) : res (list ev * Z * Z * Z) :=
  bw4 <- idx num_4x4_blocks_wide bsize ;;
  bh4 <- idx num_4x4_blocks_high bsize ;;
  let select := reference_select && (2 <=? Z.min bw4 bh4) in
  es <- (if select then emit (encode_comp_mode comp_mode f r c) es else Ok es) ;;
  let comp_mode := if select then comp_mode else SINGLE_REFERENCE in
  if comp_mode =? COMPOUND_REFERENCE then
    es <- emit (encode_comp_ref_type comp_ref_type f r c) es ;;
    es <- (if comp_ref_type =? UNIDIR_COMP_REFERENCE then unidir_refs f r c ref0 ref1 es else bidir_refs f r c ref0 ref1 es) ;;
    Ok (es, comp_mode, ref0, ref1)
  else
    es <- single_refs f r c ref0 es ;;
    Ok (es, comp_mode, ref0, -1).

(** ** Prediction mode and index in the list *)

(** tile_encoder.rs 828-844. [y_mode] is the field of the tile encoder; the branch
    for two references does not assign it. *)
Definition inter_mode (is_compound : bool) (compound_mode : Z) (new_mv zero_mv ref_mv : bool)
  (ref_ctx new_ctx zero_ctx y_mode : Z) (es : list ev) : res (list ev * Z) :=
  if is_compound then
    m <- chk_u64 (compound_mode - NEAREST_NEARESTMV) ;;
    es <- emit (encode_compound_mode m ref_ctx new_ctx) es ;;
    Ok (es, y_mode)
  else
    es <- emit (encode_new_mv (b2z new_mv) new_ctx) es ;;
    if negb new_mv then Ok (es, NEWMV)
    else
      es <- emit (encode_zero_mv (b2z zero_mv) zero_ctx) es ;;
      if negb zero_mv then Ok (es, GLOBALMV)
      else
        es <- emit (encode_ref_mv (b2z ref_mv) ref_ctx) es ;;
        Ok (es, if negb ref_mv then NEARESTMV else NEARMV).

(** tile_encoder.rs 852-860 and 863-872: the loop over [idx] in [ids]. *)
Fixpoint drl_loop (ids : list Z) (num_mv_found : Z) (drl_mode drl_ctx : list Z) (ref_mv_idx : Z) (es : list ev)
  : res (list ev * Z) :=
  match ids with
  | [] => Ok (es, ref_mv_idx)
  | i :: r =>
      if i + 1 <? num_mv_found then
        d <- idx drl_mode i ;;
        es <- emit (encode_drl_mode d i drl_ctx) es ;;
        if d =? 0 then Ok (es, i) else drl_loop r num_mv_found drl_mode drl_ctx (i + 1) es
      else drl_loop r num_mv_found drl_mode drl_ctx ref_mv_idx es
  end.
(** tile_encoder.rs 845-873. *)
Definition has_nearmv (m : Z) : bool := is_one_of m [NEARMV; NEAR_NEARMV; NEAR_NEWMV; NEW_NEARMV].
Definition mv_index (y_mode num_mv_found : Z) (drl_mode drl_ctx : list Z) (es : list ev) : res (list ev * Z) :=
  if (y_mode =? NEWMV) || (y_mode =? NEW_NEWMV) then drl_loop [0; 1] num_mv_found drl_mode drl_ctx 0 es
  else if has_nearmv y_mode then drl_loop [1; 2] num_mv_found drl_mode drl_ctx 1 es
  else Ok (es, 0).

(** ** Motion vectors *)

(** tile_encoder.rs 1334-1356, closure [get_mode] for list 0 or 1. *)
Definition get_mode (y_mode i : Z) : Z :=
  if i =? 0 then
    if y_mode <? NEAREST_NEARESTMV then y_mode
    else if is_one_of y_mode [NEW_NEWMV; NEW_NEARESTMV; NEW_NEARMV] then NEWMV
    else if is_one_of y_mode [NEAREST_NEARESTMV; NEAREST_NEWMV] then NEARESTMV
    else if is_one_of y_mode [NEAR_NEARMV; NEAR_NEWMV] then NEARMV
    else GLOBALMV
  else
    if is_one_of y_mode [NEW_NEWMV; NEAREST_NEWMV; NEAR_NEWMV] then NEWMV
    else if is_one_of y_mode [NEAREST_NEARESTMV; NEW_NEARESTMV] then NEARESTMV
    else if is_one_of y_mode [NEAR_NEARMV; NEW_NEARMV] then NEARMV
    else GLOBALMV.

(** Motion vectors of the two lists. *)
Definition at_list {A : Type} (i : Z) (p : A * A) : A := if i =? 0 then fst p else snd p.
Definition set_at {A : Type} (i : Z) (x : A) (p : A * A) : A * A := if i =? 0 then (x, snd p) else (fst p, x).

(** What [assign_mv] reads and does not change. *)
Record mv_in : Type := mkMvIn {
  n_y_mode : Z; n_intrabc : bool; n_num : Z; n_idx : Z; n_list : list (mv * mv); n_globals : mv * mv;
  n_row : Z; n_row_start : Z; n_sb128 : bool
}.

(** tile_encoder.rs 1358-1377: the prediction for intra block copy. *)
Definition intrabc_pred (x : mv_in) : res mv :=
  t0 <- idx (n_list x) 0 ;;
  t1 <- idx (n_list x) 1 ;;
  let p := if mv_eqb (fst t0) (0, 0) then fst t1 else fst t0 in
  if mv_eqb p (0, 0) then
    let sb_size4 := if n_sb128 x then 32 else 16 in
    top <- chk_u64 (n_row x - sb_size4) ;;
    if top <? n_row_start x then Ok (0, - (sb_size4 * 4 + 256) * 8)
    else Ok (- (sb_size4 * 4 * 8), 0)
  else Ok p.

(** tile_encoder.rs 1357-1388: [pred_mv[i]] (for intra block copy always list 0). *)
Definition pred_mvs (x : mv_in) (i mode : Z) (pred : mv * mv) : res (mv * mv) :=
  if n_intrabc x then p <- intrabc_pred x ;; Ok (set_at 0 p pred)
  else if mode =? GLOBALMV then Ok (set_at i (at_list i (n_globals x)) pred)
  else
    let pos := if (mode =? NEWMV) && (n_num x <=? 1) then 0 else if mode =? NEARESTMV then 0 else n_idx x in
    t <- idx (n_list x) pos ;;
    Ok (set_at i (at_list i t) pred).

(** tile_encoder.rs 1397-1402 and constants.rs 307-312. *)
Definition mv_joint (d : mv) : Z :=
  if fst d =? 0 then if snd d =? 0 then 0 else 2 else if snd d =? 0 then 1 else 3.

(** tile_encoder.rs 1329-1439. [mvs] and [pred] are [part_tree.mvs] and [pred_mv];
    the difference is always that of list 0, only the joint type is coded, and the
    closure for the components is not called. The result also has the last value of
    [part_tree.compound_mode]. *)
Fixpoint assign_mv_loop (is : list Z) (x : mv_in) (mvs pred : mv * mv) (mode : Z) (es : list ev)
  : res (list ev * (mv * mv) * (mv * mv) * Z) :=
  match is with
  | [] => Ok (es, mvs, pred, mode)
  | i :: rest =>
      let mode := if n_intrabc x then NEWMV else get_mode (n_y_mode x) i in
      pred <- pred_mvs x i mode pred ;;
      if mode =? NEWMV then
        dx <- chk_i64 (fst (fst mvs) - fst (fst pred)) ;;
        dy <- chk_i64 (snd (fst mvs) - snd (fst pred)) ;;
        es <- emit (encode_mv_joint (mv_joint (dx, dy)) (if n_intrabc x then 1 else 0)) es ;;
        assign_mv_loop rest x mvs pred mode es
      else assign_mv_loop rest x (set_at i (at_list i pred) mvs) pred mode es
  end.
Definition assign_mv (is_compound : bool) (x : mv_in) (mvs pred : mv * mv) (mode : Z) (es : list ev)
  : res (list ev * (mv * mv) * (mv * mv) * Z) :=
  assign_mv_loop (if is_compound then [0; 1] else [0]) x mvs pred mode es.

(** ** Segment id *)

(** tile_encoder.rs 543-592; [segment_ids] are those of the table of mode infos.
    [self.skip] is false and [self.last_active_seg_id] is 0 whenever it is called. *)
Definition seg_at (ids : list (list (option Z))) (r c : Z) : res Z :=
  row <- idx ids r ;; o <- idx row c ;; unwrap o.
Definition code_segment_id (avail_u avail_l : bool) (ids : list (list (option Z))) (r c : Z) (skip : bool)
  (last_active_seg_id segment_id : Z) (es : list ev) : res (list ev * Z) :=
  ul <- (if avail_u && avail_l then seg_at ids (r - 1) (c - 1) else Ok (-1)) ;;
  u <- (if avail_u then seg_at ids (r - 1) c else Ok (-1)) ;;
  l <- (if avail_l then seg_at ids r (c - 1) else Ok (-1)) ;;
  let pred := if u =? -1 then if l =? -1 then 0 else l else if l =? -1 then u else if ul =? u then u else l in
  if skip then Ok (es, pred)
  else
    v <- neg_interleave segment_id pred (last_active_seg_id + 1) ;;
    es <- emit (encode_segment_id v u l ul) es ;;
    Ok (es, segment_id).

(** ** The mode info of a block *)

(** [PartitionTree], block.rs 23-43, without the partition. *)
Record blk : Type := mkBlk {
  p_bsize : Z; p_seg : Z; p_skip : bool; p_cdef : Z; p_q : Z; p_lf : list Z; p_inter : bool; p_ref0 : Z; p_ref1 : Z;
  p_comp_mode : Z; p_comp_ref_type : Z; p_mode : Z; p_new_mv : bool; p_zero_mv : bool; p_ref_mv : bool; p_drl : list Z;
  p_intrabc : bool; p_mvs : mv * mv
}.
Definition with_seg (s : Z) (b : blk) : blk :=
  mkBlk (p_bsize b) s (p_skip b) (p_cdef b) (p_q b) (p_lf b) (p_inter b) (p_ref0 b) (p_ref1 b) (p_comp_mode b)
    (p_comp_ref_type b) (p_mode b) (p_new_mv b) (p_zero_mv b) (p_ref_mv b) (p_drl b) (p_intrabc b) (p_mvs b).
Definition with_skip (s : bool) (b : blk) : blk :=
  mkBlk (p_bsize b) (p_seg b) s (p_cdef b) (p_q b) (p_lf b) (p_inter b) (p_ref0 b) (p_ref1 b) (p_comp_mode b)
    (p_comp_ref_type b) (p_mode b) (p_new_mv b) (p_zero_mv b) (p_ref_mv b) (p_drl b) (p_intrabc b) (p_mvs b).
Definition with_inter (i : bool) (b : blk) : blk :=
  mkBlk (p_bsize b) (p_seg b) (p_skip b) (p_cdef b) (p_q b) (p_lf b) i (p_ref0 b) (p_ref1 b) (p_comp_mode b)
    (p_comp_ref_type b) (p_mode b) (p_new_mv b) (p_zero_mv b) (p_ref_mv b) (p_drl b) (p_intrabc b) (p_mvs b).
Definition with_refs (comp ref0 ref1 : Z) (b : blk) : blk :=
  mkBlk (p_bsize b) (p_seg b) (p_skip b) (p_cdef b) (p_q b) (p_lf b) (p_inter b) ref0 ref1 comp
    (p_comp_ref_type b) (p_mode b) (p_new_mv b) (p_zero_mv b) (p_ref_mv b) (p_drl b) (p_intrabc b) (p_mvs b).
Definition with_mvs (mode : Z) (mvs : mv * mv) (b : blk) : blk :=
  mkBlk (p_bsize b) (p_seg b) (p_skip b) (p_cdef b) (p_q b) (p_lf b) (p_inter b) (p_ref0 b) (p_ref1 b) (p_comp_mode b)
    (p_comp_ref_type b) mode (p_new_mv b) (p_zero_mv b) (p_ref_mv b) (p_drl b) (p_intrabc b) mvs.

(** A mode info (constants.rs 1190-1210) with its vectors, mode and segment. *)
Record full_mi : Type := mkFull { i_mi : mi; i_mode : Z; i_mv0 : mv; i_mv1 : mv; i_seg : Z }.
Definition nbr_of (m : full_mi) : nbr :=
  mkNbr (m_is_inter (i_mi m)) (m_ref0 (i_mi m)) (m_ref1 (i_mi m)) (i_mode m) (m_size (i_mi m)) (i_mv0 m) (i_mv1 m).
Definition view {A : Type} (g : full_mi -> A) (mis : list (list (option full_mi))) : list (list (option A)) :=
  map (map (option_map g)) mis.

(** What the frame and the encoder context say; not changed here. *)
Record mode_env : Type := mkModeEnv {
  x_tile : tile_env; x_row : Z; x_col : Z; x_avail_u : bool; x_avail_l : bool;
  x_mis : list (list (option full_mi)); x_subx : bool; x_suby : bool;
  x_intra : bool; x_pre_skip : bool; x_seg_on : bool; x_features : list (list (option Z)); x_lossless : list bool;
  x_coded_lossless : bool; x_cdef_on : bool; x_intrabc : bool; x_cdef_bits : Z; x_sb128 : bool;
  x_dq_res : Z; x_lf_present : bool; x_lf_multi : bool; x_lf_res : Z; x_planes : Z; x_ref_select : bool;
  x_hp : bool; x_int : bool; x_gm_type : list Z; x_gm_params : list (list Z); x_field : list (list (list mv))
}.
(** What changes besides the block: fields of [TileEncoder], of the encoder context
    and of the frame. *)
Record mode_state : Type := mkModeState {
  t_lossless : bool; t_mv : mv_state; t_y_mode : Z; t_ref_ctx : Z; t_new_ctx : Z; t_drl_ctx : list Z; t_idx : Z;
  t_pred : mv * mv; t_cur_q : Z; t_cur_lf : list Z; t_read_deltas : bool; t_cdef : list (list Z)
}.
Definition with_lossless (l : bool) (t : mode_state) : mode_state :=
  mkModeState l (t_mv t) (t_y_mode t) (t_ref_ctx t) (t_new_ctx t) (t_drl_ctx t) (t_idx t) (t_pred t) (t_cur_q t)
    (t_cur_lf t) (t_read_deltas t) (t_cdef t).
Definition with_cdef (m : list (list Z)) (t : mode_state) : mode_state :=
  mkModeState (t_lossless t) (t_mv t) (t_y_mode t) (t_ref_ctx t) (t_new_ctx t) (t_drl_ctx t) (t_idx t) (t_pred t) (t_cur_q t)
    (t_cur_lf t) (t_read_deltas t) m.
Definition with_deltas (q : Z) (lf : list Z) (rd : bool) (t : mode_state) : mode_state :=
  mkModeState (t_lossless t) (t_mv t) (t_y_mode t) (t_ref_ctx t) (t_new_ctx t) (t_drl_ctx t) (t_idx t) (t_pred t) q
    lf rd (t_cdef t).
Definition with_motion (m : mv_state) (y i : Z) (pred : mv * mv) (t : mode_state) : mode_state :=
  mkModeState (t_lossless t) m y (t_ref_ctx t) (t_new_ctx t) (t_drl_ctx t) i pred (t_cur_q t)
    (t_cur_lf t) (t_read_deltas t) (t_cdef t).

Definition x_frame (x : mode_env) : frame :=
  mkFr (view i_mi (x_mis x)) (e_mi_rows (x_tile x)) (e_mi_cols (x_tile x)) (x_subx x) (x_suby x).

(** tile_encoder.rs 613-615, 721-723, 745-747, 822-824: the array has SEG_LVL_MAX = 7
    features (frame.rs 34, constants.rs 333-338). *)
Definition SEG_LVL_REF_FRAME := 5.
Definition SEG_LVL_SKIP := 6.
Definition SEG_LVL_GLOBALMV := 7.
Definition feature (x : mode_env) (seg lvl : Z) : res (option Z) := row <- idx (x_features x) seg ;; idx row lvl.
Definition feature_on (x : mode_env) (seg lvl : Z) : res bool :=
  if x_seg_on x then o <- feature x seg lvl ;; Ok (match o with Some _ => true | None => false end) else Ok false.

(** tile_encoder.rs 602-608 and 622-630. *)
Definition intra_segment_id (x : mode_env) (b : blk) (t : mode_state) (es : list ev) : res (list ev * blk * mode_state) :=
  '(es, seg) <- (if x_seg_on x then
                   code_segment_id (x_avail_u x) (x_avail_l x) (view i_seg (x_mis x)) (x_row x) (x_col x) false 0 (p_seg b) es
                 else Ok (es, 0)) ;;
  l <- idx (x_lossless x) seg ;;
  Ok (es, with_seg seg b, with_lossless l t).

(** tile_encoder.rs 645-655: one column of assignments, all columns. *)
Definition set_cell (m : list (list Z)) (i j v : Z) : res (list (list Z)) :=
  row <- idx m i ;; _ <- idx row j ;; Ok (set_nth (Z.to_nat i) (set_nth (Z.to_nat j) v row) m).
Fixpoint cdef_cols (fuel : nat) (i j lim v : Z) (m : list (list Z)) : res (list (list Z)) :=
  if j <? lim then
    match fuel with
    | O => Hang
    | S fuel => m <- set_cell m i j v ;; cdef_cols fuel i (j + 16) lim v m
    end
  else Ok m.
Fixpoint cdef_rows (fuel : nat) (i lim clim v : Z) (m : list (list Z)) : res (list (list Z)) :=
  if i <? lim then
    match fuel with
    | O => Hang
    | S fuel => m <- cdef_cols (Z.to_nat clim) i 0 clim v m ;; cdef_rows fuel (i + 16) lim clim v m
    end
  else Ok m.

(** tile_encoder.rs 632-658; the mask clears the last four bits. *)
Definition code_cdef (x : mode_env) (b : blk) (t : mode_state) (es : list ev) : res (list ev * mode_state) :=
  if negb (x_coded_lossless x || negb (x_cdef_on x) || x_intrabc x) then
    let r := x_row x - x_row x mod 16 in
    let c := x_col x - x_col x mod 16 in
    row <- idx (t_cdef t) r ;;
    old <- idx row c ;;
    if old =? -1 then
      w4 <- idx num_4x4_blocks_wide (p_bsize b) ;;
      h4 <- idx num_4x4_blocks_high (p_bsize b) ;;
      m <- cdef_rows (Z.to_nat (r + h4)) 0 (r + h4) (c + w4) (p_cdef b) (t_cdef t) ;;
      Ok (es ++ [ELit (x_cdef_bits x) (as_u64 (p_cdef b))], with_cdef m t)
    else Ok (es, t)
  else Ok (es, t).

(** The calls of [delta_q_ops] and [delta_lf_ops] (ElementModel). *)
Definition ev_of_op (name : string) (path : list Z) (o : op) : ev :=
  match o with
  | OSym _ s => ESym name path (Z.of_nat s)
  | OLit n v => ELit (Z.of_nat n) v
  | OBit _ _ | OBits _ _ => ELit 0 0 (* not produced *)
  end.

(** tile_encoder.rs 660-715. *)
Definition BLOCK_64X64 := 12.
Definition BLOCK_128X128 := 15.
Fixpoint code_delta_lf (n : nat) (i : Z) (x : mode_env) (lf : list Z) (cur : list Z) (es : list ev) : res (list ev * list Z) :=
  match n with
  | O => Ok (es, cur)
  | S n =>
      v <- idx lf i ;;
      p <- idx cur i ;;
      '(ops, p') <- delta_lf_ops 0 v p (x_lf_res x) ;;
      '(name, path, _) <- encode_delta_lf_abs 0 (b2z (x_lf_multi x)) i ;;
      code_delta_lf n (i + 1) x lf (set_nth (Z.to_nat i) p' cur) (es ++ map (ev_of_op name path) ops)
  end.
Definition code_deltas (x : mode_env) (b : blk) (t : mode_state) (es : list ev) : res (list ev * mode_state) :=
  let sb_size := if x_sb128 x then BLOCK_128X128 else BLOCK_64X64 in
  let on := negb ((p_bsize b =? sb_size) && p_skip b) && t_read_deltas t in
  '(es, q) <- (if on then
                 '(ops, q) <- delta_q_ops 0 (p_q b) (t_cur_q t) (x_dq_res x) ;;
                 Ok (es ++ map (ev_of_op "delta_q" []) ops, q)
               else Ok (es, t_cur_q t)) ;;
  '(es, lf) <- (if on && x_lf_present x then
                  code_delta_lf (if x_lf_multi x then if 1 <? x_planes x then 4%nat else 2%nat else 1%nat) 0 x (p_lf b)
                    (t_cur_lf t) es
                else Ok (es, t_cur_lf t)) ;;
  Ok (es, with_deltas q lf false t).

(** tile_encoder.rs 717-732. *)
Definition code_is_inter (x : mode_env) (b : blk) (es : list ev) : res (list ev * blk) :=
  on <- feature_on x (p_seg b) SEG_LVL_REF_FRAME ;;
  if on : bool then
    o <- feature x (p_seg b) SEG_LVL_REF_FRAME ;; v <- unwrap o ;;
    Ok (es, with_inter (negb (v =? 0)) b)
  else
    glob <- feature_on x (p_seg b) SEG_LVL_GLOBALMV ;;
    if glob : bool then Ok (es, with_inter true b)
    else es <- emit (encode_is_inter (p_inter b) (x_frame x) (x_row x) (x_col x)) es ;; Ok (es, b).

(** tile_encoder.rs 738-816. [RefFrame::from_isize] accepts -1 to 7. *)
Definition code_refs (x : mode_env) (b : blk) (es : list ev) : res (list ev * blk) :=
  on <- feature_on x (p_seg b) SEG_LVL_REF_FRAME ;;
  if on : bool then
    o <- feature x (p_seg b) SEG_LVL_REF_FRAME ;; v <- unwrap o ;;
    if (-1 <=? v) && (v <=? 7) then Ok (es, with_refs (p_comp_mode b) v (-1) b) else Panic
  else
    sk <- feature_on x (p_seg b) SEG_LVL_SKIP ;;
    gl <- (if sk : bool then Ok true else feature_on x (p_seg b) SEG_LVL_GLOBALMV) ;;
    if gl : bool then Ok (es, with_refs (p_comp_mode b) LAST_FRAME (-1) b)
    else
      '(es, comp, r0, r1) <- ref_frames (x_frame x) (x_row x) (x_col x) (p_bsize b) (x_ref_select x) (p_comp_mode b)
                               (p_comp_ref_type b) (p_ref0 b) (p_ref1 b) es ;;
      Ok (es, with_refs comp r0 r1 b).

(** tile_encoder.rs 817-875. *)
Definition x_mv_env (x : mode_env) (b : blk) : mv_env :=
  mkMvEnv (x_tile x) (x_row x) (x_col x) (p_bsize b) (p_ref0 b) (p_ref1 b) (x_hp x) (x_int x) (x_gm_type x) (x_gm_params x)
    (x_field x) (view nbr_of (x_mis x)).
Definition code_inter (x : mode_env) (b : blk) (t : mode_state) (es : list ev) : res (list ev * blk * mode_state) :=
  '(es, b) <- code_refs x b es ;;
  let is_compound := 0 <? p_ref1 b in
  s <- find_mv_stack (x_mv_env x b) is_compound (t_mv t) ;;
  sk <- feature_on x (p_seg b) SEG_LVL_SKIP ;;
  gl <- (if sk : bool then Ok true else feature_on x (p_seg b) SEG_LVL_GLOBALMV) ;;
  '(es, y) <- (if gl : bool then Ok (es, GLOBALMV)
               else inter_mode is_compound (p_mode b) (p_new_mv b) (p_zero_mv b) (p_ref_mv b) (t_ref_ctx t) (t_new_ctx t)
                      (s_zero_ctx s) (t_y_mode t) es) ;;
  '(es, i) <- mv_index y (s_num s) (p_drl b) (t_drl_ctx t) es ;;
  '(es, mvs, pred, mode) <- assign_mv is_compound
      (mkMvIn y (p_intrabc b) (s_num s) i (s_stack s) (s_global s) (x_row x) (e_row_start (x_tile x)) (x_sb128 x))
      (p_mvs b) (t_pred t) (p_mode b) es ;;
  Ok (es, with_mvs mode mvs b, with_motion s y i pred t).

(** tile_encoder.rs 594-880, [encode_mode_info]: nothing is written for intra blocks
    after [is_inter], and nothing at all in inter frames. *)
Definition encode_mode_info (x : mode_env) (b : blk) (t : mode_state) (es : list ev) : res (list ev * blk * mode_state) :=
  if x_intra x then
    '(es, b, t) <- (if x_pre_skip x then intra_segment_id x b t es else Ok (es, b, t)) ;;
    sk <- (if x_pre_skip x then feature_on x (p_seg b) SEG_LVL_SKIP else Ok false) ;;
    '(es, b) <- (if sk : bool then Ok (es, with_skip true b)
                 else es <- emit (encode_skip (b2z (p_skip b)) (x_frame x) (x_row x) (x_col x)) es ;; Ok (es, b)) ;;
    '(es, b, t) <- (if negb (x_pre_skip x) then intra_segment_id x b t es else Ok (es, b, t)) ;;
    '(es, t) <- code_cdef x b t es ;;
    '(es, t) <- code_deltas x b t es ;;
    '(es, b) <- code_is_inter x b es ;;
    if p_inter b then code_inter x b t es else Ok (es, b, t)
  else Ok (es, b, t).
