(** Model of the syntax writers of /repo/src/bool_coder.rs 387-1327 and of the
    helpers in /repo/src/common.rs 56-188 and /repo/src/frame.rs 351-363: for each
    writer the CDF it selects, as the name of the field of [CDF] and the indices, and
    the symbol it codes. (The three partition writers, 424-491, are in GeomModel.)

    Simplifications: sums of positions inside a frame ([x4 + k], [ref_row << bwl])
    and of per-neighbour counters do not overflow a usize. Where two neighbours are
    looked up the order of the lookups is not kept (both only read). Enumerations are numbers; [RefFrame] NONE is -1.
    Symbols of type usize are small ([as i32] is the identity below 2^31 and is
    written where it matters). *)
From Coq Require Import String ZArith List Bool.
From Verif Require Import Base UtilModel RangeCoderModel SessionModel BlockTables CdfTables GeomModel ElementModel.
Import ListNotations.
Open Scope string_scope.
Open Scope list_scope.
Open Scope Z_scope.

(** constants.rs 1190-1210, [ModeInfo]; motion vectors left out. *)
Record mi : Type := mkMi {
  m_size : Z; m_tx_size : Z; m_tx_type : Z; m_is_inter : bool; m_skip : bool; m_intra : bool; m_single : bool;
  m_seg_id_predicted : Z; m_skip_mode : Z; m_ref0 : Z; m_ref1 : Z; m_filter : list Z;
  m_level : list Z; m_dc : list Z; m_palette : list Z; m_comp_group_idx : Z; m_compound_idx : Z
}.

(** The parts of frame.rs 190-240 used here. *)
Record frame : Type := mkFr {
  f_mis : list (list (option mi)); f_mi_rows : Z; f_mi_cols : Z; f_subx : bool; f_suby : bool
}.

(** frame.rs 258: the table of mode infos of a new frame. *)
Definition new_mis (width height : Z) : list (list (option mi)) :=
  repeat (repeat None (Z.to_nat (width / 4))) (Z.to_nat (height / 4)).

(** frame.rs 351-363. *)
Definition get_mi (f : frame) (r c : Z) : res (option mi) := row <- idx (f_mis f) r ;; idx row c.
Definition get_above_mi (f : frame) (r c : Z) : res (option mi) := if r =? 0 then Ok None else get_mi f (r - 1) c.
Definition get_left_mi (f : frame) (r c : Z) : res (option mi) := if c =? 0 then Ok None else get_mi f r (c - 1).
Definition unwrap {A : Type} (o : option A) : res A := match o with Some a => Ok a | None => Panic end.

(** A writer's effect is [encode_symbol] with this symbol on this entry of the CDFs. *)
Definition wr : Type := res (string * list Z * Z).

(** Indexing the nested arrays of one field, and storing the adapted row. *)
Fixpoint tab_get (t : tab) (path : list Z) : res (list Z) :=
  match t, path with
  | Row r, [] => Ok r
  | Tab l, i :: p => t' <- idx l i ;; tab_get t' p
  | _, _ => Panic
  end.
Fixpoint tab_set (t : tab) (path : list Z) (row : list Z) : tab :=
  match t, path with
  | Row _, [] => Row row
  | Tab l, i :: p =>
      match nth_error l (Z.to_nat i) with
      | Some t' => Tab (set_nth (Z.to_nat i) (tab_set t' p row) l)
      | None => t
      end
  | _, _ => t
  end.
Definition cdfs : Type := list (string * tab).
Fixpoint field (s : cdfs) (name : string) : res tab :=
  match s with
  | [] => Panic (* no such field: cannot happen in a program that compiles *)
  | (n, t) :: r => if String.eqb n name then Ok t else field r name
  end.
Fixpoint set_field (s : cdfs) (name : string) (t : tab) : cdfs :=
  match s with
  | [] => []
  | (n, t') :: r => if String.eqb n name then (n, t) :: r else (n, t') :: set_field r name t
  end.
Definition run_writer (c : coder) (s : cdfs) (out : list Z) (w : wr) : res (coder * cdfs * list Z) :=
  '(name, path, symbol) <- w ;;
  t <- field s name ;;
  row <- tab_get t path ;;
  '(c, out, row) <- encode_symbol c symbol out row ;;
  Ok (c, set_field s name (tab_set t path row), out).

(** ** Helpers *)

(** common.rs 56-58. *)
Definition BWDREF_FRAME := 5.
Definition ALTREF_FRAME := 7.
Definition check_backward (rf : Z) : bool := (BWDREF_FRAME <=? rf) && (rf <=? ALTREF_FRAME).

(** common.rs 60-68. *)
Definition refs_of (m : option mi) (rf : Z) : Z :=
  match m with
  | Some m => b2z (m_ref0 m =? rf) + b2z (m_ref1 m =? rf)
  | None => 0
  end.
Definition count_refs (rf : Z) (f : frame) (r c : Z) : res Z :=
  a <- get_above_mi f r c ;;
  l <- get_left_mi f r c ;;
  Ok (refs_of a rf + refs_of l rf).

(** common.rs 70-74. *)
Definition ref_count_ctx (c0 c1 : Z) : Z := if c0 <? c1 then 0 else if c0 =? c1 then 1 else 2.

(** Sum of [count_refs] over some reference frames. *)
Fixpoint count_all (rfs : list Z) (f : frame) (r c : Z) : res Z :=
  match rfs with
  | [] => Ok 0
  | rf :: l => n <- count_refs rf f r c ;; m <- count_all l f r c ;; Ok (n + m)
  end.

(** common.rs 182-188. *)
Definition is_samedir_ref_pair (r0 r1 : Z) : bool :=
  if (r0 <=? 0) || (r1 <=? 0) then false else Bool.eqb (BWDREF_FRAME <=? r0) (BWDREF_FRAME <=? r1).

(** common.rs 76-97 and constants.rs 1259-1264. *)
Definition TX_SET_DCTONLY := 0.
Definition TX_SET_INTRA_1 := 1.
Definition TX_SET_INTRA_2 := 2.
Definition TX_SET_INTER_1 := 0.
Definition TX_SET_INTER_2 := 1.
Definition TX_SET_INTER_3 := 2.
Definition TX_16X16 := 2.
Definition TX_32X32 := 3.
Definition get_tx_set (tx_size : Z) (is_inter reduced : bool) : res Z :=
  sqr <- idx tx_size_sqr tx_size ;;
  up <- idx tx_size_sqr_up tx_size ;;
  if TX_32X32 <? up then Ok TX_SET_DCTONLY
  else if is_inter then
    if reduced || (up =? TX_32X32) then Ok TX_SET_INTER_3
    else if sqr =? TX_16X16 then Ok TX_SET_INTER_2 else Ok TX_SET_INTER_1
  else
    if up =? TX_32X32 then Ok TX_SET_DCTONLY
    else if reduced then Ok TX_SET_INTRA_2
    else if sqr =? TX_16X16 then Ok TX_SET_INTRA_2 else Ok TX_SET_INTRA_1.

(** common.rs 99-103. *)
Definition is_tx_type_in_set (tx_set tx_type : Z) (is_inter : bool) : res bool :=
  b <- idx2 (if is_inter then tx_type_in_set_inter else tx_type_in_set_intra) tx_set tx_type ;;
  Ok (b =? 1).

(** common.rs 105-137. *)
Definition DCT_DCT := 0.
Definition compute_tx_type (plane tx_size block_x block_y : Z) (f : frame) (lossless is_inter reduced : bool)
    (uv_mode r c : Z) : res Z :=
  up <- idx tx_size_sqr_up tx_size ;;
  if lossless || (TX_32X32 <? up) then Ok DCT_DCT
  else
    tx_set <- get_tx_set tx_size is_inter reduced ;;
    tx_type <-
      (if plane =? 0 then m <- get_mi f r c ;; m <- unwrap m ;; Ok (m_tx_type m)
       else if is_inter then
         let x4 := Z.max c (Z.shiftl block_x (b2z (f_subx f))) in
         let y4 := Z.max r (Z.shiftl block_y (b2z (f_suby f))) in
         m <- get_mi f y4 x4 ;; m <- unwrap m ;; Ok (m_tx_type m)
       else idx mode_to_txfm uv_mode) ;;
    b <- is_tx_type_in_set tx_set tx_type is_inter ;;
    Ok (if b then tx_type else DCT_DCT).

(** common.rs 139-145: V_DCT 10, H_DCT 11, V_ADST 12, H_ADST 13, V_FLIPADST 14, H_FLIPADST 15. *)
Definition TX_CLASS_2D := 0.
Definition TX_CLASS_HORIZ := 1.
Definition TX_CLASS_VERT := 2.
Definition get_tx_class (tx_type : Z) : Z :=
  if (tx_type =? 10) || (tx_type =? 12) || (tx_type =? 14) then TX_CLASS_VERT
  else if (tx_type =? 11) || (tx_type =? 13) || (tx_type =? 15) then TX_CLASS_HORIZ
  else TX_CLASS_2D.

Definition abs_i64 (v : Z) : res Z := if 0 <=? v then Ok v else chk_i64 (- v).

(** common.rs 160-166 (bool_coder.rs 1030-1036): the sum over the neighbouring
    coefficients given by [offs]; [weight] is what one coefficient adds. *)
Fixpoint sum_mag (offs : list (list Z)) (row col bwl width height : Z) (quant : list Z) (weight : Z -> res Z) (mag : Z)
  : res Z :=
  match offs with
  | [] => Ok mag
  | o :: offs =>
      dr <- idx o 0 ;; dc <- idx o 1 ;;
      let ref_row := row + dr in let ref_col := col + dc in
      if (ref_row <? height) && (ref_col <? width) then
        q <- idx quant (Z.shiftl ref_row bwl + ref_col) ;;
        w <- weight q ;;
        sum_mag offs row col bwl width height quant weight (mag + w)
      else sum_mag offs row col bwl width height quant weight mag
  end.

(** common.rs 147-180. The transform type is computed in every case. *)
Definition SIG_COEF_CONTEXTS := 42.
Definition SIG_COEF_CONTEXTS_EOB := 4.
Definition base_ctx (tx_size tx_type pos c : Z) (is_eob : bool) (quant : list Z) : res Z :=
  adj <- idx adjusted_tx_size tx_size ;;
  bwl <- idx tx_width_log2 adj ;;
  let width := Z.shiftl 1 bwl in
  height <- idx tx_height adj ;;
  if is_eob then
    if c =? 0 then Ok (SIG_COEF_CONTEXTS - 4)
    else if c <=? Z.shiftl height bwl / 8 then Ok (SIG_COEF_CONTEXTS - 3)
    else if c <=? Z.shiftl height bwl / 4 then Ok (SIG_COEF_CONTEXTS - 2)
    else Ok (SIG_COEF_CONTEXTS - 1)
  else
    let tx_class := get_tx_class tx_type in
    let row := Z.shiftr pos bwl in
    let col := pos - Z.shiftl row bwl in
    offs <- idx sig_ref_diff_offset tx_class ;;
    mag <- sum_mag offs row col bwl width height quant (fun q => a <- abs_i64 q ;; Ok (Z.min a 3)) 0 ;;
    let ctx := Z.min (Z.shiftr (mag + 1) 1) 4 in
    if tx_class =? TX_CLASS_2D then
      if (row =? 0) && (col =? 0) then Ok 0
      else o <- idx3 coeff_base_ctx_offset tx_size (Z.min row 4) (Z.min col 4) ;; Ok (ctx + o)
    else
      let i := if tx_class =? TX_CLASS_VERT then row else col in
      o <- idx coeff_base_pos_ctx_offset (Z.min i 2) ;;
      Ok (ctx + o).

Definition get_coeff_base_ctx (tx_size plane block_x block_y pos c : Z) (is_eob : bool) (f : frame)
    (lossless is_inter reduced : bool) (uv_mode r col : Z) (quant : list Z) : res Z :=
  tx_type <- compute_tx_type plane tx_size block_x block_y f lossless is_inter reduced uv_mode r col ;;
  base_ctx tx_size tx_type pos c is_eob quant.

(** ** Writers. [s] is the symbol; [f], [r], [c] are frame, mi_row, mi_col. *)

(** bool_coder.rs 387-395. *)
Definition encode_intra_frame_y_mode (s above_mode left_mode : Z) : wr :=
  am <- idx intra_mode_context above_mode ;;
  lm <- idx intra_mode_context left_mode ;;
  Ok ("intra_frame_y_mode", [am; lm], s).

(** bool_coder.rs 397-401. *)
Definition encode_y_mode (s mi_size : Z) : wr := ctx <- idx size_group mi_size ;; Ok ("y_mode", [ctx], s).

(** bool_coder.rs 403-412. *)
Definition BLOCK_4X4 := 0.
Definition encode_uv_mode (s mi_size : Z) (lossless subx suby : bool) : wr :=
  cfl4 <- (if lossless then z <- get_plane_residual_size mi_size 1 subx suby ;; Ok (z =? BLOCK_4X4) else Ok false) ;;
  if cfl4 then Ok ("uv_mode_cfl_allowed", [s], s)
  else
    small <- (if negb lossless then w <- idx block_width mi_size ;; h <- idx block_height mi_size ;; Ok (Z.max w h <=? 32)
              else Ok false) ;;
    Ok ((if small then "uv_mode_cfl_allowed" else "uv_mode_cfl_not_allowed"), [s], s).

(** bool_coder.rs 414-422, [encode_angle_delta_y] and [encode_angle_delta_uv]. *)
Definition V_PRED := 1.
Definition encode_angle_delta (s mode : Z) : wr := i <- chk_u64 (mode - V_PRED) ;; Ok ("angle_delta", [i], s).

(** bool_coder.rs 493-523. *)
Definition depth_above (m : option mi) : res Z :=
  match m with
  | Some m => if m_is_inter m then idx block_width (m_size m) else idx tx_width (m_tx_size m)
  | None => Ok 0
  end.
Definition depth_left (m : option mi) : res Z :=
  match m with
  | Some m => if m_is_inter m then idx block_width (m_size m) else idx tx_height (m_tx_size m)
  | None => Ok 0
  end.
Definition encode_tx_depth (s max_rect_tx_size max_tx_depth : Z) (f : frame) (r c : Z) : wr :=
  w <- idx tx_width max_rect_tx_size ;;
  h <- idx tx_height max_rect_tx_size ;;
  a <- get_above_mi f r c ;; above_w <- depth_above a ;;
  l <- get_left_mi f r c ;; left_h <- depth_left l ;;
  let ctx := b2z (w <=? above_w) + b2z (h <=? left_h) in
  Ok ((if max_tx_depth =? 4 then "tx_64x64" else if max_tx_depth =? 3 then "tx_32x32"
       else if max_tx_depth =? 2 then "tx_16x16" else "tx_8x8"), [ctx], s).

(** bool_coder.rs 525-548; [row], [col] are the transform block, [r], [c] the block. *)
Definition split_size (m : option mi) : res Z :=
  match m with
  | Some m => if m_skip m && m_is_inter m then idx block_width (m_size m) else idx tx_width (m_tx_size m)
  | None => Ok 64
  end.
Definition TX_SIZES := 5.
Definition TX_8X8 := 1.
Definition encode_txfm_split (s row col r c : Z) (f : frame) (tx_size mi_size : Z) : wr :=
  above <- (if row =? r then a <- get_above_mi f row col ;; split_size a
            else a <- get_above_mi f row col ;; a <- unwrap a ;; idx tx_width (m_tx_size a)) ;;
  left <- (if col =? c then l <- get_left_mi f row col ;; split_size l
           else a <- get_above_mi f row col ;; a <- unwrap a ;; idx tx_width (m_tx_size a)) ;;
  w <- idx block_width mi_size ;; h <- idx block_height mi_size ;;
  let size := Z.min 64 (Z.max w h) in
  max_tx <- find_tx_size size size ;;
  up <- idx tx_size_sqr_up tx_size ;;
  rest <- chk_u64 (TX_SIZES - 1 - max_tx) ;;
  Ok ("txfm_split", [b2z (negb (up =? max_tx) && (TX_8X8 <? max_tx)) * 3 + rest * 6 + above + left], s).

(** bool_coder.rs 550-560. *)
Definition encode_segment_id (s prev_u prev_l prev_ul : Z) : wr :=
  let ctx :=
    if (prev_ul <? 0) || (prev_u <? 0) || (prev_l <? 0) then 0
    else if (prev_ul =? prev_u) && (prev_ul =? prev_l) then 2
    else if (prev_ul =? prev_u) || (prev_ul =? prev_l) || (prev_u =? prev_l) then 1 else 0 in
  Ok ("segment_id", [ctx], s).

(** Contexts that add one number per neighbour. *)
Definition nb_sum (g : mi -> Z) (f : frame) (r c : Z) : res Z :=
  a <- get_above_mi f r c ;; l <- get_left_mi f r c ;;
  Ok (match a with Some m => g m | None => 0 end + match l with Some m => g m | None => 0 end).

(** bool_coder.rs 562-572. *)
Definition encode_seg_id_predicted (s : Z) (f : frame) (r c : Z) : wr :=
  ctx <- nb_sum m_seg_id_predicted f r c ;; Ok ("segment_id_predicted", [ctx], s).

(** bool_coder.rs 574-592. *)
Definition encode_new_mv (s ctx : Z) : wr := Ok ("new_mv", [ctx], s).
Definition encode_zero_mv (s ctx : Z) : wr := Ok ("zero_mv", [ctx], s).
Definition encode_ref_mv (s ctx : Z) : wr := Ok ("ref_mv", [ctx], s).
Definition encode_drl_mode (s i : Z) (drl_ctx_stack : list Z) : wr := ctx <- idx drl_ctx_stack i ;; Ok ("drl_mode", [ctx], s).

(** bool_coder.rs 594-603. *)
Definition encode_is_inter (s : bool) (f : frame) (r c : Z) : wr :=
  l <- get_left_mi f r c ;; a <- get_above_mi f r c ;;
  let ctx :=
    match l, a with
    | Some l, Some u => if m_intra l && m_intra u then 3 else b2z (m_intra l || m_intra u)
    | Some l, None => 2 * b2z (m_intra l)
    | None, Some u => 2 * b2z (m_intra u)
    | None, None => 0
    end in
  Ok ("is_inter", [ctx], b2z s).

(** bool_coder.rs 605-613. *)
Definition encode_use_filter_intra (s mi_size : Z) : wr := Ok ("filter_intra", [mi_size], s).
Definition encode_filter_intra_mode (s : Z) : wr := Ok ("filter_intra_mode", [], s).

(** bool_coder.rs 615-630. *)
Definition comp_mode_ctx (a l : option mi) : Z :=
  match a, l with
  | Some u, Some l =>
      if m_single u && m_single l then b2z (xorb (check_backward (m_ref0 u)) (check_backward (m_ref0 l)))
      else if m_single u then 2 + b2z (check_backward (m_ref0 u) || m_intra u)
      else if m_single l then 2 + b2z (check_backward (m_ref0 l) || m_intra l)
      else 4
  | Some u, None => if m_single u then b2z (check_backward (m_ref0 u)) else 3
  | None, Some l => if m_single l then b2z (check_backward (m_ref0 l)) else 3
  | None, None => 1
  end.
Definition encode_comp_mode (s : Z) (f : frame) (r c : Z) : wr :=
  a <- get_above_mi f r c ;; l <- get_left_mi f r c ;; Ok ("comp_mode", [comp_mode_ctx a l], s).

(** bool_coder.rs 632-654. *)
Definition encode_skip_mode (s : Z) (f : frame) (r c : Z) : wr :=
  ctx <- nb_sum m_skip_mode f r c ;; Ok ("skip_mode", [ctx], s).
Definition encode_skip (s : Z) (f : frame) (r c : Z) : wr :=
  ctx <- nb_sum (fun m => b2z (m_skip m)) f r c ;; Ok ("skip", [ctx], s).

(** bool_coder.rs 656-747 and 1200-1227: LAST 1, LAST2 2, LAST3 3, GOLDEN 4, BWDREF 5,
    ALTREF2 6, ALTREF 7. *)
Definition count_ctx (g0 g1 : list Z) (name : string) (i s : Z) (f : frame) (r c : Z) : wr :=
  n0 <- count_all g0 f r c ;; n1 <- count_all g1 f r c ;; Ok (name, [ref_count_ctx n0 n1; i], s).
Definition encode_comp_ref := count_ctx [1; 2] [3; 4] "comp_ref" 0.
Definition encode_comp_ref_p1 := count_ctx [1] [2] "comp_ref" 1.
Definition encode_comp_ref_p2 := count_ctx [3] [4] "comp_ref" 2.
Definition encode_comp_bwdref := count_ctx [5; 6] [7] "comp_bwd_ref" 0.
Definition encode_comp_bwdref_p1 := count_ctx [5] [6] "comp_bwd_ref" 1.
Definition encode_single_ref_p1 := count_ctx [1; 2; 3; 4] [5; 6; 7] "single_ref" 0.
Definition encode_single_ref_p2 := count_ctx [5; 6] [7] "single_ref" 1.
Definition encode_single_ref_p3 := count_ctx [1; 2] [3; 4] "single_ref" 2.
Definition encode_single_ref_p4 := count_ctx [1] [2] "single_ref" 3.
Definition encode_single_ref_p5 := count_ctx [3] [4] "single_ref" 4.
Definition encode_single_ref_p6 := count_ctx [5] [6] "single_ref" 5.
Definition encode_uni_comp_ref := count_ctx [1; 2; 3; 4] [5; 6; 7] "uni_comp_ref" 0.
Definition encode_uni_comp_ref_p1 := count_ctx [2] [3; 4] "uni_comp_ref" 1.
Definition encode_uni_comp_ref_p2 := count_ctx [3] [4] "uni_comp_ref" 2.

(** bool_coder.rs 749-758. *)
Definition compound_mode_ctx_map : list (list Z) := [[0; 1; 1; 1; 1]; [1; 2; 3; 4; 4]; [4; 4; 5; 6; 7]].
Definition encode_compound_mode (s ref_mv_context new_mv_context : Z) : wr :=
  ctx <- idx2 compound_mode_ctx_map (Z.shiftr ref_mv_context 1) (Z.min new_mv_context 4) ;;
  Ok ("compound_mode", [ctx], s).

(** bool_coder.rs 760-782. *)
Definition BILINEAR := 3.
Definition filter_type (m : option mi) (ref0 ref1 dir : Z) : res Z :=
  match m with
  | Some m => if (m_ref0 m =? ref0) || (m_ref1 m =? ref1) then idx (m_filter m) dir else Ok BILINEAR
  | None => Ok BILINEAR
  end.
Definition encode_interp_filter (s : Z) (f : frame) (r c dir : Z) : wr :=
  m <- get_mi f r c ;; m <- unwrap m ;;
  let ctx := (Z.land dir 1 * 2 + b2z (0 <? m_ref1 m)) * 4 in
  l <- get_left_mi f r c ;; left_type <- filter_type l (m_ref0 m) (m_ref1 m) dir ;;
  a <- get_above_mi f r c ;; above_type <- filter_type a (m_ref0 m) (m_ref1 m) dir ;;
  Ok ("interp_filter",
      [ctx + (if left_type =? above_type then left_type else if left_type =? BILINEAR then above_type
              else if above_type =? BILINEAR then left_type else BILINEAR)], s).

(** bool_coder.rs 784-832. *)
Definition encode_motion_mode (s mi_size : Z) : wr := Ok ("motion_mode", [mi_size], s).
Definition encode_mv_joint (s mv_ctx : Z) : wr := Ok ("mv_joint", [mv_ctx], s).
Definition encode_mv_sign (s mv_ctx comp : Z) : wr := Ok ("mv_sign", [mv_ctx; comp], s).
Definition encode_mv_class (s mv_ctx comp : Z) : wr := Ok ("mv_class", [mv_ctx; comp], s).
Definition encode_mv_class0_bit (s mv_ctx comp : Z) : wr := Ok ("mv_class0_bit", [mv_ctx; comp], s).
Definition encode_mv_class0_fr (s class0_bit mv_ctx comp : Z) : wr := Ok ("mv_class0_fr", [mv_ctx; comp; class0_bit], s).
Definition encode_mv_class0_hp (s mv_ctx comp : Z) : wr := Ok ("mv_class0_hp", [mv_ctx; comp], s).
Definition encode_mv_fr (s mv_ctx comp : Z) : wr := Ok ("mv_fr", [mv_ctx; comp], s).
Definition encode_mv_hp (s mv_ctx comp : Z) : wr := Ok ("mv_hp", [mv_ctx; comp], s).
Definition encode_mv_bit (s i mv_ctx comp : Z) : wr := Ok ("mv_bit", [mv_ctx; comp; i], s).

(** The loops of bool_coder.rs 850-865, 882-903 and 987-1011: [n] rounds from [k];
    [look] fetches the neighbour's value (the same in every round). *)
Fixpoint nb_loop (n : nat) (k pos limit : Z) (look : res Z) (step : Z -> Z -> Z) (acc : Z) : res Z :=
  match n with
  | O => Ok acc
  | S n' =>
      if pos + k <? limit then v <- look ;; nb_loop n' (k + 1) pos limit look step (step acc v)
      else nb_loop n' (k + 1) pos limit look step acc
  end.
Definition look_level (m : res (option mi)) (plane : Z) : res Z :=
  m <- m ;; match m with Some m => idx (m_level m) plane | None => Ok 0 end.
Definition look_dc (m : res (option mi)) (plane : Z) : res Z :=
  m <- m ;; match m with Some m => idx (m_dc m) plane | None => Ok 0 end.

(** bool_coder.rs 834-911. *)
Definition encode_all_zero (s plane tx_size tx_size_ctx : Z) (f : frame) (mi_size r c w4 h4 x4 y4 : Z) : wr :=
  let max_x4 := if 0 <? plane then Z.shiftr (f_mi_cols f) (b2z (f_subx f)) else f_mi_cols f in
  let max_y4 := if 0 <? plane then Z.shiftr (f_mi_rows f) (b2z (f_suby f)) else f_mi_rows f in
  w <- idx tx_width tx_size ;;
  h <- idx tx_height tx_size ;;
  bsize <- get_plane_residual_size mi_size plane (f_subx f) (f_suby f) ;;
  bw <- idx block_width bsize ;;
  bh <- idx block_height bsize ;;
  ctx <-
    (if plane =? 0 then
       top <- nb_loop (Z.to_nat w4) 0 x4 max_x4 (look_level (get_above_mi f r c) plane) Z.max 0 ;;
       left <- nb_loop (Z.to_nat h4) 0 y4 max_y4 (look_level (get_left_mi f r c) plane) Z.max 0 ;;
       let top := Z.min top 255 in let left := Z.min left 255 in
       Ok (if (bw =? w) && (bh =? h) then 0
           else if (top =? 0) && (left =? 0) then 1
           else if (top =? 0) || (left =? 0) then 2 + b2z (3 <? Z.max top left)
           else if Z.max top left <=? 3 then 4
           else if Z.min top left <=? 3 then 5 else 6)
     else
       above <- nb_loop (Z.to_nat w4) 0 x4 max_x4
                  (a <- look_level (get_above_mi f r c) plane ;; b <- look_dc (get_above_mi f r c) plane ;; Ok (Z.lor a b)) Z.lor 0 ;;
       left <- nb_loop (Z.to_nat h4) 0 y4 max_y4
                  (a <- look_level (get_left_mi f r c) plane ;; b <- look_dc (get_left_mi f r c) plane ;; Ok (Z.lor a b)) Z.lor 0 ;;
       Ok (b2z (negb (above =? 0)) + b2z (negb (left =? 0)) + 7 + (if w * h <? bw * bh then 3 else 0))) ;;
  Ok ("txb_skip", [0; tx_size_ctx; ctx], s).

(** bool_coder.rs 913-960: the seven writers differ in the name of the field. *)
Definition encode_eob_pt (name : string) (s : Z) (f : frame) (r c uv_mode : Z) (lossless is_inter reduced : bool)
    (plane tx_size x4 y4 ptype : Z) : wr :=
  tx_type <- compute_tx_type plane tx_size x4 y4 f lossless is_inter reduced uv_mode r c ;;
  Ok (name, [0; ptype; if get_tx_class tx_type =? TX_CLASS_2D then 0 else 1], s).

(** bool_coder.rs 962-965. *)
Definition encode_eob_extra (s tx_size_ctx ptype eob_pt : Z) : wr := Ok ("eob_extra", [0; tx_size_ctx; ptype; eob_pt], s).

(** bool_coder.rs 967-977. [pos] is scan[c]. The subtraction comes first (usize). *)
Definition encode_coeff_base (s tx_size tx_size_ctx ptype plane x4 y4 pos ci : Z) (f : frame)
    (lossless is_inter reduced : bool) (uv_mode r c : Z) (quant : list Z) : wr :=
  ctx <- get_coeff_base_ctx tx_size plane x4 y4 pos ci false f lossless is_inter reduced uv_mode r c quant ;;
  Ok ("coeff_base", [0; tx_size_ctx; ptype; ctx], s).
Definition encode_coeff_base_eob (s tx_size tx_size_ctx ptype plane x4 y4 pos ci : Z) (f : frame)
    (lossless is_inter reduced : bool) (uv_mode r c : Z) (quant : list Z) : wr :=
  ctx <- get_coeff_base_ctx tx_size plane x4 y4 pos ci true f lossless is_inter reduced uv_mode r c quant ;;
  ctx <- chk_u64 (ctx - SIG_COEF_CONTEXTS) ;;
  ctx <- chk_u64 (ctx + SIG_COEF_CONTEXTS_EOB) ;;
  Ok ("coeff_base_eob", [0; tx_size_ctx; ptype; ctx], s).

(** bool_coder.rs 979-1018. There is no symbol argument: the number that selects the
    context is also coded. *)
Definition dc_step (acc v : Z) : Z := if v =? 1 then acc - 1 else if v =? 2 then acc + 1 else acc.
Definition encode_dc_sign (ptype : Z) (f : frame) (plane r c w4 h4 x4 y4 : Z) : wr :=
  let max_x4 := if 0 <? plane then Z.shiftr (f_mi_cols f) (b2z (f_subx f)) else f_mi_cols f in
  let max_y4 := if 0 <? plane then Z.shiftr (f_mi_rows f) (b2z (f_suby f)) else f_mi_rows f in
  d <- nb_loop (Z.to_nat w4) 0 x4 max_x4 (look_dc (get_above_mi f r c) plane) dc_step 0 ;;
  d <- nb_loop (Z.to_nat h4) 0 y4 max_y4 (look_dc (get_left_mi f r c) plane) dc_step d ;;
  Ok ("dc_sign", [0; ptype; if d <? 0 then 1 else if 0 <? d then 2 else 0], as_i32 d).

(** bool_coder.rs 1020-1061. [quant[..] as usize]: a negative number becomes huge. *)
Definition br_ctx (tx_size tx_type pos : Z) (quant : list Z) : res Z :=
  adj <- idx adjusted_tx_size tx_size ;;
  bwl <- idx tx_width_log2 adj ;;
  txw <- idx tx_width adj ;;
  txh <- idx tx_height adj ;;
  let row := Z.shiftr pos bwl in
  let col := pos - Z.shiftl row bwl in
  let tx_class := get_tx_class tx_type in
  offs <- idx mag_ref_offset_with_tx_class tx_class ;;
  mag <- sum_mag offs row col bwl (Z.shiftl 1 bwl) txh quant (fun q => Ok (Z.min (as_u64 q) 15)) 0 ;;
  let mag := Z.min (Z.shiftr (mag + 1) 1) 6 in
  Ok (if pos =? 0 then mag
      else if tx_class =? 0 then (if (row <? 2) && (col <? 2) then mag + 7 else mag + 14)
      else if tx_class =? 1 then (if col =? 0 then mag + 7 else mag + 14)
      else (if row =? 0 then mag + 7 else mag + 14)).
Definition encode_coeff_br (s : Z) (f : frame) (tx_size_ctx : Z) (lossless is_inter reduced : bool)
    (uv_mode pos ptype tx_size x4 y4 plane : Z) (quant : list Z) (r c : Z) : wr :=
  tx_type <- compute_tx_type plane tx_size x4 y4 f lossless is_inter reduced uv_mode r c ;;
  ctx <- br_ctx tx_size tx_type pos quant ;;
  Ok ("coeff_br", [0; Z.min tx_size_ctx TX_32X32; ptype; ctx], s).

(** bool_coder.rs 1063-1090. *)
Definition palette_on (m : option mi) : res Z :=
  match m with Some m => n <- idx (m_palette m) 0 ;; Ok (b2z (0 <? n)) | None => Ok 0 end.
Definition encode_has_palette_y (s : Z) (f : frame) (r c bsize_ctx : Z) : wr :=
  a <- get_above_mi f r c ;; x <- palette_on a ;;
  l <- get_left_mi f r c ;; y <- palette_on l ;;
  Ok ("palette_y_mode", [bsize_ctx; x + y], s).
Definition encode_has_palette_uv (s palette_size_y : Z) : wr := Ok ("palette_uv_mode", [b2z (0 <? palette_size_y)], s).
Definition encode_palette_size_y_minus_2 (s bsize_ctx : Z) : wr := Ok ("palette_y_size", [bsize_ctx], s).
Definition encode_palette_size_uv_minus_2 (s bsize_ctx : Z) : wr := Ok ("palette_uv_size", [bsize_ctx], s).

(** bool_coder.rs 1092-1120; [assert!(ctx>=0)]. *)
Definition palette_table_y (n : Z) : string :=
  if n =? 2 then "palette_size_2_y_color" else if n =? 3 then "palette_size_3_y_color"
  else if n =? 4 then "palette_size_4_y_color" else if n =? 5 then "palette_size_5_y_color"
  else if n =? 6 then "palette_size_6_y_color" else if n =? 7 then "palette_size_7_y_color"
  else "palette_size_8_y_color".
Definition palette_table_uv (n : Z) : string :=
  if n =? 2 then "palette_size_2_uv_color" else if n =? 3 then "palette_size_3_uv_color"
  else if n =? 4 then "palette_size_4_uv_color" else if n =? 5 then "palette_size_5_uv_color"
  else if n =? 6 then "palette_size_6_uv_color" else if n =? 7 then "palette_size_7_uv_color"
  else "palette_size_8_uv_color".
Definition encode_palette_color (table : Z -> string) (s color_context_hash palette_size : Z) : wr :=
  ctx <- idx palette_color_context color_context_hash ;;
  if ctx <? 0 then Panic else Ok (table palette_size, [ctx], s).
Definition encode_palette_color_idx_y := encode_palette_color palette_table_y.
Definition encode_palette_color_idx_uv := encode_palette_color palette_table_uv.

(** bool_coder.rs 1122-1134. *)
Definition encode_delta_q_abs (s : Z) : wr := Ok ("delta_q", [], s).
Definition encode_delta_lf_abs (s delta_lf_multi i : Z) : wr :=
  if delta_lf_multi =? 0 then Ok ("delta_lf", [], s) else Ok ("delta_lf_multi", [i], s).

(** bool_coder.rs 1136-1157: the symbol is the [TxType] itself. *)
Definition encode_intra_tx_type (tx_type tx_set tx_size : Z) (use_filter_intra : bool) (filter_intra_mode y_mode : Z) : wr :=
  dir <- (if use_filter_intra then idx filter_intra_mode_to_intra_dir filter_intra_mode else Ok y_mode) ;;
  sqr <- idx tx_size_sqr tx_size ;;
  Ok ((if tx_set =? TX_SET_INTRA_1 then "intra_tx_type_set1" else "intra_tx_type_set2"), [sqr; dir], tx_type).
Definition encode_inter_tx_type (tx_type tx_size tx_set : Z) : wr :=
  sqr <- idx tx_size_sqr tx_size ;;
  Ok ((if tx_set =? TX_SET_INTER_1 then "inter_tx_type_set1" else if tx_set =? TX_SET_INTER_2 then "inter_tx_type_set2"
       else "inter_tx_type_set3"), [sqr], tx_type).

(** bool_coder.rs 1159-1198. *)
Definition comp_ref_type_ctx (a l : option mi) : Z :=
  let '(avail_u, above0, above1, above_comp, above_intra) :=
    match a with Some m => (true, m_ref0 m, m_ref1 m, negb (m_intra m) && negb (m_single m), m_intra m)
    | None => (false, 0, 0, false, false) end in
  let '(avail_l, left0, left1, left_comp, left_intra) :=
    match l with Some m => (true, m_ref0 m, m_ref1 m, negb (m_intra m) && negb (m_single m), m_intra m)
    | None => (false, 0, 0, false, false) end in
  let above_uni := above_comp && is_samedir_ref_pair above0 above1 in
  let left_uni := left_comp && is_samedir_ref_pair left0 left1 in
  if avail_u && negb above_intra && avail_l && negb left_intra then
    let samedir := b2z (is_samedir_ref_pair above0 left0) in
    if negb above_comp && negb left_comp then 1 + 2 * samedir
    else if negb above_comp then (if negb left_uni then 1 else 3 + samedir)
    else if negb left_comp then (if negb above_uni then 1 else 3 + samedir)
    else if negb above_uni && negb left_uni then 0
    else if negb above_uni || left_uni then 2
    else 3 + b2z (Bool.eqb (above0 =? BWDREF_FRAME) (left0 =? BWDREF_FRAME))
  else if avail_u && avail_l then
    if above_comp then 1 + 2 * b2z above_uni else if left_comp then 1 + 2 * b2z left_uni else 2
  else if above_comp then 4 * b2z above_uni
  else if left_comp then 4 * b2z left_uni
  else 2.
Definition encode_comp_ref_type (s : Z) (f : frame) (r c : Z) : wr :=
  a <- get_above_mi f r c ;; l <- get_left_mi f r c ;; Ok ("comp_ref_type", [comp_ref_type_ctx a l], s).

(** bool_coder.rs 1229-1240. *)
Definition encode_comp_group_idx (s : Z) (f : frame) (r c : Z) : wr :=
  ctx <- nb_sum (fun m => if negb (m_single m) then m_comp_group_idx m else if m_ref0 m =? ALTREF_FRAME then 3 else 0) f r c ;;
  Ok ("comp_group_idx", [Z.min 5 ctx], s).

(** bool_coder.rs 1242-1263. *)
Definition encode_compound_idx (s : Z) (order_hints : list Z) (order_hint ref0 ref1 : Z) (f : frame) (r c : Z)
    (enable_order_hint : bool) (order_hint_bits : Z) : wr :=
  h0 <- idx order_hints ref0 ;;
  d0 <- get_relative_dist h0 order_hint enable_order_hint order_hint_bits ;; fwd <- abs_i64 d0 ;;
  h1 <- idx order_hints ref1 ;;
  d1 <- get_relative_dist h1 order_hint enable_order_hint order_hint_bits ;; bwd <- abs_i64 d1 ;;
  n <- nb_sum (fun m => if negb (m_single m) then m_compound_idx m else if m_ref0 m =? ALTREF_FRAME then 1 else 0) f r c ;;
  Ok ("compound_idx", [(if fwd =? bwd then 3 else 0) + n], s).

(** bool_coder.rs 1265-1300. *)
Definition encode_compound_type (s mi_size : Z) : wr := Ok ("compound_type", [mi_size], s).
Definition encode_interintra (s mi_size : Z) : wr := ctx <- idx size_group mi_size ;; Ok ("inter_intra", [ctx], s).
Definition encode_interintra_mode (s mi_size : Z) : wr := ctx <- idx size_group mi_size ;; Ok ("inter_intra_mode", [ctx], s).
Definition encode_wedge_index (s mi_size : Z) : wr := Ok ("wedge_index", [mi_size], s).
Definition encode_wedge_interintra (s mi_size : Z) : wr := Ok ("wedge_inter_intra", [mi_size], s).
Definition encode_use_obmc (s mi_size : Z) : wr := Ok ("use_obmc", [mi_size], s).
Definition encode_cfl_alpha_signs (s : Z) : wr := Ok ("cfl_sign", [], s).

(** bool_coder.rs 1302-1312; [assert!(false)] in the else branches. *)
Definition encode_cfl_alpha_u (s signs : Z) : wr := if 2 <=? signs then Ok ("cfl_alpha", [signs - 1], s) else Panic.
Definition encode_cfl_alpha_v (s signs : Z) : wr :=
  if signs mod 3 <? 2 then ctx <- chk_u64 (signs mod 3 * 3 + signs / 3 - 1) ;; Ok ("cfl_alpha", [ctx], s) else Panic.

(** bool_coder.rs 1314-1327. *)
Definition encode_use_wiener (s : Z) : wr := Ok ("use_wiener", [], s).
Definition encode_use_sgrproj (s : Z) : wr := Ok ("use_sgrproj", [], s).
Definition encode_restoration_type (s : Z) : wr := Ok ("restoration_type", [], s).
