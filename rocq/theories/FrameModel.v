(** Model of the frame header writer, /repo/src/obu_encoder.rs 318-1404 (the arm
    [OBU_FRAME_HEADER] of [encode_obu_payload]). The parameter groups from line 817
    on are in FrameParamModel, tile_info (749-816) is in TileModel.

    Simplifications: the fields of [Frame] and [EncoderContext] that the header
    neither reads nor writes are left out; enums are their numbers; the vectors
    tile_col_starts and tile_row_starts appear with their lengths; sums of frame
    sizes in tile_info do not overflow (see TileModel). *)
From Coq Require Import ZArith List Bool.
From Verif Require Import Base UtilModel RangeCoderModel BitCodecModel SessionModel SeqModel ElementModel TileModel FrameParamModel.
Import ListNotations.
Open Scope Z_scope.

(** constants.rs 79-84, 450-451, 464-466. *)
Definition KEY_FRAME := 0.
Definition INTER_FRAME := 1.
Definition INTRA_ONLY_FRAME := 2.
Definition SWITCH_FRAME := 3.
Definition SELECT_SCREEN_CONTENT_TOOLS := 2.
Definition SELECT_INTEGER_MV := 2.
Definition SUPERRES_NUM := 8.
Definition SUPERRES_DENOM_MIN := 9.
Definition SUPERRES_DENOM_BITS := 3.
Definition SWITCHABLE := 4.

(** sequence_header.rs 44-53: the fields of the frame's decoder model info that are
    used here. *)
Record fdm : Type := mkFDM { fm_removal : Z; fm_removal_len : Z; fm_present : bool; fm_presentation_len : Z }.

(** frame.rs 176-237, struct [Frame]. *)
Record frm : Type := mkFrm {
  f_w : Z; f_h : Z; f_rw : Z; f_rh : Z; f_type : Z; f_tile_cols : Z; f_tile_rows : Z;
  f_dm : option fdm; f_tpi : option Z; f_display_id : option Z; f_err : bool;
  f_sct : Z; f_imv : Z; f_hp : bool; f_ref_mvs : bool; f_hint : Z; f_primary : Z; f_intrabc : bool;
  f_ref_hint : list Z; f_use_superres : bool; f_short : bool; f_last_idx : Z; f_gold_idx : Z;
  f_ref_idx : list Z; f_delta_id : list Z; f_switchable : bool; f_interp : Z; f_motion : bool;
  f_uniform : bool; f_quant : quant; f_seg : segp; f_delta : deltap; f_lf : lfp; f_cdef : cdefp; f_lr : lrp;
  f_tx_select : bool; f_select : bool; f_skip_mode : bool; f_warped : bool; f_reduced_tx : bool; f_gm : gmp }.

(** encoder.rs 11-86, struct [EncoderContext], and of [OBUEncoder]
    (obu_encoder.rs 30-41) the fields order_hint_bits ([c_obu_bits]) and id_len. *)
Record ctx : Type := mkCtx {
  c_seen : bool; c_ids : bool; c_add_len : Z; c_delta_len : Z; c_reduced : bool; c_existing : bool; c_map_idx : Z;
  c_timing : option timing; c_show : bool; c_showable : bool; c_intra : bool; c_refresh : Z;
  c_ref_type : list Z; c_ref_valid : list bool; c_ref_id : list Z; c_ref_hint : list Z;
  c_order_hints : list Z; c_expected : list Z; c_sign_bias : list Z;
  c_no_update : bool; c_sct : Z; c_imv : Z; c_prev_id : Z; c_cur_id : Z; c_override : bool;
  c_opm : list op_model; c_tid : Z; c_sid : Z; c_enable_hint : bool; c_denom : Z; c_up : Z; c_superres : bool;
  c_ref_mvs : bool; c_bits : Z; c_sb128 : bool; c_col_starts : list Z; c_row_starts : list Z;
  c_update_tile : Z; c_size_bytes : Z; c_dq : dq5; c_planes : Z; c_mono : bool; c_ssx : bool; c_ssy : bool; c_sep : bool;
  c_pre_skip : bool; c_last_seg : Z; c_coded_lossless : bool; c_all_lossless : bool; c_lossless : list bool;
  c_qm : list (list Z); c_cur_q : Z; c_lr : lrc; c_restoration : bool; c_tx_mode : Z;
  c_skip_allowed : bool; c_skip_frames : Z * Z; c_warped : bool; c_no_end : bool;
  c_gm_type : list Z; c_gm : list (list Z); c_prev_gm : list (list Z); c_grain : option grain; c_ref_grain : list grain;
  c_obu_bits : Z; c_id_len : Z }.

(** [if let Some(ti) = ecx.timing_info { ti.equal_picture_interval } else { false }]. *)
Definition equal_interval (t : option timing) : bool := match t with Some t => ti_equal t | None => false end.

(** obu_encoder.rs 339-349 and 368-378: temporal point info. *)
Definition enc_point (out : list Z) (c : ctx) (f : frm) : res (list Z) :=
  match f_dm f with
  | None => Ok out
  | Some d =>
      if equal_interval (c_timing c) then Ok out
      else match f_tpi f with
           | Some t => push_bits_with_size out t (fm_presentation_len d)
           | None => Panic
           end
  end.

(** obu_encoder.rs 322-365: the identifier length, and a frame that is shown again.
    Returns the output, the new refresh_frame_flags and the new frame type. *)
Definition id_length (c : ctx) : res Z :=
  if c_ids c then
    a <- chk_u64 (c_add_len c - 1) ;;
    d <- chk_u64 (c_delta_len c - 2) ;;
    s <- chk_u64 (a + d) ;;
    chk_u64 (s + 3)
  else Ok (c_id_len c).
Definition enc_existing (out : list Z) (id_len : Z) (c : ctx) (f : frm) : res (list Z * Z * Z) :=
  out <- push_bits_with_size out (c_map_idx c) 3 ;;
  out <- enc_point out c f ;;
  out <- (if c_ids c then
            match f_display_id f with
            | Some i => push_bits_with_size out i (as_u8 id_len)
            | None => Panic
            end
          else Ok out) ;;
  t <- idx (c_ref_type c) (c_map_idx c) ;;
  Ok (out, if t =? KEY_FRAME then 255 else 0, t).

(** obu_encoder.rs 366-391: type of the frame, show_frame, showable_frame and
    error_resilient_mode. [t_*] are the new values. *)
Record top : Type := mkTop { t_type : Z; t_intra : bool; t_show : bool; t_showable : bool; t_err : bool }.
Definition enc_top (out : list Z) (c : ctx) (f : frm) : res (list Z * top) :=
  if c_reduced c then Ok (out, mkTop KEY_FRAME true true false (f_err f))
  else
    out <- push_bits_with_size out (f_type f) 2 ;;
    let intra := (f_type f =? INTRA_ONLY_FRAME) || (f_type f =? KEY_FRAME) in
    let out := pbit out (c_show c) in
    out <- (if c_show c then enc_point out c f else Ok out) ;;
    let '(out, showable) := if c_show c then (out, false) else (pbit out (c_showable c), c_showable c) in
    let '(out, err) := if (f_type f =? SWITCH_FRAME) || ((f_type f =? KEY_FRAME) && c_show c) then (out, false)
                       else (pbit out (f_err f), f_err f) in
    Ok (out, mkTop (f_type f) intra (c_show c) showable err).

(** obu_encoder.rs 393-401: the references are forgotten at a shown key frame.
    [order_hints[LAST_FRAME + i]] is an index of up to 7 into an array of 7. *)
Definition put_all {A : Type} (v : list A) (is : list Z) (x : A) : res (list A) :=
  fold_left (fun acc i => v <- acc ;; put v i x) is (Ok v).
Definition reset_refs (c : ctx) (t : top) : res (list bool * list Z * list Z) :=
  if (t_type t =? KEY_FRAME) && t_show t then
    valid <- put_all (c_ref_valid c) (map Z.of_nat (upto NUM_REF_FRAMES)) false ;;
    hint <- put_all (c_ref_hint c) (map Z.of_nat (upto NUM_REF_FRAMES)) 0 ;;
    hints <- put_all (c_order_hints c) (map (fun i => 1 + Z.of_nat i) (upto REFS_PER_FRAME)) 0 ;;
    Ok (valid, hint, hints)
  else Ok (c_ref_valid c, c_ref_hint c, c_order_hints c).

(** obu_encoder.rs 402-418: disable_cdf_update, screen content tools, integer
    vectors. Returns (allow_screen_content_tools, force_integer_mv). *)
Definition enc_tools2 (out : list Z) (c : ctx) (f : frm) (intra : bool) : list Z * Z * Z :=
  let out := pbit out (c_no_update c) in
  let '(out, sct) := if c_sct c =? SELECT_SCREEN_CONTENT_TOOLS then (push out (as_u8 (f_sct f)), f_sct f) else (out, c_sct c) in
  let '(out, imv) :=
    if 0 <? sct then
      if c_imv c =? SELECT_INTEGER_MV then (push out (as_u8 (f_imv f)), f_imv f) else (out, c_imv c)
    else (out, 0) in
  (out, sct, if intra then 1 else imv).

(** obu_encoder.rs 424-435: mark_ref_frames. *)
Fixpoint mark_refs (is : list nat) (cur id_len diff : Z) (ids : list Z) (valid : list bool) : res (list bool) :=
  match is with
  | [] => Ok valid
  | i :: is =>
      _ <- shift_ok 64 diff ;;
      let d := as_u64 (Z.shiftl 1 diff) in
      r <- idx ids (Z.of_nat i) ;;
      bad <- (if d <? cur then Ok ((cur <? r) || (r <? cur - d))
              else if cur <? r then
                _ <- shift_ok 64 id_len ;;
                s <- chk_u64 (as_u64 (Z.shiftl 1 id_len) + cur) ;;
                s <- chk_u64 (s - d) ;;
                Ok (r <? s)
              else Ok false) ;;
      valid <- (if (bad : bool) then put valid (Z.of_nat i) false else Ok valid) ;;
      mark_refs is cur id_len diff ids valid
  end.
(** obu_encoder.rs 419-438. Returns the output, prev_frame_id, current_frame_id and
    ref_valid. *)
Definition enc_ids (out : list Z) (id_len : Z) (c : ctx) (valid : list bool) : res (list Z * Z * Z * list bool) :=
  if c_ids c then
    out <- push_bits_with_size out (as_u32 (c_cur_id c)) (as_u8 id_len) ;;
    valid <- mark_refs (upto NUM_REF_FRAMES) (c_cur_id c) id_len (c_delta_len c) (c_ref_id c) valid ;;
    Ok (out, c_cur_id c, c_cur_id c, valid)
  else Ok (out, c_prev_id c, 0, valid).

(** obu_encoder.rs 439-452: frame size override, order hint, primary reference. *)
Definition enc_override (out : list Z) (c : ctx) (t : top) : list Z * bool :=
  if t_type t =? SWITCH_FRAME then (out, true)
  else if c_reduced c then (out, false)
  else (pbit out (c_override c), c_override c).
Definition enc_primary (out : list Z) (f : frm) (t : top) : res (list Z * Z) :=
  if t_intra t || t_err t then Ok (out, PRIMARY_REF_NONE)
  else out <- push_bits_with_size out (f_primary f) 3 ;; Ok (out, f_primary f).

(** obu_encoder.rs 453-467: buffer removal delays; [op.idc] is a u16. *)
Fixpoint enc_removal_loop (out : list Z) (l : list op_model) (tid sid : Z) (d : fdm) : res (list Z) :=
  match l with
  | [] => Ok out
  | o :: l =>
      let idc := opm_idc o in
      _ <- shift_ok 16 tid ;;
      let in_t := 0 <? Z.land (Z.shiftr idc tid) 1 in
      s8 <- chk_u64 (sid + 8) ;;
      _ <- shift_ok 16 s8 ;;
      let in_s := 0 <? Z.land (Z.shiftr idc s8) 1 in
      out <- (if (idc =? 0) || (in_t && in_s) then push_bits_with_size out (as_u32 (fm_removal d)) (fm_removal_len d) else Ok out) ;;
      enc_removal_loop out l tid sid d
  end.
Definition enc_removal (out : list Z) (c : ctx) (f : frm) : res (list Z) :=
  match f_dm f with
  | None => Ok out
  | Some d =>
      let out := pbit out (fm_present d) in
      if fm_present d then enc_removal_loop out (c_opm c) (c_tid c) (c_sid c) d else Ok out
  end.

(** obu_encoder.rs 471-475. *)
Definition enc_refresh (out : list Z) (c : ctx) (t : top) : res (list Z * Z) :=
  if (t_type t =? SWITCH_FRAME) || ((t_type t =? KEY_FRAME) && t_show t) then Ok (out, 255)
  else out <- push_bits_with_size out (c_refresh c) 8 ;; Ok (out, c_refresh c).
(** obu_encoder.rs 476-484: nothing is written. *)
Fixpoint compare_hints (is : list nat) (a b : list Z) (valid : list bool) : res (list bool) :=
  match is with
  | [] => Ok valid
  | i :: is =>
      x <- idx a (Z.of_nat i) ;;
      y <- idx b (Z.of_nat i) ;;
      valid <- (if negb (x =? y) then put valid (Z.of_nat i) false else Ok valid) ;;
      compare_hints is a b valid
  end.
Definition check_hints (c : ctx) (f : frm) (t : top) (refresh : Z) (hint : list Z) (valid : list bool) : res (list bool) :=
  if (negb (t_intra t) || negb (refresh =? 255)) && t_err t && c_enable_hint c
  then compare_hints (upto NUM_REF_FRAMES) (f_ref_hint f) hint valid else Ok valid.

(** Sizes: (frame width and height, render width and height, use_superres,
    superres_denom, upscaled_width). *)
Record dims : Type := mkDims { m_w : Z; m_h : Z; m_rw : Z; m_rh : Z; m_use : bool; m_denom : Z; m_up : Z }.

(** obu_encoder.rs 486-494 (also 524-532, 592-600, 651-659): frame_size. *)
Definition enc_frame_size (out : list Z) (override : bool) (d : dims) : res (list Z) :=
  if override then
    w1 <- chk_u64 (m_w d - 1) ;;
    nw <- msb16 (as_u16 w1) ;;
    h1 <- chk_u64 (m_h d - 1) ;;
    nh <- msb16 (as_u16 h1) ;;
    out <- push_bits_with_size out (as_u32 w1) nw ;;
    push_bits_with_size out (as_u32 h1) nh
  else Ok out.
(** obu_encoder.rs 495-509 (also 533-547, 601-615, 630-643, 660-674). *)
Definition enc_superres (out : list Z) (enable : bool) (d : dims) : res (list Z * dims) :=
  let '(out, use) := if enable then (pbit out (m_use d), m_use d) else (out, false) in
  '(out, denom) <-
    (if use then
       k <- chk_u64 (m_denom d - SUPERRES_DENOM_MIN) ;;
       out <- push_bits_with_size out (as_u32 k) SUPERRES_DENOM_BITS ;;
       Ok (out, m_denom d)
     else Ok (out, SUPERRES_NUM)) ;;
  a <- chk_u64 (m_w d * SUPERRES_NUM) ;;
  b <- chk_u64 (a + denom / 2) ;;
  Ok (out, mkDims (b / denom) (m_h d) (m_rw d) (m_rh d) use denom (m_w d)).
(** obu_encoder.rs 511-520 (also 549-558, 617-626, 676-685). *)
Definition enc_render (out : list Z) (d : dims) : res (list Z * dims) :=
  let differ := negb (m_w d =? m_rw d) || negb (m_h d =? m_rh d) in
  let out := pbit out differ in
  if differ then
    w1 <- chk_u64 (m_rw d - 1) ;;
    out <- push_bits_with_size out (as_u32 w1) 16 ;;
    h1 <- chk_u64 (m_rh d - 1) ;;
    out <- push_bits_with_size out (as_u32 h1) 16 ;;
    Ok (out, d)
  else Ok (out, mkDims (m_w d) (m_h d) (m_up d) (m_h d) (m_use d) (m_denom d) (m_up d)).
Definition enc_sizes (out : list Z) (override enable : bool) (d : dims) : res (list Z * dims) :=
  out <- enc_frame_size out override d ;;
  '(out, d) <- enc_superres out enable d ;;
  enc_render out d.

(** obu_encoder.rs 575-585: the references of an inter frame. *)
Fixpoint enc_refs (out : list Z) (is : list nat) (short : bool) (id_len cur : Z) (c : ctx) (f : frm) (expected : list Z)
  : res (list Z * list Z) :=
  match is with
  | [] => Ok (out, expected)
  | i :: is =>
      out <- (if negb short then r <- idx (f_ref_idx f) (Z.of_nat i) ;; push_bits_with_size out r 3 else Ok out) ;;
      '(out, expected) <-
        (if c_ids c then
           d <- idx (f_delta_id f) (Z.of_nat i) ;;
           d1 <- chk_u64 (d - 1) ;;
           out <- push_bits_with_size out (as_u32 d1) (as_u8 (c_delta_len c)) ;;
           _ <- shift_ok 64 id_len ;;
           let m := as_u64 (Z.shiftl 1 id_len) in
           s <- chk_u64 (cur + m) ;;
           s <- chk_u64 (s - d) ;;
           expected <- put expected (Z.of_nat i) (s mod m) ;;
           Ok (out, expected)
         else Ok (out, expected)) ;;
      enc_refs out is short id_len cur c f expected
  end.

(** obu_encoder.rs 485-706: what depends on the type of the frame. The fields
    allow_high_precision_mv, use_ref_frame_mvs and allow_intrabc have been set to
    [false] in 468-470 and are written as such. *)
Record mid : Type := mkMid { i_dims : dims; i_short : bool; i_expected : list Z; i_interp : Z }.
Definition enc_mid (out : list Z) (id_len cur sct imv : Z) (override : bool) (c : ctx) (f : frm) (t : top) : res (list Z * mid) :=
  let d := mkDims (f_w f) (f_h f) (f_rw f) (f_rh f) (f_use_superres f) (c_denom c) (c_up c) in
  if t_type t =? KEY_FRAME then
    '(out, d) <- enc_sizes out override (c_superres c) d ;;
    let out := if 0 <? sct then pbit out false else out in
    Ok (out, mkMid d (f_short f) (c_expected c) (f_interp f))
  else if t_type t =? INTRA_ONLY_FRAME then
    '(out, d) <- enc_sizes out override (c_superres c) d ;;
    let out := if (0 <? sct) && (m_up d =? m_w d) then pbit out false else out in
    Ok (out, mkMid d (f_short f) (c_expected c) (f_interp f))
  else
    '(out, short) <-
      (if negb (c_enable_hint c) then Ok (out, false)
       else
         let out := pbit out (f_short f) in
         if f_short f then
           out <- push_bits_with_size out (f_last_idx f) 3 ;;
           out <- push_bits_with_size out (f_gold_idx f) 3 ;;
           Ok (out, true)
         else Ok (out, false)) ;;
    '(out, expected) <- enc_refs out (upto REFS_PER_FRAME) short id_len cur c f (c_expected c) ;;
    '(out, d) <-
      (if override && negb (t_err t) then enc_superres (push out 1) (c_superres c) d
       else enc_sizes out override (c_superres c) d) ;;
    let out := if 0 <? imv then out else pbit out false in
    let out := pbit out (f_switchable f) in
    '(out, interp) <-
      (if f_switchable f then Ok (out, SWITCHABLE)
       else out <- push_bits_with_size out (f_interp f) 2 ;; Ok (out, f_interp f)) ;;
    let out := pbit out (f_motion f) in
    let out := if t_err t || negb (c_ref_mvs c) then out else pbit out false in
    Ok (out, mkMid d short expected interp).

(** obu_encoder.rs 708-732: order hints of the references, on usize. *)
Fixpoint set_order_hints (is : list nat) (c : ctx) (f : frm) (hint hints bias : list Z) : res (list Z * list Z) :=
  match is with
  | [] => Ok (hints, bias)
  | i :: is =>
      r <- idx (f_ref_idx f) (Z.of_nat i) ;;
      h <- idx hint r ;;
      hints <- put hints (1 + Z.of_nat i) h ;;
      b <- (if negb (c_enable_hint c) then Ok 0
            else
              diff <- chk_u64 (h - f_hint f) ;;
              k <- chk_u8 (c_bits c - 1) ;;
              _ <- shift_ok 64 k ;;
              let m := Z.shiftl 1 k in
              chk_u64 (Z.land diff (m - 1) - Z.land diff m)) ;;
      bias <- put bias (1 + Z.of_nat i) b ;;
      set_order_hints is c f hint hints bias
  end.

(** obu_encoder.rs 318-1404. *)
Definition encode_frame_header (out : list Z) (c : ctx) (f : frm) : res (list Z * ctx * frm) :=
  if c_seen c then Ok (out, c, f)
  else
    id_len <- id_length c ;;
    if negb (c_reduced c) && c_existing c then
      '(out, refresh, typ) <- enc_existing (pbit out true) id_len c f ;;
      Ok (out,
        mkCtx true (c_ids c) (c_add_len c) (c_delta_len c) (c_reduced c) true (c_map_idx c)
          (c_timing c) (c_show c) (c_showable c) (c_intra c) refresh
          (c_ref_type c) (c_ref_valid c) (c_ref_id c) (c_ref_hint c) (c_order_hints c) (c_expected c) (c_sign_bias c)
          (c_no_update c) (c_sct c) (c_imv c) (c_prev_id c) (c_cur_id c) (c_override c)
          (c_opm c) (c_tid c) (c_sid c) (c_enable_hint c) (c_denom c) (c_up c) (c_superres c)
          (c_ref_mvs c) (c_bits c) (c_sb128 c) (c_col_starts c) (c_row_starts c)
          (c_update_tile c) (c_size_bytes c) (c_dq c) (c_planes c) (c_mono c) (c_ssx c) (c_ssy c) (c_sep c)
          (c_pre_skip c) (c_last_seg c) (c_coded_lossless c) (c_all_lossless c) (c_lossless c)
          (c_qm c) (c_cur_q c) (c_lr c) (c_restoration c) (c_tx_mode c)
          (c_skip_allowed c) (c_skip_frames c) (c_warped c) (c_no_end c)
          (c_gm_type c) (c_gm c) (c_prev_gm c) (c_grain c) (c_ref_grain c) (c_obu_bits c) id_len,
        mkFrm (f_w f) (f_h f) (f_rw f) (f_rh f) typ (f_tile_cols f) (f_tile_rows f)
          (f_dm f) (f_tpi f) (f_display_id f) (f_err f)
          (f_sct f) (f_imv f) (f_hp f) (f_ref_mvs f) (f_hint f) (f_primary f) (f_intrabc f)
          (f_ref_hint f) (f_use_superres f) (f_short f) (f_last_idx f) (f_gold_idx f)
          (f_ref_idx f) (f_delta_id f) (f_switchable f) (f_interp f) (f_motion f)
          (f_uniform f) (f_quant f) (f_seg f) (f_delta f) (f_lf f) (f_cdef f) (f_lr f)
          (f_tx_select f) (f_select f) (f_skip_mode f) (f_warped f) (f_reduced_tx f) (f_gm f))
    else
      let out := if c_reduced c then out else pbit out false in
      '(out, t) <- enc_top out c f ;;
      '(valid, hint, hints) <- reset_refs c t ;;
      let '(out, sct, imv) := enc_tools2 out c f (t_intra t) in
      '(out, prev_id, cur_id, valid) <- enc_ids out id_len c valid ;;
      let '(out, override) := enc_override out c t in
      out <- push_bits_with_size out (f_hint f) (as_u8 (c_obu_bits c)) ;;
      '(out, primary) <- enc_primary out f t ;;
      out <- enc_removal out c f ;;
      '(out, refresh) <- enc_refresh out c t ;;
      valid <- check_hints c f t refresh hint valid ;;
      '(out, m) <- enc_mid out id_len cur_id sct imv override c f t ;;
      '(hints, bias) <-
        (if negb (t_intra t) then set_order_hints (upto REFS_PER_FRAME) c f hint hints (c_sign_bias c) else Ok (hints, c_sign_bias c)) ;;
      let '(out, no_end) := if c_reduced c || c_no_update c then (out, true) else (pbit out (c_no_end c), c_no_end c) in
      let d := i_dims m in
      '(out, cs, rs) <- encode_tile_info out (2 * Z.shiftr (m_w d + 7) 3) (2 * Z.shiftr (m_h d + 7) 3) (c_sb128 c) (f_uniform f)
                          (f_tile_cols f) (f_tile_rows f) (c_update_tile c) (c_size_bytes c) (c_col_starts c) (c_row_starts c) ;;
      cl <- tiles_log2 (f_tile_cols f) ;;
      rl <- tiles_log2 (f_tile_rows f) ;;
      let update_tile := if (0 <? cl) || (0 <? rl) then c_update_tile c else 0 in
      '(out, q, dq) <- enc_quant out (c_planes c) (c_sep c) (f_quant f) (c_dq c) ;;
      '(out, sg, pre, last) <- enc_seg out primary (f_seg f) ;;
      '(out, dl) <- enc_delta out (q_base q) false (f_delta f) ;;
      '(coded, arr, qm) <- enc_lossless (upto MAX_SEGMENTS) (c_cur_q c) (d_present dl) q dq sg true (c_lossless c) (c_qm c) ;;
      let all := coded && (m_w d =? m_up d) in
      '(out, lf) <- enc_lf out (c_planes c) coded (f_lf f) ;;
      '(out, cd) <- enc_cdef out (c_planes c) coded (f_cdef f) ;;
      '(out, lp, lc) <- enc_lr out (c_planes c) (all || c_restoration c) (c_sb128 c) (c_ssx c && c_ssy c) (f_lr f) (c_lr c) ;;
      let '(out, tx_mode) := if coded then (out, 0) else (pbit out (f_tx_select f), if f_tx_select f then 2 else 1) in
      let '(out, select) := if t_intra t then (out, false) else (pbit out (f_select f), f_select f) in
      skip <- skip_mode (t_intra t) select (c_enable_hint c) (c_bits c) hint (f_ref_idx f) (f_hint f) ;;
      let '(out, skip_present) := if is_some skip then (pbit out (f_skip_mode f), f_skip_mode f) else (out, false) in
      let '(out, warped) := if t_intra t || t_err t || negb (c_warped c) then (out, false) else (pbit out (f_warped f), f_warped f) in
      let out := pbit out (f_reduced_tx f) in
      '(out, gt, gp) <- enc_gm out (t_intra t) false (f_gm f) (c_gm_type c) (c_gm c) (c_prev_gm c) ;;
      '(out, fg) <- enc_grain out (c_grain c) (c_ref_grain c) (t_show t) (t_showable t) (t_type t =? INTER_FRAME) (c_mono c) (c_ssx c && c_ssy c) ;;
      Ok (out,
        mkCtx true (c_ids c) (c_add_len c) (c_delta_len c) (c_reduced c) false (c_map_idx c)
          (c_timing c) (t_show t) (t_showable t) (t_intra t) refresh
          (c_ref_type c) valid (c_ref_id c) hint hints (i_expected m) bias
          (c_no_update c) (c_sct c) (c_imv c) prev_id cur_id override
          (c_opm c) (c_tid c) (c_sid c) (c_enable_hint c) (m_denom d) (m_up d) (c_superres c)
          (c_ref_mvs c) (c_bits c) (c_sb128 c) cs rs
          update_tile (c_size_bytes c) dq (c_planes c) (c_mono c) (c_ssx c) (c_ssy c) (c_sep c)
          pre last coded all arr
          qm (c_cur_q c) lc (c_restoration c) tx_mode
          (is_some skip) (match skip with Some p => p | None => c_skip_frames c end) (c_warped c) no_end
          gt gp (c_prev_gm c) fg (c_ref_grain c) (c_obu_bits c) id_len,
        mkFrm (m_w d) (m_h d) (m_rw d) (m_rh d) (t_type t) (f_tile_cols f) (f_tile_rows f)
          (f_dm f) (f_tpi f) (f_display_id f) (t_err t)
          sct imv false false (f_hint f) primary false
          (f_ref_hint f) (m_use d) (i_short m) (f_last_idx f) (f_gold_idx f)
          (f_ref_idx f) (f_delta_id f) (f_switchable f) (i_interp m) (f_motion f)
          (f_uniform f) q sg dl lf cd lp
          (f_tx_select f) select skip_present warped (f_reduced_tx f) (f_gm f)).
