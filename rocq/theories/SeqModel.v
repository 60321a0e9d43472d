(** Model of the sequence header writer, /repo/src/obu_encoder.rs 93-313, with the
    data it uses from /repo/src/sequence_header.rs and /repo/src/encoder.rs. *)
From Coq Require Import ZArith List Bool.
From Verif Require Import Base UtilModel RangeCoderModel BitCodecModel.
Import ListNotations.
Open Scope Z_scope.

(** sequence_header.rs 5-9. *)
Record operating_point : Type := mkOP { op_idc : Z; op_level : Z; op_tier : option bool }.
(** sequence_header.rs 11-14: (delta_frame_id_length, additional_frame_id_length). *)
Definition frame_id : Type := (Z * Z)%type.
(** sequence_header.rs 16-21: (primaries, transfer, matrix), the enum values of
    constants.rs 15-70. *)
Definition color_desc : Type := (Z * Z * Z)%type.
(** sequence_header.rs 36-42. *)
Record timing : Type := mkTiming { ti_units : Z; ti_scale : Z; ti_equal : bool; ti_ticks : Z }.
(** sequence_header.rs 44-53; the two fields that the sequence header does not
    write (buffer_removal_delay, buffer_removal_delay_present) are left out. *)
Record dec_model : Type := mkDM {
  dm_bitrate_scale : Z; dm_buffer_scale : Z; dm_delay_len : Z; dm_units : Z;
  dm_removal_len : Z; dm_presentation_len : Z }.
(** sequence_header.rs 55-62. *)
Record op_params : Type := mkOPI {
  opi_bitrate : Z; opi_buffer : Z; opi_cbr : bool; opi_dec_delay : Z; opi_enc_delay : Z; opi_low : bool }.
(** sequence_header.rs 64-68. *)
Record op_model : Type := mkOPM { opm_idc : Z; opm_delay : option Z; opm_params : option op_params }.

(** sequence_header.rs 70-88, struct [SequenceHeader]. *)
Record seqhdr : Type := mkSeq {
  sh_profile : Z; sh_still : bool; sh_ops : list operating_point;
  sh_w : Z; sh_h : Z; sh_max_w : Z; sh_max_h : Z;
  sh_frame_id : option frame_id;
  sh_filter_intra : bool; sh_intra_edge : bool; sh_interintra : bool; sh_masked : bool;
  sh_dual : bool; sh_jnt : bool; sh_choose_sct : bool; sh_choose_imv : bool;
  sh_dm : option dec_model }.

(** sequence_header.rs 90-109, [SequenceHeader::new]. *)
Definition seq_new (w h : Z) : seqhdr :=
  mkSeq 0 false [] w h w h None false false false false false false false false None.

(** encoder.rs 11-86 and obu_encoder.rs 30-41: the fields of [EncoderContext] and
    [OBUEncoder] that the sequence header writer reads or writes. *)
Record enc : Type := mkEnc {
  e_reduced : bool; e_sb128 : bool; e_warped : bool; e_order_hint : bool; e_ref_mvs : bool;
  e_force_sct : Z; e_force_imv : Z; e_order_hint_bits : Z;
  e_superres : bool; e_cdef : bool; e_restoration : bool;
  e_high : bool; e_twelve : bool; e_mono : bool; e_cd : option color_desc; e_range : bool;
  e_ssx : bool; e_ssy : bool; e_csp : Z; e_sep_uv : bool;
  e_bit_depth : Z; e_num_planes : Z;
  e_timing : option timing; e_opm : list op_model; e_grain : bool }.

(** encoder.rs 88-182 and obu_encoder.rs 44-57: the initial values. *)
Definition enc_new : enc :=
  mkEnc false true false false false 0 0 0 false false false
        false false false None false true true 2 false 8 3 None [] false.

Definition pbit (out : list Z) (b : bool) : list Z := push out (b2z b).
Definition is_some {A : Type} (o : option A) : bool := match o with Some _ => true | None => false end.

(** obu_encoder.rs 104-112: the operating points. *)
Fixpoint enc_ops (out : list Z) (l : list operating_point) : res (list Z) :=
  match l with
  | [] => Ok out
  | o :: r =>
      out <- push_bits_with_size out (op_idc o) 12 ;;
      out <- push_bits_with_size out (op_level o) 5 ;;
      out <- (if 7 <? op_level o
              then match op_tier o with Some t => Ok (pbit out t) | None => Panic end
              else match op_tier o with Some _ => Panic | None => Ok out end) ;;
      enc_ops out r
  end.

(** obu_encoder.rs 114-125: the frame size fields. [usize - 1], [as u16],
    [u8 - 1] and [as u32] as in the code. *)
Definition enc_size (out : list Z) (h : seqhdr) : res (list Z) :=
  w1 <- chk_u64 (sh_w h - 1) ;;
  mw <- msb16 (as_u16 w1) ;;
  fwb <- chk_u8 (mw - 1) ;;
  h1 <- chk_u64 (sh_h h - 1) ;;
  mh <- msb16 (as_u16 h1) ;;
  fhb <- chk_u8 (mh - 1) ;;
  out <- push_bits_with_size out fwb 4 ;;
  out <- push_bits_with_size out fhb 4 ;;
  mw <- msb16 (as_u16 (sh_max_w h)) ;;
  fwb <- chk_u8 (mw - 1) ;;
  mh <- msb16 (as_u16 (sh_max_h h)) ;;
  fhb <- chk_u8 (mh - 1) ;;
  nw <- chk_u8 (fwb + 1) ;;
  nh <- chk_u8 (fhb + 1) ;;
  w1 <- chk_u64 (sh_max_w h - 1) ;;
  h1 <- chk_u64 (sh_max_h h - 1) ;;
  out <- push_bits_with_size out (as_u32 w1) nw ;;
  push_bits_with_size out (as_u32 h1) nh.

(** obu_encoder.rs 126-134. *)
Definition enc_frame_id (out : list Z) (e : enc) (h : seqhdr) : res (list Z) :=
  out <- (if e_reduced e then (if is_some (sh_frame_id h) then Panic else Ok out)
          else Ok (pbit out (is_some (sh_frame_id h)))) ;;
  match sh_frame_id h with
  | None => Ok out
  | Some (d, a) =>
      d2 <- chk_u8 (d - 2) ;;
      out <- push_bits_with_size out d2 4 ;;
      a1 <- chk_u8 (a - 1) ;;
      push_bits_with_size out a1 3
  end.

(** obu_encoder.rs 135-188: tool flags. Returns the output and the new values of
    (enable_jnt_comp, interintra, masked, dual) of the header and of
    (warped, order hint, ref mvs, force sct, force imv, order hint bits). *)
Record tools : Type := mkTools {
  t_interintra : bool; t_masked : bool; t_warped : bool; t_dual : bool; t_order_hint : bool; t_jnt : bool;
  t_ref_mvs : bool; t_sct : Z; t_imv : Z; t_ohb : Z }.

Definition enc_tools (out : list Z) (e : enc) (h : seqhdr) : res (list Z * tools) :=
  let out := pbit out (e_sb128 e) in
  let out := pbit out (sh_filter_intra h) in
  let out := pbit out (sh_intra_edge h) in
  if e_reduced e then Ok (out, mkTools false false false false false false false 2 2 0)
  else
    let out := pbit out (sh_interintra h) in
    let out := pbit out (sh_masked h) in
    let out := pbit out (e_warped e) in
    let out := pbit out (sh_dual h) in
    let out := pbit out (e_order_hint e) in
    let '(out, jnt, mvs) :=
      if e_order_hint e then (pbit (pbit out (sh_jnt h)) (e_ref_mvs e), sh_jnt h, e_ref_mvs e)
      else (out, false, false) in
    let out := pbit out (sh_choose_sct h) in
    let '(out, sct) :=
      if sh_choose_sct h then (out, 2) else (push out (as_u8 (e_force_sct e)), e_force_sct e) in
    let '(out, imv) :=
      if 0 <? sct then
        let out := pbit out (sh_choose_imv h) in
        if sh_choose_imv h then (out, 2) else (push out (as_u8 (e_force_imv e)), e_force_imv e)
      else (out, 2) in
    '(out, ohb) <-
      (if e_order_hint e then
         b <- chk_u64 (e_order_hint_bits e - 1) ;;
         out <- push_bits_with_size out (as_u32 b) 3 ;;
         Ok (out, e_order_hint_bits e)
       else Ok (out, 0)) ;;
    Ok (out, mkTools (sh_interintra h) (sh_masked h) (e_warped e) (sh_dual h) (e_order_hint e) jnt mvs sct imv ohb).

(** obu_encoder.rs 192-255: color config. Returns the output and the new colour
    fields. *)
Record colour : Type := mkCol {
  c_high : bool; c_twelve : bool; c_mono : bool; c_cd : color_desc; c_range : bool; c_ssx : bool; c_ssy : bool;
  c_csp : Z; c_sep : bool; c_depth : Z; c_planes : Z }.

Definition cd_eqb (a b : color_desc) : bool :=
  let '(a1, a2, a3) := a in let '(b1, b2, b3) := b in (a1 =? b1) && (a2 =? b2) && (a3 =? b3).

Definition enc_color (out : list Z) (e : enc) (profile : Z) : res (list Z * colour) :=
  let out := pbit out (e_high e) in
  let '(out, depth) :=
    if (profile =? 2) && e_high e then (pbit out (e_twelve e), if e_twelve e then 12 else 10)
    else if profile <=? 2 then (out, if e_high e then 10 else 8)
    else (out, e_bit_depth e) in
  let '(out, mono) := if profile =? 1 then (out, false) else (pbit out (e_mono e), e_mono e) in
  let planes := if mono then 1 else 3 in
  let out := pbit out (is_some (e_cd e)) in
  '(out, cd) <-
    match e_cd e with
    | Some (p, t, m) =>
        out <- push_bits_with_size out p 8 ;;
        out <- push_bits_with_size out t 8 ;;
        out <- push_bits_with_size out m 8 ;;
        Ok (out, (p, t, m))
    | None => Ok (out, (2, 2, 2))
    end ;;
  '(out, (range, ssx, ssy, csp, sep)) <-
    (if mono then
       Ok (pbit out (e_range e), (e_range e, true, true, 0, false))
     else if cd_eqb cd (1, 13, 0) then
       Ok (out, (true, false, false, e_csp e, e_sep_uv e))
     else
       let out := pbit out (e_range e) in
       let '(out, ssx, ssy) :=
         if profile =? 0 then (out, true, true)
         else if profile =? 1 then (out, false, false)
         else if depth =? 12 then
           let out := pbit out (e_ssx e) in
           if e_ssx e then (pbit out (e_ssy e), true, e_ssy e) else (out, false, false)
         else (out, true, false) in
       out <- (if ssx && ssy then push_bits_with_size out (e_csp e) 2 else Ok out) ;;
       Ok (out, (e_range e, ssx, ssy, e_csp e, e_sep_uv e))) ;;
  Ok (pbit out sep, mkCol (e_high e) (e_twelve e) mono cd range ssx ssy csp sep depth planes).

(** obu_encoder.rs 257-288: timing info. Returns the output, the new timing info
    and the decoder model info left in the header. *)
Definition enc_timing (out : list Z) (e : enc) (h : seqhdr) : res (list Z * option timing * option dec_model) :=
  let ti := if e_reduced e then None else e_timing e in
  let out := if e_reduced e then out else pbit out (is_some (e_timing e)) in
  match ti with
  | None => Ok (out, None, None)
  | Some t =>
      out <- push_bits_with_size out (ti_units t) 32 ;;
      out <- push_bits_with_size out (ti_scale t) 32 ;;
      let out := pbit out (ti_equal t) in
      out <- (if ti_equal t then n <- chk_u32 (ti_ticks t - 1) ;; encode_uvlc out n else Ok out) ;;
      let out := pbit out (is_some (sh_dm h)) in
      out <- match sh_dm h with
             | None => Ok out
             | Some d =>
                 out <- push_bits_with_size out (dm_bitrate_scale d) 4 ;;
                 out <- push_bits_with_size out (dm_buffer_scale d) 4 ;;
                 l <- chk_u8 (dm_delay_len d - 1) ;;
                 out <- push_bits_with_size out l 5 ;;
                 out <- push_bits_with_size out (dm_units d) 32 ;;
                 l <- chk_u8 (dm_removal_len d - 1) ;;
                 out <- push_bits_with_size out l 5 ;;
                 l <- chk_u8 (dm_presentation_len d - 1) ;;
                 push_bits_with_size out l 5
             end ;;
      Ok (out, Some t, sh_dm h)
  end.

(** obu_encoder.rs 293-310: one operating point of the decoder model. *)
Fixpoint enc_opm (out : list Z) (dm : option dec_model) (l : list op_model) : res (list Z) :=
  match l with
  | [] => Ok out
  | o :: r =>
      out <- push_bits_with_size out (opm_idc o) 12 ;;
      let out := pbit out (is_some (opm_delay o)) in
      out <- match opm_delay o with
             | None => Ok out
             | Some d => d1 <- chk_u8 (d - 1) ;; push_bits_with_size out d1 4
             end ;;
      out <- match dm with
             | None => Ok out
             | Some d =>
                 let out := pbit out (is_some (opm_params o)) in
                 match opm_params o with
                 | None => Ok out
                 | Some p =>
                     b <- chk_u32 (opi_bitrate p - 1) ;;
                     out <- encode_uvlc out b ;;
                     b <- chk_u32 (opi_buffer p - 1) ;;
                     out <- encode_uvlc out b ;;
                     let out := pbit out (opi_cbr p) in
                     out <- push_bits_with_size out (opi_dec_delay p) (dm_delay_len d) ;;
                     out <- push_bits_with_size out (opi_enc_delay p) (dm_delay_len d) ;;
                     Ok (pbit out (opi_low p))
                 end
             end ;;
      enc_opm out dm r
  end.

(** obu_encoder.rs 93-313: the whole sequence header payload. Returns the output,
    the new encoder state and the new header. *)
Definition enc_seq (out : list Z) (e : enc) (h : seqhdr) : res (list Z * enc * seqhdr) :=
  out <- push_bits_with_size out (sh_profile h) 3 ;;
  let out := pbit out (sh_still h) in
  let out := pbit out (e_reduced e) in
  out <- (if e_reduced e then Ok out
          else
            out <- push_bits_with_size out (as_u32 (len (sh_ops h))) 5 ;;
            enc_ops out (sh_ops h)) ;;
  out <- enc_size out h ;;
  out <- enc_frame_id out e h ;;
  '(out, t) <- enc_tools out e h ;;
  let out := pbit out (e_superres e) in
  let out := pbit out (e_cdef e) in
  let out := pbit out (e_restoration e) in
  '(out, c) <- enc_color out e (sh_profile h) ;;
  '(out, ti, dm) <- enc_timing out e h ;;
  let out := pbit out (0 <? len (e_opm e)) in
  out <- (if 0 <? len (e_opm e) then
            out <- push_bits_with_size out (as_u32 (len (e_opm e) - 1)) 5 ;;
            enc_opm out dm (e_opm e)
          else Ok out) ;;
  let out := pbit out (e_grain e) in
  Ok (out,
      mkEnc (e_reduced e) (e_sb128 e) (t_warped t) (t_order_hint t) (t_ref_mvs t) (t_sct t) (t_imv t) (t_ohb t)
            (e_superres e) (e_cdef e) (e_restoration e)
            (c_high c) (c_twelve c) (c_mono c) (Some (c_cd c)) (c_range c) (c_ssx c) (c_ssy c) (c_csp c) (c_sep c)
            (c_depth c) (c_planes c) ti (e_opm e) (e_grain e),
      mkSeq (sh_profile h) (sh_still h) (sh_ops h) (sh_w h) (sh_h h) (sh_max_w h) (sh_max_h h) (sh_frame_id h)
            (sh_filter_intra h) (sh_intra_edge h) (t_interintra t) (t_masked t) (t_dual t) (t_jnt t)
            (sh_choose_sct h) (sh_choose_imv h) dm).
