(** The rest of the encoder once more, with the integer arithmetic read as either
    build profile reads it (see BuildModel.v). Written by tools/gen_build_enc.py from
    the model files named below, of which only the functions that compute with checked
    integers, or call one that does, are repeated. Shifts are spelt differently,
    because a release build goes on where those files stop; the [Debug] reading is
    equal to those files (BuildEncProofs.v). Sums of positions that those files leave
    unchecked are unchecked here too, so what a release build does after an overflow
    is meant only where a property speaks of it. The names are those of the
    originals, so this file is required without being imported. *)
From Coq Require Import String ZArith List Bool.
From Verif Require Import Base UtilModel RangeCoderModel BitCodecModel SessionModel BlockTables CdfTables CdfTableSpec.
From Verif Require Import FieldModel WriterModel SeqModel ObuModel ElementModel GeomModel TileModel ContextModel MvStackModel
  ModeInfoModel FrameParamModel FrameModel LrModel WholeTileModel StreamModel OptionModel MainModel.
From Verif Require BuildModel.
Import ListNotations.
Open Scope string_scope.
Open Scope list_scope.
Open Scope Z_scope.

Section Build.
Variable B : BuildModel.build.

Local Notation chk_i32 := (BuildModel.chk_i32 B).
Local Notation chk_i64 := (BuildModel.chk_i64 B).
Local Notation chk_u32 := (BuildModel.chk_u32 B).
Local Notation chk_u64 := (BuildModel.chk_u64 B).
Local Notation chk_u8 := (BuildModel.chk_u8 B).
Local Notation decode_le := (BuildModel.decode_le B).
Local Notation decode_leb128 := (BuildModel.decode_leb128 B).
Local Notation decode_ns := (BuildModel.decode_ns B).
Local Notation decode_su := (BuildModel.decode_su B).
Local Notation decode_uvlc := (BuildModel.decode_uvlc B).
Local Notation encode_le := (BuildModel.encode_le B).
Local Notation encode_leb128 := (BuildModel.encode_leb128 B).
Local Notation encode_ns := (BuildModel.encode_ns B).
Local Notation encode_su := (BuildModel.encode_su B).
Local Notation encode_symbol := (BuildModel.encode_symbol B).
Local Notation encode_symbolp := (BuildModel.encode_symbolp B).
Local Notation encode_uvlc := (BuildModel.encode_uvlc B).
Local Notation msb16 := (BuildModel.msb16 B).
Local Notation push_bits_with_size := (BuildModel.push_bits_with_size B).
Local Notation shift_amt := (BuildModel.shift_amt B).
Local Notation shift_ok := (BuildModel.shift_ok B).

(** ** FieldModel *)

Definition write_field (out : list Z) (f : FieldModel.field) : res (list Z) :=
  match f with
  | FBits v n => push_bits_with_size out v n
  | FUvlc v => encode_uvlc out v
  | FLe v n => encode_le out v n
  | FLeb v => encode_leb128 out v
  | FSu v n => encode_su out v n
  | FNs v n => encode_ns out v n
  end.

Fixpoint write_fields (out : list Z) (l : list FieldModel.field) : res (list Z) :=
  match l with
  | [] => Ok out
  | f :: r => out <- write_field out f ;; write_fields out r
  end.

Definition read_field (nb : Z) (q : list Z) (s : syntax) : res (FieldModel.field * Z * list Z) :=
  match s with
  | SyBits n => '(v, q) <- read_f q n ;; Ok (FBits v n, nb, q)
  | SyUvlc => '(v, q) <- decode_uvlc q ;; Ok (FUvlc v, nb, q)
  | SyLe n => '(v, q) <- decode_le q n ;; Ok (FLe v n, nb, q)
  | SyLeb => '(v, nb, q) <- decode_leb128 nb q ;; Ok (FLeb v, nb, q)
  | SySu n => '(v, q) <- decode_su q n ;; Ok (FSu v n, nb, q)
  | SyNs n => '(v, q) <- decode_ns q n ;; Ok (FNs v n, nb, q)
  end.

Fixpoint read_fields (nb : Z) (q : list Z) (l : list syntax) : res (list FieldModel.field * Z * list Z) :=
  match l with
  | [] => Ok ([], nb, q)
  | s :: r =>
      '(f, nb, q) <- read_field nb q s ;;
      '(fs, nb, q) <- read_fields nb q r ;;
      Ok (f :: fs, nb, q)
  end.

(** ** WriterModel *)

(** binary_writer.rs 30-41, [write_bit]. *)
Definition write_bit (w : writer) (bit : Z) : res writer :=
  b <- chk_u8 (as_u8 (Z.shiftl (w_buf w) 1) + bit) ;;
  i <- chk_u64 (w_index w + 1) ;;
  if i =? 8 then Ok (mkWriter 0 0 (w_bytes w ++ [b]))
  else Ok (mkWriter b i (w_bytes w)).

(** binary_writer.rs 43-47, [write_bits]. *)
Fixpoint write_bits (w : writer) (bits : list Z) : res writer :=
  match bits with
  | [] => Ok w
  | b :: r => w <- write_bit w b ;; write_bits w r
  end.

(** binary_writer.rs 49-54, [byte_align]. *)
Definition byte_align (w : writer) : res writer :=
  rem <- (if 0 <? w_index w then chk_u64 (8 - w_index w) else Ok 0) ;;
  write_bits w (repeat 0 (Z.to_nat rem)).

Definition write_call (w : writer) (c : wcall) : res writer :=
  match c with
  | WBit b => write_bit w b
  | WBits l => write_bits w l
  | WAlign => byte_align w
  end.

Fixpoint write_calls (w : writer) (l : list wcall) : res writer :=
  match l with
  | [] => Ok w
  | c :: r => w <- write_call w c ;; write_calls w r
  end.

(** ** SeqModel *)

(** obu_encoder.rs 104-112: the operating points. *)
Fixpoint enc_ops (out : list Z) (l : list operating_point) : res (list Z) :=
  match l with
  | [] => Ok out
  | o :: r =>
      out <- push_bits_with_size out (op_idc o) 12 ;;
      out <- push_bits_with_size out (op_level o) 5 ;;
      out <- (if 7 <? op_level o
              then match op_tier o with Some t => Ok (pbit out t) | None => Panic end
              else match op_tier o with Some _ => Panic | None => Ok out end) ;;
      enc_ops out r
  end.

(** obu_encoder.rs 114-125: the frame size fields. [usize - 1], [as u16],
    [u8 - 1] and [as u32] as in the code. *)
Definition enc_size (out : list Z) (h : seqhdr) : res (list Z) :=
  w1 <- chk_u64 (sh_w h - 1) ;;
  mw <- msb16 (as_u16 w1) ;;
  fwb <- chk_u8 (mw - 1) ;;
  h1 <- chk_u64 (sh_h h - 1) ;;
  mh <- msb16 (as_u16 h1) ;;
  fhb <- chk_u8 (mh - 1) ;;
  out <- push_bits_with_size out fwb 4 ;;
  out <- push_bits_with_size out fhb 4 ;;
  mw <- msb16 (as_u16 (sh_max_w h)) ;;
  fwb <- chk_u8 (mw - 1) ;;
  mh <- msb16 (as_u16 (sh_max_h h)) ;;
  fhb <- chk_u8 (mh - 1) ;;
  nw <- chk_u8 (fwb + 1) ;;
  nh <- chk_u8 (fhb + 1) ;;
  w1 <- chk_u64 (sh_max_w h - 1) ;;
  h1 <- chk_u64 (sh_max_h h - 1) ;;
  out <- push_bits_with_size out (as_u32 w1) nw ;;
  push_bits_with_size out (as_u32 h1) nh.

(** obu_encoder.rs 126-134. *)
Definition enc_frame_id (out : list Z) (e : enc) (h : seqhdr) : res (list Z) :=
  out <- (if e_reduced e then (if is_some (sh_frame_id h) then Panic else Ok out)
          else Ok (pbit out (is_some (sh_frame_id h)))) ;;
  match sh_frame_id h with
  | None => Ok out
  | Some (d, a) =>
      d2 <- chk_u8 (d - 2) ;;
      out <- push_bits_with_size out d2 4 ;;
      a1 <- chk_u8 (a - 1) ;;
      push_bits_with_size out a1 3
  end.

Definition enc_tools (out : list Z) (e : enc) (h : seqhdr) : res (list Z * tools) :=
  let out := pbit out (e_sb128 e) in
  let out := pbit out (sh_filter_intra h) in
  let out := pbit out (sh_intra_edge h) in
  if e_reduced e then Ok (out, mkTools false false false false false false false 2 2 0)
  else
    let out := pbit out (sh_interintra h) in
    let out := pbit out (sh_masked h) in
    let out := pbit out (e_warped e) in
    let out := pbit out (sh_dual h) in
    let out := pbit out (e_order_hint e) in
    let '(out, jnt, mvs) :=
      if e_order_hint e then (pbit (pbit out (sh_jnt h)) (e_ref_mvs e), sh_jnt h, e_ref_mvs e)
      else (out, false, false) in
    let out := pbit out (sh_choose_sct h) in
    let '(out, sct) :=
      if sh_choose_sct h then (out, 2) else (push out (as_u8 (e_force_sct e)), e_force_sct e) in
    let '(out, imv) :=
      if 0 <? sct then
        let out := pbit out (sh_choose_imv h) in
        if sh_choose_imv h then (out, 2) else (push out (as_u8 (e_force_imv e)), e_force_imv e)
      else (out, 2) in
    '(out, ohb) <-
      (if e_order_hint e then
         b <- chk_u64 (e_order_hint_bits e - 1) ;;
         out <- push_bits_with_size out (as_u32 b) 3 ;;
         Ok (out, e_order_hint_bits e)
       else Ok (out, 0)) ;;
    Ok (out, mkTools (sh_interintra h) (sh_masked h) (e_warped e) (sh_dual h) (e_order_hint e) jnt mvs sct imv ohb).

Definition enc_color (out : list Z) (e : enc) (profile : Z) : res (list Z * colour) :=
  let out := pbit out (e_high e) in
  let '(out, depth) :=
    if (profile =? 2) && e_high e then (pbit out (e_twelve e), if e_twelve e then 12 else 10)
    else if profile <=? 2 then (out, if e_high e then 10 else 8)
    else (out, e_bit_depth e) in
  let '(out, mono) := if profile =? 1 then (out, false) else (pbit out (e_mono e), e_mono e) in
  let planes := if mono then 1 else 3 in
  let out := pbit out (is_some (e_cd e)) in
  '(out, cd) <-
    match e_cd e with
    | Some (p, t, m) =>
        out <- push_bits_with_size out p 8 ;;
        out <- push_bits_with_size out t 8 ;;
        out <- push_bits_with_size out m 8 ;;
        Ok (out, (p, t, m))
    | None => Ok (out, (2, 2, 2))
    end ;;
  '(out, (range, ssx, ssy, csp, sep)) <-
    (if mono then
       Ok (pbit out (e_range e), (e_range e, true, true, 0, false))
     else if cd_eqb cd (1, 13, 0) then
       Ok (out, (true, false, false, e_csp e, e_sep_uv e))
     else
       let out := pbit out (e_range e) in
       let '(out, ssx, ssy) :=
         if profile =? 0 then (out, true, true)
         else if profile =? 1 then (out, false, false)
         else if depth =? 12 then
           let out := pbit out (e_ssx e) in
           if e_ssx e then (pbit out (e_ssy e), true, e_ssy e) else (out, false, false)
         else (out, true, false) in
       out <- (if ssx && ssy then push_bits_with_size out (e_csp e) 2 else Ok out) ;;
       Ok (out, (e_range e, ssx, ssy, e_csp e, e_sep_uv e))) ;;
  Ok (pbit out sep, mkCol (e_high e) (e_twelve e) mono cd range ssx ssy csp sep depth planes).

(** obu_encoder.rs 257-288: timing info. Returns the output, the new timing info
    and the decoder model info left in the header. *)
Definition enc_timing (out : list Z) (e : enc) (h : seqhdr) : res (list Z * option timing * option dec_model) :=
  let ti := if e_reduced e then None else e_timing e in
  let out := if e_reduced e then out else pbit out (is_some (e_timing e)) in
  match ti with
  | None => Ok (out, None, None)
  | Some t =>
      out <- push_bits_with_size out (ti_units t) 32 ;;
      out <- push_bits_with_size out (ti_scale t) 32 ;;
      let out := pbit out (ti_equal t) in
      out <- (if ti_equal t then n <- chk_u32 (ti_ticks t - 1) ;; encode_uvlc out n else Ok out) ;;
      let out := pbit out (is_some (sh_dm h)) in
      out <- match sh_dm h with
             | None => Ok out
             | Some d =>
                 out <- push_bits_with_size out (dm_bitrate_scale d) 4 ;;
                 out <- push_bits_with_size out (dm_buffer_scale d) 4 ;;
                 l <- chk_u8 (dm_delay_len d - 1) ;;
                 out <- push_bits_with_size out l 5 ;;
                 out <- push_bits_with_size out (dm_units d) 32 ;;
                 l <- chk_u8 (dm_removal_len d - 1) ;;
                 out <- push_bits_with_size out l 5 ;;
                 l <- chk_u8 (dm_presentation_len d - 1) ;;
                 push_bits_with_size out l 5
             end ;;
      Ok (out, Some t, sh_dm h)
  end.

(** obu_encoder.rs 293-310: one operating point of the decoder model. *)
Fixpoint enc_opm (out : list Z) (dm : option dec_model) (l : list op_model) : res (list Z) :=
  match l with
  | [] => Ok out
  | o :: r =>
      out <- push_bits_with_size out (opm_idc o) 12 ;;
      let out := pbit out (is_some (opm_delay o)) in
      out <- match opm_delay o with
             | None => Ok out
             | Some d => d1 <- chk_u8 (d - 1) ;; push_bits_with_size out d1 4
             end ;;
      out <- match dm with
             | None => Ok out
             | Some d =>
                 let out := pbit out (is_some (opm_params o)) in
                 match opm_params o with
                 | None => Ok out
                 | Some p =>
                     b <- chk_u32 (opi_bitrate p - 1) ;;
                     out <- encode_uvlc out b ;;
                     b <- chk_u32 (opi_buffer p - 1) ;;
                     out <- encode_uvlc out b ;;
                     let out := pbit out (opi_cbr p) in
                     out <- push_bits_with_size out (opi_dec_delay p) (dm_delay_len d) ;;
                     out <- push_bits_with_size out (opi_enc_delay p) (dm_delay_len d) ;;
                     Ok (pbit out (opi_low p))
                 end
             end ;;
      enc_opm out dm r
  end.

(** obu_encoder.rs 93-313: the whole sequence header payload. Returns the output,
    the new encoder state and the new header. *)
Definition enc_seq (out : list Z) (e : enc) (h : seqhdr) : res (list Z * enc * seqhdr) :=
  out <- push_bits_with_size out (sh_profile h) 3 ;;
  let out := pbit out (sh_still h) in
  let out := pbit out (e_reduced e) in
  out <- (if e_reduced e then Ok out
          else
            out <- push_bits_with_size out (as_u32 (len (sh_ops h))) 5 ;;
            enc_ops out (sh_ops h)) ;;
  out <- enc_size out h ;;
  out <- enc_frame_id out e h ;;
  '(out, t) <- enc_tools out e h ;;
  let out := pbit out (e_superres e) in
  let out := pbit out (e_cdef e) in
  let out := pbit out (e_restoration e) in
  '(out, c) <- enc_color out e (sh_profile h) ;;
  '(out, ti, dm) <- enc_timing out e h ;;
  let out := pbit out (0 <? len (e_opm e)) in
  out <- (if 0 <? len (e_opm e) then
            out <- push_bits_with_size out (as_u32 (len (e_opm e) - 1)) 5 ;;
            enc_opm out dm (e_opm e)
          else Ok out) ;;
  let out := pbit out (e_grain e) in
  Ok (out,
      mkEnc (e_reduced e) (e_sb128 e) (t_warped t) (t_order_hint t) (t_ref_mvs t) (t_sct t) (t_imv t) (t_ohb t)
            (e_superres e) (e_cdef e) (e_restoration e)
            (c_high c) (c_twelve c) (SeqModel.c_mono c) (Some (c_cd c)) (c_range c) (SeqModel.c_ssx c) (SeqModel.c_ssy c) (c_csp c) (SeqModel.c_sep c)
            (c_depth c) (SeqModel.c_planes c) ti (e_opm e) (e_grain e),
      mkSeq (sh_profile h) (sh_still h) (sh_ops h) (sh_w h) (sh_h h) (sh_max_w h) (sh_max_h h) (sh_frame_id h)
            (sh_filter_intra h) (sh_intra_edge h) (t_interintra t) (t_masked t) (t_dual t) (t_jnt t)
            (sh_choose_sct h) (sh_choose_imv h) dm).

(** ** ObuModel *)

(** obu_encoder.rs 59-87, [encode_obu_header]; the extension part (79-86) is dead
    code because the flag is the constant 0. *)
Definition encode_obu_header (o : obu) (out : list Z) : res (list Z) :=
  let out := push out 0 in
  out <- push_bits_with_size out (obu_type o) 4 ;;
  let out := push out 0 in
  let out := push out 0 in
  Ok (push out 0).

(** [for x in l { push_bits_with_size(x, n) }]. *)
Fixpoint push_all (out : list Z) (l : list Z) (n : Z) : res (list Z) :=
  match l with
  | [] => Ok out
  | x :: r => out <- push_bits_with_size out x n ;; push_all out r n
  end.

(** obu_encoder.rs 1493-1496. *)
Fixpoint push_dims (out : list Z) (l : list (Z * Z)) : res (list Z) :=
  match l with
  | [] => Ok out
  | (w, h) :: r =>
      out <- push_bits_with_size out w 16 ;;
      out <- push_bits_with_size out h 16 ;;
      push_dims out r
  end.

(** obu_encoder.rs 1502-1510. *)
Fixpoint push_groups (out : list Z) (l : list temporal_group) : res (list Z) :=
  match l with
  | [] => Ok out
  | g :: r =>
      out <- push_bits_with_size out (tg_id g) 3 ;;
      let out := push out (tg_temporal_up g) in
      let out := push out (tg_spatial_up g) in
      out <- push_bits_with_size out (as_u32 (len (tg_diffs g))) 3 ;;
      out <- push_all out (tg_diffs g) 8 ;;
      push_groups out r
  end.

(** obu_encoder.rs 1453-1563. *)
Definition encode_metadata (m : metadata) (out : list Z) : res (list Z) :=
  match m with
  | T35 cc pb =>
      out <- encode_leb128 out 4 ;;
      out <- push_bits_with_size out cc 8 ;;
      if cc =? 255 then push_bits_with_size out 0 8 else Ok out
  | HdrCll mc mf =>
      out <- encode_leb128 out 1 ;;
      out <- push_bits_with_size out mc 16 ;;
      push_bits_with_size out mf 16
  | HdrMdcv px py wx wy lmax lmin =>
      out <- encode_leb128 out 2 ;;
      x0 <- idx px 0 ;; y0 <- idx py 0 ;;
      out <- push_bits_with_size out x0 16 ;;
      out <- push_bits_with_size out y0 16 ;;
      x1 <- idx px 1 ;; y1 <- idx py 1 ;;
      out <- push_bits_with_size out x1 16 ;;
      out <- push_bits_with_size out y1 16 ;;
      x2 <- idx px 2 ;; y2 <- idx py 2 ;;
      out <- push_bits_with_size out x2 16 ;;
      out <- push_bits_with_size out y2 16 ;;
      out <- push_bits_with_size out wx 16 ;;
      out <- push_bits_with_size out wy 16 ;;
      out <- push_bits_with_size out lmax 32 ;;
      push_bits_with_size out lmin 32
  | Scalability mi st =>
      out <- encode_leb128 out 3 ;;
      out <- push_bits_with_size out mi 8 ;;
      if mi =? 14 then
        match st with
        | None => Panic
        | Some s =>
            n <- chk_u64 (Z.max (len (ss_dims s)) (len (ss_refs s)) - 1) ;;
            out <- push_bits_with_size out (as_u32 n) 2 ;;
            let out := push out (b2z (0 <? len (ss_dims s))) in
            let out := push out (b2z (0 <? len (ss_refs s))) in
            let out := push out (b2z (0 <? len (ss_groups s))) in
            out <- push_bits_with_size out 0 3 ;;
            out <- push_dims out (ss_dims s) ;;
            out <- push_all out (ss_refs s) 8 ;;
            if 0 <? len (ss_groups s) then
              out <- push_bits_with_size out (as_u32 (len (ss_groups s))) 8 ;;
              push_groups out (ss_groups s)
            else Ok out
        end
      else Ok out
  | Timecode ct secs mins hrs tol tov =>
      out <- encode_leb128 out 3 ;;
      out <- push_bits_with_size out ct 5 ;;
      out <- match secs, mins, hrs with
             | Some s, Some m, Some h =>
                 let out := push out 1 in
                 out <- push_bits_with_size out s 6 ;;
                 out <- push_bits_with_size out m 6 ;;
                 push_bits_with_size out h 5
             | _, _, _ =>
                 let out := push out 0 in
                 match secs with
                 | None => Ok (push out 0)
                 | Some s =>
                     out <- push_bits_with_size (push out 1) s 6 ;;
                     match mins with
                     | None => Ok (push out 0)
                     | Some m =>
                         out <- push_bits_with_size (push out 1) m 6 ;;
                         match hrs with
                         | None => Ok (push out 0)
                         | Some h => push_bits_with_size (push out 1) h 5
                         end
                     end
                 end
             end ;;
      out <- push_bits_with_size out tol 5 ;;
      push_bits_with_size out tov tol
  end.

(** obu_encoder.rs 89-1573, [encode_obu_payload]: the payload bits and the new
    encoder state; the header inside a sequence header OBU is dropped afterwards. *)
Definition encode_payload (e : enc) (o : obu) : res (list Z * enc) :=
  match o with
  | SequenceHeader h => '(out, e, _) <- enc_seq [] e h ;; Ok (out, e)
  | TemporalDelimiter => Ok ([], e)
  | FrameHeader run => run e
  | RedundantFrameHeader => Ok ([], e)
  | TileGroup run => run e
  | Metadata m => out <- encode_metadata m [] ;; Ok (out, e)
  | FrameObu => Ok ([], e)
  | Padding n => out <- push_all [] (repeat 0 (Z.to_nat n)) 8 ;; Ok (out, e)
  end.

(** obu_encoder.rs 1575-1585, [encode_obu]: the header goes to [out], the payload
    goes straight to the writer. *)
Definition encode_obu (w : writer) (e : enc) (o : obu) (out : list Z) : res (writer * enc * list Z) :=
  out <- encode_obu_header o out ;;
  '(p, e) <- encode_payload e o ;;
  w <- write_bits w p ;;
  w <- byte_align w ;;
  Ok (w, e, out).

(** obu_encoder.rs 1587-1603, [encode_temporal_unit]. *)
Definition encode_temporal_unit (w : writer) (e : enc) (o : obu) : res (writer * enc) :=
  '(w, e, obu_bits) <- encode_obu w e o [] ;;
  fu <- encode_leb128 [] (len obu_bits) ;;
  let fu := push_bits fu obu_bits in
  tu <- encode_leb128 [] (len fu) ;;
  let tu := push_bits tu fu in
  sz <- encode_leb128 [] (len tu) ;;
  w <- write_bits w sz ;;
  w <- write_bits w tu ;;
  Ok (w, e).

(** A caller's sequence of [encode_temporal_unit] calls. *)
Fixpoint encode_units (w : writer) (e : enc) (l : list obu) : res (writer * enc) :=
  match l with
  | [] => Ok (w, e)
  | o :: r => '(w, e) <- encode_temporal_unit w e o ;; encode_units w e r
  end.

(** ** ElementModel *)

(** common.rs 189-197, [get_relative_dist] (a, b, order_hint_bits : usize, result
    isize). The closure of the same name in obu_encoder.rs 1126-1135 is the same
    computation on isize arguments. *)
Definition get_relative_dist (a b : Z) (enable_order_hint : bool) (order_hint_bits : Z) : res Z :=
  if negb enable_order_hint then Ok 0
  else
    diff <- chk_i64 (as_i64 a - as_i64 b) ;;
    k <- chk_u64 (order_hint_bits - 1) ;;
    _ <- shift_ok 64 k ;;
    let m := as_i64 (Z.shiftl 1 (shift_amt 64 k)) in
    m1 <- chk_i64 (m - 1) ;;
    chk_i64 (Z.land diff m1 - Z.land diff m).

(** tile_encoder.rs 929-948 (closure [lower_mv_precision], isize; the same text
    is at 1078-1097, 1217 and 1281). [frame.force_integer_mv > 0] is the first
    argument; [allow_high_precision_mv] is not looked at. [Abs!] negates, which
    overflows for the smallest isize. *)
Definition lower_mv_precision (force_integer_mv : bool) (v : Z) : res Z :=
  if force_integer_mv then
    a <- (if 0 <=? v then Ok v else chk_i64 (- v)) ;;
    t <- chk_i64 (a + 3) ;;
    let a_int := Z.shiftr t 3 in
    let s := as_i64 (Z.shiftl a_int 3) in
    if 0 <? v then Ok s else chk_i64 (- s)
  else if negb (Z.land v 1 =? 0) then
    if 0 <? v then chk_i64 (v - 1) else chk_i64 (v + 1)
  else Ok v.

(** tile_encoder.rs 563-589 (closure [neg_interleave], all usize), in a build
    with overflow checks. [<<] discards what is shifted out. *)
Definition neg_interleave (v rf max : Z) : res Z :=
  if rf =? 0 then Ok v
  else
    m1 <- chk_u64 (max - 1) ;;
    if m1 <=? rf then chk_u64 (m1 - v)
    else
      rf2 <- chk_u64 (2 * rf) ;;
      if rf2 <? max then
        a <- chk_u64 (v - rf) ;;
        d1 <- chk_u64 (as_u64 (Z.shiftl a 1) - 1) ;;
        b <- chk_u64 (rf - v) ;;
        let d2 := as_u64 (Z.shiftl b 1) in
        if d1 <=? rf2 then Ok d1 else if d2 <=? rf2 then Ok d2 else Ok v
      else
        a <- chk_u64 (v - rf) ;;
        d1 <- chk_u64 (as_u64 (Z.shiftl a 1) - 1) ;;
        b <- chk_u64 (rf - v) ;;
        let d2 := as_u64 (Z.shiftl b 1) in
        e <- chk_u64 (max - rf) ;;
        e <- chk_u64 (e - 1) ;;
        lim <- chk_u64 (2 * e) ;;
        if d1 <=? lim then Ok d1 else if d2 <=? lim then Ok d2
        else r <- chk_u64 (rf - v) ;; chk_u64 (r - 1).

(** tile_encoder.rs 660-683, the calls on the arithmetic coder made for
    [delta_q_abs] and what follows, and the new [current_q_index]. The CDF
    [tile_cdf.delta_q] is entry [ctx] of the table (encode_delta_q_abs,
    bool_coder.rs 1122-1125). [q_index], [cur] : usize, [delta_q_res] : u8. *)
Definition delta_q_ops (ctx : nat) (q_index cur delta_q_res : Z) : res (list op * Z) :=
  d <- chk_i64 (as_i64 q_index - as_i64 cur) ;;
  _ <- shift_ok 64 delta_q_res ;;
  let delta := Z.shiftr d (shift_amt 64 delta_q_res) in
  a <- (if 0 <=? delta then Ok delta else chk_i64 (- delta)) ;;
  if negb (delta =? 0) then
    pre <- (if a <? DELTA_Q_SMALL then Ok [OSym ctx (Z.to_nat a)]
            else
              rem_bits <- msb16 (as_u16 (a - 1)) ;;
              r1 <- chk_u8 (rem_bits - 1) ;;
              bits <- chk_u64 (a - 1 - Z.shiftl 1 r1) ;;
              Ok [OSym ctx (Z.to_nat DELTA_Q_SMALL); OLit 3 r1; OLit (Z.to_nat rem_bits) bits]) ;;
    Ok (pre ++ [OLit 1 (if delta <? 0 then 1 else 0)], q_index)
  else Ok ([OSym ctx (Z.to_nat a)], q_index).

(** tile_encoder.rs 692-714: one iteration of the delta lf loop; the CDF is the
    one encode_delta_lf_abs picks (bool_coder.rs 1127-1134), entry [ctx]. *)
Definition delta_lf_ops (ctx : nat) (lf cur delta_lf_res : Z) : res (list op * Z) :=
  d <- chk_i64 (lf - cur) ;;
  _ <- shift_ok 64 delta_lf_res ;;
  let delta := Z.shiftr d (shift_amt 64 delta_lf_res) in
  if negb (delta =? 0) then
    a <- (if 0 <=? delta then Ok delta else chk_i64 (- delta)) ;;
    pre <- (if a <? DELTA_LF_SMALL then Ok [OSym ctx (Z.to_nat a)]
            else
              rem_bits <- msb16 (as_u16 (a - 1)) ;;
              r1 <- chk_u8 (rem_bits - 1) ;;
              bits <- chk_u64 (a - 1 - Z.shiftl 1 r1) ;;
              b1 <- chk_u64 (bits - 1) ;;
              Ok [OSym ctx (Z.to_nat DELTA_LF_SMALL); OLit 3 r1; OLit (Z.to_nat rem_bits) b1]) ;;
    Ok (pre ++ [OLit 1 (if delta <? 0 then 1 else 0)], lf)
  else Ok ([OSym ctx 0], lf).

(** obu_encoder.rs 1232-1240 (closure [inverse_recenter], usize). *)
Definition inverse_recenter (r v : Z) : res Z :=
  r2 <- chk_u64 (2 * r) ;;
  if r2 <? v then Ok v
  else if 0 <? Z.land v 1 then w <- chk_u64 (v + 1) ;; chk_u64 (r - Z.shiftr w 1)
  else chk_u64 (r + Z.shiftr v 1).

(** obu_encoder.rs 1241-1266 (closure [encode_subexp]). [i], [b2], [k] : u8 with
    k = 3; the rest usize. The shift [1 << b2] doubles with every round, so 64
    rounds reach its limit; fuel 65 is never used up. *)
Fixpoint encode_subexp_loop (fuel : nat) (out : list Z) (tv num_syms i mk : Z) : res (list Z) :=
  match fuel with
  | O => Hang
  | S f =>
      b2 <- chk_u8 (if 0 <? i then 3 + i - 1 else 3) ;;
      _ <- shift_ok 64 b2 ;;
      let a := Z.shiftl 1 (shift_amt 64 b2) in
      a3 <- chk_u64 (3 * a) ;;
      lim <- chk_u64 (mk + a3) ;;
      if num_syms <=? lim then
        tv <- chk_u64 (tv - mk) ;;
        n <- chk_u64 (num_syms - mk) ;;
        encode_ns out tv n
      else
        top <- chk_u64 (mk + a - 1) ;;
        if tv <=? top then
          tv <- chk_u64 (tv - mk) ;;
          push_bits_with_size (push out 0) (as_u32 tv) b2
        else
          i <- chk_u8 (i + 1) ;;
          mk <- chk_u64 (mk + a) ;;
          encode_subexp_loop f (push out 1) tv num_syms i mk
  end.

Definition encode_subexp (out : list Z) (v num_syms : Z) : res (list Z) :=
  encode_subexp_loop 65 out v num_syms 0 0.

(** obu_encoder.rs 1267-1276 (closure [encode_unsigned_subexp_with_ref]). *)
Definition encode_unsigned_subexp_with_ref (out : list Z) (v mx r : Z) : res (list Z) :=
  if as_u64 (Z.shiftl r 1) <=? mx then
    tv <- inverse_recenter r v ;;
    encode_subexp out tv mx
  else
    m1 <- chk_u64 (mx - 1) ;;
    tv <- chk_u64 (m1 - v) ;;
    mr <- chk_u64 (m1 - r) ;;
    tv <- inverse_recenter mr tv ;;
    encode_subexp out tv mr.

(** obu_encoder.rs 1277-1280 (closure [encode_signed_subexp_with_ref], isize). *)
Definition encode_signed_subexp_with_ref (out : list Z) (v low high r : Z) : res (list Z) :=
  x <- chk_i64 (v - low) ;;
  mx <- chk_i64 (high - low) ;;
  rl <- chk_i64 (r - low) ;;
  encode_unsigned_subexp_with_ref out (as_u64 x) (as_u64 mx) (as_u64 rl).

(** obu_encoder.rs 1214-1231 and 1281 (closure [encode_global_param]): [gm] is
    [gm_params[rf][idx]], [prev] is [prev_gm_params[rf][idx]]; [translation] says
    whether [typ == TRANSLATION]. All isize. The constants leave no room for
    overflow in [prec_diff] and the shifts, which are therefore not checked. *)
Definition encode_global_param (out : list Z) (translation hp : bool) (idx gm prev : Z) : res (list Z) :=
  let nhp := b2z (negb hp) in
  let abs_bits := if idx <? 2 then if translation then GM_ABS_TRANS_ONLY_BITS - nhp else GM_ABS_TRANS_BITS else GM_ABS_ALPHA_BITS in
  let prec_bits := if idx <? 2 then if translation then GM_TRANS_ONLY_PREC_BITS - nhp else GM_TRANS_PREC_BITS else GM_ALPHA_PREC_BITS in
  let prec_diff := ElementModel.WARPEDMODEL_PREC_BITS - prec_bits in
  let round := if idx mod 3 =? 2 then Z.shiftl 1 ElementModel.WARPEDMODEL_PREC_BITS else 0 in
  let sub := if idx mod 3 =? 2 then Z.shiftl 1 prec_bits else 0 in
  let mx := Z.shiftl 1 abs_bits in
  r <- chk_i64 (Z.shiftr prev prec_diff - sub) ;;
  g <- chk_i64 (gm - round) ;;
  encode_signed_subexp_with_ref out (Z.shiftr g prec_diff) (- mx) (mx + 1) r.

(** ** GeomModel *)

(** bool_coder.rs 424-439, [encode_partition] of the symbol writer. *)
Definition code_partition (c : coder) (t : part_cdfs) (out : list Z) (bsize : Z) (above left : bool) (p : Z)
  : res (coder * part_cdfs * list Z) :=
  bsl <- idx mi_width_log2 bsize ;;
  let ctx := b2z left * 2 + b2z above in
  cdf <- idx (part_table t bsl) ctx ;;
  '(c, out, cdf) <- encode_symbol c p out cdf ;;
  Ok (c, part_set t bsl (set_nth (Z.to_nat ctx) cdf (part_table t bsl)), out).

(** One term of the sums: [partition_cdf[X] - partition_cdf[X - 1]], added to the
    running total from left to right (i32). *)
Definition psum_term (cdf : list Z) (acc x : Z) : res Z :=
  a <- idx cdf x ;;
  s <- chk_i32 (acc + a) ;;
  b <- idx cdf (x - 1) ;;
  chk_i32 (s - b).

Fixpoint psum_terms (cdf : list Z) (acc : Z) (xs : list Z) : res Z :=
  match xs with
  | [] => Ok acc
  | x :: r => s <- psum_term cdf acc x ;; psum_terms cdf s r
  end.

(** bool_coder.rs 455-464 and 481-490: the two-symbol CDF. Note the precedence:
    [1<<15 - psum] is [1 << (15 - psum)]. *)
Definition split_cdf (cdf : list Z) (bsize : Z) (terms : list Z) : res (list Z) :=
  psum <- psum_terms cdf 0 terms ;;
  psum <- (if bsize =? GeomModel.BLOCK_128X128 then Ok psum
           else a <- idx cdf PARTITION_VERT_4 ;; b <- idx cdf (PARTITION_VERT_4 - 1) ;;
                d <- chk_i32 (a - b) ;; chk_i32 (psum + d)) ;;
  k <- chk_i32 (15 - psum) ;;
  _ <- shift_ok 32 k ;;
  Ok [as_i32 (Z.shiftl 1 (shift_amt 32 k)); 32768; 0].

(** bool_coder.rs 441-465, [encode_split_or_horz]. *)
Definition code_split_or_horz (c : coder) (t : part_cdfs) (out : list Z) (bsize : Z) (above left : bool) (s : Z)
  : res (coder * list Z) :=
  bsl <- idx mi_width_log2 bsize ;;
  cdf <- idx (part_table t bsl) (b2z left * 2 + b2z above) ;;
  two <- split_cdf cdf bsize [PARTITION_VERT; PARTITION_VERT; PARTITION_VERT; PARTITION_VERT; PARTITION_VERT] ;;
  '(c, out, _) <- encode_symbol c s out two ;;
  Ok (c, out).

(** bool_coder.rs 467-491, [encode_split_or_vert]. *)
Definition code_split_or_vert (c : coder) (t : part_cdfs) (out : list Z) (bsize : Z) (above left : bool) (s : Z)
  : res (coder * list Z) :=
  bsl <- idx mi_width_log2 bsize ;;
  cdf <- idx (part_table t bsl) (b2z left * 2 + b2z above) ;;
  two <- split_cdf cdf bsize [PARTITION_VERT; PARTITION_SPLIT; PARTITION_HORZ_A; PARTITION_VERT_A; PARTITION_VERT_B] ;;
  '(c, out, _) <- encode_symbol c s out two ;;
  Ok (c, out).

Section Search.
Variable S : Type.
(** tile_encoder.rs 544, [encode_mode_info]: any function. *)
Variable mode_info : tstate S -> block_env -> list Z -> res (tstate S * list Z).
Variable e : tile_env.
(** tile_encoder.rs 509-545, [encode_block]. *)
Definition encode_block (st : tstate S) (r c bsize : Z) (out : list Z) : res (tstate S * list Z) :=
  bw4 <- idx num_4x4_blocks_wide bsize ;;
  bh4 <- idx num_4x4_blocks_high bsize ;;
  let hc := has_chroma e r c bw4 bh4 in
  let u := is_inside e (r - 1) c in
  let l := is_inside e r (c - 1) in
  let uc := if hc then if e_suby e && (bh4 =? 1) then is_inside e (r - 2) c else u else false in
  let lc := if hc then if e_subx e && (bw4 =? 1) then is_inside e r (c - 2) else l else false in
  mode_info (mkT (t_coder st) (t_cdf st) u l (t_rest st)) (GeomModel.mkBlk r c bsize hc uc lc) out.

(** tile_encoder.rs 355-381: the partition symbol. [None] is [continue]. *)
Definition signal_partition (st : tstate S) (bsize : Z) (has_rows has_cols : bool) (p : Z)
  : res (option (tstate S * list Z)) :=
  if negb (partition_tried bsize has_rows has_cols p) then Ok None
  else if bsize <? BLOCK_8X8 then Ok (Some (st, []))
  else if has_rows && has_cols then
    '(c, t, out) <- code_partition (t_coder st) (t_cdf st) [] bsize (t_avail_u st) (t_avail_l st) p ;;
    Ok (Some (mkT c t (t_avail_u st) (t_avail_l st) (t_rest st), out))
  else if has_cols then
    '(c, out) <- code_split_or_horz (t_coder st) (t_cdf st) [] bsize (t_avail_u st) (t_avail_l st)
                   (b2z (p =? PARTITION_SPLIT)) ;;
    Ok (Some (mkT c (t_cdf st) (t_avail_u st) (t_avail_l st) (t_rest st), out))
  else if has_rows then
    '(c, out) <- code_split_or_vert (t_coder st) (t_cdf st) [] bsize (t_avail_u st) (t_avail_l st)
                   (b2z (p =? PARTITION_SPLIT)) ;;
    Ok (Some (mkT c (t_cdf st) (t_avail_u st) (t_avail_l st) (t_rest st), out))
  else Ok (Some (st, [])).

(** The calls for one partition type, in order. *)
Fixpoint run_calls (f : tstate S -> Z -> Z -> Z -> list Z -> res (tstate S * list Z * ptree))
    (st : tstate S) (out : list Z) (calls : list (Z * Z * Z)) : res (tstate S * list Z * list ptree) :=
  match calls with
  | [] => Ok (st, out, [])
  | (r, c, b) :: rest =>
      '(st, out, t) <- f st r c b out ;;
      '(st, out, ts) <- run_calls f st out rest ;;
      Ok (st, out, t :: ts)
  end.

Definition leaf_call (st : tstate S) (r c b : Z) (out : list Z) : res (tstate S * list Z * ptree) :=
  '(st, out) <- encode_block st r c b out ;;
  Ok (st, out, PTree PARTITION_NONE b []).

(** tile_encoder.rs 352-502: the loop over the candidates. The coder, the CDFs
    and the rest of the state are not reset between candidates. [best] is what
    the first candidate left: the cost is always 0 and the comparison strict. *)
Fixpoint try_all (rec : tstate S -> Z -> Z -> Z -> list Z -> res (tstate S * list Z * ptree))
    (st : tstate S) (r c bsize : Z) (has_rows has_cols : bool)
    (best : option (coder * part_cdfs * list Z * ptree)) (ps : list Z)
  : res (tstate S * option (coder * part_cdfs * list Z * ptree)) :=
  match ps with
  | [] => Ok (st, best)
  | p :: ps =>
      sg <- signal_partition st bsize has_rows has_cols p ;;
      match sg with
      | None => try_all rec st r c bsize has_rows has_cols best ps
      | Some (st, bits) =>
          calls <- sub_blocks p bsize r c (e_mi_rows e) (e_mi_cols e) ;;
          '(st, bits, ts) <- run_calls (if p =? PARTITION_SPLIT then rec else leaf_call) st bits calls ;;
          let node := PTree p bsize (if p =? PARTITION_NONE then [] else ts) in
          try_all rec st r c bsize has_rows has_cols
            (match best with Some b => Some b | None => Some (t_coder st, t_cdf st, bits, node) end) ps
      end
  end.

Definition partitions_in_order : list Z := [0; 1; 2; 3; 4; 5; 6; 7; 8; 9].

(** tile_encoder.rs 332-507, [encode_partition]. [fuel] bounds the recursion
    depth; block sizes shrink, so 6 is enough. *)
Fixpoint encode_partition (fuel : nat) (st : tstate S) (r c bsize : Z) (out : list Z)
  : res (tstate S * list Z * ptree) :=
  match fuel with
  | O => Hang
  | Datatypes.S fuel =>
      if (e_mi_rows e <=? r) || (e_mi_cols e <=? c) then Ok (st, out, PTree PARTITION_NONE bsize [])
      else
        let st := mkT (t_coder st) (t_cdf st) (is_inside e (r - 1) c) (is_inside e r (c - 1)) (t_rest st) in
        num4x4 <- idx num_4x4_blocks_wide bsize ;;
        let half := Z.shiftr num4x4 1 in
        let has_rows := r + half <? e_mi_rows e in
        let has_cols := c + half <? e_mi_cols e in
        '(st', best) <- try_all (encode_partition fuel) st r c bsize has_rows has_cols None partitions_in_order ;;
        match best with
        | Some (cd, t, bits, node) =>
            Ok (mkT cd t (t_avail_u st') (t_avail_l st') (t_rest st'), push_bits out bits, node)
        | None =>
            Ok (mkT (t_coder st) (t_cdf st) (t_avail_u st') (t_avail_l st') (t_rest st'), out,
                PTree PARTITION_NONE bsize [])
        end
  end.

(** tile_encoder.rs 324-330, [encode_superblock]; x and y are in pixels. *)
Definition encode_superblock (fuel : nat) (st : tstate S) (sb_size x y : Z) (out : list Z)
  : res (tstate S * list Z * ptree) :=
  encode_partition fuel st (y / 4) (x / 4) sb_size out.

End Search.

(** ** TileModel *)

(** frame.rs 385-391, [tile_cols_log2] and [tile_rows_log2] of a number of tiles. *)
Definition tiles_log2 (n : Z) : res Z := msb16 (as_u16 n).

(** obu_encoder.rs 773-816. [tile_cols] and [tile_rows] are the lengths of the
    frame's tile_col_starts and tile_row_starts; [cs] and [rs] are the vectors
    mi_col_starts and mi_row_starts of the encoder context. The branch for
    non-uniform spacing is an empty TODO. Returns the output and the vectors. *)
Definition encode_tile_info (out : list Z) (mi_cols mi_rows : Z) (use128 uniform : bool) (tile_cols tile_rows : Z)
    (update_id size_bytes : Z) (cs rs : list Z) : res (list Z * list Z * list Z) :=
  L <- compute_limits mi_cols mi_rows use128 ;;
  let out := push out (b2z uniform) in
  '(out, cs, rs) <-
    (if uniform then
       cl <- tiles_log2 tile_cols ;;
       n <- chk_u64 (cl - l_min_cols L) ;;
       let out := push (push_n (Z.to_nat n) out 1) 0 in
       _ <- shift_ok 64 cl ;;
       let tile_width_sb := Z.shiftr (l_sb_cols L + Z.shiftl 1 (shift_amt 64 cl) - 1) (shift_amt 64 cl) in
       cs <- fill_starts (S (Z.to_nat (l_sb_cols L))) cs 0 0 (l_sb_cols L) tile_width_sb (l_sb_shift L) mi_cols ;;
       min_rows <- chk_u64 (l_min_tiles L - cl) ;;
       rl <- tiles_log2 tile_rows ;;
       n <- chk_u64 (rl - min_rows) ;;
       let out := push (push_n (Z.to_nat n) out 1) 0 in
       let tile_height_sb := Z.shiftr (l_sb_rows L + Z.shiftl 1 rl - 1) rl in
       rs <- fill_starts (S (Z.to_nat (l_sb_rows L))) rs 0 0 (l_sb_rows L) tile_height_sb (l_sb_shift L) mi_rows ;;
       Ok (out, cs, rs)
     else Ok (out, cs, rs)) ;;
  cl <- tiles_log2 tile_cols ;;
  rl <- tiles_log2 tile_rows ;;
  if (0 <? cl) || (0 <? rl) then
    out <- push_bits_with_size out (as_u32 update_id) (as_u8 (rl + cl)) ;;
    b <- chk_u64 (size_bytes - 1) ;;
    out <- push_bits_with_size out (as_u32 b) 2 ;;
    Ok (out, cs, rs)
  else Ok (out, cs, rs).

Section Tile.
(** The state of the encoder apart from frame.cdef_idx, and the code of one
    superblock (tile_encoder.rs 164-168: [encode_lr] and [encode_superblock]),
    which is handed row and column: any function. *)
Variable T : Type.
Variable superblock : T -> list (list Z) -> Z -> Z -> Z -> list Z -> res (T * list (list Z) * list Z).
(** tile_encoder.rs 147-171: one row of superblocks; fuel as for [fill_starts]. *)
Fixpoint sb_row (fuel : nat) (use128 : bool) (sb_size sb4 r c col_end : Z) (st : T) (cdef : list (list Z)) (out : list Z)
  : res (T * list (list Z) * list Z) :=
  match fuel with
  | O => Hang
  | S f =>
      if c <? col_end then
        cdef <- clear_cdef cdef use128 r c ;;
        '(st, cdef, out) <- superblock st cdef r c sb_size out ;;
        sb_row f use128 sb_size sb4 r (c + sb4) col_end st cdef out
      else Ok (st, cdef, out)
  end.

Fixpoint sb_rows (fuel : nat) (use128 : bool) (sb_size sb4 r row_end col_start col_end : Z)
    (st : T) (cdef : list (list Z)) (out : list Z) : res (T * list (list Z) * list Z) :=
  match fuel with
  | O => Hang
  | S f =>
      if r <? row_end then
        '(st, cdef, out) <-
           sb_row (S (Z.to_nat (col_end - col_start))) use128 sb_size sb4 r col_start col_end st cdef out ;;
        sb_rows f use128 sb_size sb4 (r + sb4) row_end col_start col_end st cdef out
      else Ok (st, cdef, out)
  end.

(** tile_encoder.rs 112-177, [encode_tile]. Left out here and modelled
    in WholeTileModel: the reset of delta_lf, ref_sgr_xqd and ref_lr_wiener
    (126-138) and the restoration units (168). *)
Definition encode_tile (borrowed use128 : bool) (tile_num tile_cols tile_rows : Z) (cs rs : list Z)
    (st : T) (cdef : list (list Z)) (out : list Z) : res (T * list (list Z) * list Z) :=
  _ <- borrow_mut borrowed ;;
  '(row_start, row_end, col_start, col_end) <- tile_bounds tile_num tile_cols tile_rows cs rs ;;
  let sb_size := if use128 then GeomModel.BLOCK_128X128 else GeomModel.BLOCK_64X64 in
  sb4 <- idx num_4x4_blocks_wide sb_size ;;
  sb_rows (S (Z.to_nat (row_end - row_start))) use128 sb_size sb4 row_start row_end col_start col_end st cdef out.

(** obu_encoder.rs 1428-1441: the tiles from [n] on, [k] of them. The borrow taken
    in line 1409 is held during the whole loop, so [encode_tile] is called with the
    cell borrowed. The bits of the tile go to a local vector that is dropped. *)
Fixpoint tile_loop (k : nat) (n tg_end : Z) (use128 : bool) (tile_cols tile_rows size_bytes : Z) (cs rs : list Z)
    (st : T) (cdef : list (list Z)) (out : list Z) : res (T * list (list Z) * list Z) :=
  match k with
  | O => Ok (st, cdef, out)
  | S k' =>
      '(st, cdef, bits) <- encode_tile true use128 n tile_cols tile_rows cs rs st cdef [] ;;
      let bytes := (len bits + 7) / 8 in
      out <- (if n =? tg_end then Ok out
              else b <- chk_u64 (bytes - 1) ;; encode_le out b (as_u8 size_bytes)) ;;
      tile_loop k' (n + 1) tg_end use128 tile_cols tile_rows size_bytes cs rs st cdef out
  end.

(** obu_encoder.rs 1408-1450, the payload of OBU_TILE_GROUP. [groups] is the length
    of frame.tile_groups. *)
Definition encode_tile_group (out : list Z) (use128 : bool) (tile_cols tile_rows groups tg_start tg_end size_bytes : Z)
    (cs rs : list Z) (st : T) (cdef : list (list Z)) : res (T * list (list Z) * list Z) :=
  let num_tiles := tile_cols * tile_rows in
  let out := if 1 <? num_tiles then push out (b2z (0 <? groups)) else out in
  '(tg_start, tg_end, out) <-
    (if (num_tiles =? 1) || (groups =? 0) then
       e <- chk_u64 (num_tiles - 1) ;; Ok (0, e, out)
     else
       cl <- tiles_log2 tile_cols ;;
       rl <- tiles_log2 tile_rows ;;
       out <- push_bits_with_size out (as_u32 tg_start) (as_u8 (cl + rl)) ;;
       out <- push_bits_with_size out (as_u32 tg_end) (as_u8 (cl + rl)) ;;
       Ok (tg_start, tg_end, out)) ;;
  let out := push_bits_align out in
  tile_loop (Z.to_nat (tg_end + 1 - tg_start)) tg_start tg_end use128 tile_cols tile_rows size_bytes cs rs st cdef out.

End Tile.

(** ** ContextModel *)

Definition run_writer (c : coder) (s : cdfs) (out : list Z) (w : wr) : res (coder * cdfs * list Z) :=
  '(name, path, symbol) <- w ;;
  t <- ContextModel.field s name ;;
  row <- tab_get t path ;;
  '(c, out, row) <- encode_symbol c symbol out row ;;
  Ok (c, set_field s name (tab_set t path row), out).

Definition abs_i64 (v : Z) : res Z := if 0 <=? v then Ok v else chk_i64 (- v).

Definition base_ctx (tx_size tx_type pos c : Z) (is_eob : bool) (quant : list Z) : res Z :=
  adj <- idx adjusted_tx_size tx_size ;;
  bwl <- idx tx_width_log2 adj ;;
  let width := Z.shiftl 1 bwl in
  height <- idx tx_height adj ;;
  if is_eob then
    if c =? 0 then Ok (SIG_COEF_CONTEXTS - 4)
    else if c <=? Z.shiftl height bwl / 8 then Ok (SIG_COEF_CONTEXTS - 3)
    else if c <=? Z.shiftl height bwl / 4 then Ok (SIG_COEF_CONTEXTS - 2)
    else Ok (SIG_COEF_CONTEXTS - 1)
  else
    let tx_class := get_tx_class tx_type in
    let row := Z.shiftr pos bwl in
    let col := pos - Z.shiftl row bwl in
    offs <- idx sig_ref_diff_offset tx_class ;;
    mag <- sum_mag offs row col bwl width height quant (fun q => a <- abs_i64 q ;; Ok (Z.min a 3)) 0 ;;
    let ctx := Z.min (Z.shiftr (mag + 1) 1) 4 in
    if tx_class =? TX_CLASS_2D then
      if (row =? 0) && (col =? 0) then Ok 0
      else o <- idx3 coeff_base_ctx_offset tx_size (Z.min row 4) (Z.min col 4) ;; Ok (ctx + o)
    else
      let i := if tx_class =? TX_CLASS_VERT then row else col in
      o <- idx coeff_base_pos_ctx_offset (Z.min i 2) ;;
      Ok (ctx + o).

Definition get_coeff_base_ctx (tx_size plane block_x block_y pos c : Z) (is_eob : bool) (f : frame)
    (lossless is_inter reduced : bool) (uv_mode r col : Z) (quant : list Z) : res Z :=
  tx_type <- compute_tx_type plane tx_size block_x block_y f lossless is_inter reduced uv_mode r col ;;
  base_ctx tx_size tx_type pos c is_eob quant.

Definition encode_angle_delta (s mode : Z) : wr := i <- chk_u64 (mode - V_PRED) ;; Ok ("angle_delta", [i], s).

Definition encode_txfm_split (s row col r c : Z) (f : frame) (tx_size mi_size : Z) : wr :=
  above <- (if row =? r then a <- get_above_mi f row col ;; split_size a
            else a <- get_above_mi f row col ;; a <- unwrap a ;; idx tx_width (m_tx_size a)) ;;
  left <- (if col =? c then l <- get_left_mi f row col ;; split_size l
           else a <- get_above_mi f row col ;; a <- unwrap a ;; idx tx_width (m_tx_size a)) ;;
  w <- idx block_width mi_size ;; h <- idx block_height mi_size ;;
  let size := Z.min 64 (Z.max w h) in
  max_tx <- find_tx_size size size ;;
  up <- idx tx_size_sqr_up tx_size ;;
  rest <- chk_u64 (TX_SIZES - 1 - max_tx) ;;
  Ok ("txfm_split", [b2z (negb (up =? max_tx) && (TX_8X8 <? max_tx)) * 3 + rest * 6 + above + left], s).

(** bool_coder.rs 967-977. [pos] is scan[c]. The subtraction comes first (usize). *)
Definition encode_coeff_base (s tx_size tx_size_ctx ptype plane x4 y4 pos ci : Z) (f : frame)
    (lossless is_inter reduced : bool) (uv_mode r c : Z) (quant : list Z) : wr :=
  ctx <- get_coeff_base_ctx tx_size plane x4 y4 pos ci false f lossless is_inter reduced uv_mode r c quant ;;
  Ok ("coeff_base", [0; tx_size_ctx; ptype; ctx], s).

Definition encode_coeff_base_eob (s tx_size tx_size_ctx ptype plane x4 y4 pos ci : Z) (f : frame)
    (lossless is_inter reduced : bool) (uv_mode r c : Z) (quant : list Z) : wr :=
  ctx <- get_coeff_base_ctx tx_size plane x4 y4 pos ci true f lossless is_inter reduced uv_mode r c quant ;;
  ctx <- chk_u64 (ctx - SIG_COEF_CONTEXTS) ;;
  ctx <- chk_u64 (ctx + SIG_COEF_CONTEXTS_EOB) ;;
  Ok ("coeff_base_eob", [0; tx_size_ctx; ptype; ctx], s).

(** bool_coder.rs 1242-1263. *)
Definition encode_compound_idx (s : Z) (order_hints : list Z) (order_hint ref0 ref1 : Z) (f : frame) (r c : Z)
    (enable_order_hint : bool) (order_hint_bits : Z) : wr :=
  h0 <- idx order_hints ref0 ;;
  d0 <- get_relative_dist h0 order_hint enable_order_hint order_hint_bits ;; fwd <- abs_i64 d0 ;;
  h1 <- idx order_hints ref1 ;;
  d1 <- get_relative_dist h1 order_hint enable_order_hint order_hint_bits ;; bwd <- abs_i64 d1 ;;
  n <- nb_sum (fun m => if negb (m_single m) then m_compound_idx m else if m_ref0 m =? ALTREF_FRAME then 1 else 0) f r c ;;
  Ok ("compound_idx", [(if fwd =? bwd then 3 else 0) + n], s).

Definition encode_cfl_alpha_v (s signs : Z) : wr :=
  if signs mod 3 <? 2 then ctx <- chk_u64 (signs mod 3 * 3 + signs / 3 - 1) ;; Ok ("cfl_alpha", [ctx], s) else Panic.

(** ** MvStackModel *)

(** util.rs 25-31 on isize, for n > 0. The value for a negative x is not negated. *)
Definition Round2 (x n : Z) : res Z := t <- chk_i64 (x + Z.shiftl 1 (n - 1)) ;; Ok (Z.shiftr t n).

Definition Round2Signed (x n : Z) : res Z :=
  if 0 <=? x then Round2 x n else m <- chk_i64 (- x) ;; Round2 m n.

Definition lower_mv (e : mv_env) (m : mv) : res mv :=
  x <- lower_mv_precision (v_int e) (fst m) ;;
  y <- lower_mv_precision (v_int e) (snd m) ;;
  Ok (x, y).

(** tile_encoder.rs 894-953, closure [setup_global_mv]: the vector for one reference. *)
Definition global_mv (e : mv_env) (rf : Z) : res mv :=
  typ <- (if rf =? INTRA then Ok 0 else idx (v_gm_type e) rf) ;;
  bw <- idx block_width (v_size e) ;;
  bh <- idx block_height (v_size e) ;;
  m <- (if (rf =? INTRA) || (typ =? MvStackModel.IDENTITY) then Ok (0, 0)
        else
          p <- idx (v_gm_params e) rf ;;
          p0 <- idx p 0 ;; p1 <- idx p 1 ;;
          if typ =? MvStackModel.TRANSLATION then
            Ok (Z.shiftr p0 (MvStackModel.WARPEDMODEL_PREC_BITS - 3), Z.shiftr p1 (MvStackModel.WARPEDMODEL_PREC_BITS - 3))
          else
            p2 <- idx p 2 ;; p3 <- idx p 3 ;; p4 <- idx p 4 ;; p5 <- idx p 5 ;;
            let x := v_col e * 4 + bw / 2 - 1 in
            let y := v_row e * 4 + bh / 2 - 1 in
            d2 <- chk_i64 (p2 - Z.shiftl 1 MvStackModel.WARPEDMODEL_PREC_BITS) ;;
            t0 <- chk_i64 (d2 * x) ;; t1 <- chk_i64 (p3 * y) ;; t <- chk_i64 (t0 + t1) ;;
            xc <- chk_i64 (t + p0) ;;
            d5 <- chk_i64 (p5 - Z.shiftl 1 MvStackModel.WARPEDMODEL_PREC_BITS) ;;
            u0 <- chk_i64 (p4 * x) ;; u1 <- chk_i64 (d5 * y) ;; u <- chk_i64 (u0 + u1) ;;
            yc <- chk_i64 (u + p1) ;;
            if v_hp e then
              a <- Round2Signed xc (MvStackModel.WARPEDMODEL_PREC_BITS - 3) ;;
              b <- Round2Signed yc (MvStackModel.WARPEDMODEL_PREC_BITS - 3) ;;
              Ok (a, b)
            else
              a <- Round2Signed xc (MvStackModel.WARPEDMODEL_PREC_BITS - 2) ;; a <- chk_i64 (a * 2) ;;
              b <- Round2Signed yc (MvStackModel.WARPEDMODEL_PREC_BITS - 2) ;; b <- chk_i64 (b * 2) ;;
              Ok (a, b)) ;;
  lower_mv e m.

(** tile_encoder.rs 954-957. *)
Definition setup_global_mvs (e : mv_env) (is_compound : bool) (s : mv_state) : res mv_state :=
  g0 <- global_mv e (v_ref0 e) ;;
  if is_compound then g1 <- global_mv e (v_ref1 e) ;; Ok (set_global (g0, g1) s)
  else Ok (set_global (g0, snd (s_global s)) s).

(** tile_encoder.rs 1244-1260, 1301-1319, 1111-1125, 1143-1161: add a weight to an
    equal entry or append a new one if there is room. Without [is_compound] only the
    first vector of an entry is compared and stored. *)
Definition stack_add (is_compound : bool) (m : mv * mv) (weight : Z) (s : mv_state) : res mv_state :=
  let eq t := mv_eqb (fst m) (fst t) && (negb is_compound || mv_eqb (snd m) (snd t)) in
  i <- search eq (s_stack s) (Z.to_nat (s_num s)) 0 ;;
  if i <? s_num s then
    w <- idx (s_weights s) i ;;
    w <- chk_u64 (w + weight) ;;
    Ok (set_list (s_num s) (s_stack s) (set_nth (Z.to_nat i) w (s_weights s)) s)
  else if s_num s <? MAX_REF_MV_STACK_SIZE then
    t <- idx (s_stack s) (s_num s) ;;
    _ <- idx (s_weights s) (s_num s) ;;
    Ok (set_list (s_num s + 1)
          (set_nth (Z.to_nat (s_num s)) (fst m, if is_compound then snd m else snd t) (s_stack s))
          (set_nth (Z.to_nat (s_num s)) weight (s_weights s)) s)
  else Ok s.

Definition count_new (mode : Z) (s : mv_state) : res mv_state :=
  if has_newmv mode then n <- chk_u64 (s_new s + 1) ;; Ok (set_new n s) else Ok s.

(** tile_encoder.rs 1194-1262: one round of the loop over [cand_list]. *)
Definition search_stack (e : mv_env) (b : nbr) (m : mv) (weight : Z) (s : mv_state) : res mv_state :=
  bw <- idx block_width (b_size b) ;;
  bh <- idx block_height (b_size b) ;;
  let large := 8 <=? Z.min bw bh in
  cand <- (if (b_mode b =? GLOBALMV) || (b_mode b =? GLOBAL_GLOBALMV) then
             typ <- idx (v_gm_type e) (v_ref0 e) ;;
             Ok (if (MvStackModel.TRANSLATION <? typ) && large then fst (s_global s) else m)
           else Ok m) ;;
  cand <- lower_mv e cand ;;
  s <- count_new (b_mode b) s ;;
  stack_add false (cand, (0, 0)) weight (set_found true s).

(** tile_encoder.rs 1264-1331. *)
Definition compound_search_stack (e : mv_env) (b : nbr) (weight : Z) (s : mv_state) : res mv_state :=
  '(c0, c1) <- (if b_mode b =? GLOBAL_GLOBALMV then
                  t0 <- idx (v_gm_type e) (v_ref0 e) ;;
                  t1 <- idx (v_gm_type e) (v_ref1 e) ;;
                  Ok (if MvStackModel.TRANSLATION <? t0 then fst (s_global s) else b_mv0 b,
                      if MvStackModel.TRANSLATION <? t1 then snd (s_global s) else b_mv1 b)
                else Ok (b_mv0 b, b_mv1 b)) ;;
  c0 <- lower_mv e c0 ;;
  c1 <- lower_mv e c1 ;;
  s <- stack_add true (c0, c1) weight (set_found true s) ;;
  count_new (b_mode b) s.

(** tile_encoder.rs 1186-1335, [add_ref_mv_candidate] (the position is not used). *)
Definition add_ref_mv_candidate (e : mv_env) (is_compound : bool) (weight : Z) (b : nbr) (s : mv_state)
  : res mv_state :=
  if b_is_inter b then
    if negb is_compound then
      s <- (if b_ref0 b =? v_ref0 e then search_stack e b (b_mv0 b) weight s else Ok s) ;;
      (if b_ref1 b =? v_ref0 e then search_stack e b (b_mv1 b) weight s else Ok s)
    else if (b_ref0 b =? v_ref0 e) && (b_ref1 b =? v_ref1 e) then compound_search_stack e b weight s
    else Ok s
  else Ok s.

(** tile_encoder.rs 962-993 with delta_row = -1, the only call; the lines for
    |d_row| > 1 do nothing then. Every round moves on by at least one unit. *)
Fixpoint scan_row_loop (fuel : nat) (e : mv_env) (is_compound : bool) (bw4 end4 i : Z) (s : mv_state)
  : res mv_state :=
  if i <? end4 then
    match fuel with
    | O => Hang
    | S fuel =>
        let r := v_row e - 1 in
        let c := v_col e + i in
        if negb (is_inside (v_tile e) r c) then Ok s
        else
          b <- get_nbr e r c ;;
          w <- idx num_4x4_blocks_wide (b_size b) ;;
          let l := Z.min bw4 w in
          let l := if 16 <=? bw4 then Z.max 4 l else l in
          s <- add_ref_mv_candidate e is_compound (l * 2) b s ;;
          scan_row_loop fuel e is_compound bw4 end4 (i + l) s
    end
  else Ok s.

Definition scan_row (e : mv_env) (is_compound : bool) (s : mv_state) : res mv_state :=
  bw4 <- idx num_4x4_blocks_wide (v_size e) ;;
  left <- chk_u64 (e_mi_cols (v_tile e) - v_col e) ;;
  let end4 := Z.min (Z.min bw4 left) 16 in
  scan_row_loop (Z.to_nat end4) e is_compound bw4 end4 0 s.

(** tile_encoder.rs 999-1030 with delta_col = -1. *)
Fixpoint scan_col_loop (fuel : nat) (e : mv_env) (is_compound : bool) (bh4 end4 i : Z) (s : mv_state)
  : res mv_state :=
  if i <? end4 then
    match fuel with
    | O => Hang
    | S fuel =>
        let r := v_row e + i in
        let c := v_col e - 1 in
        if negb (is_inside (v_tile e) r c) then Ok s
        else
          b <- get_nbr e r c ;;
          h <- idx num_4x4_blocks_high (b_size b) ;;
          let l := Z.min bh4 h in
          let l := if 16 <=? bh4 then Z.max 4 l else l in
          s <- add_ref_mv_candidate e is_compound (l * 2) b s ;;
          scan_col_loop fuel e is_compound bh4 end4 (i + l) s
    end
  else Ok s.

Definition scan_col (e : mv_env) (is_compound : bool) (s : mv_state) : res mv_state :=
  bh4 <- idx num_4x4_blocks_high (v_size e) ;;
  left <- chk_u64 (e_mi_rows (v_tile e) - v_row e) ;;
  let end4 := Z.min (Z.min bh4 left) 16 in
  scan_col_loop (Z.to_nat end4) e is_compound bh4 end4 0 s.

(** tile_encoder.rs 1036-1047: the block is looked up before the test. *)
Definition scan_point (e : mv_env) (is_compound : bool) (bw4 : Z) (s : mv_state) : res mv_state :=
  let r := v_row e - 1 in
  let c := v_col e + bw4 in
  b <- get_nbr e r c ;;
  if is_inside (v_tile e) r c && negb (b_ref0 b =? -1) then add_ref_mv_candidate e is_compound 4 b s
  else Ok s.

(** tile_encoder.rs 1055-1059. *)
Fixpoint add_level (n : nat) (i : Z) (ws : list Z) : res (list Z) :=
  match n with
  | O => Ok ws
  | S n =>
      w <- idx ws i ;;
      w <- chk_u64 (w + REF_CAT_LEVEL) ;;
      add_level n (i + 1) (set_nth (Z.to_nat i) w ws)
  end.

(** Is the candidate at least two samples away from the global vector? *)
Definition far (m g : mv) : res bool :=
  dx <- chk_i64 (fst m - fst g) ;;
  ax <- (if 0 <=? dx then Ok dx else chk_i64 (- dx)) ;;
  if 16 <=? ax then Ok true
  else
    dy <- chk_i64 (snd m - snd g) ;;
    ay <- (if 0 <=? dy then Ok dy else chk_i64 (- dy)) ;;
    Ok (16 <=? ay).

(** tile_encoder.rs 1071-1163: one temporal sample. *)
Definition temporal_sample (e : mv_env) (is_compound : bool) (dr dc : Z) (s : mv_state) : res mv_state :=
  let r := Z.lor (v_row e + dr) 1 in
  let c := Z.lor (v_col e + dc) 1 in
  if is_inside (v_tile e) r c then
    let y8 := Z.shiftr r 1 in
    let x8 := Z.shiftr c 1 in
    let first := (dr =? 0) && (dc =? 0) in
    let s := if first then set_zero 1 s else s in
    if negb is_compound then
      m <- field_mv e (v_ref0 e) y8 x8 ;;
      if fst m =? INVALID_MV then Ok s
      else
        m <- lower_mv e m ;;
        s <- (if first then f <- far m (fst (s_global s)) ;; Ok (set_zero (b2z f) s) else Ok s) ;;
        stack_add false (m, (0, 0)) 2 s
    else
      m0 <- field_mv e (v_ref0 e) y8 x8 ;;
      m1 <- field_mv e (v_ref1 e) y8 x8 ;;
      if (fst m0 =? INVALID_MV) || (fst m1 =? INVALID_MV) then Ok s
      else
        m0 <- lower_mv e m0 ;;
        m1 <- lower_mv e m1 ;;
        s <- (if first then
                f0 <- far m0 (fst (s_global s)) ;;
                f <- (if f0 : bool then Ok true else far m1 (snd (s_global s))) ;;
                Ok (set_zero (b2z f) s)
              else Ok s) ;;
        stack_add true (m0, m1) 2 s
  else Ok s.

(** tile_encoder.rs 1067-1169: the samples in order; at most 16 x 16 units. *)
Fixpoint temporal_cols (fuel : nat) (e : mv_env) (is_compound : bool) (dr step lim dc : Z) (s : mv_state)
  : res mv_state :=
  if dc <? lim then
    match fuel with
    | O => Hang
    | S fuel =>
        s <- temporal_sample e is_compound dr dc s ;;
        temporal_cols fuel e is_compound dr step lim (dc + step) s
    end
  else Ok s.

Fixpoint temporal_rows (fuel : nat) (e : mv_env) (is_compound : bool) (stepr limr stepc limc dr : Z) (s : mv_state)
  : res mv_state :=
  if dr <? limr then
    match fuel with
    | O => Hang
    | S fuel =>
        s <- temporal_cols 16 e is_compound dr stepc limc 0 s ;;
        temporal_rows fuel e is_compound stepr limr stepc limc (dr + stepr) s
    end
  else Ok s.

(** tile_encoder.rs 885-1184, [find_mv_stack]. The loop over [tpl_sample_pos] has an
    empty body. The list is not sorted and no further rows or columns are scanned. *)
Definition find_mv_stack (e : mv_env) (is_compound : bool) (s : mv_state) : res mv_state :=
  bw4 <- idx num_4x4_blocks_wide (v_size e) ;;
  bh4 <- idx num_4x4_blocks_high (v_size e) ;;
  let s := set_new 0 (set_list 0 (s_stack s) (s_weights s) s) in
  s <- setup_global_mvs e is_compound s ;;
  s <- scan_row e is_compound (set_found false s) ;;
  let above := s_found s in
  s <- scan_col e is_compound (set_found false s) ;;
  let left := s_found s in
  let s := set_found false s in
  s <- (if Z.max bw4 bh4 <=? 16 then scan_point e is_compound bw4 s else Ok s) ;;
  let above := above || s_found s in
  let s := set_close (b2z above + b2z left) s in
  ws <- add_level (Z.to_nat (s_num s)) 0 (s_weights s) ;;
  let s := set_zero 0 (set_list (s_num s) (s_stack s) ws s) in
  temporal_rows 16 e is_compound (if 16 <=? bh4 then 4 else 2) (Z.min bh4 16)
    (if 16 <=? bw4 then 4 else 2) (Z.min bw4 16) 0 s.

(** ** ModeInfoModel *)

(** ** Prediction mode and index in the list *)
(** tile_encoder.rs 828-844. [y_mode] is the field of the tile encoder; the branch
    for two references does not assign it. *)
Definition inter_mode (is_compound : bool) (compound_mode : Z) (new_mv zero_mv ref_mv : bool)
  (ref_ctx new_ctx zero_ctx y_mode : Z) (es : list ev) : res (list ev * Z) :=
  if is_compound then
    m <- chk_u64 (compound_mode - NEAREST_NEARESTMV) ;;
    es <- ModeInfoModel.emit (encode_compound_mode m ref_ctx new_ctx) es ;;
    Ok (es, y_mode)
  else
    es <- ModeInfoModel.emit (encode_new_mv (b2z new_mv) new_ctx) es ;;
    if negb new_mv then Ok (es, NEWMV)
    else
      es <- ModeInfoModel.emit (encode_zero_mv (b2z zero_mv) zero_ctx) es ;;
      if negb zero_mv then Ok (es, GLOBALMV)
      else
        es <- ModeInfoModel.emit (encode_ref_mv (b2z ref_mv) ref_ctx) es ;;
        Ok (es, if negb ref_mv then NEARESTMV else NEARMV).

(** tile_encoder.rs 1358-1377: the prediction for intra block copy. *)
Definition intrabc_pred (x : mv_in) : res mv :=
  t0 <- idx (n_list x) 0 ;;
  t1 <- idx (n_list x) 1 ;;
  let p := if mv_eqb (fst t0) (0, 0) then fst t1 else fst t0 in
  if mv_eqb p (0, 0) then
    let sb_size4 := if n_sb128 x then 32 else 16 in
    top <- chk_u64 (n_row x - sb_size4) ;;
    if top <? n_row_start x then Ok (0, - (sb_size4 * 4 + 256) * 8)
    else Ok (- (sb_size4 * 4 * 8), 0)
  else Ok p.

(** tile_encoder.rs 1357-1388: [pred_mv[i]] (for intra block copy always list 0). *)
Definition pred_mvs (x : mv_in) (i mode : Z) (pred : mv * mv) : res (mv * mv) :=
  if n_intrabc x then p <- intrabc_pred x ;; Ok (ModeInfoModel.set_at 0 p pred)
  else if mode =? GLOBALMV then Ok (ModeInfoModel.set_at i (at_list i (n_globals x)) pred)
  else
    let pos := if (mode =? NEWMV) && (n_num x <=? 1) then 0 else if mode =? NEARESTMV then 0 else n_idx x in
    t <- idx (n_list x) pos ;;
    Ok (ModeInfoModel.set_at i (at_list i t) pred).

(** tile_encoder.rs 1329-1439. [mvs] and [pred] are [part_tree.mvs] and [pred_mv];
    the difference is always that of list 0, only the joint type is coded, and the
    closure for the components is not called. The result also has the last value of
    [part_tree.compound_mode]. *)
Fixpoint assign_mv_loop (is : list Z) (x : mv_in) (mvs pred : mv * mv) (mode : Z) (es : list ev)
  : res (list ev * (mv * mv) * (mv * mv) * Z) :=
  match is with
  | [] => Ok (es, mvs, pred, mode)
  | i :: rest =>
      let mode := if n_intrabc x then NEWMV else get_mode (n_y_mode x) i in
      pred <- pred_mvs x i mode pred ;;
      if mode =? NEWMV then
        dx <- chk_i64 (fst (fst mvs) - fst (fst pred)) ;;
        dy <- chk_i64 (snd (fst mvs) - snd (fst pred)) ;;
        es <- ModeInfoModel.emit (encode_mv_joint (mv_joint (dx, dy)) (if n_intrabc x then 1 else 0)) es ;;
        assign_mv_loop rest x mvs pred mode es
      else assign_mv_loop rest x (ModeInfoModel.set_at i (at_list i pred) mvs) pred mode es
  end.

Definition assign_mv (is_compound : bool) (x : mv_in) (mvs pred : mv * mv) (mode : Z) (es : list ev)
  : res (list ev * (mv * mv) * (mv * mv) * Z) :=
  assign_mv_loop (if is_compound then [0; 1] else [0]) x mvs pred mode es.

Definition code_segment_id (avail_u avail_l : bool) (ids : list (list (option Z))) (r c : Z) (skip : bool)
  (last_active_seg_id segment_id : Z) (es : list ev) : res (list ev * Z) :=
  ul <- (if avail_u && avail_l then seg_at ids (r - 1) (c - 1) else Ok (-1)) ;;
  u <- (if avail_u then seg_at ids (r - 1) c else Ok (-1)) ;;
  l <- (if avail_l then seg_at ids r (c - 1) else Ok (-1)) ;;
  let pred := if u =? -1 then if l =? -1 then 0 else l else if l =? -1 then u else if ul =? u then u else l in
  if skip then Ok (es, pred)
  else
    v <- neg_interleave segment_id pred (last_active_seg_id + 1) ;;
    es <- ModeInfoModel.emit (encode_segment_id v u l ul) es ;;
    Ok (es, segment_id).

(** tile_encoder.rs 602-608 and 622-630. *)
Definition intra_segment_id (x : mode_env) (b : blk) (t : mode_state) (es : list ev) : res (list ev * blk * mode_state) :=
  '(es, seg) <- (if x_seg_on x then
                   code_segment_id (x_avail_u x) (x_avail_l x) (view i_seg (x_mis x)) (x_row x) (x_col x) false 0 (p_seg b) es
                 else Ok (es, 0)) ;;
  l <- idx (x_lossless x) seg ;;
  Ok (es, with_seg seg b, with_lossless l t).

Fixpoint code_delta_lf (n : nat) (i : Z) (x : mode_env) (lf : list Z) (cur : list Z) (es : list ev) : res (list ev * list Z) :=
  match n with
  | O => Ok (es, cur)
  | S n =>
      v <- idx lf i ;;
      p <- idx cur i ;;
      '(ops, p') <- delta_lf_ops 0 v p (x_lf_res x) ;;
      '(name, path, _) <- encode_delta_lf_abs 0 (b2z (x_lf_multi x)) i ;;
      code_delta_lf n (i + 1) x lf (set_nth (Z.to_nat i) p' cur) (es ++ map (ev_of_op name path) ops)
  end.

Definition code_deltas (x : mode_env) (b : blk) (t : mode_state) (es : list ev) : res (list ev * mode_state) :=
  let sb_size := if x_sb128 x then ModeInfoModel.BLOCK_128X128 else ModeInfoModel.BLOCK_64X64 in
  let on := negb ((p_bsize b =? sb_size) && p_skip b) && t_read_deltas t in
  '(es, q) <- (if on then
                 '(ops, q) <- delta_q_ops 0 (p_q b) (t_cur_q t) (x_dq_res x) ;;
                 Ok (es ++ map (ev_of_op "delta_q" []) ops, q)
               else Ok (es, t_cur_q t)) ;;
  '(es, lf) <- (if on && x_lf_present x then
                  code_delta_lf (if x_lf_multi x then if 1 <? x_planes x then 4%nat else 2%nat else 1%nat) 0 x (p_lf b)
                    (t_cur_lf t) es
                else Ok (es, t_cur_lf t)) ;;
  Ok (es, with_deltas q lf false t).

Definition code_inter (x : mode_env) (b : blk) (t : mode_state) (es : list ev) : res (list ev * blk * mode_state) :=
  '(es, b) <- code_refs x b es ;;
  let is_compound := 0 <? p_ref1 b in
  s <- find_mv_stack (x_mv_env x b) is_compound (t_mv t) ;;
  sk <- feature_on x (p_seg b) SEG_LVL_SKIP ;;
  gl <- (if sk : bool then Ok true else feature_on x (p_seg b) SEG_LVL_GLOBALMV) ;;
  '(es, y) <- (if gl : bool then Ok (es, GLOBALMV)
               else inter_mode is_compound (p_mode b) (p_new_mv b) (p_zero_mv b) (p_ref_mv b) (t_ref_ctx t) (t_new_ctx t)
                      (s_zero_ctx s) (t_y_mode t) es) ;;
  '(es, i) <- mv_index y (s_num s) (p_drl b) (t_drl_ctx t) es ;;
  '(es, mvs, pred, mode) <- assign_mv is_compound
      (mkMvIn y (p_intrabc b) (s_num s) i (s_stack s) (s_global s) (x_row x) (e_row_start (x_tile x)) (x_sb128 x))
      (p_mvs b) (t_pred t) (p_mode b) es ;;
  Ok (es, with_mvs mode mvs b, with_motion s y i pred t).

(** tile_encoder.rs 594-880, [encode_mode_info]: nothing is written for intra blocks
    after [is_inter], and nothing at all in inter frames. *)
Definition encode_mode_info (x : mode_env) (b : blk) (t : mode_state) (es : list ev) : res (list ev * blk * mode_state) :=
  if x_intra x then
    '(es, b, t) <- (if x_pre_skip x then intra_segment_id x b t es else Ok (es, b, t)) ;;
    sk <- (if x_pre_skip x then feature_on x (p_seg b) SEG_LVL_SKIP else Ok false) ;;
    '(es, b) <- (if sk : bool then Ok (es, with_skip true b)
                 else es <- ModeInfoModel.emit (encode_skip (b2z (p_skip b)) (x_frame x) (x_row x) (x_col x)) es ;; Ok (es, b)) ;;
    '(es, b, t) <- (if negb (x_pre_skip x) then intra_segment_id x b t es else Ok (es, b, t)) ;;
    '(es, t) <- code_cdef x b t es ;;
    '(es, t) <- code_deltas x b t es ;;
    '(es, b) <- code_is_inter x b es ;;
    if p_inter b then code_inter x b t es else Ok (es, b, t)
  else Ok (es, b, t).

(** ** FrameParamModel *)

(** obu_encoder.rs 819-826, closure [encode_delta_q]. *)
Definition enc_delta_q (out : list Z) (d : Z) : res (list Z) :=
  if negb (d =? 0) then encode_su (push out 1) d 7 else Ok (push out 0).

(** obu_encoder.rs 817-857. [planes] is [ecx.num_planes], [sep] is
    [ecx.color_config.separate_uv_delta_q]. *)
Definition enc_quant (out : list Z) (planes : Z) (sep : bool) (q : quant) (d : dq5) : res (list Z * quant * dq5) :=
  out <- push_bits_with_size out (q_base q) 8 ;;
  out <- enc_delta_q out (dq_y_dc d) ;;
  '(out, diff, d) <-
    (if 1 <? planes then
       let '(out, diff) := if sep then (pbit out (q_diff q), q_diff q) else (out, false) in
       out <- enc_delta_q out (dq_u_dc d) ;;
       out <- enc_delta_q out (dq_u_ac d) ;;
       if diff then
         out <- enc_delta_q out (dq_v_dc d) ;;
         out <- enc_delta_q out (dq_v_ac d) ;;
         Ok (out, diff, d)
       else Ok (out, diff, mkDQ (dq_y_dc d) (dq_u_dc d) (dq_u_ac d) (dq_u_dc d) (dq_u_ac d))
     else Ok (out, q_diff q, mkDQ (dq_y_dc d) 0 0 0 0)) ;;
  let out := pbit out (q_using q) in
  if q_using q then
    out <- push_bits_with_size out (q_y q) 4 ;;
    out <- push_bits_with_size out (q_u q) 4 ;;
    if negb sep then Ok (out, mkQ (q_base q) diff true (q_y q) (q_u q) (q_u q), d)
    else
      out <- push_bits_with_size out (q_v q) 4 ;;
      Ok (out, mkQ (q_base q) diff true (q_y q) (q_u q) (q_v q), d)
  else Ok (out, mkQ (q_base q) diff false (q_y q) (q_u q) (q_v q), d).

(** obu_encoder.rs 877-891: one feature; [fv : isize]. Returns the clipped value. *)
Definition enc_feature (out : list Z) (j : Z) (v : option Z) : res (list Z * option Z) :=
  let out := pbit out (is_some v) in
  match v with
  | None => Ok (out, Some 0)
  | Some fv =>
      bits <- idx feature_bits j ;;
      limit <- idx feature_max j ;;
      sg <- idx feature_signed j ;;
      if (sg : bool) then
        b <- chk_u8 (1 + bits) ;;
        out <- encode_su out fv b ;;
        Ok (out, Some (Clip3 (- limit) limit fv))
      else
        out <- encode_su out fv bits ;;
        Ok (out, Some (Clip3 0 limit fv))
  end.

(** obu_encoder.rs 875-893: the loop over the features of one segment, and the
    loop over the segments. *)
Fixpoint enc_features (out : list Z) (js : list nat) (row : list (option Z)) : res (list Z * list (option Z)) :=
  match js with
  | [] => Ok (out, row)
  | j :: js =>
      v <- idx row (Z.of_nat j) ;;
      '(out, v) <- enc_feature out (Z.of_nat j) v ;;
      enc_features out js (set_nth j v row)
  end.

Fixpoint enc_segments (out : list Z) (is : list nat) (m : list (list (option Z))) : res (list Z * list (list (option Z))) :=
  match is with
  | [] => Ok (out, m)
  | i :: is =>
      row <- idx m (Z.of_nat i) ;;
      '(out, row) <- enc_features out (upto SEG_LVL_MAX) row ;;
      enc_segments out is (set_nth i row m)
  end.

(** obu_encoder.rs 859-912. [primary] is [frame.primary_ref_frame]. Returns the
    output, the parameters, seg_id_pre_skip and last_active_seg_id. *)
Definition enc_seg (out : list Z) (primary : Z) (s : segp) : res (list Z * segp * bool * Z) :=
  let out := pbit out (g_on s) in
  '(out, s) <-
    (if g_on s then
       let '(out, s) :=
         if primary =? PRIMARY_REF_NONE then (out, mkSegP true true false true (g_feat s))
         else
           let out := pbit out (g_map s) in
           let out := if g_map s then pbit out (g_temporal s) else out in
           (pbit out (g_data s), s) in
       if g_data s then
         '(out, m) <- enc_segments out (upto MAX_SEGMENTS) (g_feat s) ;;
         Ok (out, mkSegP true (g_map s) (g_temporal s) true m)
       else Ok (out, s)
     else Ok (out, mkSegP false (g_map s) (g_temporal s) (g_data s) no_features)) ;;
  let '(pre, last) := seg_derive (g_feat s) in
  Ok (out, s, pre, last).

Definition enc_delta (out : list Z) (base : Z) (intrabc : bool) (p : deltap) : res (list Z * deltap) :=
  let '(out, present) := if 0 <? base then (pbit out (d_present p), d_present p) else (out, false) in
  if present then
    let out := push out (d_res p) in
    let '(out, lf) := if negb intrabc then (pbit out (d_lf p), d_lf p) else (out, false) in
    if lf then
      out <- push_bits_with_size out (d_lf_res p) 2 ;;
      Ok (pbit out (d_multi p), mkDelta true (d_res p) true (d_lf_res p) (d_multi p))
    else Ok (out, mkDelta true (d_res p) false 0 false)
  else Ok (out, mkDelta false 0 (d_lf p) (d_lf_res p) (d_multi p)).

(** obu_encoder.rs 948-966, closures [seg_feature_active_idx] and [get_qindex]:
    [cur] is [ecx.current_q_index]. *)
Definition get_qindex (ignore : bool) (seg cur : Z) (present : bool) (base : Z) (s : segp) : res Z :=
  row <- (if g_on s then idx (g_feat s) seg else Ok []) ;;
  f <- (if g_on s then idx row SEG_LVL_ALT_Q else Ok None) ;;
  match f with
  | Some data =>
      q <- chk_i64 (base + data) ;;
      q <- (if negb ignore && present then chk_i64 (cur + data) else Ok q) ;;
      Ok (Clip3 0 255 q)
  | None => if ignore then Ok cur else Ok base
  end.

Fixpoint enc_lossless (segs : list nat) (cur : Z) (present : bool) (q : quant) (d : dq5) (s : segp)
  (coded : bool) (arr : list bool) (lv : list (list Z)) : res (bool * list bool * list (list Z)) :=
  match segs with
  | [] => Ok (coded, arr, lv)
  | i :: segs =>
      qi <- get_qindex true (Z.of_nat i) cur present (q_base q) s ;;
      let l := (qi =? 0) && dq_zero d in
      arr <- put arr (Z.of_nat i) l ;;
      lv <- (if q_using q then
               let set3 k x lv := row <- idx lv k ;; row <- put row (Z.of_nat i) x ;; put lv k row in
               lv <- set3 0 (if l then 15 else q_y q) lv ;;
               lv <- set3 1 (if l then 15 else q_u q) lv ;;
               set3 2 (if l then 15 else q_v q) lv
             else Ok lv) ;;
      enc_lossless segs cur present q d s (coded && l) arr lv
  end.

(** obu_encoder.rs 1021-1032: the loops over the reference deltas and the mode
    deltas. Both read [update_ref_delta] to decide whether the delta is written. *)
Fixpoint enc_lf_deltas (out : list Z) (is : list nat) (flag guard : list bool) (delta : list Z) : res (list Z) :=
  match is with
  | [] => Ok out
  | i :: is =>
      f <- idx flag (Z.of_nat i) ;;
      let out := pbit out f in
      g <- idx guard (Z.of_nat i) ;;
      out <- (if (g : bool) then v <- idx delta (Z.of_nat i) ;; encode_su out v 7 else Ok out) ;;
      enc_lf_deltas out is flag guard delta
  end.

(** obu_encoder.rs 992-1036. Array positions: INTRA 0, LAST 1, LAST2 2, LAST3 3,
    GOLDEN 4, BWDREF 5, ALTREF2 6, ALTREF 7. *)
Definition enc_lf (out : list Z) (planes : Z) (off : bool) (p : lfp) : res (list Z * lfp) :=
  if off then
    l <- put (lf_level p) 0 0 ;;
    l <- put l 1 0 ;;
    Ok (out, mkLF l (lf_sharp p) (lf_enabled p) (lf_update p) (lf_upd_ref p) [1; 0; 0; 0; -1; 0; -1; -1] (lf_upd_mode p) [0; 0])
  else
    l0 <- idx (lf_level p) 0 ;;
    l1 <- idx (lf_level p) 1 ;;
    out <- push_bits_with_size out l0 6 ;;
    out <- push_bits_with_size out l1 6 ;;
    out <- (if (1 <? planes) && ((0 <? l0) || (0 <? l1)) then
              l2 <- idx (lf_level p) 2 ;;
              out <- push_bits_with_size out l2 6 ;;
              l3 <- idx (lf_level p) 3 ;;
              push_bits_with_size out l3 6
            else Ok out) ;;
    out <- push_bits_with_size out (lf_sharp p) 3 ;;
    let out := pbit out (lf_enabled p) in
    out <- (if lf_enabled p then
              let out := pbit out (lf_update p) in
              if lf_update p then
                out <- enc_lf_deltas out (upto TOTAL_REFS_PER_FRAME) (lf_upd_ref p) (lf_upd_ref p) (lf_ref p) ;;
                enc_lf_deltas out (upto 2) (lf_upd_mode p) (lf_upd_ref p) (lf_mode p)
              else Ok out
            else Ok out) ;;
    Ok (out, p).

(** A pair of strengths, 1050-1054 and 1056-1060: a secondary strength of 3 becomes 4. *)
Definition enc_strength (out : list Z) (i : Z) (pri sec : list Z) : res (list Z * list Z) :=
  p <- idx pri i ;;
  out <- push_bits_with_size out p 4 ;;
  s <- idx sec i ;;
  out <- push_bits_with_size out s 2 ;;
  Ok (out, if s =? 3 then set_nth (Z.to_nat i) 4 sec else sec).

Fixpoint enc_strengths (out : list Z) (is : list nat) (planes : Z) (p : cdefp) : res (list Z * cdefp) :=
  match is with
  | [] => Ok (out, p)
  | i :: is =>
      '(out, ys) <- enc_strength out (Z.of_nat i) (cd_y_pri p) (cd_y_sec p) ;;
      '(out, us) <- (if 1 <? planes then enc_strength out (Z.of_nat i) (cd_uv_pri p) (cd_uv_sec p) else Ok (out, cd_uv_sec p)) ;;
      enc_strengths out is planes (mkCdef (cd_damping p) (cd_bits p) (cd_y_pri p) ys (cd_uv_pri p) us)
  end.

Definition enc_cdef (out : list Z) (planes : Z) (off : bool) (p : cdefp) : res (list Z * cdefp) :=
  if off then
    a <- put (cd_y_pri p) 0 0 ;;
    b <- put (cd_y_sec p) 0 0 ;;
    c <- put (cd_uv_pri p) 0 0 ;;
    d <- put (cd_uv_sec p) 0 0 ;;
    Ok (out, mkCdef 3 0 a b c d)
  else
    d <- chk_u8 (cd_damping p - 3) ;;
    out <- push_bits_with_size out d 2 ;;
    out <- push_bits_with_size out (cd_bits p) 2 ;;
    _ <- shift_ok 64 (cd_bits p) ;;
    enc_strengths out (upto (Z.shiftl 1 (shift_amt 64 (cd_bits p)))) planes p.

(** obu_encoder.rs 1075-1084. *)
Fixpoint enc_lr_types (out : list Z) (is : list nat) (typ : Z) (types : list Z) (uses chroma : bool)
  : res (list Z * list Z * bool * bool) :=
  match is with
  | [] => Ok (out, types, uses, chroma)
  | i :: is =>
      out <- push_bits_with_size out typ 2 ;;
      t <- idx remap_lr_type typ ;;
      types <- put types (Z.of_nat i) t ;;
      let on := negb (t =? RESTORE_NONE) in
      enc_lr_types out is typ types (uses || on) (chroma || (on && (0 <? Z.of_nat i)))
  end.

(** obu_encoder.rs 1066-1106. [off] is
    [ecx.all_lossless || frame.allow_intrabc || ecx.enable_restoration]; [ss] is
    [subsampling_x && subsampling_y]. *)
Definition enc_lr (out : list Z) (planes : Z) (off sb128 ss : bool) (p : lrp) (c : lrc) : res (list Z * lrp * lrc) :=
  if off then Ok (out, p, mkLRC [RESTORE_NONE; RESTORE_NONE; RESTORE_NONE] (lc_size c) false (lc_chroma c))
  else
    '(out, types, uses, chroma) <- enc_lr_types out (upto planes) (lr_type p) (lc_type c) false false ;;
    if uses then
      '(out, extra) <-
        (if (sb128 : bool) then s1 <- chk_u64 (lr_shift p - 1) ;; Ok (push out (as_u8 s1), lr_extra p)
         else
           let out := push out (as_u8 (lr_shift p)) in
           if 1 <=? lr_shift p then Ok (push out (as_u8 (lr_shift p - 1)), lr_shift p - 1)
           else Ok (out, lr_extra p)) ;;
      k <- chk_u64 (2 - lr_shift p) ;;
      size <- put (lc_size c) 0 (Z.shiftr RESTORATION_TILESIZE_MAX k) ;;
      let '(out, uv) := if (ss : bool) && chroma then (push out (as_u8 (lr_uv p)), lr_uv p) else (out, 0) in
      _ <- shift_ok 64 uv ;;
      s1 <- idx size 1 ;;
      size <- put size 1 (Z.shiftr s1 (shift_amt 64 uv)) ;;
      s2 <- idx size 2 ;;
      size <- put size 2 (Z.shiftr s2 (shift_amt 64 uv)) ;;
      Ok (out, mkLR (lr_type p) (lr_shift p) extra uv, mkLRC types size true chroma)
    else Ok (out, p, mkLRC types (lc_size c) false chroma).

(** obu_encoder.rs 1135-1144, closure [get_relative_dist] on isize. *)
Definition rel_dist (a b : Z) (enable : bool) (bits : Z) : res Z :=
  if negb enable then Ok 0
  else
    diff <- chk_i64 (a - b) ;;
    k <- chk_u8 (bits - 1) ;;
    _ <- shift_ok 64 k ;;
    let m := as_i64 (Z.shiftl 1 (shift_amt 64 k)) in
    m1 <- chk_i64 (m - 1) ;;
    chk_i64 (Z.land diff m1 - Z.land diff m).

(** obu_encoder.rs 1145-1158: the first loop over the references. The state is
    (forward_idx, forward_hint, backward_idx, backward_hint). *)
Fixpoint skip_scan (is : list nat) (hints ref_idx : list Z) (cur : Z) (enable : bool) (bits : Z) (st : Z * Z * Z * Z)
  : res (Z * Z * Z * Z) :=
  match is with
  | [] => Ok st
  | i :: is =>
      let '(fi, fh, bi, bh) := st in
      r <- idx ref_idx (Z.of_nat i) ;;
      h <- idx hints r ;;
      d <- rel_dist (as_i64 h) cur enable bits ;;
      st <- (if d <? 0 then
               upd <- (if fi <? 0 then Ok true else e <- rel_dist (as_i64 h) (as_i64 fh) enable bits ;; Ok (0 <? e)) ;;
               Ok (if (upd : bool) then (Z.of_nat i, h, bi, bh) else st)
             else
               d <- rel_dist (as_i64 h) cur enable bits ;;
               if 0 <? d then
                 upd <- (if bi <? 0 then Ok true else e <- rel_dist (as_i64 h) (as_i64 bh) enable bits ;; Ok (e <? 0)) ;;
                 Ok (if (upd : bool) then (fi, fh, Z.of_nat i, h) else st)
               else Ok st) ;;
      skip_scan is hints ref_idx cur enable bits st
  end.

(** obu_encoder.rs 1166-1176: the second loop; the state is
    (second_forward_idx, second_forward_hint). *)
Fixpoint skip_scan2 (is : list nat) (hints ref_idx : list Z) (fh : Z) (enable : bool) (bits : Z) (st : Z * Z) : res (Z * Z) :=
  match is with
  | [] => Ok st
  | i :: is =>
      let '(si, sh) := st in
      r <- idx ref_idx (Z.of_nat i) ;;
      h <- idx hints r ;;
      d <- rel_dist (as_i64 h) (as_i64 fh) enable bits ;;
      st <- (if d <? 0 then
               upd <- (if si <? 0 then Ok true else e <- rel_dist (as_i64 h) (as_i64 sh) enable bits ;; Ok (0 <? e)) ;;
               Ok (if (upd : bool) then (Z.of_nat i, h) else st)
             else Ok st) ;;
      skip_scan2 is hints ref_idx fh enable bits st
  end.

(** obu_encoder.rs 1127-1187, without the bit. [None] is
    [skip_mode_allowed = false]; otherwise the two frames. *)
Definition skip_mode (intra select enable : bool) (bits : Z) (hints ref_idx : list Z) (cur : Z) : res (option (Z * Z)) :=
  if intra || negb select || negb enable then Ok None
  else
    '(fi, fh, bi, bh) <- skip_scan (upto REFS_PER_FRAME) hints ref_idx cur enable bits (-1, 0, -1, 0) ;;
    if fi <? 0 then Ok None
    else if 0 <=? bi then Ok (Some (1 + Min fi bi, 1 + Max fi bi))
    else
      '(si, sh) <- skip_scan2 (upto REFS_PER_FRAME) hints ref_idx fh enable bits (-1, 0) ;;
      if si <? 0 then Ok None else Ok (Some (1 + Min fi si, 1 + Max fi si)).

(** obu_encoder.rs 1203-1301 for one reference: [par] is [gm_params[rf]], [prev]
    is [prev_gm_params[rf]]. *)
Definition enc_gm_one (out : list Z) (hp : bool) (typ : Z) (par prev : list Z) : res (list Z * list Z) :=
  let one out k := g <- idx par k ;; p <- idx prev k ;; encode_global_param out (typ =? FrameParamModel.TRANSLATION) hp k g p in
  '(out, par) <-
    (if ROTZOOM <=? typ then
       out <- one out 2 ;;
       out <- one out 3 ;;
       if typ =? AFFINE then
         out <- one out 4 ;;
         out <- one out 5 ;;
         Ok (out, par)
       else
         g3 <- idx par 3 ;; n3 <- chk_i64 (- g3) ;; par' <- put par 4 n3 ;;
         g2 <- idx par' 2 ;; n2 <- chk_i64 (- g2) ;; par' <- put par' 5 n2 ;;
         Ok (out, par')
     else Ok (out, par)) ;;
  if FrameParamModel.TRANSLATION <=? typ then
    out <- one out 0 ;;
    out <- one out 1 ;;
    Ok (out, par)
  else Ok (out, par).

Fixpoint enc_gm_loop (out : list Z) (rfs : list nat) (hp : bool) (p : gmp) (types : list Z) (par prev : list (list Z))
  : res (list Z * list Z * list (list Z)) :=
  match rfs with
  | [] => Ok (out, types, par)
  | rf :: rfs =>
      '(out, typ) <- enc_gm_type out (Z.of_nat rf) p ;;
      types <- put types (Z.of_nat rf) typ ;;
      g <- idx par (Z.of_nat rf) ;;
      pv <- idx prev (Z.of_nat rf) ;;
      '(out, g) <- enc_gm_one out hp typ g pv ;;
      par <- put par (Z.of_nat rf) g ;;
      enc_gm_loop out rfs hp p types par prev
  end.

(** obu_encoder.rs 1202-1303. *)
Definition enc_gm (out : list Z) (intra hp : bool) (p : gmp) (types : list Z) (par prev : list (list Z))
  : res (list Z * list Z * list (list Z)) :=
  '(types, par) <- gm_reset types par ;;
  if intra then Ok (out, types, par) else enc_gm_loop out gm_refs hp p types par prev.

(** obu_encoder.rs 1330-1333 and the like: points of a scaling function. *)
Fixpoint enc_points (out : list Z) (is : list nat) (vs ss : list Z) : res (list Z) :=
  match is with
  | [] => Ok out
  | i :: is =>
      v <- idx vs (Z.of_nat i) ;;
      out <- push_bits_with_size out v 8 ;;
      s <- idx ss (Z.of_nat i) ;;
      out <- push_bits_with_size out s 8 ;;
      enc_points out is vs ss
  end.

(** obu_encoder.rs 1358-1360 and the like: coefficients, i16 arithmetic. *)
Fixpoint enc_coeffs (out : list Z) (is : list nat) (cs : list Z) : res (list Z) :=
  match is with
  | [] => Ok out
  | i :: is =>
      c <- idx cs (Z.of_nat i) ;;
      v <- chk (- 2 ^ 15) (2 ^ 15 - 1) (c + 128) ;;
      out <- push_bits_with_size out (as_u32 v) 8 ;;
      enc_coeffs out is cs
  end.

(** obu_encoder.rs 1374-1383: mult, luma_mult and offset of a chroma plane. *)
Definition enc_mult (out : list Z) (n m l o : Z) : res (list Z) :=
  if 0 <? n then
    out <- push_bits_with_size out (as_u32 m) 8 ;;
    out <- push_bits_with_size out (as_u32 l) 8 ;;
    push_bits_with_size out (as_u32 o) 9
  else Ok out.

(** obu_encoder.rs 1328-1386: the parameters themselves. [mono], [ss] are
    mono_chrome and [subsampling_x && subsampling_y]. *)
Definition enc_grain_params (out : list Z) (mono ss : bool) (g : grain) : res (list Z * grain) :=
  out <- push_bits_with_size out (as_u32 (fg_ny g)) 4 ;;
  out <- enc_points out (upto (fg_ny g)) (fg_yv g) (fg_ys g) ;;
  let '(out, cfl) := if mono then (out, false) else (pbit out (fg_cfl g), fg_cfl g) in
  '(out, g) <-
    (if mono || cfl || (ss && (fg_ny g =? 0)) then Ok (out, set_chroma cfl 0 0 g)
     else
       out <- push_bits_with_size out (as_u32 (fg_ncb g)) 4 ;;
       out <- enc_points out (upto (fg_ncb g)) (fg_cbv g) (fg_cbs g) ;;
       out <- push_bits_with_size out (as_u32 (fg_ncr g)) 4 ;;
       out <- enc_points out (upto (fg_ncr g)) (fg_crv g) (fg_crs g) ;;
       Ok (out, set_chroma cfl (fg_ncb g) (fg_ncr g) g)) ;;
  s <- chk_u64 (fg_scaling g - 8) ;;
  out <- push_bits_with_size out (as_u32 s) 2 ;;
  out <- push_bits_with_size out (as_u32 (fg_lag g)) 2 ;;
  a <- chk_u64 (2 * fg_lag g) ;;
  luma <- chk_u64 (a * (fg_lag g + 1)) ;;
  '(out, chroma) <- (if 0 <? fg_ny g then out <- enc_coeffs out (upto luma) (fg_ay g) ;; Ok (out, luma + 1) else Ok (out, luma)) ;;
  out <- (if fg_cfl g || (0 <? fg_ncb g) then enc_coeffs out (upto chroma) (fg_acb g) else Ok out) ;;
  out <- (if fg_cfl g || (0 <? fg_ncr g) then enc_coeffs out (upto chroma) (fg_acr g) else Ok out) ;;
  s <- chk_u64 (fg_ashift g - 6) ;;
  out <- push_bits_with_size out (as_u32 s) 2 ;;
  out <- push_bits_with_size out (as_u32 (fg_gshift g)) 2 ;;
  out <- enc_mult out (fg_ncb g) (fg_cb_mult g) (fg_cb_luma g) (fg_cb_off g) ;;
  out <- enc_mult out (fg_ncr g) (fg_cr_mult g) (fg_cr_luma g) (fg_cr_off g) ;;
  Ok (pbit (pbit out (fg_overlap g)) (fg_clip g), g).

(** obu_encoder.rs 1305-1389. [fg] is [ecx.film_grain_params], [refs] the stored
    parameters of the reference frames, [inter] whether the frame is an
    INTER_FRAME. *)
Definition enc_grain (out : list Z) (fg : option grain) (refs : list grain) (show showable inter mono ss : bool)
  : res (list Z * option grain) :=
  let g := match fg with
           | Some g => if negb show && negb showable then grain_new else g
           | None => grain_new
           end in
  stored <- idx refs (fg_ref g) ;;
  let out := pbit out (fg_apply g) in
  if negb (fg_apply g) then Ok (out, Some grain_new)
  else
    out <- push_bits_with_size out (fg_seed g) 16 ;;
    let '(out, g) := if inter then (pbit out (fg_update g), g) else (out, set_update g) in
    if negb (fg_update g) then
      out <- push_bits_with_size out (as_u32 (fg_ref g)) 3 ;;
      Ok (out, Some (set_seed (fg_seed g) stored))
    else
      '(out, g) <- enc_grain_params out mono ss g ;;
      Ok (out, Some g).

(** ** FrameModel *)

(** obu_encoder.rs 339-349 and 368-378: temporal point info. *)
Definition enc_point (out : list Z) (c : ctx) (f : frm) : res (list Z) :=
  match f_dm f with
  | None => Ok out
  | Some d =>
      if equal_interval (c_timing c) then Ok out
      else match f_tpi f with
           | Some t => push_bits_with_size out t (fm_presentation_len d)
           | None => Panic
           end
  end.

(** obu_encoder.rs 322-365: the identifier length, and a frame that is shown again.
    Returns the output, the new refresh_frame_flags and the new frame type. *)
Definition id_length (c : ctx) : res Z :=
  if c_ids c then
    a <- chk_u64 (c_add_len c - 1) ;;
    d <- chk_u64 (c_delta_len c - 2) ;;
    s <- chk_u64 (a + d) ;;
    chk_u64 (s + 3)
  else Ok (c_id_len c).

Definition enc_existing (out : list Z) (id_len : Z) (c : ctx) (f : frm) : res (list Z * Z * Z) :=
  out <- push_bits_with_size out (c_map_idx c) 3 ;;
  out <- enc_point out c f ;;
  out <- (if c_ids c then
            match f_display_id f with
            | Some i => push_bits_with_size out i (as_u8 id_len)
            | None => Panic
            end
          else Ok out) ;;
  t <- idx (c_ref_type c) (c_map_idx c) ;;
  Ok (out, if t =? KEY_FRAME then 255 else 0, t).

Definition enc_top (out : list Z) (c : ctx) (f : frm) : res (list Z * top) :=
  if c_reduced c then Ok (out, mkTop KEY_FRAME true true false (f_err f))
  else
    out <- push_bits_with_size out (f_type f) 2 ;;
    let intra := (f_type f =? INTRA_ONLY_FRAME) || (f_type f =? KEY_FRAME) in
    let out := pbit out (c_show c) in
    out <- (if c_show c then enc_point out c f else Ok out) ;;
    let '(out, showable) := if c_show c then (out, false) else (pbit out (c_showable c), c_showable c) in
    let '(out, err) := if (f_type f =? SWITCH_FRAME) || ((f_type f =? KEY_FRAME) && c_show c) then (out, false)
                       else (pbit out (f_err f), f_err f) in
    Ok (out, mkTop (f_type f) intra (c_show c) showable err).

(** obu_encoder.rs 424-435: mark_ref_frames. *)
Fixpoint mark_refs (is : list nat) (cur id_len diff : Z) (ids : list Z) (valid : list bool) : res (list bool) :=
  match is with
  | [] => Ok valid
  | i :: is =>
      _ <- shift_ok 64 diff ;;
      let d := as_u64 (Z.shiftl 1 (shift_amt 64 diff)) in
      r <- idx ids (Z.of_nat i) ;;
      bad <- (if d <? cur then Ok ((cur <? r) || (r <? cur - d))
              else if cur <? r then
                _ <- shift_ok 64 id_len ;;
                s <- chk_u64 (as_u64 (Z.shiftl 1 (shift_amt 64 id_len)) + cur) ;;
                s <- chk_u64 (s - d) ;;
                Ok (r <? s)
              else Ok false) ;;
      valid <- (if (bad : bool) then put valid (Z.of_nat i) false else Ok valid) ;;
      mark_refs is cur id_len diff ids valid
  end.

(** obu_encoder.rs 419-438. Returns the output, prev_frame_id, current_frame_id and
    ref_valid. *)
Definition enc_ids (out : list Z) (id_len : Z) (c : ctx) (valid : list bool) : res (list Z * Z * Z * list bool) :=
  if c_ids c then
    out <- push_bits_with_size out (as_u32 (c_cur_id c)) (as_u8 id_len) ;;
    valid <- mark_refs (upto NUM_REF_FRAMES) (c_cur_id c) id_len (c_delta_len c) (c_ref_id c) valid ;;
    Ok (out, c_cur_id c, c_cur_id c, valid)
  else Ok (out, c_prev_id c, 0, valid).

Definition enc_primary (out : list Z) (f : frm) (t : top) : res (list Z * Z) :=
  if t_intra t || t_err t then Ok (out, PRIMARY_REF_NONE)
  else out <- push_bits_with_size out (f_primary f) 3 ;; Ok (out, f_primary f).

(** obu_encoder.rs 453-467: buffer removal delays; [op.idc] is a u16. *)
Fixpoint enc_removal_loop (out : list Z) (l : list op_model) (tid sid : Z) (d : fdm) : res (list Z) :=
  match l with
  | [] => Ok out
  | o :: l =>
      let idc := opm_idc o in
      _ <- shift_ok 16 tid ;;
      let in_t := 0 <? Z.land (Z.shiftr idc (shift_amt 16 tid)) 1 in
      s8 <- chk_u64 (sid + 8) ;;
      _ <- shift_ok 16 s8 ;;
      let in_s := 0 <? Z.land (Z.shiftr idc (shift_amt 16 s8)) 1 in
      out <- (if (idc =? 0) || (in_t && in_s) then push_bits_with_size out (as_u32 (fm_removal d)) (fm_removal_len d) else Ok out) ;;
      enc_removal_loop out l tid sid d
  end.

Definition enc_removal (out : list Z) (c : ctx) (f : frm) : res (list Z) :=
  match f_dm f with
  | None => Ok out
  | Some d =>
      let out := pbit out (fm_present d) in
      if fm_present d then enc_removal_loop out (c_opm c) (c_tid c) (c_sid c) d else Ok out
  end.

(** obu_encoder.rs 471-475. *)
Definition enc_refresh (out : list Z) (c : ctx) (t : top) : res (list Z * Z) :=
  if (FrameModel.t_type t =? SWITCH_FRAME) || ((FrameModel.t_type t =? KEY_FRAME) && t_show t) then Ok (out, 255)
  else out <- push_bits_with_size out (c_refresh c) 8 ;; Ok (out, c_refresh c).

(** obu_encoder.rs 486-494 (also 524-532, 592-600, 651-659): frame_size. *)
Definition enc_frame_size (out : list Z) (override : bool) (d : dims) : res (list Z) :=
  if override then
    w1 <- chk_u64 (m_w d - 1) ;;
    nw <- msb16 (as_u16 w1) ;;
    h1 <- chk_u64 (m_h d - 1) ;;
    nh <- msb16 (as_u16 h1) ;;
    out <- push_bits_with_size out (as_u32 w1) nw ;;
    push_bits_with_size out (as_u32 h1) nh
  else Ok out.

(** obu_encoder.rs 495-509 (also 533-547, 601-615, 630-643, 660-674). *)
Definition enc_superres (out : list Z) (enable : bool) (d : dims) : res (list Z * dims) :=
  let '(out, use) := if enable then (pbit out (m_use d), m_use d) else (out, false) in
  '(out, denom) <-
    (if use then
       k <- chk_u64 (m_denom d - SUPERRES_DENOM_MIN) ;;
       out <- push_bits_with_size out (as_u32 k) SUPERRES_DENOM_BITS ;;
       Ok (out, m_denom d)
     else Ok (out, FrameModel.SUPERRES_NUM)) ;;
  a <- chk_u64 (m_w d * FrameModel.SUPERRES_NUM) ;;
  b <- chk_u64 (a + denom / 2) ;;
  Ok (out, mkDims (b / denom) (m_h d) (m_rw d) (m_rh d) use denom (m_w d)).

(** obu_encoder.rs 511-520 (also 549-558, 617-626, 676-685). *)
Definition enc_render (out : list Z) (d : dims) : res (list Z * dims) :=
  let differ := negb (m_w d =? m_rw d) || negb (m_h d =? m_rh d) in
  let out := pbit out differ in
  if differ then
    w1 <- chk_u64 (m_rw d - 1) ;;
    out <- push_bits_with_size out (as_u32 w1) 16 ;;
    h1 <- chk_u64 (m_rh d - 1) ;;
    out <- push_bits_with_size out (as_u32 h1) 16 ;;
    Ok (out, d)
  else Ok (out, mkDims (m_w d) (m_h d) (m_up d) (m_h d) (m_use d) (m_denom d) (m_up d)).

Definition enc_sizes (out : list Z) (override enable : bool) (d : dims) : res (list Z * dims) :=
  out <- enc_frame_size out override d ;;
  '(out, d) <- enc_superres out enable d ;;
  enc_render out d.

(** obu_encoder.rs 575-585: the references of an inter frame. *)
Fixpoint enc_refs (out : list Z) (is : list nat) (short : bool) (id_len cur : Z) (c : ctx) (f : frm) (expected : list Z)
  : res (list Z * list Z) :=
  match is with
  | [] => Ok (out, expected)
  | i :: is =>
      out <- (if negb short then r <- idx (f_ref_idx f) (Z.of_nat i) ;; push_bits_with_size out r 3 else Ok out) ;;
      '(out, expected) <-
        (if c_ids c then
           d <- idx (f_delta_id f) (Z.of_nat i) ;;
           d1 <- chk_u64 (d - 1) ;;
           out <- push_bits_with_size out (as_u32 d1) (as_u8 (c_delta_len c)) ;;
           _ <- shift_ok 64 id_len ;;
           let m := as_u64 (Z.shiftl 1 (shift_amt 64 id_len)) in
           s <- chk_u64 (cur + m) ;;
           s <- chk_u64 (s - d) ;;
           expected <- put expected (Z.of_nat i) (s mod m) ;;
           Ok (out, expected)
         else Ok (out, expected)) ;;
      enc_refs out is short id_len cur c f expected
  end.

Definition enc_mid (out : list Z) (id_len cur sct imv : Z) (override : bool) (c : ctx) (f : frm) (t : top) : res (list Z * mid) :=
  let d := mkDims (f_w f) (f_h f) (f_rw f) (f_rh f) (f_use_superres f) (c_denom c) (c_up c) in
  if FrameModel.t_type t =? KEY_FRAME then
    '(out, d) <- enc_sizes out override (c_superres c) d ;;
    let out := if 0 <? sct then pbit out false else out in
    Ok (out, mkMid d (f_short f) (c_expected c) (f_interp f))
  else if FrameModel.t_type t =? INTRA_ONLY_FRAME then
    '(out, d) <- enc_sizes out override (c_superres c) d ;;
    let out := if (0 <? sct) && (m_up d =? m_w d) then pbit out false else out in
    Ok (out, mkMid d (f_short f) (c_expected c) (f_interp f))
  else
    '(out, short) <-
      (if negb (c_enable_hint c) then Ok (out, false)
       else
         let out := pbit out (f_short f) in
         if f_short f then
           out <- push_bits_with_size out (f_last_idx f) 3 ;;
           out <- push_bits_with_size out (f_gold_idx f) 3 ;;
           Ok (out, true)
         else Ok (out, false)) ;;
    '(out, expected) <- enc_refs out (upto REFS_PER_FRAME) short id_len cur c f (c_expected c) ;;
    '(out, d) <-
      (if override && negb (t_err t) then enc_superres (push out 1) (c_superres c) d
       else enc_sizes out override (c_superres c) d) ;;
    let out := if 0 <? imv then out else pbit out false in
    let out := pbit out (f_switchable f) in
    '(out, interp) <-
      (if f_switchable f then Ok (out, SWITCHABLE)
       else out <- push_bits_with_size out (f_interp f) 2 ;; Ok (out, f_interp f)) ;;
    let out := pbit out (f_motion f) in
    let out := if t_err t || negb (c_ref_mvs c) then out else pbit out false in
    Ok (out, mkMid d short expected interp).

(** obu_encoder.rs 708-732: order hints of the references, on usize. *)
Fixpoint set_order_hints (is : list nat) (c : ctx) (f : frm) (hint hints bias : list Z) : res (list Z * list Z) :=
  match is with
  | [] => Ok (hints, bias)
  | i :: is =>
      r <- idx (f_ref_idx f) (Z.of_nat i) ;;
      h <- idx hint r ;;
      hints <- put hints (1 + Z.of_nat i) h ;;
      b <- (if negb (c_enable_hint c) then Ok 0
            else
              diff <- chk_u64 (h - f_hint f) ;;
              k <- chk_u8 (c_bits c - 1) ;;
              _ <- shift_ok 64 k ;;
              let m := Z.shiftl 1 (shift_amt 64 k) in
              chk_u64 (Z.land diff (m - 1) - Z.land diff m)) ;;
      bias <- put bias (1 + Z.of_nat i) b ;;
      set_order_hints is c f hint hints bias
  end.

(** obu_encoder.rs 318-1404. *)
Definition encode_frame_header (out : list Z) (c : ctx) (f : frm) : res (list Z * ctx * frm) :=
  if c_seen c then Ok (out, c, f)
  else
    id_len <- id_length c ;;
    if negb (c_reduced c) && c_existing c then
      '(out, refresh, typ) <- enc_existing (pbit out true) id_len c f ;;
      Ok (out,
        mkCtx true (c_ids c) (c_add_len c) (c_delta_len c) (c_reduced c) true (c_map_idx c)
          (c_timing c) (c_show c) (c_showable c) (c_intra c) refresh
          (c_ref_type c) (c_ref_valid c) (c_ref_id c) (c_ref_hint c) (c_order_hints c) (c_expected c) (c_sign_bias c)
          (c_no_update c) (c_sct c) (c_imv c) (c_prev_id c) (c_cur_id c) (c_override c)
          (c_opm c) (c_tid c) (c_sid c) (c_enable_hint c) (c_denom c) (c_up c) (c_superres c)
          (c_ref_mvs c) (c_bits c) (c_sb128 c) (c_col_starts c) (c_row_starts c)
          (c_update_tile c) (c_size_bytes c) (c_dq c) (FrameModel.c_planes c) (FrameModel.c_mono c) (FrameModel.c_ssx c) (FrameModel.c_ssy c) (FrameModel.c_sep c)
          (c_pre_skip c) (c_last_seg c) (c_coded_lossless c) (c_all_lossless c) (c_lossless c)
          (c_qm c) (c_cur_q c) (c_lr c) (c_restoration c) (c_tx_mode c)
          (c_skip_allowed c) (c_skip_frames c) (c_warped c) (c_no_end c)
          (c_gm_type c) (c_gm c) (c_prev_gm c) (c_grain c) (c_ref_grain c) (c_obu_bits c) id_len,
        mkFrm (f_w f) (f_h f) (f_rw f) (f_rh f) typ (f_tile_cols f) (f_tile_rows f)
          (f_dm f) (f_tpi f) (f_display_id f) (f_err f)
          (f_sct f) (f_imv f) (f_hp f) (f_ref_mvs f) (f_hint f) (f_primary f) (f_intrabc f)
          (f_ref_hint f) (f_use_superres f) (f_short f) (f_last_idx f) (f_gold_idx f)
          (f_ref_idx f) (f_delta_id f) (f_switchable f) (f_interp f) (f_motion f)
          (f_uniform f) (f_quant f) (f_seg f) (f_delta f) (f_lf f) (f_cdef f) (f_lr f)
          (f_tx_select f) (f_select f) (f_skip_mode f) (f_warped f) (f_reduced_tx f) (f_gm f))
    else
      let out := if c_reduced c then out else pbit out false in
      '(out, t) <- enc_top out c f ;;
      '(valid, hint, hints) <- reset_refs c t ;;
      let '(out, sct, imv) := enc_tools2 out c f (t_intra t) in
      '(out, prev_id, cur_id, valid) <- enc_ids out id_len c valid ;;
      let '(out, override) := enc_override out c t in
      out <- push_bits_with_size out (f_hint f) (as_u8 (c_obu_bits c)) ;;
      '(out, primary) <- enc_primary out f t ;;
      out <- enc_removal out c f ;;
      '(out, refresh) <- enc_refresh out c t ;;
      valid <- check_hints c f t refresh hint valid ;;
      '(out, m) <- enc_mid out id_len cur_id sct imv override c f t ;;
      '(hints, bias) <-
        (if negb (t_intra t) then set_order_hints (upto REFS_PER_FRAME) c f hint hints (c_sign_bias c) else Ok (hints, c_sign_bias c)) ;;
      let '(out, no_end) := if c_reduced c || c_no_update c then (out, true) else (pbit out (c_no_end c), c_no_end c) in
      let d := i_dims m in
      '(out, cs, rs) <- encode_tile_info out (2 * Z.shiftr (m_w d + 7) 3) (2 * Z.shiftr (m_h d + 7) 3) (c_sb128 c) (f_uniform f)
                          (f_tile_cols f) (f_tile_rows f) (c_update_tile c) (c_size_bytes c) (c_col_starts c) (c_row_starts c) ;;
      cl <- tiles_log2 (f_tile_cols f) ;;
      rl <- tiles_log2 (f_tile_rows f) ;;
      let update_tile := if (0 <? cl) || (0 <? rl) then c_update_tile c else 0 in
      '(out, q, dq) <- enc_quant out (FrameModel.c_planes c) (FrameModel.c_sep c) (f_quant f) (c_dq c) ;;
      '(out, sg, pre, last) <- enc_seg out primary (f_seg f) ;;
      '(out, dl) <- enc_delta out (q_base q) false (f_delta f) ;;
      '(coded, arr, qm) <- enc_lossless (upto MAX_SEGMENTS) (c_cur_q c) (d_present dl) q dq sg true (c_lossless c) (c_qm c) ;;
      let all := coded && (m_w d =? m_up d) in
      '(out, lf) <- enc_lf out (FrameModel.c_planes c) coded (f_lf f) ;;
      '(out, cd) <- enc_cdef out (FrameModel.c_planes c) coded (f_cdef f) ;;
      '(out, lp, lc) <- enc_lr out (FrameModel.c_planes c) (all || c_restoration c) (c_sb128 c) (FrameModel.c_ssx c && FrameModel.c_ssy c) (f_lr f) (c_lr c) ;;
      let '(out, tx_mode) := if coded then (out, 0) else (pbit out (f_tx_select f), if f_tx_select f then 2 else 1) in
      let '(out, select) := if t_intra t then (out, false) else (pbit out (f_select f), f_select f) in
      skip <- skip_mode (t_intra t) select (c_enable_hint c) (c_bits c) hint (f_ref_idx f) (f_hint f) ;;
      let '(out, skip_present) := if is_some skip then (pbit out (f_skip_mode f), f_skip_mode f) else (out, false) in
      let '(out, warped) := if t_intra t || t_err t || negb (c_warped c) then (out, false) else (pbit out (f_warped f), f_warped f) in
      let out := pbit out (f_reduced_tx f) in
      '(out, gt, gp) <- enc_gm out (t_intra t) false (f_gm f) (c_gm_type c) (c_gm c) (c_prev_gm c) ;;
      '(out, fg) <- enc_grain out (c_grain c) (c_ref_grain c) (t_show t) (t_showable t) (FrameModel.t_type t =? INTER_FRAME) (FrameModel.c_mono c) (FrameModel.c_ssx c && FrameModel.c_ssy c) ;;
      Ok (out,
        mkCtx true (c_ids c) (c_add_len c) (c_delta_len c) (c_reduced c) false (c_map_idx c)
          (c_timing c) (t_show t) (t_showable t) (t_intra t) refresh
          (c_ref_type c) valid (c_ref_id c) hint hints (i_expected m) bias
          (c_no_update c) (c_sct c) (c_imv c) prev_id cur_id override
          (c_opm c) (c_tid c) (c_sid c) (c_enable_hint c) (m_denom d) (m_up d) (c_superres c)
          (c_ref_mvs c) (c_bits c) (c_sb128 c) cs rs
          update_tile (c_size_bytes c) dq (FrameModel.c_planes c) (FrameModel.c_mono c) (FrameModel.c_ssx c) (FrameModel.c_ssy c) (FrameModel.c_sep c)
          pre last coded all arr
          qm (c_cur_q c) lc (c_restoration c) tx_mode
          (is_some skip) (match skip with Some p => p | None => c_skip_frames c end) (c_warped c) no_end
          gt gp (c_prev_gm c) fg (c_ref_grain c) (c_obu_bits c) id_len,
        mkFrm (m_w d) (m_h d) (m_rw d) (m_rh d) (FrameModel.t_type t) (f_tile_cols f) (f_tile_rows f)
          (f_dm f) (f_tpi f) (f_display_id f) (t_err t)
          sct imv false false (f_hint f) primary false
          (f_ref_hint f) (m_use d) (i_short m) (f_last_idx f) (f_gold_idx f)
          (f_ref_idx f) (f_delta_id f) (f_switchable f) (i_interp m) (f_motion f)
          (f_uniform f) q sg dl lf cd lp
          (f_tx_select f) select skip_present warped (f_reduced_tx f) (f_gm f)).

(** ** LrModel *)

(** tile_encoder.rs 241-264 (closure [encode_subexp_bool], all usize). The shift
    reaches its limit after 65 rounds at most; fuel 67 is never used up. *)
Fixpoint subexp_bool_loop (fuel : nat) (es : list lev) (v num_syms k i mk : Z) : res (list lev) :=
  match fuel with
  | O => Hang
  | S f =>
      b2 <- (if 0 <? i then s <- chk_u64 (k + i) ;; chk_u64 (s - 1) else Ok k) ;;
      _ <- shift_ok 64 b2 ;;
      let a := Z.shiftl 1 (shift_amt 64 b2) in
      a3 <- chk_u64 (3 * a) ;;
      lim <- chk_u64 (mk + a3) ;;
      tv <- chk_u64 (v - mk) ;;
      if num_syms <=? lim then
        n <- chk_u64 (num_syms - mk) ;;
        bits <- encode_ns [] tv n ;;
        Ok (es ++ map Raw bits)
      else if tv <? a then Ok (es ++ literal 1 0 ++ literal (Z.to_nat (as_u8 b2)) tv)
      else
        i <- chk_u64 (i + 1) ;;
        mk <- chk_u64 (mk + a) ;;
        subexp_bool_loop f (es ++ literal 1 1) v num_syms k i mk
  end.

Definition encode_subexp_bool (es : list lev) (v num_syms k : Z) : res (list lev) :=
  subexp_bool_loop 67 es v num_syms k 0 0.

(** tile_encoder.rs 265-274 (closure [encode_unsigned_subexp_with_ref_bool]); the
    closure [inverse_recenter] (232-240) is that of obu_encoder.rs, see ElementModel. *)
Definition encode_unsigned_subexp_bool (es : list lev) (v mx k r : Z) : res (list lev) :=
  if as_u64 (Z.shiftl r 1) <=? mx then
    tv <- inverse_recenter r v ;;
    encode_subexp_bool es tv mx k
  else
    m1 <- chk_u64 (mx - 1) ;;
    tv <- chk_u64 (m1 - v) ;;
    mr <- chk_u64 (m1 - r) ;;
    tv <- inverse_recenter mr tv ;;
    encode_subexp_bool es tv mr k.

(** tile_encoder.rs 275-278 (closure [encode_signed_subexp_with_ref_bool], isize). *)
Definition encode_signed_subexp_bool (es : list lev) (v low high k r : Z) : res (list lev) :=
  x <- chk_i64 (v - low) ;;
  mx <- chk_i64 (high - low) ;;
  rl <- chk_i64 (r - low) ;;
  encode_unsigned_subexp_bool es (as_u64 x) (as_u64 mx) k (as_u64 rl).

(** tile_encoder.rs 279-301: the Wiener coefficients. The context is borrowed again
    for each of them, which panics while the borrow of line 185 lives. *)
Fixpoint wiener_taps (js : list Z) (plane row col pass : Z) (u : lrunit) (s : lrstate) (es : list lev) : res (lrstate * list lev) :=
  match js with
  | [] => Ok (s, es)
  | j :: js =>
      mn <- idx wiener_taps_min j ;;
      mx <- idx wiener_taps_max j ;;
      k <- idx wiener_taps_k j ;;
      p <- idx (u_taps u) pass ;;
      v <- idx p j ;;
      rp <- idx (t_ref_taps s) plane ;;
      rq <- idx rp pass ;;
      r <- idx rq j ;;
      es <- encode_signed_subexp_bool es v mn (mx + 1) k r ;;
      taps <- upd (t_taps s) plane (fun l => upd l row (fun l => upd l col (fun l => upd l pass (fun l => put l j v)))) ;;
      _ <- borrow_mut true ;;
      ref <- put3 (t_ref_taps s) plane pass j v ;;
      wiener_taps js plane row col pass u (set_ref_taps ref (set_taps taps s)) es
  end.

Fixpoint wiener_passes (ps : list Z) (plane row col : Z) (u : lrunit) (s : lrstate) (es : list lev) : res (lrstate * list lev) :=
  match ps with
  | [] => Ok (s, es)
  | pass :: ps =>
      '(s, js) <- (if 0 <? plane then
                     taps <- upd (t_taps s) plane (fun l => upd l row (fun l => upd l col (fun l => upd l pass (fun l => put l 0 0)))) ;;
                     Ok (set_taps taps s, [1; 2])
                   else Ok (s, [0; 1; 2])) ;;
      '(s, es) <- wiener_taps js plane row col pass u s es ;;
      wiener_passes ps plane row col u s es
  end.

Fixpoint sgr_weights (is : list Z) (plane row col : Z) (u : lrunit) (s : lrstate) (es : list lev) : res (lrstate * list lev) :=
  match is with
  | [] => Ok (s, es)
  | i :: is =>
      p <- idx sgr_params (u_set u) ;;
      radius <- idx p (i * 2) ;;
      mn <- idx sgrproj_xqd_min i ;;
      mx <- idx sgrproj_xqd_max i ;;
      rp <- idx (t_ref_xqd s) plane ;;
      '(v, es) <-
        (if 0 <? radius then
           v <- idx (u_xqd u) i ;;
           r <- idx rp i ;;
           es <- encode_signed_subexp_bool es v mn (mx + 1) SGRPROJ_PRJ_SUBEXP_K r ;;
           Ok (v, es)
         else if i =? 1 then
           r <- idx rp 0 ;;
           d <- chk_i64 (Z.shiftl 1 SGRPROJ_PARAMS_BITS - r) ;;
           Ok (clip3 mn mx d, es)
         else Ok (0, es)) ;;
      xqd <- upd (t_xqd s) plane (fun l => upd l row (fun l => upd l col (fun l => put l i v))) ;;
      ref <- upd (t_ref_xqd s) plane (fun l => put l i v) ;;
      sgr_weights is plane row col u (set_xqd ref xqd s) es
  end.

Definition sgr_unit (plane row col : Z) (u : lrunit) (s : lrstate) (es : list lev) : res (lrstate * list lev) :=
  let es := es ++ literal (Z.to_nat SGRPROJ_PARAMS_BITS) (u_set u) in
  sets <- put3 (t_set s) plane row col (u_set u) ;;
  sgr_weights [0; 1] plane row col u (set_set sets s) es.

(** tile_encoder.rs 212-322: one unit; [typ] is the type of the plane. *)
Definition lr_unit (typ plane row col : Z) (u : lrunit) (s : lrstate) (es : list lev) : res (lrstate * list lev) :=
  let '(rtype, es) :=
    if typ =? RESTORE_NONE then (RESTORE_NONE, es)
    else if typ =? RESTORE_WIENER then (if u_wiener u then RESTORE_WIENER else RESTORE_NONE, es ++ [Raw (b2z (u_wiener u))])
    else if typ =? RESTORE_SGRPROJ then (if u_sgrproj u then RESTORE_SGRPROJ else RESTORE_NONE, es ++ [Raw (b2z (u_sgrproj u))])
    else (u_type u, es) in
  types <- put3 (LrModel.t_type s) plane row col rtype ;;
  let s := set_type types s in
  if rtype =? RESTORE_WIENER then wiener_passes [0; 1] plane row col u s es
  else if rtype =? RESTORE_SGRPROJ then sgr_unit plane row col u s es
  else Ok (s, es).

(** tile_encoder.rs 197-209 on one axis. [count_units_in_frame]; sizes are such that
    the sums do not overflow (they are checked here nevertheless); a unit size of 0
    panics in the division. *)
Definition div_up (a unit_size : Z) : res Z :=
  x <- chk_u64 (a + unit_size) ;; x <- chk_u64 (x - 1) ;;
  if unit_size =? 0 then Panic else Ok (x / unit_size).

Definition count_units (unit_size tile_size : Z) : res Z :=
  x <- chk_u64 (tile_size + Z.shiftr unit_size 1) ;;
  if unit_size =? 0 then Panic else Ok (if 1 <? x / unit_size then x / unit_size else 1).

(** util.rs 25-27, on usize. *)
Definition round2_u (x n : Z) : res Z := if n =? 0 then Ok x else y <- chk_u64 (x + Z.shiftl 1 (n - 1)) ;; Ok (Z.shiftr y n).

Definition unit_range (pos size num den units : Z) : res (Z * Z) :=
  a <- chk_u64 (pos * num) ;;
  start <- div_up a den ;;
  b <- chk_u64 ((pos + size) * num) ;;
  e <- div_up b den ;;
  Ok (start, if units <? e then units else e).

(** tile_encoder.rs 190-209: the units of a plane that belong to the superblock at
    row [r], column [c] (in units of 4 samples) of size [w] by [h]. *)
Definition lr_area (x : lrenv) (plane r c w h unit_size : Z) : res (Z * Z * (Z * Z)) :=
  let subx := if plane =? 0 then 0 else b2z (v_ssx x) in
  let suby := if plane =? 0 then 0 else b2z (v_ssy x) in
  fh <- round2_u (v_height x) suby ;;
  fw <- round2_u (v_up x) subx ;;
  unit_rows <- count_units unit_size fh ;;
  unit_cols <- count_units unit_size fw ;;
  rows <- unit_range r h (Z.shiftr MI_SIZE suby) unit_size unit_rows ;;
  '(num, den) <-
    (if v_superres x then
       n <- chk_u64 (Z.shiftr MI_SIZE subx * v_denom x) ;;
       d <- chk_u64 (unit_size * LrModel.SUPERRES_NUM) ;; Ok (n, d)
     else Ok (Z.shiftr MI_SIZE subx, unit_size)) ;;
  cols <- unit_range c w num den unit_cols ;;
  Ok (rows, cols).

Section Lr.
(** What is done for a unit, given its place in the list of units of the superblock
    and its place in the plane. *)
Variable T : Type.
Variable unit : Z -> Z -> Z -> Z -> Z -> T -> res T.
Fixpoint lr_cols (cols : list Z) (plane row row0 col0 : Z) (t : T) : res T :=
  match cols with
  | [] => Ok t
  | col :: cols => t <- unit plane row col (row - row0) (col - col0) t ;; lr_cols cols plane row row0 col0 t
  end.

Fixpoint lr_rows (rows : list Z) (plane row0 : Z) (cols : Z * Z) (t : T) : res T :=
  match rows with
  | [] => Ok t
  | row :: rows => t <- lr_cols (zrange (fst cols) (snd cols)) plane row row0 (fst cols) t ;; lr_rows rows plane row0 cols t
  end.

Fixpoint lr_planes (planes : list Z) (x : lrenv) (r c w h : Z) (t : T) : res T :=
  match planes with
  | [] => Ok t
  | plane :: planes =>
      typ <- idx (v_types x) plane ;;
      t <- (if negb (typ =? RESTORE_NONE) then
              unit_size <- idx (v_sizes x) plane ;;
              '(rows, cols) <- lr_area x plane r c w h unit_size ;;
              lr_rows (zrange (fst rows) (snd rows)) plane (fst rows) cols t
            else Ok t) ;;
      lr_planes planes x r c w h t
  end.

End Lr.

Definition encode_lr (x : lrenv) (sbs : list (list (list (list (list lrunit))))) (r c bsize : Z) (s : lrstate) (es : list lev)
  : res (lrstate * list lev) :=
  if v_intrabc x then Ok (s, es)
  else
    w <- idx num_4x4_blocks_wide bsize ;;
    h <- idx num_4x4_blocks_high bsize ;;
    sb4 <- idx num_4x4_blocks_wide (if v_use128 x then GeomModel.BLOCK_128X128 else GeomModel.BLOCK_64X64) ;;
    row <- idx sbs (r / sb4) ;;
    units <- idx row (c / sb4) ;;
    lr_planes _ (fun plane row col i j '(s, es) =>
        typ <- idx (v_types x) plane ;;
        (** The list of units is looked at only where a parameter is needed; with the
            types of planes that are not [RESTORE_NONE] it always is. *)
        u <- unit_at units plane i j ;;
        lr_unit typ plane row col u s es)
      (zrange 0 (v_planes x)) x r c w h (s, es).

(** The calls carried out: bool_coder.rs 47-49 ([push_bit]) and 220-224. *)
Fixpoint run_levs (c : coder) (out : list Z) (es : list lev) : res (coder * list Z) :=
  match es with
  | [] => Ok (c, out)
  | Raw b :: es => run_levs c (push out b) es
  | Half b :: es => '(c, out) <- encode_symbolp c b out 128 ;; run_levs c out es
  end.

(** ** WholeTileModel *)

Section Whole.
Variable S : Type.
Variable mode_info : tstate (rest S) -> block_env -> list Z -> res (tstate (rest S) * list Z).
(** tile_encoder.rs 150 and 164-168: one superblock. The recursion of the partition
    search has depth 6 at most. *)
Definition superblock (x : tile_in) (e : tile_env) (st : tstate (rest S)) (cdef : list (list Z)) (r c sb_size : Z) (out : list Z)
  : res (tstate (rest S) * list (list Z) * list Z) :=
  let w := t_rest st in
  '(lr, es) <- encode_lr (i_lr x) (i_units x) r c sb_size (w_lr w) [] ;;
  '(cd, out) <- run_levs (t_coder st) out es ;;
  let w := mkRest lr (w_q w) (w_lf w) (i_deltas x) cdef (w_other w) in
  '(st, out, _) <- encode_superblock (rest S) mode_info e 6 (mkT cd (t_cdf st) (t_avail_u st) (t_avail_l st) w) sb_size (c * 4) (r * 4) out ;;
  Ok (st, w_cdef (t_rest st), out).

(** tile_encoder.rs 112-177. *)
Definition encode_whole_tile (borrowed : bool) (x : tile_in) (tile_num : Z) (st : tstate (rest S)) (out : list Z)
  : res (tstate (rest S) * list (list Z) * list Z) :=
  _ <- borrow_mut borrowed ;;
  '(r0, r1, c0, c1) <- tile_bounds tile_num (i_cols x) (i_rows x) (i_cs x) (i_rs x) ;;
  w <- start_tile (i_base_q x) (i_planes x) (t_rest st) ;;
  let e := mkEnv r0 r1 c0 c1 (i_mi_rows x) (i_mi_cols x) (i_subx x) (i_suby x) (i_planes x) in
  encode_tile (tstate (rest S)) (superblock x e) false (i_use128 x) tile_num (i_cols x) (i_rows x) (i_cs x) (i_rs x)
    (mkT (t_coder st) (t_cdf st) (t_avail_u st) (t_avail_l st) w) (w_cdef w) out.

(** obu_encoder.rs 1434-1435 for the first tile of a run of the program: the tile
    encoder is new (tile_encoder.rs 69-106) and the coder as main.rs 97 creates it. *)
Definition first_tile_state (w : rest S) : tstate (rest S) := mkT new_coder default_part false false w.

End Whole.

(** ** StreamModel *)

Section Stream.
(** As in TileModel: the state and the code of a superblock, any. *)
Variable T : Type.
Variable superblock : T -> list (list Z) -> Z -> Z -> Z -> list Z -> res (T * list (list Z) * list Z).
(** obu_encoder.rs 1408-1450, with the fields tg_start, tg_end and tile_num of the
    context and the final step (1441-1449). [tg_end + 1] (line 1428) is checked. *)
Definition tile_group (x : strm) (f : frm) (groups : Z) (st : T) (cdef : list (list Z)) : res (list Z * strm) :=
  let c := z_ctx x in
  let n := f_tile_cols f * f_tile_rows f in
  let '(s, e) := if (n =? 1) || (groups =? 0) then (0, n - 1) else (z_tg_start x, z_tg_end x) in
  _ <- chk_u64 (e + 1) ;;
  '(_, _, out) <- encode_tile_group T superblock [] (c_sb128 c) (f_tile_cols f) (f_tile_rows f) groups (z_tg_start x) (z_tg_end x)
                    (c_size_bytes c) (c_col_starts c) (c_row_starts c) st cdef ;;
  last <- chk_u64 (n - 1) ;;
  Ok (out,
      mkStrm (if e =? last then set_seen c false else c)
        (z_cdef x) (z_high x) (z_twelve x) (z_cd x) (z_range x) (z_csp x) (z_depth x) (z_planes x)
        s e (if s <=? e then e else z_tile_num x)).

(** obu_encoder.rs 89-1573, [encode_obu_payload]. *)
Definition payload (x : strm) (o : sobu T) : res (list Z * strm) :=
  match o with
  | SSequence h => '(out, e, _) <- enc_seq [] (enc_of x) h ;; Ok (out, store_enc x e)
  | SDelimiter => Ok ([], set_ctx x (set_seen (z_ctx x) false))
  | SHeader f => '(out, c, _) <- encode_frame_header [] (z_ctx x) f ;; Ok (out, set_ctx x c)
  | SRedundant => Ok ([], x)
  | STiles f groups st cdef => tile_group x f groups st cdef
  | SMeta m => out <- encode_metadata m [] ;; Ok (out, x)
  | SFrame _ => Ok ([], x)
  | SPadding n => out <- push_all [] (repeat 0 (Z.to_nat n)) 8 ;; Ok (out, x)
  end.

(** obu_encoder.rs 59-87 and 1575-1603, on this state: the variant decides the header
    byte, the rest is as in ObuModel. *)
Definition variant (x : strm) (o : sobu T) : obu :=
  let run := fun _ => '(out, x) <- payload x o ;; Ok (out, enc_of x) in
  match o with
  | SSequence h => SequenceHeader h
  | SDelimiter => TemporalDelimiter
  | SHeader _ => FrameHeader run
  | SRedundant => RedundantFrameHeader
  | STiles _ _ _ _ => TileGroup run
  | SMeta m => Metadata m
  | SFrame _ => FrameObu
  | SPadding n => Padding n
  end.

Definition stream_obu (w : writer) (x : strm) (o : sobu T) (out : list Z) : res (writer * strm * list Z) :=
  out <- encode_obu_header (variant x o) out ;;
  '(p, x) <- payload x o ;;
  w <- write_bits w p ;;
  w <- byte_align w ;;
  Ok (w, x, out).

Definition stream_unit (w : writer) (x : strm) (o : sobu T) : res (writer * strm) :=
  '(w, x, obu_bits) <- stream_obu w x o [] ;;
  fu <- encode_leb128 [] (len obu_bits) ;;
  let fu := push_bits fu obu_bits in
  tu <- encode_leb128 [] (len fu) ;;
  let tu := push_bits tu fu in
  sz <- encode_leb128 [] (len tu) ;;
  w <- write_bits w sz ;;
  w <- write_bits w tu ;;
  Ok (w, x).

Definition keep_private (x g : strm) : strm :=
  let c := z_ctx g in
  mkStrm
    (mkCtx (c_seen c) (c_ids c) (c_add_len c) (c_delta_len c) (c_reduced c) (c_existing c) (c_map_idx c)
      (c_timing c) (c_show c) (c_showable c) (c_intra c) (c_refresh c)
      (c_ref_type c) (c_ref_valid c) (c_ref_id c) (c_ref_hint c) (c_order_hints c) (c_expected c) (c_sign_bias c)
      (c_no_update c) (c_sct c) (c_imv c) (c_prev_id c) (c_cur_id c) (c_override c)
      (c_opm c) (c_tid c) (c_sid c) (c_enable_hint c) (c_denom c) (c_up c) (c_superres c)
      (c_ref_mvs c) (c_bits c) (c_sb128 c) (c_col_starts c) (c_row_starts c)
      (c_update_tile c) (c_size_bytes c) (c_dq c) (FrameModel.c_planes c) (FrameModel.c_mono c) (FrameModel.c_ssx c) (FrameModel.c_ssy c) (FrameModel.c_sep c)
      (c_pre_skip c) (c_last_seg c) (c_coded_lossless c) (c_all_lossless c) (c_lossless c)
      (c_qm c) (c_cur_q c) (c_lr c) (c_restoration c) (c_tx_mode c)
      (c_skip_allowed c) (c_skip_frames c) (c_warped c) (c_no_end c)
      (c_gm_type c) (c_gm c) (c_prev_gm c) (c_grain c) (c_ref_grain c) (c_obu_bits (z_ctx x)) (c_id_len (z_ctx x)))
    (z_cdef g) (z_high g) (z_twelve g) (z_cd g) (z_range g) (z_csp g) (z_depth x) (z_planes x)
    (z_tg_start g) (z_tg_end g) (z_tile_num g).

(** The bytes and the state after a program. *)
Fixpoint run_stream (w : writer) (x : strm) (l : list (action T)) : res (writer * strm) :=
  match l with
  | [] => Ok (w, x)
  | Call o :: r => '(w, x) <- stream_unit w x o ;; run_stream w x r
  | Change g :: r => run_stream w (keep_private x g) r
  end.

(** The payloads alone, one for each call. *)
Fixpoint payloads (x : strm) (l : list (action T)) : res (list (list Z) * strm) :=
  match l with
  | [] => Ok ([], x)
  | Call o :: r => '(p, x) <- payload x o ;; '(ps, x) <- payloads x r ;; Ok (p :: ps, x)
  | Change g :: r => payloads (keep_private x g) r
  end.

End Stream.

(** ** OptionModel *)

(** ** MainModel *)

(** main.rs 103-118, the loop from frame number [fr] on with [n] frames to go. The
    answers of the operating system are a stream, one per read. Returns the writer,
    the frames read so far and whether [process::exit] was called. *)
Fixpoint main_loop (n : nat) (fr : nat) (rep : nat -> reply) (input : list Z) (cw ch : Z) (w : writer) (e : enc)
    (read_so_far : list planes) : res (writer * list planes * bool) :=
  match n with
  | O => Ok (w, read_so_far, false)
  | S n =>
      match read_to_vec (rep 0%nat) (plane_y 176 144) input with
      | None => Ok (w, read_so_far, true)
      | Some (_, y, input) =>
      match read_to_vec (rep 1%nat) (plane_uv 176 144) input with
      | None => Ok (w, read_so_far, true)
      | Some (_, u, input) =>
      match read_to_vec (rep 2%nat) (plane_uv 176 144) input with
      | None => Ok (w, read_so_far, true)
      | Some (_, v, input) =>
          '(w, e) <- (if Nat.eqb fr 0
                      then encode_temporal_unit w e (SequenceHeader (seq_new cw ch))
                      else Ok (w, e)) ;;
          main_loop n (S fr) (fun i => rep (3 + i)%nat) input cw ch w e (read_so_far ++ [mkPlanes y u v])
      end end end
  end.

(** main.rs 43-119, [main] on the arguments after the program name. *)
Definition main (args : list str) (rep : nat -> reply) (input : list Z) : res run :=
  match args with
  | [] => Ok Refused
  | _ =>
      c <- init_config config_default ;;
      '(c, p) <- parse args c ;;
      match p with
      | PErr | PExit => Ok Refused
      | POk _ =>
          if validate_config c then
            match cf_input c, cf_output c, cf_frames c, cf_width c, cf_height c with
            | Some _, Some _, Some n, Some cw, Some ch =>
                '(w, fs, ex) <- main_loop (Z.to_nat n) 0 rep input cw ch new_writer enc_new [] ;;
                Ok (Ran (w_bytes w) fs ex)
            | _, _, _, _, _ => Panic
            end
          else Ok Refused
      end
  end.

End Build.
