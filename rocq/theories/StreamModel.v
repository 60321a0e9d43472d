(** Model of a whole stream of OBUs: all arms of [encode_obu_payload]
    (/repo/src/obu_encoder.rs 89-1573) on one state, [encode_obu] and
    [encode_temporal_unit] (1575-1603) around them, and callers that change the
    public [EncoderContext] (/repo/src/encoder.rs) between two calls.

    The state is the one the arms share: the sequence header (SeqModel) and the frame
    header (FrameModel) each use part of it. Simplification: the fields of the
    context used by neither header nor tile group are left out; the frame inside an
    OBU after the call is dropped (a caller may pass any frame next time). *)
From Coq Require Import ZArith List Bool.
From Verif Require Import Base UtilModel RangeCoderModel BitCodecModel WriterModel SeqModel ObuModel TileModel FrameParamModel FrameModel.
Import ListNotations.
Open Scope Z_scope.

(** encoder.rs 11-86 and obu_encoder.rs 30-41. [z_ctx] are the fields that the frame
    header uses; the others are enable_cdef, the rest of color_config, the private
    fields bit_depth and num_planes of [OBUEncoder], and tg_start, tg_end, tile_num. *)
Record strm : Type := mkStrm {
  z_ctx : ctx; z_cdef : bool; z_high : bool; z_twelve : bool; z_cd : option color_desc; z_range : bool; z_csp : Z;
  z_depth : Z; z_planes : Z; z_tg_start : Z; z_tg_end : Z; z_tile_num : Z }.

(** The part of the state that the sequence header uses (obu_encoder.rs 93-313):
    [num_planes] is that of [OBUEncoder], not that of the context. *)
Definition enc_of (x : strm) : enc :=
  let c := z_ctx x in
  mkEnc (c_reduced c) (c_sb128 c) (c_warped c) (c_enable_hint c) (c_ref_mvs c) (c_sct c) (c_imv c) (c_obu_bits c)
    (c_superres c) (z_cdef x) (c_restoration c) (z_high x) (z_twelve x) (c_mono c) (z_cd x) (z_range x)
    (c_ssx c) (c_ssy c) (z_csp x) (c_sep c) (z_depth x) (z_planes x) (c_timing c) (c_opm c) (is_some (c_grain c)).

(** The state after a sequence header: what lines 93-313 assign. *)
Definition store_enc (x : strm) (e : enc) : strm :=
  let c := z_ctx x in
  mkStrm
    (mkCtx (c_seen c) (c_ids c) (c_add_len c) (c_delta_len c) (c_reduced c) (c_existing c) (c_map_idx c)
      (e_timing e) (c_show c) (c_showable c) (c_intra c) (c_refresh c)
      (c_ref_type c) (c_ref_valid c) (c_ref_id c) (c_ref_hint c) (c_order_hints c) (c_expected c) (c_sign_bias c)
      (c_no_update c) (e_force_sct e) (e_force_imv e) (c_prev_id c) (c_cur_id c) (c_override c)
      (c_opm c) (c_tid c) (c_sid c) (e_order_hint e) (c_denom c) (c_up c) (c_superres c)
      (e_ref_mvs e) (c_bits c) (c_sb128 c) (c_col_starts c) (c_row_starts c)
      (c_update_tile c) (c_size_bytes c) (c_dq c) (c_planes c) (e_mono e) (e_ssx e) (e_ssy e) (e_sep_uv e)
      (c_pre_skip c) (c_last_seg c) (c_coded_lossless c) (c_all_lossless c) (c_lossless c)
      (c_qm c) (c_cur_q c) (c_lr c) (c_restoration c) (c_tx_mode c)
      (c_skip_allowed c) (c_skip_frames c) (e_warped e) (c_no_end c)
      (c_gm_type c) (c_gm c) (c_prev_gm c) (c_grain c) (c_ref_grain c) (e_order_hint_bits e) (c_id_len c))
    (z_cdef x) (z_high x) (z_twelve x) (e_cd e) (e_range e) (e_csp e) (e_bit_depth e) (e_num_planes e)
    (z_tg_start x) (z_tg_end x) (z_tile_num x).

(** Assignment to seen_frame_header. *)
Definition set_seen (c : ctx) (b : bool) : ctx :=
  mkCtx b (c_ids c) (c_add_len c) (c_delta_len c) (c_reduced c) (c_existing c) (c_map_idx c)
    (c_timing c) (c_show c) (c_showable c) (c_intra c) (c_refresh c)
    (c_ref_type c) (c_ref_valid c) (c_ref_id c) (c_ref_hint c) (c_order_hints c) (c_expected c) (c_sign_bias c)
    (c_no_update c) (c_sct c) (c_imv c) (c_prev_id c) (c_cur_id c) (c_override c)
    (c_opm c) (c_tid c) (c_sid c) (c_enable_hint c) (c_denom c) (c_up c) (c_superres c)
    (c_ref_mvs c) (c_bits c) (c_sb128 c) (c_col_starts c) (c_row_starts c)
    (c_update_tile c) (c_size_bytes c) (c_dq c) (c_planes c) (c_mono c) (c_ssx c) (c_ssy c) (c_sep c)
    (c_pre_skip c) (c_last_seg c) (c_coded_lossless c) (c_all_lossless c) (c_lossless c)
    (c_qm c) (c_cur_q c) (c_lr c) (c_restoration c) (c_tx_mode c)
    (c_skip_allowed c) (c_skip_frames c) (c_warped c) (c_no_end c)
    (c_gm_type c) (c_gm c) (c_prev_gm c) (c_grain c) (c_ref_grain c) (c_obu_bits c) (c_id_len c).

(** The context field of the state replaced. *)
Definition set_ctx (x : strm) (c : ctx) : strm :=
  mkStrm c (z_cdef x) (z_high x) (z_twelve x) (z_cd x) (z_range x) (z_csp x) (z_depth x) (z_planes x)
    (z_tg_start x) (z_tg_end x) (z_tile_num x).

Section Stream.
(** As in TileModel: the state and the code of a superblock, any. *)
Variable T : Type.
Variable superblock : T -> list (list Z) -> Z -> Z -> Z -> list Z -> res (T * list (list Z) * list Z).

(** obu.rs 75-86. A tile group comes with the length of frame.tile_groups, the state of
    the tile encoder and frame.cdef_idx. *)
Inductive sobu : Type :=
| SSequence (h : seqhdr)
| SDelimiter
| SHeader (f : frm)
| SRedundant
| STiles (f : frm) (groups : Z) (st : T) (cdef : list (list Z))
| SMeta (m : metadata)
| SFrame (f : frm)
| SPadding (n : Z).

(** obu_encoder.rs 1408-1450, with the fields tg_start, tg_end and tile_num of the
    context and the final step (1441-1449). [tg_end + 1] (line 1428) is checked. *)
Definition tile_group (x : strm) (f : frm) (groups : Z) (st : T) (cdef : list (list Z)) : res (list Z * strm) :=
  let c := z_ctx x in
  let n := f_tile_cols f * f_tile_rows f in
  let '(s, e) := if (n =? 1) || (groups =? 0) then (0, n - 1) else (z_tg_start x, z_tg_end x) in
  _ <- chk_u64 (e + 1) ;;
  '(_, _, out) <- encode_tile_group T superblock [] (c_sb128 c) (f_tile_cols f) (f_tile_rows f) groups (z_tg_start x) (z_tg_end x)
                    (c_size_bytes c) (c_col_starts c) (c_row_starts c) st cdef ;;
  last <- chk_u64 (n - 1) ;;
  Ok (out,
      mkStrm (if e =? last then set_seen c false else c)
        (z_cdef x) (z_high x) (z_twelve x) (z_cd x) (z_range x) (z_csp x) (z_depth x) (z_planes x)
        s e (if s <=? e then e else z_tile_num x)).

(** obu_encoder.rs 89-1573, [encode_obu_payload]. *)
Definition payload (x : strm) (o : sobu) : res (list Z * strm) :=
  match o with
  | SSequence h => '(out, e, _) <- enc_seq [] (enc_of x) h ;; Ok (out, store_enc x e)
  | SDelimiter => Ok ([], set_ctx x (set_seen (z_ctx x) false))
  | SHeader f => '(out, c, _) <- encode_frame_header [] (z_ctx x) f ;; Ok (out, set_ctx x c)
  | SRedundant => Ok ([], x)
  | STiles f groups st cdef => tile_group x f groups st cdef
  | SMeta m => out <- encode_metadata m [] ;; Ok (out, x)
  | SFrame _ => Ok ([], x)
  | SPadding n => out <- push_all [] (repeat 0 (Z.to_nat n)) 8 ;; Ok (out, x)
  end.

(** obu_encoder.rs 59-87 and 1575-1603, on this state: the variant decides the header
    byte, the rest is as in ObuModel. *)
Definition variant (x : strm) (o : sobu) : obu :=
  let run := fun _ => '(out, x) <- payload x o ;; Ok (out, enc_of x) in
  match o with
  | SSequence h => SequenceHeader h
  | SDelimiter => TemporalDelimiter
  | SHeader _ => FrameHeader run
  | SRedundant => RedundantFrameHeader
  | STiles _ _ _ _ => TileGroup run
  | SMeta m => Metadata m
  | SFrame _ => FrameObu
  | SPadding n => Padding n
  end.
Definition stream_obu (w : writer) (x : strm) (o : sobu) (out : list Z) : res (writer * strm * list Z) :=
  out <- encode_obu_header (variant x o) out ;;
  '(p, x) <- payload x o ;;
  w <- write_bits w p ;;
  w <- byte_align w ;;
  Ok (w, x, out).
Definition stream_unit (w : writer) (x : strm) (o : sobu) : res (writer * strm) :=
  '(w, x, obu_bits) <- stream_obu w x o [] ;;
  fu <- encode_leb128 [] (len obu_bits) ;;
  let fu := push_bits fu obu_bits in
  tu <- encode_leb128 [] (len fu) ;;
  let tu := push_bits tu fu in
  sz <- encode_leb128 [] (len tu) ;;
  w <- write_bits w sz ;;
  w <- write_bits w tu ;;
  Ok (w, x).

(** A caller's program: calls of [encode_temporal_unit], and in between assignments to
    the public fields of the context. The fields of [OBUEncoder] (order_hint_bits,
    id_len, bit_depth, num_planes) are private. *)
Inductive action : Type :=
| Call (o : sobu)
| Change (g : strm).
Definition keep_private (x g : strm) : strm :=
  let c := z_ctx g in
  mkStrm
    (mkCtx (c_seen c) (c_ids c) (c_add_len c) (c_delta_len c) (c_reduced c) (c_existing c) (c_map_idx c)
      (c_timing c) (c_show c) (c_showable c) (c_intra c) (c_refresh c)
      (c_ref_type c) (c_ref_valid c) (c_ref_id c) (c_ref_hint c) (c_order_hints c) (c_expected c) (c_sign_bias c)
      (c_no_update c) (c_sct c) (c_imv c) (c_prev_id c) (c_cur_id c) (c_override c)
      (c_opm c) (c_tid c) (c_sid c) (c_enable_hint c) (c_denom c) (c_up c) (c_superres c)
      (c_ref_mvs c) (c_bits c) (c_sb128 c) (c_col_starts c) (c_row_starts c)
      (c_update_tile c) (c_size_bytes c) (c_dq c) (c_planes c) (c_mono c) (c_ssx c) (c_ssy c) (c_sep c)
      (c_pre_skip c) (c_last_seg c) (c_coded_lossless c) (c_all_lossless c) (c_lossless c)
      (c_qm c) (c_cur_q c) (c_lr c) (c_restoration c) (c_tx_mode c)
      (c_skip_allowed c) (c_skip_frames c) (c_warped c) (c_no_end c)
      (c_gm_type c) (c_gm c) (c_prev_gm c) (c_grain c) (c_ref_grain c) (c_obu_bits (z_ctx x)) (c_id_len (z_ctx x)))
    (z_cdef g) (z_high g) (z_twelve g) (z_cd g) (z_range g) (z_csp g) (z_depth x) (z_planes x)
    (z_tg_start g) (z_tg_end g) (z_tile_num g).

(** The bytes and the state after a program. *)
Fixpoint run_stream (w : writer) (x : strm) (l : list action) : res (writer * strm) :=
  match l with
  | [] => Ok (w, x)
  | Call o :: r => '(w, x) <- stream_unit w x o ;; run_stream w x r
  | Change g :: r => run_stream w (keep_private x g) r
  end.

(** The payloads alone, one for each call. *)
Fixpoint payloads (x : strm) (l : list action) : res (list (list Z) * strm) :=
  match l with
  | [] => Ok ([], x)
  | Call o :: r => '(p, x) <- payload x o ;; '(ps, x) <- payloads x r ;; Ok (p :: ps, x)
  | Change g :: r => payloads (keep_private x g) r
  end.
End Stream.
Arguments SSequence {T}. Arguments SDelimiter {T}. Arguments SHeader {T}. Arguments SRedundant {T}. Arguments STiles {T}.
Arguments SMeta {T}. Arguments SFrame {T}. Arguments SPadding {T}. Arguments Call {T}. Arguments Change {T}.
Arguments payload {T}. Arguments tile_group {T}. Arguments variant {T}. Arguments stream_obu {T}. Arguments stream_unit {T}.
Arguments run_stream {T}. Arguments payloads {T}.

(** encoder.rs 88-182 ([EncoderContext::new]) and obu_encoder.rs 44-57
    ([OBUEncoder::new]); [FilmGrainParams::new] is [grain_new]. *)
Definition ctx_new : ctx :=
  mkCtx false false 0 0 false false 0 None true true false 0 (repeat 0 8) (repeat false 8) (repeat 0 8) (repeat 0 8)
    (repeat 0 7) (repeat 0 7) (repeat 0 7) false 0 0 0 0 false [] 0 0 false 1 0 false
    false 0 true [] [] 0 0 (mkDQ 0 0 0 0 0) 3 false true true false false 0 false false (repeat false 8)
    (repeat (repeat 0 8) 3) 0 (mkLRC [0; 0; 0] [0; 0; 0] false false) false 0 true (1, 1) false false
    (repeat 0 8) (repeat (repeat 0 6) 8) (repeat (repeat 0 6) 8) None (repeat grain_new 8) 0 0.
Definition strm_new : strm := mkStrm ctx_new false false false None false 2 8 3 0 0 0.
