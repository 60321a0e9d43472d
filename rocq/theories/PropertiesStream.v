(** The properties C90 to C94: whole streams of OBUs. *)
From Coq Require Import ZArith List Bool Lia.
From Verif Require Import Base UtilSpec BitsSpec WriterModel WriterSpec SeqModel SeqSpec SeqProofs2 ObuModel ObuSpec ObuProofs TileModel FrameParamModel FrameModel FrameSpec
  FrameProofs FrameProofs2 FrameProofs3 FrameProofs4 FrameProofs5 FrameProofs6 FrameProofs7 FrameProofs8 StreamModel StreamSpec StreamProofs StreamProofs2 PropertiesFrame.
Import ListNotations.
Open Scope Z_scope.

(** A frame of 176 by 144 without order hint, a context for it and sequence headers. *)
Definition frmS : frm :=
  mkFrm 176 144 160 144 2 1 1 None None None false 1 1 false false 0 0 false (repeat 0 8) false false 0 0 (repeat 0 7) (repeat 1 7) false 0 false
    true (mkQ 0 false true 3 4 5) seg0 (mkDelta false 0 false 0 false) lf0 cdef0 (mkLR 0 0 0 0) true false false false true gm0.
Definition ctxS (hint existing : bool) (g : option grain) : ctx :=
  mkCtx false true 4 2 false existing 5 None true true false 2 [0; 1; 2; 3; 0; 1; 2; 3] (repeat true 8) [1; 62; 63; 3; 2; 0; 61; 60] (repeat 0 8)
    (repeat 0 7) (repeat 0 7) (repeat 0 7) false 2 2 0 3 false [] 0 0 hint 8 0 false
    false 4 false (repeat 0 8) (repeat 0 8) 0 2 dq0 3 false true true false false 0 false false (repeat false 8)
    (repeat (repeat 0 8) 3) 0 (mkLRC [0; 0; 0] [64; 64; 64] false false) true 0 false (0, 0) false true
    (repeat 0 8) (repeat av1_identity 8) (repeat av1_identity 8) g [grain_new] 0 0.
Definition strmS (hint existing : bool) (g : option grain) : strm := mkStrm (ctxS hint existing g) true false false None false 2 8 3 0 0 0.
Definition seqS (ids : bool) (w h : Z) : seqhdr :=
  mkSeq 0 false [] w h w h (if ids then Some (2, 4) else None) false false false false false false true true None.

(** C90 is false: in no state that a program of calls and changes of the context reaches
    can a sequence header with order hints be written; and after every sequence header
    that is written they are switched off. *)
Theorem C90_hints_never : forall T superblock l w w' x, @run_stream T superblock w strm_new l = Ok (w', x) -> c_obu_bits (z_ctx x) = 0 /\
  (forall h r, c_reduced (z_ctx x) = false -> c_enable_hint (z_ctx x) = true -> @stream_unit T superblock w' x (SSequence h) <> Ok r) /\
  (forall h w2 x2, @stream_unit T superblock w' x (SSequence h) = Ok (w2, x2) -> c_enable_hint (z_ctx x2) = false).
Proof. exact hints_never. Qed.
Print Assumptions C90_hints_never.
Theorem C90_order_hint_refuted : exists x h, (forall T superblock w, @run_stream T superblock w strm_new [Change x; Call (SSequence h)] = Panic) /\
  (forall T superblock, exists w' x', @run_stream T superblock new_writer strm_new [Change (strmS false false None); Call (SSequence h)] = Ok (w', x')) /\ c_enable_hint (z_ctx x) = true.
Proof.
  exists (strmS true false None), (seqS true 176 144). split; [intros; vm_compute; reflexivity|]. split; [|reflexivity].
  intros. do 2 eexists. vm_compute. reflexivity.
Qed.
Print Assumptions C90_order_hint_refuted.
(** Programs that run, with the flag set again after the header. *)
Example C90_case : forall T superblock, exists w x, @run_stream T superblock new_writer strm_new
    [Change (strmS false false None); Call (SSequence (seqS true 176 144)); Call SDelimiter; Change (strmS true false None); Call (SHeader frmS)] = Ok (w, x) /\
  c_enable_hint (z_ctx x) = true /\ c_reduced (z_ctx x) = false /\ (20 < length (w_bytes w))%nat.
Proof. intros. do 2 eexists. split; [vm_compute; reflexivity|]. repeat split. cbn. lia. Qed.

(** C91. A decoder that has read the sequence header reads the frame header after it, if
    the caller keeps equal what the sequence header does not store, exactly when the
    sizes it got are those of the frame. *)
Theorem C91_header_after_sequence : forall T superblock x h f, seq_ok (enc_of x) h -> sizes_ok h ->
  (forall k, is_floor_log2 (sh_w h - 1) k <-> is_floor_log2 (sh_max_w h) k) -> (forall k, is_floor_log2 (sh_h h - 1) k <-> is_floor_log2 (sh_max_h h) k) ->
  exists code x1 v, @payload T superblock x (SSequence h) = Ok (code, x1) /\ (forall r, rd_seq false (code ++ r) = Some (v, r)) /\
  (forall k, is_floor_log2 (sh_max_w h) k -> ps_width_minus_1 v = (sh_max_w h - 1) mod 2 ^ k) /\
  (forall k, is_floor_log2 (sh_max_h h) k -> ps_height_minus_1 v = (sh_max_h h - 1) mod 2 ^ k) /\
  (kept_equal (z_ctx x1) f v -> header_typed (z_ctx x1) f -> header_ready (z_ctx x1) f ->
   exists bits x2, @payload T superblock x1 (SHeader f) = Ok (bits, x2) /\
   forall nw nh types,
     (ps_width_minus_1 v + 1 = f_w f /\ ps_height_minus_1 v + 1 = f_h f -> decodes bits (rd_header (av1_seq_of v nw nh types)) (Intra (header_of (z_ctx x1) f))) /\
     (~ (ps_width_minus_1 v + 1 = f_w f /\ ps_height_minus_1 v + 1 = f_h f) -> never_decodes bits (rd_header (av1_seq_of v nw nh types)) (Intra (header_of (z_ctx x1) f)))).
Proof. exact header_after_seq. Qed.
Print Assumptions C91_header_after_sequence.
(** Never for a sequence header made for the size of the frame. *)
Theorem C91_own_size_never : forall T superblock x h f, seq_ok (enc_of x) h -> sizes_ok h -> sh_max_w h = sh_w h ->
  (forall k, is_floor_log2 (sh_w h - 1) k <-> is_floor_log2 (sh_max_w h) k) -> (forall k, is_floor_log2 (sh_h h - 1) k <-> is_floor_log2 (sh_max_h h) k) ->
  exists code x1 v, @payload T superblock x (SSequence h) = Ok (code, x1) /\ (forall r, rd_seq false (code ++ r) = Some (v, r)) /\
  (kept_equal (z_ctx x1) f v -> header_typed (z_ctx x1) f -> header_ready (z_ctx x1) f -> f_w f = sh_w h ->
   exists bits x2, @payload T superblock x1 (SHeader f) = Ok (bits, x2) /\
   forall nw nh types, never_decodes bits (rd_header (av1_seq_of v nw nh types)) (Intra (header_of (z_ctx x1) f))).
Proof. exact own_size_never. Qed.
Print Assumptions C91_own_size_never.
Lemma floor_same a b k : 2 ^ k <= a -> a < 2 ^ (k + 1) -> 2 ^ k <= b -> b < 2 ^ (k + 1) -> 0 <= k -> forall j, is_floor_log2 a j <-> is_floor_log2 b j.
Proof.
  intros A1 A2 B1 B2 K j. assert (E : Z.log2 a = Z.log2 b) by (transitivity k; [|symmetry]; apply Z.log2_unique; unfold Z.succ; lia).
  assert (0 < 2 ^ k) by (apply Z.pow_pos_nonneg; lia). rewrite !SeqProofs3.floor_log2_iff by lia. rewrite E. tauto.
Qed.
(** A sequence header for 432 by 400 gives a decoder the 176 by 144 of the frame; one for
    176 by 144 does not. *)
Lemma casesS w h : In (w, h) [(432, 400); (176, 144)] ->
  seq_ok (enc_of (strmS false false (Some grain1))) (seqS true w h) /\ sizes_ok (seqS true w h) /\
  (forall k, is_floor_log2 (w - 1) k <-> is_floor_log2 w k) /\ (forall k, is_floor_log2 (h - 1) k <-> is_floor_log2 h k).
Proof.
  intros I. split; [unfold seq_ok, tools_ok, color_ok; cbn; repeat split; try lia; auto; discriminate|].
  destruct I as [E|[E|[]]]; injection E as <- <-; (split; [unfold sizes_ok; cbn; lia|]); split;
    try (apply (floor_same _ _ 8); cbn; lia); apply (floor_same _ _ 7); cbn; lia.
Qed.
Lemma caseS T superblock w h : In (w, h) [(432, 400); (176, 144)] -> exists code x1 v,
  @payload T superblock (strmS false false (Some grain1)) (SSequence (seqS true w h)) = Ok (code, x1) /\ rd_seq false code = Some (v, []) /\
  kept_equal (z_ctx x1) frmS v /\ header_typed (z_ctx x1) frmS /\ header_ready (z_ctx x1) frmS.
Proof.
  intros I. destruct I as [E|[E|[]]]; injection E as <- <-; do 3 eexists; (split; [vm_compute; reflexivity|]); (split; [vm_compute; reflexivity|]).
  all: split; [unfold kept_equal; cbn; repeat split; lia|]; split;
    [unfold header_typed, ids_typed, size_typed, quant_typed, lf_typed, u8, i64; cbn;
     repeat split; try lia; try discriminate; try (repeat constructor; lia); try (intros; contradiction); intros row [<-|[<-|[<-|[]]]]; reflexivity
    |unfold header_ready, tiles_fit, lossless_frame, grain_ready, grain_fits, points_fit, coeffs_fit, u8;
     cbn; repeat split; try lia; try discriminate; try (right; reflexivity); try (repeat constructor; lia); try tauto].
Qed.
Example C91_case : forall T superblock, exists code x1 v bits x2,
  @payload T superblock (strmS false false (Some grain1)) (SSequence (seqS true 432 400)) = Ok (code, x1) /\ rd_seq false code = Some (v, []) /\
  @payload T superblock x1 (SHeader frmS) = Ok (bits, x2) /\ decodes bits (rd_header (av1_seq_of v 7 7 [])) (Intra (header_of (z_ctx x1) frmS)).
Proof.
  intros. destruct (casesS 432 400 (or_introl eq_refl)) as (A & B & C & D).
  destruct (C91_header_after_sequence T superblock _ _ frmS A B C D) as (code & x1 & v & E & R & W & H & G).
  destruct (caseS T superblock 432 400 (or_introl eq_refl)) as (code' & x1' & v' & E' & R' & K & TY & RE). rewrite E in E'. injection E' as <- <-.
  specialize (R []). rewrite app_nil_r in R. rewrite R in R'. injection R' as <-. destruct (G K TY RE) as (bits & x2 & EH & DD). exists code, x1, v, bits, x2.
  split; [exact E|]. split; [exact R|]. split; [exact EH|]. apply DD.
  rewrite (W 8), (H 8); [split; reflexivity|unfold is_floor_log2; cbn; lia..].
Qed.
Theorem C91_size_refuted : exists x h f, sh_w h = f_w f /\ sh_h h = f_h f /\ sh_max_w h = f_w f /\ sh_max_h h = f_h f /\ forall T superblock, exists code x1 v bits x2,
  @payload T superblock x (SSequence h) = Ok (code, x1) /\ rd_seq false code = Some (v, []) /\
  @payload T superblock x1 (SHeader f) = Ok (bits, x2) /\ forall nw nh types, never_decodes bits (rd_header (av1_seq_of v nw nh types)) (Intra (header_of (z_ctx x1) f)).
Proof.
  exists (strmS false false (Some grain1)), (seqS true 176 144), frmS. do 4 (split; [reflexivity|]). intros.
  destruct (casesS 176 144 (or_intror (or_introl eq_refl))) as (A & B & C & D).
  destruct (C91_own_size_never T superblock _ _ frmS A B eq_refl C D) as (code & x1 & v & E & R & G).
  destruct (caseS T superblock 176 144 (or_intror (or_introl eq_refl))) as (code' & x1' & v' & E' & R' & K & TY & RE). rewrite E in E'. injection E' as <- <-.
  specialize (R []). rewrite app_nil_r in R. rewrite R in R'. injection R' as <-. destruct (G K TY RE eq_refl) as (bits & x2 & EH & DD). exists code, x1, v, bits, x2. auto.
Qed.
Print Assumptions C91_size_refuted.
(** And not when the sequence header announces no frame identifiers although the context
    has them, with everything else as in the case above. *)
Theorem C91_identifiers_refuted : exists x h f, forall T superblock, exists code x1 v bits x2,
  @payload T superblock x (SSequence h) = Ok (code, x1) /\ rd_seq false code = Some (v, []) /\ ps_width_minus_1 v + 1 = f_w f /\ ps_height_minus_1 v + 1 = f_h f /\
  @payload T superblock x1 (SHeader f) = Ok (bits, x2) /\ ~ decodes bits (rd_header (av1_seq_of v 7 7 [])) (Intra (header_of (z_ctx x1) f)).
Proof.
  exists (strmS false false (Some grain1)), (seqS false 432 400), frmS. intros. do 5 eexists. split; [vm_compute; reflexivity|]. split; [vm_compute; reflexivity|].
  split; [reflexivity|]. split; [reflexivity|]. split; [vm_compute; reflexivity|]. intros (_ & D). specialize (D []). vm_compute in D. discriminate.
Qed.
Print Assumptions C91_identifiers_refuted.

(** And not for monochrome video: the number of planes in the context stays 3. *)
Definition monoS : strm :=
  let c := ctxS false false (Some grain1) in
  mkStrm (mkCtx (c_seen c) (c_ids c) (c_add_len c) (c_delta_len c) (c_reduced c) (c_existing c) (c_map_idx c)
    (c_timing c) (c_show c) (c_showable c) (c_intra c) (c_refresh c)
    (c_ref_type c) (c_ref_valid c) (c_ref_id c) (c_ref_hint c) (c_order_hints c) (c_expected c) (c_sign_bias c)
    (c_no_update c) (c_sct c) (c_imv c) (c_prev_id c) (c_cur_id c) (c_override c)
    (c_opm c) (c_tid c) (c_sid c) (c_enable_hint c) (c_denom c) (c_up c) (c_superres c)
    (c_ref_mvs c) (c_bits c) (c_sb128 c) (c_col_starts c) (c_row_starts c)
    (c_update_tile c) (c_size_bytes c) (c_dq c) (c_planes c) true (c_ssx c) (c_ssy c) (c_sep c)
    (c_pre_skip c) (c_last_seg c) (c_coded_lossless c) (c_all_lossless c) (c_lossless c)
    (c_qm c) (c_cur_q c) (c_lr c) (c_restoration c) (c_tx_mode c)
    (c_skip_allowed c) (c_skip_frames c) (c_warped c) (c_no_end c)
    (c_gm_type c) (c_gm c) (c_prev_gm c) (c_grain c) (c_ref_grain c) (c_obu_bits c) (c_id_len c)) true false false None false 2 8 3 0 0 0.
(** C91: a sequence header leaves the state of the frames alone (references, tiles, filters, grain, ...). *)
Theorem C91_frames_kept : forall T superblock x h code x1, @payload T superblock x (SSequence h) = Ok (code, x1) ->
    c_seen (z_ctx x1) = c_seen (z_ctx x) /\ c_ids (z_ctx x1) = c_ids (z_ctx x) /\ c_add_len (z_ctx x1) = c_add_len (z_ctx x) /\
    c_delta_len (z_ctx x1) = c_delta_len (z_ctx x) /\ c_reduced (z_ctx x1) = c_reduced (z_ctx x) /\ c_existing (z_ctx x1) = c_existing (z_ctx x) /\
    c_map_idx (z_ctx x1) = c_map_idx (z_ctx x) /\ c_show (z_ctx x1) = c_show (z_ctx x) /\ c_showable (z_ctx x1) = c_showable (z_ctx x) /\
    c_intra (z_ctx x1) = c_intra (z_ctx x) /\ c_refresh (z_ctx x1) = c_refresh (z_ctx x) /\ c_ref_type (z_ctx x1) = c_ref_type (z_ctx x) /\
    c_ref_valid (z_ctx x1) = c_ref_valid (z_ctx x) /\ c_ref_id (z_ctx x1) = c_ref_id (z_ctx x) /\ c_ref_hint (z_ctx x1) = c_ref_hint (z_ctx x) /\
    c_order_hints (z_ctx x1) = c_order_hints (z_ctx x) /\ c_expected (z_ctx x1) = c_expected (z_ctx x) /\ c_sign_bias (z_ctx x1) = c_sign_bias (z_ctx x) /\
    c_no_update (z_ctx x1) = c_no_update (z_ctx x) /\ c_prev_id (z_ctx x1) = c_prev_id (z_ctx x) /\ c_cur_id (z_ctx x1) = c_cur_id (z_ctx x) /\
    c_override (z_ctx x1) = c_override (z_ctx x) /\ c_opm (z_ctx x1) = c_opm (z_ctx x) /\ c_tid (z_ctx x1) = c_tid (z_ctx x) /\
    c_sid (z_ctx x1) = c_sid (z_ctx x) /\ c_denom (z_ctx x1) = c_denom (z_ctx x) /\ c_up (z_ctx x1) = c_up (z_ctx x) /\
    c_superres (z_ctx x1) = c_superres (z_ctx x) /\ c_bits (z_ctx x1) = c_bits (z_ctx x) /\ c_sb128 (z_ctx x1) = c_sb128 (z_ctx x) /\
    c_col_starts (z_ctx x1) = c_col_starts (z_ctx x) /\ c_row_starts (z_ctx x1) = c_row_starts (z_ctx x) /\ c_update_tile (z_ctx x1) = c_update_tile (z_ctx x) /\
    c_size_bytes (z_ctx x1) = c_size_bytes (z_ctx x) /\ c_dq (z_ctx x1) = c_dq (z_ctx x) /\ c_planes (z_ctx x1) = c_planes (z_ctx x) /\
    c_pre_skip (z_ctx x1) = c_pre_skip (z_ctx x) /\ c_last_seg (z_ctx x1) = c_last_seg (z_ctx x) /\ c_coded_lossless (z_ctx x1) = c_coded_lossless (z_ctx x) /\
    c_all_lossless (z_ctx x1) = c_all_lossless (z_ctx x) /\ c_lossless (z_ctx x1) = c_lossless (z_ctx x) /\ c_qm (z_ctx x1) = c_qm (z_ctx x) /\
    c_cur_q (z_ctx x1) = c_cur_q (z_ctx x) /\ c_lr (z_ctx x1) = c_lr (z_ctx x) /\ c_restoration (z_ctx x1) = c_restoration (z_ctx x) /\
    c_tx_mode (z_ctx x1) = c_tx_mode (z_ctx x) /\ c_skip_allowed (z_ctx x1) = c_skip_allowed (z_ctx x) /\ c_skip_frames (z_ctx x1) = c_skip_frames (z_ctx x) /\
    c_no_end (z_ctx x1) = c_no_end (z_ctx x) /\ c_gm_type (z_ctx x1) = c_gm_type (z_ctx x) /\ c_gm (z_ctx x1) = c_gm (z_ctx x) /\
    c_prev_gm (z_ctx x1) = c_prev_gm (z_ctx x) /\ c_grain (z_ctx x1) = c_grain (z_ctx x) /\ c_ref_grain (z_ctx x1) = c_ref_grain (z_ctx x) /\
    c_id_len (z_ctx x1) = c_id_len (z_ctx x) /\
    z_cdef x1 = z_cdef x /\ z_high x1 = z_high x /\ z_twelve x1 = z_twelve x /\ z_tg_start x1 = z_tg_start x /\ z_tg_end x1 = z_tg_end x /\ z_tile_num x1 = z_tile_num x.
Proof. exact sequence_keeps. Qed.
Print Assumptions C91_frames_kept.
Theorem C91_planes_kept : forall T superblock x h code x1, 0 <= sh_profile h <= 2 -> @payload T superblock x (SSequence h) = Ok (code, x1) ->
  c_planes (z_ctx x1) = c_planes (z_ctx x) /\ (z_planes x1 = if c_mono (z_ctx x1) then 1 else 3).
Proof. exact planes_kept. Qed.
Print Assumptions C91_planes_kept.
(** Bit depth and number of planes of the encoder itself follow what the header writes
    and stay until the next one, whatever the caller does in between. *)
Theorem C91_private_kept : forall T superblock x h code x1, 0 <= sh_profile h <= 2 -> @payload T superblock x (SSequence h) = Ok (code, x1) ->
  (z_depth x1 = if z_high x then (if (sh_profile h =? 2) && z_twelve x then 12 else 10) else 8) /\
  (z_planes x1 = if negb (sh_profile h =? 1) && c_mono (z_ctx x) then 1 else 3) /\
  (forall l ps x2, Forall quiet l -> payloads superblock x1 l = Ok (ps, x2) -> z_depth x2 = z_depth x1 /\ z_planes x2 = z_planes x1).
Proof. exact depth_kept. Qed.
Print Assumptions C91_private_kept.
Example C91_private_case : forall T superblock, exists code x1 ps x2, @payload T superblock monoS (SSequence (seqS true 432 400)) = Ok (code, x1) /\
  Forall quiet [@Change T strm_new; Call SDelimiter] /\ payloads superblock x1 [Change strm_new; Call SDelimiter] = Ok (ps, x2) /\ z_depth x2 = 8 /\ z_planes x2 = 1.
Proof. intros. do 4 eexists. split; [vm_compute; reflexivity|]. split; [repeat constructor|]. split; [vm_compute; reflexivity|]. split; reflexivity. Qed.
Theorem C91_monochrome_refuted : exists x h, forall T superblock, exists code x1,
  @payload T superblock x (SSequence h) = Ok (code, x1) /\ z_planes x1 = 1 /\ c_planes (z_ctx x1) = 3.
Proof. exists monoS, (seqS true 432 400). intros. do 2 eexists. split; [vm_compute; reflexivity|]. split; reflexivity. Qed.
Print Assumptions C91_monochrome_refuted.

(** C92. A sequence header written again after any other OBUs says the same, except that
    film grain is announced as soon as a frame header has been written. *)
Theorem C92_sequence_again : forall T superblock x h, seq_ok (enc_of x) h -> sizes_ok h -> c_existing (z_ctx x) = false ->
  (forall k, is_floor_log2 (sh_w h - 1) k <-> is_floor_log2 (sh_max_w h) k) -> (forall k, is_floor_log2 (sh_h h - 1) k <-> is_floor_log2 (sh_max_h h) k) ->
  exists code x1 v h', enc_seq [] (enc_of x) h = Ok (code, enc_of x1, h') /\ @payload T superblock x (SSequence h) = Ok (code, x1) /\ (forall r, rd_seq false (code ++ r) = Some (v, r)) /\
  forall os ps x2, Forall (not_seq T) os -> @payloads T superblock x1 (map Call os) = Ok (ps, x2) ->
  exists code2 x3, @payload T superblock x2 (SSequence h') = Ok (code2, x3) /\
    forall r, rd_seq false (code2 ++ r) = Some (with_grain v (ps_grain v || any_header T os ps), r).
Proof. exact seq_after_frames. Qed.
Print Assumptions C92_sequence_again.
Theorem C92_same_refuted : exists x h f, forall T superblock, exists code x1 bits x2 code2 x3,
  @payload T superblock x (SSequence h) = Ok (code, x1) /\ @payload T superblock x1 (SHeader f) = Ok (bits, x2) /\ @payload T superblock x2 (SSequence h) = Ok (code2, x3) /\
  (exists v v2, rd_seq false code = Some (v, []) /\ rd_seq false code2 = Some (v2, []) /\ ps_grain v = false /\ ps_grain v2 = true).
Proof.
  exists (strmS false false None), (seqS true 432 400), frmS. intros. do 6 eexists. do 3 (split; [vm_compute; reflexivity|]). do 2 eexists. do 2 (split; [vm_compute; reflexivity|]). split; reflexivity.
Qed.
Print Assumptions C92_same_refuted.
Example C92_case : forall T superblock, seq_ok (enc_of (strmS false false None)) (seqS true 432 400) /\ exists code x1 ps x2,
  @payload T superblock (strmS false false None) (SSequence (seqS true 432 400)) = Ok (code, x1) /\
  @payloads T superblock x1 (map Call [SDelimiter; SHeader frmS; SPadding 3]) = Ok (ps, x2) /\ any_header T [SDelimiter; SHeader frmS; SPadding 3] ps = true /\
  Forall (not_seq T) [SDelimiter; SHeader frmS; SPadding 3].
Proof.
  intros. split; [unfold seq_ok, tools_ok, color_ok; cbn; repeat split; try lia; auto; discriminate|].
  do 4 eexists. split; [vm_compute; reflexivity|]. split; [vm_compute; reflexivity|]. split; [reflexivity|repeat constructor].
Qed.

(** C93. As long as no frame is shown again, a frame header OBU has a payload exactly
    when a decoder of the stream expects one. *)
Theorem C93_headers_in_step : forall T superblock os x ps x', Forall (sane T) os -> c_reduced (z_ctx x) = true \/ c_existing (z_ctx x) = false ->
  @payloads T superblock x (map Call os) = Ok (ps, x') ->
  c_seen (z_ctx x') = flag_after (c_seen (z_ctx x)) (map (told_of T x) os) /\
  (forall i f p b, nth_error os i = Some (SHeader f) -> nth_error ps i = Some p -> nth_error (flags (c_seen (z_ctx x)) (map (told_of T x) os)) i = Some b -> (p = [] <-> b = true)).
Proof. exact flags_in_step. Qed.
Print Assumptions C93_headers_in_step.
(** But a repeated header is no copy of the first, as 5.9.1 demands, and the header after
    a frame shown again is missing. *)
Theorem C93_copy_refuted : exists x f, forall T superblock, exists bits x', @payloads T superblock x [Call (SHeader f); Call (SHeader f)] = Ok ([bits; []], x') /\ bits <> [].
Proof. exists (strmS false false None), frmS. intros. do 2 eexists. split; [vm_compute; reflexivity|discriminate]. Qed.
Print Assumptions C93_copy_refuted.
Theorem C93_shown_again_refuted : exists x f, forall T superblock, exists bits x', let l := [AHeader true; AHeader false] in
  @payloads T superblock x [Call (SHeader f); Call (SHeader f)] = Ok ([bits; []], x') /\ bits <> [] /\ flags (c_seen (z_ctx x)) l = [false; false].
Proof.
  exists (strmS false true None), (mkFrm 176 144 160 144 2 1 1 None None (Some 3) false 1 1 false false 0 0 false (repeat 0 8) false false 0 0 (repeat 0 7) (repeat 1 7) false 0 false
    true (mkQ 0 false true 3 4 5) seg0 (mkDelta false 0 false 0 false) lf0 cdef0 (mkLR 0 0 0 0) true false false false true gm0).
  intros. do 2 eexists. split; [vm_compute; reflexivity|]. split; [discriminate|reflexivity].
Qed.
Print Assumptions C93_shown_again_refuted.
Example C93_case : forall T superblock (st : T), let f2 := mkFrm 176 144 160 144 2 2 1 None None None false 1 1 false false 0 0 false (repeat 0 8) false false 0 0 (repeat 0 7) (repeat 1 7) false 0 false
    true (mkQ 0 false true 3 4 5) seg0 (mkDelta false 0 false 0 false) lf0 cdef0 (mkLR 0 0 0 0) true false false false true gm0 in
  let x := mkStrm (ctxS false false None) true false false None false 2 8 3 2 1 0 in
  let os := [SDelimiter; SHeader frmS; SHeader frmS; STiles f2 1 st []; SHeader frmS] in exists ps x', @payloads T superblock x (map Call os) = Ok (ps, x') /\ Forall (sane T) os /\
  map (fun p => match p with [] => true | _ => false end) ps = [true; false; true; false; false] /\ flags false (map (told_of T x) os) = [false; false; true; true; false].
Proof. intros. do 2 eexists. split; [vm_compute; reflexivity|]. split; [repeat constructor; cbn; lia|]. split; reflexivity. Qed.

(** C94. The bytes of a whole program; frames passed as OBU_FRAME leave no trace. *)
Theorem C94_stream_bytes : forall T superblock l w x ps x', aligned w -> @payloads T superblock x l = Ok (ps, x') -> Forall is_bits ps ->
  exists w' bs, @run_stream T superblock w x l = Ok (w', x') /\ aligned w' /\ w_bytes w' = w_bytes w ++ bs /\ framed (map (stype T) (calls T l)) ps bs.
Proof. exact stream_bytes. Qed.
Print Assumptions C94_stream_bytes.
Theorem C94_frames_lost : forall T superblock l l' w x, Forall2 (alike T) l l' -> @run_stream T superblock w x l = @run_stream T superblock w x l'.
Proof. exact frames_lost. Qed.
Print Assumptions C94_frames_lost.
Theorem C94_frame_refuted : exists f g, f <> g /\ forall T superblock w x, @stream_unit T superblock w x (SFrame f) = @stream_unit T superblock w x (SFrame g) /\
  (aligned w -> exists w', @stream_unit T superblock w x (SFrame f) = Ok (w', x) /\ w_bytes w' = w_bytes w ++ [24; 16; 8; 48]).
Proof.
  exists frmS, (frm176 0). split; [discriminate|]. intros. split; [reflexivity|]. intros A.
  destruct (unit_bytes T superblock w x (SFrame frmS) [] x A eq_refl) as (w' & pb & E & _ & (_ & P) & B); [constructor|]. exists w'. split; [exact E|].
  destruct pb as [|b r]; [exact B|discriminate P].
Qed.
Print Assumptions C94_frame_refuted.
Example C94_case : forall T superblock, exists ps x, @payloads T superblock strm_new
    [Change (strmS false false None); Call (SSequence (seqS true 176 144)); Call SDelimiter; Call (SHeader frmS); Call (SFrame frmS)] = Ok (ps, x) /\ Forall is_bits ps /\ aligned new_writer.
Proof.
  intros. do 2 eexists. split; [vm_compute; reflexivity|]. split; [|exact aligned_new].
  assert (B : forall l, forallb (fun b => (b =? 0) || (b =? 1)) l = true -> is_bits l).
  { intros l H. apply Forall_forall. intros b I. rewrite forallb_forall in H. specialize (H b I). unfold is_bit. lia. }
  do 4 (apply Forall_cons; [apply B; vm_compute; reflexivity|]). apply Forall_nil.
Qed.
