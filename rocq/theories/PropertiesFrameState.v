(** C87. What the encoder's context and the frame hold after a frame header, and that it
    is what a decoder has after reading it. *)
From Coq Require Import ZArith List Bool Lia ZifyBool ZifyNat.
From Verif Require Import Base BaseProofs TableLemmas UtilModel UtilSpec UtilProofs BitsSpec BitsProofs RangeCoderModel BitCodecModel BitCodecProofs
  SessionModel SeqModel SeqSpec SeqProofs ElementSpec TileModel TileSpec TileProofs FrameParamModel FrameModel FrameSpec FrameBits FrameProofs FrameProofs2 FrameProofs3 FrameProofs4 FrameProofs5 FrameProofs6 FrameProofs7 FrameProofs8 FrameProofs9 FrameProofs10
  PropertiesFrame.
Import ListNotations.
Open Scope Z_scope.

(** Every header that is written at all, of a frame that is not shown again. *)
Definition written (c : ctx) (f : frm) (c' : ctx) (f' : frm) : Prop :=
  c_seen c = false /\ c_existing c = false /\ length (c_order_hints c) = 7%nat /\ exists out out', encode_frame_header out c f = Ok (out', c', f').
Lemma written_run c f c' f' : written c f c' f' -> header_run c f c' f'.
Proof. intros (S & E & L & out & out' & H). exact (header_runs _ _ _ _ _ _ S L E H). Qed.

(** The flags of the frame: it is an intra frame, integer vectors are forced, no high
    precision, no motion field, no intra block copy, no primary reference, no compound
    or skip mode, no warped motion. *)
Theorem C87_flags : forall c f c' f', written c f c' f' ->
  c_seen c' = true /\ c_show c' = c_show c /\ c_showable c' = negb (c_show c) && c_showable c /\ c_intra c' = true /\ c_refresh c' = c_refresh c /\
  c_no_end c' = c_no_update c || c_no_end c /\ c_tx_mode c' = (if c_coded_lossless c' then 0 else if f_tx_select f then 2 else 1) /\
  c_all_lossless c' = c_coded_lossless c' && (f_w f' =? c_up c') /\
  f_type f' = f_type f /\ f_err f' = f_err f /\ f_sct f' = (if c_sct c =? 2 then f_sct f else c_sct c) /\ f_imv f' = 1 /\
  f_hp f' = false /\ f_ref_mvs f' = false /\ f_intrabc f' = false /\ f_primary f' = 7 /\ f_select f' = false /\ f_skip_mode f' = false /\ f_warped f' = false.
Proof.
  intros c f c' f' W. apply written_run in W. destruct (hr_flags _ _ _ _ W) as (A1 & _ & A2 & A3 & A4 & A5 & _ & A7 & A8 & _). pose proof (hr_all _ _ _ _ W) as A9.
  destruct (hr_frame _ _ _ _ W) as (B1 & B2 & B3 & B4 & B5 & B6 & B7 & B8 & B9 & B10 & B11). unfold sct_of in B3. repeat (split; [assumption|]). assumption.
Qed.
Print Assumptions C87_flags.

(** The identifier of the frame becomes the previous one as well, and a reference can
    still be used afterwards exactly if it could be before, its identifier is not too far
    back, and its order hint is the one given (the latter only for error-resilient
    frames that do not refresh everything, in sequences with order hints). *)
Theorem C87_references : forall c f c' f', written c f c' f' ->
  (c_ids c = true -> 2 <= c_delta_len c < 256 /\ 1 <= c_add_len c < 256 /\
     ids_typed (c_add_len c + c_delta_len c) (c_delta_len c) (c_cur_id c) (c_ref_id c) (c_ref_valid c)) ->
  c_cur_id c' = (if c_ids c then c_cur_id c else 0) /\ c_prev_id c' = (if c_ids c then c_cur_id c else c_prev_id c) /\
  length (c_ref_valid c') = length (c_ref_valid c) /\
  forall i, (i < 8)%nat -> (nth i (c_ref_valid c') false = true <->
    nth i (c_ref_valid c) false = true /\
    (c_ids c = true -> (c_cur_id c - nth i (c_ref_id c) 0) mod 2 ^ (c_add_len c + c_delta_len c) <= 2 ^ c_delta_len c) /\
    (c_refresh c <> 255 -> f_err f = true -> c_enable_hint c = true -> nth i (f_ref_hint f) 0 = nth i (c_ref_hint c) 0)).
Proof.
  intros c f c' f' W T. apply written_run in W. destruct (header_marks _ _ _ _ W T) as (A & B & L & H). split; [exact A|]. split; [exact B|]. split; [exact L|].
  intros i I. rewrite (H i I). clear. unfold id_usable. destruct (nth i (c_ref_valid c) false); [|cbn; split; [discriminate|intros (X & _); discriminate]]. cbn [andb].
  rewrite andb_true_iff, !orb_true_iff, Z.leb_le, Z.eqb_eq, !negb_true_iff, !andb_false_iff, negb_false_iff, Z.eqb_eq.
  set (x := (_ - _) mod _). clearbody x. set (y := 2 ^ _). clearbody y. destruct (c_ids c), (f_err f), (c_enable_hint c); intuition (try discriminate; try lia).
Qed.
Print Assumptions C87_references.

(** What describes the sequence, the references and the rest of the request is left as
    it was. *)
Theorem C87_untouched : forall c f c' f', written c f c' f' ->
  (c_ref_type c', c_ref_id c', c_ref_hint c', c_order_hints c', c_expected c', c_sign_bias c', c_prev_gm c', c_ref_grain c') =
  (c_ref_type c, c_ref_id c, c_ref_hint c, c_order_hints c, c_expected c, c_sign_bias c, c_prev_gm c, c_ref_grain c) /\
  (c_ids c', c_add_len c', c_delta_len c', c_reduced c', c_map_idx c', c_timing c', c_no_update c', c_sct c', c_imv c', c_opm c', c_tid c', c_sid c', c_override c') =
  (c_ids c, c_add_len c, c_delta_len c, c_reduced c, c_map_idx c, c_timing c, c_no_update c, c_sct c, c_imv c, c_opm c, c_tid c, c_sid c, c_override c) /\
  (c_enable_hint c', c_superres c', c_ref_mvs c', c_bits c', c_sb128 c', c_size_bytes c', c_planes c', c_mono c', c_ssx c', c_ssy c', c_sep c', c_cur_q c', c_restoration c', c_warped c', c_obu_bits c') =
  (c_enable_hint c, c_superres c, c_ref_mvs c, c_bits c, c_sb128 c, c_size_bytes c, c_planes c, c_mono c, c_ssx c, c_ssy c, c_sep c, c_cur_q c, c_restoration c, c_warped c, c_obu_bits c) /\
  (f_tile_cols f', f_tile_rows f', f_dm f', f_tpi f', f_display_id f', f_hint f', f_ref_hint f', f_short f', f_last_idx f', f_gold_idx f', f_ref_idx f', f_delta_id f') =
  (f_tile_cols f, f_tile_rows f, f_dm f, f_tpi f, f_display_id f, f_hint f, f_ref_hint f, f_short f, f_last_idx f, f_gold_idx f, f_ref_idx f, f_delta_id f) /\
  (f_switchable f', f_interp f', f_motion f', f_uniform f', f_tx_select f', f_reduced_tx f', f_gm f') =
  (f_switchable f, f_interp f, f_motion f, f_uniform f, f_tx_select f, f_reduced_tx f, f_gm f).
Proof.
  intros c f c' f' W. apply written_run in W. destruct (hr_flags _ _ _ _ W) as (_ & _ & _ & _ & _ & _ & OV & _).
  destruct (hr_refs _ _ _ _ W) as (A1 & A2 & A3 & A4 & A5 & A6 & A7 & A8).
  destruct (hr_kept _ _ _ _ W) as (B1 & B2 & B3 & B4 & B5 & B6 & B7 & B8 & B9 & B10 & B11 & B12 & B13 & B14 & B15 & B16 & B17 & B18 & B19 & B20 & B21 & B22 & B23 & B24 & B25 & B26 & B27).
  destruct (hr_asked _ _ _ _ W) as (C1 & C2 & C3 & C4 & C5 & C6 & C7 & C8 & C9 & C10 & C11 & C12 & C13 & C14 & C15 & C16 & C17 & C18 & C19).
  repeat split; congruence.
Qed.
Print Assumptions C87_untouched.

(** The sizes: the width asked for is the upscaled one; the coded width is scaled down by
    8/denominator and rounded; the render size is kept unless it equals the coded size. *)
Theorem C87_sizes : forall c f c' f', written c f c' f' ->
  let use := c_superres c && f_use_superres f in let denom := if use then c_denom c else 8 in
  f_use_superres f' = use /\ c_denom c' = denom /\ c_up c' = f_w f /\ f_w f' = (f_w f * 8 + denom / 2) / denom /\ f_h f' = f_h f /\
  ((f_w f' = f_rw f /\ f_h f = f_rh f) -> f_rw f' = f_w f /\ f_rh f' = f_h f) /\
  (~ (f_w f' = f_rw f /\ f_h f = f_rh f) -> f_rw f' = f_rw f /\ f_rh f' = f_rh f).
Proof.
  intros c f c' f' W use denom. apply written_run in W. pose proof (header_sizes _ _ _ _ W) as (A1 & A2 & A3 & A4 & A5 & A6).
  split; [exact A5|]. split; [exact A4|]. split; [exact A3|]. split; [exact A1|]. split; [exact A2|]. rewrite <- A1 in A6.
  split; intros X; (destruct ((f_w f' =? f_rw f) && (f_h f =? f_rh f)) eqn:E; injection A6 as -> ->);
    rewrite ?andb_true_iff, ?andb_false_iff, ?Z.eqb_eq, ?Z.eqb_neq in E; tauto || lia.
Qed.
Print Assumptions C87_sizes.

(** What a decoder knows after reading the header is what the encoder kept: type and
    visibility, identifier, order hint, references to refresh, sizes, tile positions,
    quantizer, losslessness, film grain. *)
Theorem C87_decoder_agrees : forall s c f,
  header_known s c f -> header_typed c f -> header_ready c f -> length (c_order_hints c) = 7%nat -> exists bits c' f' h,
  encode_frame_header [] c f = Ok (bits, c', f') /\ decodes bits (rd_header s) (Intra h) /\
  h_type h = f_type f' /\ h_show h = c_show c' /\ h_showable h = c_show c' || c_showable c' /\ h_err h = f_err f' /\ h_no_update h = c_no_update c' /\
  h_sct h = f_sct f' /\ h_id h = c_cur_id c' /\ h_hint h = f_hint f' /\ h_refresh h = c_refresh c' /\
  h_size h = mkAZ (f_w f') (f_h f') (c_up c') (c_denom c') (f_rw f') (f_rh f') /\ h_intrabc h = f_intrabc f' /\ h_no_end h = c_no_end c' /\
  firstn (length (ti_col_starts (h_tiles h))) (c_col_starts c') = ti_col_starts (h_tiles h) /\
  firstn (length (ti_row_starts (h_tiles h))) (c_row_starts c') = ti_row_starts (h_tiles h) /\ ti_update_id (h_tiles h) = c_update_tile c' /\
  h_quant h = mkAQ (q_base (f_quant f')) (dq_y_dc (c_dq c')) (dq_u_dc (c_dq c')) (dq_u_ac (c_dq c')) (dq_v_dc (c_dq c')) (dq_v_ac (c_dq c'))
    (if q_using (f_quant f') then Some (q_y (f_quant f'), q_u (f_quant f'), q_v (f_quant f')) else None) /\
  h_lossless h = c_coded_lossless c' /\ h_tx_select h = None /\ c_tx_mode c' = 0 /\ h_reduced_tx h = f_reduced_tx f' /\ h_grain h = header_grain c'.
Proof. exact header_agrees. Qed.
Print Assumptions C87_decoder_agrees.

(** One field differs: a frame that is shown and is not a key frame is showable for the
    decoder; the encoder keeps that it is not. *)
Theorem C87_showable_refuted : exists s c f bits c' f' h,
  encode_frame_header [] c f = Ok (bits, c', f') /\ decodes bits (rd_header s) (Intra h) /\ h_showable h = true /\ c_showable c' = false.
Proof.
  destruct (header_agrees _ _ _ (proj1 C80_case) (proj1 (proj2 C80_case)) (proj2 (proj2 C80_case)) eq_refl) as (bits & c' & f' & h & E & D & _ & _ & SH & _).
  exists (seq176 true), (ctx176 true 0), (frm176 0), bits, c', f', h. split; [exact E|]. split; [exact D|].
  assert (W : written (ctx176 true 0) (frm176 0) c' f') by (repeat split; eauto).
  destruct (C87_flags _ _ _ _ W) as (_ & A & B & _). rewrite SH, A, B. split; reflexivity.
Qed.
Print Assumptions C87_showable_refuted.

(** The frame of C80, lossless and not. *)
Example C87_case : forall base cur, In (base, cur) [(0, 0); (100, 7)] -> exists c' f', written (ctx176 true cur) (frm176 base) c' f' /\
  c_ref_valid c' = [true; false; true; true; true; true; false; false] /\ c_prev_id c' = 3 /\
  length (c_order_hints (ctx176 true cur)) = 7%nat.
Proof.
  intros base cur [E|[E|[]]]; injection E as <- <-; do 2 eexists; (split; [unfold written; repeat split; exists []; eexists; vm_compute; reflexivity|]); repeat split.
Qed.
(** With error resilience two references have other order hints than those given. *)
Example C87_resilient : exists c' f', written (ctx176 true 0)
    (mkFrm 176 144 160 144 2 1 1 None None None true 1 1 false false 3 0 false [0; 0; 5; 0; 0; 9; 0; 0] false false 0 0 (repeat 0 7) (repeat 1 7) false 0 false
      true (mkQ 0 false true 3 4 5) seg0 (mkDelta false 0 false 0 false) lf0 cdef0 (mkLR 0 0 0 0) true false false false true gm0) c' f' /\
  c_ref_valid c' = [true; false; false; true; true; false; false; false].
Proof. do 2 eexists; (split; [unfold written; repeat split; exists []; eexists; vm_compute; reflexivity|]); repeat split. Qed.
