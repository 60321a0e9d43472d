(** Properties C67 to C81: the frame header. *)
From Coq Require Import ZArith List Bool Lia.
From Verif Require Import Base UtilModel BitsSpec BitCodecModel SessionModel SeqModel SeqSpec ElementSpec TileModel TileSpec FrameParamModel FrameModel FrameSpec
  FrameBits FrameProofs FrameProofs2 FrameProofs3 FrameProofs4 FrameProofs5 FrameProofs6 FrameProofs7 FrameProofs8 FrameProofs9.
Import ListNotations.
Open Scope Z_scope.

(** A frame of 64 by 64 without decoder model and with lossless coding, and a context
    for it: an intra-only frame with room for the tile starts. *)
Definition quant0 : quant := mkQ 0 false false 0 0 0.
Definition dq0 : dq5 := mkDQ 0 0 0 0 0.
Definition seg0 : segp := mkSegP false false false false no_features.
Definition lf0 : lfp := mkLF [10; 20; 30; 40] 3 true true (repeat false 8) [1; 0; 0; 0; -1; 0; -1; -1] [false; false] [0; 0].
Definition cdef0 : cdefp := mkCdef 3 0 [1] [2] [3] [2].
Definition gm0 : gmp := mkGM (repeat false 8) (repeat false 8) (repeat false 8).
Definition frm_of (typ : Z) (uniform : bool) : frm :=
  mkFrm 64 64 64 64 typ 1 1 None None None false 0 0 false false 3 0 false (repeat 0 8) false false 0 0 (repeat 0 7) (repeat 1 7) false 0 false
    uniform quant0 seg0 (mkDelta false 0 false 0 false) lf0 cdef0 (mkLR 0 0 0 0) false false false false false gm0.
Definition ctx_of (seen reduced existing show : bool) (starts : list Z) : ctx :=
  mkCtx seen false 1 2 reduced existing 5 None show true false 2 [0; 1; 2; 3; 0; 1; 2; 3] (repeat true 8) (repeat 0 8) (repeat 0 8)
    (repeat 0 7) (repeat 0 7) (repeat 0 7) false 0 0 0 0 false [] 0 0 true 8 0 false
    false 4 false starts starts 0 1 dq0 3 false true true false false 0 false false (repeat false 8)
    (repeat (repeat 0 8) 3) 0 (mkLRC [0; 0; 0] [64; 64; 64] false false) false 0 false (0, 0) false false
    (repeat 0 8) (repeat av1_identity 8) (repeat av1_identity 8) (Some grain_new) [grain_new] 4 0.

(** C67. A frame header is written only for a frame that is shown again, a key frame
    that is not shown, or an intra-only frame, and never with
    reduced_still_picture_header: for the others an index into the array of 7 order
    hints is 7. (The array has length 7, encoder.rs 34.) *)
Theorem C67_header_needs : forall out c f r,
  c_seen c = false -> length (c_order_hints c) = 7%nat -> encode_frame_header out c f = Ok r ->
  c_reduced c = false /\ (c_existing c = true \/ (f_type f = 0 /\ c_show c = false) \/ f_type f = 2).
Proof. exact header_needs. Qed.
Print Assumptions C67_header_needs.
(** With uniform tile spacing none is written for a new frame from the vectors of tile
    starts the encoder creates. *)
Theorem C67_no_uniform_header_from_start : forall out c f r,
  c_seen c = false -> length (c_order_hints c) = 7%nat -> c_existing c = false -> f_uniform f = true -> c_col_starts c = initial_starts ->
  encode_frame_header out c f <> Ok r.
Proof. exact header_starts. Qed.
Print Assumptions C67_no_uniform_header_from_start.
(** The frames the program makes (main.rs: key frames, shown) among them. *)
Theorem C67_shown_key_refuted : exists c f, c_seen c = false /\ c_show c = true /\ f_type f = 0 /\ length (c_order_hints c) = 7%nat /\
  encode_frame_header [] c f = Panic.
Proof. exists (ctx_of false false false true [0; 0]), (frm_of 0 true). repeat split. Qed.
Print Assumptions C67_shown_key_refuted.
Theorem C67_inter_refuted : exists c f, c_seen c = false /\ f_type f = 1 /\ length (c_order_hints c) = 7%nat /\
  encode_frame_header [] c f = Panic.
Proof. exists (ctx_of false false false true [0; 0]), (frm_of 1 true). repeat split. Qed.
Print Assumptions C67_inter_refuted.
Example C67_case : (exists r, encode_frame_header [] (ctx_of false false false true [0; 0]) (frm_of 2 true) = Ok r) /\
  (exists r, encode_frame_header [] (ctx_of false false false false [0; 0]) (frm_of 0 true) = Ok r) /\
  (exists r, encode_frame_header [] (ctx_of false false true false []) (frm_of 1 true) = Ok r) /\
  encode_frame_header [] (ctx_of false false false true initial_starts) (frm_of 2 true) = Panic.
Proof. repeat split; try (eexists; vm_compute; reflexivity); vm_compute; reflexivity. Qed.

(** C68. The quantization parameters kept are read back exactly if they fit. *)
Theorem C68_quantization_exactly : forall planes sep q d,
  quant_typed q d -> exists bits q' d',
  enc_quant [] planes sep q d = Ok (bits, q', d') /\
  (decodes bits (rd_quant planes sep) (quant_of q' d') <-> quant_fits planes q' d').
Proof. exact quant_decoded. Qed.
Print Assumptions C68_quantization_exactly.
(** Those kept are the caller's, completed as in the standard. *)
Theorem C68_quantization_kept : forall planes sep q d bits q' d',
  quant_typed q d -> enc_quant [] planes sep q d = Ok (bits, q', d') ->
  q_base q' = q_base q /\ q_using q' = q_using q /\ q_y q' = q_y q /\ q_u q' = q_u q /\
  (q_using q = true -> q_v q' = if sep then q_v q else q_u q) /\
  dq_y_dc d' = dq_y_dc d /\
  (1 < planes -> dq_u_dc d' = dq_u_dc d /\ dq_u_ac d' = dq_u_ac d /\
     dq_v_dc d' = (if sep && q_diff q then dq_v_dc d else dq_u_dc d) /\ dq_v_ac d' = (if sep && q_diff q then dq_v_ac d else dq_u_ac d)) /\
  (planes <= 1 -> dq_u_dc d' = 0 /\ dq_u_ac d' = 0 /\ dq_v_dc d' = 0 /\ dq_v_ac d' = 0).
Proof. exact quant_kept. Qed.
Print Assumptions C68_quantization_kept.
(** The number of planes is 3 for every stream: of a monochrome one the bits are never read. *)
Theorem C68_monochrome_never : forall q d bits q' d' v,
  quant_typed q d -> enc_quant [] 3 false q d = Ok (bits, q', d') ->
  never_decodes bits (rd_quant 1 false) v.
Proof. exact quant_mono. Qed.
Print Assumptions C68_monochrome_never.
Theorem C68_large_delta_refuted : exists q d, quant_typed q d /\ q_base q = 100 /\ dq_u_ac d = 64 /\
  exists bits q' d', enc_quant [] 3 false q d = Ok (bits, q', d') /\ ~ decodes bits (rd_quant 3 false) (quant_of q' d').
Proof.
  exists (mkQ 100 false false 0 0 0), (mkDQ 0 0 64 0 0). assert (T : quant_typed (mkQ 100 false false 0 0 0) (mkDQ 0 0 64 0 0)) by (unfold quant_typed, u8, i64; cbn; lia).
  split; [exact T|]. split; [reflexivity|]. split; [reflexivity|]. destruct (quant_decoded 3 false _ _ T) as (b & q' & d' & E & I). exists b, q', d'. split; [exact E|].
  rewrite I. vm_compute in E. injection E as _ <- <-. unfold quant_fits, fits7. cbn. lia.
Qed.
Print Assumptions C68_large_delta_refuted.
Example C68_case : quant_typed (mkQ 100 true true 3 4 5) (mkDQ 1 (-2) 3 4 (-64)) /\ quant_fits 3 (mkQ 100 true true 3 4 5) (mkDQ 1 (-2) 3 4 (-64)) /\
  match enc_quant [] 3 true (mkQ 100 true true 3 4 5) (mkDQ 1 (-2) 3 4 (-64)) with Ok (bits, _, _) => length bits = 62%nat | _ => False end.
Proof. unfold quant_typed, quant_fits, u8, i64, fits7. cbn. repeat split; lia. Qed.

(** C69. Segmentation that writes features is never read with the features asked for:
    7 of 8 are written per segment. *)
Theorem C69_features_never : forall primary s bits s' pre last v m,
  features_typed (g_feat s) -> g_on s = true -> primary = 7 \/ g_data s = true ->
  enc_seg [] primary s = Ok (bits, s', pre, last) ->
  as_data v = Some m -> (forall i j, (i < 8)%nat -> (j < 7)%nat -> wants m i j = wants (g_feat s) i j) ->
  never_decodes bits (rd_seg (primary =? 7)) (Some v).
Proof. exact seg_data_never. Qed.
Print Assumptions C69_features_never.
(** A segment that is to be skipped makes the writer panic; otherwise the bits are
    known, and afterwards every feature of every segment is active. *)
Theorem C69_features_written : forall out primary s,
  features_typed (g_feat s) -> g_on s = true -> primary = 7 \/ g_data s = true ->
  enc_seg out primary s =
  if wants_skip (g_feat s) then Panic
  else Ok (out ++ seg_flags primary s ++ concat (map row_code (g_feat s)),
           mkSegP true (if primary =? 7 then true else g_map s) (if primary =? 7 then false else g_temporal s) true (map row_kept (g_feat s)), true, 7).
Proof. exact enc_seg_data. Qed.
Print Assumptions C69_features_written.
(** Without new features the bits are read back, and segmentation off as well. *)
Theorem C69_no_data : forall primary s,
  g_on s = true -> primary <> 7 -> g_data s = false ->
  exists bits pre last, enc_seg [] primary s = Ok (bits, s, pre, last) /\ seg_derive (g_feat s) = (pre, last) /\
    decodes bits (rd_seg false) (Some (mkAS (g_map s) (g_map s && g_temporal s) None)).
Proof. exact seg_keep. Qed.
Print Assumptions C69_no_data.
Theorem C69_off : forall primary s,
  g_on s = false -> exists bits s', enc_seg [] primary s = Ok (bits, s', false, 0) /\ g_on s' = false /\
  g_feat s' = repeat (repeat None 7) 8 /\ decodes bits (rd_seg (primary =? 7)) None.
Proof. exact seg_off_decoded. Qed.
Print Assumptions C69_off.
(** The derived flags are those of the standard (for the features that are kept). *)
Theorem C69_derived : forall m,
  features_typed m ->
  (fst (seg_derive m) = true <-> av1_pre_skip m) /\ av1_last_active m (snd (seg_derive m)).
Proof. exact seg_derive_correct. Qed.
Print Assumptions C69_derived.
Example C69_case : exists m, features_typed m /\ wants m 2 0 = true /\ exists bits s', enc_seg [] 7 (mkSegP true false false false m) = Ok (bits, s', true, 7).
Proof.
  exists (set_nth 2 [Some (-5); None; None; None; None; None; None] (repeat (repeat None 7) 8)). split; [|split; [reflexivity|do 2 eexists; vm_compute; reflexivity]].
  split; [reflexivity|]. intros row H. cbn in H. repeat (destruct H as [<-|H]; [split; [reflexivity|]; intros v I; cbn in I; repeat (destruct I as [I|I]; [try discriminate; injection I as <-; unfold i64; lia|]); contradiction|]). contradiction.
Qed.
Example C69_off_case : g_on seg0 = false.
Proof. reflexivity. Qed.

(** C70. Delta q parameters that are present are never read: one bit is written for
    the two of delta_q_res. *)
Theorem C70_delta_never : forall base intrabc p,
  0 < base -> d_present p = true ->
  exists bits p', enc_delta [] base intrabc p = Ok (bits, p') /\ d_present p' = true /\ forall v, never_decodes bits (rd_delta base intrabc) v.
Proof. exact delta_never. Qed.
Print Assumptions C70_delta_never.
Theorem C70_delta_absent : forall base intrabc p,
  base <= 0 \/ d_present p = false ->
  exists bits p', enc_delta [] base intrabc p = Ok (bits, p') /\ d_present p' = false /\ decodes bits (rd_delta base intrabc) None.
Proof. exact delta_absent. Qed.
Print Assumptions C70_delta_absent.
Example C70_case : exists bits p', enc_delta [] 100 false (mkDelta true 1 true 2 true) = Ok (bits, p') /\ length bits = 6%nat.
Proof. do 2 eexists. split; vm_compute; reflexivity. Qed.

(** C71. The lossless array: per segment from the quantizer index, which without the
    feature ALT_Q is [current_q_index] and not the base index. *)
Theorem C71_lossless_array : forall cur present q d s arr lv,
  alt_q_small (g_feat s) -> u8 (q_base q) -> length arr = 8%nat ->
  length lv = 3%nat -> (forall row, In row lv -> length row = 8%nat) ->
  exists coded arr' lv', enc_lossless (upto 8) cur present q d s true arr lv = Ok (coded, arr', lv') /\
    coded = forallb id arr' /\ arr' = map (seg_lossless cur (q_base q) s d) (seq 0 8) /\
    (q_using q = true -> lv' = levels q arr') /\ (q_using q = false -> lv' = lv).
Proof. exact lossless_exact. Qed.
Print Assumptions C71_lossless_array.
(** So it is that of the standard exactly if the two are 0 together (or a delta is
    not). *)
Theorem C71_lossless_exactly : forall cur base s d i,
  u8 base ->
  (seg_lossless cur base s d i = av1_lossless base (alt_q s i) (dq_list d) <->
   (alt_q s i = None -> dq_zero d = true -> (cur = 0 <-> base = 0))).
Proof. exact seg_lossless_av1. Qed.
Print Assumptions C71_lossless_exactly.
(** After an update of the features every segment has a value and the array is right. *)
Theorem C71_lossless_updated : forall cur base s' s d i primary bits pre last,
  u8 base -> features_typed (g_feat s) -> g_on s = true -> primary = 7 \/ g_data s = true ->
  enc_seg [] primary s = Ok (bits, s', pre, last) -> (i < 8)%nat ->
  alt_q_small (g_feat s') /\
  seg_lossless cur base s' d i = av1_lossless base (option_map (clip (-255) 255) (nth 0 (nth i (g_feat s) []) None)) (dq_list d).
Proof. exact lossless_updated. Qed.
Print Assumptions C71_lossless_updated.
Theorem C71_lossless_refuted : exists cur base s d, u8 base /\ seg_lossless cur base s d 0 = true /\ av1_lossless base (alt_q s 0) (dq_list d) = false.
Proof. exists 0, 100, seg0, dq0. unfold u8. repeat split; lia. Qed.
Print Assumptions C71_lossless_refuted.
Example C71_case : alt_q_small no_features /\ exists r, enc_lossless (upto 8) 0 false quant0 dq0 seg0 true (repeat false 8) (repeat (repeat 0 8) 3) = Ok (true, repeat true 8, r).
Proof.
  split; [|eexists; vm_compute; reflexivity]. split; [reflexivity|]. intros row H. apply repeat_spec in H. subst row. split; [discriminate|]. discriminate.
Qed.

(** C72. Loop filter parameters are read back exactly if they fit and the flags for
    the mode deltas agree with those of the first two reference deltas (or a special
    value hides it). *)
Theorem C72_loop_filter_exactly : forall p,
  lf_typed p -> exists bits, enc_lf [] 3 false p = Ok (bits, p) /\
  (lf_fits p -> lf_flags p -> decodes bits (rd_lf 3) (lf_of p)) /\ (~ (lf_fits p /\ lf_flags p) -> never_decodes bits (rd_lf 3) (lf_of p)).
Proof. exact lf_decoded. Qed.
Print Assumptions C72_loop_filter_exactly.
Theorem C72_monochrome_never : forall p bits,
  lf_typed p -> nth 0 (lf_level p) 0 <> 0 \/ nth 1 (lf_level p) 0 <> 0 -> enc_lf [] 3 false p = Ok (bits, p) ->
  never_decodes bits (rd_lf 1) (mkALF (nth 0 (lf_level p) 0, nth 1 (lf_level p) 0, None) (lf_sharp p) (lf_enabled p) (al_updates (lf_of p))).
Proof. exact lf_mono. Qed.
Print Assumptions C72_monochrome_never.
Theorem C72_lossless : forall out planes p,
  lf_typed p -> exists p', enc_lf out planes true p = Ok (out, p') /\
  nth 0 (lf_level p') 1 = 0 /\ nth 1 (lf_level p') 1 = 0 /\ lf_ref p' = [1; 0; 0; 0; -1; 0; -1; -1] /\ lf_mode p' = [0; 0].
Proof. exact lf_off. Qed.
Print Assumptions C72_lossless.
Theorem C72_mode_delta_refuted : exists p bits, lf_typed p /\ lf_fits p /\ enc_lf [] 3 false p = Ok (bits, p) /\ never_decodes bits (rd_lf 3) (lf_of p).
Proof.
  set (p := mkLF [10; 20; 30; 40] 3 true true (repeat false 8) (repeat 0 8) [true; false] [5; 0]).
  assert (T : lf_typed p) by (unfold lf_typed, p, u8, i64; cbn; repeat split; try lia; repeat constructor; lia).
  destruct (lf_decoded p T) as (b & E & _ & N). exists p, b. split; [exact T|]. split; [|split; [exact E|]].
  - unfold lf_fits, p. cbn. repeat split; try lia; intros; intuition (try discriminate); match goal with H : Some _ = Some _ |- _ => injection H as <- end; lia.
  - apply N. intros [_ F]. specialize (F eq_refl eq_refl). cbn in F. destruct F as [[F _]|(_ & _ & _ & F & _)]; discriminate.
Qed.
Print Assumptions C72_mode_delta_refuted.
Example C72_case : lf_typed lf0 /\ lf_fits lf0 /\ lf_flags lf0.
Proof.
  split; [|split].
  - unfold lf_typed, lf0, u8, i64; cbn; repeat split; try lia; repeat constructor; lia.
  - unfold lf_fits, lf0. cbn. repeat split; try lia; intros; intuition discriminate.
  - intros _ _. left. split; reflexivity.
Qed.

(** C73. CDEF parameters are read back exactly if they fit. *)
Theorem C73_cdef_exactly : forall p,
  cdef_typed p -> 3 <= cd_damping p -> cd_bits p < 64 -> cdef_long p ->
  exists bits p', enc_cdef [] 3 false p = Ok (bits, p') /\
    (cdef_fits p -> decodes bits (rd_cdef 3) (cdef_of p)) /\ (~ cdef_fits p -> never_decodes bits (rd_cdef 3) (cdef_of p)).
Proof. exact cdef_decoded. Qed.
Print Assumptions C73_cdef_exactly.
(** But the strength 3 is replaced by 4 in the frame, so the same frame written again
    is not. *)
Theorem C73_written_again : forall p,
  cdef_typed p -> cdef_fits p -> 3 <= cd_damping p -> cdef_long p ->
  exists bits p' bits' p'', enc_cdef [] 3 false p = Ok (bits, p') /\ cdef_of p' = cdef_of p /\ enc_cdef [] 3 false p' = Ok (bits', p'') /\
    ((exists i, (i < cdef_count p)%nat /\ (nth i (cd_y_sec p) 0 = 3 \/ nth i (cd_uv_sec p) 0 = 3)) -> never_decodes bits' (rd_cdef 3) (cdef_of p)) /\
    ((forall i, (i < cdef_count p)%nat -> nth i (cd_y_sec p) 0 <> 3 /\ nth i (cd_uv_sec p) 0 <> 3) -> decodes bits' (rd_cdef 3) (cdef_of p)).
Proof. exact cdef_again. Qed.
Print Assumptions C73_written_again.
(** Without enable_cdef a decoder reads nothing. *)
Theorem C73_disabled_never : forall p bits p' (v : Z * list (Z * Z * option (Z * Z))),
  cdef_typed p -> enc_cdef [] 3 false p = Ok (bits, p') ->
  never_decodes bits (rd_if false (rd_cdef 3) v) v.
Proof. exact cdef_disabled. Qed.
Print Assumptions C73_disabled_never.
Theorem C73_lossless : forall out planes p,
  (cd_y_pri p <> [] /\ cd_y_sec p <> [] /\ cd_uv_pri p <> [] /\ cd_uv_sec p <> [] ->
    exists p', enc_cdef out planes true p = Ok (out, p') /\ cdef_of p' = (3, [(0, 0, Some (0, 0))])) /\
  (cd_y_pri p = [] \/ cd_y_sec p = [] \/ cd_uv_pri p = [] \/ cd_uv_sec p = [] -> enc_cdef out planes true p = Panic).
Proof. exact cdef_off. Qed.
Print Assumptions C73_lossless.
Example C73_case : cdef_typed cdef0 /\ 3 <= cd_damping cdef0 /\ cdef_long cdef0 /\ cdef_fits cdef0.
Proof.
  unfold cdef_typed, cdef_long, cdef_fits, cdef_count, cdef0, u8. cbn. repeat split; try lia; try (repeat constructor; lia); match goal with H : (?i < _)%nat |- _ => destruct i; [cbn; lia|lia] end.
Qed.

(** C74. Loop restoration parameters, where they are written, are read back exactly
    if the shift and the chroma shift are bits. *)
Theorem C74_restoration_exactly : forall sb128 ss p c,
  lr_typed p c -> lr_ok sb128 ss p -> exists bits p' c', enc_lr [] 3 false sb128 ss p c = Ok (bits, p', c') /\
  (decodes bits (rd_lr 3 sb128 ss) (lr_of ss p) <-> lr_fits sb128 ss p).
Proof. exact lr_decoded. Qed.
Print Assumptions C74_restoration_exactly.
Theorem C74_restoration_needs : forall out sb128 ss p c r,
  lr_typed p c -> enc_lr out 3 false sb128 ss p c = Ok r -> lr_ok sb128 ss p.
Proof. exact enc_lr_inv. Qed.
Print Assumptions C74_restoration_needs.
(** But they are written exactly when restoration is disabled. *)
Theorem C74_inverted : forall sb128 ss p c,
  lr_typed p c -> 
  (exists c', enc_lr [] 3 true sb128 ss p c = Ok ([], p, c') /\ lc_type c' = [0; 0; 0]) /\
  (forall v, never_decodes [] (rd_lr 3 sb128 ss) v) /\
  (forall bits p' c', enc_lr [] 3 false sb128 ss p c = Ok (bits, p', c') -> (6 <= length bits)%nat).
Proof. exact lr_inverted. Qed.
Print Assumptions C74_inverted.
Example C74_case : lr_typed (mkLR 2 1 0 1) (mkLRC [0; 0; 0] [64; 64; 64] false false) /\ lr_ok false true (mkLR 2 1 0 1) /\ lr_fits false true (mkLR 2 1 0 1).
Proof. unfold lr_typed, lr_ok, lr_fits, u8. cbn. repeat split; try lia; repeat constructor; lia. Qed.

(** C75. The skip mode frames are those of the standard. *)
Theorem C75_skip_mode_frames : forall bits hints ref_idx cur,
  skip_typed bits hints ref_idx cur -> exists r,
  skip_mode false true true bits hints ref_idx cur = Ok r /\ av1_skip bits (ref_hints hints ref_idx) cur r.
Proof. exact skip_correct. Qed.
Print Assumptions C75_skip_mode_frames.
Theorem C75_frames_unique : forall bits hs cur r r',
  av1_skip bits hs cur r -> av1_skip bits hs cur r' -> r = r'.
Proof. exact skip_unique. Qed.
Print Assumptions C75_frames_unique.
Theorem C75_not_allowed : forall intra select enable bits hints ref_idx cur,
  intra = true \/ select = false \/ enable = false -> skip_mode intra select enable bits hints ref_idx cur = Ok None.
Proof. exact skip_none. Qed.
Print Assumptions C75_not_allowed.
Example C75_case : skip_typed 4 [15; 14; 2; 3; 13; 1; 5; 6] [0; 1; 2; 3; 4; 5; 6] 0 /\
  skip_mode false true true 4 [15; 14; 2; 3; 13; 1; 5; 6] [0; 1; 2; 3; 4; 5; 6] 0 = Ok (Some (1, 6)).
Proof. split; [|vm_compute; reflexivity]. unfold skip_typed. repeat split; try lia; repeat constructor; lia. Qed.

(** C76. Film grain parameters of a frame that is shown or can be are read back, with
    all numbers of points and coefficients that fit. *)
Theorem C76_grain_written : forall g refs show showable inter mono ss,
  show = true \/ showable = true -> fg_apply g = true -> inter = false \/ fg_update g = true ->
  0 <= fg_ref g < Z.of_nat (length refs) -> grain_fits mono ss g -> exists code g', (forall out, enc_grain out (Some g) refs show showable inter mono ss = Ok (out ++ code, Some g')) /\
  decodes code (rd_grain true true inter mono ss) (Grain (grain_of mono ss g)) /\ grain_of mono ss g' = grain_of mono ss g /\ fg_apply g' = true.
Proof. exact grain_written. Qed.
Print Assumptions C76_grain_written.
Theorem C76_grain_copied : forall g refs show showable mono ss,
  show = true \/ showable = true -> fg_apply g = true -> fg_update g = false ->
  length refs = 8%nat -> 0 <= fg_ref g < 8 -> 0 <= fg_seed g < 2 ^ 16 -> exists code g' st, (forall out, enc_grain out (Some g) refs show showable true mono ss = Ok (out ++ code, Some g')) /\
  decodes code (rd_grain true true true mono ss) (GrainOf (fg_seed g) (fg_ref g)) /\ nth_error refs (Z.to_nat (fg_ref g)) = Some st /\ g' = set_seed (fg_seed g) st.
Proof. exact grain_copied. Qed.
Print Assumptions C76_grain_copied.
Theorem C76_grain_not_applied : forall g refs show showable inter mono ss,
  fg_apply g = false -> 0 <= fg_ref g < Z.of_nat (length refs) -> show = true \/ showable = true ->
  (forall out, enc_grain out (Some g) refs show showable inter mono ss = Ok (out ++ [0], Some grain_new)) /\ decodes [0] (rd_grain true true inter mono ss) NoGrain.
Proof. exact grain_not_applied. Qed.
Print Assumptions C76_grain_not_applied.
(** Without film grain in the sequence, or for a hidden frame, there is a bit too many. *)
Theorem C76_extra_bit : forall fg refs show showable inter mono ss,
  refs <> [] -> fg = None \/ (show = false /\ showable = false) ->
  (forall out, enc_grain out fg refs show showable inter mono ss = Ok (out ++ [0], Some grain_new)) /\
  (forall present, present = is_some fg -> forall v, never_decodes [0] (rd_grain present (show || showable) inter mono ss) v).
Proof. exact grain_extra. Qed.
Print Assumptions C76_extra_bit.
(** The parameters as created ([FilmGrainParams::new], shifts 0) cannot be applied. *)
Theorem C76_shifts_needed : forall g refs show showable inter mono ss out r,
  show = true \/ showable = true -> fg_apply g = true -> inter = false \/ fg_update g = true ->
  enc_grain out (Some g) refs show showable inter mono ss = Ok r -> 8 <= fg_scaling g /\ 6 <= fg_ashift g.
Proof. exact grain_shifts. Qed.
Print Assumptions C76_shifts_needed.
Definition grain1 : grain :=
  mkGrain true 7 true 0 1 [10] [20] false 1 1 [5] [6] [7] [8] 9 1 [1; 2; 3; -4] [1; 2; 3; -128; 5] [1; 2; 3; 4; 127] 7 2 1 2 300 4 5 511 true false.
Example C76_case : grain_fits false true grain1 /\ fg_apply grain1 = true.
Proof. split; [|reflexivity]. unfold grain_fits, points_fit, coeffs_fit, u8. cbn. repeat split; try lia; repeat constructor; lia. Qed.

(** C77. Without an override the sizes kept are read back; they are the caller's
    exactly unless the render size is that of the downscaled frame. *)
Theorem C77_sizes_exactly : forall enable nw nh d,
  size_typed d -> (scaled enable d = true -> 9 <= m_denom d <= 16) -> exists bits d',
  enc_sizes [] false enable d = Ok (bits, d') /\ decodes bits (rd_sizes false enable nw nh (m_w d, m_h d)) (size_kept d') /\
  (size_kept d' = size_of enable d <-> render_lost enable d = false).
Proof. exact sizes_plain. Qed.
Print Assumptions C77_sizes_exactly.
(** A frame that has not the size of the sequence never is, with an override or without. *)
Theorem C77_other_size_never : forall enable nw nh d mw mh,
  size_typed d -> (scaled enable d = true -> 9 <= m_denom d <= 16) -> (mw, mh) <> (m_w d, m_h d) ->
  exists bits d', enc_sizes [] false enable d = Ok (bits, d') /\
  forall v, az_up v = m_w d -> az_h v = m_h d -> never_decodes bits (rd_sizes false enable nw nh (mw, mh)) v.
Proof. exact sizes_other. Qed.
Print Assumptions C77_other_size_never.
Theorem C77_override_never : forall enable nw nh max d,
  size_typed d -> (scaled enable d = true -> 9 <= m_denom d <= 16) ->
  (1 <= nw <= 16)%nat -> (1 <= nh <= 16)%nat -> m_w d - 1 < 2 ^ Z.of_nat nw -> m_h d - 1 < 2 ^ Z.of_nat nh -> exists bits d',
  enc_sizes [] true enable d = Ok (bits, d') /\ never_decodes bits (rd_sizes true enable nw nh max) (size_kept d').
Proof. exact sizes_override. Qed.
Print Assumptions C77_override_never.
Theorem C77_render_size_refuted : exists d, size_typed d /\ scaled true d = true /\ 9 <= m_denom d <= 16 /\ render_lost true d = true.
Proof. exists (mkDims 64 48 32 48 true 16 0). unfold size_typed. cbn. repeat split; lia. Qed.
Print Assumptions C77_render_size_refuted.
Example C77_case : size_typed (mkDims 64 48 60 40 true 12 0) /\ scaled true (mkDims 64 48 60 40 true 12 0) = true /\
  exists bits d', enc_sizes [] false true (mkDims 64 48 60 40 true 12 0) = Ok (bits, d') /\ size_kept d' = mkAZ 43 48 64 12 60 40.
Proof. split; [unfold size_typed; cbn; lia|]. split; [reflexivity|]. do 2 eexists. split; vm_compute; reflexivity. Qed.

(** C78. The frame identifier is read back, and a reference is given up exactly if its
    identifier is too far back. *)
Theorem C78_identifiers : forall c id_len valid,
  c_ids c = true -> ids_typed id_len (c_delta_len c) (c_cur_id c) (c_ref_id c) valid -> exists bits valid',
  enc_ids [] id_len c valid = Ok (bits, c_cur_id c, c_cur_id c, valid') /\ decodes bits (rd (Z.to_nat id_len)) (c_cur_id c) /\ length valid' = 8%nat /\
  forall i, (i < 8)%nat -> nth i valid' false = nth i valid false && id_usable id_len (c_delta_len c) (c_cur_id c) (nth i (c_ref_id c) 0).
Proof. exact ids_marked. Qed.
Print Assumptions C78_identifiers.
Theorem C78_identifier_length : forall c,
  c_ids c = true -> 2 <= c_delta_len c < 256 -> 1 <= c_add_len c < 256 -> id_length c = Ok (c_add_len c + c_delta_len c).
Proof. exact id_length_ok. Qed.
Print Assumptions C78_identifier_length.
(** The header of a frame shown again is read back. *)
Theorem C78_show_existing : forall s c f,
  c_seen c = false -> c_reduced c = false -> c_existing c = true -> s_reduced s = false ->
  point_known s c f -> ids_known s c -> (c_ids c = true -> f_display_id f <> None) ->
  0 <= c_map_idx c < 8 -> length (c_ref_type c) = 8%nat -> s_ref_types s = c_ref_type c -> exists bits c' f',
  encode_frame_header [] c f = Ok (bits, c', f') /\
  decodes bits (rd_header s) (ShowExisting (c_map_idx c) (show_typ c) (show_refresh c)) /\
  f_type f' = show_typ c /\ c_refresh c' = show_refresh c /\ c_seen c' = true.
Proof. exact existing_decoded. Qed.
Print Assumptions C78_show_existing.
(** A header after one that was written is dropped; after a frame that is shown again
    there is no tile group that would end it, so the next frame of the temporal unit
    loses its header. *)
Theorem C78_next_header_dropped : forall out c f out' c' f' g out2,
  c_seen c = false -> encode_frame_header out c f = Ok (out', c', f') -> encode_frame_header out2 c' g = Ok (out2, c', g).
Proof. exact header_after. Qed.
Print Assumptions C78_next_header_dropped.
Theorem C78_after_show_existing_refuted : exists c f g bits c' f', c_existing c = true /\ c_seen c = false /\
  encode_frame_header [] c f = Ok (bits, c', f') /\ bits <> [] /\ f_type g = 2 /\ encode_frame_header [] c' g = Ok ([], c', g).
Proof. exists (ctx_of false false true false []), (frm_of 1 true), (frm_of 2 true). do 3 eexists. split; [reflexivity|]. split; [reflexivity|]. split; [vm_compute; reflexivity|]. split; [discriminate|]. split; [reflexivity|]. vm_compute. reflexivity. Qed.
Print Assumptions C78_after_show_existing_refuted.
Example C78_ids_case : ids_typed 6 2 3 [1; 62; 63; 3; 2; 0; 61; 60] (repeat true 8).
Proof. unfold ids_typed. cbn. repeat split; try lia; repeat constructor; lia. Qed.
Example C78_marked_case : mark_refs (upto 8) 3 6 2 [1; 62; 63; 3; 2; 0; 61; 60] (repeat true 8) = Ok [true; false; true; true; true; true; false; false].
Proof. vm_compute. reflexivity. Qed.
Definition seq1 : av1_seq :=
  mkASeq false false 0 None false [] 0 0 0 0 true 4 7 7 (64, 64) false false false false true false true true false [0; 1; 2; 3; 0; 1; 2; 3].
Example C78_case : point_known seq1 (ctx_of false false true false []) (frm_of 1 true) /\ ids_known seq1 (ctx_of false false true false []) /\
  show_typ (ctx_of false false true false []) = 1 /\ show_refresh (ctx_of false false true false []) = 0.
Proof. unfold point_known, ids_known. cbn. repeat split; discriminate || lia. Qed.

(** C79. Global motion: what is kept for LAST to ALTREF2 after the header does not
    depend on what the caller asked for beyond the type; ALTREF is left as it was. *)
Theorem C79_intra_identity : forall out hp p types par prev,
  length types = 8%nat -> length par = 8%nat -> exists types' par',
  enc_gm out true hp p types par prev = Ok (out, types', par') /\
  (forall i, (1 <= i <= 6)%nat -> nth_error types' i = Some 0 /\ nth_error par' i = Some av1_identity) /\
  nth_error types' 7 = nth_error types 7 /\ nth_error par' 7 = nth_error par 7.
Proof. exact gm_intra. Qed.
Print Assumptions C79_intra_identity.
Theorem C79_inter_kept : forall out hp p types par prev out' types' par',
  length types = 8%nat -> length par = 8%nat ->
  enc_gm out false hp p types par prev = Ok (out', types', par') ->
  (forall i, (1 <= i <= 6)%nat -> nth_error types' i = Some (gm_typ p i) /\ nth_error par' i = Some (gm_kept (gm_typ p i))) /\
  nth_error types' 7 = nth_error types 7 /\ nth_error par' 7 = nth_error par 7.
Proof. exact gm_inter_kept. Qed.
Print Assumptions C79_inter_kept.
Theorem C79_parameters_ignored : forall out intra hp p types par types2 par2 prev,
  length types = 8%nat -> length par = 8%nat -> length types2 = 8%nat -> length par2 = 8%nat ->
  (r <- enc_gm out intra hp p types par prev ;; Ok (fst (fst r))) = (r <- enc_gm out intra hp p types2 par2 prev ;; Ok (fst (fst r))).
Proof. exact gm_inter_same. Qed.
Print Assumptions C79_parameters_ignored.
(** And the parameters of 6 references are written where 7 are read. *)
Theorem C79_never : forall out hp p types par prev,
  length types = 8%nat -> length par = 8%nat -> (7 <= length prev)%nat -> 
  (forall i, (1 <= i <= 6)%nat -> nth_error (gm_global p) i = Some false) -> exists types' par',
  enc_gm out false hp p types par prev = Ok (out ++ repeat 0 6, types', par') /\
  forall prev7, length prev7 = 7%nat -> forall v, never_decodes (repeat 0 6) (rd_gm hp prev7) v.
Proof. exact gm_identity_never. Qed.
Print Assumptions C79_never.
Example C79_case : exists bits types par, enc_gm [] false false (mkGM (set_nth 2 true (repeat false 8)) (set_nth 2 true (repeat false 8)) (repeat false 8))
    (repeat 0 8) (repeat [7; 7; 7; 7; 7; 7] 8) (repeat av1_identity 8) = Ok (bits, types, par) /\
  types = [0; 0; 2; 0; 0; 0; 0; 0] /\ nth_error par 2 = Some [0; 0; 65536; 0; 0; -65536] /\ nth_error par 7 = Some [7; 7; 7; 7; 7; 7].
Proof. do 3 eexists. split; [vm_compute; reflexivity|]. repeat split. Qed.

(** C80. The header of an unscaled lossless frame, hidden key or intra-only, is read
    back as a whole. *)
Theorem C80_header_decoded : forall s c f,
  header_known s c f -> header_typed c f -> header_ready c f -> exists bits c' f',
  encode_frame_header [] c f = Ok (bits, c', f') /\ decodes bits (rd_header s) (Intra (header_of c f)) /\
  c_seen c' = true /\ c_refresh c' = c_refresh c /\ c_coded_lossless c' = true /\ c_all_lossless c' = true.
Proof. exact header_decoded. Qed.
Print Assumptions C80_header_decoded.
(** An intra-only frame of 176 by 144 with frame identifiers, screen content tools,
    integer vectors and film grain. *)
Definition frm176 (base : Z) : frm :=
  mkFrm 176 144 160 144 2 1 1 None None None false 1 1 false false 3 0 false (repeat 0 8) false false 0 0 (repeat 0 7) (repeat 1 7) false 0 false
    true (mkQ base false true 3 4 5) seg0 (mkDelta false 0 false 0 false) lf0 cdef0 (mkLR 0 0 0 0) true false false false true gm0.
Definition ctx176 (restoration : bool) (cur : Z) : ctx :=
  mkCtx false true 4 2 false false 5 None true true false 2 [0; 1; 2; 3; 0; 1; 2; 3] (repeat true 8) [1; 62; 63; 3; 2; 0; 61; 60] (repeat 0 8)
    (repeat 0 7) (repeat 0 7) (repeat 0 7) false 2 2 0 3 false [] 0 0 true 8 0 false
    false 4 false (repeat 0 8) (repeat 0 8) 0 2 dq0 3 false true true false false 0 false false (repeat false 8)
    (repeat (repeat 0 8) 3) cur (mkLRC [0; 0; 0] [64; 64; 64] false false) restoration 0 false (0, 0) false true
    (repeat 0 8) (repeat av1_identity 8) (repeat av1_identity 8) (Some grain1) [grain_new] 4 0.
Definition seq176 (restoration : bool) : av1_seq :=
  mkASeq false true 6 None false [] 0 0 2 2 true 4 7 7 (176, 144) false false true restoration true false true true false [0; 1; 2; 3; 0; 1; 2; 3].
Lemma known176 b base cur : header_known (seq176 b) (ctx176 b cur) (frm176 base).
Proof. unfold header_known, point_known, ids_known. cbn. repeat split; lia || discriminate. Qed.
Lemma typed176 b base cur : 0 <= base < 256 -> header_typed (ctx176 b cur) (frm176 base).
Proof.
  intros B. unfold header_typed, ids_typed, size_typed, quant_typed, lf_typed, u8, i64. cbn.
  repeat split; try lia; try discriminate; try (repeat constructor; lia); try (intros; contradiction).
  intros row [<-|[<-|[<-|[]]]]; reflexivity.
Qed.
Example C80_case : header_known (seq176 true) (ctx176 true 0) (frm176 0) /\ header_typed (ctx176 true 0) (frm176 0) /\ header_ready (ctx176 true 0) (frm176 0).
Proof.
  split; [apply known176|]. split; [apply typed176; lia|]. unfold header_ready, tiles_fit, lossless_frame, grain_ready, grain_fits, points_fit, coeffs_fit, u8.
  cbn. repeat split; try lia; try discriminate; try (right; reflexivity); try (repeat constructor; lia); try tauto.
Qed.

(** C81. If every group of parameters by itself can be read, a decoder gets the film
    grain parameters, which come last, exactly from the header of an unscaled frame that
    is lossless both by the current and by the base quantizer index: in any other
    header the encoder and the decoder disagree on which fields there are. *)
Theorem C81_exactly_lossless : forall s c f bits c' f',
  header_known s c f -> s_restoration s = c_restoration c -> header_typed c f -> groups_ready c f -> encode_frame_header [] c f = Ok (bits, c', f') ->
  ((exists h, h_grain h = header_grain c /\ decodes bits (rd_header s) (Intra h)) <-> all_lossless c f).
Proof. exact header_exact. Qed.
Print Assumptions C81_exactly_lossless.
Theorem C81_lossy_never : forall s c f bits c' f' h,
  header_known s c f -> s_restoration s = c_restoration c -> header_typed c f -> groups_ready c f -> ~ all_lossless c f ->
  encode_frame_header [] c f = Ok (bits, c', f') -> h_grain h = header_grain c -> never_decodes bits (rd_header s) (Intra h).
Proof. exact header_lossy_never. Qed.
Print Assumptions C81_lossy_never.
(** The base index 0 with another current index, a base index of 100, both with loop
    restoration in the sequence and without. *)
Example C81_case : forall b base cur, In (base, cur) [(0, 1); (100, 0); (100, 100)] ->
  header_known (seq176 b) (ctx176 b cur) (frm176 base) /\ s_restoration (seq176 b) = c_restoration (ctx176 b cur) /\ header_typed (ctx176 b cur) (frm176 base) /\ groups_ready (ctx176 b cur) (frm176 base) /\
  ~ all_lossless (ctx176 b cur) (frm176 base) /\ exists bits c' f', encode_frame_header [] (ctx176 b cur) (frm176 base) = Ok (bits, c', f').
Proof.
  intros b base cur H. split; [apply known176|]. split; [reflexivity|].
  destruct H as [E|[E|[E|[]]]]; injection E as <- <-; (split; [apply typed176; lia|]); (split; [|split; [unfold all_lossless; cbn; lia|destruct b; do 3 eexists; vm_compute; reflexivity]]);
  unfold groups_ready, tiles_fit, quant_fits, lf_fits, lf_flags, cdef_typed, cdef_long, cdef_fits, lr_typed, grain_ready, grain_fits, points_fit, coeffs_fit, fits7, u8;
  cbn; repeat split; try lia; try discriminate; try (right; reflexivity); try (repeat first [apply Forall_nil | apply Forall_cons]; lia); try tauto;
  intros; repeat match goal with V : _ \/ _ |- _ => destruct V as [V|V] end; try discriminate; try contradiction; destruct i; lia.
Qed.
