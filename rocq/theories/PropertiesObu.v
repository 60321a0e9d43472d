(** Properties C24-C29, C48, C49: bit writer, OBU layer and sequence header. *)
From Coq Require Import ZArith List Bool Lia.
From Verif Require Import Base BitsSpec UtilSpec WriterModel WriterSpec WriterProofs SeqModel SeqSpec SeqProofs2 SeqProofs3
  ObuModel ObuSpec ObuProofs.
Import ListNotations.
Open Scope Z_scope.

(** C24. *)
Theorem C24_writer_stream : forall l, Forall call_ok l -> exists w held,
  write_calls new_writer l = Ok w /\ unpack (w_bytes w) ++ held = stream [] l /\ (length held <= 7)%nat /\
  Forall is_byte (w_bytes w) /\ w_index w = Z.of_nat (length held) /\ w_buf w = bits_val held.
Proof. exact writer_correct. Qed.
Print Assumptions C24_writer_stream.
(** After a final [byte_align] nothing is held back. *)
Theorem C24_writer_flushed : forall l, Forall call_ok l -> exists w,
  write_calls new_writer (l ++ [WAlign]) = Ok w /\ unpack (w_bytes w) = stream [] (l ++ [WAlign]).
Proof. exact writer_flushed. Qed.
Print Assumptions C24_writer_flushed.
Example C24_case : Forall call_ok [WBit 1; WBits [1; 0; 1]; WAlign; WBits [0; 1]] /\
  write_calls new_writer [WBit 1; WBits [1; 0; 1]; WAlign; WBits [0; 1]] = Ok (mkWriter 1 2 [208]).
Proof.
  split; [|reflexivity]. repeat (constructor; [cbn; try exact I; try (right; reflexivity);
    repeat (constructor; [(left; reflexivity) || (right; reflexivity)|]); constructor|]). constructor.
Qed.

(** C25. *)
Theorem C25_header_byte : forall o out, exists b,
  encode_obu_header o out = Ok (out ++ to_bits 8 b) /\ 0 <= b < 256 /\
  rd_obu_header b = (0, obu_type o, 0, 0, 0) /\ 1 <= obu_type o <= 15.
Proof.
  intros o out. exists (header_byte o). split; [apply encode_obu_header_ok|]. pose proof (obu_type_range o).
  split; [unfold header_byte; lia|]. split; [apply rd_header_byte|assumption].
Qed.
Print Assumptions C25_header_byte.
(** The type identifies the variant. *)
Definition same_variant (a b : obu) : Prop :=
  match a, b with
  | SequenceHeader _, SequenceHeader _ | TemporalDelimiter, TemporalDelimiter | FrameHeader _, FrameHeader _
  | RedundantFrameHeader, RedundantFrameHeader | TileGroup _, TileGroup _ | Metadata _, Metadata _
  | FrameObu, FrameObu | Padding _, Padding _ => True
  | _, _ => False
  end.
Theorem C25_header_identifies : forall a b out,
  encode_obu_header a out = encode_obu_header b out <-> same_variant a b.
Proof.
  intros a b out. rewrite !encode_obu_header_ok. split.
  - intros H. apply ok_inj in H. apply app_inv_head in H. destruct a, b; try exact I; discriminate H.
  - destruct a, b; cbn [same_variant]; intros H; try contradiction; reflexivity.
Qed.
Print Assumptions C25_header_identifies.
(** The numbers are those of the specification, 6.2.2. *)
Example C25_case : map obu_type [SequenceHeader (seq_new 1 1); TemporalDelimiter; FrameHeader (fun _ => Panic); TileGroup (fun _ => Panic);
    Metadata (HdrCll 0 0); FrameObu; RedundantFrameHeader; Padding 3] = [1; 2; 3; 4; 5; 6; 7; 15] /\
  encode_obu_header (Padding 3) [] = Ok [0; 1; 1; 1; 1; 0; 0; 0].
Proof. split; reflexivity. Qed.

(** C26 is false: for every OBU with a payload of bits, the payload is written
    first and the sizes (in bits, of the header only) and the header follow. *)
Theorem C26_exact_bytes : forall w e o P e', aligned w -> encode_payload e o = Ok (P, e') -> is_bits P ->
  exists w' pb, encode_temporal_unit w e o = Ok (w', e') /\ aligned w' /\ packs P pb /\
    w_bytes w' = w_bytes w ++ pb ++ [24; 16; 8; 8 * obu_type o].
Proof. exact unit_ok. Qed.
Print Assumptions C26_exact_bytes.
Theorem C26_exact_bytes_sequence : forall l w e bs e', aligned w -> units_bytes e l bs e' ->
  (forall e1 o P e2, In o l -> encode_payload e1 o = Ok (P, e2) -> is_bits P) ->
  exists w', encode_units w e l = Ok (w', e') /\ aligned w' /\ w_bytes w' = w_bytes w ++ bs.
Proof. exact units_ok. Qed.
Print Assumptions C26_exact_bytes_sequence.
(** For padding: as many zero bytes as asked for. *)
Theorem C26_padding_bytes : forall w e n, aligned w -> 0 <= n -> exists w',
  encode_temporal_unit w e (Padding n) = Ok (w', e) /\ aligned w' /\
  w_bytes w' = w_bytes w ++ repeat 0 (Z.to_nat n) ++ [24; 16; 8; 120].
Proof. exact padding_bytes. Qed.
Print Assumptions C26_padding_bytes.
(** Hence no output of one call, for any OBU, is split back into its header and
    payload by a reader of the length-delimited format. *)
Theorem C26_framing_refuted : forall e o P e' pb, encode_payload e o = Ok (P, e') -> is_bits P -> packs P pb ->
  exists w, encode_temporal_unit new_writer e o = Ok (w, e') /\
    rd_temporal_unit (w_bytes w) <> Some (8 * obu_type o, pb).
Proof.
  intros e o P e' pb E HP Hpb. destruct (unit_ok new_writer e o P e' aligned_new E HP) as (w & pb' & E1 & _ & K & B).
  exists w. split; [assumption|]. intros C. cbn [w_bytes new_writer app] in B. rewrite B in C.
  assert (pb' = pb) as ->. { destruct K as [K1 K2]. destruct Hpb as [K3 K4]. apply unpack_inj; congruence. }
  apply framing_never in C. apply C. split; reflexivity.
Qed.
Print Assumptions C26_framing_refuted.
Example C26_case :
  match encode_units new_writer enc_new [SequenceHeader (seq_new 176 144); TemporalDelimiter; Padding 1] with
  | Ok (w, _) => w_bytes w
  | _ => []
  end = [0; 25; 151; 143; 64; 0; 32; 24; 16; 8; 8; 24; 16; 8; 16; 0; 24; 16; 8; 120] /\
  aligned new_writer /\ rd_temporal_unit [4; 3; 2; 120; 0] = Some (120, [0]).
Proof. split; [vm_compute; reflexivity|]. split; [exact aligned_new|reflexivity]. Qed.

(** C27 is false for every frame size: a parser loses the leading bit of the
    width, and of the height unless the width is a power of two (when the fields
    are also shifted). *)
Theorem C27_size_leading_bit_lost : forall w h, 3 <= w <= 65535 -> 3 <= h <= 65535 -> exists code e' h' w1 h1 rest,
  (forall out, enc_seq out enc_new (seq_new w h) = Ok (out ++ code, e', h')) /\
  rd_head false code = Some (0, false, false, [], w1, h1, rest) /\
  (forall k, is_floor_log2 (w - 1) k -> w1 = w - 1 - 2 ^ k) /\
  (forall k, is_floor_log2 (h - 1) k -> (forall j, w <> 2 ^ j) -> h1 = h - 1 - 2 ^ k) /\
  w1 <> w - 1.
Proof. exact seq_width_lost. Qed.
Print Assumptions C27_size_leading_bit_lost.
Theorem C27_size_refuted : forall w h, 1 <= w <= 8191 -> 1 <= h <= 8191 ->
  ~ exists code e' h' p s r ops h1 rest, enc_seq [] enc_new (seq_new w h) = Ok (code, e', h') /\
      rd_head false code = Some (p, s, r, ops, w - 1, h1, rest).
Proof.
  intros w h Hw Hh (code & e' & h' & p & s & r & ops & h1 & rest & E & R).
  destruct (seq_new_total w h [] ltac:(lia) ltac:(lia)) as [[T _] _].
  destruct (T (ex_intro _ _ E)) as [H3w H3h].
  destruct (seq_width_lost w h ltac:(lia) ltac:(lia)) as (code2 & e2 & h2 & w1 & h12 & rest2 & E2 & R2 & _ & _ & N).
  specialize (E2 []). cbn [app] in E2. rewrite E in E2. injection E2 as -> _ _. rewrite R in R2. injection R2 as _ _ _ _ R2 _ _.
  congruence.
Qed.
Print Assumptions C27_size_refuted.
(** A parser that reads operating_points_cnt_minus_1 as specified fails on the
    header of the program's own frame size. *)
Theorem C27_strict_parser_refuted : exists code e' h', enc_seq [] enc_new (seq_new 176 144) = Ok (code, e', h') /\
  rd_seq true code = None.
Proof.
  destruct (enc_seq [] enc_new (seq_new 176 144)) as [[[code e'] h']| |] eqn:E; [|vm_compute in E; discriminate E..].
  exists code, e', h'. split; [reflexivity|]. vm_compute in E. injection E as <- _ _. vm_compute. reflexivity.
Qed.
Print Assumptions C27_strict_parser_refuted.
Example C27_case :
  match enc_seq [] enc_new (seq_new 176 144) with
  | Ok (code, _, _) => match rd_head false code with Some (_, _, _, _, w1, h1, _) => (w1, h1) | None => (0, 0) end
  | _ => (0, 0)
  end = (47, 15) /\ is_floor_log2 175 7 /\ is_floor_log2 143 7.
Proof. split; [vm_compute; reflexivity|]. unfold is_floor_log2. cbn. lia. Qed.

(** C28 is false: widths and heights of 1 and 2 panic; all others succeed. *)
Theorem C28_sequence_header_total_iff : forall w h out, 1 <= w <= 65535 -> 1 <= h <= 65535 ->
  ((exists r, enc_seq out enc_new (seq_new w h) = Ok r) <-> 3 <= w /\ 3 <= h) /\
  (~ (3 <= w /\ 3 <= h) -> enc_seq out enc_new (seq_new w h) = Panic).
Proof. exact seq_new_total. Qed.
Print Assumptions C28_sequence_header_total_iff.
Theorem C28_sequence_header_total_refuted : exists w h, 1 <= w <= 8191 /\ 1 <= h <= 8191 /\
  enc_seq [] enc_new (seq_new w h) = Panic.
Proof. exists 2, 1000. repeat split; try lia. Qed.
Print Assumptions C28_sequence_header_total_refuted.

(** C29 is false: two different kinds share one type number and can share the
    whole payload. *)
Theorem C29_metadata_kind_refuted : exists st bits,
  encode_metadata (Scalability 14 (Some st)) [] = Ok bits /\
  encode_metadata (Timecode 1 (Some 37) (Some 0) (Some 0) 4 0) [] = Ok bits.
Proof. exists (mkScal [] [0; 64] []). eexists. split; vm_compute; reflexivity. Qed.
Print Assumptions C29_metadata_kind_refuted.
(** It fails only there: equal payloads come from the same kind, or from
    scalability and timecode. *)
Definition kind (m : metadata) : Z :=
  match m with HdrCll _ _ => 1 | HdrMdcv _ _ _ _ _ _ => 2 | Scalability _ _ => 3 | T35 _ _ => 4 | Timecode _ _ _ _ _ _ => 5 end.
Theorem C29_metadata_kind_iff : forall m m' bits, encode_metadata m [] = Ok bits -> encode_metadata m' [] = Ok bits ->
  kind m = kind m' \/ (kind m = 3 /\ kind m' = 5) \/ (kind m = 5 /\ kind m' = 3).
Proof.
  intros m m' bits E E'. pose proof (metadata_confusion m m' bits E E') as H. destruct m, m'; cbn in *; lia.
Qed.
Print Assumptions C29_metadata_kind_iff.
(** The type number written is the first byte. *)
Theorem C29_metadata_type_byte : forall m bits, encode_metadata m [] = Ok bits -> exists body,
  bits = to_bits 8 (if kind m =? 5 then 3 else kind m) ++ body.
Proof. intros m bits E. apply metadata_type in E. destruct E as (b & E). exists b. destruct m; exact E. Qed.
Print Assumptions C29_metadata_type_byte.
(** The content of light level and mastering display metadata is determined by
    the bits; that of ITU-T T.35 is not. *)
Theorem C29_hdr_cll_determined : forall a b a' b' r, 0 <= a < 65536 -> 0 <= b < 65536 -> 0 <= a' < 65536 -> 0 <= b' < 65536 ->
  encode_metadata (HdrCll a b) [] = Ok r -> encode_metadata (HdrCll a' b') [] = Ok r -> a = a' /\ b = b'.
Proof. exact cll_inj. Qed.
Print Assumptions C29_hdr_cll_determined.
Theorem C29_hdr_mdcv_determined : forall px py wx wy l m px' py' wx' wy' l' m' r,
  length px = 3%nat -> length py = 3%nat -> length px' = 3%nat -> length py' = 3%nat ->
  Forall (fun v => 0 <= v < 65536) (wx :: wy :: px ++ py) -> Forall (fun v => 0 <= v < 65536) (wx' :: wy' :: px' ++ py') ->
  0 <= l < 2 ^ 32 -> 0 <= m < 2 ^ 32 -> 0 <= l' < 2 ^ 32 -> 0 <= m' < 2 ^ 32 ->
  encode_metadata (HdrMdcv px py wx wy l m) [] = Ok r -> encode_metadata (HdrMdcv px' py' wx' wy' l' m') [] = Ok r ->
  HdrMdcv px py wx wy l m = HdrMdcv px' py' wx' wy' l' m'.
Proof. exact mdcv_inj. Qed.
Print Assumptions C29_hdr_mdcv_determined.
Theorem C29_t35_payload_dropped_refuted : forall country p p', exists bits,
  encode_metadata (T35 country p) [] = Ok bits /\ encode_metadata (T35 country p') [] = Ok bits.
Proof. intros. cbn [encode_metadata]. destruct (country =? 255); eexists; split; reflexivity. Qed.
Print Assumptions C29_t35_payload_dropped_refuted.
Example C29_case : encode_metadata (HdrCll 1000 400) [] =
  Ok (to_bits 8 1 ++ to_bits 16 1000 ++ to_bits 16 400) /\
  (exists r, encode_metadata (HdrMdcv [1; 2; 3] [4; 5; 6] 7 8 9 10) [] = Ok r).
Proof. split; [vm_compute; reflexivity|eexists; vm_compute; reflexivity]. Qed.

(** C48. Every other field of the sequence header comes back. The hypotheses: the
    fields fit the widths of the syntax, no reduced still picture header, no
    monochrome, and the two places that compute the width of the size fields
    agree. The size comes back without its leading bit, as C27 says. *)
Theorem C48_sequence_header_parses_back : forall e h, seq_ok e h -> sizes_ok h ->
  (forall k, is_floor_log2 (sh_w h - 1) k <-> is_floor_log2 (sh_max_w h) k) ->
  (forall k, is_floor_log2 (sh_h h - 1) k <-> is_floor_log2 (sh_max_h h) k) ->
  exists code e' h' w1 h1, (forall out, enc_seq out e h = Ok (out ++ code, e', h')) /\
    (forall r, rd_seq false (code ++ r) = Some (seq_view e h w1 h1, r)) /\
    (forall k, is_floor_log2 (sh_max_w h) k -> w1 = (sh_max_w h - 1) mod 2 ^ k) /\
    (forall k, is_floor_log2 (sh_max_h h) k -> h1 = (sh_max_h h - 1) mod 2 ^ k).
Proof. exact seq_parse_back_spec. Qed.
Print Assumptions C48_sequence_header_parses_back.
(** The picture format left in the encoder, which later headers use, is the one the
    header announces (monochrome included: one plane, subsampled both ways). *)
Theorem C48_format_kept : forall out e h out' e' h', 0 <= sh_profile h <= 2 -> enc_seq out e h = Ok (out', e', h') ->
  e_bit_depth e' = (if e_high e then (if (sh_profile h =? 2) && e_twelve e then 12 else 10) else 8) /\
  e_mono e' = negb (sh_profile h =? 1) && e_mono e /\ e_num_planes e' = (if e_mono e' then 1 else 3) /\
  (if e_mono e' then e_ssx e' = true /\ e_ssy e' = true
   else e_ssx e' = pc_ssx (color_view e (sh_profile h)) /\ e_ssy e' = pc_ssy (color_view e (sh_profile h)) /\
        e_range e' = pc_range (color_view e (sh_profile h)) /\ e_sep_uv e' = pc_sep (color_view e (sh_profile h))).
Proof. exact seq_state. Qed.
Print Assumptions C48_format_kept.
Definition C48_enc : enc :=
  mkEnc false true true true false 1 0 7 true false true true true false (Some (9, 16, 9)) true true false 1 true 8 3
    (Some (mkTiming 1000 30000 true 1)) [mkOPM 3 (Some 10) (Some (mkOPI 5000 6000 true 900 700 false)); mkOPM 1 None None] true.
Definition C48_hdr : seqhdr :=
  mkSeq 2 false [mkOP 3 9 (Some true); mkOP 1 4 None] 176 144 176 144 (Some (14, 8)) true false true false true true false false
    (Some (mkDM 1 2 10 90000 20 12)).
Example C48_case : seq_ok C48_enc C48_hdr /\ sizes_ok C48_hdr /\
  match enc_seq [] C48_enc C48_hdr with
  | Ok (code, _, _) => rd_seq false code = Some (seq_view C48_enc C48_hdr 47 15, [])
  | _ => False
  end.
Proof.
  split; [|split; [|vm_compute; reflexivity]].
  - unfold seq_ok, tools_ok, color_ok. cbn. repeat split; try lia; try discriminate;
      repeat (constructor; [unfold op_ok, opm_ok, params_ok; cbn; repeat split; try lia; try discriminate; try congruence|]);
      try constructor; try (right; left; reflexivity); try (right; right; right; reflexivity); try (right; right; reflexivity); try lia.
  - unfold sizes_ok. cbn. lia.
Qed.
(** Monochrome: an extra bit is written after the colour range, which a parser
    takes for the timing flag. *)
Theorem C48_monochrome_refuted : exists e h code e' h', e_mono e = true /\ e_timing e = None /\ e_grain e = true /\
  enc_seq [] e h = Ok (code, e', h') /\
  match rd_seq false code with Some (v, rest) => ps_grain v <> e_grain e /\ rest <> [] | None => False end.
Proof.
  exists (mkEnc false true false false false 0 0 0 false false false false false true None false true true 0 false 8 3 None [] true),
    (seq_new 176 144). do 3 eexists. do 3 (split; [reflexivity|]). split; [vm_compute; reflexivity|].
  vm_compute. split; discriminate.
Qed.
Print Assumptions C48_monochrome_refuted.

(** C49 is false of the bits, true of the meaning: a second header from the
    encoder state left by the first parses to the same fields, but the first call
    stores a colour description which the second then writes out. *)
Theorem C49_second_header_same_meaning : forall e h, seq_ok e h -> sizes_ok h ->
  (forall k, is_floor_log2 (sh_w h - 1) k <-> is_floor_log2 (sh_max_w h) k) ->
  (forall k, is_floor_log2 (sh_h h - 1) k <-> is_floor_log2 (sh_max_h h) k) ->
  exists code1 code2 v e' h' e'' h'',
    (forall out, enc_seq out e h = Ok (out ++ code1, e', h')) /\
    (forall out, enc_seq out e' h' = Ok (out ++ code2, e'', h'')) /\
    (forall r, rd_seq false (code1 ++ r) = Some (v, r)) /\ (forall r, rd_seq false (code2 ++ r) = Some (v, r)).
Proof. exact seq_again_spec. Qed.
Print Assumptions C49_second_header_same_meaning.
Theorem C49_second_header_same_bits_refuted : exists code1 code2 e' h' e'' h'',
  enc_seq [] enc_new (seq_new 176 144) = Ok (code1, e', h') /\ enc_seq [] e' h' = Ok (code2, e'', h'') /\
  length code2 = (length code1 + 24)%nat.
Proof.
  do 6 eexists. split; [vm_compute; reflexivity|]. split; [vm_compute; reflexivity|]. reflexivity.
Qed.
Print Assumptions C49_second_header_same_bits_refuted.
