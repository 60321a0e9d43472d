(** Proofs about the frame header as a whole: the headers that are read back. *)
From Coq Require Import ZArith List Bool Lia ZifyBool ZifyNat.
From Verif Require Import Base BaseProofs TableLemmas UtilModel UtilSpec UtilProofs BitsSpec BitsProofs RangeCoderModel BitCodecModel BitCodecProofs
  SessionModel SeqModel SeqSpec SeqProofs ElementSpec TileModel TileSpec TileProofs FrameParamModel FrameModel FrameSpec FrameBits FrameProofs FrameProofs2 FrameProofs3 FrameProofs4 FrameProofs5 FrameProofs6 FrameProofs7.
Import ListNotations.
Open Scope Z_scope.
Ltac Zify.zify_post_hook ::= Z.div_mod_to_equations.
#[local] Opaque to_bits.

(** ** What is expected *)
(** What the decoder was told before agrees with what the encoder uses. *)
Definition header_known (s : av1_seq) (c : ctx) (f : frm) : Prop :=
  s_reduced s = false /\ point_known s c f /\ ids_known s c /\
  s_ops s = map opm_idc (c_opm c) /\ s_tid s = c_tid c /\ s_sid s = c_sid c /\
  s_sct s = c_sct c /\ s_imv s = c_imv c /\ s_hint_on s = c_enable_hint c /\ s_hint_bits s = Z.to_nat (c_obu_bits c) /\
  s_max s = (f_w f, f_h f) /\ s_superres s = c_superres c /\ s_sb128 s = c_sb128 c /\ s_grain s = is_some (c_grain c) /\
  s_mono s = false /\ c_mono c = false /\ c_planes c = 3 /\ s_ssx s = c_ssx c /\ s_ssy s = c_ssy c /\ s_sep s = c_sep c.

Definition frame_dims (c : ctx) (f : frm) : dims := mkDims (f_w f) (f_h f) (f_rw f) (f_rh f) (f_use_superres f) (c_denom c) (c_up c).
Definition sct_of (c : ctx) (f : frm) : Z := if c_sct c =? 2 then f_sct f else c_sct c.
Definition id_of (c : ctx) : Z := if c_ids c then c_cur_id c else 0.

(** The fields have values of their types, and those written fit their fields. *)
Definition header_typed (c : ctx) (f : frm) : Prop :=
  (c_sct c = 2 -> 0 <= f_sct f <= 1) /\ (c_imv c = 2 -> 0 <= f_imv f <= 1) /\
  (c_ids c = true -> ids_typed (c_add_len c + c_delta_len c) (c_delta_len c) (c_cur_id c) (c_ref_id c) (c_ref_valid c)) /\
  0 <= c_obu_bits c <= 32 /\ 0 <= f_hint f < 2 ^ c_obu_bits c /\ 0 <= c_refresh c < 256 /\
  0 <= c_tid c < 8 /\ 0 <= c_sid c < 8 /\ (forall o, In o (c_opm c) -> 0 <= opm_idc o) /\
  length (f_ref_hint f) = 8%nat /\ length (c_ref_hint c) = 8%nat /\ length (c_ref_valid c) = 8%nat /\
  size_typed (frame_dims c f) /\ (scaled (c_superres c) (frame_dims c f) = true -> 9 <= c_denom c <= 16) /\
  quant_typed (f_quant f) (c_dq c) /\ lf_typed (f_lf f) /\
  cd_y_pri (f_cdef f) <> [] /\ cd_y_sec (f_cdef f) <> [] /\ cd_uv_pri (f_cdef f) <> [] /\ cd_uv_sec (f_cdef f) <> [] /\
  length (c_lossless c) = 8%nat /\ length (c_qm c) = 3%nat /\ (forall row, In row (c_qm c) -> length row = 8%nat) /\
  length (c_gm_type c) = 8%nat /\ length (c_gm c) = 8%nat.

Definition mi (n : Z) : Z := 2 * ((n + 7) / 8).
(** Uniform tiles that are written and read back (C56). *)
Definition tiles_fit (c : ctx) (f : frm) : Prop :=
  let sb := if c_sb128 c then 32 else 16 in
  let sc := cdiv (mi (coded_w (c_superres c) (frame_dims c f))) sb in let sr := cdiv (mi (f_h f)) sb in
  let cl := Z.log2 (f_tile_cols f) in let rl := Z.log2 (f_tile_rows f) in
  let mt := av1_min_tiles sb sc sr in
  f_uniform f = true /\ 1 <= f_tile_cols f <= 65535 /\ 1 <= f_tile_rows f <= 65535 /\
  av1_min_cols sb sc <= cl <= mt /\ cl < av1_max sc /\ mt - cl <= rl < av1_max sr /\
  cdiv sc (cdiv sc (2 ^ cl)) + 1 <= len (c_col_starts c) /\ cdiv sr (cdiv sr (2 ^ rl)) + 1 <= len (c_row_starts c) /\
  0 <= c_update_tile c < 2 ^ (rl + cl) /\ 1 <= c_size_bytes c <= 4.
Definition tiles_of (c : ctx) (f : frm) : tile_info :=
  let sb := if c_sb128 c then 32 else 16 in
  let sc := cdiv (mi (coded_w (c_superres c) (frame_dims c f))) sb in let sr := cdiv (mi (f_h f)) sb in
  let cl := Z.log2 (f_tile_cols f) in let rl := Z.log2 (f_tile_rows f) in
  mkTI cl rl (av1_starts sc (cdiv sc (2 ^ cl)) sb (mi (coded_w (c_superres c) (frame_dims c f)))) (av1_starts sr (cdiv sr (2 ^ rl)) sb (mi (f_h f)))
    (if (0 <? cl) || (0 <? rl) then c_update_tile c else 0) (if (0 <? cl) || (0 <? rl) then c_size_bytes c else 0).

(** Lossless coding, without segmentation. *)
Definition lossless_frame (c : ctx) (f : frm) : Prop :=
  let q := f_quant f in let d := c_dq c in
  c_cur_q c = 0 /\ q_base q = 0 /\ dq_y_dc d = 0 /\ dq_u_dc d = 0 /\ dq_u_ac d = 0 /\
  (c_sep c && q_diff q = true -> dq_v_dc d = 0 /\ dq_v_ac d = 0) /\
  (q_using q = true -> q_y q < 16 /\ q_u q < 16 /\ (c_sep c = true -> q_v q < 16)) /\ g_on (f_seg f) = false.
Definition lossless_quant (c : ctx) (f : frm) : av1_quant :=
  let q := f_quant f in
  mkAQ 0 0 0 0 0 0 (if q_using q then Some (q_y q, q_u q, if c_sep c then q_v q else q_u q) else None).

(** The film grain parameters of a frame that is shown, or can be. *)
Definition grain_ready (c : ctx) : Prop :=
  c_show c || c_showable c = true /\
  match c_grain c with
  | Some g => 0 <= fg_ref g < Z.of_nat (length (c_ref_grain c)) /\ (fg_apply g = true -> grain_fits false (c_ssx c && c_ssy c) g)
  | None => False
  end.
Definition header_grain (c : ctx) : av1_grain :=
  match c_grain c with
  | Some g => if fg_apply g then Grain (grain_of false (c_ssx c && c_ssy c) g) else NoGrain
  | None => NoGrain
  end.

(** The frames whose headers can be written (C67) and read back. *)
Definition header_ready (c : ctx) (f : frm) : Prop :=
  c_seen c = false /\ c_reduced c = false /\ c_existing c = false /\
  ((f_type f = 0 /\ c_show c = false) \/ f_type f = 2) /\
  c_override c = false /\ coded_w (c_superres c) (frame_dims c f) = f_w f /\
  ~ (c_refresh c <> 255 /\ f_err f = true /\ c_enable_hint c = true) /\
  tiles_fit c f /\ lossless_frame c f /\ grain_ready c.

(** The header a decoder is to read. *)
Definition header_of (c : ctx) (f : frm) : av1_intra :=
  mkAI (f_type f) (c_show c) (c_show c || c_showable c) (f_err f) (c_no_update c) (sct_of c f) (id_of c) (f_hint f)
    (c_refresh c) (size_of (c_superres c) (frame_dims c f)) false (c_no_update c || c_no_end c) (tiles_of c f)
    (lossless_quant c f) None None true None None None None (f_reduced_tx f) (header_grain c).

(** ** Buffer removal times *)
Definition removal_codes (l : list op_model) (tid sid : Z) (d : fdm) : list Z :=
  flat_map (fun o => if_code (in_layer (opm_idc o) tid sid) (to_bits (Z.to_nat (fm_removal_len d)) (as_u32 (fm_removal d)))) l.
Definition removal_code (c : ctx) (f : frm) : list Z :=
  match f_dm f with None => [] | Some d => b2z (fm_present d) :: if_code (fm_present d) (removal_codes (c_opm c) (c_tid c) (c_sid c) d) end.

Lemma bit_set i n : 0 <= i -> 0 <= n -> (0 <? Z.land (Z.shiftr i n) 1) = Z.testbit i n.
Proof.
  intros I N. rewrite Z.land_ones with (n := 1) by lia. change (2 ^ 1) with 2. rewrite Z.shiftr_div_pow2 by lia.
  rewrite <- Z.testbit_spec' by lia. destruct (Z.testbit i n); reflexivity.
Qed.
Lemma removal_loop_ok tid sid d : 0 <= tid < 8 -> 0 <= sid < 8 -> 0 <= fm_removal_len d <= 32 -> forall l out, (forall o, In o l -> 0 <= opm_idc o) ->
  enc_removal_loop out l tid sid d = Ok (out ++ removal_codes l tid sid d).
Proof.
  intros T S L. induction l as [|o l IH]; intros out I; [cbn; rewrite app_nil_r; reflexivity|].
  cbn [enc_removal_loop removal_codes flat_map]. rewrite shift_ok_ok by lia. cbn [bind]. rewrite chk_u64_ok by lia. cbn [bind]. rewrite shift_ok_ok by lia. cbn [bind].
  assert (P : 0 <= opm_idc o) by (apply I; now left). rewrite !bit_set by lia.
  change ((opm_idc o =? 0) || Z.testbit (opm_idc o) tid && Z.testbit (opm_idc o) (sid + 8)) with (in_layer (opm_idc o) tid sid).
  destruct (in_layer _ _ _); unfold if_code.
  - rewrite push_bits_with_size_ok by lia. cbn [bind]. rewrite IH by (intros; apply I; now right). rewrite <- app_assoc. reflexivity.
  - cbn [bind]. rewrite IH by (intros; apply I; now right). reflexivity.
Qed.
Lemma removal_written out s c f : point_known s c f -> 0 <= c_tid c < 8 -> 0 <= c_sid c < 8 -> (forall o, In o (c_opm c) -> 0 <= opm_idc o) ->
  enc_removal out c f = Ok (out ++ removal_code c f).
Proof.
  intros (_ & K) T S I. unfold enc_removal, removal_code. destruct (f_dm f) as [d|]; [|rewrite app_nil_r; reflexivity].
  destruct (s_dm s) as [[n m]|]; [|contradiction]. destruct K as (_ & _ & K & _). rewrite pbit_app. destruct (fm_present d); [|reflexivity].
  rewrite removal_loop_ok by assumption. rewrite <- app_assoc. reflexivity.
Qed.
Lemma removal_each tid sid d l k : exists vs, rd_each (map opm_idc l) (fun i => rd_if (in_layer i tid sid) (rd (Z.to_nat (fm_removal_len d))) 0) (removal_codes l tid sid d ++ k) = Some (vs, k).
Proof.
  set (r := fun i => rd_if (in_layer i tid sid) (rd (Z.to_nat (fm_removal_len d))) 0).
  induction l as [|o l (vs & IH)]; [eexists; reflexivity|]. cbn [map rd_each removal_codes flat_map].
  rewrite <- app_assoc. fold (removal_codes l tid sid d).
  assert (R : exists v, r (opm_idc o) (if_code (in_layer (opm_idc o) tid sid) (to_bits (Z.to_nat (fm_removal_len d)) (as_u32 (fm_removal d))) ++ removal_codes l tid sid d ++ k)
    = Some (v, removal_codes l tid sid d ++ k)).
  { unfold r, rd_if, if_code. destruct (in_layer _ _ _); [rewrite rd_any|]; eexists; reflexivity. }
  destruct R as (v & ->). cbn [obind]. rewrite IH. eexists. reflexivity.
Qed.
Lemma removal_read s c f k : point_known s c f -> s_ops s = map opm_idc (c_opm c) -> s_tid s = c_tid c -> s_sid s = c_sid c ->
  rd_removal s (removal_code c f ++ k) = Some (tt, k).
Proof.
  intros (_ & K) O T S. unfold rd_removal, removal_code. rewrite O, T, S. destruct (f_dm f) as [d|], (s_dm s) as [[n m]|]; try contradiction; [|reflexivity].
  destruct K as (_ & _ & K & -> & _). cbn [app]. rewrite rd1_ok. cbn [obind]. destruct (fm_present d); [|reflexivity]. unfold if_code, rd_if at 1.
  destruct (removal_each (c_tid c) (c_sid c) d (c_opm c) k) as (vs & ->). reflexivity.
Qed.
Lemma if_bits c l : is_bits l -> is_bits (if_code c l).
Proof. destruct c; [auto|constructor]. Qed.
Lemma removal_bits c f : is_bits (removal_code c f).
Proof.
  unfold removal_code. destruct (f_dm f) as [d|]; [|constructor]. apply is_bits_cons. split; [destruct (fm_present d); unfold is_bit; cbn; lia|].
  apply if_bits. unfold removal_codes. induction (c_opm c) as [|o l IH]; [constructor|]. cbn [flat_map]. apply is_bits_app. split; [|exact IH].
  apply if_bits. apply to_bits_bits.
Qed.

(** ** The other groups *)
Definition tools_code (c : ctx) (f : frm) : list Z :=
  b2z (c_no_update c) :: if_code (c_sct c =? 2) [f_sct f] ++ if_code ((0 <? sct_of c f) && (c_imv c =? 2)) [f_imv f].
Lemma tools_written out c f : (c_sct c = 2 -> 0 <= f_sct f <= 1) -> (c_imv c = 2 -> 0 <= f_imv f <= 1) ->
  exists imv, enc_tools2 out c f true = (out ++ tools_code c f, sct_of c f, imv).
Proof.
  intros S I. unfold enc_tools2, tools_code, sct_of, if_code. change SELECT_SCREEN_CONTENT_TOOLS with 2. change SELECT_INTEGER_MV with 2. rewrite pbit_app.
  destruct (c_sct c =? 2) eqn:E.
  - assert (as_u8 (f_sct f) = f_sct f) as -> by (unfold as_u8; rewrite Z.mod_small; lia).
    destruct (0 <? f_sct f); [|eexists; unfold push; rewrite <- app_assoc; reflexivity]. destruct (c_imv c =? 2) eqn:E2; [|eexists; unfold push; rewrite <- app_assoc; reflexivity].
    assert (as_u8 (f_imv f) = f_imv f) as -> by (unfold as_u8; rewrite Z.mod_small; lia). eexists. unfold push. rewrite <- !app_assoc. reflexivity.
  - destruct (0 <? c_sct c); [|eexists; reflexivity]. destruct (c_imv c =? 2) eqn:E2; [|eexists; reflexivity].
    assert (as_u8 (f_imv f) = f_imv f) as -> by (unfold as_u8; rewrite Z.mod_small; lia). eexists. unfold push. rewrite <- !app_assoc. reflexivity.
Qed.
Lemma rd_bit x k : 0 <= x <= 1 -> rd 1 (x :: k) = Some (x, k).
Proof. intros H. assert (x = 0 \/ x = 1) as [-> | ->] by lia; reflexivity. Qed.
Lemma tools_bits c f : (c_sct c = 2 -> 0 <= f_sct f <= 1) -> (c_imv c = 2 -> 0 <= f_imv f <= 1) -> is_bits (tools_code c f).
Proof.
  intros S I. unfold tools_code, if_code. apply is_bits_cons. split; [destruct (c_no_update c); unfold is_bit; cbn; lia|]. apply is_bits_app. split.
  - destruct (c_sct c =? 2) eqn:E; [|constructor]. apply is_bits_cons. split; [unfold is_bit; lia|constructor].
  - destruct (c_imv c =? 2) eqn:E; [|rewrite andb_false_r; constructor]. destruct (0 <? _); [|constructor]. apply is_bits_cons. split; [unfold is_bit; lia|constructor].
Qed.

Definition id_code (c : ctx) : list Z := if_code (c_ids c) (to_bits (Z.to_nat (c_add_len c + c_delta_len c)) (c_cur_id c)).
Lemma ids_written s c : ids_known s c -> (c_ids c = true -> ids_typed (c_add_len c + c_delta_len c) (c_delta_len c) (c_cur_id c) (c_ref_id c) (c_ref_valid c)) ->
  length (c_ref_valid c) = 8%nat ->
  exists l prev valid, id_length c = Ok l /\ length valid = 8%nat /\ forall out, enc_ids out l c (c_ref_valid c) = Ok (out ++ id_code c, prev, id_of c, valid).
Proof.
  intros (I1 & I2 & I3) T LV. unfold id_code, id_of, if_code, enc_ids. destruct (c_ids c) eqn:E.
  - destruct (I2 eq_refl) as (A & B & _). destruct (T eq_refl) as (D & L & C & LI & _ & F).
    rewrite id_length_ok by (assumption || lia). destruct (mark_refs_loop _ _ _ _ D L C F 8 0 _ LI LV) as (v & M & LE & _).
    do 3 eexists. split; [reflexivity|]. split; [|intros out; change (upto NUM_REF_FRAMES) with (seq 0 8); rewrite M].
    + rewrite LE. exact LV.
    + assert (P : 2 ^ (c_add_len c + c_delta_len c) <= 2 ^ 32) by (apply pow2_le; lia). unfold as_u32, as_u8. rewrite !Z.mod_small by lia.
      rewrite push_bits_with_size_ok by lia. reflexivity.
  - do 3 eexists. split; [unfold id_length; rewrite E; reflexivity|]. split; [exact LV|]. intros out. rewrite app_nil_r. reflexivity.
Qed.
Lemma compare_ok a b : length a = 8%nat -> length b = 8%nat -> forall is valid, (forall i, In i is -> (i < 8)%nat) -> length valid = 8%nat ->
  exists v, compare_hints is a b valid = Ok v.
Proof.
  intros A B. induction is as [|i is IH]; intros valid I V; [eexists; reflexivity|]. cbn [compare_hints].
  assert (L : (i < 8)%nat) by (apply I; now left). destruct (idx_lt _ a i ltac:(lia)) as (x & -> & _). destruct (idx_lt _ b i ltac:(lia)) as (y & -> & _). cbn [bind].
  destruct (negb _); [|apply IH; [intros; apply I; now right|exact V]]. rewrite put_ok by lia. cbn [bind]. apply IH; [intros; apply I; now right|]. rewrite set_nth_length. exact V.
Qed.
Lemma check_ok c f t refresh hint valid : length (f_ref_hint f) = 8%nat -> length hint = 8%nat -> length valid = 8%nat -> exists v, check_hints c f t refresh hint valid = Ok v.
Proof.
  intros A B V. unfold check_hints. destruct (_ && _); [|eexists; reflexivity]. apply compare_ok; [exact A|exact B| |exact V].
  intros i H. apply in_upto in H. exact H.
Qed.

Definition top_code (c : ctx) (f : frm) : list Z :=
  to_bits 2 (f_type f) ++ [b2z (c_show c)] ++ if_code (c_show c) (point_code c f) ++ if_code (negb (c_show c)) [b2z (c_showable c)] ++ [b2z (f_err f)].
Lemma top_written out s c f : point_known s c f -> c_reduced c = false -> (f_type f = 0 /\ c_show c = false) \/ f_type f = 2 ->
  enc_top out c f = Ok (out ++ top_code c f, mkTop (f_type f) true (c_show c) (negb (c_show c) && c_showable c) (f_err f)).
Proof.
  intros P R T. unfold enc_top, top_code. rewrite R. rewrite push_bits_with_size_ok by lia. cbn [bind]. change (Z.to_nat 2) with 2%nat. rewrite !pbit_app.
  assert (((f_type f =? INTRA_ONLY_FRAME) || (f_type f =? KEY_FRAME)) = true) as -> by (unfold INTRA_ONLY_FRAME, KEY_FRAME; lia).
  assert (((f_type f =? SWITCH_FRAME) || (f_type f =? KEY_FRAME) && c_show c) = false) as -> by (unfold SWITCH_FRAME, KEY_FRAME; destruct (c_show c); lia).
  destruct (c_show c); cbn [negb andb if_code].
  - rewrite (enc_point_ok _ _ _ _ P). cbn [bind]. rewrite pbit_app. rewrite <- !app_assoc. reflexivity.
  - cbn [bind]. rewrite !pbit_app. rewrite <- !app_assoc. reflexivity.
Qed.
Lemma top_bits c f : is_bits (top_code c f).
Proof. unfold top_code. repeat (apply is_bits_app; split); try apply to_bits_bits; try apply is_bits_b2z; apply if_bits; [apply point_code_bits|apply is_bits_b2z]. Qed.
Lemma top_read s c f k : point_known s c f -> s_reduced s = false -> (f_type f = 0 /\ c_show c = false) \/ f_type f = 2 ->
  rd_intra_top s (top_code c f ++ k) = Some (f_type f, c_show c, c_show c || c_showable c, f_err f, k).
Proof.
  intros P R T. unfold rd_intra_top, top_code. rewrite R. rewrite <- !app_assoc. rewrite rd_any. rewrite Z.mod_small by (change (2 ^ Z.of_nat 2) with 4; lia). cbn [obind app].
  rewrite rd1_ok. cbn [obind]. assert (E : (f_type f =? 3) || (f_type f =? 0) && c_show c = false) by (destruct (c_show c); lia).
  destruct (c_show c); cbn [negb rd_if if_code orb app].
  - rewrite (rd_point_ok _ _ _ _ P). cbn [obind app]. rewrite E. cbn [negb rd_if]. rewrite rd1_ok. cbn [obind]. replace (f_type f =? 0) with false by lia. reflexivity.
  - cbn [obind]. rewrite rd1_ok. cbn [obind]. rewrite E. cbn [negb rd_if]. rewrite rd1_ok. reflexivity.
Qed.

Lemma sizes_written s c f out : c_superres c = s_superres s -> size_typed (frame_dims c f) -> (scaled (c_superres c) (frame_dims c f) = true -> 9 <= c_denom c <= 16) ->
  coded_w (c_superres c) (frame_dims c f) = f_w f -> exists code d', enc_sizes out false (c_superres c) (frame_dims c f) = Ok (out ++ code, d') /\ is_bits code /\
  m_w d' = f_w f /\ m_h d' = f_h f /\ m_up d' = f_w f /\
  forall nw nh k, rd_sizes false (s_superres s) nw nh (f_w f, f_h f) (code ++ k) = Some (size_of (c_superres c) (frame_dims c f), k).
Proof.
  intros <- T D W. unfold enc_sizes, enc_frame_size. cbn [bind]. rewrite enc_superres_render by assumption. do 2 eexists. split; [reflexivity|].
  split; [apply render_code_bits|]. split; [exact W|]. split; [reflexivity|]. split; [reflexivity|]. intros nw nh k. rewrite rd_sizes_rest. cbn [obind].
  rewrite <- app_assoc. change (f_h f) with (m_h (frame_dims c f)). rewrite rd_rest_ok by assumption. unfold size_of. do 2 f_equal.
  unfold same_size. rewrite W. change (m_rw (frame_dims c f)) with (f_rw f). change (m_w (frame_dims c f)) with (f_w f).
  unfold coded_w in *. change (m_w (frame_dims c f)) with (f_w f) in *. rewrite W. destruct (Z.eqb_spec (f_rw f) (f_w f)) as [->|]; cbn [andb]; [|reflexivity].
  destruct (_ =? _); reflexivity.
Qed.

Lemma coded_range enable d : size_typed d -> (scaled enable d = true -> 9 <= m_denom d <= 16) -> 1 <= coded_w enable d <= 65536.
Proof.
  intros (W & _) D. unfold coded_w, denom_of. destruct (scaled enable d); [specialize (D eq_refl)|lia].
  assert (m_denom d = 9 \/ m_denom d = 10 \/ m_denom d = 11 \/ m_denom d = 12 \/ m_denom d = 13 \/ m_denom d = 14 \/ m_denom d = 15 \/ m_denom d = 16) as E by lia.
  repeat (destruct E as [-> | E]; [lia|]). rewrite E. lia.
Qed.
Lemma tiles_written c f out : tiles_fit c f -> size_typed (frame_dims c f) -> (scaled (c_superres c) (frame_dims c f) = true -> 9 <= c_denom c <= 16) ->
  let w := coded_w (c_superres c) (frame_dims c f) in exists code cs rs,
  encode_tile_info out (2 * Z.shiftr (w + 7) 3) (2 * Z.shiftr (f_h f + 7) 3) (c_sb128 c) (f_uniform f)
    (f_tile_cols f) (f_tile_rows f) (c_update_tile c) (c_size_bytes c) (c_col_starts c) (c_row_starts c) = Ok (out ++ code, cs, rs) /\ is_bits code /\
  forall k, rd_tile_info (2 * ((w + 7) / 8)) (2 * ((f_h f + 7) / 8)) (c_sb128 c) (code ++ k) = Some (tiles_of c f, k).
Proof.
  intros (U & TC & TR & CL & CM & RL & LC & LR & ID & SZ) ST DN w. pose proof (coded_range _ _ ST DN) as W. fold w in W, CL, CM, RL, LC, LR. destruct ST as (_ & H & _). cbn [m_w m_h frame_dims] in H.
  unfold tiles_of. fold w. clearbody w.
  rewrite !shiftr_div by lia. change (2 ^ 3) with 8. fold (mi w). fold (mi (f_h f)).
  assert (B1 : 0 < mi w <= 2 ^ 19) by (unfold mi; change (2 ^ 19) with 524288; lia). assert (B2 : 0 < mi (f_h f) <= 2 ^ 19) by (unfold mi; change (2 ^ 19) with 524288; lia).
  pose proof (log2_16 _ TC) as C16. pose proof (log2_16 _ TR) as R16.
  assert (P : 2 ^ (Z.log2 (f_tile_rows f) + Z.log2 (f_tile_cols f)) <= 2 ^ 30) by (apply pow2_le; lia). change (2 ^ 30) with 1073741824 in P.
  rewrite U. rewrite tile_info_writes by (try assumption; try lia; change (2 ^ 32) with 4294967296; lia). cbv zeta in *.
  match goal with |- exists _ _ _, (if ?b then _ else _) = _ /\ _ => replace b with true by (symmetry; rewrite ?andb_true_iff, ?orb_true_iff, ?Z.leb_le; lia) end.
  do 3 eexists. split; [reflexivity|]. split.
  - unfold info_bits. apply is_bits_cons. split; [unfold is_bit; lia|]. apply is_bits_app. split; [apply Forall_forall; intros x X; apply repeat_spec in X; unfold is_bit; lia|].
    apply is_bits_cons. split; [unfold is_bit; lia|]. apply is_bits_app. split; [apply Forall_forall; intros x X; apply repeat_spec in X; unfold is_bit; lia|].
    apply is_bits_cons. split; [unfold is_bit; lia|]. unfold info_tail. destruct (_ || _); [|constructor]. apply is_bits_app. split; apply to_bits_bits.
  - apply tile_info_read; try assumption; try lia.
Qed.

Lemma quant_written c f out : quant_typed (f_quant f) (c_dq c) -> lossless_frame c f -> exists code q' d',
  enc_quant out 3 (c_sep c) (f_quant f) (c_dq c) = Ok (out ++ code, q', d') /\ is_bits code /\ q_base q' = 0 /\ dq_zero d' = true /\
  forall k, rd_quant 3 (c_sep c) (code ++ k) = Some (lossless_quant c f, k).
Proof.
  intros T (C & B & Y & UD & UA & V & M & G). rewrite enc_quant_ok by exact T. do 3 eexists. split; [reflexivity|]. split; [apply quant_code_bits|].
  split; [exact B|]. split.
  - unfold kept_d. change (1 <? 3) with true. cbv iota. destruct (c_sep c && q_diff (f_quant f)) eqn:E; unfold dq_zero; cbn [dq_y_dc dq_u_dc dq_u_ac dq_v_dc dq_v_ac];
      [destruct (V eq_refl) as (-> & ->)|]; rewrite Y, UD, UA; reflexivity.
  - intros k. rewrite quant_code_read by exact T. do 2 f_equal. unfold quant_of, wrapped_q, kept_q, wrapped_d, kept_d, lossless_quant. change (1 <? 3) with true. cbv iota.
    destruct T as (_ & TY & TU & TV & _). unfold u8 in *.
    cbn [q_base q_using q_y q_u q_v q_diff dq_y_dc dq_u_dc dq_u_ac dq_v_dc dq_v_ac]. rewrite B.
    assert (S0 : su_wrap 7 0 = 0) by reflexivity.
    destruct (q_using (f_quant f)); cbn [andb].
    + destruct (M eq_refl) as (MY & MU & MV). rewrite !(Z.mod_small _ 16) by (destruct (c_sep c); cbn [negb]; lia).
      destruct (c_sep c) eqn:S; cbn [andb negb] in *; [destruct (q_diff (f_quant f)) eqn:D; [destruct (V eq_refl) as (V1 & V2)|]|]; cbn [dq_y_dc dq_u_dc dq_u_ac dq_v_dc dq_v_ac];
        rewrite ?V1, ?V2, ?Y, ?UD, ?UA, ?S0; reflexivity.
    + destruct (c_sep c && q_diff (f_quant f)) eqn:D; [destruct (V eq_refl) as (V1 & V2)|]; cbn [dq_y_dc dq_u_dc dq_u_ac dq_v_dc dq_v_ac];
        rewrite ?V1, ?V2, ?Y, ?UD, ?UA, ?S0; reflexivity.
Qed.

Lemma no_features_small : alt_q_small no_features.
Proof. split; [reflexivity|]. intros row H. apply repeat_spec in H. subst row. split; [discriminate|]. intros v H. discriminate. Qed.
Lemma lossless_all cur q d s arr lv present : cur = 0 -> q_base q = 0 -> dq_zero d = true -> g_on s = false -> g_feat s = no_features -> length arr = 8%nat -> length lv = 3%nat ->
  (forall row, In row lv -> length row = 8%nat) -> exists arr' lv', enc_lossless (upto MAX_SEGMENTS) cur present q d s true arr lv = Ok (true, arr', lv').
Proof.
  intros -> B D G F A L R. destruct (lossless_exact 0 present q d s arr lv) as (coded & arr' & lv' & E & C & AR & _); try assumption; try (unfold u8; lia).
  - rewrite F. apply no_features_small.
  - exists arr', lv'. rewrite E. do 3 f_equal. rewrite C, AR. unfold seg_lossless, alt_q. rewrite G, D. reflexivity.
Qed.

Lemma grain_ok c (t : top) : grain_ready c -> c_mono c = false -> t_show t || t_showable t = true -> exists code fg, is_bits code /\
  (forall out, enc_grain out (c_grain c) (c_ref_grain c) (t_show t) (t_showable t) false (c_mono c) (c_ssx c && c_ssy c) = Ok (out ++ code, fg)) /\
  forall k, rd_grain (is_some (c_grain c)) true false false (c_ssx c && c_ssy c) (code ++ k) = Some (header_grain c, k).
Proof.
  intros (_ & G) M S. rewrite M. unfold header_grain. destruct (c_grain c) as [g|]; [|contradiction]. destruct G as (R & F). apply orb_prop in S. cbn [is_some].
  destruct (fg_apply g) eqn:A.
  - destruct (grain_written g (c_ref_grain c) (t_show t) (t_showable t) false false (c_ssx c && c_ssy c) S A (or_introl eq_refl) R (F eq_refl)) as (code & g' & W & (B & D) & _).
    exists code, (Some g'). split; [exact B|]. split; [exact W|]. exact D.
  - destruct (grain_not_applied g (c_ref_grain c) (t_show t) (t_showable t) false false (c_ssx c && c_ssy c) A R S) as (W & (B & D)).
    exists [0], (Some grain_new). split; [exact B|]. split; [exact W|]. exact D.
Qed.

Lemma sct_read c f k : (c_sct c = 2 -> 0 <= f_sct f <= 1) -> rd_if (c_sct c =? 2) (rd 1) (c_sct c) (if_code (c_sct c =? 2) [f_sct f] ++ k) = Some (sct_of c f, k).
Proof. intros H. unfold rd_if, if_code, sct_of. destruct (c_sct c =? 2) eqn:E; [|reflexivity]. cbn [app]. apply rd_bit. lia. Qed.
Lemma imv_read c f x k : (c_imv c = 2 -> 0 <= f_imv f <= 1) -> rd_if ((0 <? x) && (c_imv c =? 2)) (rd 1) 0 (if_code ((0 <? x) && (c_imv c =? 2)) [f_imv f] ++ k) =
  Some (if (0 <? x) && (c_imv c =? 2) then f_imv f else 0, k).
Proof. intros H. unfold rd_if, if_code. destruct (_ && _) eqn:E; [|reflexivity]. cbn [app]. apply rd_bit. lia. Qed.
Lemma id_read s c k : ids_known s c -> (c_ids c = true -> ids_typed (c_add_len c + c_delta_len c) (c_delta_len c) (c_cur_id c) (c_ref_id c) (c_ref_valid c)) ->
  rd_if (s_ids s) (rd (s_id_len s)) 0 (id_code c ++ k) = Some (id_of c, k).
Proof.
  intros (-> & I & _) T. unfold rd_if, id_code, if_code, id_of. destruct (c_ids c); [|reflexivity]. destruct (I eq_refl) as (A & B & ->). destruct (T eq_refl) as (_ & _ & C & _).
  rewrite rd_any. rewrite Z2Nat.id by lia. rewrite Z.mod_small by lia. reflexivity.
Qed.
Lemma zero_read c k : rd_if c rd1 false (if_code c [0] ++ k) = Some (false, k).
Proof. destruct c; reflexivity. Qed.
Lemma no_end_read (n e : bool) k : rd_if (negb n) rd1 true ((if n then [] else [b2z e]) ++ k) = Some (n || e, k).
Proof. destruct n; [reflexivity|]. cbn [negb rd_if app orb]. apply rd1_ok. Qed.

(** ** The whole header *)
Lemma header_decoded s c f : header_known s c f -> header_typed c f -> header_ready c f -> exists bits c' f',
  encode_frame_header [] c f = Ok (bits, c', f') /\ decodes bits (rd_header s) (Intra (header_of c f)) /\
  c_seen c' = true /\ c_refresh c' = c_refresh c /\ c_coded_lossless c' = true /\ c_all_lossless c' = true.
Proof.
  intros (KR & KP & KI & KO & KT & KS & KSC & KIM & KH & KB & KM & KSR & K128 & KG & KMO & CM & CP & KX & KY & KSEP)
    (TS & TI & TID & TB & TH & TRF & TT & TSI & TOP & L1 & L2 & L3 & TD & TDN & TQ & TLF & CD1 & CD2 & CD3 & CD4 & LL & LQ & LQ8 & LG & LGM)
    (SEEN & RED & EX & TYP & OV & CW & ERR & TF & LS & GR).
  unfold encode_frame_header. rewrite SEEN, RED, EX. cbn [negb andb orb].
  destruct (ids_written s c KI TID L3) as (l & prev & valid & EL & LV & WI). rewrite EL. cbn [bind]. rewrite pbit_app. cbn [app].
  rewrite (top_written _ s c f KP RED TYP). cbn [bind t_intra t_type t_show t_showable t_err].
  assert (RR : reset_refs c (mkTop (f_type f) true (c_show c) (negb (c_show c) && c_showable c) (f_err f)) = Ok (c_ref_valid c, c_ref_hint c, c_order_hints c)).
  { unfold reset_refs. cbn [t_type t_show]. replace ((f_type f =? KEY_FRAME) && c_show c) with false by (unfold KEY_FRAME; destruct (c_show c); lia). reflexivity. }
  rewrite RR. cbn [bind]. match goal with |- context [enc_tools2 ?o c f true] => destruct (tools_written o c f TS TI) as (imv & ->) end.
  rewrite WI. cbn [bind]. unfold enc_override. cbn [t_type]. replace (f_type f =? SWITCH_FRAME) with false by (unfold SWITCH_FRAME; lia). rewrite RED, OV. rewrite pbit_app.
  assert (as_u8 (c_obu_bits c) = c_obu_bits c) as -> by (unfold as_u8; apply Z.mod_small; lia). rewrite push_bits_with_size_ok by lia. cbn [bind].
  unfold enc_primary. cbn [t_intra orb bind]. rewrite (removal_written _ s c f KP TT TSI TOP). cbn [bind].
  unfold enc_refresh. cbn [t_type t_show]. replace ((f_type f =? SWITCH_FRAME) || (f_type f =? KEY_FRAME) && c_show c) with false by (unfold KEY_FRAME, SWITCH_FRAME; destruct (c_show c); lia).
  rewrite push_bits_with_size_ok by lia. cbn [bind].
  destruct (check_ok c f (mkTop (f_type f) true (c_show c) (negb (c_show c) && c_showable c) (f_err f)) (c_refresh c) (c_ref_hint c) valid L1 L2 LV) as (valid2 & ->). cbn [bind].
  match goal with |- context [enc_mid ?o _ _ _ _ _ _ _ _] => destruct (sizes_written s c f o (eq_sym KSR) TD TDN CW) as (sz & d' & WS & BS & DW & DH & DU & RS) end.
  match goal with |- context [enc_mid ?o ?a1 ?a2 ?a3 ?a4 ?a5 c f ?t] => assert (WM : enc_mid o a1 a2 a3 a4 a5 c f t =
    Ok (o ++ sz ++ if_code (0 <? sct_of c f) [0], mkMid d' (f_short f) (c_expected c) (f_interp f))) end.
  { unfold enc_mid. cbn [t_type]. fold (frame_dims c f). rewrite WS. cbn [bind]. rewrite DW, DU, Z.eqb_refl, andb_true_r.
    destruct TYP as [(-> & _) | ->]; cbn [Z.eqb KEY_FRAME INTRA_ONLY_FRAME]; unfold KEY_FRAME, INTRA_ONLY_FRAME; cbn [Z.eqb Pos.eqb];
      destruct (0 <? sct_of c f); cbn [if_code]; rewrite ?pbit_app, <- ?app_assoc, ?app_nil_r; reflexivity. }
  rewrite WM. cbn [bind]. clear WM WS. cbn [i_dims i_short i_expected i_interp]. 
  set (ne := if c_no_update c then [] else [b2z (c_no_end c)]).
  assert (NE : forall o, (if c_no_update c then (o, true) else (pbit o (c_no_end c), c_no_end c)) = (o ++ ne, c_no_update c || c_no_end c)).
  { intros o. unfold ne. destruct (c_no_update c); [rewrite app_nil_r|rewrite pbit_app]; reflexivity. }
  rewrite NE. rewrite DW, DH, DU.
  match goal with |- context [encode_tile_info ?o _ _ _ _ _ _ _ _ _ _] => destruct (tiles_written c f o TF TD TDN) as (tl & cs & rs & WTL & BT & RT) end. rewrite CW in WTL, RT. rewrite WTL. cbn [bind].
  destruct TF as (_ & TC & TR & _). rewrite !tiles_log2_ok by lia. cbn [bind]. rewrite CP.
  match goal with |- context [enc_quant ?o _ _ _ _] => destruct (quant_written c f o TQ LS) as (qc & q' & dq' & -> & BQ & QB & QZ & RQ) end. cbn [bind].
  destruct LS as (CUR & _ & _ & _ & _ & _ & _ & GOFF). rewrite (seg_off _ _ _ GOFF). cbn [bind].
  unfold enc_delta. rewrite QB. cbn [Z.ltb Z.compare bind d_present].
  match goal with |- context [enc_lossless _ _ ?p q' dq' ?sg true _ _] => destruct (lossless_all (c_cur_q c) q' dq' sg (c_lossless c) (c_qm c) p CUR QB QZ eq_refl eq_refl LL LQ LQ8) as (arr & qm & ->) end.
  cbn [bind andb]. rewrite Z.eqb_refl. cbn [orb].
  match goal with |- context [enc_lf ?o _ _ _] => destruct (lf_off o 3 (f_lf f) TLF) as (lf' & -> & _) end. cbn [bind].
  match goal with |- context [enc_cdef ?o _ _ _] => destruct (proj1 (cdef_off o 3 (f_cdef f)) (conj CD1 (conj CD2 (conj CD3 CD4)))) as (cd' & -> & _) end. cbn [bind].
  unfold enc_lr, skip_mode. cbn [bind orb negb is_some]. rewrite pbit_app.
  unfold enc_gm. rewrite gm_reset_ok by assumption. cbn [bind].
  replace (f_type f =? INTER_FRAME) with false by (unfold INTER_FRAME; lia).
  destruct (grain_ok c (mkTop (f_type f) true (c_show c) (negb (c_show c) && c_showable c) (f_err f)) GR CM) as (gc & fg & BG & WG & RG).
  { cbn [t_show t_showable]. destruct GR as (S & _). destruct (c_show c); [reflexivity|exact S]. }
  cbn [t_show t_showable] in WG. rewrite WG. cbn [bind]. do 3 eexists. split; [reflexivity|]. split; [|repeat split].
  split.
  - cbn [app]. apply is_bits_cons. split; [unfold is_bit; cbn; lia|].
    assert (B1 : is_bits [0]) by (apply is_bits_cons; split; [unfold is_bit; lia|constructor]).
    rewrite !is_bits_app. repeat split; try apply is_bits_b2z; try apply to_bits_bits; try assumption; try apply top_bits; try (apply tools_bits; assumption); try apply removal_bits.
    + apply if_bits. apply to_bits_bits.
    + apply if_bits. exact B1.
    + unfold ne. destruct (c_no_update c); [constructor|apply is_bits_b2z].
  - intros k. rewrite <- !app_assoc. cbn [app]. unfold rd_header. rewrite KR. cbn [negb rd_if].
    rewrite rd1_ok. cbn [obind]. unfold rd_intra.
    rewrite (top_read s c f _ KP KR TYP). cbn [obind]. replace (negb ((f_type f =? 0) || (f_type f =? 2))) with false by lia.
    unfold tools_code. rewrite <- !app_comm_cons. rewrite rd1_ok. cbn [obind]. rewrite <- !app_assoc.
    rewrite KSC, KIM. rewrite sct_read by exact TS. cbn [obind]. rewrite imv_read by exact TI. cbn [obind]. rewrite (id_read s c _ KI TID). cbn [obind].
    rewrite KR. cbn [negb rd_if]. rewrite rd1_ok. cbn [obind]. rewrite KB. rewrite rd_any. rewrite Z2Nat.id by lia. rewrite (Z.mod_small (f_hint f)) by exact TH. cbn [obind].
    rewrite (removal_read s c f _ KP KO KT KS). cbn [obind].
    replace (negb ((f_type f =? 0) && c_show c)) with true by (destruct (c_show c); lia). cbn [rd_if]. change (Z.to_nat 8) with 8%nat. rewrite rd_any.
    rewrite (Z.mod_small (c_refresh c)) by exact TRF. cbn [obind]. rewrite KH.
    replace (negb (c_refresh c =? 255) && f_err f && c_enable_hint c) with false by (destruct (f_err f), (c_enable_hint c); lia). cbn [rd_if obind].
    rewrite KM, RS. cbn [obind]. change (az_up (size_of (c_superres c) (frame_dims c f))) with (f_w f). change (az_w (size_of (c_superres c) (frame_dims c f))) with (coded_w (c_superres c) (frame_dims c f)).
    change (az_h (size_of (c_superres c) (frame_dims c f))) with (f_h f).
    rewrite CW, Z.eqb_refl, andb_true_r. rewrite zero_read. cbn [obind orb]. unfold ne. rewrite no_end_read. cbn [obind]. rewrite K128, RT. cbn [obind].
    unfold s_planes. rewrite KMO, KSEP, RQ. cbn [obind]. unfold rd_seg at 1. change (0 :: ?x) with (b2z false :: x). rewrite rd1_ok. cbn [obind]. unfold rd_delta at 1. cbn [lossless_quant aq_base aq_y_dc aq_u_dc aq_u_ac aq_v_dc aq_v_ac].
    cbn [Z.ltb Z.compare rd_if obind]. change (forallb _ (repeat [] 8)) with true. cbn [orb negb rd_if obind andb]. rewrite rd1_ok. cbn [obind].
    rewrite KX, KY, KG. rewrite (proj1 GR), orb_true_r, RG. unfold header_of. rewrite (proj1 GR). reflexivity.
Qed.
