(** What the encoder's context and the frame hold after a header. *)
From Coq Require Import ZArith List Bool Lia ZifyBool ZifyNat.
From Verif Require Import Base BaseProofs TableLemmas UtilModel UtilSpec UtilProofs BitsSpec BitsProofs RangeCoderModel BitCodecModel BitCodecProofs
  SessionModel SeqModel SeqSpec SeqProofs ElementSpec TileModel TileSpec TileProofs FrameParamModel FrameModel FrameSpec FrameBits FrameProofs FrameProofs2 FrameProofs3 FrameProofs4 FrameProofs5 FrameProofs6 FrameProofs7 FrameProofs8 FrameProofs9.
Import ListNotations.
Open Scope Z_scope.
Ltac Zify.zify_post_hook ::= Z.div_mod_to_equations.
#[local] Opaque to_bits.

(** ** The calls a header consists of *)
Definition intra_top (c : ctx) (f : frm) : top := mkTop (f_type f) true (c_show c) (negb (c_show c) && c_showable c) (f_err f).

Lemma top_run out c f out' t : c_reduced c = false -> ((f_type f = 0 /\ c_show c = false) \/ f_type f = 2) -> enc_top out c f = Ok (out', t) -> t = intra_top c f.
Proof.
  intros R T E. unfold enc_top in E. rewrite R in E. apply bind_inv in E. destruct E as (o1 & _ & E). apply bind_inv in E. destruct E as (o2 & _ & E).
  replace ((f_type f =? SWITCH_FRAME) || (f_type f =? KEY_FRAME) && c_show c) with false in E by (unfold SWITCH_FRAME, KEY_FRAME; destruct (c_show c); lia).
  replace ((f_type f =? INTRA_ONLY_FRAME) || (f_type f =? KEY_FRAME)) with true in E by (unfold INTRA_ONLY_FRAME, KEY_FRAME; lia).
  unfold intra_top. destruct (c_show c); injection E as _ <-; reflexivity.
Qed.

Lemma mid_run out id_len cur sct imv override c f out' m : ((f_type f = 0 /\ c_show c = false) \/ f_type f = 2) ->
  enc_mid out id_len cur sct imv override c f (intra_top c f) = Ok (out', m) -> exists o2 d,
  enc_sizes out override (c_superres c) (frame_dims c f) = Ok (o2, d) /\ m = mkMid d (f_short f) (c_expected c) (f_interp f).
Proof.
  intros T E. unfold enc_mid in E. fold (frame_dims c f) in E. cbn [intra_top t_type] in E. unfold KEY_FRAME, INTRA_ONLY_FRAME in E.
  destruct (f_type f =? 0) eqn:E0; [|destruct (f_type f =? 2) eqn:E2; [|lia]];
    (apply bind_inv in E; destruct E as ([o2 d] & S & E); injection E as _ <-; exists o2, d; split; [exact S|reflexivity]).
Qed.

Record header_run (c : ctx) (f : frm) (c' : ctx) (f' : frm) : Prop := {
  hr_reduced : c_reduced c = false;
  hr_type : (f_type f = 0 /\ c_show c = false) \/ f_type f = 2;
  hr_ids : exists l o o' prev cur v1 v2, id_length c = Ok l /\ enc_ids o l c (c_ref_valid c) = Ok (o', prev, cur, v1) /\
    check_hints c f (intra_top c f) (c_refresh c) (c_ref_hint c) v1 = Ok v2 /\
    c_id_len c' = l /\ c_prev_id c' = prev /\ c_cur_id c' = cur /\ c_ref_valid c' = v2;
  hr_sizes : exists o o' d, enc_sizes o (c_override c) (c_superres c) (frame_dims c f) = Ok (o', d) /\
    d = mkDims (f_w f') (f_h f') (f_rw f') (f_rh f') (f_use_superres f') (c_denom c') (c_up c');
  hr_tiles : exists o o', encode_tile_info o (2 * Z.shiftr (f_w f' + 7) 3) (2 * Z.shiftr (f_h f' + 7) 3) (c_sb128 c) (f_uniform f)
    (f_tile_cols f) (f_tile_rows f) (c_update_tile c) (c_size_bytes c) (c_col_starts c) (c_row_starts c) = Ok (o', c_col_starts c', c_row_starts c');
  hr_update : exists cl rl, tiles_log2 (f_tile_cols f) = Ok cl /\ tiles_log2 (f_tile_rows f) = Ok rl /\
    c_update_tile c' = if (0 <? cl) || (0 <? rl) then c_update_tile c else 0;
  hr_quant : exists o o', enc_quant o (c_planes c) (c_sep c) (f_quant f) (c_dq c) = Ok (o', f_quant f', c_dq c');
  hr_seg : exists o o', enc_seg o 7 (f_seg f) = Ok (o', f_seg f', c_pre_skip c', c_last_seg c');
  hr_delta : exists o o', enc_delta o (q_base (f_quant f')) false (f_delta f) = Ok (o', f_delta f');
  hr_lossless : enc_lossless (upto MAX_SEGMENTS) (c_cur_q c) (d_present (f_delta f')) (f_quant f') (c_dq c') (f_seg f') true (c_lossless c) (c_qm c)
    = Ok (c_coded_lossless c', c_lossless c', c_qm c');
  hr_all : c_all_lossless c' = c_coded_lossless c' && (f_w f' =? c_up c');
  hr_lf : exists o o', enc_lf o (c_planes c) (c_coded_lossless c') (f_lf f) = Ok (o', f_lf f');
  hr_cdef : exists o o', enc_cdef o (c_planes c) (c_coded_lossless c') (f_cdef f) = Ok (o', f_cdef f');
  hr_lr : exists o o', enc_lr o (c_planes c) (c_all_lossless c' || c_restoration c) (c_sb128 c) (c_ssx c && c_ssy c) (f_lr f) (c_lr c) = Ok (o', f_lr f', c_lr c');
  hr_gm : exists o o', enc_gm o true false (f_gm f) (c_gm_type c) (c_gm c) (c_prev_gm c) = Ok (o', c_gm_type c', c_gm c');
  hr_grain : exists o o', enc_grain o (c_grain c) (c_ref_grain c) (c_show c) (negb (c_show c) && c_showable c) false (c_mono c) (c_ssx c && c_ssy c) = Ok (o', c_grain c');
  hr_flags : c_seen c' = true /\ c_existing c' = false /\ c_show c' = c_show c /\ c_showable c' = negb (c_show c) && c_showable c /\ c_intra c' = true /\
    c_refresh c' = c_refresh c /\ c_override c' = c_override c /\ c_no_end c' = c_no_update c || c_no_end c /\
    c_tx_mode c' = (if c_coded_lossless c' then 0 else if f_tx_select f then 2 else 1) /\ c_skip_allowed c' = false /\ c_skip_frames c' = c_skip_frames c;
  hr_frame : f_type f' = f_type f /\ f_err f' = f_err f /\ f_sct f' = sct_of c f /\ f_imv f' = 1 /\ f_hp f' = false /\ f_ref_mvs f' = false /\
    f_intrabc f' = false /\ f_primary f' = 7 /\ f_select f' = false /\ f_skip_mode f' = false /\ f_warped f' = false;
  hr_refs : c_ref_type c' = c_ref_type c /\ c_ref_id c' = c_ref_id c /\ c_ref_hint c' = c_ref_hint c /\ c_order_hints c' = c_order_hints c /\
    c_expected c' = c_expected c /\ c_sign_bias c' = c_sign_bias c /\ c_prev_gm c' = c_prev_gm c /\ c_ref_grain c' = c_ref_grain c;
  hr_kept : c_ids c' = c_ids c /\ c_add_len c' = c_add_len c /\ c_delta_len c' = c_delta_len c /\ c_reduced c' = c_reduced c /\ c_map_idx c' = c_map_idx c /\
    c_timing c' = c_timing c /\ c_no_update c' = c_no_update c /\ c_sct c' = c_sct c /\ c_imv c' = c_imv c /\ c_opm c' = c_opm c /\
    c_tid c' = c_tid c /\ c_sid c' = c_sid c /\ c_enable_hint c' = c_enable_hint c /\ c_superres c' = c_superres c /\ c_ref_mvs c' = c_ref_mvs c /\
    c_bits c' = c_bits c /\ c_sb128 c' = c_sb128 c /\ c_size_bytes c' = c_size_bytes c /\ c_planes c' = c_planes c /\ c_mono c' = c_mono c /\
    c_ssx c' = c_ssx c /\ c_ssy c' = c_ssy c /\ c_sep c' = c_sep c /\ c_cur_q c' = c_cur_q c /\ c_restoration c' = c_restoration c /\
    c_warped c' = c_warped c /\ c_obu_bits c' = c_obu_bits c;
  hr_asked : f_tile_cols f' = f_tile_cols f /\ f_tile_rows f' = f_tile_rows f /\ f_dm f' = f_dm f /\ f_tpi f' = f_tpi f /\ f_display_id f' = f_display_id f /\
    f_hint f' = f_hint f /\ f_ref_hint f' = f_ref_hint f /\ f_short f' = f_short f /\ f_last_idx f' = f_last_idx f /\ f_gold_idx f' = f_gold_idx f /\
    f_ref_idx f' = f_ref_idx f /\ f_delta_id f' = f_delta_id f /\ f_switchable f' = f_switchable f /\ f_interp f' = f_interp f /\ f_motion f' = f_motion f /\
    f_uniform f' = f_uniform f /\ f_tx_select f' = f_tx_select f /\ f_reduced_tx f' = f_reduced_tx f /\ f_gm f' = f_gm f
}.

Lemma header_runs out c f out' c' f' : c_seen c = false -> length (c_order_hints c) = 7%nat -> c_existing c = false ->
  encode_frame_header out c f = Ok (out', c', f') -> header_run c f c' f'.
Proof.
  intros SEEN L7 EX H. destruct (header_needs _ _ _ _ SEEN L7 H) as (RED & TY).
  assert (TYP : (f_type f = 0 /\ c_show c = false) \/ f_type f = 2) by (destruct TY as [TY|TY]; [congruence|exact TY]). clear TY.
  unfold encode_frame_header in H. rewrite SEEN, RED, EX in H. cbn [negb andb orb] in H. cbv zeta in H.
  apply bind_inv in H. destruct H as (l & EL & H).
  apply bind_inv in H. destruct H as ([o1 t] & ET & H). apply (top_run _ _ _ _ _ RED TYP) in ET. subst t.
  apply bind_inv in H. destruct H as ([[va hi] hs] & ER & H). apply (reset_refs_inv _ _ _ L7) in ER. destruct ER as (_ & ER). injection ER as -> -> ->.
  destruct (enc_tools2 o1 c f (t_intra (intra_top c f))) as [[o2 sct] imv] eqn:EU.
  assert (S : sct = sct_of c f /\ imv = 1).
  { cbn [intra_top t_intra] in EU. unfold enc_tools2, SELECT_SCREEN_CONTENT_TOOLS in EU. unfold sct_of. destruct (c_sct c =? 2); cbv beta iota zeta in EU;
      match type of EU with context [0 <? ?x] => destruct (0 <? x) end; try (destruct (c_imv c =? SELECT_INTEGER_MV)); injection EU as _ <- <-; auto. }
  destruct S as (-> & ->). clear EU.
  apply bind_inv in H. destruct H as ([[[o3 prev] cur] v1] & EI & H).
  unfold enc_override in H. cbn [intra_top t_type] in H. replace (f_type f =? SWITCH_FRAME) with false in H by (unfold SWITCH_FRAME; lia). rewrite RED in H. cbv beta iota zeta in H.
  apply bind_inv in H. destruct H as (o4 & _ & H).
  unfold enc_primary in H. cbn [intra_top t_intra orb bind] in H. cbv beta iota in H.
  apply bind_inv in H. destruct H as (o5 & _ & H).
  unfold enc_refresh in H. cbn [intra_top t_type t_show] in H. replace ((f_type f =? SWITCH_FRAME) || (f_type f =? KEY_FRAME) && c_show c) with false in H by (unfold KEY_FRAME, SWITCH_FRAME; destruct (c_show c); lia).
  apply bind_inv in H. destruct H as ([o6 rf] & EF & H). apply bind_inv in EF. destruct EF as (o7 & _ & EF). injection EF as _ <-.
  change (mkTop (f_type f) true (c_show c) (negb (c_show c) && c_showable c) (f_err f)) with (intra_top c f) in H.
  apply bind_inv in H. destruct H as (v2 & EC & H).
  apply bind_inv in H. destruct H as ([o8 m] & EM & H). apply (mid_run _ _ _ _ _ _ _ _ _ _ TYP) in EM. destruct EM as (o9 & d & ES & ->).
  cbn [intra_top t_intra t_type t_show t_showable t_err negb bind orb i_dims i_short i_expected i_interp] in H. cbv beta iota in H.
  destruct (if c_no_update c then _ else _) as [o10 ne] eqn:EN.
  assert (NE : ne = c_no_update c || c_no_end c) by (destruct (c_no_update c); injection EN as _ <-; reflexivity). clear EN. subst ne.
  apply bind_inv in H. destruct H as ([[o11 cs] rs] & ETI & H).
  apply bind_inv in H. destruct H as (cl & ECL & H). apply bind_inv in H. destruct H as (rl & ERL & H).
  apply bind_inv in H. destruct H as ([[o12 q] dq] & EQ & H).
  apply bind_inv in H. destruct H as ([[[o13 sg] pre] last] & EG & H).
  apply bind_inv in H. destruct H as ([o14 dl] & ED & H).
  apply bind_inv in H. destruct H as ([[coded arr] qm] & ELS & H).
  apply bind_inv in H. destruct H as ([o15 lf] & ELF & H).
  apply bind_inv in H. destruct H as ([o16 cd] & ECD & H).
  apply bind_inv in H. destruct H as ([[o17 lp] lc] & ELR & H).
  destruct (if coded then _ else _) as [o18 tx] eqn:EX2.
  assert (TX : tx = if coded then 0 else if f_tx_select f then 2 else 1) by (destruct coded; injection EX2 as _ <-; reflexivity). clear EX2. subst tx.
  unfold skip_mode in H. cbn [orb negb bind is_some] in H. cbv beta iota in H. 
  apply bind_inv in H. destruct H as ([[o20 gt] gp] & EGM & H).
  replace (f_type f =? INTER_FRAME) with false in H by (unfold INTER_FRAME; lia).
  apply bind_inv in H. destruct H as ([o21 fg] & EFG & H).
  injection H as _ <- <-.
  constructor; cbn [c_seen c_ids c_add_len c_delta_len c_reduced c_existing c_map_idx c_timing c_show c_showable c_intra c_refresh c_ref_type c_ref_valid c_ref_id
    c_ref_hint c_order_hints c_expected c_sign_bias c_no_update c_sct c_imv c_prev_id c_cur_id c_override c_opm c_tid c_sid c_enable_hint c_denom c_up c_superres
    c_ref_mvs c_bits c_sb128 c_col_starts c_row_starts c_update_tile c_size_bytes c_dq c_planes c_mono c_ssx c_ssy c_sep c_pre_skip c_last_seg c_coded_lossless
    c_all_lossless c_lossless c_qm c_cur_q c_lr c_restoration c_tx_mode c_skip_allowed c_skip_frames c_warped c_no_end c_gm_type c_gm c_prev_gm c_grain c_ref_grain
    c_obu_bits c_id_len f_w f_h f_rw f_rh f_type f_tile_cols f_tile_rows f_dm f_tpi f_display_id f_err f_sct f_imv f_hp f_ref_mvs f_hint f_primary f_intrabc f_ref_hint
    f_use_superres f_short f_last_idx f_gold_idx f_ref_idx f_delta_id f_switchable f_interp f_motion f_uniform f_quant f_seg f_delta f_lf f_cdef f_lr f_tx_select
    f_select f_skip_mode f_warped f_reduced_tx f_gm]; try assumption.
  - do 7 eexists. split; [exact EL|]. split; [exact EI|]. split; [exact EC|]. repeat split.
  - do 3 eexists. split; [exact ES|]. destruct d; reflexivity.
  - do 2 eexists. exact ETI.
  - do 2 eexists. split; [exact ECL|]. split; [exact ERL|reflexivity].
  - do 2 eexists. exact EQ.
  - do 2 eexists. exact EG.
  - do 2 eexists. exact ED.
  - reflexivity.
  - do 2 eexists. exact ELF.
  - do 2 eexists. exact ECD.
  - do 2 eexists. exact ELR.
  - do 2 eexists. exact EGM.
  - do 2 eexists. exact EFG.
  - repeat split.
  - repeat split.
  - repeat split.
  - repeat split; try exact RED; symmetry; exact RED.
  - repeat split.
Qed.

(** ** Which references may still be used *)
Lemma idx_nth (A : Type) (l : list A) (i : nat) x d : idx l (Z.of_nat i) = Ok x -> x = nth i l d /\ (i < length l)%nat.
Proof.
  intros H. destruct (Nat.lt_ge_cases i (length l)) as [L|L].
  - split; [|exact L]. destruct (idx_lt _ l i L) as (y & E & N). rewrite E in H. injection H as ->. symmetry. apply nth_error_nth. exact N.
  - exfalso. unfold idx in H. destruct (Z.of_nat i <? 0) eqn:E; [discriminate|]. rewrite Nat2Z.id in H. destruct (nth_error l i) eqn:N; [|discriminate].
    assert (nth_error l i <> None) as X by congruence. apply nth_error_Some in X. lia.
Qed.
Lemma compare_marks a b : forall n s valid valid', compare_hints (seq s n) a b valid = Ok valid' -> length valid' = length valid /\
  (forall i, (i < s)%nat -> nth i valid' false = nth i valid false) /\
  (forall i, (s <= i < s + n)%nat -> nth i valid' false = nth i valid false && (nth i a 0 =? nth i b 0)).
Proof.
  induction n as [|n IH]; intros s valid valid' H.
  - injection H as ->. split; [reflexivity|]. split; [reflexivity|]. lia.
  - cbn [seq compare_hints] in H. apply bind_inv in H. destruct H as (x & X & H). apply bind_inv in H. destruct H as (y & Y & H).
    destruct (idx_nth _ _ _ _ 0 X) as (-> & _). destruct (idx_nth _ _ _ _ 0 Y) as (-> & _).
    apply bind_inv in H. destruct H as (v & V & H). destruct (IH _ _ _ H) as (L & P1 & P2).
    assert (F : length v = length valid /\ (forall i, i <> s -> nth i v false = nth i valid false) /\ nth s v false = nth s valid false && (nth s a 0 =? nth s b 0)).
    { destruct (negb (nth s a 0 =? nth s b 0)) eqn:E.
      - apply put_inv in V. destruct V as (B & ->). split; [apply set_nth_length|]. split; [intros i N; apply nth_default_set_other; congruence|].
        rewrite nth_default_set_same by exact B. destruct (nth s valid false); [destruct (_ =? _); [discriminate|reflexivity]|reflexivity].
      - injection V as <-. split; [reflexivity|]. split; [reflexivity|]. destruct (_ =? _); [rewrite andb_true_r; reflexivity|discriminate]. }
    destruct F as (FL & F1 & F2). split; [lia|]. split.
    + intros i I. rewrite P1 by lia. apply F1. lia.
    + intros i I. destruct (Nat.eq_dec i s) as [->|N]; [rewrite P1 by lia; exact F2|]. rewrite P2 by lia. rewrite F1 by exact N. reflexivity.
Qed.

(** The identifier and the marks after a header. *)
Definition ids_right (c : ctx) : Prop :=
  c_ids c = true -> 2 <= c_delta_len c < 256 /\ 1 <= c_add_len c < 256 /\
    ids_typed (c_add_len c + c_delta_len c) (c_delta_len c) (c_cur_id c) (c_ref_id c) (c_ref_valid c).
Lemma header_marks c f c' f' : header_run c f c' f' -> ids_right c ->
  c_cur_id c' = id_of c /\ c_prev_id c' = (if c_ids c then c_cur_id c else c_prev_id c) /\ length (c_ref_valid c') = length (c_ref_valid c) /\
  forall i, (i < 8)%nat -> nth i (c_ref_valid c') false =
    nth i (c_ref_valid c) false && (negb (c_ids c) || id_usable (c_add_len c + c_delta_len c) (c_delta_len c) (c_cur_id c) (nth i (c_ref_id c) 0)) &&
    (negb (negb (c_refresh c =? 255) && f_err f && c_enable_hint c) || (nth i (f_ref_hint f) 0 =? nth i (c_ref_hint c) 0)).
Proof.
  intros R W. destruct (hr_ids _ _ _ _ R) as (l & o & o' & prev & cur & v1 & v2 & EL & EI & EC & _ & -> & -> & ->).
  assert (A : cur = id_of c /\ prev = (if c_ids c then c_cur_id c else c_prev_id c) /\ length v1 = length (c_ref_valid c) /\
    forall i, (i < 8)%nat -> nth i v1 false = nth i (c_ref_valid c) false && (negb (c_ids c) || id_usable (c_add_len c + c_delta_len c) (c_delta_len c) (c_cur_id c) (nth i (c_ref_id c) 0))).
  { unfold enc_ids in EI. unfold id_of. destruct (c_ids c) eqn:I.
    - destruct (W I) as (D1 & D2 & (D & L & C & LI & LV & F)). rewrite id_length_ok in EL by (assumption || lia). injection EL as <-.
      destruct (mark_refs_loop _ _ _ _ D L C F 8 0 _ LI LV) as (v & M & LE & _ & H). change (seq 0 8) with (upto NUM_REF_FRAMES) in M.
      apply bind_inv in EI. destruct EI as (o2 & _ & EI). rewrite M in EI. cbn [bind] in EI. injection EI as _ <- <- <-.
      split; [reflexivity|]. split; [reflexivity|]. split; [exact LE|]. intros i Hi. rewrite H by lia. reflexivity.
    - injection EI as _ <- <- <-. split; [reflexivity|]. split; [reflexivity|]. split; [reflexivity|]. intros i Hi. cbn [negb orb]. rewrite andb_true_r. reflexivity. }
  destruct A as (A1 & A2 & A3 & A4). split; [exact A1|]. split; [exact A2|].
  unfold check_hints in EC. cbn [intra_top t_intra t_err negb orb] in EC. destruct (negb (c_refresh c =? 255) && f_err f && c_enable_hint c).
  - change (upto NUM_REF_FRAMES) with (seq 0 8) in EC. destruct (compare_marks _ _ _ _ _ _ EC) as (L & _ & P). split; [congruence|]. intros i Hi. rewrite P by lia. rewrite A4 by lia. reflexivity.
  - injection EC as <-. split; [exact A3|]. intros i Hi. rewrite A4 by lia. cbn [negb orb]. rewrite andb_true_r. reflexivity.
Qed.

(** ** Sizes *)
Lemma header_sizes c f c' f' : header_run c f c' f' ->
  let d := frame_dims c f in let s := c_superres c in
  f_w f' = coded_w s d /\ f_h f' = f_h f /\ c_up c' = f_w f /\ c_denom c' = denom_of s d /\ f_use_superres f' = scaled s d /\
  (f_rw f', f_rh f') = (if (coded_w s d =? f_rw f) && (f_h f =? f_rh f) then (f_w f, f_h f) else (f_rw f, f_rh f)).
Proof.
  intros R d s. destruct (hr_sizes _ _ _ _ R) as (o & o' & z & E & ->). unfold d, s. clear d s. 
  unfold enc_sizes in E. apply bind_inv in E. destruct E as (o1 & _ & E). apply bind_inv in E. destruct E as ([o2 d2] & E1 & E2).
  unfold enc_superres in E1. cbn [frame_dims m_w m_h m_rw m_rh m_use m_denom m_up] in E1. unfold coded_w, denom_of, scaled. cbn [frame_dims m_w m_use m_denom].
  destruct (if c_superres c then _ else _) as [o3 u] eqn:EU.
  assert (U : u = c_superres c && f_use_superres f) by (destruct (c_superres c); injection EU as _ <-; reflexivity). rewrite <- U. clear EU U.
  apply bind_inv in E1. destruct E1 as ([o4 dn] & ED & E1).
  assert (DN : dn = if u then c_denom c else 8).
  { destruct u; [|injection ED as _ <-; reflexivity]. apply bind_inv in ED. destruct ED as (k & _ & ED). apply bind_inv in ED. destruct ED as (o5 & _ & ED). injection ED as _ <-. reflexivity. }
  rewrite <- DN. apply bind_inv in E1. destruct E1 as (a & EA & E1). apply bind_inv in E1. destruct E1 as (b & EB & E1).
  apply chk_inv in EA. apply chk_inv in EB. destruct EA as (-> & _). destruct EB as (-> & _). injection E1 as <- <-.
  change SUPERRES_NUM with 8 in *. unfold enc_render in E2. cbn [m_w m_h m_rw m_rh m_use m_denom m_up] in E2.
  set (w := (f_w f * 8 + dn / 2) / dn) in *.
  destruct (negb (w =? f_rw f) || negb (f_h f =? f_rh f)) eqn:DIF.
  - apply bind_inv in E2. destruct E2 as (w1 & _ & E2). apply bind_inv in E2. destruct E2 as (o6 & _ & E2). apply bind_inv in E2. destruct E2 as (h1 & _ & E2).
    apply bind_inv in E2. destruct E2 as (o7 & _ & E2). injection E2 as _ <- <- <- <- <- <- <-.
    replace ((w =? f_rw f) && (f_h f =? f_rh f)) with false by (rewrite <- negb_andb in DIF; apply negb_true_iff in DIF; auto). repeat split.
  - injection E2 as _ <- <- <- <- <- <- <-. replace ((w =? f_rw f) && (f_h f =? f_rh f)) with true by (rewrite <- negb_andb in DIF; apply negb_false_iff in DIF; auto). repeat split.
Qed.

(** ** The decoder's view *)
Lemma starts_firstn (A : Type) (l k : list A) : firstn (length l) (l ++ k) = l.
Proof. rewrite firstn_app, Nat.sub_diag, firstn_all, firstn_O, app_nil_r. reflexivity. Qed.
Lemma tiles_kept c f o o' cs rs : tiles_fit c f -> size_typed (frame_dims c f) -> (scaled (c_superres c) (frame_dims c f) = true -> 9 <= c_denom c <= 16) ->
  encode_tile_info o (2 * Z.shiftr (coded_w (c_superres c) (frame_dims c f) + 7) 3) (2 * Z.shiftr (f_h f + 7) 3) (c_sb128 c) (f_uniform f)
    (f_tile_cols f) (f_tile_rows f) (c_update_tile c) (c_size_bytes c) (c_col_starts c) (c_row_starts c) = Ok (o', cs, rs) ->
  firstn (length (ti_col_starts (tiles_of c f))) cs = ti_col_starts (tiles_of c f) /\ firstn (length (ti_row_starts (tiles_of c f))) rs = ti_row_starts (tiles_of c f).
Proof.
  intros (U & TC & TR & CL & CM & RL & LC & LR & ID & SZ) ST DN E. pose proof (coded_range _ _ ST DN) as W. destruct ST as (_ & H & _). cbn [m_w m_h frame_dims] in H.
  unfold tiles_of. cbv zeta. cbn [ti_col_starts ti_row_starts]. set (w := coded_w (c_superres c) (frame_dims c f)) in *. clearbody w.
  rewrite !shiftr_div in E by lia. change (2 ^ 3) with 8 in E. fold (mi w) in E. fold (mi (f_h f)) in E.
  assert (B1 : 0 < mi w <= 2 ^ 19) by (unfold mi; change (2 ^ 19) with 524288; lia). assert (B2 : 0 < mi (f_h f) <= 2 ^ 19) by (unfold mi; change (2 ^ 19) with 524288; lia).
  pose proof (log2_16 _ TC) as C16. pose proof (log2_16 _ TR) as R16.
  assert (P : 2 ^ (Z.log2 (f_tile_rows f) + Z.log2 (f_tile_cols f)) <= 2 ^ 30) by (apply pow2_le; lia). change (2 ^ 30) with 1073741824 in P.
  rewrite U in E. rewrite tile_info_writes in E by (try assumption; try lia; change (2 ^ 32) with 4294967296; lia). cbv zeta in *.
  match type of E with (if ?b then _ else _) = _ => destruct b; [|discriminate] end. injection E as _ <- <-.
  split; apply starts_firstn.
Qed.

Definition kept_header (c : ctx) (f : frm) (h : av1_intra) : Prop :=
  h_type h = f_type f /\ h_show h = c_show c /\ h_showable h = c_show c || c_showable c /\ h_err h = f_err f /\ h_no_update h = c_no_update c /\
  h_sct h = f_sct f /\ h_id h = c_cur_id c /\ h_hint h = f_hint f /\ h_refresh h = c_refresh c /\
  h_size h = mkAZ (f_w f) (f_h f) (c_up c) (c_denom c) (f_rw f) (f_rh f) /\ h_intrabc h = f_intrabc f /\ h_no_end h = c_no_end c /\
  firstn (length (ti_col_starts (h_tiles h))) (c_col_starts c) = ti_col_starts (h_tiles h) /\
  firstn (length (ti_row_starts (h_tiles h))) (c_row_starts c) = ti_row_starts (h_tiles h) /\ ti_update_id (h_tiles h) = c_update_tile c /\
  h_quant h = mkAQ (q_base (f_quant f)) (dq_y_dc (c_dq c)) (dq_u_dc (c_dq c)) (dq_u_ac (c_dq c)) (dq_v_dc (c_dq c)) (dq_v_ac (c_dq c))
    (if q_using (f_quant f) then Some (q_y (f_quant f), q_u (f_quant f), q_v (f_quant f)) else None) /\
  h_lossless h = c_coded_lossless c /\ h_tx_select h = None /\ c_tx_mode c = 0 /\ h_reduced_tx h = f_reduced_tx f /\ h_grain h = header_grain c.

Lemma header_agrees s c f : header_known s c f -> header_typed c f -> header_ready c f -> length (c_order_hints c) = 7%nat -> exists bits c' f' h,
  encode_frame_header [] c f = Ok (bits, c', f') /\ decodes bits (rd_header s) (Intra h) /\ kept_header c' f' h.
Proof.
  intros K T RD L7. destruct (header_decoded s c f K T RD) as (bits & c' & f' & E & D & _ & _ & CL & _). exists bits, c', f', (header_of c f).
  split; [exact E|]. split; [exact D|]. destruct RD as (SEEN & RED & EX & TYP & OV & CW & ERR & TF & LS & GR).
  pose proof (header_runs _ _ _ _ _ _ SEEN L7 EX E) as R. pose proof (header_sizes _ _ _ _ R) as SZ. cbv zeta in SZ.
  destruct SZ as (S1 & S2 & S3 & S4 & _ & S6).
  destruct K as (KR & KP & KI & KO & KT & KS & KSC & KIM & KH & KB & KM & KSR & K128 & KG & KMO & CM & CP & KX & KY & KSEP).
  destruct T as (TS & TI & TID & TB & TH & TRF & TT & TSI & TOP & L1 & L2 & L3 & TD & TDN & TQ & TLF & CD1 & CD2 & CD3 & CD4 & LL & LQ & LQ8 & LG & LGM).
  destruct (hr_flags _ _ _ _ R) as (_ & _ & F1 & F2 & _ & F4 & _ & F6 & F7 & _). destruct (hr_frame _ _ _ _ R) as (G1 & G2 & G3 & _ & _ & _ & G7 & _).
  destruct (hr_kept _ _ _ _ R) as (_ & _ & _ & _ & _ & _ & K7 & _ & _ & _ & _ & _ & _ & _ & _ & _ & _ & _ & _ & _ & K21 & K22 & _).
  destruct (hr_asked _ _ _ _ R) as (_ & _ & _ & _ & _ & A6 & _ & _ & _ & _ & _ & _ & _ & _ & _ & _ & _ & A18 & _).
  unfold header_of, kept_header. cbn [h_type h_show h_showable h_err h_no_update h_sct h_id h_hint h_refresh h_size h_intrabc h_no_end h_tiles h_quant h_lossless h_tx_select h_reduced_tx h_grain].
  rewrite F1, F2, F4, F6, F7, G1, G2, G3, G7, K7, A6, A18, CL.
  split; [reflexivity|]. split; [reflexivity|]. split; [destruct (c_show c); reflexivity|]. split; [reflexivity|]. split; [reflexivity|]. split; [reflexivity|].
  split. { destruct (hr_ids _ _ _ _ R) as (l & o & o' & prev & cur & v1 & v2 & _ & EI & _ & _ & _ & -> & _). unfold enc_ids in EI. unfold id_of. destruct (c_ids c).
    - apply bind_inv in EI. destruct EI as (o2 & _ & EI). apply bind_inv in EI. destruct EI as (v & _ & EI). injection EI as _ _ <- _. reflexivity.
    - injection EI as _ _ <- _. reflexivity. }
  split; [reflexivity|]. split; [reflexivity|].
  split. { unfold size_of. rewrite S1, S2, S3, S4. rewrite CW in S6 |- *. cbn [frame_dims m_w m_h m_rw m_rh].
    destruct ((f_w f =? f_rw f) && (f_h f =? f_rh f)) eqn:Q; injection S6 as -> ->; [|reflexivity].
    apply andb_prop in Q. destruct Q as (Q1 & Q2). apply Z.eqb_eq in Q1, Q2. rewrite <- Q1, <- Q2. reflexivity. }
  split; [reflexivity|]. split; [reflexivity|].
  destruct (hr_tiles _ _ _ _ R) as (o & o' & TE). rewrite S1, S2 in TE. destruct (tiles_kept _ _ _ _ _ _ TF TD TDN TE) as (T1 & T2).
  split; [exact T1|]. split; [exact T2|].
  split. { destruct (hr_update _ _ _ _ R) as (cl & rl & E1 & E2 & ->). destruct TF as (_ & TC & TR & _). rewrite tiles_log2_ok in E1, E2 by lia. injection E1 as <-. injection E2 as <-. reflexivity. }
  destruct (hr_quant _ _ _ _ R) as (oq & oq' & QE). rewrite enc_quant_ok in QE by exact TQ. rewrite CP in QE. apply (f_equal (fun r => match r with Ok (_, a, b) => (a, b) | _ => (f_quant f', c_dq c') end)) in QE.
  injection QE as EQ ED. rewrite <- EQ, <- ED.
  split. { destruct LS as (C & B & Y & UD & UA & V & M & G). unfold lossless_quant, kept_q, kept_d. change (1 <? 3) with true. cbv iota. cbn [q_base q_using q_y q_u q_v].
    destruct (c_sep c) eqn:SP; cbn [andb negb] in *; [destruct (q_diff (f_quant f)) eqn:DF|]; cbn [dq_y_dc dq_u_dc dq_u_ac dq_v_dc dq_v_ac]; [destruct (V eq_refl) as (V1 & V2); rewrite V1, V2| |];
      rewrite B, Y, UD, UA; destruct (q_using (f_quant f)); reflexivity. }
  split; [reflexivity|]. split; [reflexivity|]. split; [reflexivity|]. split; [reflexivity|].
  destruct (hr_grain _ _ _ _ R) as (og & og' & GE). unfold header_grain. rewrite K21, K22. destruct GR as (SH & GR). destruct (c_grain c) as [g|]; [|contradiction]. destruct GR as (GR & GF).
  assert (SS : c_show c = true \/ negb (c_show c) && c_showable c = true) by (destruct (c_show c); [left; reflexivity|right; exact SH]).
  rewrite CM in GE. destruct (fg_apply g) eqn:A.
  - destruct (grain_written g (c_ref_grain c) (c_show c) (negb (c_show c) && c_showable c) false false (c_ssx c && c_ssy c) SS A (or_introl eq_refl) GR (GF eq_refl)) as (code & g' & W & _ & GO & GA).
    rewrite W in GE. apply (f_equal (fun r => match r with Ok (_, x) => x | _ => None end)) in GE. rewrite <- GE, GA, GO. reflexivity.
  - destruct (grain_not_applied g (c_ref_grain c) (c_show c) (negb (c_show c) && c_showable c) false false (c_ssx c && c_ssy c) A GR SS) as (W & _).
    rewrite W in GE. apply (f_equal (fun r => match r with Ok (_, x) => x | _ => None end)) in GE. rewrite <- GE. reflexivity.
Qed.
