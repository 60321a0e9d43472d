(** The sequence header, second part: timing, operating points, frame size and
    the whole header. *)
From Coq Require Import ZArith List Bool Lia ZifyBool ZifyNat.
From Verif Require Import Base BaseProofs UtilModel UtilSpec UtilProofs BitsSpec BitsProofs
  RangeCoderModel BitCodecModel BitCodecProofs SeqModel SeqSpec SeqProofs.
Import ListNotations.
Open Scope Z_scope.
Ltac Zify.zify_post_hook ::= Z.div_mod_to_equations.

Lemma rd_oks : forall n k v r, k = Z.to_nat n -> 0 <= n -> 0 <= v < 2 ^ n -> rd k (to_bits (Z.to_nat n) v ++ r) = Some (v, r).
Proof. intros n k v r -> H0 H. apply rd_ok. rewrite Z2Nat.id by lia. assumption. Qed.

Lemma seq_timing_ok : forall e h, e_reduced e = false ->
  match e_timing e with Some t => timing_ok t | None => True end ->
  match eff_dm e h with Some d => dm_ok d | None => True end -> exists code,
  (forall out, enc_timing out e h = Ok (out ++ code, e_timing e, eff_dm e h)) /\
  (forall r, rd_timing (code ++ r) = Some (option_map (timing_view h) (e_timing e), r)).
Proof.
  intros e h He Ht Hd. unfold enc_timing, rd_timing, eff_dm in *. rewrite He.
  destruct (e_timing e) as [t|]; [|exists [b2z false]; split; intros; reflexivity].
  destruct Ht as (T1 & T2 & T3).
  set (cd := match sh_dm h with None => [] | Some d =>
     to_bits 4 (dm_bitrate_scale d) ++ to_bits 4 (dm_buffer_scale d) ++ to_bits 5 (dm_delay_len d - 1) ++
     to_bits 32 (dm_units d) ++ to_bits 5 (dm_removal_len d - 1) ++ to_bits 5 (dm_presentation_len d - 1) end).
  exists ([b2z true] ++ to_bits 32 (ti_units t) ++ to_bits 32 (ti_scale t) ++ [b2z (ti_equal t)] ++
          (if ti_equal t then uvlc_code (ti_ticks t - 1) else []) ++ [b2z (is_some (sh_dm h))] ++ cd).
  assert (W : forall out, match sh_dm h with
             | None => Ok out
             | Some d =>
                 out <- push_bits_with_size out (dm_bitrate_scale d) 4 ;;
                 out <- push_bits_with_size out (dm_buffer_scale d) 4 ;;
                 l <- chk_u8 (dm_delay_len d - 1) ;;
                 out <- push_bits_with_size out l 5 ;;
                 out <- push_bits_with_size out (dm_units d) 32 ;;
                 l <- chk_u8 (dm_removal_len d - 1) ;;
                 out <- push_bits_with_size out l 5 ;;
                 l <- chk_u8 (dm_presentation_len d - 1) ;;
                 push_bits_with_size out l 5
             end = Ok (out ++ cd)).
  { intros out. unfold cd. destruct (sh_dm h) as [d|]; [|rewrite app_nil_r; reflexivity].
    destruct Hd as (D1 & D2 & D3 & D4 & D5 & D6). wr. wr. rewrite chk_u8_ok by lia. cbn [bind]. wr. wr.
    rewrite chk_u8_ok by lia. cbn [bind]. wr. rewrite chk_u8_ok by lia. cbn [bind]. wr. rewrite <- !app_assoc. reflexivity. }
  assert (U : forall out, (if ti_equal t then n <- chk_u32 (ti_ticks t - 1) ;; encode_uvlc out n else Ok out) =
                 Ok (out ++ if ti_equal t then uvlc_code (ti_ticks t - 1) else [])).
  { intros. destruct (ti_equal t); [|rewrite app_nil_r; reflexivity]. rewrite chk_u32_ok by lia. cbn [bind].
    apply encode_uvlc_ok. lia. }
  split; intros.
  - wr. wr. rewrite U. cbn [bind]. rewrite W. cbn [bind]. rewrite !pbit_app, <- !app_assoc. reflexivity.
  - rewrite <- !app_assoc. cbn [app]. rewrite rd1_ok. cbn [obind].
    rewrite (rd_oks 32) by (try reflexivity; lia). cbn [obind]. rewrite (rd_oks 32) by (try reflexivity; lia). cbn [obind].
    rewrite rd1_ok. cbn [obind].
    assert (UR : forall q, (if ti_equal t then LET (v, q) := rd_uvlc ((if ti_equal t then uvlc_code (ti_ticks t - 1) else []) ++ q) IN Some (Some (v + 1), q)
       else Some (None, (if ti_equal t then uvlc_code (ti_ticks t - 1) else []) ++ q)) =
       Some (if ti_equal t then Some (ti_ticks t) else None, q)).
    { intros. destruct (ti_equal t); [|reflexivity]. rewrite rd_uvlc_ok by lia. cbn [obind]. do 3 f_equal. lia. }
    rewrite UR. cbn [obind]. rewrite rd1_ok. cbn [obind]. unfold cd, timing_view, dm_view. destruct (sh_dm h) as [d|]; [|reflexivity].
    destruct Hd as (D1 & D2 & D3 & D4 & D5 & D6). cbn [is_some]. rewrite <- !app_assoc.
    do 3 (rewrite rd_ok by (cbn; lia); cbn [obind]). rewrite (rd_oks 32) by (try reflexivity; lia). cbn [obind].
    do 2 (rewrite rd_ok by (cbn; lia); cbn [obind]). cbn [option_map]. rewrite !Z.sub_add. reflexivity.
Qed.

Lemma seq_opm_ok : forall dm l, match dm with Some d => dm_ok d | None => True end ->
  Forall (opm_ok (option_map dm_delay_len dm)) l -> exists code,
  (forall out, enc_opm out dm l = Ok (out ++ code)) /\
  (forall r, rd_opm (length l) (option_map dm_delay_len dm) (code ++ r) =
     Some (map (opm_view (match dm with Some _ => true | None => false end)) l, r)).
Proof.
  intros dm l Hd. 
  induction l as [|o l IH]; intros H.
    - exists []. split; intros; [rewrite app_nil_r|]; reflexivity.
    - inversion H as [|? ? (H1 & H2 & H3) Hl]; subst. destruct (IH Hl) as (c & E & R). clear IH.
      set (cdel := match opm_delay o with Some d => to_bits 4 (d - 1) | None => [] end).
      set (cpar := match dm with None => [] | Some d => b2z (is_some (opm_params o)) ::
           match opm_params o with None => [] | Some p =>
             uvlc_code (opi_bitrate p - 1) ++ uvlc_code (opi_buffer p - 1) ++ [b2z (opi_cbr p)] ++
             to_bits (Z.to_nat (dm_delay_len d)) (opi_dec_delay p) ++ to_bits (Z.to_nat (dm_delay_len d)) (opi_enc_delay p) ++ [b2z (opi_low p)] end end).
      exists (to_bits 12 (opm_idc o) ++ [b2z (is_some (opm_delay o))] ++ cdel ++ cpar ++ c). split; intros.
      + cbn [enc_opm]. wr.
        assert (W1 : forall out, match opm_delay o with None => Ok out | Some d => d1 <- chk_u8 (d - 1) ;; push_bits_with_size out d1 4 end = Ok (out ++ cdel)).
        { intros. unfold cdel. destruct (opm_delay o) as [d|]; [|rewrite app_nil_r; reflexivity].
          rewrite chk_u8_ok by lia. cbn [bind]. apply push_bits_with_size_ok. lia. }
        rewrite W1. cbn [bind]. unfold cpar. destruct dm as [d|].
        * destruct Hd as (_ & _ & D3 & _). destruct (opm_params o) as [p|].
          -- destruct H3 as (P1 & P2 & P3 & P4). rewrite chk_u32_ok by lia. cbn [bind].
             rewrite encode_uvlc_ok by lia. cbn [bind]. rewrite chk_u32_ok by lia. cbn [bind].
             rewrite encode_uvlc_ok by lia. cbn [bind]. wr. wr. rewrite E. rewrite !pbit_app, <- !app_assoc. cbn [app].
             do 3 (rewrite <- ?app_assoc; cbn [app]). reflexivity.
          -- cbn [bind]. rewrite E. rewrite !pbit_app, <- !app_assoc. reflexivity.
        * cbn [bind]. rewrite E. rewrite !pbit_app, <- !app_assoc. reflexivity.
      + cbn [length rd_opm map]. rewrite <- !app_assoc. cbn [app]. rewrite rd_ok by (cbn; lia). cbn [obind]. rewrite rd1_ok. cbn [obind].
        assert (R1 : forall q, (if is_some (opm_delay o) then LET (d, q) := rd 4 (cdel ++ q) IN Some (Some (d + 1), q) else Some (None, cdel ++ q))
           = Some (opm_delay o, q)).
        { intros. unfold cdel. destruct (opm_delay o) as [d|]; [|reflexivity]. cbn [is_some]. rewrite rd_ok by (cbn; lia).
          cbn [obind]. rewrite Z.sub_add. reflexivity. }
        rewrite R1. cbn [obind]. unfold cpar, opm_view at 1. destruct dm as [d|]; cbn [option_map].
        * destruct Hd as (_ & _ & D3 & _). cbn [option_map] in H3. cbn [app]. rewrite rd1_ok. cbn [obind].
          destruct (opm_params o) as [p|]; cbn [is_some].
          -- destruct H3 as (P1 & P2 & P3 & P4). rewrite <- !app_assoc. cbn [app]. rewrite rd_uvlc_ok by lia. cbn [obind].
             rewrite rd_uvlc_ok by lia. cbn [obind]. rewrite rd1_ok. cbn [obind]. rewrite <- !app_assoc.
             rewrite rd_oks by (try reflexivity; lia). cbn [obind]. rewrite <- ?app_assoc. rewrite rd_oks by (try reflexivity; lia). cbn [obind app].
             rewrite rd1_ok. cbn [obind]. cbn [option_map] in R. rewrite R. cbn [obind option_map]. unfold params_view. rewrite !Z.sub_add. reflexivity.
          -- cbn [app obind]. cbn [option_map] in R. rewrite R. reflexivity.
        * cbn [app obind]. cbn [option_map] in R. rewrite R. reflexivity.
Qed.

(** ** Frame size *)
Definition size_code (w h mw mh : Z) : list Z :=
  to_bits 4 (Z.log2 (w - 1) - 1) ++ to_bits 4 (Z.log2 (h - 1) - 1) ++
  to_bits (Z.to_nat (Z.log2 mw)) (mw - 1) ++ to_bits (Z.to_nat (Z.log2 mh)) (mh - 1).

Lemma log2_16 : forall n, 2 <= n < 65536 -> 1 <= Z.log2 n <= 15.
Proof.
  intros n H. split.
  - apply Z.log2_le_pow2; lia.
  - assert (Z.log2 n < 16) by (apply Z.log2_lt_pow2; lia). lia.
Qed.

Lemma enc_size_ok : forall h out,
  3 <= sh_w h <= 65536 -> 3 <= sh_h h <= 65536 -> 2 <= sh_max_w h <= 65535 -> 2 <= sh_max_h h <= 65535 ->
  enc_size out h = Ok (out ++ size_code (sh_w h) (sh_h h) (sh_max_w h) (sh_max_h h)).
Proof.
  intros h out Hw Hh Hmw Hmh. unfold enc_size, size_code.
  pose proof (log2_16 (sh_w h - 1) ltac:(lia)). pose proof (log2_16 (sh_h h - 1) ltac:(lia)).
  pose proof (log2_16 (sh_max_w h) ltac:(lia)). pose proof (log2_16 (sh_max_h h) ltac:(lia)).
  rewrite (chk_u64_ok (sh_w h - 1)) by lia. cbn [bind]. rewrite as_u16_id by lia. rewrite msb16_log2 by lia. cbn [bind].
  rewrite chk_u8_ok by lia. cbn [bind].
  rewrite (chk_u64_ok (sh_h h - 1)) by lia. cbn [bind]. rewrite as_u16_id by lia. rewrite msb16_log2 by lia. cbn [bind].
  rewrite chk_u8_ok by lia. cbn [bind]. wr. wr.
  rewrite as_u16_id by lia. rewrite msb16_log2 by lia. cbn [bind]. rewrite chk_u8_ok by lia. cbn [bind].
  rewrite as_u16_id by lia. rewrite msb16_log2 by lia. cbn [bind]. rewrite chk_u8_ok by lia. cbn [bind].
  rewrite chk_u8_ok by lia. cbn [bind]. rewrite chk_u8_ok by lia. cbn [bind].
  rewrite chk_u64_ok by lia. cbn [bind]. rewrite chk_u64_ok by lia. cbn [bind].
  rewrite !as_u32_id by lia. rewrite !Z.sub_add. wr. wr. rewrite <- !app_assoc. reflexivity.
Qed.

(** The default header succeeds exactly for sizes above 2. *)
Lemma enc_size_small : forall h out, 1 <= sh_w h <= 65535 -> 1 <= sh_h h <= 65535 ->
  sh_max_w h = sh_w h -> sh_max_h h = sh_h h -> (sh_w h < 3 \/ sh_h h < 3) -> enc_size out h = Panic.
Proof.
  intros h out Hw Hh Hmw Hmh Hs. unfold enc_size.
  rewrite (chk_u64_ok (sh_w h - 1)) by lia. cbn [bind]. rewrite as_u16_id by lia. rewrite msb16_log2 by lia. cbn [bind].
  destruct (Z_lt_dec (sh_w h) 3).
  - unfold chk_u8 at 1. rewrite chk_not_ok; [reflexivity|]. assert (sh_w h - 1 = 0 \/ sh_w h - 1 = 1) as [-> | ->] by lia; cbn; lia.
  - pose proof (log2_16 (sh_w h - 1) ltac:(lia)). rewrite chk_u8_ok by lia. cbn [bind].
    rewrite (chk_u64_ok (sh_h h - 1)) by lia. cbn [bind]. rewrite as_u16_id by lia. rewrite msb16_log2 by lia. cbn [bind].
    unfold chk_u8 at 1. rewrite chk_not_ok; [reflexivity|]. assert (sh_h h - 1 = 0 \/ sh_h h - 1 = 1) as [-> | ->] by lia; cbn; lia.
Qed.

(** ** The whole header *)
Definition sizes_ok (h : seqhdr) : Prop :=
  3 <= sh_w h <= 65536 /\ 3 <= sh_h h <= 65536 /\ 2 <= sh_max_w h <= 65535 /\ 2 <= sh_max_h h <= 65535.

Lemma seq_ok_parts : forall e h, seq_ok e h -> sizes_ok h -> exists cops ctail e' h',
  (forall out, enc_seq out e h =
     Ok (out ++ to_bits 3 (sh_profile h) ++ [b2z (sh_still h); b2z false] ++ to_bits 5 (Z.of_nat (length (sh_ops h))) ++ cops ++
         size_code (sh_w h) (sh_h h) (sh_max_w h) (sh_max_h h) ++ ctail, e', h')) /\
  (forall r, rd_ops (length (sh_ops h)) (cops ++ r) = Some (map op_view (sh_ops h), r)) /\
  (forall w1 h1 r, forall q,
     rd_head false q = Some (sh_profile h, sh_still h, false, map op_view (sh_ops h), w1, h1, ctail ++ r) ->
     rd_seq false q = Some (seq_view e h w1 h1, r)) /\
  seq_ok e' h' /\ (sh_w h' = sh_w h /\ sh_h h' = sh_h h /\ sh_max_w h' = sh_max_w h /\ sh_max_h h' = sh_max_h h) /\
  (forall w1 h1, seq_view e' h' w1 h1 = seq_view e h w1 h1).
Proof.
  intros e h (Hr & Hp & Hm & Hn & Ho & Hf & Ht & Hc & Hti & Hd & Hn2 & Hom) (Hw & Hh & Hmw & Hmh).
  destruct (seq_ops_ok _ Ho) as (cops & Eops & Rops).
  destruct (seq_frame_id_ok e h Hr Hf) as (cf & Ef & Rf).
  destruct (seq_tools_ok e h Hr Ht) as (ct & t & Et & Rt & Tt).
  destruct (seq_color_ok e (sh_profile h) Hp Hm Hc) as (cc & col & Ec & Rc & Cc).
  destruct (seq_timing_ok e h Hr Hti Hd) as (cti & Eti & Rti).
  destruct (seq_opm_ok (eff_dm e h) (e_opm e) Hd Hom) as (co & Eo & Ro).
  set (n := len (e_opm e)) in *.
  set (copm := if 0 <? n then to_bits 5 (n - 1) ++ co else []).
  exists cops, (cf ++ ct ++ [b2z (e_superres e); b2z (e_cdef e); b2z (e_restoration e)] ++ cc ++ cti ++ [b2z (0 <? n)] ++ copm ++ [b2z (e_grain e)]).
  assert (Nn : 0 <= n <= 32) by (unfold n, len; lia).
  assert (EO : forall out dm, dm = eff_dm e h -> (if 0 <? n then
            out <- push_bits_with_size out (as_u32 (n - 1)) 5 ;;
            enc_opm out dm (e_opm e)
          else Ok out) = Ok (out ++ copm)).
  { intros out dm ->. unfold copm. destruct (Z.ltb_spec 0 n); [|rewrite app_nil_r; reflexivity].
    rewrite as_u32_id by lia. wr. rewrite Eo, <- app_assoc. reflexivity. }
  eexists. eexists. split; [|split; [exact Rops|split; [|split; [|split]]]].
  - intros out. unfold enc_seq. rewrite Hr. wr. rewrite as_u32_id by (unfold len; lia). wr. rewrite Eops. cbn [bind].
    rewrite enc_size_ok by assumption. cbn [bind]. rewrite Ef. cbn [bind]. rewrite Et. cbn [bind].
    rewrite Ec. cbn [bind]. rewrite Eti. cbn [bind]. fold n. rewrite EO by reflexivity. cbn [bind].
    rewrite !pbit_app. unfold len. rewrite <- !app_assoc. cbn [app]. rewrite <- ?app_assoc. reflexivity.
  - intros w1 h1 r q HH. unfold rd_seq. rewrite HH. cbn [obind]. rewrite <- !app_assoc.
    pose proof (Rf (ct ++ [b2z (e_superres e); b2z (e_cdef e); b2z (e_restoration e)] ++ cc ++ cti ++ [b2z (0 <? n)] ++ copm ++ [b2z (e_grain e)] ++ r)) as RF.
    destruct (rd1 (cf ++ ct ++ [b2z (e_superres e); b2z (e_cdef e); b2z (e_restoration e)] ++ cc ++ cti ++ [b2z (0 <? n)] ++ copm ++ [b2z (e_grain e)] ++ r))
      as [[fp q1]|]; cbn [obind] in RF |- *; [|discriminate]. rewrite RF. cbn [obind]. cbn [app].
    rewrite Rt. cbn [obind]. rewrite Rc. cbn [obind]. rewrite Rti. cbn [obind]. rewrite rd1_ok. cbn [obind].
    assert (DM : match option_map (timing_view h) (e_timing e) with
                 | Some (P_TIMING _ _ _ (Some d)) => Some (pd_delay_len d) | _ => None end = option_map dm_delay_len (eff_dm e h)).
    { unfold eff_dm, timing_view. destruct (e_timing e); cbn [option_map]; [|reflexivity]. destruct (sh_dm h); reflexivity. }
    rewrite DM.
    assert (RO : forall q, (if 0 <? n then LET (k, q) := rd 5 (copm ++ q) IN rd_opm (Z.to_nat (k + 1)) (option_map dm_delay_len (eff_dm e h)) q
        else Some ([], copm ++ q)) = Some (map (opm_view (match eff_dm e h with Some _ => true | None => false end)) (e_opm e), q)).
    { intros q0. unfold copm. destruct (Z.ltb_spec 0 n).
      - rewrite <- app_assoc. rewrite rd_ok by (cbn; lia). cbn [obind]. replace (Z.to_nat (n - 1 + 1)) with (length (e_opm e)) by (unfold n, len; lia).
        apply Ro.
      - unfold n, len in *. destruct (e_opm e); [reflexivity|cbn [length] in *; lia]. }
    rewrite RO. cbn [obind]. rewrite rd1_ok. cbn [obind]. reflexivity.
  - destruct Cc as (C1 & C2 & C3 & C4). cbv zeta in Tt. rewrite Tt.
    unfold seq_ok, tools_ok, color_ok, eff_dm in *.
    cbn [e_reduced sh_profile e_mono sh_ops sh_frame_id sh_choose_sct sh_choose_imv e_force_sct e_force_imv e_order_hint
         e_order_hint_bits e_cd e_csp e_timing sh_dm e_opm t_sct t_imv t_order_hint t_ohb].
    repeat match goal with |- _ /\ _ => split end; try assumption; try lia; try tauto; try (rewrite C2; destruct Hc; lia).
    + destruct Ht as (T1 & _ & _). destruct (sh_choose_sct h); [left; reflexivity|]. destruct T1; [discriminate|right; assumption].
    + destruct Ht as (T1 & T2 & _). destruct (sh_choose_imv h); [left; reflexivity|]. right.
      destruct T2 as [?|[[T2 T3]|T2]]; [discriminate|left; rewrite T2; auto|].
      destruct (sh_choose_sct h); [right; exact T2|]. destruct T1 as [?|[T1|T1]]; [discriminate|left; auto|]. rewrite T1. right. exact T2.
    + intros Eo'. rewrite Eo'. destruct Ht as (_ & _ & T). apply T. assumption.
    + rewrite C3. destruct Hc as [Hc _]. destruct (e_cd e) as [[[? ?] ?]|]; [assumption|lia].
    + destruct (e_timing e); [assumption|exact I].
    + destruct (e_timing e); assumption.
  - cbn. auto.
  - intros w1 h1. destruct Cc as (C1 & C2 & C3 & C4). cbv zeta in Tt. rewrite Tt.
    match goal with |- seq_view ?e2 ?h2 _ _ = _ => set (E2 := e2); set (H2 := h2) end.
    assert (V1 : color_view E2 (sh_profile h) = color_view e (sh_profile h)) by (rewrite <- C4; reflexivity).
    assert (V2 : tools_view E2 H2 = tools_view e h).
    { unfold tools_view, E2, H2. cbn.
      destruct (e_order_hint e), (sh_jnt h), (e_ref_mvs e), (sh_choose_sct h), (sh_choose_imv h); cbn; try reflexivity;
        destruct (0 <? e_force_sct e); reflexivity. }
    assert (V3 : option_map (timing_view H2) (e_timing E2) = option_map (timing_view h) (e_timing e)).
    { unfold E2, H2, timing_view, eff_dm. cbn. destruct (e_timing e); reflexivity. }
    assert (V4 : eff_dm E2 H2 = eff_dm e h).
    { unfold E2, H2, eff_dm. cbn. destruct (e_timing e); reflexivity. }
    unfold seq_view. rewrite V2, V3, V4. change (sh_profile H2) with (sh_profile h). rewrite V1. reflexivity.
Qed.

Lemma rd_head_false : forall profile still n cops ops wb hb q,
  0 <= profile < 8 -> (n < 32)%nat -> 0 <= wb < 16 -> 0 <= hb < 16 ->
  (forall r, rd_ops n (cops ++ r) = Some (ops, r)) ->
  rd_head false (to_bits 3 profile ++ [b2z still; b2z false] ++ to_bits 5 (Z.of_nat n) ++ cops ++ to_bits 4 wb ++ to_bits 4 hb ++ q) =
  LET (w, q) := rd (Z.to_nat (wb + 1)) q IN
  LET (h, q) := rd (Z.to_nat (hb + 1)) q IN
  Some (profile, still, false, ops, w, h, q).
Proof.
  intros. unfold rd_head. rewrite rd_ok by (cbn; lia). cbn [obind app]. rewrite rd1_ok. cbn [obind].
  rewrite rd1_ok. cbn [obind]. rewrite rd_ok by (cbn; lia). cbn [obind]. rewrite Nat2Z.id. rewrite H3. cbn [obind].
  rewrite rd_ok by (cbn; lia). cbn [obind]. rewrite rd_ok by (cbn; lia). cbn [obind]. reflexivity.
Qed.

(** Everything but the frame size comes back, when the two widths of the size
    fields agree; the size comes back without its leading bit. *)
Lemma seq_parse_back : forall e h, seq_ok e h -> sizes_ok h ->
  Z.log2 (sh_w h - 1) = Z.log2 (sh_max_w h) -> Z.log2 (sh_h h - 1) = Z.log2 (sh_max_h h) ->
  exists code e' h', (forall out, enc_seq out e h = Ok (out ++ code, e', h')) /\
  (forall r, rd_seq false (code ++ r) =
    Some (seq_view e h ((sh_max_w h - 1) mod 2 ^ Z.log2 (sh_max_w h)) ((sh_max_h h - 1) mod 2 ^ Z.log2 (sh_max_h h)), r)) /\
  seq_ok e' h' /\ (sh_w h' = sh_w h /\ sh_h h' = sh_h h /\ sh_max_w h' = sh_max_w h /\ sh_max_h h' = sh_max_h h) /\
  (forall w1 h1, seq_view e' h' w1 h1 = seq_view e h w1 h1).
Proof.
  intros e h Ho Hs Lw Lh. pose proof Ho as Ho'. destruct (seq_ok_parts e h Ho Hs) as (cops & ctail & e' & h' & E & Rops & R & K).
  destruct Ho as (Hr & Hp & Hm & Hn & _). destruct Hs as (Hw & Hh & Hmw & Hmh).
  eexists. exists e', h'. split; [exact E|]. split; [|exact K]. intros r. apply R. unfold size_code. rewrite Lw, Lh. rewrite <- !app_assoc.
  pose proof (log2_16 (sh_max_w h) ltac:(lia)). pose proof (log2_16 (sh_max_h h) ltac:(lia)).
  rewrite (rd_head_false _ _ _ _ (map op_view (sh_ops h))) by (try assumption; lia).
  rewrite !Z.sub_add. rewrite rd_len by apply to_bits_length. cbn [obind]. rewrite rd_len by apply to_bits_length. cbn [obind].
  rewrite !bits_val_to_bits, !Z2Nat.id by lia. reflexivity.
Qed.
