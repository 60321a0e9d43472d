(** The sequence header: what the writer emits is read back by the parser. *)
From Coq Require Import ZArith List Bool Lia ZifyBool ZifyNat.
From Verif Require Import Base BaseProofs UtilModel UtilSpec UtilProofs BitsSpec BitsProofs
  RangeCoderModel BitCodecModel BitCodecProofs SeqModel SeqSpec.
Import ListNotations.
Open Scope Z_scope.
Ltac Zify.zify_post_hook ::= Z.div_mod_to_equations.

Lemma rd_ok : forall n v r, 0 <= v < 2 ^ Z.of_nat n -> rd n (to_bits n v ++ r) = Some (v, r).
Proof.
  intros. unfold rd. rewrite app_length, to_bits_length.
  replace (n <=? n + length r)%nat with true by (symmetry; apply Nat.leb_le; lia).
  rewrite firstn_app, skipn_app, to_bits_length, Nat.sub_diag, firstn_O, app_nil_r.
  rewrite firstn_all2, skipn_all2 by (rewrite to_bits_length; lia).
  rewrite bits_val_to_bits_small by assumption. reflexivity.
Qed.

Lemma rd_len : forall n c r, length c = n -> rd n (c ++ r) = Some (bits_val c, r).
Proof.
  intros n c r H. unfold rd. rewrite app_length, H.
  replace (n <=? n + length r)%nat with true by (symmetry; apply Nat.leb_le; lia).
  rewrite firstn_app, skipn_app, H, Nat.sub_diag, firstn_O, app_nil_r.
  rewrite firstn_all2, skipn_all2 by lia. reflexivity.
Qed.

Lemma rd1_ok : forall b r, rd1 (b2z b :: r) = Some (b, r).
Proof. destruct b; reflexivity. Qed.

Lemma rd_zeros_ok : forall n r, rd_zeros (repeat 0 n ++ 1 :: r) = Some (n, r).
Proof. induction n; intros; [reflexivity|]. cbn [repeat app rd_zeros]. cbn. rewrite IHn. reflexivity. Qed.

Lemma rd_uvlc_ok : forall v r, 0 <= v < 2 ^ 32 - 1 -> rd_uvlc (uvlc_code v ++ r) = Some (v, r).
Proof.
  intros v r Hv. unfold rd_uvlc, uvlc_code. cbv zeta. rewrite <- !app_assoc. cbn [app]. rewrite rd_zeros_ok. cbn [obind].
  assert (L : Z.log2 (v + 1) < 32) by (apply Z.log2_lt_pow2; lia). pose proof (Z.log2_nonneg (v + 1)).
  destruct (Nat.leb_spec 32 (Z.to_nat (Z.log2 (v + 1)))); [lia|].
  rewrite rd_len by apply to_bits_length. cbn [obind]. rewrite bits_val_to_bits, Z2Nat.id by lia.
  destruct (Z.log2_spec (v + 1) ltac:(lia)) as [S1 S2]. rewrite Z.pow_succ_r in S2 by lia.
  do 2 f_equal. set (p := 2 ^ Z.log2 (v + 1)) in *. clearbody p.
  replace (v + 1) with ((v + 1 - p) + 1 * p) by lia. rewrite Z.mod_add by lia. rewrite Z.mod_small by lia. lia.
Qed.

Lemma pbit_app : forall out b, pbit out b = out ++ [b2z b].
Proof. reflexivity. Qed.

Ltac wr := rewrite push_bits_with_size_ok by lia; cbn [bind].
Ltac asm := rewrite <- ?app_assoc; cbn [app].
Ltac rdt := repeat (asm; first [rewrite rd1_ok | rewrite rd_ok by (cbn; lia) | rewrite rd_uvlc_ok by lia]; cbn [obind]).

Lemma seq_ops_ok : forall l, Forall op_ok l -> exists code,
  (forall out, enc_ops out l = Ok (out ++ code)) /\
  forall r, rd_ops (length l) (code ++ r) = Some (map op_view l, r).
Proof.
  induction l as [|o l IH]; intros H.
  - exists []. split; intros; [rewrite app_nil_r|]; reflexivity.
  - inversion H as [|? ? (H1 & H2 & H3) Hl]; subst. destruct (IH Hl) as (c & E & R).
    exists (to_bits 12 (op_idc o) ++ to_bits 5 (op_level o) ++
            match op_tier o with Some t => [b2z t] | None => [] end ++ c). split; intros.
    + cbn [enc_ops]. wr. wr. destruct (op_tier o) as [t|].
      * destruct (Z.ltb_spec 7 (op_level o)); [|exfalso; destruct H3 as [_ H3]; specialize (H3 ltac:(discriminate)); lia].
        cbn [bind]. rewrite E, pbit_app. rewrite <- !app_assoc. reflexivity.
      * destruct (Z.ltb_spec 7 (op_level o)); [exfalso; destruct H3 as [H3 _]; specialize (H3 ltac:(lia)); congruence|].
        cbn [bind]. rewrite E. rewrite <- !app_assoc. reflexivity.
    + cbn [length rd_ops map]. asm. rewrite rd_ok by (cbn; lia). cbn [obind]. rewrite rd_ok by (cbn; lia). cbn [obind].
      unfold op_view at 1. destruct (op_tier o) as [t|].
      * destruct (Z.ltb_spec 7 (op_level o)); [|exfalso; destruct H3 as [_ H3]; specialize (H3 ltac:(discriminate)); lia].
        cbn [app]. rewrite rd1_ok. cbn [obind]. rewrite R. reflexivity.
      * destruct (Z.ltb_spec 7 (op_level o)); [exfalso; destruct H3 as [H3 _]; specialize (H3 ltac:(lia)); congruence|].
        cbn [app obind]. rewrite R. reflexivity.
Qed.

Lemma seq_frame_id_ok : forall e h, e_reduced e = false ->
  match sh_frame_id h with Some (d, a) => 2 <= d <= 17 /\ 1 <= a <= 8 | None => True end -> exists code,
  (forall out, enc_frame_id out e h = Ok (out ++ code)) /\
  forall r, (LET (fp, q) := rd1 (code ++ r) IN
             if fp : bool then LET (d, q) := rd 4 q IN LET (a, q) := rd 3 q IN Some (Some (d + 2, a + 1), q)
             else Some (None, q)) = Some (sh_frame_id h, r).
Proof.
  intros e h He H. unfold enc_frame_id. rewrite He. destruct (sh_frame_id h) as [[d a]|].
  - exists ([1] ++ to_bits 4 (d - 2) ++ to_bits 3 (a - 1)). cbn [is_some bind]. split; intros.
    + rewrite chk_u8_ok by lia. cbn [bind]. wr. rewrite chk_u8_ok by lia. cbn [bind]. wr. rewrite pbit_app.
      rewrite <- !app_assoc. reflexivity.
    + rewrite <- !app_assoc. cbn [app]. change 1 with (b2z true) at 1. rdt. replace (d - 2 + 2) with d by lia. replace (a - 1 + 1) with a by lia. reflexivity.
  - exists [0]. split; intros; [reflexivity|]. cbn [app]. change 0 with (b2z false). rewrite rd1_ok. reflexivity.
Qed.

Lemma as_u8_bit : forall z, z = 0 \/ z = 1 -> as_u8 z = z.
Proof. intros z [->| ->]; reflexivity. Qed.
Lemma rd_bit : forall z r, z = 0 \/ z = 1 -> rd 1 (z :: r) = Some (z, r).
Proof. intros z r [->| ->]; unfold rd; cbn [length]; reflexivity. Qed.

Lemma seq_tools_ok : forall e h, e_reduced e = false -> tools_ok e h -> exists code t,
  (forall out, enc_tools out e h = Ok (out ++ code, t)) /\
  (forall r, rd_tools (code ++ b2z (e_superres e) :: b2z (e_cdef e) :: b2z (e_restoration e) :: r)
             = Some (tools_view e h, r)) /\
  (let sct := if sh_choose_sct h then 2 else e_force_sct e in
   t = mkTools (sh_interintra h) (sh_masked h) (e_warped e) (sh_dual h) (e_order_hint e) (e_order_hint e && sh_jnt h)
        (e_order_hint e && e_ref_mvs e) sct (if 0 <? sct then (if sh_choose_imv h then 2 else e_force_imv e) else 2)
        (if e_order_hint e then e_order_hint_bits e else 0)).
Proof.
  intros e h He (Hs & Hi & Ho). unfold enc_tools. rewrite He.
  set (sct := if sh_choose_sct h then 2 else e_force_sct e).
  set (imv := if 0 <? sct then (if sh_choose_imv h then 2 else e_force_imv e) else 2).
  set (oh := e_order_hint e) in *.
  exists ([b2z (e_sb128 e); b2z (sh_filter_intra h); b2z (sh_intra_edge h); b2z (sh_interintra h); b2z (sh_masked h);
           b2z (e_warped e); b2z (sh_dual h); b2z oh] ++
          (if oh then [b2z (sh_jnt h); b2z (e_ref_mvs e)] else []) ++
          [b2z (sh_choose_sct h)] ++ (if sh_choose_sct h then [] else [e_force_sct e]) ++
          (if 0 <? sct then [b2z (sh_choose_imv h)] ++ (if sh_choose_imv h then [] else [e_force_imv e]) else []) ++
          (if oh then to_bits 3 (e_order_hint_bits e - 1) else [])),
         (mkTools (sh_interintra h) (sh_masked h) (e_warped e) (sh_dual h) oh (oh && sh_jnt h) (oh && e_ref_mvs e)
           sct imv (if oh then e_order_hint_bits e else 0)).
  split; [intros|split; [intros|reflexivity]].
  - rewrite !pbit_app.
    assert (S : forall o, (if sh_choose_sct h then (o, 2) else (push o (as_u8 (e_force_sct e)), e_force_sct e))
                = (o ++ (if sh_choose_sct h then [] else [e_force_sct e]), sct)).
    { intros. unfold sct. destruct (sh_choose_sct h); [rewrite app_nil_r; reflexivity|].
      destruct Hs as [?|Hs]; [discriminate|]. rewrite as_u8_bit by assumption. reflexivity. }
    assert (I : forall o, (if 0 <? sct then
        let out := pbit o (sh_choose_imv h) in
        if sh_choose_imv h then (out, 2) else (push out (as_u8 (e_force_imv e)), e_force_imv e)
      else (o, 2)) = (o ++ (if 0 <? sct then [b2z (sh_choose_imv h)] ++ (if sh_choose_imv h then [] else [e_force_imv e]) else []), imv)).
    { intros. unfold imv. destruct (0 <? sct) eqn:Es; [|rewrite app_nil_r; reflexivity]. cbv zeta. rewrite pbit_app.
      destruct (sh_choose_imv h); [reflexivity|]. destruct Hi as [?|[[Hi1 Hi2]|Hi]]; [discriminate| |].
      { exfalso. unfold sct in Es. rewrite Hi1, Hi2 in Es. discriminate. }
      rewrite as_u8_bit by assumption. unfold push. rewrite <- app_assoc. reflexivity. }
    destruct oh eqn:Eo; cbv zeta.
    + rewrite S, I. specialize (Ho eq_refl). rewrite chk_u64_ok by lia. cbn [bind]. rewrite as_u32_id by lia. wr.
      rewrite !pbit_app. rewrite <- !app_assoc. cbn [app andb]. reflexivity.
    + rewrite S, I. cbn [bind]. rewrite !pbit_app. rewrite <- !app_assoc, !app_nil_r. cbn [app andb]. reflexivity.
  - unfold rd_tools. rewrite <- !app_assoc. cbn [app]. do 8 (rewrite rd1_ok; cbn [obind]).
    unfold tools_view. fold oh. fold sct. fold imv.
    assert (S : forall q, (if sh_choose_sct h then Some (2, q) else rd 1 q) =
       (if sh_choose_sct h then Some (sct, q) else rd 1 q)) by (intros; unfold sct; destruct (sh_choose_sct h); reflexivity).
    assert (S2 : forall q, (if sh_choose_sct h then Some (2, (if sh_choose_sct h then [] else [e_force_sct e]) ++ q)
       else rd 1 ((if sh_choose_sct h then [] else [e_force_sct e]) ++ q)) = Some (sct, q)).
    { intros. unfold sct. destruct (sh_choose_sct h); [reflexivity|]. cbn [app]. destruct Hs as [?|Hs]; [discriminate|].
      apply rd_bit. assumption. }
    assert (I2 : forall q, (if 0 <? sct
       then LET (ci, q) := rd1 ((if 0 <? sct then b2z (sh_choose_imv h) :: (if sh_choose_imv h then [] else [e_force_imv e]) else []) ++ q) IN
            if ci : bool then Some (2, q) else rd 1 q
       else Some (2, (if 0 <? sct then b2z (sh_choose_imv h) :: (if sh_choose_imv h then [] else [e_force_imv e]) else []) ++ q))
       = Some (imv, q)).
    { intros. unfold imv. destruct (0 <? sct) eqn:Es; [|reflexivity]. cbn [app]. rewrite rd1_ok. cbn [obind].
      destruct (sh_choose_imv h); [reflexivity|]. cbn [app]. destruct Hi as [?|[[Hi1 Hi2]|Hi]]; [discriminate| |].
      { exfalso. unfold sct in Es. rewrite Hi1, Hi2 in Es. discriminate. }
      apply rd_bit. assumption. }
    destruct oh eqn:Eo; cbn [app andb].
    + do 2 (rewrite rd1_ok; cbn [obind]). rewrite rd1_ok. cbn [obind]. rewrite S2. cbn [obind]. rewrite I2. cbn [obind].
      specialize (Ho eq_refl). rewrite rd_ok by (cbn; lia). cbn [obind]. do 3 (rewrite rd1_ok; cbn [obind]). cbn [fst snd].
      do 3 f_equal. lia.
    + cbn [obind]. rewrite rd1_ok. cbn [obind]. rewrite S2. cbn [obind]. rewrite I2. cbn [obind app].
      do 3 (rewrite rd1_ok; cbn [obind]). reflexivity.
Qed.

Ltac colour_read Es :=
  change (Z.to_nat 8) with 8%nat; change (Z.to_nat 2) with 2%nat;
  repeat (first [rewrite rd1_ok | rewrite rd_ok by (cbn; lia)];
          cbn [obind andb Z.eqb Pos.eqb app fst snd is_some]; rewrite ?Es; rewrite <- ?app_assoc; cbn [app obind]).

(** The encoder state after the colour part. *)
Definition upd_color (e : enc) (c : colour) : enc :=
  mkEnc (e_reduced e) (e_sb128 e) (e_warped e) (e_order_hint e) (e_ref_mvs e) (e_force_sct e) (e_force_imv e)
    (e_order_hint_bits e) (e_superres e) (e_cdef e) (e_restoration e)
    (c_high c) (c_twelve c) (c_mono c) (Some (c_cd c)) (c_range c) (c_ssx c) (c_ssy c) (c_csp c) (c_sep c)
    (c_depth c) (c_planes c) (e_timing e) (e_opm e) (e_grain e).

Lemma seq_color_ok : forall e profile, 0 <= profile <= 2 -> (profile = 1 \/ e_mono e = false) -> color_ok e -> exists code c,
  (forall out, enc_color out e profile = Ok (out ++ code, c)) /\
  (forall r, rd_color profile (code ++ r) = Some (color_view e profile, r)) /\
  c_mono c = false /\ c_csp c = e_csp e /\ c_cd c = match e_cd e with Some cd => cd | None => (2, 2, 2) end /\
  color_view (upd_color e c) profile = color_view e profile.
Proof.
  intros e profile Hp Hm (Hc & Hcsp). unfold enc_color, rd_color, color_view, upd_color. cbn [e_high e_twelve e_cd e_ssx e_ssy e_range e_csp e_sep_uv].
  assert (Mo : (if profile =? 1 then false else e_mono e) = false).
  { destruct (Z.eqb_spec profile 1); [reflexivity|]. destruct Hm; [contradiction|assumption]. }
  assert (P : profile = 0 \/ profile = 1 \/ profile = 2) by lia.
  destruct (e_cd e) as [[[p t] m]|] eqn:Ecd.
  - unfold cd_eqb. destruct ((p =? 1) && (t =? 13) && (m =? 0)) eqn:Es;
    destruct P as [->|[->| ->]]; destruct (e_high e); destruct (e_twelve e); destruct (e_ssx e); destruct (e_ssy e);
      cbn [Z.eqb Pos.eqb andb orb negb Z.leb Z.compare Pos.compare Pos.compare_cont] in *; rewrite ?Mo;
      eexists; eexists; (split; [|split; [|split; [|split; [|split]]]]; intros;
      [ cbv zeta; cbn [Z.eqb Pos.eqb andb orb negb Z.leb Z.compare Pos.compare Pos.compare_cont];
        rewrite ?pbit_app; wr; wr; wr; rewrite ?Es; rewrite ?pbit_app; cbn [bind andb orb Z.eqb Pos.eqb]; try wr; rewrite ?pbit_app; rewrite <- ?app_assoc;
        cbn [app bind]; reflexivity
      | rewrite <- ?app_assoc; cbn [app];
        colour_read Es; reflexivity
      | reflexivity | reflexivity | reflexivity
      | cbn; rewrite ?Es; reflexivity ]).
  - destruct P as [->|[->| ->]]; destruct (e_high e); destruct (e_twelve e); destruct (e_ssx e); destruct (e_ssy e);
      cbn [Z.eqb Pos.eqb andb orb negb Z.leb Z.compare Pos.compare Pos.compare_cont] in *; rewrite ?Mo;
      eexists; eexists; (split; [|split; [|split; [|split; [|split]]]]; intros;
      [ cbv zeta; cbn [Z.eqb Pos.eqb andb orb negb Z.leb Z.compare Pos.compare Pos.compare_cont is_some];
        rewrite ?pbit_app; cbn [bind cd_eqb andb orb Z.eqb Pos.eqb]; try wr; rewrite ?pbit_app; rewrite <- ?app_assoc;
        cbn [app bind]; reflexivity
      | rewrite <- ?app_assoc; cbn [app];
        colour_read Ecd; reflexivity
      | reflexivity | reflexivity | reflexivity | reflexivity ]).
Qed.
