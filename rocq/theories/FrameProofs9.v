(** Proofs about the frame header as a whole: the headers that are not read back. *)
From Coq Require Import ZArith List Bool Lia ZifyBool ZifyNat.
From Verif Require Import Base BaseProofs TableLemmas UtilModel UtilSpec UtilProofs BitsSpec BitsProofs RangeCoderModel BitCodecModel BitCodecProofs
  SessionModel SeqModel SeqSpec SeqProofs ElementSpec TileModel TileSpec TileProofs FrameParamModel FrameModel FrameSpec FrameBits FrameProofs FrameProofs2 FrameProofs3 FrameProofs4 FrameProofs5 FrameProofs6 FrameProofs7 FrameProofs8.
Import ListNotations.
Open Scope Z_scope.
Ltac Zify.zify_post_hook ::= Z.div_mod_to_equations.
#[local] Opaque to_bits.

(** The frames whose header could be read back as far as each group of parameters by
    itself is concerned: as in [header_ready], but not necessarily lossless. *)
Definition groups_ready (c : ctx) (f : frm) : Prop :=
  c_seen c = false /\ c_reduced c = false /\ c_existing c = false /\
  ((f_type f = 0 /\ c_show c = false) \/ f_type f = 2) /\
  c_override c = false /\ (f_type f = 0 -> 0 < sct_of c f -> coded_w (c_superres c) (frame_dims c f) = f_w f) /\
  ~ (c_refresh c <> 255 /\ f_err f = true /\ c_enable_hint c = true) /\
  tiles_fit c f /\ quant_fits 3 (kept_q 3 (c_sep c) (f_quant f)) (kept_d 3 (c_sep c) (f_quant f) (c_dq c)) /\ g_on (f_seg f) = false /\
  (0 < q_base (f_quant f) -> d_present (f_delta f) = false) /\
  lf_fits (f_lf f) /\ lf_flags (f_lf f) /\ cdef_typed (f_cdef f) /\ cdef_long (f_cdef f) /\ cdef_fits (f_cdef f) /\ 3 <= cd_damping (f_cdef f) /\
  lr_typed (f_lr f) (c_lr c) /\ grain_ready c.
(** Lossless by the current quantizer index, which the encoder looks at, and by the
    base index, which the decoder looks at; not scaled. *)
Definition deltas_zero (c : ctx) (f : frm) : bool :=
  let d := c_dq c in
  (dq_y_dc d =? 0) && (dq_u_dc d =? 0) && (dq_u_ac d =? 0) && (negb (c_sep c && q_diff (f_quant f)) || ((dq_v_dc d =? 0) && (dq_v_ac d =? 0))).
Definition all_lossless (c : ctx) (f : frm) : Prop :=
  c_cur_q c = 0 /\ q_base (f_quant f) = 0 /\ deltas_zero c f = true /\ coded_w (c_superres c) (frame_dims c f) = f_w f.

(** ** Sizes of what is read *)
Lemma rd_times_len A (r : list Z -> option (A * list Z)) m : (forall q v k, r q = Some (v, k) -> length q = (m + length k)%nat) ->
  forall n q l k, rd_times n r q = Some (l, k) -> length l = n /\ length q = (n * m + length k)%nat.
Proof.
  intros R. induction n as [|n IH]; intros q l k H; cbn [rd_times] in H; [injection H as <- <-; split; reflexivity|].
  ob H. ob H. injection H as <- <-. apply R in E. apply IH in E0. destruct E0 as (L & E0). cbn [length]. split; lia.
Qed.
Lemma rd_points_len q l k : rd_points q = Some (l, k) -> length q = (4 + 16 * length l + length k)%nat.
Proof.
  unfold rd_points. intros H. ob H. apply rd_length in E. eapply rd_times_len in H; [|intros q' v' k' X; ob X; ob X; injection X as _ <-; apply rd_length in E0; apply rd_length in E1; instantiate (1 := 16%nat); lia].
  lia.
Qed.
Lemma rd_ar_len n q l k : rd_ar n q = Some (l, k) -> length q = (8 * length l + length k)%nat.
Proof.
  unfold rd_ar. intros H. eapply rd_times_len in H; [|intros q' v' k' X; ob X; injection X as _ <-; apply rd_length in E; instantiate (1 := 8%nat); lia]. lia.
Qed.
Lemma rd_mult_len q m k : rd_mult q = Some (m, k) -> m <> None /\ length q = (25 + length k)%nat.
Proof. unfold rd_mult. intros H. ob H. ob H. ob H. injection H as <- <-. apply rd_length in E, E0, E1. split; [discriminate|lia]. Qed.
Definition params_size (mono ss : bool) (p : av1_grain_params) : nat :=
  (4 + 16 * length (ag_y p) + (if mono then 0 else 1) +
   (if mono || ag_cfl p || (ss && (length (ag_y p) =? 0)%nat) then 0 else 8 + 16 * length (ag_cb p) + 16 * length (ag_cr p)) +
   4 + 8 * length (ag_ar_y p) + 8 * length (ag_ar_cb p) + 8 * length (ag_ar_cr p) + 4 +
   (if is_some (ag_cb_mult p) then 25 else 0) + (if is_some (ag_cr_mult p) then 25 else 0) + 2)%nat.
Lemma rd_if_len A c (r : list Z -> option (A * list Z)) d (size : A -> nat) q v k : (forall q v k, r q = Some (v, k) -> length q = (size v + length k)%nat) -> size d = 0%nat ->
  rd_if c r d q = Some (v, k) -> length q = (size v + length k)%nat.
Proof. intros R D H. destruct c; [apply R in H; exact H|]. injection H as <- <-. rewrite D. reflexivity. Qed.
Lemma params_len seed mono ss q p k : rd_grain_params seed mono ss q = Some (p, k) -> length q = (params_size mono ss p + length k)%nat.
Proof.
  unfold rd_grain_params. intros H. ob H. apply rd_points_len in E.
  ob H. assert (E0' : length l = ((if mono then 0 else 1) + length l0)%nat).
  { destruct mono; cbn [negb rd_if] in E0; [injection E0 as _ <-; reflexivity|]. apply rd1_length in E0. lia. }
  ob H. assert (E1' : length l0 = ((if mono || v0 || (ss && (length v =? 0)%nat) then 0 else 8 + 16 * length v1 + 16 * length l2) + length l1)%nat).
  { destruct (mono || v0 || _); [injection E1 as <- <- <-; reflexivity|]. ob E1. ob E1. injection E1 as <- <- <-. apply rd_points_len in E2. apply rd_points_len in E3. lia. }
  ob H. ob H. ob H. ob H. ob H. ob H. ob H. ob H. ob H. ob H. ob H. injection H as <- <-.
  unfold params_size. cbn [ag_y ag_cfl ag_cb ag_cr ag_ar_y ag_ar_cb ag_ar_cr ag_cb_mult ag_cr_mult].
  apply rd_length in E2, E3. apply rd_length in E7, E8. apply rd1_length in E11, E12.
  apply (rd_if_len _ _ _ _ (fun l => 8 * length l)%nat) in E4; [|intros; apply rd_ar_len in H; exact H|reflexivity].
  apply (rd_if_len _ _ _ _ (fun l => 8 * length l)%nat) in E5; [|intros; apply rd_ar_len in H; exact H|reflexivity].
  apply (rd_if_len _ _ _ _ (fun l => 8 * length l)%nat) in E6; [|intros; apply rd_ar_len in H; exact H|reflexivity].
  apply (rd_if_len _ _ _ _ (fun m : option (Z * Z * Z) => if is_some m then 25 else 0)%nat) in E9; [|intros ? m ? H; apply rd_mult_len in H; destruct m; [cbn; tauto|destruct H; congruence]|reflexivity].
  apply (rd_if_len _ _ _ _ (fun m : option (Z * Z * Z) => if is_some m then 25 else 0)%nat) in E10; [|intros ? m ? H; apply rd_mult_len in H; destruct m; [cbn; tauto|destruct H; congruence]|reflexivity].
  destruct mono; lia.
Qed.
Definition grain_size (ss : bool) (g : av1_grain) : nat :=
  match g with NoGrain => 1 | GrainOf _ _ => 0 | Grain p => 17 + params_size false ss p end.
Lemma rd_grain_len ss q g k : rd_grain true true false false ss q = Some (g, k) -> length q = (grain_size ss g + length k)%nat.
Proof.
  unfold rd_grain. cbn [negb orb]. intros H. ob H. apply rd1_length in E. destruct v; cbn [negb] in H; [|injection H as <- <-; cbn; lia].
  ob H. apply rd_length in E0. ob H. injection E1 as <- <-. cbn [negb] in H. ob H. injection H as <- <-. apply params_len in E1. cbn [grain_size]. lia.
Qed.
Lemma rd_lr_len sb128 ss q t z k : rd_lr 3 sb128 ss q = Some (t, z, k) -> (6 + length k <= length q <= 9 + length k)%nat.
Proof.
  unfold rd_lr. intros H. ob H. eapply rd_times_len in E; [|intros q' v' k' X; apply rd_length in X; instantiate (1 := 2%nat); exact X]. change (Z.to_nat 3) with 3%nat in E.
  destruct (existsb _ _); [|injection H as _ _ <-; lia]. ob H. assert (L1 : (1 + length l0 <= length l <= 2 + length l0)%nat).
  { destruct sb128; [ob E0; injection E0 as _ <-; apply rd_length in E1; lia|]. ob E0. ob E0. injection E0 as _ <-. apply rd_length in E1. unfold rd_if in E2. destruct (v1 =? 1); [apply rd_length in E2|injection E2 as _ <-]; lia. }
  ob H. injection H as _ _ <-. unfold rd_if in E1. destruct (ss && _); [apply rd_length in E1|injection E1 as _ <-]; lia.
Qed.
Lemma rd_lf_len q v k : rd_lf 3 q = Some (v, k) -> (16 + length k <= length q)%nat.
Proof. intros H. apply rd_lf_sized in H. unfold lf_size in H. lia. Qed.

(** ** The end of the header: from the loop filter on *)
Definition enc_tail (out : list Z) (coded all : bool) (c : ctx) (f : frm) : res (list Z) :=
  '(out, _) <- enc_lf out 3 coded (f_lf f) ;;
  '(out, _) <- enc_cdef out 3 coded (f_cdef f) ;;
  '(out, _, _) <- enc_lr out 3 (all || c_restoration c) (c_sb128 c) (c_ssx c && c_ssy c) (f_lr f) (c_lr c) ;;
  let out := if coded then out else pbit out (f_tx_select f) in
  '(out, _) <- enc_grain (pbit out (f_reduced_tx f)) (c_grain c) (c_ref_grain c) (c_show c) (negb (c_show c) && c_showable c) false false (c_ssx c && c_ssy c) ;;
  Ok out.
Definition rd_end (s : av1_seq) (lossless same : bool) (q : list Z) :
  option (option av1_lf * option (Z * list (Z * Z * option (Z * Z))) * option (list Z * option (Z * Z * Z)) * option bool * bool * av1_grain * list Z) :=
  LET (lf, q) := rd_if (negb (lossless || false)) (fun q => LET (v, q) := rd_lf 3 q IN Some (Some v, q)) None q IN
  LET (cdef, q) := rd_if (negb (lossless || false || negb (s_cdef s))) (fun q => LET (d, l, q) := rd_cdef 3 q IN Some (Some (d, l), q)) None q IN
  LET (lr, q) := rd_if (negb ((lossless && same) || false || negb (s_restoration s)))
    (fun q => LET (t, z, q) := rd_lr 3 (s_sb128 s) (s_ssx s && s_ssy s) q IN Some (Some (t, z), q)) None q IN
  LET (tx, q) := rd_if (negb lossless) (fun q => LET (b, q) := rd1 q IN Some (Some b, q)) None q IN
  LET (reduced_tx, q) := rd1 q IN
  LET (grain, q) := rd_grain (s_grain s) true false false (s_ssx s && s_ssy s) q IN
  Some (lf, cdef, lr, tx, reduced_tx, grain, q).

Lemma lr_written c f out all r : lr_typed (f_lr f) (c_lr c) -> enc_lr out 3 all (c_sb128 c) (c_ssx c && c_ssy c) (f_lr f) (c_lr c) = Ok r -> exists code p l, r = (out ++ code, p, l) /\
  (all = true -> code = []) /\ (all = false -> (6 <= length code <= 9)%nat).
Proof.
  intros T H. destruct all.
  - cbn in H. injection H as <-. exists [], (f_lr f). eexists. rewrite app_nil_r. split; [reflexivity|]. split; [reflexivity|discriminate].
  - pose proof (enc_lr_inv _ _ _ _ _ _ T H) as O. destruct (enc_lr_ok out _ _ _ _ T O) as (p & l & E & _). rewrite E in H. injection H as <-.
    do 3 eexists. split; [reflexivity|]. split; [discriminate|]. intros _. unfold lr_code, lr_shift_code. rewrite !app_length, !to_bits_length.
    destruct (lr_type (f_lr f) =? 0); [cbn [length]; lia|]. rewrite app_length. destruct (c_sb128 c); [|destruct (1 <=? _)]; destruct (c_ssx c && c_ssy c); cbn [length]; lia.
Qed.
Lemma cdef_code_len p : cdef_typed p -> cdef_fits p -> (16 <= length (cdef_code p))%nat.
Proof.
  intros (_ & B & _) (_ & B3 & _). unfold cdef_code. rewrite !app_length, !to_bits_length. unfold cdef_count. unfold u8 in B.
  pose proof (pow2_pos (cd_bits p)). replace (Z.to_nat (2 ^ cd_bits p)) with (Datatypes.S (Z.to_nat (2 ^ cd_bits p) - 1)) by lia.
  cbn [seq map concat]. unfold str_code at 1. rewrite !app_length, !to_bits_length. lia.
Qed.

Lemma rd_cdef_len q d l k : rd_cdef 3 q = Some (d, l, k) -> (length k <= length q)%nat.
Proof.
  unfold rd_cdef. intros H. ob H. ob H. ob H. injection H as _ _ <-. apply rd_length in E, E0.
  assert (SEC : forall q v k, rd_sec q = Some (v, k) -> length q = (2 + length k)%nat) by (intros ? ? ? X; unfold rd_sec in X; ob X; injection X as _ <-; apply rd_length in E2; exact E2).
  eapply rd_times_len in E1; [lia|]. intros q' v' k' X. ob X. ob X. ob X. injection X as _ <-. apply rd_length in E2. apply SEC in E3.
  unfold rd_if in E4. cbn [Z.ltb Z.compare Pos.compare Pos.compare_cont] in E4. ob E4. ob E4. injection E4 as _ <-. apply rd_length in E5. apply SEC in E6. instantiate (1 := 12%nat). lia.
Qed.

(** Bits with the right film grain parameters are read to the end only if they are the
    end of an unscaled lossless frame. *)
Lemma tail_never s c f head bits coded lossless same : header_typed c f -> s_restoration s = c_restoration c -> s_sb128 s = c_sb128 c -> s_grain s = is_some (c_grain c) ->
  c_mono c = false -> s_ssx s = c_ssx c -> s_ssy s = c_ssy c -> lf_fits (f_lf f) -> lf_flags (f_lf f) -> cdef_typed (f_cdef f) -> cdef_long (f_cdef f) -> cdef_fits (f_cdef f) ->
  3 <= cd_damping (f_cdef f) -> lr_typed (f_lr f) (c_lr c) ->
  grain_ready c -> enc_tail head coded (coded && same) c f = Ok bits -> ~ (coded = true /\ lossless = true /\ same = true) ->
  exists tail, bits = head ++ tail /\ forall lf cdef lr tx red k, rd_end s lossless same (tail ++ k) <> Some (lf, cdef, lr, tx, red, header_grain c, k).
Proof.
  intros T KR K128 KG CM KX KY LF LFF CT CL CF DMP LT GR H N. unfold enc_tail in H.
  assert (TL : lf_typed (f_lf f)) by (unfold header_typed in T; tauto).
  assert (CDN : cd_y_pri (f_cdef f) <> [] /\ cd_y_sec (f_cdef f) <> [] /\ cd_uv_pri (f_cdef f) <> [] /\ cd_uv_sec (f_cdef f) <> []) by (unfold header_typed in T; tauto). clear T.
  assert (WL : exists p, enc_lf head 3 coded (f_lf f) = Ok (head ++ if_code (negb coded) (lf_code (f_lf f)), p)).
  { destruct coded; [destruct (lf_off head 3 (f_lf f) TL) as (p & E & _); exists p; rewrite E; cbn [negb if_code]; rewrite app_nil_r; reflexivity|].
    eexists. rewrite enc_lf_ok by (assumption || lia). reflexivity. }
  destruct WL as (p1 & WL). rewrite WL in H. cbn [bind] in H. clear WL.
  assert (WC : forall o, exists p, enc_cdef o 3 coded (f_cdef f) = Ok (o ++ if_code (negb coded) (cdef_code (f_cdef f)), p)).
  { intros o. destruct coded; [destruct (proj1 (cdef_off o 3 (f_cdef f)) CDN) as (p & E & _); exists p; rewrite E; cbn [negb if_code]; rewrite app_nil_r; reflexivity|].
    eexists. rewrite enc_cdef_ok; [reflexivity|exact CT|lia|exact DMP|destruct CF as (_ & ? & _); lia|exact CL]. }
  match type of H with context [enc_cdef ?o _ _ _] => destruct (WC o) as (p2 & E2); rewrite E2 in H; clear E2 end. cbn [bind] in H. clear WC.
  apply bind_inv in H. destruct H as (r & E & H). apply lr_written in E; [|exact LT]. destruct E as (lrc & p3 & l3 & -> & OFF & ON).
  destruct (grain_ok c (mkTop 0 true (c_show c) (negb (c_show c) && c_showable c) false) GR CM) as (gc & fg & BG & WG & RG).
  { cbn [t_show t_showable]. destruct GR as (S & _). destruct (c_show c); [reflexivity|exact S]. }
  cbn [t_show t_showable] in WG. rewrite CM in WG. rewrite WG in H. clear WG. cbn [bind] in H. injection H as <-. rewrite pbit_app.
  exists (if_code (negb coded) (lf_code (f_lf f)) ++ if_code (negb coded) (cdef_code (f_cdef f)) ++ lrc ++ if_code (negb coded) [b2z (f_tx_select f)] ++ [b2z (f_reduced_tx f)] ++ gc).
  split; [destruct coded; cbn [negb if_code]; rewrite ?pbit_app, <- ?app_assoc; cbn [app]; rewrite ?app_nil_r, <- ?app_assoc; reflexivity|].
  intros lf cdef lr tx red k R.
  assert (GG : c_grain c <> None) by (destruct GR as (_ & GR); destruct (c_grain c); [discriminate|contradiction]).
  assert (GL : forall q k, rd_grain (s_grain s) true false false (s_ssx s && s_ssy s) q = Some (header_grain c, k) -> length q = (length gc + length k)%nat).
  { intros q k' X. rewrite KG, KX, KY in X. specialize (RG []). rewrite app_nil_r in RG. destruct (c_grain c); [|congruence]. cbn [is_some] in *.
    apply rd_grain_len in X, RG. cbn [length] in RG. lia. }
  pose proof (cdef_code_len _ CT CF) as LC.
  assert (LL : (16 <= length (lf_code (f_lf f)))%nat).
  { pose proof (proj2 (lf_code_read (f_lf f) [] TL) (conj LF LFF)) as X. apply rd_lf_len in X. rewrite app_nil_r in X. cbn [length] in X. lia. }
  unfold rd_end in R. rewrite KR in R. clear RG BG.
  assert (TAIL : forall (lf0 : option av1_lf) (cdef0 : option (Z * list (Z * Z * option (Z * Z)))) q rlr rtx sb ss, (LET (lr, q) := rd_if rlr (fun q => LET (t, z, q) := rd_lr 3 sb ss q IN Some (Some (t, z), q)) None q IN
    LET (tx, q) := rd_if rtx (fun q => LET (b, q) := rd1 q IN Some (Some b, q)) None q IN
    LET (reduced_tx, q) := rd1 q IN LET (grain, q) := rd_grain (s_grain s) true false false (s_ssx s && s_ssy s) q IN Some (lf0, cdef0, lr, tx, reduced_tx, grain, q)) = Some (lf, cdef, lr, tx, red, header_grain c, k) ->
    ((if rlr then 6 else 0) + (if rtx then 1 else 0) + 1 + length gc + length k <= length q <= (if rlr then 9 else 0) + (if rtx then 1 else 0) + 1 + length gc + length k)%nat).
  { intros lf0 cdef0 q rlr rtx sb ss X. ob X. ob X. ob X. ob X. injection X as _ _ _ _ _ -> ->. apply rd1_length in E1. apply GL in E2.
    assert (length l = (if rtx then 1 else 0) + length l0)%nat by (unfold rd_if in E0; destruct rtx; [ob E0; injection E0 as _ <-; apply rd1_length in E3|injection E0 as _ <-]; lia).
    unfold rd_if in E. destruct rlr; [|injection E as _ <-; lia]. ob E. injection E as _ <-. apply rd_lr_len in E3. lia. }
  assert (LX : (length lrc <= 9)%nat).
  { destruct (coded && same || c_restoration c); [rewrite (OFF eq_refl); cbn [length]; lia|pose proof (ON eq_refl); lia]. }
  rewrite <- !app_assoc in R. destruct coded, lossless; cbn [negb andb orb if_code] in R, OFF, ON.
  - destruct same; [apply N; tauto|]. cbn [orb rd_if obind] in R, OFF, ON. cbn [app] in R. specialize (TAIL None None _ (negb (negb (c_restoration c))) false _ _ R).
    rewrite negb_involutive in TAIL. rewrite ?app_length in TAIL. cbn [length] in TAIL. rewrite ?app_length in TAIL. clear - TAIL OFF ON.
    destruct (c_restoration c); [rewrite (OFF eq_refl) in TAIL; cbn [length] in TAIL; lia|specialize (ON eq_refl); lia].
  - clear OFF ON N. cbn [app rd_if] in R.
    match type of R with context [rd_lf 3 ?q] => destruct (rd_lf 3 q) as [[vl l1]|] eqn:E0; [|discriminate R]; cbn [obind] in R end.
    apply rd_lf_len in E0. rewrite ?app_length in E0. cbn [length] in E0. rewrite ?app_length in E0.
    match type of R with obind ?e _ = _ => destruct e as [[cd l2]|] eqn:E; [|discriminate R]; cbn [obind] in R end. assert (length l2 <= length l1)%nat.
    { clear - E. unfold rd_if in E. destruct (negb _); [|injection E as _ <-; lia]. ob E. injection E as _ <-. apply rd_cdef_len in E0. lia. }
    specialize (TAIL _ _ _ _ true _ _ R). destruct (negb _) in TAIL; lia.
  - cbn [rd_if obind] in R. specialize (TAIL None None _ _ false _ _ R). rewrite ?app_length in TAIL. cbn [length] in TAIL. rewrite ?app_length in TAIL.
    destruct (negb _) in TAIL; lia.
  - cbn [rd_if obind] in R. rewrite (proj2 (lf_code_read _ _ TL) (conj LF LFF)) in R. cbn [obind] in R. destruct (s_cdef s); cbn [negb rd_if obind] in R.
    + rewrite (proj2 (cdef_code_read _ _ CT DMP) CF) in R. destruct (cdef_of (f_cdef f)) as [cd1 cd2]. cbn [obind] in R. specialize (TAIL _ _ _ (negb (negb (c_restoration c))) true _ _ R).
      rewrite negb_involutive in TAIL. rewrite ?app_length in TAIL. cbn [length] in TAIL. rewrite ?app_length in TAIL. clear - TAIL OFF ON.
      destruct (c_restoration c); [rewrite (OFF eq_refl) in TAIL; cbn [length] in TAIL; lia|specialize (ON eq_refl); lia].
    + specialize (TAIL _ _ _ _ true _ _ R). rewrite ?app_length in TAIL. cbn [length] in TAIL. rewrite ?app_length in TAIL. destruct (negb _) in TAIL; lia.
Qed.

Lemma sizes_scaled s c f out : c_superres c = s_superres s -> size_typed (frame_dims c f) -> (scaled (c_superres c) (frame_dims c f) = true -> 9 <= c_denom c <= 16) ->
  exists code d' z, enc_sizes out false (c_superres c) (frame_dims c f) = Ok (out ++ code, d') /\
  m_w d' = coded_w (c_superres c) (frame_dims c f) /\ m_h d' = f_h f /\ m_up d' = f_w f /\ az_w z = coded_w (c_superres c) (frame_dims c f) /\ az_h z = f_h f /\ az_up z = f_w f /\
  forall nw nh k, rd_sizes false (s_superres s) nw nh (f_w f, f_h f) (code ++ k) = Some (z, k).
Proof.
  intros <- T D. unfold enc_sizes, enc_frame_size. cbn [bind]. rewrite enc_superres_render by assumption. do 3 eexists. split; [reflexivity|].
  split; [reflexivity|]. split; [reflexivity|]. split; [reflexivity|].
  assert (R : forall nw nh k, rd_sizes false (c_superres c) nw nh (f_w f, f_h f) ((superres_code (c_superres c) (frame_dims c f) ++ render_code (c_superres c) (frame_dims c f)) ++ k) =
    Some (mkAZ (coded_w (c_superres c) (frame_dims c f)) (f_h f) (f_w f) (denom_of (c_superres c) (frame_dims c f)) (if same_size (c_superres c) (frame_dims c f) then f_w f else f_rw f) (f_rh f), k)).
  { intros nw nh k. rewrite rd_sizes_rest. cbn [obind]. rewrite <- app_assoc. change (f_h f) with (m_h (frame_dims c f)) at 1. rewrite rd_rest_ok by assumption. reflexivity. }
  split; [|split; [|split; [|exact R]]]; reflexivity.
Qed.
Lemma deltas_kept c f : dq_zero (kept_d 3 (c_sep c) (f_quant f) (c_dq c)) = deltas_zero c f.
Proof.
  unfold dq_zero, kept_d, deltas_zero. change (1 <? 3) with true. cbv iota. destruct (c_sep c && q_diff (f_quant f)); cbn [dq_y_dc dq_u_dc dq_u_ac dq_v_dc dq_v_ac negb orb]; lia.
Qed.
Lemma quant_lossy c f out : quant_typed (f_quant f) (c_dq c) -> quant_fits 3 (kept_q 3 (c_sep c) (f_quant f)) (kept_d 3 (c_sep c) (f_quant f) (c_dq c)) -> exists code q' d' v,
  enc_quant out 3 (c_sep c) (f_quant f) (c_dq c) = Ok (out ++ code, q', d') /\ q_base q' = q_base (f_quant f) /\ dq_zero d' = deltas_zero c f /\
  (forall k, rd_quant 3 (c_sep c) (code ++ k) = Some (v, k)) /\ aq_base v = q_base (f_quant f) /\
  forallb (Z.eqb 0) [aq_y_dc v; aq_u_dc v; aq_u_ac v; aq_v_dc v; aq_v_ac v] = deltas_zero c f.
Proof.
  intros T F. destruct (quant_decoded 3 (c_sep c) (f_quant f) (c_dq c) T) as (bits & q' & d' & E & D). rewrite enc_quant_ok in E by exact T. injection E as <- <- <-. cbn [app] in D.
  apply D in F. destruct F as (_ & F). rewrite enc_quant_ok by exact T. do 4 eexists. split; [reflexivity|]. split; [reflexivity|]. split; [apply deltas_kept|]. split; [exact F|].
  split; [reflexivity|]. unfold quant_of. cbn [aq_y_dc aq_u_dc aq_u_ac aq_v_dc aq_v_ac]. rewrite <- deltas_kept. symmetry. apply dq_zero_list.
Qed.
Lemma lossless_coded cur q d s arr lv present : u8 (q_base q) -> g_on s = false -> g_feat s = no_features -> length arr = 8%nat -> length lv = 3%nat ->
  (forall row, In row lv -> length row = 8%nat) -> exists arr' lv', enc_lossless (upto MAX_SEGMENTS) cur present q d s true arr lv = Ok ((cur =? 0) && dq_zero d, arr', lv').
Proof.
  intros B G F A L R. destruct (lossless_exact cur present q d s arr lv) as (coded & arr' & lv' & E & C & AR & _); try assumption.
  - rewrite F. apply no_features_small.
  - exists arr', lv'. rewrite E. do 3 f_equal. rewrite C, AR. unfold seg_lossless, alt_q. rewrite G. cbn [seq map forallb id]. unfold id. destruct ((cur =? 0) && dq_zero d); reflexivity.
Qed.
Lemma delta_none (f : frm) out : (0 < q_base (f_quant f) -> d_present (f_delta f) = false) -> exists code p', enc_delta out (q_base (f_quant f)) false (f_delta f) = Ok (out ++ code, p') /\
  forall k, rd_delta (q_base (f_quant f)) false (code ++ k) = Some (None, k).
Proof.
  intros H. destruct (enc_delta_ok out (q_base (f_quant f)) false (f_delta f)) as (p' & E & _). do 2 eexists. split; [exact E|].
  destruct (delta_absent (q_base (f_quant f)) false (f_delta f)) as (bits & p2 & E2 & _ & _ & D); [destruct (Z.lt_ge_cases 0 (q_base (f_quant f))); [right; auto|left; lia]|].
  destruct (enc_delta_ok [] (q_base (f_quant f)) false (f_delta f)) as (p3 & E3 & _). rewrite E3 in E2. injection E2 as <- <-. exact D.
Qed.

Lemma header_lossy_never s c f bits c' f' h : header_known s c f -> s_restoration s = c_restoration c -> header_typed c f -> groups_ready c f -> ~ all_lossless c f ->
  encode_frame_header [] c f = Ok (bits, c', f') -> h_grain h = header_grain c -> never_decodes bits (rd_header s) (Intra h).
Proof.
  intros (KR & KP & KI & KO & KT & KS & KSC & KIM & KH & KB & KM & KSR & K128 & KG & KMO & CM & CP & KX & KY & KSEP) KRE HT
    (SEEN & RED & EX & TYP & OV & CW & ERR & TF & QF & GOFF & DF & LF & LFF & CT & CL & CF & DMP & LT & GR) NL ENC HG.
  pose proof HT as (TS & TI & TID & TB & TH & TRF & TT & TSI & TOP & L1 & L2 & L3 & TD & TDN & TQ & TLF & CD1 & CD2 & CD3 & CD4 & LL & LQ & LQ8 & LG & LGM).
  revert ENC. unfold encode_frame_header. rewrite SEEN, RED, EX. cbn [negb andb orb].
  destruct (ids_written s c KI TID L3) as (l & prev & valid & EL & LV & WI). rewrite EL. cbn [bind]. rewrite pbit_app. cbn [app].
  rewrite (top_written _ s c f KP RED TYP). cbn [bind t_intra t_type t_show t_showable t_err].
  assert (RR : reset_refs c (mkTop (f_type f) true (c_show c) (negb (c_show c) && c_showable c) (f_err f)) = Ok (c_ref_valid c, c_ref_hint c, c_order_hints c)).
  { unfold reset_refs. cbn [t_type t_show]. replace ((f_type f =? KEY_FRAME) && c_show c) with false by (unfold KEY_FRAME; destruct (c_show c); lia). reflexivity. }
  rewrite RR. cbn [bind]. match goal with |- context [enc_tools2 ?o c f true] => destruct (tools_written o c f TS TI) as (imv & ->) end.
  rewrite WI. cbn [bind]. unfold enc_override. cbn [t_type]. replace (f_type f =? SWITCH_FRAME) with false by (unfold SWITCH_FRAME; lia). rewrite RED, OV. rewrite pbit_app.
  assert (as_u8 (c_obu_bits c) = c_obu_bits c) as -> by (unfold as_u8; apply Z.mod_small; lia). rewrite push_bits_with_size_ok by lia. cbn [bind].
  unfold enc_primary. cbn [t_intra orb bind]. rewrite (removal_written _ s c f KP TT TSI TOP). cbn [bind].
  unfold enc_refresh. cbn [t_type t_show]. replace ((f_type f =? SWITCH_FRAME) || (f_type f =? KEY_FRAME) && c_show c) with false by (unfold KEY_FRAME, SWITCH_FRAME; destruct (c_show c); lia).
  rewrite push_bits_with_size_ok by lia. cbn [bind].
  destruct (check_ok c f (mkTop (f_type f) true (c_show c) (negb (c_show c) && c_showable c) (f_err f)) (c_refresh c) (c_ref_hint c) valid L1 L2 LV) as (valid2 & ->). cbn [bind].
  set (cw := coded_w (c_superres c) (frame_dims c f)) in *.
  match goal with |- context [enc_mid ?o _ _ _ _ _ _ _ _] => destruct (sizes_scaled s c f o (eq_sym KSR) TD TDN) as (sz & d' & z & WS & DW & DH & DU & ZW & ZH & ZU & RS) end. fold cw in DW, ZW.
  match goal with |- context [enc_mid ?o ?a1 ?a2 ?a3 ?a4 ?a5 c f ?t] => assert (WM : enc_mid o a1 a2 a3 a4 a5 c f t =
    Ok (o ++ sz ++ if_code ((0 <? sct_of c f) && (f_w f =? cw)) [0], mkMid d' (f_short f) (c_expected c) (f_interp f))) end.
  { unfold enc_mid. cbn [t_type]. fold (frame_dims c f). rewrite WS. cbn [bind]. rewrite DW, DU.
    destruct TYP as [(TY & _) | ->].
    - specialize (CW TY). rewrite TY. cbn [Z.eqb KEY_FRAME]. unfold KEY_FRAME. cbn [Z.eqb]. destruct (Z.ltb_spec 0 (sct_of c f)); cbn [andb if_code]; [specialize (CW ltac:(lia)); rewrite CW, Z.eqb_refl|];
        cbn [if_code]; rewrite ?pbit_app, <- ?app_assoc, ?app_nil_r; reflexivity.
    - unfold KEY_FRAME, INTRA_ONLY_FRAME; cbn [Z.eqb Pos.eqb].
      destruct ((0 <? sct_of c f) && (f_w f =? cw)); cbn [if_code]; rewrite ?pbit_app, <- ?app_assoc, ?app_nil_r; reflexivity. }
  rewrite WM. cbn [bind]. clear WM WS. cbn [i_dims i_short i_expected i_interp]. 
  set (ne := if c_no_update c then [] else [b2z (c_no_end c)]).
  assert (NE : forall o, (if c_no_update c then (o, true) else (pbit o (c_no_end c), c_no_end c)) = (o ++ ne, c_no_update c || c_no_end c)).
  { intros o. unfold ne. destruct (c_no_update c); [rewrite app_nil_r|rewrite pbit_app]; reflexivity. }
  rewrite NE. rewrite DW, DH, DU.
  match goal with |- context [encode_tile_info ?o _ _ _ _ _ _ _ _ _ _] => destruct (tiles_written c f o TF TD TDN) as (tl & cs & rs & WTL & BT & RT) end. fold cw in WTL, RT. rewrite WTL. cbn [bind].
  destruct TF as (_ & TC & TR & _). rewrite !tiles_log2_ok by lia. cbn [bind]. rewrite CP.
  match goal with |- context [enc_quant ?o _ _ _ _] => destruct (quant_lossy c f o TQ QF) as (qc & q' & dq' & vq & -> & QB & QZ & RQ & VB & VZ) end. cbn [bind].
  rewrite (seg_off _ _ _ GOFF). cbn [bind]. rewrite QB.
  match goal with |- context [enc_delta ?o _ _ _] => destruct (delta_none f o DF) as (dc & dl & -> & RD) end. cbn [bind].
  match goal with |- context [enc_lossless _ _ ?p q' dq' ?sg true _ _] => destruct (lossless_coded (c_cur_q c) q' dq' sg (c_lossless c) (c_qm c) p) as (arr & qm & ->) end;
    try assumption; try reflexivity; [rewrite QB; destruct TQ as (? & _); assumption|].
  cbn [bind]. rewrite QZ. set (coded := (c_cur_q c =? 0) && deltas_zero c f).
  match goal with |- context [enc_lf ?o 3 _ _] => set (head := o) end. intros ENC.
  assert (TAIL : enc_tail head coded (coded && (cw =? f_w f)) c f = Ok bits).
  { revert ENC. unfold enc_tail. destruct (enc_lf head 3 coded (f_lf f)) as [[o1 p1]| |]; [|discriminate|discriminate]. cbn [bind].
    destruct (enc_cdef o1 3 coded (f_cdef f)) as [[o2 p2]| |]; [|discriminate|discriminate]. cbn [bind].
    destruct (enc_lr o2 3 _ _ _ _ _) as [[[o3 p3] l3]| |]; [|discriminate|discriminate]. cbn [bind].
    unfold skip_mode. cbn [bind orb negb is_some]. unfold enc_gm. rewrite gm_reset_ok by assumption.
    replace (f_type f =? INTER_FRAME) with false by (unfold INTER_FRAME; lia). rewrite CM.
    destruct coded; cbn [bind]; (match goal with |- context [enc_grain ?a ?b ?c0 ?d0 ?e ?g0 ?h0 ?i0] => destruct (enc_grain a b c0 d0 e g0 h0 i0) as [[o4 g4]| |]; [|discriminate|discriminate] end);
      cbn [bind]; intros ENC; injection ENC as <- _ _; reflexivity. }
  clear ENC. set (lossless := (q_base (f_quant f) =? 0) && deltas_zero c f).
  destruct (tail_never s c f head bits coded lossless (cw =? f_w f)) as (tail & -> & NEV); try assumption.
  { intros (A & B & C). apply NL. unfold coded in A. unfold lossless in B. unfold all_lossless. fold cw. apply andb_prop in A. apply andb_prop in B. destruct A, B. repeat split; [lia|lia|assumption|lia]. }
  intros k R. unfold head in R. rewrite <- ?app_assoc in R. cbn [app] in R. rewrite <- ?app_assoc in R. cbn [app] in R. revert R. unfold rd_header. rewrite KR. cbn [negb rd_if].
  rewrite rd1_ok. cbn [obind]. unfold rd_intra.
  rewrite (top_read s c f _ KP KR TYP). cbn [obind]. replace (negb ((f_type f =? 0) || (f_type f =? 2))) with false by lia.
  unfold tools_code. rewrite <- !app_comm_cons. rewrite rd1_ok. cbn [obind]. rewrite <- !app_assoc.
  rewrite KSC, KIM. rewrite sct_read by exact TS. cbn [obind]. rewrite imv_read by exact TI. cbn [obind]. rewrite (id_read s c _ KI TID). cbn [obind].
  rewrite KR. cbn [negb rd_if]. change (0 :: ?x) with (b2z false :: x). rewrite rd1_ok. cbn [obind]. rewrite KB. rewrite rd_any. rewrite Z2Nat.id by lia. rewrite (Z.mod_small (f_hint f)) by exact TH. cbn [obind].
  rewrite (removal_read s c f _ KP KO KT KS). cbn [obind].
  replace (negb ((f_type f =? 0) && c_show c)) with true by (destruct (c_show c); lia). cbn [rd_if]. change (Z.to_nat 8) with 8%nat. rewrite rd_any.
  rewrite (Z.mod_small (c_refresh c)) by exact TRF. cbn [obind]. rewrite KH.
  replace (negb (c_refresh c =? 255) && f_err f && c_enable_hint c) with false by (destruct (f_err f), (c_enable_hint c); lia). cbn [rd_if obind].
  rewrite KM, RS. cbn [obind]. rewrite ZU, ZW, ZH. rewrite zero_read. cbn [obind orb]. unfold ne. rewrite no_end_read. cbn [obind]. rewrite K128, RT. cbn [obind].
  unfold s_planes. rewrite KMO, KSEP, RQ. cbn [obind]. unfold rd_seg at 1. rewrite rd1_ok. cbn [obind]. rewrite VB, RD. cbn [obind].
  assert (forallb (fun row => av1_lossless (q_base (f_quant f)) (nth 0 row None) [aq_y_dc vq; aq_u_dc vq; aq_u_ac vq; aq_v_dc vq; aq_v_ac vq]) (repeat [] 8) = lossless) as ->.
  { unfold lossless. rewrite <- VZ. generalize [aq_y_dc vq; aq_u_dc vq; aq_u_ac vq; aq_v_dc vq; aq_v_ac vq]. intros m. cbn [repeat nth]. unfold av1_lossless, av1_qidx.
    set (x := (_ =? 0) && _). cbn [forallb nth]. fold x. destruct x; reflexivity. }
  intros R. specialize (fun lf cdef lr tx red => NEV lf cdef lr tx red k). revert R NEV. unfold rd_end. rewrite (proj1 GR), orb_true_r, K128. clear - HG.
  repeat (match goal with |- obind (obind ?e _) _ = _ -> _ => destruct e as [[? ?]|]; [|discriminate]; cbn [obind] end).
  intros R NEV. injection R as <- <-. cbn [h_grain] in HG. subst. eapply NEV. reflexivity.
Qed.

Lemma groups_lossless c f : groups_ready c f -> all_lossless c f -> header_ready c f.
Proof.
  intros (SEEN & RED & EX & TYP & OV & CW & ERR & TF & QF & GOFF & DF & LF & LFF & CT & CL & CF & DMP & LT & GR) (CUR & B & Z0 & W).
  repeat (split; [assumption|]). split; [|exact GR]. unfold deltas_zero in Z0. repeat (apply andb_prop in Z0; destruct Z0 as (Z0 & ?)).
  split; [assumption|]. split; [assumption|]. split; [lia|]. split; [lia|]. split; [lia|]. split; [|split; [|exact GOFF]].
  - intros V. rewrite V in *. cbn [negb orb] in *. lia.
  - intros U. destruct QF as (_ & _ & M). unfold kept_q in M. cbn [q_using q_y q_u q_v] in M. specialize (M U). rewrite U in M. destruct (c_sep c); cbn [negb andb] in M; split; [lia|split; [lia|lia]|lia|split; [lia|discriminate]].
Qed.
Lemma header_exact s c f bits c' f' : header_known s c f -> s_restoration s = c_restoration c -> header_typed c f -> groups_ready c f -> encode_frame_header [] c f = Ok (bits, c', f') ->
  ((exists h, h_grain h = header_grain c /\ decodes bits (rd_header s) (Intra h)) <-> all_lossless c f).
Proof.
  intros K R T G E. split.
  - intros (h & HG & D). unfold all_lossless.
    assert (DEC : all_lossless c f \/ ~ all_lossless c f).
    { unfold all_lossless. destruct (Z.eq_dec (c_cur_q c) 0), (Z.eq_dec (q_base (f_quant f)) 0), (Bool.bool_dec (deltas_zero c f) true), (Z.eq_dec (coded_w (c_superres c) (frame_dims c f)) (f_w f)); tauto. }
    destruct DEC as [|N]; [assumption|]. destruct (header_lossy_never s c f bits c' f' h K R T G N E HG []). apply D.
  - intros A. destruct (header_decoded s c f K T (groups_lossless c f G A)) as (b & c2 & f2 & E2 & D & _). rewrite E in E2. injection E2 as <- <- <-.
    exists (header_of c f). split; [reflexivity|exact D].
Qed.
