(** Proofs about a sequence header and what follows it (StreamModel). *)
From Coq Require Import ZArith List Bool Lia ZifyBool ZifyNat.
From Verif Require Import Base BaseProofs UtilModel UtilSpec BitsSpec BitsProofs RangeCoderModel BitCodecModel BitCodecProofs WriterModel WriterSpec WriterProofs
  SeqModel SeqSpec SeqProofs SeqProofs2 SeqProofs3 ObuModel ObuSpec ObuProofs TileModel TileProofs FrameParamModel FrameModel FrameSpec FrameProofs FrameProofs4
  FrameProofs6 FrameProofs7 FrameProofs8 FrameProofs9 StreamModel StreamSpec StreamProofs.
Import ListNotations.
Open Scope Z_scope.

(** ** A decoder that takes the frame size from the sequence header *)
Definition resized (s : av1_seq) (nw nh : nat) (max : Z * Z) : av1_seq :=
  mkASeq (s_reduced s) (s_ids s) (s_id_len s) (s_dm s) (s_equal s) (s_ops s) (s_tid s) (s_sid s) (s_sct s) (s_imv s) (s_hint_on s) (s_hint_bits s)
    nw nh max (s_superres s) (s_sb128 s) (s_cdef s) (s_restoration s) (s_grain s) (s_mono s) (s_ssx s) (s_ssy s) (s_sep s) (s_ref_types s).

Lemma rd_short n q x : rd n q = Some x -> (n <= length q)%nat /\ length (snd x) = (length q - n)%nat.
Proof.
  unfold rd. destruct (Nat.leb_spec n (length q)); [|discriminate]. intros E. injection E as <-. split; [assumption|]. cbn [snd]. apply skipn_length.
Qed.
Lemma obind_some A B (x : option A) (f : A -> option B) b : obind x f = Some b -> exists a, x = Some a /\ f a = Some b.
Proof. destruct x as [a|]; [|discriminate]. exists a. auto. Qed.
Lemma rd1_short q b k : rd1 q = Some (b, k) -> length q = S (length k).
Proof. destruct q; [discriminate|]. intros E. injection E as <- <-. reflexivity. Qed.

Lemma rd_sizes_kept enable nw nh max q z k : rd_sizes false enable nw nh max q = Some (z, k) -> az_up z = fst max /\ az_h z = snd max.
Proof.
  unfold rd_sizes. intros H. destruct max as [mw mh]. cbn [obind] in H. apply obind_some in H. destruct H as ([[w d] q1] & _ & H).
  apply obind_some in H. destruct H as ([df q2] & _ & H). apply obind_some in H. destruct H as ([[rw rh] q3] & _ & H). injection H as <- _. split; reflexivity.
Qed.
Lemma rd_sizes_long enable nw nh max q x : (length q < nw)%nat -> rd_sizes true enable nw nh max q = Some x -> False.
Proof.
  intros L H. unfold rd_sizes in H. apply obind_some in H. destruct H as ([[u h] q1] & E & _). apply obind_some in E. destruct E as ([w q2] & E & _).
  apply rd_short in E. lia.
Qed.
Lemma rd_shorter n q v k : rd n q = Some (v, k) -> (length k <= length q)%nat.
Proof. intros H. apply rd_short in H. cbn [snd] in H. lia. Qed.
Lemma rd_if_shorter A c (r : list Z -> option (A * list Z)) d q v k : (forall q v k, r q = Some (v, k) -> (length k <= length q)%nat) -> rd_if c r d q = Some (v, k) -> (length k <= length q)%nat.
Proof. intros R. unfold rd_if. destruct c; [apply R|]. intros E. injection E as _ <-. reflexivity. Qed.
Lemma rd_times_shorter A (r : list Z -> option (A * list Z)) : (forall q v k, r q = Some (v, k) -> (length k <= length q)%nat) ->
  forall n q v k, rd_times n r q = Some (v, k) -> (length k <= length q)%nat.
Proof.
  intros R. induction n; intros q v k H; cbn [rd_times] in H; [injection H as _ <-; reflexivity|].
  apply obind_some in H. destruct H as ([a q1] & E & H). apply obind_some in H. destruct H as ([l q2] & E2 & H). injection H as _ <-. apply R in E. apply IHn in E2. lia.
Qed.
Lemma rd_each_shorter A B (r : A -> list Z -> option (B * list Z)) : (forall a q v k, r a q = Some (v, k) -> (length k <= length q)%nat) ->
  forall l q v k, rd_each l r q = Some (v, k) -> (length k <= length q)%nat.
Proof.
  intros R. induction l; intros q v k H; cbn [rd_each] in H; [injection H as _ <-; reflexivity|].
  apply obind_some in H. destruct H as ([b q1] & E & H). apply obind_some in H. destruct H as ([m q2] & E2 & H). injection H as _ <-. apply R in E. apply IHl in E2. lia.
Qed.

(** The size a decoder finds in a header without its own size is the one of the sequence
    header, whatever the fields that follow. *)
Lemma size_from_seq s nw nh max q h k h' k' : (length q < nw)%nat ->
  rd_header (resized s nw nh max) q = Some (Intra h, k) -> rd_header s q = Some (Intra h', k') -> az_up (h_size h') = fst (s_max s) /\ az_h (h_size h') = snd (s_max s).
Proof.
  intros L. unfold rd_header. cbn [resized s_reduced s_ids s_id_len s_ref_types]. change (rd_point (resized s nw nh max)) with (rd_point s).
  destruct (rd_if (negb (s_reduced s)) rd1 false q) as [[ex q1]|] eqn:E1; cbn [obind]; [|discriminate].
  apply rd_if_shorter in E1; [|intros ? ? ? X; apply rd1_short in X; lia].
  destruct ex. { intros H. apply obind_some in H. destruct H as ([i q2] & _ & H). apply obind_some in H. destruct H as ([u q3] & _ & H). apply obind_some in H. destruct H as ([i2 q4] & _ & H). discriminate. }
  intros H H'. apply obind_some in H. destruct H as ([g q0] & H & X). injection X as -> ->. apply obind_some in H'. destruct H' as ([g' q0'] & H' & X). injection X as -> ->.
  unfold rd_intra in *. change (rd_intra_top (resized s nw nh max) q1) with (rd_intra_top s q1) in H. change (rd_removal (resized s nw nh max)) with (rd_removal s) in H.
  cbn [resized s_reduced s_ids s_id_len s_sct s_imv s_hint_on s_hint_bits s_nw s_nh s_max s_superres s_sb128 s_cdef s_restoration s_grain s_mono s_ssx s_ssy s_sep] in H.
  destruct (rd_intra_top s q1) as [[[[[typ show] showable] err] q2]|] eqn:E2; cbn [obind] in *; [|discriminate].
  assert (L2 : (length q2 <= length q1)%nat).
  { unfold rd_intra_top in E2. destruct (s_reduced s); [injection E2 as _ _ _ _ <-; reflexivity|]. apply obind_some in E2. destruct E2 as ([a qa] & A & E2). apply rd_shorter in A.
    apply obind_some in E2. destruct E2 as ([b qb] & B & E2). apply rd1_short in B. apply obind_some in E2. destruct E2 as ([u qc] & C & E2).
    apply rd_if_shorter in C. 2: { intros q9 v9 k9 X. unfold rd_point in X. destruct (s_dm s) as [[n m]|]; [|injection X as _ <-; reflexivity].
      destruct (s_equal s); [injection X as _ <-; reflexivity|]. apply obind_some in X. destruct X as ([y qy] & Y & X). injection X as _ <-. apply rd_shorter in Y. exact Y. }
    apply obind_some in E2. destruct E2 as ([d qd] & D & E2). apply rd_if_shorter in D; [|intros ? ? ? X; apply rd1_short in X; lia].
    apply obind_some in E2. destruct E2 as ([e qe] & E & E2). apply rd_if_shorter in E; [|intros ? ? ? X; apply rd1_short in X; lia]. injection E2 as _ _ _ _ <-. lia. }
  destruct (negb ((typ =? 0) || (typ =? 2))); [discriminate|].
  destruct (rd1 q2) as [[nu q3]|] eqn:E3; cbn [obind] in *; [|discriminate]. apply rd1_short in E3.
  destruct (rd_if (s_sct s =? 2) (rd 1) (s_sct s) q3) as [[sct q4]|] eqn:E4; cbn [obind] in *; [|discriminate]. apply rd_if_shorter in E4; [|apply rd_shorter].
  destruct (rd_if ((0 <? sct) && (s_imv s =? 2)) (rd 1) 0 q4) as [[im q5]|] eqn:E5; cbn [obind] in *; [|discriminate]. apply rd_if_shorter in E5; [|apply rd_shorter].
  destruct (rd_if (s_ids s) (rd (s_id_len s)) 0 q5) as [[id q6]|] eqn:E6; cbn [obind] in *; [|discriminate]. apply rd_if_shorter in E6; [|apply rd_shorter].
  destruct (rd_if (negb (s_reduced s)) rd1 false q6) as [[ov q7]|] eqn:E7; cbn [obind] in *; [|discriminate]. apply rd_if_shorter in E7; [|intros ? ? ? X; apply rd1_short in X; lia].
  destruct (rd (s_hint_bits s) q7) as [[hi q8]|] eqn:E8; cbn [obind] in *; [|discriminate]. apply rd_shorter in E8.
  destruct (rd_removal s q8) as [[u q9]|] eqn:E9; cbn [obind] in *; [|discriminate].
  assert (L9 : (length q9 <= length q8)%nat).
  { unfold rd_removal in E9. destruct (s_dm s) as [[n m]|]; [|injection E9 as _ <-; reflexivity]. apply obind_some in E9. destruct E9 as ([p qp] & P & E9). apply rd1_short in P.
    apply obind_some in E9. destruct E9 as ([y qy] & Y & E9). injection E9 as _ <-. apply rd_if_shorter in Y; [lia|]. intros q10 v10 k10 X. revert X. apply rd_each_shorter.
    intros a q11 v11 k11. apply rd_if_shorter. apply rd_shorter. }
  destruct (rd_if (negb ((typ =? 0) && show)) (rd 8) 255 q9) as [[rf q10]|] eqn:E10; cbn [obind] in *; [|discriminate]. apply rd_if_shorter in E10; [|apply rd_shorter].
  destruct (rd_if (negb (rf =? 255) && err && s_hint_on s) (rd_times 8 (rd (s_hint_bits s))) [] q10) as [[hs q11]|] eqn:E11; cbn [obind] in *; [|discriminate].
  apply rd_if_shorter in E11; [|apply rd_times_shorter, rd_shorter].
  apply obind_some in H. destruct H as ([z q12] & EZ & H). destruct ov. { exfalso. apply rd_sizes_long in EZ; [exact EZ|lia]. }
  apply obind_some in H'. destruct H' as ([z' q12'] & EZ' & H'). apply rd_sizes_kept in EZ'. clear -H' EZ'.
  repeat (apply obind_some in H'; let a := fresh in destruct H' as (a & _ & H'); repeat match type of a with prod _ _ => destruct a as [? a] end; cbv beta iota in H').
  all: try (injection H' as <- _; exact EZ').
Qed.

(** ** The frame header after a sequence header *)

(** What the sequence header says but the context does not hold, so that the caller has
    to keep it equal: frame identifiers, the decoder model, the number of planes. *)
Definition kept_equal (c : ctx) (f : frm) (v : p_seq) : Prop :=
  ps_frame_id v = (if c_ids c then Some (c_delta_len c, c_add_len c) else None) /\ 0 <= c_id_len c /\
  match f_dm f, p_decoder_model v with
  | Some d, Some m => fm_presentation_len d = pd_present_len m /\ fm_removal_len d = pd_removal_len m /\
      (equal_interval (c_timing c) = false -> f_tpi f <> None) /\ Forall (fun o => opm_params o <> None) (c_opm c) /\ c_tid c = 0 /\ c_sid c = 0
  | None, None => True
  | _, _ => False
  end /\ c_planes c = 3.

(** Operating points and layers do not matter without a decoder model. *)
Definition other_ops (s : av1_seq) (ops : list Z) (tid sid : Z) : av1_seq :=
  mkASeq (s_reduced s) (s_ids s) (s_id_len s) (s_dm s) (s_equal s) ops tid sid (s_sct s) (s_imv s) (s_hint_on s) (s_hint_bits s)
    (s_nw s) (s_nh s) (s_max s) (s_superres s) (s_sb128 s) (s_cdef s) (s_restoration s) (s_grain s) (s_mono s) (s_ssx s) (s_ssy s) (s_sep s) (s_ref_types s).
Lemma ops_irrelevant s ops tid sid q : s_dm s = None -> rd_header (other_ops s ops tid sid) q = rd_header s q.
Proof. intros D. destruct s. cbn in D. subst. reflexivity. Qed.

Lemma seq_fields x h code e' h' v w1 h1 : seq_ok (enc_of x) h -> enc_seq [] (enc_of x) h = Ok (code, e', h') -> v = seq_view (enc_of x) h w1 h1 ->
  let c := z_ctx (store_enc x e') in
  c_reduced c = false /\ pt_sct (ps_tools v) = c_sct c /\ pt_imv (ps_tools v) = c_imv c /\ pt_order_hint (ps_tools v) = c_enable_hint c /\ pt_ohb (ps_tools v) = c_obu_bits c /\
  pt_superres (ps_tools v) = c_superres c /\ pt_sb128 (ps_tools v) = c_sb128 c /\ pt_restoration (ps_tools v) = c_restoration c /\ ps_grain v = is_some (c_grain c) /\
  pc_mono (ps_color v) = false /\ c_mono c = false /\ pc_ssx (ps_color v) = c_ssx c /\ pc_ssy (ps_color v) = c_ssy c /\ pc_sep (ps_color v) = c_sep c /\
  match ps_timing v with Some t => match pm_ticks t with Some _ => true | None => false end | None => false end = equal_interval (c_timing c).
Proof.
  intros SO E -> c. destruct SO as (R & P & M & _). pose proof (seq_state _ _ _ _ _ _ P E) as (_ & M' & _ & S). pose proof (seq_runs _ _ _ _ _ _ E) as Q.
  assert (MF : e_mono e' = false) by (rewrite M'; destruct M as [-> | ->]; [reflexivity|apply andb_false_r]). rewrite MF in S. destruct S as (S1 & S2 & _ & S4).
  assert (RD : c_reduced (z_ctx x) = false) by exact R.
  unfold c. cbn [store_enc z_ctx c_reduced c_sct c_imv c_enable_hint c_obu_bits c_superres c_sb128 c_restoration c_grain c_mono c_ssx c_ssy c_sep c_timing
    seq_view ps_tools ps_grain ps_color ps_timing]. rewrite (sr_sct _ _ _ Q), (sr_imv _ _ _ Q), (sr_bits _ _ _ Q), (sr_hint _ _ _ Q), (sr_timing _ _ _ Q), R. cbn [negb andb].
  split; [exact RD|]. split; [reflexivity|]. split; [reflexivity|]. split; [reflexivity|]. split; [reflexivity|]. split; [reflexivity|]. split; [reflexivity|]. split; [reflexivity|].
  split; [reflexivity|]. split; [unfold color_view; destruct (e_cd (enc_of x)) as [[[a b] d]|]; reflexivity|]. split; [exact MF|].
  split; [symmetry; exact S1|]. split; [symmetry; exact S2|]. split; [symmetry; exact S4|].
  destruct (e_timing (enc_of x)) as [t|]; [|reflexivity]. cbn. destruct (ti_equal t); reflexivity.
Qed.

Lemma all_params (b : bool) l : Forall (fun o => opm_params o <> None) l -> b = true ->
  map pq_idc (filter (fun o => match pq_params o with Some _ => true | None => false end) (map (opm_view b) l)) = map opm_idc l.
Proof.
  intros F ->. induction F as [|o l O _ IH]; [reflexivity|]. cbn [map filter opm_view pq_params]. destruct (opm_params o); [|congruence].
  cbn [option_map map pq_idc]. f_equal. exact IH.
Qed.

(** The decoder knows all that the frame header depends on, if it also knows the frame
    size. *)
Lemma seq_known x h code e' h' v w1 h1 f nw nh types nw' nh' : seq_ok (enc_of x) h -> enc_seq [] (enc_of x) h = Ok (code, e', h') -> v = seq_view (enc_of x) h w1 h1 ->
  kept_equal (z_ctx (store_enc x e')) f v -> exists ops tid sid,
  header_known (other_ops (resized (av1_seq_of v nw nh types) nw' nh' (f_w f, f_h f)) ops tid sid) (z_ctx (store_enc x e')) f /\
  (forall q, rd_header (other_ops (resized (av1_seq_of v nw nh types) nw' nh' (f_w f, f_h f)) ops tid sid) q = rd_header (resized (av1_seq_of v nw nh types) nw' nh' (f_w f, f_h f)) q).
Proof.
  intros SO E EV (KI & KL & KD & KP). pose proof (seq_fields _ _ _ _ _ _ _ _ SO E EV) as F. cbv zeta in F. set (c := z_ctx (store_enc x e')) in *.
  destruct F as (F1 & F2 & F3 & F4 & F5 & F6 & F7 & F8 & F9 & F10 & F11 & F12 & F13 & F14 & F15).
  exists (map opm_idc (c_opm c)), (c_tid c), (c_sid c).
  set (s := resized (av1_seq_of v nw nh types) nw' nh' (f_w f, f_h f)).
  assert (IDK : ids_known (other_ops s (map opm_idc (c_opm c)) (c_tid c) (c_sid c)) c).
  { unfold ids_known. cbn [other_ops s_ids s_id_len s resized av1_seq_of]. rewrite KI. destruct SO as (_ & _ & _ & _ & _ & FI & _).
    destruct (c_ids c) eqn:I; (split; [reflexivity|]); (split; [|auto]); [intros _|discriminate].
    assert (X : sh_frame_id h = Some (c_delta_len c, c_add_len c)) by (rewrite <- KI, EV; reflexivity). rewrite X in FI. split; [lia|]. split; [lia|reflexivity]. }
  split.
  - unfold header_known. split; [reflexivity|]. split.
    { unfold point_known. cbn [other_ops s_equal s_dm s resized av1_seq_of]. split; [exact F15|]. destruct (f_dm f) as [d|], (p_decoder_model v) as [m|] eqn:PM; try contradiction; [|exact I].
      destruct KD as (K1 & K2 & K3 & _). rewrite K1, K2.
      assert (R : 0 <= pd_present_len m <= 32 /\ 0 <= pd_removal_len m <= 32).
      { destruct SO as (_ & _ & _ & _ & _ & _ & _ & _ & _ & DM & _). unfold eff_dm in DM. rewrite EV in PM. unfold p_decoder_model, seq_view in PM. cbn [ps_timing] in PM.
        destruct (e_timing (enc_of x)) as [t|]; [|discriminate]. cbn [option_map timing_view pm_dm] in PM. destruct (sh_dm h) as [dm|]; [|discriminate]. injection PM as <-.
        cbn. unfold dm_ok in DM. lia. }
      split; [lia|]. split; [reflexivity|]. split; [lia|]. split; [reflexivity|]. rewrite F15. exact K3. }
    split; [exact IDK|]. cbn [other_ops s resized av1_seq_of s_ops s_tid s_sid s_sct s_imv s_hint_on s_hint_bits s_max s_superres s_sb128 s_grain s_mono s_ssx s_ssy s_sep].
    rewrite F2, F3, F4, F5, F6, F7, F9, F10, F11, F12, F13, F14. repeat split. exact KP.
  - intros q. destruct (p_decoder_model v) as [m|] eqn:PM.
    + destruct (f_dm f) as [d|]; [|contradiction]. destruct KD as (_ & _ & _ & K4 & K5 & K6).
      assert (O : map opm_idc (c_opm c) = s_ops s).
      { cbn [s resized av1_seq_of s_ops]. rewrite EV. unfold seq_view. cbn [ps_opm]. symmetry.
        assert (OC : c_opm c = e_opm (enc_of x)) by reflexivity.
        rewrite OC in *. apply all_params; [exact K4|]. unfold eff_dm. rewrite EV in PM. unfold p_decoder_model, seq_view in PM. cbn [ps_timing] in PM.
        destruct (e_timing (enc_of x)) as [t|]; [|discriminate]. cbn [option_map timing_view pm_dm] in PM. destruct (sh_dm h) as [dm|]; [reflexivity|discriminate]. }
      rewrite O, K5, K6. destruct s eqn:ES; unfold s in ES; injection ES; intros; subst; reflexivity.
    + apply ops_irrelevant. cbn [s resized av1_seq_of s_dm]. rewrite PM. reflexivity.
Qed.

Lemma header_after_seq T superblock x h f : seq_ok (enc_of x) h -> sizes_ok h ->
  (forall k, is_floor_log2 (sh_w h - 1) k <-> is_floor_log2 (sh_max_w h) k) -> (forall k, is_floor_log2 (sh_h h - 1) k <-> is_floor_log2 (sh_max_h h) k) ->
  exists code x1 v, @payload T superblock x (SSequence h) = Ok (code, x1) /\ (forall r, rd_seq false (code ++ r) = Some (v, r)) /\
  (forall k, is_floor_log2 (sh_max_w h) k -> ps_width_minus_1 v = (sh_max_w h - 1) mod 2 ^ k) /\
  (forall k, is_floor_log2 (sh_max_h h) k -> ps_height_minus_1 v = (sh_max_h h - 1) mod 2 ^ k) /\
  (kept_equal (z_ctx x1) f v -> header_typed (z_ctx x1) f -> header_ready (z_ctx x1) f ->
   exists bits x2, @payload T superblock x1 (SHeader f) = Ok (bits, x2) /\
   forall nw nh types,
     (ps_width_minus_1 v + 1 = f_w f /\ ps_height_minus_1 v + 1 = f_h f -> decodes bits (rd_header (av1_seq_of v nw nh types)) (Intra (header_of (z_ctx x1) f))) /\
     (~ (ps_width_minus_1 v + 1 = f_w f /\ ps_height_minus_1 v + 1 = f_h f) -> never_decodes bits (rd_header (av1_seq_of v nw nh types)) (Intra (header_of (z_ctx x1) f)))).
Proof.
  intros SO SZ FW FH. destruct (seq_parse_back_spec _ _ SO SZ FW FH) as (code & e' & h' & w1 & h1 & E & R & W & H). specialize (E []). cbn [app] in E.
  exists code, (store_enc x e'), (seq_view (enc_of x) h w1 h1). cbn [payload]. rewrite E. cbn [bind]. split; [reflexivity|]. split; [exact R|]. split; [exact W|]. split; [exact H|].
  intros K TY RE. set (v := seq_view (enc_of x) h w1 h1) in *. set (c := z_ctx (store_enc x e')) in *.
  destruct (seq_known x h code e' h' v w1 h1 f O O [] O O SO E eq_refl K) as (ops & tid & sid & HK & _).
  destruct (header_decoded _ _ _ HK TY RE) as (bits & c' & f' & EH & _). exists bits, (set_ctx (store_enc x e') c'). split; [cbn [payload]; change (z_ctx (store_enc x e')) with c; fold c in EH; rewrite EH; reflexivity|].
  assert (D : forall nw nh types nw' nh', decodes bits (rd_header (resized (av1_seq_of v nw nh types) nw' nh' (f_w f, f_h f))) (Intra (header_of c f))).
  { intros nw nh types nw' nh'. destruct (seq_known x h code e' h' v w1 h1 f nw nh types nw' nh' SO E eq_refl K) as (ops2 & tid2 & sid2 & HK2 & Q).
    destruct (header_decoded _ _ _ HK2 TY RE) as (bits2 & c2 & f2 & EH2 & (DB & DK) & _). rewrite EH in EH2. injection EH2 as <- _ _. split; [exact DB|].
    intros k. rewrite <- Q. apply DK. }
  intros nw nh types. split.
  - intros (A & B). specialize (D nw nh types nw nh). 
    assert (Q : resized (av1_seq_of v nw nh types) nw nh (f_w f, f_h f) = av1_seq_of v nw nh types) by (rewrite <- A, <- B; reflexivity). rewrite Q in D. exact D.
  - intros N k C. destruct (D nw nh types (S (length (bits ++ k))) O) as (_ & DK). specialize (DK k).
    destruct (size_from_seq _ _ _ _ _ _ _ _ _ (Nat.lt_succ_diag_r _) DK C) as (A & B). apply N. cbn [av1_seq_of s_max fst snd] in A, B.
    unfold header_of in A, B. cbn [h_size size_of az_up az_h frame_dims m_w m_h] in A, B. split; congruence.
Qed.

(** A sequence header made for the frame's own size: never. *)
Lemma own_size_never T superblock x h f : seq_ok (enc_of x) h -> sizes_ok h -> sh_max_w h = sh_w h ->
  (forall k, is_floor_log2 (sh_w h - 1) k <-> is_floor_log2 (sh_max_w h) k) -> (forall k, is_floor_log2 (sh_h h - 1) k <-> is_floor_log2 (sh_max_h h) k) ->
  exists code x1 v, @payload T superblock x (SSequence h) = Ok (code, x1) /\ (forall r, rd_seq false (code ++ r) = Some (v, r)) /\
  (kept_equal (z_ctx x1) f v -> header_typed (z_ctx x1) f -> header_ready (z_ctx x1) f -> f_w f = sh_w h ->
   exists bits x2, @payload T superblock x1 (SHeader f) = Ok (bits, x2) /\
   forall nw nh types, never_decodes bits (rd_header (av1_seq_of v nw nh types)) (Intra (header_of (z_ctx x1) f))).
Proof.
  intros SO SZ MX FW FH. destruct (header_after_seq T superblock x h f SO SZ FW FH) as (code & x1 & v & E & R & W & _ & C). exists code, x1, v. split; [exact E|]. split; [exact R|].
  intros K TY RE FE. destruct (C K TY RE) as (bits & x2 & EH & D). exists bits, x2. split; [exact EH|]. intros nw nh types. apply D. intros (A & _).
  destruct SZ as (S1 & _). assert (L : is_floor_log2 (sh_max_w h) (Z.log2 (sh_w h))) by (apply floor_log2_iff; [lia|congruence]).
  rewrite (W _ L) in A. rewrite MX, FE in A. apply FW in L. apply floor_log2_iff in L; [|lia].
  destruct (Z.log2_spec (sh_w h - 1) ltac:(lia)) as (P1 & P2). rewrite <- L in P1, P2. pose proof (Z.mod_pos_bound (sh_w h - 1) (2 ^ Z.log2 (sh_w h)) ltac:(apply Z.pow_pos_nonneg; [lia|apply Z.log2_nonneg])).
  lia.
Qed.

(** ** The sequence header written again *)
Definition with_grain (v : p_seq) (g : bool) : p_seq :=
  P_SEQ (ps_profile v) (ps_still v) (ps_ops v) (ps_width_minus_1 v) (ps_height_minus_1 v) (ps_frame_id v) (ps_tools v) (ps_color v) (ps_timing v) (ps_opm v) g.
Definition enc_grain_set (e : enc) (g : bool) : enc :=
  mkEnc (e_reduced e) (e_sb128 e) (e_warped e) (e_order_hint e) (e_ref_mvs e) (e_force_sct e) (e_force_imv e)
    (e_order_hint_bits e) (e_superres e) (e_cdef e) (e_restoration e) (e_high e) (e_twelve e) (e_mono e) (e_cd e) (e_range e) (e_ssx e) (e_ssy e) (e_csp e) (e_sep_uv e)
    (e_bit_depth e) (e_num_planes e) (e_timing e) (e_opm e) g.

Section Again.
Variable T : Type.
Variable superblock : T -> list (list Z) -> Z -> Z -> Z -> list Z -> res (T * list (list Z) * list Z).

Definition not_seq (o : sobu T) : Prop := match o with SSequence _ => False | _ => True end.
(** A frame header that is written: an OBU_FRAME_HEADER with a payload. *)
Definition is_header (o : sobu T) : bool := match o with SHeader _ => true | _ => false end.
Definition wrote_header (o : sobu T) (p : list Z) : bool := is_header o && negb (match p with [] => true | _ => false end).

Lemma payload_enc x o p x' : not_seq o -> c_reduced (z_ctx x) = true \/ c_existing (z_ctx x) = false -> payload superblock x o = Ok (p, x') ->
  enc_of x' = enc_grain_set (enc_of x) (e_grain (enc_of x) || wrote_header o p) /\ (c_reduced (z_ctx x') = true \/ c_existing (z_ctx x') = false).
Proof.
  intros NS EX H.
  assert (G : forall e : enc, e = enc_grain_set e (e_grain e || false)) by (intros []; cbn; rewrite orb_false_r; reflexivity).
  destruct o as [h| |f| |f groups st cdef|m|f|n]; cbn [payload not_seq] in *; [contradiction| | | | | | | ]; unfold wrote_header; cbn [is_header andb].
  - injection H as _ <-. split; [apply G|exact EX].
  - apply bind_inv in H. destruct H as ([[o c] f'] & E & H). injection H as <- <-. apply header_any in E. destruct E as [(S & -> & ->)|(S & S' & Q & N & X & GR)].
    + cbn [negb]. split; [|exact EX]. replace (enc_of (set_ctx x (z_ctx x))) with (enc_of x) by (destruct x; reflexivity). apply G.
    + split.
      * destruct o as [|b r]; [congruence|]. cbn [negb]. unfold enc_of, enc_grain_set. cbn [set_ctx z_ctx z_cdef z_high z_twelve z_cd z_range z_csp z_depth z_planes
          e_reduced e_sb128 e_warped e_order_hint e_ref_mvs e_force_sct e_force_imv e_order_hint_bits e_superres e_cdef e_restoration e_high e_twelve e_mono e_cd e_range e_ssx e_ssy e_csp e_sep_uv
          e_bit_depth e_num_planes e_timing e_opm e_grain]. rewrite GR, X.
        assert (NX : negb (c_reduced (z_ctx x)) && c_existing (z_ctx x) = false) by (destruct EX as [->| ->]; [reflexivity|apply andb_false_r]). rewrite NX. cbn [negb].
        rewrite (sq_reduced _ _ Q), (sq_sb128 _ _ Q), (sq_warped _ _ Q), (sq_hint _ _ Q), (sq_mvs _ _ Q), (sq_sct _ _ Q), (sq_imv _ _ Q), (sq_obu _ _ Q), (sq_sup _ _ Q), (sq_rest _ _ Q), (sq_mono _ _ Q), (sq_ssx _ _ Q), (sq_ssy _ _ Q), (sq_sep _ _ Q), (sq_timing _ _ Q), (sq_opm _ _ Q). reflexivity.
      * cbn [set_ctx z_ctx]. rewrite (sq_reduced _ _ Q), X. destruct EX as [->| ->]; [now left|right; apply andb_false_r].
  - injection H as _ <-. split; [apply G|exact EX].
  - apply tile_group_run in H. destruct H as (s & e & n & b & -> & _). split; [exact (G (enc_of x))|exact EX].
  - apply bind_inv in H. destruct H as (o & _ & H). injection H as _ <-. split; [apply G|exact EX].
  - injection H as _ <-. split; [apply G|exact EX].
  - apply bind_inv in H. destruct H as (o & _ & H). injection H as _ <-. split; [apply G|exact EX].
Qed.
Fixpoint any_header (os : list (sobu T)) (ps : list (list Z)) : bool :=
  match os, ps with o :: os, p :: ps => wrote_header o p || any_header os ps | _, _ => false end.
Lemma payloads_enc : forall os x ps x', Forall not_seq os -> c_reduced (z_ctx x) = true \/ c_existing (z_ctx x) = false -> payloads superblock x (map Call os) = Ok (ps, x') ->
  enc_of x' = enc_grain_set (enc_of x) (e_grain (enc_of x) || any_header os ps).
Proof.
  induction os as [|o os IH]; intros x ps x' NS EX H; cbn [map payloads] in H.
  - injection H as <- <-. cbn. rewrite orb_false_r. reflexivity.
  - apply bind_inv in H. destruct H as ([p x1] & E & H). apply bind_inv in H. destruct H as ([qs x2] & E2 & H). injection H as <- <-. inversion NS as [|? ? N1 N2]; subst.
    destruct (payload_enc _ _ _ _ N1 EX E) as (A & EX1). rewrite (IH _ _ _ N2 EX1 E2), A. cbn [any_header]. unfold enc_grain_set. cbn. rewrite orb_assoc. reflexivity.
Qed.

Lemma seq_after_frames x h : seq_ok (enc_of x) h -> sizes_ok h -> c_existing (z_ctx x) = false ->
  (forall k, is_floor_log2 (sh_w h - 1) k <-> is_floor_log2 (sh_max_w h) k) -> (forall k, is_floor_log2 (sh_h h - 1) k <-> is_floor_log2 (sh_max_h h) k) ->
  exists code x1 v h', enc_seq [] (enc_of x) h = Ok (code, enc_of x1, h') /\ payload superblock x (SSequence h) = Ok (code, x1) /\ (forall r, rd_seq false (code ++ r) = Some (v, r)) /\
  forall os ps x2, Forall not_seq os -> payloads superblock x1 (map Call os) = Ok (ps, x2) ->
  exists code2 x3, payload superblock x2 (SSequence h') = Ok (code2, x3) /\
    forall r, rd_seq false (code2 ++ r) = Some (with_grain v (ps_grain v || any_header os ps), r).
Proof.
  intros SO SZ EX FW FH. assert (A1 : Z.log2 (sh_w h - 1) = Z.log2 (sh_max_w h)) by (destruct SZ; apply floor_log2_eq; [lia..|assumption]).
  assert (A2 : Z.log2 (sh_h h - 1) = Z.log2 (sh_max_h h)) by (destruct SZ; apply floor_log2_eq; [lia..|assumption]).
  destruct (seq_parse_back _ _ SO SZ A1 A2) as (code & e' & h' & E & R & SO' & (W1 & W2 & W3 & W4) & V). specialize (E []). cbn [app] in E.
  pose proof (seq_runs _ _ _ _ _ _ E) as Q.
  assert (ES : enc_of (store_enc x e') = e') by (destruct Q; apply enc_store; assumption).
  eexists. exists (store_enc x e'). eexists. exists h'. rewrite ES. split; [exact E|]. split; [cbn [payload]; rewrite E; reflexivity|]. split; [exact R|].
  intros os ps x2 NS P. pose proof (payloads_enc os (store_enc x e') ps x2 NS (or_intror EX) P) as X2. rewrite ES in X2.
  set (g := e_grain e' || any_header os ps) in X2.
  assert (SO2 : seq_ok (enc_of x2) h') by (rewrite X2; exact SO'). assert (SZ2 : sizes_ok h') by (unfold sizes_ok in *; rewrite W1, W2, W3, W4; exact SZ).
  destruct (seq_parse_back _ _ SO2 SZ2) as (code2 & e2 & h2 & E2 & R2 & _); [congruence..|]. specialize (E2 []). cbn [app] in E2.
  exists code2, (store_enc x2 e2). cbn [payload]. rewrite E2. cbn [bind]. split; [reflexivity|]. intros r. rewrite R2. do 2 f_equal. rewrite X2, W3, W4.
  match goal with |- seq_view _ _ ?a ?b = _ => specialize (V a b); set (w1 := a) in *; set (hh := b) in * end.
  transitivity (with_grain (seq_view e' h' w1 hh) g); [reflexivity|]. rewrite V. unfold g. rewrite (sr_grain _ _ _ Q). reflexivity.
Qed.
End Again.

(** ** The number of planes *)
Lemma planes_kept : forall T superblock x h code x1, 0 <= sh_profile h <= 2 -> @payload T superblock x (SSequence h) = Ok (code, x1) ->
  c_planes (z_ctx x1) = c_planes (z_ctx x) /\ (z_planes x1 = if c_mono (z_ctx x1) then 1 else 3).
Proof.
  intros T superblock x h code x1 Hp H. cbn [payload] in H. apply bind_inv in H. destruct H as ([[out e] h'] & E & H). injection H as _ <-. split; [reflexivity|].
  cbn [store_enc z_planes z_ctx c_mono]. exact (proj1 (proj2 (proj2 (seq_state _ _ _ _ _ _ Hp E)))).
Qed.

(** Bit depth and number of planes of the encoder: only sequence headers set them, from
    what they write; neither other calls nor assignments of the caller touch them. *)
Definition quiet {T} (a : action T) : Prop := match a with Call (SSequence _) => False | _ => True end.
Lemma depth_kept : forall T superblock x h code x1, 0 <= sh_profile h <= 2 -> @payload T superblock x (SSequence h) = Ok (code, x1) ->
  (z_depth x1 = if z_high x then (if (sh_profile h =? 2) && z_twelve x then 12 else 10) else 8) /\
  (z_planes x1 = if negb (sh_profile h =? 1) && c_mono (z_ctx x) then 1 else 3) /\
  (forall l ps x2, Forall quiet l -> payloads superblock x1 l = Ok (ps, x2) -> z_depth x2 = z_depth x1 /\ z_planes x2 = z_planes x1).
Proof.
  intros T superblock x h code x1 Hp H. cbn [payload] in H. apply bind_inv in H. destruct H as ([[out e] h'] & E & H). injection H as _ <-.
  destruct (seq_state _ _ _ _ _ _ Hp E) as (D & M & P & _). split; [exact D|]. split; [cbn [store_enc z_planes]; rewrite P, M; reflexivity|].
  intros l. generalize (store_enc x e). clear. induction l as [|[o|g] l IH]; intros x ps x2 F H; cbn [payloads] in H.
  - injection H as _ <-. split; reflexivity.
  - apply bind_inv in H. destruct H as ([p x1] & E & H). apply bind_inv in H. destruct H as ([qs x3] & E2 & H). injection H as _ <-.
    destruct (IH _ _ _ (Forall_inv_tail F) E2) as (-> & ->). apply Forall_inv in F.
    destruct o as [h| |f| |f groups st cdef|m|f|n]; cbn [payload quiet] in *; [contradiction| | | | | | | ].
    + injection E as _ <-. auto.
    + apply bind_inv in E. destruct E as ([[o c] f'] & _ & E). injection E as _ <-. auto.
    + injection E as _ <-. auto.
    + apply tile_group_run in E. destruct E as (s & e & n & b & -> & _). auto.
    + apply bind_inv in E. destruct E as (o & _ & E). injection E as _ <-. auto.
    + injection E as _ <-. auto.
    + apply bind_inv in E. destruct E as (o & _ & E). injection E as _ <-. auto.
  - destruct (IH _ _ _ (Forall_inv_tail F) H) as (-> & ->). split; reflexivity.
Qed.

(** A sequence header leaves the state of the frames alone. *)
Lemma sequence_keeps : forall T superblock x h code x1, @payload T superblock x (SSequence h) = Ok (code, x1) ->
    c_seen (z_ctx x1) = c_seen (z_ctx x) /\ c_ids (z_ctx x1) = c_ids (z_ctx x) /\ c_add_len (z_ctx x1) = c_add_len (z_ctx x) /\
    c_delta_len (z_ctx x1) = c_delta_len (z_ctx x) /\ c_reduced (z_ctx x1) = c_reduced (z_ctx x) /\ c_existing (z_ctx x1) = c_existing (z_ctx x) /\
    c_map_idx (z_ctx x1) = c_map_idx (z_ctx x) /\ c_show (z_ctx x1) = c_show (z_ctx x) /\ c_showable (z_ctx x1) = c_showable (z_ctx x) /\
    c_intra (z_ctx x1) = c_intra (z_ctx x) /\ c_refresh (z_ctx x1) = c_refresh (z_ctx x) /\ c_ref_type (z_ctx x1) = c_ref_type (z_ctx x) /\
    c_ref_valid (z_ctx x1) = c_ref_valid (z_ctx x) /\ c_ref_id (z_ctx x1) = c_ref_id (z_ctx x) /\ c_ref_hint (z_ctx x1) = c_ref_hint (z_ctx x) /\
    c_order_hints (z_ctx x1) = c_order_hints (z_ctx x) /\ c_expected (z_ctx x1) = c_expected (z_ctx x) /\ c_sign_bias (z_ctx x1) = c_sign_bias (z_ctx x) /\
    c_no_update (z_ctx x1) = c_no_update (z_ctx x) /\ c_prev_id (z_ctx x1) = c_prev_id (z_ctx x) /\ c_cur_id (z_ctx x1) = c_cur_id (z_ctx x) /\
    c_override (z_ctx x1) = c_override (z_ctx x) /\ c_opm (z_ctx x1) = c_opm (z_ctx x) /\ c_tid (z_ctx x1) = c_tid (z_ctx x) /\
    c_sid (z_ctx x1) = c_sid (z_ctx x) /\ c_denom (z_ctx x1) = c_denom (z_ctx x) /\ c_up (z_ctx x1) = c_up (z_ctx x) /\
    c_superres (z_ctx x1) = c_superres (z_ctx x) /\ c_bits (z_ctx x1) = c_bits (z_ctx x) /\ c_sb128 (z_ctx x1) = c_sb128 (z_ctx x) /\
    c_col_starts (z_ctx x1) = c_col_starts (z_ctx x) /\ c_row_starts (z_ctx x1) = c_row_starts (z_ctx x) /\ c_update_tile (z_ctx x1) = c_update_tile (z_ctx x) /\
    c_size_bytes (z_ctx x1) = c_size_bytes (z_ctx x) /\ c_dq (z_ctx x1) = c_dq (z_ctx x) /\ c_planes (z_ctx x1) = c_planes (z_ctx x) /\
    c_pre_skip (z_ctx x1) = c_pre_skip (z_ctx x) /\ c_last_seg (z_ctx x1) = c_last_seg (z_ctx x) /\ c_coded_lossless (z_ctx x1) = c_coded_lossless (z_ctx x) /\
    c_all_lossless (z_ctx x1) = c_all_lossless (z_ctx x) /\ c_lossless (z_ctx x1) = c_lossless (z_ctx x) /\ c_qm (z_ctx x1) = c_qm (z_ctx x) /\
    c_cur_q (z_ctx x1) = c_cur_q (z_ctx x) /\ c_lr (z_ctx x1) = c_lr (z_ctx x) /\ c_restoration (z_ctx x1) = c_restoration (z_ctx x) /\
    c_tx_mode (z_ctx x1) = c_tx_mode (z_ctx x) /\ c_skip_allowed (z_ctx x1) = c_skip_allowed (z_ctx x) /\ c_skip_frames (z_ctx x1) = c_skip_frames (z_ctx x) /\
    c_no_end (z_ctx x1) = c_no_end (z_ctx x) /\ c_gm_type (z_ctx x1) = c_gm_type (z_ctx x) /\ c_gm (z_ctx x1) = c_gm (z_ctx x) /\
    c_prev_gm (z_ctx x1) = c_prev_gm (z_ctx x) /\ c_grain (z_ctx x1) = c_grain (z_ctx x) /\ c_ref_grain (z_ctx x1) = c_ref_grain (z_ctx x) /\
    c_id_len (z_ctx x1) = c_id_len (z_ctx x) /\
    z_cdef x1 = z_cdef x /\ z_high x1 = z_high x /\ z_twelve x1 = z_twelve x /\ z_tg_start x1 = z_tg_start x /\ z_tg_end x1 = z_tg_end x /\ z_tile_num x1 = z_tile_num x.
Proof.
  intros T superblock x h code x1 H. cbn [payload] in H. apply bind_inv in H. destruct H as ([[out e] h'] & _ & H). injection H as _ <-.
  unfold store_enc. cbv zeta. repeat split; reflexivity.
Qed.
