(** Proofs about frame identifiers, frames shown again, and which frame headers can
    be written at all. *)
From Coq Require Import ZArith List Bool Lia ZifyBool ZifyNat.
From Verif Require Import Base BaseProofs TableLemmas UtilModel UtilSpec UtilProofs BitsSpec BitsProofs RangeCoderModel BitCodecModel BitCodecProofs
  SessionModel SeqModel SeqSpec SeqProofs ElementSpec TileModel TileSpec TileProofs FrameParamModel FrameModel FrameSpec FrameBits FrameProofs FrameProofs2 FrameProofs3 FrameProofs4 FrameProofs5 FrameProofs6.
Import ListNotations.
Open Scope Z_scope.
Ltac Zify.zify_post_hook ::= Z.div_mod_to_equations.
#[local] Opaque to_bits.

Lemma nth_default_set_other A (l : list A) i j x d : i <> j -> nth j (set_nth i x l) d = nth j l d.
Proof. revert i j. induction l; intros [|i] [|j] N; try reflexivity; try (now destruct N). cbn. apply IHl. lia. Qed.
Lemma nth_default_set_same A (l : list A) i x d : (i < length l)%nat -> nth i (set_nth i x l) d = x.
Proof. revert i. induction l; intros [|i] N; cbn in *; try lia; [reflexivity|]. apply IHl. lia. Qed.

(** ** Identifiers *)
Definition ids_typed (id_len diff cur : Z) (ids : list Z) (valid : list bool) : Prop :=
  0 <= diff <= id_len /\ id_len <= 32 /\ 0 <= cur < 2 ^ id_len /\ length ids = 8%nat /\ length valid = 8%nat /\ Forall (fun r => 0 <= r < 2 ^ id_len) ids.
Lemma id_usable_cases L d cur r : 0 <= d <= L -> 0 <= cur < 2 ^ L -> 0 <= r < 2 ^ L ->
  negb (id_usable L d cur r) =
  if 2 ^ d <? cur then (cur <? r) || (r <? cur - 2 ^ d) else if cur <? r then r <? 2 ^ L + cur - 2 ^ d else false.
Proof.
  intros D C R. unfold id_usable. assert (P : 2 ^ d <= 2 ^ L) by (apply pow2_le; lia). pose proof (pow2_pos d).
  destruct (Z.le_gt_cases r cur).
  - rewrite Z.mod_small by lia. destruct (2 ^ d <? cur) eqn:E; destruct (cur <? r) eqn:E2; lia.
  - replace (cur - r) with (cur - r + 2 ^ L + (-1) * 2 ^ L) by ring. rewrite Z.mod_add by lia. rewrite Z.mod_small by lia. destruct (2 ^ d <? cur) eqn:E; destruct (cur <? r) eqn:E2; lia.
Qed.
Lemma mark_step L d cur ids valid (i : nat) is r v : 0 <= d <= L -> L <= 32 -> 0 <= cur < 2 ^ L -> nth_error ids i = Some r -> 0 <= r < 2 ^ L ->
  nth_error valid i = Some v ->
  mark_refs (i :: is) cur L d ids valid = mark_refs is cur L d ids (set_nth i (v && id_usable L d cur r) valid).
Proof.
  intros D LL C N R V. cbn [mark_refs]. rewrite shift_ok_ok by lia. cbn [bind]. rewrite (idx_nth _ _ _ _ N). cbn [bind].
  assert (P : 1 <= 2 ^ d <= 2 ^ 32) by (split; [pose proof (pow2_pos d); lia|apply pow2_le; lia]). assert (PL : 2 ^ d <= 2 ^ L <= 2 ^ 32) by (split; apply pow2_le; lia).
  change (2 ^ 32) with 4294967296 in P, PL. unfold as_u64. rewrite !shiftl_mul, !Z.mul_1_l by lia. rewrite (Z.mod_small (2 ^ d)) by lia.
  assert (LV : (i < length valid)%nat) by (apply nth_error_Some; congruence).
  assert (S : forall b : bool, (if b then put valid (Z.of_nat i) false else Ok valid) = Ok (set_nth i (v && negb b) valid)).
  { intros [|]; [rewrite put_ok by exact LV; rewrite andb_false_r; reflexivity|]. cbn [negb]. rewrite andb_true_r. f_equal.
    clear - V. revert i V. induction valid as [|a l IH]; intros [|i] V; cbn in *; try discriminate; [congruence|f_equal; apply IH; exact V]. }
  pose proof (id_usable_cases L d cur r D C R) as U. destruct (2 ^ d <? cur) eqn:E1.
  - cbn [bind]. rewrite S. cbn [bind]. rewrite <- U, negb_involutive. reflexivity.
  - destruct (cur <? r) eqn:E2.
    + rewrite shift_ok_ok by lia. cbn [bind]. rewrite (Z.mod_small (2 ^ L)) by lia. rewrite chk_u64_ok by lia. cbn [bind]. rewrite chk_u64_ok by lia. cbn [bind].
      rewrite S. cbn [bind]. rewrite <- U, negb_involutive. reflexivity.
    + cbn [bind]. pose proof (S false) as S0. cbv iota in S0. injection S0 as S0. assert (U' : id_usable L d cur r = negb false) by (rewrite <- U, negb_involutive; reflexivity). rewrite U'. cbn [negb]. rewrite <- S0. reflexivity.
Qed.
Lemma mark_refs_loop L d cur ids : 0 <= d <= L -> L <= 32 -> 0 <= cur < 2 ^ L -> Forall (fun r => 0 <= r < 2 ^ L) ids -> forall n a valid, length ids = (a + n)%nat -> length valid = (a + n)%nat ->
  exists valid', mark_refs (seq a n) cur L d ids valid = Ok valid' /\ length valid' = length valid /\
    (forall i, (i < a)%nat -> nth i valid' false = nth i valid false) /\
    (forall i, (a <= i < a + n)%nat -> nth i valid' false = nth i valid false && id_usable L d cur (nth i ids 0)).
Proof.
  intros D LL C F. induction n as [|n IH]; intros a valid I V.
  - exists valid. split; [reflexivity|]. split; [reflexivity|]. split; [reflexivity|]. lia.
  - cbn [seq]. assert (A : (a < length ids)%nat) by lia. assert (B : (a < length valid)%nat) by lia.
    pose proof (nth_error_nth' ids 0 A) as NA. pose proof (nth_error_nth' valid false B) as NB.
    assert (R : 0 <= nth a ids 0 < 2 ^ L). { rewrite Forall_forall in F. apply F. apply nth_In. exact A. }
    rewrite (mark_step L d cur ids valid a (seq (S a) n) _ _ D LL C NA R NB).
    destruct (IH (S a) (set_nth a (nth a valid false && id_usable L d cur (nth a ids 0)) valid)) as (v' & E & LE & P1 & P2); [lia|rewrite set_nth_length; lia|].
    exists v'. split; [exact E|]. split; [rewrite LE; apply set_nth_length|]. split.
    + intros i H. rewrite P1 by lia. apply nth_default_set_other. lia.
    + intros i H. destruct (Nat.eq_dec i a) as [->|N].
      * rewrite P1 by lia. rewrite nth_default_set_same by lia. reflexivity.
      * rewrite P2 by lia. f_equal. apply nth_default_set_other. lia.
Qed.

(** The identifier is written so that a decoder reads it, and a reference is given up
    exactly if its identifier is too far back. *)
Lemma ids_marked c id_len valid : c_ids c = true -> ids_typed id_len (c_delta_len c) (c_cur_id c) (c_ref_id c) valid -> exists bits valid',
  enc_ids [] id_len c valid = Ok (bits, c_cur_id c, c_cur_id c, valid') /\ decodes bits (rd (Z.to_nat id_len)) (c_cur_id c) /\ length valid' = 8%nat /\
  forall i, (i < 8)%nat -> nth i valid' false = nth i valid false && id_usable id_len (c_delta_len c) (c_cur_id c) (nth i (c_ref_id c) 0).
Proof.
  intros I (D & L & C & LI & LV & F). unfold enc_ids. rewrite I. assert (P : 2 ^ id_len <= 2 ^ 32) by (apply pow2_le; lia). unfold as_u32, as_u8.
  rewrite !Z.mod_small by lia. rewrite push_bits_with_size_ok by lia. cbn [bind].
  destruct (mark_refs_loop id_len (c_delta_len c) (c_cur_id c) (c_ref_id c) D L C F 8 0 valid LI LV) as (v & E & LE & _ & H).
  change (upto NUM_REF_FRAMES) with (seq 0 8). rewrite E. cbn [bind]. exists (to_bits (Z.to_nat id_len) (c_cur_id c)), v. split; [reflexivity|]. split.
  - split; [apply to_bits_bits|]. intros k. rewrite rd_any. rewrite Z.mod_small by (rewrite Z2Nat.id by lia; lia). reflexivity.
  - split; [lia|]. intros i Hi. apply H. lia.
Qed.
(** The length of an identifier: the two lengths of the sequence header. *)
Lemma id_length_ok c : c_ids c = true -> 2 <= c_delta_len c < 256 -> 1 <= c_add_len c < 256 -> id_length c = Ok (c_add_len c + c_delta_len c).
Proof. intros I D A. unfold id_length. rewrite I. rewrite !chk_u64_ok by lia. cbn [bind]. rewrite !chk_u64_ok by lia. cbn [bind]. rewrite !chk_u64_ok by lia. f_equal. lia. Qed.

(** ** A frame shown again *)
(** What the decoder was told before agrees with what the encoder uses. *)
Definition point_known (s : av1_seq) (c : ctx) (f : frm) : Prop :=
  s_equal s = equal_interval (c_timing c) /\
  match f_dm f, s_dm s with
  | Some d, Some (n, m) => 0 <= fm_presentation_len d <= 32 /\ n = Z.to_nat (fm_presentation_len d) /\
      0 <= fm_removal_len d <= 32 /\ m = Z.to_nat (fm_removal_len d) /\ (s_equal s = false -> f_tpi f <> None)
  | None, None => True
  | _, _ => False
  end.
Definition ids_known (s : av1_seq) (c : ctx) : Prop :=
  s_ids s = c_ids c /\ (c_ids c = true -> 2 <= c_delta_len c <= 17 /\ 1 <= c_add_len c <= 15 /\ s_id_len s = Z.to_nat (c_add_len c + c_delta_len c)) /\
  (c_ids c = false -> 0 <= c_id_len c).
Definition point_code (c : ctx) (f : frm) : list Z :=
  match f_dm f with
  | None => []
  | Some d => if equal_interval (c_timing c) then [] else match f_tpi f with Some t => to_bits (Z.to_nat (fm_presentation_len d)) t | None => [] end
  end.
Lemma enc_point_ok out s c f : point_known s c f -> enc_point out c f = Ok (out ++ point_code c f).
Proof.
  intros (E & K). unfold enc_point, point_code. destruct (f_dm f) as [d|], (s_dm s) as [[n m]|]; try contradiction; [|rewrite app_nil_r; reflexivity].
  destruct K as (K1 & K2 & _ & _ & K). rewrite E in K. destruct (equal_interval (c_timing c)); [rewrite app_nil_r; reflexivity|].
  specialize (K eq_refl). destruct (f_tpi f); [|congruence]. apply push_bits_with_size_ok. lia.
Qed.
Lemma point_code_bits c f : is_bits (point_code c f).
Proof. unfold point_code. destruct (f_dm f); [|constructor]. destruct (equal_interval _); [constructor|]. destruct (f_tpi f); [apply to_bits_bits|constructor]. Qed.
Lemma rd_point_ok s c f k : point_known s c f -> rd_point s (point_code c f ++ k) = Some (tt, k).
Proof.
  intros (E & K). unfold rd_point, point_code. destruct (f_dm f) as [d|], (s_dm s) as [[n m]|]; try contradiction; [|reflexivity].
  destruct K as (K1 & -> & _ & _ & K). rewrite E in *. destruct (equal_interval (c_timing c)); [reflexivity|].
  specialize (K eq_refl). destruct (f_tpi f); [|congruence]. rewrite rd_any. reflexivity.
Qed.
Definition show_typ (c : ctx) : Z := nth (Z.to_nat (c_map_idx c)) (c_ref_type c) (-1).
Definition show_refresh (c : ctx) : Z := if show_typ c =? 0 then 255 else 0.
(** The header of a frame that is shown again is what a decoder expects, and the frame
    type and the flags kept are those of a decoder. *)
Lemma existing_decoded s c f : c_seen c = false -> c_reduced c = false -> c_existing c = true -> s_reduced s = false ->
  point_known s c f -> ids_known s c -> (c_ids c = true -> f_display_id f <> None) ->
  0 <= c_map_idx c < 8 -> length (c_ref_type c) = 8%nat -> s_ref_types s = c_ref_type c -> exists bits c' f',
  encode_frame_header [] c f = Ok (bits, c', f') /\
  decodes bits (rd_header s) (ShowExisting (c_map_idx c) (show_typ c) (show_refresh c)) /\
  f_type f' = show_typ c /\ c_refresh c' = show_refresh c /\ c_seen c' = true.
Proof.
  intros S R E SR P (I1 & I2 & I3) D M LT RT. unfold encode_frame_header. rewrite S, R, E. cbn [negb andb].
  assert (X : exists l, id_length c = Ok l /\ (c_ids c = true -> l = c_add_len c + c_delta_len c)).
  { destruct (c_ids c) eqn:Q; [|exists (c_id_len c); unfold id_length; rewrite Q; split; [reflexivity|discriminate]]. destruct (I2 eq_refl) as (A & B & _).
    eexists. split; [apply id_length_ok; [exact Q|lia|lia]|]. reflexivity. }
  destruct X as (l & -> & Hl). cbn [bind]. unfold enc_existing. rewrite pbit_app. rewrite push_bits_with_size_ok by lia. cbn [bind]. rewrite (enc_point_ok _ _ _ _ P). cbn [bind].
  set (code := if c_ids c then match f_display_id f with Some i => to_bits (Z.to_nat (c_add_len c + c_delta_len c)) i | None => [] end else []).
  assert (W : forall o, (if c_ids c then match f_display_id f with Some i => push_bits_with_size o i (as_u8 l) | None => Panic end else Ok o) = Ok (o ++ code)).
  { intros o. unfold code. destruct (c_ids c); [|rewrite app_nil_r; reflexivity]. specialize (D eq_refl). specialize (Hl eq_refl). destruct (I2 eq_refl) as (A & B & _). destruct (f_display_id f); [|congruence].
    subst l. unfold as_u8. rewrite Z.mod_small by lia. apply push_bits_with_size_ok. lia. }
  rewrite W. cbn [bind]. assert (N : idx (c_ref_type c) (c_map_idx c) = Ok (show_typ c)).
  { unfold show_typ. rewrite <- (Z2Nat.id (c_map_idx c)) at 1 by lia. apply idx_nth. apply nth_error_nth'. lia. }
  rewrite N. cbn [bind]. do 3 eexists. split; [reflexivity|]. split; [|split; [reflexivity|]; split; reflexivity].
  split.
  - apply is_bits_app. split; [|unfold code; destruct (c_ids c); [destruct (f_display_id f); [apply to_bits_bits|constructor]|constructor]].
    apply is_bits_app. split; [|apply point_code_bits]. apply is_bits_app. split; [cbn; repeat constructor; unfold is_bit; lia|apply to_bits_bits].
  - intros k. unfold rd_header, rd_if. rewrite SR. cbn [negb app]. rewrite <- !app_assoc. cbn [app]. rewrite rd1_ok. cbn [obind].
    change (Z.to_nat 3) with 3%nat. rewrite rd_any. rewrite Z.mod_small by (change (2 ^ Z.of_nat 3) with 8; lia). cbn [obind]. rewrite (rd_point_ok _ _ _ _ P). cbn [obind].
    rewrite I1, RT. unfold code. destruct (c_ids c); [|reflexivity]. destruct (I2 eq_refl) as (A & B & ->). specialize (D eq_refl). destruct (f_display_id f); [|congruence]. rewrite rd_any. reflexivity.
Qed.
(** A header after one that was written, without a temporal delimiter or a tile group
    between them, is dropped, whatever frame it is for. *)
Lemma header_after out c f out' c' f' g out2 : c_seen c = false -> encode_frame_header out c f = Ok (out', c', f') -> encode_frame_header out2 c' g = Ok (out2, c', g).
Proof.
  intros S H. assert (T : c_seen c' = true); [|unfold encode_frame_header; rewrite T; reflexivity].
  unfold encode_frame_header in H. rewrite S in H. destruct (bind_inv _ _ _ _ _ H) as (l & _ & H1). clear H. destruct (negb (c_reduced c) && c_existing c).
  - destruct (bind_inv _ _ _ _ _ H1) as (((o & r) & t) & _ & H2). injection H2 as _ <- _. reflexivity.
  - cbv zeta in H1. repeat match type of H1 with
    | bind _ _ = Ok _ => let v := fresh "v" in let E := fresh "E" in destruct (bind_inv _ _ _ _ _ H1) as (v & E & H2); clear H1 E; rename H2 into H1; try (destruct v as [v ?]); try (destruct v as [v ?]); try (destruct v as [v ?]); cbv beta iota in H1
    | (let '(_, _) := ?x in _) = Ok _ => destruct x
    end. injection H1 as _ <- _. reflexivity.
Qed.

(** ** Which headers are written at all *)
Lemma put_all_inv A (is : list nat) x : forall (v : list A) v', put_all v (map (fun i => 1 + Z.of_nat i) is) x = Ok v' -> forall i, In i is -> (S i < length v)%nat.
Proof.
  unfold put_all. assert (P : forall is (r : res (list A)) v', fold_left (fun acc i => v <- acc ;; put v i x) (map (fun i => 1 + Z.of_nat i) is) r = Ok v' ->
    exists v, r = Ok v /\ forall i, In i is -> (S i < length v)%nat).
  { clear. induction is as [|a is IH]; intros r v' H; cbn [map fold_left] in H; [exists v'; split; [exact H|contradiction]|].
    destruct (IH _ _ H) as (w & E & Hw). apply bind_inv in E. destruct E as (v & -> & E). exists v. split; [reflexivity|].
    replace (1 + Z.of_nat a) with (Z.of_nat (S a)) in E by lia. apply put_inv in E. destruct E as [L ->]. intros i [<-|I]; [exact L|]. specialize (Hw i I). rewrite set_nth_length in Hw. exact Hw. }
  intros v v' H. destruct (P is (Ok v) v' H) as (w & E & Hw). injection E as <-. exact Hw.
Qed.
Lemma reset_refs_inv c t r : length (c_order_hints c) = 7%nat -> reset_refs c t = Ok r -> (t_type t =? KEY_FRAME) && t_show t = false /\ r = (c_ref_valid c, c_ref_hint c, c_order_hints c).
Proof.
  intros L H. unfold reset_refs in H. destruct ((t_type t =? KEY_FRAME) && t_show t); [|injection H as <-; split; reflexivity].
  exfalso. apply bind_inv in H. destruct H as (a & _ & H). apply bind_inv in H. destruct H as (b & _ & H). apply bind_inv in H. destruct H as (d & E & _).
  pose proof (put_all_inv _ _ _ _ _ E 6%nat) as P. rewrite L in P. assert (I : In 6%nat (upto REFS_PER_FRAME)) by (vm_compute; tauto). specialize (P I). lia.
Qed.
Lemma set_order_hints_inv c f hint : forall is hints bias r, set_order_hints is c f hint hints bias = Ok r -> forall i, In i is -> (S i < length hints)%nat.
Proof.
  induction is as [|a is IH]; intros hints bias r H; [contradiction|]. cbn [set_order_hints] in H.
  apply bind_inv in H. destruct H as (x & _ & H). apply bind_inv in H. destruct H as (h & _ & H). apply bind_inv in H. destruct H as (hs & E & H).
  apply bind_inv in H. destruct H as (b & _ & H). apply bind_inv in H. destruct H as (bs & _ & H).
  replace (1 + Z.of_nat a) with (Z.of_nat (S a)) in E by lia. apply put_inv in E. destruct E as [L ->]. intros i [<-|I]; [exact L|].
  specialize (IH _ _ _ H i I). rewrite set_nth_length in IH. exact IH.
Qed.
(** A header is written only for a frame shown again, a hidden key frame or an
    intra-only frame, and not with reduced_still_picture_header. *)
Lemma header_needs out c f r : c_seen c = false -> length (c_order_hints c) = 7%nat -> encode_frame_header out c f = Ok r ->
  c_reduced c = false /\ (c_existing c = true \/ (f_type f = KEY_FRAME /\ c_show c = false) \/ f_type f = INTRA_ONLY_FRAME).
Proof.
  intros S L H. unfold encode_frame_header in H. rewrite S in H. apply bind_inv in H. destruct H as (l & _ & H). destruct (negb (c_reduced c) && c_existing c) eqn:X.
  - apply andb_true_iff in X. destruct (c_reduced c); [destruct X; discriminate|]. split; [reflexivity|]. left. apply X.
  - cbv zeta in H. apply bind_inv in H. destruct H as ((o & t) & T & H). apply bind_inv in H. destruct H as (((v & h) & hs) & R & H).
    apply (reset_refs_inv c t _ L) in R. destruct R as (K & R). injection R as -> -> ->.
    unfold enc_top in T. destruct (c_reduced c); [injection T as _ <-; discriminate|]. split; [reflexivity|]. right.
    apply bind_inv in T. destruct T as (o1 & _ & T). apply bind_inv in T. destruct T as (o2 & _ & T).
    destruct (if c_show c then (o2, false) else _) as [o3 sh]. destruct (if (f_type f =? SWITCH_FRAME) || _ then _ else _) as [o4 er]. injection T as _ <-. cbn [t_type t_show t_intra] in *.
    destruct ((f_type f =? INTRA_ONLY_FRAME) || (f_type f =? KEY_FRAME)) eqn:I.
    + apply orb_true_iff in I. destruct I as [I|I]; apply Z.eqb_eq in I; [right; exact I|left]. split; [exact I|]. rewrite I, Z.eqb_refl in K. exact K.
    + exfalso. destruct (enc_tools2 _ _ _ _) as [[o5 sct] imv]. apply bind_inv in H. destruct H as ((((o6 & p) & cu) & va) & _ & H).
      destruct (enc_override _ _ _) as [o7 ov]. apply bind_inv in H. destruct H as (o8 & _ & H). apply bind_inv in H. destruct H as ((o9 & pr) & _ & H).
      apply bind_inv in H. destruct H as (o10 & _ & H). apply bind_inv in H. destruct H as ((o11 & rf) & _ & H). apply bind_inv in H. destruct H as (va2 & _ & H).
      apply bind_inv in H. destruct H as ((o12 & m) & _ & H). cbn [negb] in H. apply bind_inv in H. destruct H as ((hs2 & bi) & E & _).
      pose proof (set_order_hints_inv _ _ _ _ _ _ _ E 6%nat) as P. rewrite L in P. assert (J : In 6%nat (upto REFS_PER_FRAME)) by (vm_compute; tauto). specialize (P J). lia.
Qed.
(** With uniform tile spacing and the vectors of tile starts the encoder creates none
    is written for a new frame. *)
Lemma header_starts out c f r : c_seen c = false -> length (c_order_hints c) = 7%nat -> c_existing c = false -> f_uniform f = true -> c_col_starts c = initial_starts ->
  encode_frame_header out c f <> Ok r.
Proof.
  intros S L X U CS H. unfold encode_frame_header in H. rewrite S in H. apply bind_inv in H. destruct H as (l & _ & H). rewrite X, andb_false_r in H.
  cbv zeta in H.
  repeat match type of H with
    | (x <- encode_tile_info _ _ _ _ _ _ _ _ _ _ _ ;; _) = Ok _ => fail 1
    | bind ?a _ = Ok _ => lazymatch a with encode_tile_info _ _ _ _ _ _ _ _ _ _ _ => fail | _ => idtac end;
        let v := fresh "v" in let E := fresh "E" in let H2 := fresh "H" in destruct (bind_inv _ _ _ _ _ H) as (v & E & H2); clear H E; rename H2 into H; try (destruct v as [v ?]); try (destruct v as [v ?]); try (destruct v as [v ?]); cbv beta iota in H
    | (let '(_, _) := ?x in _) = Ok _ => destruct x
    end.
  apply bind_inv in H. destruct H as (ti & E & _). rewrite U, CS in E. unfold encode_tile_info in E. apply bind_inv in E. destruct E as (lim0 & _ & E). apply bind_inv in E. destruct E as (zz & E & _).
  apply bind_inv in E. destruct E as (cl0 & _ & E). apply bind_inv in E. destruct E as (n0 & _ & E). apply bind_inv in E. destruct E as (u0 & _ & E). apply bind_inv in E. destruct E as (cs0 & E & _).
  cbn [fill_starts] in E. destruct (0 <? l_sb_cols lim0); cbn in E; discriminate.
Qed.
