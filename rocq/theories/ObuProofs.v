(** The OBU layer: header, framing and metadata. *)
From Coq Require Import ZArith List Bool Lia ZifyBool ZifyNat.
From Verif Require Import Base BaseProofs BitsSpec BitsProofs RangeCoderModel RangeEncProofs BitCodecModel BitCodecProofs LebProofs FieldProofs
  WriterModel WriterSpec WriterProofs SeqModel SeqSpec SeqProofs ObuModel ObuSpec.
Import ListNotations.
Open Scope Z_scope.
Ltac Zify.zify_post_hook ::= Z.div_mod_to_equations.

Definition header_byte (o : obu) : Z := 8 * obu_type o.

Lemma obu_type_range : forall o, 1 <= obu_type o <= 15.
Proof. destruct o; cbn; lia. Qed.

Lemma encode_obu_header_ok : forall o out, encode_obu_header o out = Ok (out ++ to_bits 8 (header_byte o)).
Proof.
  intros. unfold encode_obu_header. rewrite push_bits_with_size_ok by lia. cbn [bind]. unfold push. rewrite <- !app_assoc.
  f_equal. f_equal. unfold header_byte. destruct o; reflexivity.
Qed.

Lemma rd_header_byte : forall o, rd_obu_header (header_byte o) = (0, obu_type o, 0, 0, 0).
Proof. destruct o; reflexivity. Qed.

Lemma unpack_inj : forall a b, Forall is_byte a -> Forall is_byte b -> unpack a = unpack b -> a = b.
Proof.
  induction a as [|x a IH]; intros [|y b] Ha Hb E; try reflexivity;
    try (apply (f_equal (@length Z)) in E; rewrite !unpack_length in E; cbn [length] in E; lia).
  inversion Ha; subst. inversion Hb; subst. cbn [unpack flat_map] in E. fold (unpack a) in E. fold (unpack b) in E.
  assert (L : length (to_bits 8 x) = length (to_bits 8 y)) by (rewrite !to_bits_length; reflexivity).
  assert (E1 : to_bits 8 x = to_bits 8 y).
  { apply (f_equal (firstn 8)) in E. rewrite !firstn_app, !to_bits_length, !Nat.sub_diag, !firstn_O, !app_nil_r in E.
    rewrite !firstn_all2 in E by (rewrite to_bits_length; lia). assumption. }
  assert (E2 : unpack a = unpack b) by (rewrite E1 in E; apply app_inv_head in E; assumption).
  f_equal; [|apply IH; assumption].
  rewrite <- (bits_val_to_bits_small 8 x), <- (bits_val_to_bits_small 8 y), E1 by (unfold is_byte in *; cbn; lia). reflexivity.
Qed.

Lemma pack_exists : forall n l, is_bits l -> length l = (8 * n)%nat -> exists bytes, Forall is_byte bytes /\ unpack bytes = l.
Proof.
  induction n; intros l Hl L.
  - exists []. split; [constructor|]. destruct l; [reflexivity|cbn [length] in L; lia].
  - rewrite <- (firstn_skipn 8 l) in Hl. apply is_bits_app in Hl. destruct Hl as [H1 H2].
    destruct (IHn (skipn 8 l) H2) as (bs & B1 & B2); [rewrite skipn_length; lia|].
    assert (L8 : length (firstn 8 l) = 8%nat) by (rewrite firstn_length; lia).
    exists (bits_val (firstn 8 l) :: bs). split.
    + constructor; [|assumption]. pose proof (bits_val_bound _ H1) as B. rewrite L8 in B. exact B.
    + cbn [unpack flat_map]. fold (unpack bs). rewrite B2. rewrite <- L8 at 1. rewrite to_bits_val by assumption. apply firstn_skipn.
Qed.

Lemma packs_exists : forall P, is_bits P -> exists pb, packs P pb.
Proof.
  intros P HP. set (l := P ++ repeat 0 (pad8 (length P))).
  assert (HL : exists n, length l = (8 * n)%nat).
  { exists (length l / 8)%nat. unfold l. rewrite app_length, repeat_length, pad8_eq. lia. }
  destruct HL as [n Hn]. destruct (pack_exists n l) as (pb & B1 & B2); [|assumption|].
  - apply is_bits_app. split; [assumption|]. apply is_bits_repeat. left. reflexivity.
  - exists pb. split; assumption.
Qed.

Lemma packs_length : forall P pb, packs P pb -> Z.of_nat (length pb) = (Z.of_nat (length P) + 7) / 8.
Proof.
  intros P pb [_ E]. apply (f_equal (@length Z)) in E. rewrite unpack_length, app_length, repeat_length, pad8_eq in E. lia.
Qed.

Definition aligned (w : writer) : Prop := holds w (unpack (w_bytes w)) /\ w_index w = 0.

Lemma aligned_new : aligned new_writer.
Proof. split; [apply new_writer_holds|reflexivity]. Qed.

Lemma holds_aligned : forall w s, holds w s -> w_index w = 0 -> s = unpack (w_bytes w) /\ aligned w.
Proof.
  intros w s H Hi. pose proof H as (h & Hs & Hb & Hl & _). rewrite Hi in Hl. destruct h; [|cbn [length] in Hl; lia].
  rewrite app_nil_r in Hs. split; [auto|]. split; [rewrite Hs; assumption|assumption].
Qed.

Definition frame_bytes (o : obu) : list Z := [24; 16; 8; header_byte o].

Lemma leb_small : forall v, 0 <= v < 128 -> leb_code 8 v = to_bits 8 v.
Proof.
  intros v Hv. cbn [leb_code]. destruct (Z.ltb_spec 127 v); [lia|]. replace (v / 128) with 0 by lia. cbn [Z.ltb Z.compare].
  rewrite app_nil_r. change (to_bits 8 v) with ((v / 2 ^ Z.of_nat 7) mod 2 :: to_bits 7 v). f_equal. cbn. lia.
Qed.

Lemma unit_ok : forall w e o P e', aligned w -> encode_payload e o = Ok (P, e') -> is_bits P -> exists w' pb,
  encode_temporal_unit w e o = Ok (w', e') /\ aligned w' /\ packs P pb /\ w_bytes w' = w_bytes w ++ pb ++ frame_bytes o.
Proof.
  intros w e o P e' [Hw Hi] HP HB. unfold encode_temporal_unit, encode_obu. rewrite encode_obu_header_ok. cbn [bind app].
  rewrite HP. cbn [bind].
  destruct (write_bits_ok P w _ Hw HB) as (w1 & E1 & H1). rewrite E1. cbn [bind].
  destruct (byte_align_ok w1 _ H1) as (w2 & E2 & H2 & I2). rewrite E2. cbn [bind].
  assert (L1 : len (to_bits 8 (header_byte o)) = 8) by (unfold len; rewrite to_bits_length; reflexivity).
  rewrite L1. rewrite encode_leb128_ok by lia. cbn [bind app]. rewrite push_bits_ok.
  assert (L2 : len (leb_code 8 8 ++ to_bits 8 (header_byte o)) = 16) by (rewrite len_app, L1; reflexivity).
  rewrite L2. rewrite encode_leb128_ok by lia. cbn [bind app]. rewrite push_bits_ok.
  assert (L3 : len (leb_code 8 16 ++ leb_code 8 8 ++ to_bits 8 (header_byte o)) = 24) by (rewrite len_app, L2; reflexivity).
  rewrite L3. rewrite encode_leb128_ok by lia. cbn [bind app].
  rewrite !leb_small by lia.
  destruct (write_bits_ok (to_bits 8 24) w2 _ H2 (to_bits_bits 8 24)) as (w3 & E3 & H3). rewrite E3. cbn [bind].
  destruct (write_bits_ok (to_bits 8 16 ++ to_bits 8 8 ++ to_bits 8 (header_byte o)) w3 _ H3) as (w4 & E4 & H4).
  { apply is_bits_app; split; [apply to_bits_bits|]. apply is_bits_app; split; apply to_bits_bits. }
  rewrite E4. cbn [bind]. destruct (packs_exists P HB) as (pb & Hpb & Epb).
  exists w4, pb. split; [reflexivity|].
  (* the writer is aligned again *)
  destruct (holds_aligned w2 _ H2 I2) as [S2 _].
  assert (I4 : w_index w4 = 0).
  { destruct (holds_length _ _ H4) as [M _]. rewrite <- M. rewrite S2. rewrite !app_length, !unpack_length, !to_bits_length. lia. }
  destruct (holds_aligned w4 _ H4 I4) as [S4 A4]. split; [assumption|]. split; [split; assumption|].
  pose proof H4 as (h4 & _ & _ & _ & _ & _ & F4). pose proof Hw as (h0 & _ & _ & _ & _ & _ & F0).
  apply unpack_inj; [assumption| |].
  - apply Forall_app. split; [assumption|]. apply Forall_app. split; [assumption|]. unfold frame_bytes, header_byte, is_byte.
    pose proof (obu_type_range o). repeat (constructor; [lia|]). constructor.
  - rewrite <- S4. rewrite !unpack_app, Epb.
    assert (P8 : pad8 (length (unpack (w_bytes w) ++ P)) = pad8 (length P)).
    { rewrite !pad8_eq, app_length, unpack_length. f_equal. lia. }
    rewrite P8. rewrite <- !app_assoc. reflexivity.
Qed.

(** ** No reader can split the stream *)
Lemma rd_leb_length : forall n q v r, rd_leb n q = Some (v, r) -> (length r < length q)%nat /\
  (length q = S (length r) -> q = v :: r).
Proof.
  induction n; intros q v r H; [discriminate|]. destruct q as [|b q]; [discriminate|]. cbn [rd_leb] in H.
  destruct (b <? 128).
  - injection H as <- <-. cbn [length]. split; [lia|reflexivity].
  - destruct (rd_leb n q) as [[v' r']|] eqn:E; [|discriminate]. cbn [obind] in H. injection H as <- <-.
    destruct (IHn q v' r' E). cbn [length]. split; lia.
Qed.

Lemma framing_never : forall o pb h p, rd_temporal_unit (pb ++ frame_bytes o) = Some (h, p) -> ~ (h = header_byte o /\ p = pb).
Proof.
  intros o pb h p H [-> ->]. unfold rd_temporal_unit in H.
  destruct (rd_leb 8 (pb ++ frame_bytes o)) as [[tu q1]|] eqn:E1; [|discriminate]. cbn [obind] in H.
  destruct (tu =? Z.of_nat (length q1)) eqn:N1; cbn [negb] in H; [|discriminate].
  destruct (rd_leb 8 q1) as [[fu q2]|] eqn:E2; [|discriminate]. cbn [obind] in H.
  destruct (fu =? Z.of_nat (length q2)) eqn:N2; cbn [negb] in H; [|discriminate].
  destruct (rd_leb 8 q2) as [[ol q3]|] eqn:E3; [|discriminate]. cbn [obind] in H.
  destruct (ol =? Z.of_nat (length q3)) eqn:N3; cbn [negb] in H; [|discriminate].
  destruct q3 as [|h' p']; [discriminate|]. injection H as -> ->.
  destruct (rd_leb_length _ _ _ _ E1) as [L1 R1]. destruct (rd_leb_length _ _ _ _ E2) as [L2 R2].
  destruct (rd_leb_length _ _ _ _ E3) as [L3 R3]. rewrite app_length in L1, R1. cbn [frame_bytes length] in *.
  specialize (R3 ltac:(lia)). rewrite R3 in *. cbn [length] in *. specialize (R2 ltac:(lia)). rewrite R2 in *. cbn [length] in *.
  specialize (R1 ltac:(lia)).
  assert (C : forall x, count_occ Z.eq_dec (pb ++ [24; 16; 8; header_byte o]) x = count_occ Z.eq_dec ([tu; fu; ol; header_byte o] ++ pb) x)
    by (intros x; unfold frame_bytes in R1; rewrite R1; reflexivity).
  assert (D : forall x, count_occ Z.eq_dec [24; 16; 8] x = count_occ Z.eq_dec [tu; fu; ol] x).
  { intros x. specialize (C x). rewrite !count_occ_app in C. 
    change [24; 16; 8; header_byte o] with ([24; 16; 8] ++ [header_byte o]) in C.
    change [tu; fu; ol; header_byte o] with ([tu; fu; ol] ++ [header_byte o]) in C. rewrite !count_occ_app in C. lia. }
  assert (I8 : In 8 [tu; fu; ol]) by (apply (count_occ_In Z.eq_dec); rewrite <- D; cbn; lia).
  assert (I24 : In 24 [tu; fu; ol]) by (apply (count_occ_In Z.eq_dec); rewrite <- D; cbn; lia).
  cbn [In] in I8, I24. lia.
Qed.

(** ** Metadata *)
Definition appends (f : list Z -> res (list Z)) : Prop := forall out r, f out = Ok r -> exists c, r = out ++ c.

Lemma push_range_app : forall k width v lo, appends (fun out => push_range width out v lo k).
Proof.
  induction k; intros width v lo out r E; cbn [push_range] in E.
  - injection E as <-. exists []. rewrite app_nil_r. reflexivity.
  - apply bind_inv in E. destruct E as (_ & _ & E). apply IHk in E. destruct E as (c & ->). unfold push. rewrite <- app_assoc.
    eexists. reflexivity.
Qed.
Lemma push_size_app : forall v n, appends (fun out => push_bits_with_size out v n).
Proof. intros v n. apply push_range_app. Qed.
Lemma appends_bind : forall f g, appends f -> appends g -> appends (fun out => o <- f out ;; g o).
Proof.
  intros f g Hf Hg out r E. apply bind_inv in E. destruct E as (o & E1 & E2). apply Hf in E1. apply Hg in E2.
  destruct E1 as (a & ->). destruct E2 as (b & ->). exists (a ++ b). rewrite app_assoc. reflexivity.
Qed.
Lemma appends_push : forall b g, appends g -> appends (fun out => g (push out b)).
Proof. intros b g Hg out r E. apply Hg in E. destruct E as (c & ->). unfold push. rewrite <- app_assoc. eexists. reflexivity. Qed.
Lemma appends_ok : appends (fun out => Ok out).
Proof. intros out r E. injection E as <-. exists []. rewrite app_nil_r. reflexivity. Qed.
Lemma appends_panic : appends (fun out => Panic).
Proof. intros out r E. discriminate. Qed.
Lemma appends_const : forall (A : Type) (x : res A) g, (forall a, appends (g a)) -> appends (fun out => a <- x ;; g a out).
Proof. intros A x g Hg out r E. apply bind_inv in E. destruct E as (a & _ & E). apply Hg in E. exact E. Qed.
Lemma push_all_app : forall l n, appends (fun out => push_all out l n).
Proof.
  induction l; intros n; cbn [push_all]; [apply appends_ok|].
  apply (appends_bind _ _ (push_size_app a n) (IHl n)).
Qed.
Lemma push_dims_app : forall l, appends (fun out => push_dims out l).
Proof.
  induction l as [|[w h] l IH]; cbn [push_dims]; [apply appends_ok|].
  apply (appends_bind _ _ (push_size_app w 16)). apply (appends_bind _ _ (push_size_app h 16) IH).
Qed.
Lemma push_groups_app : forall l, appends (fun out => push_groups out l).
Proof.
  induction l as [|g l IH]; cbn [push_groups]; [apply appends_ok|].
  apply (appends_bind _ _ (push_size_app (tg_id g) 3)).
  apply (appends_push (tg_temporal_up g) (fun out => out <- push_bits_with_size (push out (tg_spatial_up g)) (as_u32 (len (tg_diffs g))) 3 ;;
      out <- push_all out (tg_diffs g) 8 ;; push_groups out l)).
  apply (appends_push (tg_spatial_up g) (fun out => out <- push_bits_with_size out (as_u32 (len (tg_diffs g))) 3 ;;
      out <- push_all out (tg_diffs g) 8 ;; push_groups out l)).
  apply (appends_bind _ _ (push_size_app _ 3)). apply (appends_bind _ _ (push_all_app _ 8) IH).
Qed.

(** The metadata type the code writes. *)
Definition written_type (m : metadata) : Z :=
  match m with T35 _ _ => 4 | HdrCll _ _ => 1 | HdrMdcv _ _ _ _ _ _ => 2 | Scalability _ _ => 3 | Timecode _ _ _ _ _ _ => 3 end.

Lemma metadata_type : forall m out r, encode_metadata m out = Ok r -> exists body, r = out ++ to_bits 8 (written_type m) ++ body.
Proof.
  assert (S : forall v (f : list Z -> res (list Z)) out r, 0 <= v < 128 -> appends f ->
     (o <- encode_leb128 out v ;; f o) = Ok r -> exists body, r = out ++ to_bits 8 v ++ body).
  { intros v f out r Hv Hf E. rewrite encode_leb128_ok in E by lia. cbn [bind] in E. rewrite leb_small in E by lia.
    apply Hf in E. destruct E as (c & ->). exists c. rewrite <- app_assoc. reflexivity. }
  intros m out r E. destruct m; cbn [encode_metadata written_type] in *.
  - refine (S 4 _ out r ltac:(lia) _ E). apply (appends_bind _ _ (push_size_app country 8)).
    destruct (country =? 255); [apply push_size_app|apply appends_ok].
  - refine (S 1 _ out r ltac:(lia) _ E). apply (appends_bind _ _ (push_size_app _ 16) (push_size_app _ 16)).
  - refine (S 2 _ out r ltac:(lia) _ E).
    do 3 (apply appends_const; intros ?; apply appends_const; intros ?;
          apply (appends_bind _ _ (push_size_app _ 16)); apply (appends_bind _ _ (push_size_app _ 16))).
    do 2 apply (appends_bind _ _ (push_size_app _ 16)). apply (appends_bind _ _ (push_size_app _ 32) (push_size_app _ 32)).
  - refine (S 3 _ out r ltac:(lia) _ E). apply (appends_bind _ _ (push_size_app _ 8)).
    destruct (mode =? 14); [|apply appends_ok]. destruct st as [s|]; [|apply appends_panic].
    apply appends_const. intros n. apply (appends_bind _ _ (push_size_app _ 2)).
    apply (appends_push _ (fun out => out <- push_bits_with_size (push (push out _) _) 0 3 ;; _)).
    apply (appends_push _ (fun out => out <- push_bits_with_size (push out _) 0 3 ;; _)).
    apply (appends_push _ (fun out => out <- push_bits_with_size out 0 3 ;; _)).
    apply (appends_bind _ _ (push_size_app _ 3)). apply (appends_bind _ _ (push_dims_app _)).
    apply (appends_bind _ _ (push_all_app _ 8)). destruct (0 <? len (ss_groups s)); [|apply appends_ok].
    apply (appends_bind _ _ (push_size_app _ 8) (push_groups_app _)).
  - refine (S 3 _ out r ltac:(lia) _ E). apply (appends_bind _ _ (push_size_app _ 5)).
    assert (T : appends (fun out => out <- push_bits_with_size out off_len 5 ;; push_bits_with_size out off_val off_len))
      by apply (appends_bind _ _ (push_size_app _ 5) (push_size_app _ _)).
    assert (B1 : forall v n, appends (fun out => push_bits_with_size (push out 1) v n)).
    { intros v n. apply (appends_push 1 (fun out => push_bits_with_size out v n) (push_size_app v n)). }
    assert (B0 : appends (fun out => Ok (push out 0))) by apply (appends_push 0 (fun out => Ok out) appends_ok).
    set (body := fun o : list Z => match seconds, minutes, hours with
             | Some s, Some m, Some h =>
                 let out := push o 1 in
                 out <- push_bits_with_size out s 6 ;;
                 out <- push_bits_with_size out m 6 ;;
                 push_bits_with_size out h 5
             | _, _, _ =>
                 let out := push o 0 in
                 match seconds with
                 | None => Ok (push out 0)
                 | Some s =>
                     out <- push_bits_with_size (push out 1) s 6 ;;
                     match minutes with
                     | None => Ok (push out 0)
                     | Some m =>
                         out <- push_bits_with_size (push out 1) m 6 ;;
                         match hours with
                         | None => Ok (push out 0)
                         | Some h => push_bits_with_size (push out 1) h 5
                         end
                     end
                 end
             end).
    apply (appends_bind body); [|exact T]. unfold body. destruct seconds as [s|]; [destruct minutes as [m|]; [destruct hours as [h|]|]|].
    + apply (appends_bind _ _ (B1 s 6)). apply (appends_bind _ _ (push_size_app m 6) (push_size_app h 5)).
    + apply (appends_push 0 (fun out => out <- push_bits_with_size (push out 1) s 6 ;; out <- push_bits_with_size (push out 1) m 6 ;; Ok (push out 0))).
      apply (appends_bind _ _ (B1 s 6)). apply (appends_bind _ _ (B1 m 6) B0).
    + apply (appends_push 0 (fun out => out <- push_bits_with_size (push out 1) s 6 ;; Ok (push out 0))).
      apply (appends_bind _ _ (B1 s 6) B0).
    + apply (appends_push 0 (fun out => Ok (push out 0)) B0).
Qed.

Lemma ok_inj : forall (A : Type) (a b : A), Ok a = Ok b -> a = b.
Proof. intros A a b E. injection E. auto. Qed.

(** Fixed-width fields one after the other. *)
Fixpoint fixed (l : list (nat * Z)) : list Z :=
  match l with [] => [] | (n, v) :: r => to_bits n v ++ fixed r end.
Definition fits (f : nat * Z) : Prop := 0 <= snd f < 2 ^ Z.of_nat (fst f).
Lemma fixed_inj : forall a b, map fst a = map fst b -> Forall fits a -> Forall fits b -> fixed a = fixed b -> a = b.
Proof.
  induction a as [|[n x] a IH]; intros [|[m y] b] Hm Ha Hb E; try discriminate; [reflexivity|].
  cbn [map fst] in Hm. injection Hm as <- Hm. inversion Ha; subst. inversion Hb; subst. cbn [fixed] in E.
  pose proof (rd_ok n x (fixed a) ltac:(assumption)) as R1. rewrite E in R1. rewrite rd_ok in R1 by assumption.
  injection R1 as -> R1. f_equal. apply IH; auto.
Qed.

Lemma cll_code : forall a b out, encode_metadata (HdrCll a b) out = Ok (out ++ fixed [(8%nat, 1); (16%nat, a); (16%nat, b)]).
Proof.
  intros. cbn [encode_metadata]. rewrite encode_leb128_ok by lia. cbn [bind]. rewrite leb_small by lia.
  rewrite push_bits_with_size_ok by lia. cbn [bind]. rewrite push_bits_with_size_ok by lia. cbn [fixed]. rewrite app_nil_r, <- !app_assoc. reflexivity.
Qed.
Lemma cll_inj : forall a b a' b' r, 0 <= a < 65536 -> 0 <= b < 65536 -> 0 <= a' < 65536 -> 0 <= b' < 65536 ->
  encode_metadata (HdrCll a b) [] = Ok r -> encode_metadata (HdrCll a' b') [] = Ok r -> a = a' /\ b = b'.
Proof.
  intros a b a' b' r Ha Hb Ha' Hb' E E'. rewrite cll_code in E, E'. rewrite <- E' in E. apply ok_inj in E.
  apply app_inv_head in E. apply fixed_inj in E; [injection E; auto|reflexivity| |];
    repeat constructor; cbn; lia.
Qed.

Lemma mdcv_code : forall x0 x1 x2 y0 y1 y2 wx wy l m out, encode_metadata (HdrMdcv [x0; x1; x2] [y0; y1; y2] wx wy l m) out =
  Ok (out ++ fixed [(8%nat, 2); (16%nat, x0); (16%nat, y0); (16%nat, x1); (16%nat, y1); (16%nat, x2); (16%nat, y2);
                    (16%nat, wx); (16%nat, wy); (32%nat, l); (32%nat, m)]).
Proof.
  intros. cbn [encode_metadata]. rewrite encode_leb128_ok by lia. cbn [bind]. rewrite leb_small by lia.
  change (idx [x0; x1; x2] 0) with (Ok x0). change (idx [x0; x1; x2] 1) with (Ok x1). change (idx [x0; x1; x2] 2) with (Ok x2).
  change (idx [y0; y1; y2] 0) with (Ok y0). change (idx [y0; y1; y2] 1) with (Ok y1). change (idx [y0; y1; y2] 2) with (Ok y2).
  repeat (cbn [bind]; rewrite push_bits_with_size_ok by lia). cbn [fixed]. rewrite app_nil_r, <- !app_assoc. reflexivity.
Qed.

Lemma mdcv_inj : forall px py wx wy l m px' py' wx' wy' l' m' r,
  length px = 3%nat -> length py = 3%nat -> length px' = 3%nat -> length py' = 3%nat ->
  Forall (fun v => 0 <= v < 65536) (wx :: wy :: px ++ py) -> Forall (fun v => 0 <= v < 65536) (wx' :: wy' :: px' ++ py') ->
  0 <= l < 2 ^ 32 -> 0 <= m < 2 ^ 32 -> 0 <= l' < 2 ^ 32 -> 0 <= m' < 2 ^ 32 ->
  encode_metadata (HdrMdcv px py wx wy l m) [] = Ok r -> encode_metadata (HdrMdcv px' py' wx' wy' l' m') [] = Ok r ->
  HdrMdcv px py wx wy l m = HdrMdcv px' py' wx' wy' l' m'.
Proof.
  intros px py wx wy l m px' py' wx' wy' l' m' r L1 L2 L3 L4 F F' Hl Hm Hl' Hm' E E'.
  destruct px as [|x0 [|x1 [|x2 [|]]]]; try discriminate L1. destruct py as [|y0 [|y1 [|y2 [|]]]]; try discriminate L2.
  destruct px' as [|x0' [|x1' [|x2' [|]]]]; try discriminate L3. destruct py' as [|y0' [|y1' [|y2' [|]]]]; try discriminate L4.
  rewrite mdcv_code in E, E'. rewrite <- E' in E. apply ok_inj in E. apply app_inv_head in E.
  cbn [app] in F, F'. repeat (match goal with H : Forall _ (_ :: _) |- _ => inversion H; clear H; subst end).
  apply fixed_inj in E; [injection E; intros; subst; reflexivity|reflexivity| |];
    repeat (constructor; [unfold fits; cbn [fst snd]; change (2 ^ Z.of_nat 16) with 65536; change (2 ^ Z.of_nat 8) with 256; change (2 ^ Z.of_nat 32) with (2 ^ 32); lia|]); constructor.
Qed.

(** Only scalability and timecode can be confused. *)
Lemma metadata_confusion : forall m m' r, encode_metadata m [] = Ok r -> encode_metadata m' [] = Ok r ->
  written_type m = written_type m'.
Proof.
  intros m m' r E E'. apply metadata_type in E. apply metadata_type in E'. destruct E as (b & E). destruct E' as (b' & E').
  cbn [app] in E, E'. rewrite E in E'.
  pose proof (rd_ok 8 (written_type m) b) as R. rewrite E' in R. rewrite rd_ok in R by (destruct m'; cbn; lia).
  assert (W : 0 <= written_type m < 2 ^ Z.of_nat 8) by (destruct m; cbn; lia). specialize (R W). injection R as R _. auto.
Qed.

(** ** Sequences of units *)
Lemma units_ok : forall l w e bs e', aligned w -> units_bytes e l bs e' ->
  (forall e1 o P e2, In o l -> encode_payload e1 o = Ok (P, e2) -> is_bits P) ->
  exists w', encode_units w e l = Ok (w', e') /\ aligned w' /\ w_bytes w' = w_bytes w ++ bs.
Proof.
  induction l as [|o l IH]; intros w e bs e' Hw Hu Hb; inversion Hu; subst.
  - exists w. rewrite app_nil_r. split; [reflexivity|auto].
  - destruct (unit_ok w e o P e1 Hw) as (w1 & pb' & E1 & A1 & K1 & B1); [assumption|apply (Hb e o P e1); [left; reflexivity|assumption]|].
    assert (pb' = pb) as ->.
    { destruct K1 as [K1 K2]. match goal with H : packs P pb |- _ => destruct H as [K3 K4] end. apply unpack_inj; congruence. }
    destruct (IH w1 e1 bs0 e' A1) as (w2 & E2 & A2 & B2); [assumption|intros e3 o3 P3 e4 I3 Q3; apply (Hb e3 o3 P3 e4); [right; assumption|assumption]|].
    exists w2. cbn [encode_units]. rewrite E1. cbn [bind]. rewrite E2. split; [reflexivity|]. split; [assumption|].
    rewrite B2, B1, <- !app_assoc. reflexivity.
Qed.

Lemma padding_payload : forall e n, 0 <= n -> encode_payload e (Padding n) = Ok (repeat 0 (Z.to_nat (8 * n)), e).
Proof.
  intros e n Hn. cbn [encode_payload].
  assert (P : forall k out, push_all out (repeat 0 k) 8 = Ok (out ++ repeat 0 (8 * k))).
  { induction k; intros out; [rewrite app_nil_r; reflexivity|]. cbn [repeat push_all]. rewrite push_bits_with_size_ok by lia. cbn [bind].
    rewrite IHk, <- app_assoc. replace (8 * S k)%nat with (8 + 8 * k)%nat by lia. reflexivity. }
  rewrite P. cbn [bind app]. do 3 f_equal. lia.
Qed.

Lemma unpack_zeros : forall k, unpack (repeat 0 k) = repeat 0 (8 * k).
Proof.
  induction k; [reflexivity|]. cbn [repeat]. unfold unpack in *. cbn [flat_map]. rewrite IHk.
  replace (8 * S k)%nat with (8 + 8 * k)%nat by lia. reflexivity.
Qed.
Lemma padding_bytes : forall w e n, aligned w -> 0 <= n -> exists w',
  encode_temporal_unit w e (Padding n) = Ok (w', e) /\ aligned w' /\
  w_bytes w' = w_bytes w ++ repeat 0 (Z.to_nat n) ++ frame_bytes (Padding n).
Proof.
  intros w e n Hw Hn. destruct (unit_ok w e (Padding n) _ e Hw (padding_payload e n Hn)) as (w' & pb & E & A & [K1 K2] & B).
  { apply Forall_forall. intros x Hx. apply repeat_spec in Hx. subst. left. reflexivity. }
  exists w'. split; [exact E|]. split; [exact A|]. rewrite B. do 2 f_equal. apply unpack_inj.
  - exact K1.
  - apply Forall_forall. intros x Hx. apply repeat_spec in Hx. subst. split; [lia|reflexivity].
  - rewrite K2, repeat_length, unpack_zeros. replace (Z.to_nat (8 * n)) with (8 * Z.to_nat n)%nat by lia.
    replace (pad8 (8 * Z.to_nat n)) with 0%nat; [apply app_nil_r|]. unfold pad8. rewrite Nat.mul_comm, Nat.mod_mul by discriminate. reflexivity.
Qed.
