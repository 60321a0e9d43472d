(** Delta parameters, lossless segments, loop filter, cdef and loop restoration
    parameters of the frame header. *)
From Coq Require Import ZArith List Bool Lia ZifyBool ZifyNat.
From Verif Require Import Base BaseProofs TableLemmas UtilModel UtilSpec UtilProofs BitsSpec BitsProofs RangeCoderModel BitCodecModel BitCodecProofs
  SessionModel SeqModel SeqSpec SeqProofs ElementModel TileModel TileSpec TileProofs FrameParamModel FrameSpec FrameBits FrameProofs.
Import ListNotations.
Open Scope Z_scope.
Ltac Zify.zify_post_hook ::= Z.div_mod_to_equations.
#[local] Opaque to_bits.

Lemma idx_nth A (l : list A) (i : nat) v : nth_error l i = Some v -> idx l (Z.of_nat i) = Ok v.
Proof. intros E. unfold idx. destruct (Z.ltb_spec (Z.of_nat i) 0); [lia|]. rewrite Nat2Z.id, E. reflexivity. Qed.

(** ** Delta parameters *)
Definition delta_size (base : Z) (intrabc : bool) (v : option (Z * option (Z * bool))) : nat :=
  match v with
  | None => if 0 <? base then 1%nat else 0%nat
  | Some (_, None) => if intrabc then 3%nat else 4%nat
  | Some (_, Some _) => 7%nat
  end.
Lemma rd_delta_sized base intrabc : sized (rd_delta base intrabc) (delta_size base intrabc).
Proof.
  intros q v k H. unfold rd_delta, rd_if in H. ob H.
  destruct (0 <? base) eqn:B.
  - apply rd1_length in E. destruct v0.
    + ob H. apply rd_length in E0. ob H. destruct intrabc; cbn [negb] in E1.
      * injection E1 as <- <-. injection H as <- <-. unfold delta_size. lia.
      * apply rd1_length in E1. destruct v1.
        -- ob H. apply rd_length in E2. ob H. apply rd1_length in E3. injection H as <- <-. unfold delta_size. lia.
        -- injection H as <- <-. unfold delta_size. lia.
    + injection H as <- <-. unfold delta_size. rewrite B. lia.
  - injection E as <- <-. injection H as <- <-. unfold delta_size. rewrite B. reflexivity.
Qed.
Definition delta_code_of (base : Z) (intrabc : bool) (p : deltap) : list Z :=
  if 0 <? base then
    b2z (d_present p) :: if d_present p then
      d_res p :: if intrabc then [] else b2z (d_lf p) :: if d_lf p then to_bits 2 (d_lf_res p) ++ [b2z (d_multi p)] else []
    else []
  else [].
Lemma enc_delta_ok out base intrabc p : exists p', enc_delta out base intrabc p = Ok (out ++ delta_code_of base intrabc p, p') /\
  d_present p' = (0 <? base) && d_present p.
Proof.
  unfold enc_delta, delta_code_of. destruct (0 <? base).
  - destruct (d_present p) eqn:P; cbv iota zeta.
    + destruct intrabc; cbn [negb]; cbv iota zeta.
      * eexists. split; [rewrite pbit_app; unfold push; rewrite <- app_assoc; reflexivity|reflexivity].
      * destruct (d_lf p); cbv iota zeta.
        -- rewrite push_bits_with_size_ok by lia. cbn [bind]. rewrite !pbit_app. unfold push. rewrite <- !app_assoc. cbn [app]. eexists. split; reflexivity.
        -- eexists. rewrite !pbit_app. unfold push. rewrite <- !app_assoc. split; reflexivity.
    + eexists. rewrite pbit_app. split; reflexivity.
  - eexists. rewrite app_nil_r. split; reflexivity.
Qed.
Lemma delta_length base intrabc p v : 0 < base -> d_present p = true -> delta_size base intrabc v <> length (delta_code_of base intrabc p).
Proof.
  intros B P. unfold delta_code_of. rewrite P. destruct (Z.ltb_spec 0 base); [|lia]. unfold delta_size.
  destruct (Z.ltb_spec 0 base); [|lia]. destruct intrabc, (d_lf p); destruct v as [[r [l|]]|]; cbn [length app];
    rewrite ?app_length, ?to_bits_length; cbn [length]; lia.
Qed.
(** With delta_q_present = 1 no decoder reads exactly the bits. *)
Lemma delta_never base intrabc p : 0 < base -> d_present p = true ->
  exists bits p', enc_delta [] base intrabc p = Ok (bits, p') /\ d_present p' = true /\ forall v, never_decodes bits (rd_delta base intrabc) v.
Proof.
  intros B P. destruct (enc_delta_ok [] base intrabc p) as (p' & E & K). exists (delta_code_of base intrabc p), p'.
  split; [exact E|]. split; [rewrite K, P; lia|]. intros v. apply (sized_never _ _ _ _ _ (rd_delta_sized base intrabc)). apply delta_length; assumption.
Qed.
Lemma delta_absent base intrabc p : base <= 0 \/ d_present p = false ->
  exists bits p', enc_delta [] base intrabc p = Ok (bits, p') /\ d_present p' = false /\ decodes bits (rd_delta base intrabc) None.
Proof.
  intros A. destruct (enc_delta_ok [] base intrabc p) as (p' & E & K). exists (delta_code_of base intrabc p), p'.
  split; [exact E|]. split; [rewrite K; destruct A as [A| ->]; lia|]. unfold delta_code_of, rd_delta, rd_if.
  destruct (Z.ltb_spec 0 base).
  - destruct A as [A|A]; [lia|]. rewrite A. split; [bits|]. intros k. reflexivity.
  - split; [bits|]. intros k. reflexivity.
Qed.

(** ** Lossless segments *)
Lemma clip3_clip lo hi v : lo <= hi -> Clip3 lo hi v = clip lo hi v.
Proof. intros. unfold Clip3, clip. destruct (Z.ltb_spec v lo), (Z.ltb_spec hi v); lia. Qed.
(** The value of SEG_LVL_ALT_Q of a segment, if it is active. *)
Definition alt_q (s : segp) (i : nat) : option Z := if g_on s then nth 0 (nth i (g_feat s) []) None else None.
Definition alt_q_small (m : list (list (option Z))) : Prop :=
  length m = 8%nat /\ (forall row, In row m -> row <> [] /\ forall v, nth 0 row None = Some v -> - 255 <= v <= 255).

Lemma get_qindex_ok s i cur present base : alt_q_small (g_feat s) -> (i < 8)%nat -> u8 base ->
  get_qindex true (Z.of_nat i) cur present base s = Ok (match alt_q s i with Some d => clip 0 255 (base + d) | None => cur end).
Proof.
  intros [L T] I B. unfold get_qindex, alt_q. destruct (g_on s); [|reflexivity].
  assert (E : exists row, nth_error (g_feat s) i = Some row).
  { destruct (nth_error (g_feat s) i) eqn:E; [eauto|]. apply nth_error_None in E. lia. }
  destruct E as [row E]. rewrite (idx_nth _ _ _ _ E). cbn [bind]. rewrite (nth_error_nth _ _ [] E).
  destruct (T row (nth_error_In _ _ E)) as [N V]. destruct row as [|f row]; [congruence|]. cbn [nth] in *.
  change (idx (f :: row) SEG_LVL_ALT_Q) with (Ok f). cbn [bind]. destruct f as [d|]; [|reflexivity].
  specialize (V d eq_refl). unfold u8 in B. rewrite chk_i64_ok by lia. cbn [bind negb andb]. rewrite clip3_clip by lia. reflexivity.
Qed.

(** What the loop computes for a segment: [base] is replaced by [cur] in segments
    without an active feature. *)
Definition seg_lossless (cur base : Z) (s : segp) (d : dq5) (i : nat) : bool :=
  ((match alt_q s i with Some x => clip 0 255 (base + x) | None => cur end) =? 0) && dq_zero d.
Lemma put_ok A (l : list A) (i : nat) x : (i < length l)%nat -> put l (Z.of_nat i) x = Ok (set_nth i x l).
Proof.
  intros L. unfold put. destruct (nth_error l i) eqn:E; [|apply nth_error_None in E; lia].
  rewrite (idx_nth _ _ _ _ E). cbn [bind]. rewrite Nat2Z.id. reflexivity.
Qed.
Lemma set_nth_snoc A (pre post : list A) y x a : length pre = a -> set_nth a x (pre ++ y :: post) = (pre ++ [x]) ++ post.
Proof. intros <-. induction pre; [reflexivity|]. cbn [length app set_nth]. rewrite IHpre. reflexivity. Qed.
Lemma idx_lt A (l : list A) (i : nat) : (i < length l)%nat -> exists v, idx l (Z.of_nat i) = Ok v /\ nth_error l i = Some v.
Proof. intros L. destruct (nth_error l i) eqn:E; [|apply nth_error_None in E; lia]. exists a. split; [apply idx_nth; exact E|reflexivity]. Qed.

Definition levels (q : quant) (ls : list bool) : list (list Z) :=
  [map (fun l : bool => if l then 15 else q_y q) ls; map (fun l : bool => if l then 15 else q_u q) ls; map (fun l : bool => if l then 15 else q_v q) ls].
Lemma enc_lossless_ok cur present q d s : alt_q_small (g_feat s) -> u8 (q_base q) -> forall n a coded arr0 arr l0 l1 l2 l0' l1' l2',
  (a + n <= 8)%nat -> length arr0 = a -> length l0 = a -> length l1 = a -> length l2 = a ->
  length arr = n -> length l0' = n -> length l1' = n -> length l2' = n ->
  let ls := map (seg_lossless cur (q_base q) s d) (seq a n) in
  enc_lossless (seq a n) cur present q d s coded (arr0 ++ arr) [l0 ++ l0'; l1 ++ l1'; l2 ++ l2'] =
  Ok (coded && forallb id ls, arr0 ++ ls,
    if q_using q then [l0 ++ nth 0 (levels q ls) []; l1 ++ nth 1 (levels q ls) []; l2 ++ nth 2 (levels q ls) []] else [l0 ++ l0'; l1 ++ l1'; l2 ++ l2']).
Proof.
  intros T B. induction n; intros a coded arr0 arr l0 l1 l2 l0' l1' l2' Ha La L0 L1 L2 Lr L0' L1' L2' ls; subst ls.
  - destruct arr, l0', l1', l2'; try discriminate. cbn. rewrite andb_true_r. destruct (q_using q); reflexivity.
  - destruct arr as [|x arr], l0' as [|y0 l0'], l1' as [|y1 l1'], l2' as [|y2 l2']; try discriminate.
    cbn [seq enc_lossless map]. rewrite get_qindex_ok by (try assumption; lia). cbn [bind].
    fold (seg_lossless cur (q_base q) s d a). set (l := seg_lossless cur (q_base q) s d a).
    rewrite put_ok by (rewrite app_length; cbn [length]; lia). cbn [bind].
    rewrite (set_nth_snoc _ arr0 arr x l a La). specialize (IHn (S a)).
    assert (P : forall (r r' : list Z) y z, length r = a -> put (r ++ y :: r') (Z.of_nat a) z = Ok ((r ++ [z]) ++ r')).
    { intros r r' y z Lx. rewrite put_ok by (rewrite app_length; cbn [length]; lia). rewrite set_nth_snoc by exact Lx. reflexivity. }
    destruct (q_using q) eqn:U.
    + assert (I0 : forall x y z : list Z, idx [x; y; z] 0 = Ok x) by reflexivity.
      assert (I1 : forall x y z : list Z, idx [x; y; z] 1 = Ok y) by reflexivity.
      assert (I2 : forall x y z : list Z, idx [x; y; z] 2 = Ok z) by reflexivity.
      assert (S0 : forall x y z v : list Z, put [x; y; z] 0 v = Ok [v; y; z]) by reflexivity.
      assert (S1 : forall x y z v : list Z, put [x; y; z] 1 v = Ok [x; v; z]) by reflexivity.
      assert (S2 : forall x y z v : list Z, put [x; y; z] 2 v = Ok [x; y; v]) by reflexivity.
      cbv zeta.
      rewrite I0. cbn [bind]. rewrite P by exact L0. cbn [bind]. rewrite S0. cbn [bind].
      rewrite I1. cbn [bind]. rewrite P by exact L1. cbn [bind]. rewrite S1. cbn [bind].
      rewrite I2. cbn [bind]. rewrite P by exact L2. cbn [bind]. rewrite S2. cbn [bind].
      rewrite IHn by (rewrite ?app_length; cbn [length] in *; lia). cbn [forallb id levels nth map]. rewrite andb_assoc, <- !app_assoc. reflexivity.
    + cbn [bind]. 
      replace (l0 ++ y0 :: l0') with ((l0 ++ [y0]) ++ l0') by (rewrite <- app_assoc; reflexivity).
      replace (l1 ++ y1 :: l1') with ((l1 ++ [y1]) ++ l1') by (rewrite <- app_assoc; reflexivity).
      replace (l2 ++ y2 :: l2') with ((l2 ++ [y2]) ++ l2') by (rewrite <- app_assoc; reflexivity).
      rewrite IHn by (rewrite ?app_length; cbn [length] in *; lia). cbn [forallb id]. rewrite andb_assoc, <- !app_assoc. reflexivity.
Qed.

(** The result for a frame, segment by segment. *)
Lemma lossless_exact cur present q d s arr lv : alt_q_small (g_feat s) -> u8 (q_base q) -> length arr = 8%nat ->
  length lv = 3%nat -> (forall row, In row lv -> length row = 8%nat) ->
  exists coded arr' lv', enc_lossless (upto MAX_SEGMENTS) cur present q d s true arr lv = Ok (coded, arr', lv') /\
    coded = forallb id arr' /\ arr' = map (seg_lossless cur (q_base q) s d) (seq 0 8) /\
    (q_using q = true -> lv' = levels q arr') /\ (q_using q = false -> lv' = lv).
Proof.
  intros T B La Lv R. do 4 (destruct lv as [|? lv]; try discriminate).
  pose proof (R l (or_introl eq_refl)) as R0. pose proof (R l0 (or_intror (or_introl eq_refl))) as R1. pose proof (R l1 (or_intror (or_intror (or_introl eq_refl)))) as R2.
  pose proof (enc_lossless_ok cur present q d s T B 8 0 true [] arr [] [] [] l l0 l1 ltac:(lia) eq_refl eq_refl eq_refl eq_refl La R0 R1 R2) as E.
  cbv zeta in E. cbn [app] in E. eexists _, _, _. split; [exact E|]. split; [reflexivity|]. split; [reflexivity|].
  split; intros ->; reflexivity.
Qed.
Definition dq_list (d : dq5) : list Z := [dq_y_dc d; dq_u_dc d; dq_u_ac d; dq_v_dc d; dq_v_ac d].
Lemma dq_zero_list d : dq_zero d = forallb (Z.eqb 0) (dq_list d).
Proof. unfold dq_zero, dq_list. cbn [forallb]. rewrite andb_true_r. apply Bool.eq_iff_eq_true. rewrite !andb_true_iff, !Z.eqb_eq. intuition lia. Qed.
Lemma seg_lossless_av1 cur base s d i : u8 base ->
  (seg_lossless cur base s d i = av1_lossless base (alt_q s i) (dq_list d) <->
   (alt_q s i = None -> dq_zero d = true -> (cur = 0 <-> base = 0))).
Proof.
  intros B. unfold seg_lossless, av1_lossless, av1_qidx. rewrite <- dq_zero_list.
  destruct (alt_q s i) as [x|].
  - split; [discriminate|reflexivity].
  - destruct (dq_zero d).
    + rewrite !andb_true_r. split.
      * intros E _ _. lia.
      * intros E. specialize (E eq_refl eq_refl). lia.
    + rewrite !andb_false_r. split; [discriminate|reflexivity].
Qed.
(** After an update every feature is active in the kept table, so that
    [current_q_index] is not used and the segments are right. *)
Lemma lossless_updated cur base s' s d i primary bits pre last : u8 base -> features_typed (g_feat s) -> g_on s = true -> primary = 7 \/ g_data s = true ->
  enc_seg [] primary s = Ok (bits, s', pre, last) -> (i < 8)%nat ->
  alt_q_small (g_feat s') /\
  seg_lossless cur base s' d i = av1_lossless base (option_map (clip (-255) 255) (nth 0 (nth i (g_feat s) []) None)) (dq_list d).
Proof.
  intros B T On D E I. rewrite (enc_seg_data [] primary s T On D) in E. destruct (wants_skip (g_feat s)); [discriminate|].
  injection E as _ <- _ _. cbn [g_feat]. destruct T as [L T].
  assert (K : forall row, length row = 7%nat -> nth 0 (row_kept row) None = Some (match nth 0 row None with Some x => clip (-255) 255 x | None => 0 end)).
  { intros row R. unfold row_kept. cbn [seq map nth]. unfold f_kept. destruct (nth 0 row None); [|reflexivity]. cbn [Nat.ltb Nat.leb].
    change (f_max 0) with 255. rewrite clip3_clip by lia. reflexivity. }
  split.
  - split; [rewrite map_length; exact L|]. intros row R. apply in_map_iff in R. destruct R as (row0 & <- & R). destruct (T row0 R) as [T7 _].
    split; [discriminate|]. intros v. rewrite K by exact T7. intros V. injection V as <-. destruct (nth 0 row0 None); [|lia]. unfold clip. lia.
  - unfold seg_lossless, alt_q. cbn [g_on g_feat].
    assert (X : exists row, nth_error (g_feat s) i = Some row). { destruct (nth_error (g_feat s) i) eqn:X; [eauto|]. apply nth_error_None in X. lia. }
    destruct X as [row X]. rewrite (nth_error_nth (map row_kept (g_feat s)) i [] (x := row_kept row)) by (apply map_nth_error; exact X).
    rewrite (nth_error_nth _ _ [] X). destruct (T row (nth_error_In _ _ X)) as [T7 _]. rewrite K by exact T7.
    unfold av1_lossless, av1_qidx. rewrite <- dq_zero_list. f_equal. destruct (nth 0 row None); cbn [option_map]; [reflexivity|].
    unfold clip, u8 in *. lia.
Qed.

(** ** Loop filter *)
Definition lf_typed (p : lfp) : Prop :=
  length (lf_level p) = 4%nat /\ Forall u8 (lf_level p) /\ u8 (lf_sharp p) /\
  length (lf_upd_ref p) = 8%nat /\ length (lf_ref p) = 8%nat /\ Forall i64 (lf_ref p) /\
  length (lf_upd_mode p) = 2%nat /\ length (lf_mode p) = 2%nat /\ Forall u8 (lf_mode p).
Definition updates (fs : list bool) (vs : list Z) : list (option Z) :=
  map (fun fv : bool * Z => if fst fv then Some (snd fv) else None) (combine fs vs).
(** What the frame asks for, as a decoder has it. *)
Definition lf_of (p : lfp) : av1_lf :=
  let l i := nth i (lf_level p) 0 in
  mkALF (l 0%nat, l 1%nat, if (l 0%nat =? 0) && (l 1%nat =? 0) then None else Some (l 2%nat, l 3%nat)) (lf_sharp p) (lf_enabled p)
    (if lf_enabled p && lf_update p then Some (updates (lf_upd_ref p) (lf_ref p), updates (lf_upd_mode p) (lf_mode p)) else None).
(** The values have room in their fields. *)
Definition lf_fits (p : lfp) : Prop :=
  let l i := nth i (lf_level p) 0 in
  l 0%nat < 64 /\ l 1%nat < 64 /\ ((l 0%nat <> 0 \/ l 1%nat <> 0) -> l 2%nat < 64 /\ l 3%nat < 64) /\ lf_sharp p < 8 /\
  (lf_enabled p = true -> lf_update p = true ->
    (forall v, In (Some v) (updates (lf_upd_ref p) (lf_ref p)) -> fits7 v) /\
    forall v, In (Some v) (updates (lf_upd_mode p) (lf_mode p)) -> v < 64).
(** The mode deltas are guarded by the flags of the first two references. *)
Definition lf_flags (p : lfp) : Prop :=
  lf_enabled p = true -> lf_update p = true ->
  let m i := nth i (lf_upd_mode p) false in let r i := nth i (lf_upd_ref p) false in
  (m 0%nat = r 0%nat /\ m 1%nat = r 1%nat) \/
  (m 0%nat = true /\ m 1%nat = false /\ r 0%nat = false /\ r 1%nat = true /\ 2 * nth 0 (lf_mode p) 0 = nth 1 (lf_mode p) 0 mod 64).

Definition upd_code (f g : bool) (v : Z) : list Z := b2z f :: if g then su_bits 7 v else [].
Fixpoint upds_code (fs gs : list bool) (vs : list Z) : list Z :=
  match fs, gs, vs with f :: fs, g :: gs, v :: vs => upd_code f g v ++ upds_code fs gs vs | _, _, _ => [] end.
Lemma enc_lf_deltas_ok (vs : list Z) : forall fs gs fs0 gs0 vs0 a out, length fs = length vs -> (length vs <= length gs)%nat ->
  length fs0 = a -> length gs0 = a -> length vs0 = a -> Forall i64 vs ->
  enc_lf_deltas out (seq a (length vs)) (fs0 ++ fs) (gs0 ++ gs) (vs0 ++ vs) = Ok (out ++ upds_code fs gs vs).
Proof.
  induction vs as [|v vs IH]; intros fs gs fs0 gs0 vs0 a out Lf Lg Lf0 Lg0 Lv0 T.
  - destruct fs; [|discriminate]. cbn. rewrite app_nil_r. reflexivity.
  - destruct fs as [|f fs], gs as [|g gs]; try (cbn [length] in *; lia). cbn [length seq enc_lf_deltas upds_code].
    inversion T as [|? ? T1 T2]; subst.
    assert (I : forall A (l0 : list A) x l, length l0 = length fs0 -> idx (l0 ++ x :: l) (Z.of_nat (length fs0)) = Ok x).
    { intros A l0 x l E. apply idx_nth. rewrite nth_error_app2 by lia. rewrite E, Nat.sub_diag. reflexivity. }
    rewrite I by reflexivity. cbn [bind]. rewrite I by assumption. cbn [bind]. rewrite I by assumption. cbn [bind].
    assert (E : (if g then encode_su (pbit out f) v 7 else Ok (pbit out f)) = Ok (out ++ upd_code f g v)).
    { unfold upd_code. rewrite pbit_app. destruct g; [rewrite encode_su_any by (try exact T1; lia); rewrite <- app_assoc|]; reflexivity. }
    rewrite E. cbn [bind].
    replace (fs0 ++ f :: fs) with ((fs0 ++ [f]) ++ fs) by (rewrite <- app_assoc; reflexivity).
    replace (gs0 ++ g :: gs) with ((gs0 ++ [g]) ++ gs) by (rewrite <- app_assoc; reflexivity).
    replace (vs0 ++ v :: vs) with ((vs0 ++ [v]) ++ vs) by (rewrite <- app_assoc; reflexivity).
    rewrite IH; [rewrite <- app_assoc; reflexivity| | | | | |exact T2]; rewrite ?app_length; cbn [length] in *; lia.
Qed.
Definition lf_tail (p : lfp) : list Z :=
  b2z (lf_enabled p) :: if lf_enabled p then b2z (lf_update p) ::
    if lf_update p then upds_code (lf_upd_ref p) (lf_upd_ref p) (lf_ref p) ++ upds_code (lf_upd_mode p) (lf_upd_ref p) (lf_mode p) else []
  else [].
Definition lf_code (p : lfp) : list Z :=
  let l i := nth i (lf_level p) 0 in
  to_bits 6 (l 0%nat) ++ to_bits 6 (l 1%nat) ++
  (if (0 <? l 0%nat) || (0 <? l 1%nat) then to_bits 6 (l 2%nat) ++ to_bits 6 (l 3%nat) else []) ++ to_bits 3 (lf_sharp p) ++ lf_tail p.
Lemma enc_lf_ok out planes p : lf_typed p -> 1 < planes -> enc_lf out planes false p = Ok (out ++ lf_code p, p).
Proof.
  intros (L4 & T4 & Ts & L8 & L8' & T8 & L2 & L2' & T2) Hp. destruct p as [lv sharp en up ur rf um md].
  cbn [lf_level lf_sharp lf_enabled lf_update lf_upd_ref lf_ref lf_upd_mode lf_mode] in *.
  do 5 (destruct lv as [|? lv]; try discriminate).
  unfold enc_lf, lf_code, lf_tail. cbn [lf_level lf_sharp lf_enabled lf_update lf_upd_ref lf_ref lf_upd_mode lf_mode nth].
  change (idx [z; z0; z1; z2] 0) with (Ok z). change (idx [z; z0; z1; z2] 1) with (Ok z0).
  change (idx [z; z0; z1; z2] 2) with (Ok z1). change (idx [z; z0; z1; z2] 3) with (Ok z2). cbn [bind].
  rewrite !push_bits_with_size_ok by lia. cbn [bind]. rewrite push_bits_with_size_ok by lia. cbn [bind].
  destruct (Z.ltb_spec 1 planes); [|lia]. cbn [andb].
  assert (D : forall out, enc_lf_deltas out (upto TOTAL_REFS_PER_FRAME) ur ur rf = Ok (out ++ upds_code ur ur rf)).
  { intros o. change (upto TOTAL_REFS_PER_FRAME) with (seq 0 8). rewrite <- L8' at 1. apply (enc_lf_deltas_ok rf ur ur [] [] []); try reflexivity; try assumption; lia. }
  assert (M : forall out, enc_lf_deltas out (upto 2) um ur md = Ok (out ++ upds_code um ur md)).
  { intros o. change (upto 2) with (seq 0 2). rewrite <- L2' at 1. apply (enc_lf_deltas_ok md um ur [] [] []); try reflexivity; try lia.
    apply Forall_forall. intros x X. rewrite Forall_forall in T2. specialize (T2 x X). unfold u8, i64 in *. lia. }
  assert (R : forall o, (' out <- (if en then let out := pbit (pbit o en) up in if up then
      ' out <- enc_lf_deltas out (upto TOTAL_REFS_PER_FRAME) ur ur rf ;; enc_lf_deltas out (upto 2) um ur md else Ok out else Ok (pbit o en)) ;;
      Ok (out, mkLF [z; z0; z1; z2] sharp en up ur rf um md)) =
    Ok (o ++ b2z en :: (if en then b2z up :: (if up then upds_code ur ur rf ++ upds_code um ur md else []) else []), mkLF [z; z0; z1; z2] sharp en up ur rf um md)).
  { intros o. destruct en; [destruct up|]; cbn [bind]; cbv zeta; rewrite ?D; cbn [bind]; rewrite ?M; cbn [bind]; rewrite !pbit_app, <- ?app_assoc; reflexivity. }
  destruct ((0 <? z) || (0 <? z0)); rewrite ?push_bits_with_size_ok by lia; cbn [bind]; rewrite ?push_bits_with_size_ok by lia; cbn [bind];
    rewrite ?push_bits_with_size_ok by lia; cbn [bind]; cbv zeta in *; change (Z.to_nat 6) with 6%nat; change (Z.to_nat 3) with 3%nat;
    cbv zeta in R; rewrite R; rewrite <- ?app_assoc; reflexivity.
Qed.

Lemma rd_update_ok f v k : rd_update (upd_code f f v ++ k) = Some (if f then Some (su_wrap 7 v) else None, k).
Proof.
  unfold rd_update, upd_code. cbn [app]. rewrite rd1_ok. cbn [obind]. destruct f; [|reflexivity]. rewrite rd_su_any by lia. reflexivity.
Qed.
Definition wrapped (fs : list bool) (vs : list Z) : list (option Z) :=
  map (fun fv : bool * Z => if fst fv then Some (su_wrap 7 (snd fv)) else None) (combine fs vs).
Lemma rd_updates_ok (fs : list bool) : forall vs k, length fs = length vs ->
  rd_times (length fs) rd_update (upds_code fs fs vs ++ k) = Some (wrapped fs vs, k).
Proof.
  induction fs as [|f fs IH]; intros [|v vs] k L; try discriminate; [reflexivity|].
  cbn [length rd_times upds_code]. rewrite <- app_assoc, rd_update_ok. cbn [obind]. rewrite IH by (cbn [length] in L; lia). reflexivity.
Qed.
Lemma wrapped_iff fs : forall vs, (wrapped fs vs = updates fs vs <-> forall v, In (Some v) (updates fs vs) -> fits7 v).
Proof.
  induction fs as [|f fs IH]; intros [|v vs]; try (split; [intros _ v []|reflexivity]); [split; [intros _ ? []|reflexivity]|].
  unfold wrapped, updates in *. cbn [combine map fst snd In]. specialize (IH vs). destruct f.
  - assert (F : su_wrap 7 v = v <-> fits7 v). { rewrite su_wrap_iff by lia. change (2 ^ Z.of_nat (7 - 1)) with 64. unfold fits7. lia. }
    split.
    + intros E. injection E as E1 E2. intros x [X|X]; [injection X as <-; apply F; exact E1|]. apply IH; [exact E2|exact X].
    + intros H. f_equal; [f_equal; apply F; apply H; left; reflexivity|]. apply IH. intros x X. apply H. right. exact X.
  - split.
    + intros E. injection E as E2. intros x [X|X]; [discriminate|]. apply IH; [exact E2|exact X].
    + intros H. f_equal. apply IH. intros x X. apply H. right. exact X.
Qed.
Lemma rd_update_length q v k : rd_update q = Some (v, k) -> length q = ((if is_some v then 8 else 1) + length k)%nat.
Proof.
  unfold rd_update. intros H. ob H. apply rd1_length in E. destruct v0.
  - ob H. injection H as <- <-. apply rd_su_length in E0. cbn [is_some]. lia.
  - injection H as <- <-. cbn [is_some]. lia.
Qed.
Lemma to_bits_6 x : 0 <= x < 64 -> forall k, rd_update (1 :: 0 :: 0 :: to_bits 6 x ++ k) = Some (Some (x / 2), x mod 2 :: k).
Proof.
  intros R. assert (In x (map Z.of_nat (seq 0 64))). { apply in_map_iff. exists (Z.to_nat x). split; [lia|]. apply in_seq. lia. }
  cbn [seq map In] in H. Local Transparent to_bits.
  repeat (destruct H as [<-|H]; [intros k; vm_compute; reflexivity|]). destruct H.
Qed.
#[local] Opaque to_bits.

(** The mode deltas. *)
Lemma rd_modes_iff m0 m1 r0 r1 rs a b k : u8 a -> u8 b ->
  (rd_times 2 rd_update (upds_code [m0; m1] (r0 :: r1 :: rs) [a; b] ++ k) = Some (updates [m0; m1] [a; b], k) <->
   (forall v, In (Some v) (updates [m0; m1] [a; b]) -> v < 64) /\
   ((m0 = r0 /\ m1 = r1) \/ (m0 = true /\ m1 = false /\ r0 = false /\ r1 = true /\ 2 * a = b mod 64))).
Proof.
  intros A B.
  assert (W : forall v, u8 v -> (su_wrap 7 v = v <-> v < 64)).
  { intros v V. rewrite su_wrap_iff by lia. change (2 ^ Z.of_nat (7 - 1)) with 64. unfold u8 in V. lia. }
  assert (S : forall q, (rd_times 2 rd_update q = Some (updates [m0; m1] [a; b], k)) ->
    length q = ((if m0 then 8 else 1) + (if m1 then 8 else 1) + length k)%nat).
  { intros q H. cbn [rd_times obind] in H. ob H. ob H. ob E0. injection E0 as E2 E3. injection H as H1 H2 H3. subst v v0 l0 l1.
    apply rd_update_length in E. apply rd_update_length in E1.
    injection H2 as H4. subst.
    destruct m0, m1; cbn [is_some fst snd] in *; lia. }
  assert (AG : m0 = r0 -> m1 = r1 -> (rd_times 2 rd_update (upds_code [m0; m1] (r0 :: r1 :: rs) [a; b] ++ k) = Some (updates [m0; m1] [a; b], k) <->
     (forall v, In (Some v) (updates [m0; m1] [a; b]) -> v < 64))).
  { intros <- <-. assert (U : upds_code [m0; m1] (m0 :: m1 :: rs) [a; b] = upds_code [m0; m1] [m0; m1] [a; b]) by reflexivity.
    rewrite U. change 2%nat with (length [m0; m1]). rewrite rd_updates_ok by reflexivity.
    assert (X := wrapped_iff [m0; m1] [a; b]). split.
    - intros E0. assert (E : wrapped [m0; m1] [a; b] = updates [m0; m1] [a; b]) by congruence. intros v V. pose proof (proj1 X E v V) as F. unfold fits7 in F. lia.
    - intros H. f_equal. f_equal. apply (proj2 X). intros v V. specialize (H v V). unfold fits7, updates, u8 in *. cbn [combine map fst snd In] in V.
      destruct m0, m1; cbn in V; destruct V as [V|[V|[]]]; try discriminate; injection V as <-; lia. }
  destruct (Bool.bool_dec m0 r0) as [E0|E0]; [destruct (Bool.bool_dec m1 r1) as [E1|E1]|].
  - rewrite (AG E0 E1). intuition congruence.
  - split.
    + intros H. apply S in H. cbn [upds_code] in H. unfold upd_code in H. rewrite !app_length in H. cbn [length] in H. subst r0. exfalso.
      destruct m0, m1, r1; try congruence; cbn [length] in H; rewrite ?su_bits_length in H by lia; lia.
    + intros [_ [[_ C]|(C1 & C2 & C3 & C4 & _)]]; congruence.
  - destruct (Bool.bool_dec m1 r1) as [E1|E1].
    + split.
      * intros H. apply S in H. cbn [upds_code] in H. unfold upd_code in H. rewrite !app_length in H. cbn [length] in H. subst r1. exfalso.
        destruct m0, m1, r0; try congruence; cbn [length] in H; rewrite ?su_bits_length in H by lia; lia.
      * intros [_ [[C _]|(C1 & C2 & C3 & C4 & _)]]; congruence.
    + destruct m0, m1; destruct r0; try congruence; destruct r1; try congruence.
      * (* both set, none written *) split.
        -- intros H. apply S in H. cbn [upds_code upd_code app length] in H. lia.
        -- intros [_ [[C _]|(C1 & C2 & _)]]; congruence.
      * (* first set, second written *)
        assert (Bn : b <? 0 = false) by (unfold u8 in B; lia).
        assert (Hq : upds_code [true; false] (false :: true :: rs) [a; b] ++ k = 1 :: 0 :: 0 :: to_bits 6 (b mod 64) ++ k).
        { cbn [upds_code upd_code b2z app]. unfold su_bits. rewrite Bn. cbn [b2z app]. change (7 - 1)%nat with 6%nat. rewrite app_nil_r.
          change 64 with (2 ^ Z.of_nat 6). rewrite to_bits_mod. reflexivity. }
        rewrite Hq. cbn [rd_times]. assert (Rg : 0 <= b mod 64 < 64) by (apply Z.mod_pos_bound; lia). rewrite to_bits_6 by exact Rg. cbn [obind].
        unfold updates. cbn [combine map fst snd In]. unfold rd_update. cbn [rd1 obind]. split.
        -- intros H. destruct (Z.eqb_spec ((b mod 64) mod 2) 1) as [O|O].
           ++ exfalso. destruct (rd_su 7 k) as [[x y]|]; cbn [obind] in H; discriminate.
           ++ injection H as H1. split; [intros v [V|[V|[]]]; [injection V as <-; lia|discriminate]|]. right. repeat split; try reflexivity. lia.
        -- intros [_ [[C _]|(_ & _ & _ & _ & E)]]; [discriminate|].
           destruct (Z.eqb_spec ((b mod 64) mod 2) 1) as [O|O]; [lia|]. cbn [obind]. do 3 f_equal. f_equal. lia.
      * (* second set, first written: the sign of [a] is read as its flag *)
        split.
        -- intros H. exfalso. cbn [upds_code upd_code b2z app] in H. unfold su_bits in H. assert (An : a <? 0 = false) by (unfold u8 in A; lia). rewrite An in H.
           cbn [rd_times rd_update rd1 obind app b2z] in H. change (0 =? 1) with false in H. cbv iota beta in H. cbn [obind] in H. discriminate.
        -- intros [_ [[C _]|(C1 & C2 & _)]]; congruence.
      * split.
        -- intros H. apply S in H. cbn [upds_code upd_code app length] in H. rewrite !app_length, ?su_bits_length in H by lia. cbn [length] in H. rewrite ?app_length, ?su_bits_length in H by lia. lia.
        -- intros [_ [[C _]|(C1 & C2 & _)]]; congruence.
Qed.
