(** Film grain parameters of the frame header. *)
From Coq Require Import ZArith List Bool Lia ZifyBool ZifyNat.
From Verif Require Import Base BaseProofs TableLemmas UtilModel UtilSpec UtilProofs BitsSpec BitsProofs RangeCoderModel BitCodecModel BitCodecProofs
  SessionModel SeqModel SeqSpec SeqProofs TileModel TileSpec TileProofs FrameParamModel FrameSpec FrameBits FrameProofs FrameProofs2 FrameProofs3 FrameProofs4.
Import ListNotations.
Open Scope Z_scope.
Ltac Zify.zify_post_hook ::= Z.div_mod_to_equations.
#[local] Opaque to_bits.

(** ** What the caller's parameters mean *)
(** No chroma points are coded. *)
Definition no_chroma (mono ss : bool) (g : grain) : bool := mono || fg_cfl g || (ss && (fg_ny g =? 0)).
Definition points (n : Z) (vs ss : list Z) : list (Z * Z) := combine (firstn (Z.to_nat n) vs) (firstn (Z.to_nat n) ss).
Definition coeffs (n : Z) (cs : list Z) : list Z := firstn (Z.to_nat n) cs.
Definition ncb (mono ss : bool) (g : grain) : Z := if no_chroma mono ss g then 0 else fg_ncb g.
Definition ncr (mono ss : bool) (g : grain) : Z := if no_chroma mono ss g then 0 else fg_ncr g.
Definition cfl (mono : bool) (g : grain) : bool := negb mono && fg_cfl g.
Definition luma (g : grain) : Z := 2 * fg_lag g * (fg_lag g + 1).
Definition chroma (g : grain) : Z := if 0 <? fg_ny g then luma g + 1 else luma g.
Definition grain_of (mono ss : bool) (g : grain) : av1_grain_params :=
  mkAG (fg_seed g) (points (fg_ny g) (fg_yv g) (fg_ys g)) (cfl mono g)
    (points (ncb mono ss g) (fg_cbv g) (fg_cbs g)) (points (ncr mono ss g) (fg_crv g) (fg_crs g))
    (fg_scaling g) (fg_lag g)
    (if 0 <? fg_ny g then coeffs (luma g) (fg_ay g) else [])
    (if cfl mono g || (0 <? ncb mono ss g) then coeffs (chroma g) (fg_acb g) else [])
    (if cfl mono g || (0 <? ncr mono ss g) then coeffs (chroma g) (fg_acr g) else [])
    (fg_ashift g) (fg_gshift g)
    (if 0 <? ncb mono ss g then Some (fg_cb_mult g, fg_cb_luma g, fg_cb_off g) else None)
    (if 0 <? ncr mono ss g then Some (fg_cr_mult g, fg_cr_luma g, fg_cr_off g) else None)
    (fg_overlap g) (fg_clip g).
(** The values fit their fields and the vectors are long enough, as far as they are
    used. *)
Definition points_fit (n : Z) (vs ss : list Z) : Prop :=
  0 <= n <= 15 /\ n <= Z.of_nat (length vs) /\ n <= Z.of_nat (length ss) /\ Forall u8 vs /\ Forall u8 ss.
Definition coeffs_fit (n : Z) (cs : list Z) : Prop :=
  n <= Z.of_nat (length cs) /\ Forall (fun c => -128 <= c <= 127) (coeffs n cs).
Definition grain_fits (mono ss : bool) (g : grain) : Prop :=
  0 <= fg_seed g < 2 ^ 16 /\
  points_fit (fg_ny g) (fg_yv g) (fg_ys g) /\
  points_fit (ncb mono ss g) (fg_cbv g) (fg_cbs g) /\ points_fit (ncr mono ss g) (fg_crv g) (fg_crs g) /\
  8 <= fg_scaling g <= 11 /\ 0 <= fg_lag g <= 3 /\
  (0 < fg_ny g -> coeffs_fit (luma g) (fg_ay g)) /\
  (cfl mono g = true \/ 0 < ncb mono ss g -> coeffs_fit (chroma g) (fg_acb g)) /\
  (cfl mono g = true \/ 0 < ncr mono ss g -> coeffs_fit (chroma g) (fg_acr g)) /\
  6 <= fg_ashift g <= 9 /\ 0 <= fg_gshift g <= 3 /\
  (0 < ncb mono ss g -> u8 (fg_cb_mult g) /\ u8 (fg_cb_luma g) /\ 0 <= fg_cb_off g < 512) /\
  (0 < ncr mono ss g -> u8 (fg_cr_mult g) /\ u8 (fg_cr_luma g) /\ 0 <= fg_cr_off g < 512).

(** ** The code *)
Definition pt_code (is : list nat) (vs ss : list Z) : list Z := flat_map (fun i => to_bits 8 (nth i vs 0) ++ to_bits 8 (nth i ss 0)) is.
Definition co_code (is : list nat) (cs : list Z) : list Z := flat_map (fun i => to_bits 8 (nth i cs 0 + 128)) is.
Lemma pt_code_bits is vs ss : is_bits (pt_code is vs ss).
Proof. unfold pt_code. induction is; cbn [flat_map]; bits. Qed.
Lemma co_code_bits is cs : is_bits (co_code is cs).
Proof. unfold co_code. induction is; cbn [flat_map]; bits. Qed.
Lemma enc_points_ok vs ss : forall is out, (forall i, In i is -> (i < length vs)%nat /\ (i < length ss)%nat) ->
  enc_points out is vs ss = Ok (out ++ pt_code is vs ss).
Proof.
  induction is as [|a is IH]; intros out I; [cbn; rewrite app_nil_r; reflexivity|]. destruct (I a (or_introl eq_refl)) as [Lv Ls]. cbn [enc_points].
  destruct (idx_lt _ vs a Lv) as (v & -> & Nv), (idx_lt _ ss a Ls) as (s & Es & Ns). cbn [bind]. rewrite push_bits_with_size_ok by lia. cbn [bind].
  rewrite Es. cbn [bind]. rewrite push_bits_with_size_ok by lia. cbn [bind]. rewrite IH by (intros i J; apply I; right; exact J).
  unfold pt_code. cbn [flat_map]. rewrite (nth_error_nth _ _ _ Nv), (nth_error_nth _ _ _ Ns), <- !app_assoc. reflexivity.
Qed.
Lemma enc_coeffs_ok cs : forall is out, (forall i, In i is -> (i < length cs)%nat /\ -128 <= nth i cs 0 <= 127) ->
  enc_coeffs out is cs = Ok (out ++ co_code is cs).
Proof.
  induction is as [|a is IH]; intros out I; [cbn; rewrite app_nil_r; reflexivity|]. destruct (I a (or_introl eq_refl)) as [Lv R]. cbn [enc_coeffs].
  destruct (idx_lt _ cs a Lv) as (v & -> & Nv). cbn [bind]. rewrite (nth_error_nth _ _ _ Nv) in R. rewrite chk_ok by lia. cbn [bind].
  unfold as_u32. rewrite Z.mod_small by lia. rewrite push_bits_with_size_ok by lia. cbn [bind]. rewrite IH by (intros i J; apply I; right; exact J).
  unfold co_code. cbn [flat_map]. rewrite (nth_error_nth _ _ _ Nv), <- !app_assoc. reflexivity.
Qed.
Lemma rd_points_ok vs ss : Forall u8 vs -> Forall u8 ss -> forall is k, (forall i, In i is -> (i < length vs)%nat /\ (i < length ss)%nat) ->
  rd_times (length is) (fun q => LET (v, q) := rd 8 q IN LET (s, q) := rd 8 q IN Some ((v, s), q)) (pt_code is vs ss ++ k) =
  Some (map (fun i => (nth i vs 0, nth i ss 0)) is, k).
Proof.
  intros Uv Us. induction is as [|a is IH]; intros k I; [reflexivity|]. destruct (I a (or_introl eq_refl)) as [Lv Ls]. cbn [length rd_times].
  unfold pt_code. cbn [flat_map]. fold (pt_code is vs ss). rewrite <- !app_assoc. rewrite Forall_forall in Uv, Us. pose proof (Uv _ (nth_In vs 0 Lv)). pose proof (Us _ (nth_In ss 0 Ls)).
  unfold u8 in *. rewrite rd_ok by (change (2 ^ Z.of_nat 8) with 256; lia). cbn [obind]. rewrite rd_ok by (change (2 ^ Z.of_nat 8) with 256; lia). cbn [obind].
  rewrite IH by (intros i J; apply I; right; exact J). reflexivity.
Qed.
Lemma rd_coeffs_ok cs : forall is k, (forall i, In i is -> -128 <= nth i cs 0 <= 127) ->
  rd_times (length is) (fun q => LET (v, q) := rd 8 q IN Some (v - 128, q)) (co_code is cs ++ k) = Some (map (fun i => nth i cs 0) is, k).
Proof.
  induction is as [|a is IH]; intros k I; [reflexivity|]. pose proof (I a (or_introl eq_refl)). cbn [length rd_times].
  unfold co_code. cbn [flat_map]. fold (co_code is cs). rewrite <- !app_assoc. rewrite rd_ok by (change (2 ^ Z.of_nat 8) with 256; lia). cbn [obind].
  rewrite IH by (intros i J; apply I; right; exact J). cbn [obind map]. do 3 f_equal. lia.
Qed.
Lemma map_nth_seq A (d : A) (l : list A) : forall n, (n <= length l)%nat -> map (fun i => nth i l d) (seq 0 n) = firstn n l.
Proof.
  induction l as [|x l IH]; intros [|n] L; try reflexivity; [cbn in L; lia|]. cbn [seq map firstn nth]. f_equal. rewrite <- seq_shift, map_map. apply IH. cbn in L. lia.
Qed.
Lemma map_pair A B C (f : A -> B) (g : A -> C) l : map (fun i => (f i, g i)) l = combine (map f l) (map g l).
Proof. induction l; [reflexivity|]. cbn. rewrite IHl. reflexivity. Qed.
Lemma map_points n vs ss : points_fit n vs ss -> map (fun i => (nth i vs 0, nth i ss 0)) (upto n) = points n vs ss.
Proof. intros (N & V & S & _). rewrite map_pair. unfold upto, points. rewrite !map_nth_seq by lia. reflexivity. Qed.
Lemma points_length n vs ss : points_fit n vs ss -> length (points n vs ss) = Z.to_nat n.
Proof. intros (N & V & S & _). unfold points. rewrite combine_length, !firstn_length. lia. Qed.
Lemma points_some n vs ss : points_fit n vs ss -> negb (length (points n vs ss) =? 0)%nat = (0 <? n).
Proof. intros P. rewrite (points_length _ _ _ P). destruct P as [N _]. destruct (Z.ltb_spec 0 n), (Nat.eqb_spec (Z.to_nat n) 0); cbn; try reflexivity; lia. Qed.
Lemma upto_length n : length (upto n) = Z.to_nat n.
Proof. apply seq_length. Qed.
Lemma in_upto n i : In i (upto n) -> (i < Z.to_nat n)%nat.
Proof. intros I. apply in_seq in I. lia. Qed.

Definition pts (n : Z) (vs ss : list Z) : list Z := to_bits 4 n ++ pt_code (upto n) vs ss.
Lemma enc_pts n vs ss : points_fit n vs ss -> forall out,
  (out <- push_bits_with_size out (as_u32 n) 4 ;; enc_points out (upto n) vs ss) = Ok (out ++ pts n vs ss).
Proof.
  intros (N & V & S & _) out. unfold as_u32. rewrite Z.mod_small by lia. rewrite push_bits_with_size_ok by lia. cbn [bind].
  rewrite enc_points_ok. 2: { intros i I. apply in_upto in I. lia. } unfold pts. rewrite <- app_assoc. reflexivity.
Qed.
Lemma rd_pts n vs ss : points_fit n vs ss -> forall k, rd_points (pts n vs ss ++ k) = Some (points n vs ss, k).
Proof.
  intros P k. pose proof P as (N & V & S & Uv & Us). unfold rd_points, pts. rewrite <- app_assoc. rewrite rd_ok by (change (2 ^ Z.of_nat 4) with 16; lia). cbn [obind].
  rewrite <- (upto_length n). rewrite rd_points_ok; [|assumption|assumption|]. 2: { intros i I. apply in_upto in I. lia. }
  rewrite map_points by exact P. reflexivity.
Qed.
Lemma enc_cos n cs : coeffs_fit n cs -> forall out, enc_coeffs out (upto n) cs = Ok (out ++ co_code (upto n) cs).
Proof.
  intros (N & F) out. apply enc_coeffs_ok. intros i I. apply in_upto in I. split; [lia|]. rewrite Forall_forall in F. apply F. unfold coeffs.
  rewrite <- (map_nth_seq _ 0) by lia. apply in_map_iff. exists i. split; [reflexivity|]. apply in_seq. lia.
Qed.
Lemma rd_cos n cs : coeffs_fit n cs -> forall k, rd_ar n (co_code (upto n) cs ++ k) = Some (coeffs n cs, k).
Proof.
  intros (N & F) k. unfold rd_ar. rewrite <- (upto_length n). rewrite rd_coeffs_ok.
  - unfold upto, coeffs. rewrite map_nth_seq by lia. reflexivity.
  - intros i I. apply in_upto in I. rewrite Forall_forall in F. apply F. unfold coeffs.
    rewrite <- (map_nth_seq _ 0) by lia. apply in_map_iff. exists i. split; [reflexivity|]. apply in_seq. lia.
Qed.
Definition if_code (c : bool) (l : list Z) : list Z := if c then l else [].
Lemma if_code_bits c l : is_bits l -> is_bits (if_code c l).
Proof. destruct c; cbn; [trivial|intros; apply is_bits_nil]. Qed.
Definition mult_code (m l o : Z) : list Z := to_bits 8 m ++ to_bits 8 l ++ to_bits 9 o.
Lemma enc_mult_ok n m l o out : (0 < n -> u8 m /\ u8 l /\ 0 <= o < 512) -> enc_mult out n m l o = Ok (out ++ if_code (0 <? n) (mult_code m l o)).
Proof.
  intros H. unfold enc_mult. destruct (Z.ltb_spec 0 n) as [L|L]; cbn [if_code]; [|rewrite app_nil_r; reflexivity].
  destruct (H L) as (A & B & C). unfold u8 in *. unfold as_u32. rewrite !Z.mod_small by lia. rewrite !push_bits_with_size_ok by lia. cbn [bind].
  rewrite !push_bits_with_size_ok by lia. cbn [bind]. rewrite !push_bits_with_size_ok by lia. unfold mult_code. rewrite <- !app_assoc. reflexivity.
Qed.
Lemma rd_mult_ok n m l o k : (0 < n -> u8 m /\ u8 l /\ 0 <= o < 512) ->
  rd_if (0 <? n) rd_mult None (if_code (0 <? n) (mult_code m l o) ++ k) = Some (if 0 <? n then Some (m, l, o) else None, k).
Proof.
  intros H. unfold rd_if, rd_mult. destruct (Z.ltb_spec 0 n) as [L|L]; cbn [if_code]; [|reflexivity].
  destruct (H L) as (A & B & C). unfold u8 in *. unfold mult_code. rewrite <- !app_assoc.
  rewrite rd_ok by (change (2 ^ Z.of_nat 8) with 256; lia). cbn [obind]. rewrite rd_ok by (change (2 ^ Z.of_nat 8) with 256; lia). cbn [obind].
  rewrite rd_ok by (change (2 ^ Z.of_nat 9) with 512; lia). reflexivity.
Qed.
Definition grain_code (mono ss : bool) (g : grain) : list Z :=
  pts (fg_ny g) (fg_yv g) (fg_ys g) ++
  if_code (negb mono) [b2z (fg_cfl g)] ++
  if_code (negb (no_chroma mono ss g)) (pts (fg_ncb g) (fg_cbv g) (fg_cbs g) ++ pts (fg_ncr g) (fg_crv g) (fg_crs g)) ++
  to_bits 2 (fg_scaling g - 8) ++ to_bits 2 (fg_lag g) ++
  if_code (0 <? fg_ny g) (co_code (upto (luma g)) (fg_ay g)) ++
  if_code (cfl mono g || (0 <? ncb mono ss g)) (co_code (upto (chroma g)) (fg_acb g)) ++
  if_code (cfl mono g || (0 <? ncr mono ss g)) (co_code (upto (chroma g)) (fg_acr g)) ++
  to_bits 2 (fg_ashift g - 6) ++ to_bits 2 (fg_gshift g) ++
  if_code (0 <? ncb mono ss g) (mult_code (fg_cb_mult g) (fg_cb_luma g) (fg_cb_off g)) ++
  if_code (0 <? ncr mono ss g) (mult_code (fg_cr_mult g) (fg_cr_luma g) (fg_cr_off g)) ++
  [b2z (fg_overlap g); b2z (fg_clip g)].
Lemma grain_code_bits mono ss g : is_bits (grain_code mono ss g).
Proof. unfold grain_code, pts, mult_code. repeat (apply is_bits_app; split); try apply if_code_bits; bits; try apply pt_code_bits; try apply co_code_bits. Qed.
Lemma enc_grain_params_ok mono ss g out : grain_fits mono ss g ->
  enc_grain_params out mono ss g = Ok (out ++ grain_code mono ss g, set_chroma (cfl mono g) (ncb mono ss g) (ncr mono ss g) g).
Proof.
  intros (_ & Y & CB & CR & SC & LAG & CY & CCB & CCR & ASH & GSH & MB & MR).
  assert (Lu : 0 <= luma g <= 24) by (unfold luma; nia).
  unfold enc_grain_params, grain_code. pose proof (enc_pts _ _ _ Y out) as E.
  apply bind_inv in E. destruct E as (o1 & E1 & E2). rewrite E1. cbn [bind]. rewrite E2. cbn [bind]. clear o1 E1 E2.
  set (o2 := out ++ pts _ _ _). 
  assert (C : (let '(out, c) := if mono then (o2, false) else (pbit o2 (fg_cfl g), fg_cfl g) in (out, c)) = (o2 ++ if_code (negb mono) [b2z (fg_cfl g)], cfl mono g)).
  { destruct mono; cbn [negb if_code cfl andb]; [rewrite app_nil_r; reflexivity|rewrite pbit_app; reflexivity]. }
  destruct (if mono then (o2, false) else (pbit o2 (fg_cfl g), fg_cfl g)) as [o3 c]. injection C as -> ->.
  assert (NC : mono || cfl mono g || (ss && (fg_ny g =? 0)) = no_chroma mono ss g) by (unfold no_chroma, cfl; destruct mono; reflexivity). rewrite NC.
  set (o3 := o2 ++ if_code (negb mono) _).
  assert (D : (if no_chroma mono ss g then Ok (o3, set_chroma (cfl mono g) 0 0 g)
     else
       out <- push_bits_with_size o3 (as_u32 (fg_ncb g)) 4 ;;
       out <- enc_points out (upto (fg_ncb g)) (fg_cbv g) (fg_cbs g) ;;
       out <- push_bits_with_size out (as_u32 (fg_ncr g)) 4 ;;
       out <- enc_points out (upto (fg_ncr g)) (fg_crv g) (fg_crs g) ;;
       Ok (out, set_chroma (cfl mono g) (fg_ncb g) (fg_ncr g) g)) =
     Ok (o3 ++ if_code (negb (no_chroma mono ss g)) (pts (fg_ncb g) (fg_cbv g) (fg_cbs g) ++ pts (fg_ncr g) (fg_crv g) (fg_crs g)),
       set_chroma (cfl mono g) (ncb mono ss g) (ncr mono ss g) g)).
  { unfold ncb, ncr in *. destruct (no_chroma mono ss g); cbn [negb if_code]; [rewrite app_nil_r; reflexivity|].
    pose proof (enc_pts _ _ _ CB o3) as E. apply bind_inv in E. destruct E as (o4 & E1 & E2). rewrite E1. cbn [bind]. rewrite E2. cbn [bind]. clear o4 E1 E2.
    pose proof (enc_pts _ _ _ CR (o3 ++ pts (fg_ncb g) (fg_cbv g) (fg_cbs g))) as E. apply bind_inv in E. destruct E as (o4 & E1 & E2). rewrite E1. cbn [bind]. rewrite E2. cbn [bind].
    rewrite <- app_assoc. reflexivity. }
  rewrite D. clear D. cbn [bind]. set (o4 := o3 ++ if_code _ _).
  cbn [set_chroma fg_scaling fg_lag fg_ny fg_ay fg_cfl fg_ncb fg_ncr fg_acb fg_acr fg_ashift fg_gshift fg_cb_mult fg_cb_luma fg_cb_off fg_cr_mult fg_cr_luma fg_cr_off fg_overlap fg_clip].
  rewrite chk_u64_ok by lia. cbn [bind]. unfold as_u32. rewrite !Z.mod_small by lia. rewrite push_bits_with_size_ok by lia. cbn [bind]. rewrite push_bits_with_size_ok by lia. cbn [bind].
  rewrite chk_u64_ok by lia. cbn [bind]. rewrite chk_u64_ok by (fold (luma g); lia). cbn [bind]. fold (luma g).
  set (o5 := (o4 ++ _) ++ _).
  assert (D : (if 0 <? fg_ny g then out <- enc_coeffs o5 (upto (luma g)) (fg_ay g) ;; Ok (out, luma g + 1) else Ok (o5, luma g)) =
    Ok (o5 ++ if_code (0 <? fg_ny g) (co_code (upto (luma g)) (fg_ay g)), chroma g)).
  { unfold chroma. destruct (Z.ltb_spec 0 (fg_ny g)) as [P|P]; cbn [if_code]; [|rewrite app_nil_r; reflexivity]. rewrite (enc_cos _ _ (CY P)). reflexivity. }
  rewrite D. clear D. cbn [bind]. 
  assert (D : forall o n cs, (cfl mono g = true \/ 0 < n -> coeffs_fit (chroma g) cs) ->
    (if cfl mono g || (0 <? n) then enc_coeffs o (upto (chroma g)) cs else Ok o) = Ok (o ++ if_code (cfl mono g || (0 <? n)) (co_code (upto (chroma g)) cs))).
  { intros o n cs H. destruct (cfl mono g || (0 <? n)) eqn:Q; cbn [if_code]; [|rewrite app_nil_r; reflexivity]. apply enc_cos. apply H. destruct (cfl mono g); [tauto|]. cbn in Q. lia. }
  rewrite (D _ _ _ CCB). cbn [bind]. rewrite (D _ _ _ CCR). cbn [bind]. rewrite chk_u64_ok by lia. cbn [bind]. rewrite !Z.mod_small by lia.
  rewrite push_bits_with_size_ok by lia. cbn [bind]. rewrite push_bits_with_size_ok by lia. cbn [bind].
  rewrite (enc_mult_ok _ _ _ _ _ MB). cbn [bind]. rewrite (enc_mult_ok _ _ _ _ _ MR). cbn [bind]. rewrite !pbit_app.
  unfold o5, o4, o3, o2. rewrite <- !app_assoc. reflexivity.
Qed.
Lemma rd_grain_params_ok mono ss g k : grain_fits mono ss g -> rd_grain_params (fg_seed g) mono ss (grain_code mono ss g ++ k) = Some (grain_of mono ss g, k).
Proof.
  intros (_ & Y & CB & CR & SC & LAG & CY & CCB & CCR & ASH & GSH & MB & MR).
  assert (Lu : 0 <= luma g <= 24) by (unfold luma; nia).
  unfold rd_grain_params, grain_code. rewrite <- !app_assoc. rewrite (rd_pts _ _ _ Y). cbn [obind].
  assert (C : forall q, rd_if (negb mono) rd1 false (if_code (negb mono) [b2z (fg_cfl g)] ++ q) = Some (cfl mono g, q)).
  { intros q. unfold rd_if, cfl. destruct mono; cbn [negb if_code app andb]; [reflexivity|rewrite rd1_ok; reflexivity]. }
  rewrite C. clear C. cbn [obind]. 
  assert (NC : mono || cfl mono g || (ss && (length (points (fg_ny g) (fg_yv g) (fg_ys g)) =? 0)%nat) = no_chroma mono ss g).
  { rewrite (points_length _ _ _ Y). destruct Y as [Y _]. replace (Z.to_nat (fg_ny g) =? 0)%nat with (fg_ny g =? 0) by lia. unfold no_chroma, cfl. destruct mono; reflexivity. }
  rewrite NC.
  assert (C : forall q, (if no_chroma mono ss g then Some (([], []), if_code (negb (no_chroma mono ss g)) (pts (fg_ncb g) (fg_cbv g) (fg_cbs g) ++ pts (fg_ncr g) (fg_crv g) (fg_crs g)) ++ q)
     else LET (cb, q) := rd_points (if_code (negb (no_chroma mono ss g)) (pts (fg_ncb g) (fg_cbv g) (fg_cbs g) ++ pts (fg_ncr g) (fg_crv g) (fg_crs g)) ++ q) IN LET (cr, q) := rd_points q IN Some ((cb, cr), q)) =
     Some ((points (ncb mono ss g) (fg_cbv g) (fg_cbs g), points (ncr mono ss g) (fg_crv g) (fg_crs g)), q)).
  { intros q. unfold ncb, ncr in *. destruct (no_chroma mono ss g); cbn [negb if_code app]; [reflexivity|]. rewrite <- app_assoc. rewrite (rd_pts _ _ _ CB). cbn [obind]. rewrite (rd_pts _ _ _ CR). reflexivity. }
  rewrite C. clear C. cbn [obind]. rewrite rd_ok by (change (2 ^ Z.of_nat 2) with 4; lia). cbn [obind]. rewrite rd_ok by (change (2 ^ Z.of_nat 2) with 4; lia). cbn [obind]. cbv zeta.
  rewrite (points_some _ _ _ Y), (points_some _ _ _ CB), (points_some _ _ _ CR). fold (luma g). fold (chroma g).
  assert (C : forall q, rd_if (0 <? fg_ny g) (rd_ar (luma g)) [] (if_code (0 <? fg_ny g) (co_code (upto (luma g)) (fg_ay g)) ++ q) = Some (if 0 <? fg_ny g then coeffs (luma g) (fg_ay g) else [], q)).
  { intros q. unfold rd_if. destruct (Z.ltb_spec 0 (fg_ny g)) as [P|P]; cbn [if_code]; [apply (rd_cos _ _ (CY P))|reflexivity]. }
  rewrite C. clear C. cbn [obind].
  assert (C : forall q n cs, (cfl mono g = true \/ 0 < n -> coeffs_fit (chroma g) cs) ->
    rd_if (cfl mono g || (0 <? n)) (rd_ar (chroma g)) [] (if_code (cfl mono g || (0 <? n)) (co_code (upto (chroma g)) cs) ++ q) = Some (if cfl mono g || (0 <? n) then coeffs (chroma g) cs else [], q)).
  { intros q n cs H. unfold rd_if. destruct (cfl mono g || (0 <? n)) eqn:Q; cbn [if_code]; [|reflexivity]. apply rd_cos. apply H. destruct (cfl mono g); [tauto|]. cbn in Q. lia. }
  rewrite (C _ _ _ CCB). cbn [obind]. rewrite (C _ _ _ CCR). cbn [obind]. clear C.
  rewrite rd_ok by (change (2 ^ Z.of_nat 2) with 4; lia). cbn [obind]. rewrite rd_ok by (change (2 ^ Z.of_nat 2) with 4; lia). cbn [obind].
  rewrite (rd_mult_ok _ _ _ _ _ MB). cbn [obind]. rewrite (rd_mult_ok _ _ _ _ _ MR). cbn [obind app]. rewrite rd1_ok. cbn [obind]. rewrite rd1_ok. cbn [obind].
  unfold grain_of. do 3 f_equal; lia.
Qed.

(** ** The whole element *)
Lemma grain_written g refs show showable inter mono ss : show = true \/ showable = true -> fg_apply g = true -> inter = false \/ fg_update g = true ->
  0 <= fg_ref g < Z.of_nat (length refs) -> grain_fits mono ss g -> exists code g', (forall out, enc_grain out (Some g) refs show showable inter mono ss = Ok (out ++ code, Some g')) /\
  decodes code (rd_grain true true inter mono ss) (Grain (grain_of mono ss g)) /\ grain_of mono ss g' = grain_of mono ss g /\ fg_apply g' = true.
Proof.
  intros S A U R F. pose proof F as (SD & _). exists ([1] ++ to_bits 16 (fg_seed g) ++ if_code inter [1] ++ grain_code mono ss g).
  exists (set_chroma (cfl mono g) (ncb mono ss g) (ncr mono ss g) (if inter then g else set_update g)). split; [|split; [|split]].
  - intros out. unfold enc_grain. replace (negb show && negb showable) with false by (destruct S as [->| ->]; [reflexivity|rewrite andb_false_r; reflexivity]).
    destruct (idx_lt _ refs (Z.to_nat (fg_ref g)) ltac:(lia)) as (st & Es & _). rewrite Z2Nat.id in Es by lia. rewrite Es. cbn [bind]. rewrite A. cbn [negb].
    rewrite push_bits_with_size_ok by lia. cbn [bind]. rewrite pbit_app. destruct inter.
    + destruct U as [U|U]; [discriminate|]. rewrite U, pbit_app. cbn [negb]. rewrite enc_grain_params_ok by exact F. cbn [bind if_code b2z]. rewrite <- !app_assoc. reflexivity.
    + change (fg_update (set_update g)) with true. cbn [negb]. change (if_code false [1]) with (@nil Z). change (Z.to_nat 16) with 16%nat. rewrite ?pbit_app.
      pose proof (enc_grain_params_ok mono ss (set_update g) ((out ++ [b2z true]) ++ to_bits 16 (fg_seed g)) F) as E. rewrite E. cbn [bind app b2z]. rewrite <- !app_assoc. reflexivity.
  - split; [pose proof (grain_code_bits mono ss g); pose proof (if_code_bits inter [1] ltac:(bits)); apply is_bits_app; split; [bits|]; apply is_bits_app; split; [bits|]; apply is_bits_app; split; assumption|]. intros k. unfold rd_grain. cbn [negb orb]. rewrite <- !app_assoc. change ([1] ++ ?x) with (b2z true :: x). rewrite rd1_ok. cbn [obind negb].
    rewrite rd_ok by (change (2 ^ Z.of_nat 16) with (2 ^ 16); lia). cbn [obind].
    assert (X : rd_if inter rd1 true (if_code inter [1] ++ grain_code mono ss g ++ k) = Some (true, grain_code mono ss g ++ k)).
    { unfold rd_if. destruct inter; cbn [if_code app]; [change 1 with (b2z true); rewrite rd1_ok|]; reflexivity. }
    rewrite X. cbn [obind negb]. rewrite rd_grain_params_ok by exact F. reflexivity.
  - destruct F as (_ & Y & _). destruct inter.
    + unfold grain_of, ncb, ncr, cfl, chroma, luma, no_chroma, set_chroma, set_update. cbn -[points Z.ltb Z.eqb]. destruct mono; cbn [orb andb negb]; [reflexivity|].
      destruct (fg_cfl g); cbn [orb andb negb]; [reflexivity|]. destruct (ss && (fg_ny g =? 0)); reflexivity.
    + unfold grain_of, ncb, ncr, cfl, chroma, luma, no_chroma, set_chroma, set_update. cbn -[points Z.ltb Z.eqb]. destruct mono; cbn [orb andb negb]; [reflexivity|].
      destruct (fg_cfl g); cbn [orb andb negb]; [reflexivity|]. destruct (ss && (fg_ny g =? 0)); reflexivity.
  - destruct inter; exact A.
Qed.
(** An inter frame that takes over the parameters of a reference. *)
Lemma grain_copied g refs show showable mono ss : show = true \/ showable = true -> fg_apply g = true -> fg_update g = false ->
  length refs = 8%nat -> 0 <= fg_ref g < 8 -> 0 <= fg_seed g < 2 ^ 16 -> exists code g' st, (forall out, enc_grain out (Some g) refs show showable true mono ss = Ok (out ++ code, Some g')) /\
  decodes code (rd_grain true true true mono ss) (GrainOf (fg_seed g) (fg_ref g)) /\ nth_error refs (Z.to_nat (fg_ref g)) = Some st /\ g' = set_seed (fg_seed g) st.
Proof.
  intros S A U L R SD. destruct (idx_lt _ refs (Z.to_nat (fg_ref g)) ltac:(lia)) as (st & Es & Ns). rewrite Z2Nat.id in Es by lia.
  exists ([1] ++ to_bits 16 (fg_seed g) ++ [0] ++ to_bits 3 (fg_ref g)), (set_seed (fg_seed g) st), st. split; [|split; [|split]].
  - intros out. unfold enc_grain. replace (negb show && negb showable) with false by (destruct S as [->| ->]; [reflexivity|rewrite andb_false_r; reflexivity]).
    rewrite Es. cbn [bind]. rewrite A. cbn [negb]. rewrite push_bits_with_size_ok by lia. cbn [bind]. rewrite pbit_app, U, pbit_app. cbn [negb].
    unfold as_u32. rewrite Z.mod_small by lia. rewrite push_bits_with_size_ok by lia. cbn [bind b2z]. rewrite <- !app_assoc. reflexivity.
  - split; [bits|]. intros k. unfold rd_grain. cbn [negb orb]. rewrite <- !app_assoc. change ([1] ++ ?x) with (b2z true :: x). rewrite rd1_ok. cbn [obind negb].
    rewrite rd_ok by (change (2 ^ Z.of_nat 16) with (2 ^ 16); lia). cbn [obind]. unfold rd_if. change ([0] ++ ?x) with (b2z false :: x). rewrite rd1_ok. cbn [obind negb].
    rewrite rd_ok by (change (2 ^ Z.of_nat 3) with 8; lia). reflexivity.
  - exact Ns.
  - reflexivity.
Qed.
Lemma grain_not_applied g refs show showable inter mono ss : fg_apply g = false -> 0 <= fg_ref g < Z.of_nat (length refs) -> show = true \/ showable = true ->
  (forall out, enc_grain out (Some g) refs show showable inter mono ss = Ok (out ++ [0], Some grain_new)) /\ decodes [0] (rd_grain true true inter mono ss) NoGrain.
Proof.
  intros A R S. split.
  - intros out. unfold enc_grain. replace (negb show && negb showable) with false by (destruct S as [->| ->]; [reflexivity|rewrite andb_false_r; reflexivity]).
    destruct (idx_lt _ refs (Z.to_nat (fg_ref g)) ltac:(lia)) as (st & Es & _). rewrite Z2Nat.id in Es by lia. rewrite Es. cbn [bind]. rewrite A. cbn [negb]. rewrite pbit_app. reflexivity.
  - split; [bits|]. intros k. reflexivity.
Qed.
(** Where the standard has nothing - no film grain in the sequence, or a frame that
    is never shown - a bit is written all the same, and parameters appear. *)
Lemma grain_extra fg refs show showable inter mono ss : refs <> [] -> fg = None \/ (show = false /\ showable = false) ->
  (forall out, enc_grain out fg refs show showable inter mono ss = Ok (out ++ [0], Some grain_new)) /\
  (forall present, present = is_some fg -> forall v, never_decodes [0] (rd_grain present (show || showable) inter mono ss) v).
Proof.
  intros R H. split.
  - intros out. unfold enc_grain. 
    replace (match fg with Some g => if negb show && negb showable then grain_new else g | None => grain_new end) with grain_new
      by (destruct H as [->|[-> ->]]; [reflexivity|destruct fg; reflexivity]).
    cbn [fg_ref fg_apply grain_new negb]. destruct refs as [|r refs]; [now destruct R|]. rewrite pbit_app. reflexivity.
  - intros present -> v k E. unfold rd_grain in E. replace (negb (is_some fg) || negb (show || showable)) with true in E
      by (destruct H as [->|[-> ->]]; [reflexivity|rewrite orb_true_r; reflexivity]).
    injection E as _ E. apply (f_equal (@length Z)) in E. cbn [length app] in E. lia.
Qed.
(** Parameters out of range: a scaling shift below 8 or a coefficient shift below 6
    is never written. *)
Lemma grain_shifts g refs show showable inter mono ss out r : show = true \/ showable = true -> fg_apply g = true -> inter = false \/ fg_update g = true ->
  enc_grain out (Some g) refs show showable inter mono ss = Ok r -> 8 <= fg_scaling g /\ 6 <= fg_ashift g.
Proof.
  intros S A U H. unfold enc_grain in H. replace (negb show && negb showable) with false in H by (destruct S as [->| ->]; [reflexivity|rewrite andb_false_r; reflexivity]).
  apply bind_inv in H. destruct H as (st & _ & H). rewrite A in H. cbn [negb] in H. apply bind_inv in H. destruct H as (o1 & _ & H).
  assert (K : forall o g' r', enc_grain_params o mono ss g' = Ok r' -> 8 <= fg_scaling g' /\ 6 <= fg_ashift g').
  { clear. intros o g r H. unfold enc_grain_params in H. do 2 (apply bind_inv in H; destruct H as (? & _ & H)).
    destruct (if mono then _ else _) as [o' c]. apply bind_inv in H. destruct H as ((o2 & g') & E & H).
    assert (G : fg_scaling g' = fg_scaling g /\ fg_ashift g' = fg_ashift g).
    { destruct (mono || c || (ss && (fg_ny g =? 0))); [injection E as _ <-; split; reflexivity|]. do 4 (apply bind_inv in E; destruct E as (? & _ & E)). injection E as _ <-. split; reflexivity. }
    destruct G as [<- <-].
    assert (C : forall z v, chk_u64 z = Ok v -> 0 <= z).
    { intros z v E'. apply chk_inv in E'. lia. }
    apply bind_inv in H. destruct H as (s & E1 & H). apply C in E1.
    do 4 (apply bind_inv in H; destruct H as (? & _ & H)). apply bind_inv in H. destruct H as ((? & ?) & _ & H).
    do 2 (apply bind_inv in H; destruct H as (? & _ & H)). apply bind_inv in H. destruct H as (s2 & E2 & H). apply C in E2. lia. }
  destruct inter.
  - destruct U as [U|U]; [discriminate|]. rewrite U in H. cbn [negb] in H. apply bind_inv in H. destruct H as ((o2 & g2) & E & _). exact (K _ _ _ E).
  - change (fg_update (set_update g)) with true in H. cbn [negb] in H. apply bind_inv in H. destruct H as ((o2 & g2) & E & _). exact (K _ _ _ E).
Qed.
