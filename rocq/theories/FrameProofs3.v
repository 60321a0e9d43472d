(** Loop filter, cdef and loop restoration parameters of the frame header. *)
From Coq Require Import ZArith List Bool Lia ZifyBool ZifyNat.
From Verif Require Import Base BaseProofs TableLemmas UtilModel UtilSpec UtilProofs BitsSpec BitsProofs RangeCoderModel BitCodecModel BitCodecProofs
  SessionModel SeqModel SeqSpec SeqProofs ElementModel TileModel TileSpec TileProofs BlockTables FrameParamModel FrameSpec FrameBits FrameProofs FrameProofs2.
Import ListNotations.
Open Scope Z_scope.
Ltac Zify.zify_post_hook ::= Z.div_mod_to_equations.
#[local] Opaque to_bits.

Lemma mod64 v : u8 v -> (v mod 64 = v <-> v < 64).
Proof. unfold u8. intros. split; [lia|]. intros. apply Z.mod_small. lia. Qed.
Lemma mod8 v : u8 v -> (v mod 8 = v <-> v < 8).
Proof. unfold u8. intros. split; [lia|]. intros. apply Z.mod_small. lia. Qed.

(** The part after the levels and the sharpness. *)
Definition rd_lf_tail (lv : Z * Z * option (Z * Z)) (sharp : Z) (q : list Z) : option (av1_lf * list Z) :=
  LET (enabled, q) := rd1 q IN
  LET (update, q) := rd_if enabled rd1 false q IN
  LET (ups, q) := rd_if update
    (fun q => LET (r, q) := rd_times 8 rd_update q IN LET (m, q) := rd_times 2 rd_update q IN Some (Some (r, m), q)) None q IN
  Some (mkALF lv sharp enabled ups, q).
Lemma lf_tail_read p lv sharp lv' sharp' k : lf_typed p ->
  (rd_lf_tail lv sharp (lf_tail p ++ k) = Some (mkALF lv' sharp' (lf_enabled p)
     (if lf_enabled p && lf_update p then Some (updates (lf_upd_ref p) (lf_ref p), updates (lf_upd_mode p) (lf_mode p)) else None), k) <->
   lv = lv' /\ sharp = sharp' /\ lf_flags p /\ (lf_enabled p = true -> lf_update p = true ->
    (forall v, In (Some v) (updates (lf_upd_ref p) (lf_ref p)) -> fits7 v) /\
    forall v, In (Some v) (updates (lf_upd_mode p) (lf_mode p)) -> v < 64)).
Proof.
  intros (_ & _ & _ & L8 & L8' & T8 & L2 & L2' & T2). destruct p as [lx sx en up ur rf um md].
  unfold lf_flags, rd_lf_tail, lf_tail, rd_if. cbn [lf_level lf_sharp lf_enabled lf_update lf_upd_ref lf_ref lf_upd_mode lf_mode] in *. cbn [app]. rewrite rd1_ok. cbn [obind].
  destruct en; [|cbn [obind andb]; split; [intros H; injection H as <- <-; repeat split; discriminate|intros (-> & -> & _); reflexivity]].
  cbn [app]. rewrite rd1_ok. cbn [obind andb].
  destruct up; [|split; [intros H; injection H as <- <-; repeat split; discriminate|intros (-> & -> & _); reflexivity]].
  rewrite <- app_assoc. change 8%nat with (length ([] : list bool) + 8)%nat. cbn [length Nat.add]. rewrite <- L8. rewrite rd_updates_ok by lia. cbn [obind].
  do 3 (destruct um as [|? um]; try discriminate). do 3 (destruct md as [|? md]; try discriminate).
  do 2 (destruct ur as [|? ur]; try discriminate). cbn [nth].
  inversion T2 as [|? ? U1 T2']. subst. inversion T2' as [|? ? U2 _]. subst.
  assert (M := rd_modes_iff b b0 b1 b2 ur z z0 k U1 U2).
  assert (W := wrapped_iff (b1 :: b2 :: ur) rf).
  split.
  - destruct (rd_times 2 rd_update (upds_code [b; b0] (b1 :: b2 :: ur) [z; z0] ++ k)) as [[m q]|]; cbn [obind]; [|discriminate].
    intros H. assert (H' : lv = lv' /\ sharp = sharp' /\ wrapped (b1 :: b2 :: ur) rf = updates (b1 :: b2 :: ur) rf /\ m = updates [b; b0] [z; z0] /\ q = k).
    { assert (X : forall a b c d a' b' c' d' (q q' : list Z), Some (mkALF a b c (Some d), q) = Some (mkALF a' b' c' (Some d'), q') -> a = a' /\ b = b' /\ d = d' /\ q = q')
        by (intros * X; injection X as -> -> -> -> ->; tauto).
      apply X in H. destruct H as (-> & -> & H & ->). injection H as H1 H2. tauto. }
    destruct H' as (-> & -> & H1 & -> & ->). pose proof (proj1 W H1) as H3. destruct (proj1 M eq_refl) as [M1 M2]. tauto.
  - intros (-> & -> & F & G). specialize (F eq_refl eq_refl). specialize (G eq_refl eq_refl). destruct G as [G1 G2].
    rewrite (proj2 M (conj G2 F)). cbn [obind]. rewrite (proj2 W G1). reflexivity.
Qed.

Lemma lf_code_read p k : lf_typed p -> (rd_lf 3 (lf_code p ++ k) = Some (lf_of p, k) <-> lf_fits p /\ lf_flags p).
Proof.
  intros T. assert (TR := lf_tail_read p). destruct T as (L4 & T4 & Ts & T'). pose proof (conj L4 (conj T4 (conj Ts T'))) as T. clear T'.
  specialize (fun a b c d k => TR a b c d k T). clear T.
  unfold lf_of, lf_code, lf_fits in *. destruct (lf_level p) as [|l0 [|l1 [|l2 [|l3 [|? ?]]]]]; try discriminate. cbn [nth].
  inversion T4 as [|? ? U0 T4a]. inversion T4a as [|? ? U1 T4b]. inversion T4b as [|? ? U2 T4c]. inversion T4c as [|? ? U3 _]. subst. clear T4 T4a T4b T4c L4.
  pose proof (mod64 l0 U0) as M0. pose proof (mod64 l1 U1) as M1. pose proof (mod64 l2 U2) as M2. pose proof (mod64 l3 U3) as M3. pose proof (mod8 _ Ts) as Ms.
  unfold rd_lf. rewrite <- !app_assoc. rewrite rd_any. cbn [obind]. rewrite rd_any. cbn [obind].
  change (2 ^ Z.of_nat 6) with 64. change (1 <? 3) with true. cbn [andb].
  destruct (Z.lt_ge_cases l0 64) as [B0|B0].
  2: { split; [|lia]. intros H. exfalso. ob H. ob H. ob H. ob H. ob H. injection H as H _. lia. }
  destruct (Z.lt_ge_cases l1 64) as [B1|B1].
  2: { split; [|lia]. intros H. exfalso. ob H. ob H. ob H. ob H. ob H. injection H as _ H _. lia. }
  rewrite (proj2 M0 B0), (proj2 M1 B1).
  replace (negb (l0 =? 0) || negb (l1 =? 0)) with ((0 <? l0) || (0 <? l1)) by (unfold u8 in *; lia).
  destruct ((0 <? l0) || (0 <? l1)) eqn:C; unfold rd_if at 1.
  - rewrite <- !app_assoc. rewrite rd_any. cbn [obind]. rewrite rd_any. cbn [obind]. rewrite rd_any. cbn [obind].
    change (2 ^ Z.of_nat 6) with 64. change (2 ^ Z.of_nat 3) with 8.
    fold (rd_lf_tail (l0, l1, Some (l2 mod 64, l3 mod 64)) (lf_sharp p mod 8) (lf_tail p ++ k)).
    replace ((l0 =? 0) && (l1 =? 0)) with false by (unfold u8 in *; lia). rewrite TR.
    split.
    + intros (E & E' & F & G). injection E as E1 E2. refine (conj (conj B0 (conj B1 (conj _ (conj _ G)))) F); [intros _; tauto|tauto].
    + intros ((_ & _ & F1 & F2 & F3) & G). refine (conj _ (conj _ (conj G F3))); [|tauto]. rewrite (proj2 M2), (proj2 M3) by (apply F1; lia). reflexivity.
  - cbn [app obind]. rewrite rd_any. cbn [obind]. change (2 ^ Z.of_nat 3) with 8.
    fold (rd_lf_tail (l0, l1, None) (lf_sharp p mod 8) (lf_tail p ++ k)).
    replace ((l0 =? 0) && (l1 =? 0)) with true by (unfold u8 in *; lia). rewrite TR.
    split.
    + intros (E & E' & F & G). refine (conj (conj B0 (conj B1 (conj _ (conj _ G)))) F); [unfold u8 in *; lia|tauto].
    + intros ((_ & _ & F1 & F2 & F3) & G). refine (conj eq_refl (conj _ (conj G F3))). tauto.
Qed.
Lemma upds_code_bits fs : forall gs vs, is_bits (upds_code fs gs vs).
Proof.
  induction fs; intros [|g gs] [|v vs]; try apply is_bits_nil. cbn [upds_code]. unfold upd_code. apply is_bits_app. split; [|apply IHfs]. destruct g; bits.
Qed.
Lemma lf_code_bits p : is_bits (lf_code p).
Proof.
  unfold lf_code, lf_tail. destruct (_ || _), (lf_enabled p), (lf_update p); repeat first [apply upds_code_bits | apply is_bits_app; split | bits].
Qed.
Lemma lf_decoded p : lf_typed p -> exists bits, enc_lf [] 3 false p = Ok (bits, p) /\
  (lf_fits p -> lf_flags p -> decodes bits (rd_lf 3) (lf_of p)) /\ (~ (lf_fits p /\ lf_flags p) -> never_decodes bits (rd_lf 3) (lf_of p)).
Proof.
  intros T. exists (lf_code p). split; [apply (enc_lf_ok [] 3); [exact T|lia]|]. split.
  - intros F G. split; [apply lf_code_bits|]. intros k. apply lf_code_read; tauto.
  - intros N k H. apply N. apply (lf_code_read p k T). exact H.
Qed.
(** A monochrome stream: the levels of the chroma planes are written, a decoder
    does not read them. *)
Definition lf_size (planes : Z) (v : av1_lf) : nat :=
  let ups l := list_sum (map (fun u : option Z => if is_some u then 8 else 1)%nat l) in
  (6 + 6 + (if is_some (snd (al_levels v)) then 12 else 0) + 3 + 1 + (if al_enabled v then 1 else 0) +
   match al_updates v with Some (r, m) => ups r + ups m | None => 0 end)%nat.
Lemma rd_updates_length n : forall q l k, rd_times n rd_update q = Some (l, k) ->
  length q = (list_sum (map (fun u : option Z => if is_some u then 8 else 1)%nat l) + length k)%nat.
Proof.
  induction n; intros q l k H; cbn [rd_times] in H.
  - injection H as <- <-. reflexivity.
  - ob H. ob H. injection H as <- <-. apply rd_update_length in E. apply IHn in E0. cbn [map list_sum fold_right]. unfold list_sum in E0. lia.
Qed.
Lemma rd_lf_sized planes : sized (rd_lf planes) (lf_size planes).
Proof.
  intros q v k H. unfold rd_lf, rd_if in H. ob H. ob H. ob H. ob H. ob H. ob H. ob H. injection H as <- <-.
  apply rd_length in E. apply rd_length in E0. apply rd_length in E2. apply rd1_length in E3. unfold lf_size. cbn [al_levels al_updates al_enabled snd].
  assert (X1 : length l0 = ((if is_some v2 then 12 else 0) + length l1)%nat).
  { destruct (_ && _); [|injection E1 as <- <-; reflexivity]. ob E1. ob E1. injection E1 as <- <-. apply rd_length in E6. apply rd_length in E7. cbn [is_some]. lia. }
  assert (X2 : length l3 = ((if v4 then 1 else 0) + length l4)%nat).
  { destruct v4; [apply rd1_length in E4; lia|injection E4 as <- <-; reflexivity]. }
  assert (X3 : length l4 = (match v6 with Some (r, m) => list_sum (map (fun u : option Z => if is_some u then 8 else 1)%nat r) + list_sum (map (fun u : option Z => if is_some u then 8 else 1)%nat m) | None => 0 end + length l5)%nat).
  { destruct v5; [|injection E5 as <- <-; reflexivity]. ob E5. ob E5. injection E5 as <- <-. apply rd_updates_length in E6. apply rd_updates_length in E7. lia. }
  lia.
Qed.
Lemma upds_code_length fs : forall gs vs, length fs = length vs -> (length vs <= length gs)%nat ->
  length (upds_code fs gs vs) = list_sum (map (fun g : bool => if g then 8 else 1)%nat (firstn (length vs) gs)).
Proof.
  induction fs as [|f fs IH]; intros gs [|v vs] L G; try discriminate; [reflexivity|]. destruct gs as [|g gs]; [cbn [length] in *; lia|].
  cbn [upds_code length firstn map list_sum fold_right]. rewrite app_length, IH by (cbn [length] in *; lia). unfold upd_code. cbn [length].
  unfold list_sum. destruct g; [rewrite su_bits_length by lia|]; cbn [length]; lia.
Qed.
Lemma updates_size fs : forall vs, length fs = length vs ->
  list_sum (map (fun u : option Z => if is_some u then 8 else 1)%nat (updates fs vs)) = list_sum (map (fun g : bool => if g then 8 else 1)%nat fs).
Proof.
  induction fs as [|f fs IH]; intros [|v vs] L; try discriminate; [reflexivity|]. unfold updates in *. cbn [combine map list_sum fold_right fst snd].
  unfold list_sum in IH. rewrite IH by (cbn [length] in L; lia). destruct f; reflexivity.
Qed.
Lemma lf_mono p bits : lf_typed p -> nth 0 (lf_level p) 0 <> 0 \/ nth 1 (lf_level p) 0 <> 0 -> enc_lf [] 3 false p = Ok (bits, p) ->
  never_decodes bits (rd_lf 1) (mkALF (nth 0 (lf_level p) 0, nth 1 (lf_level p) 0, None) (lf_sharp p) (lf_enabled p) (al_updates (lf_of p))).
Proof.
  intros T N E. rewrite (enc_lf_ok [] 3 p T ltac:(lia)) in E. injection E as <-. apply (sized_never _ _ _ _ _ (rd_lf_sized 1)).
  destruct T as (L4 & T4 & Ts & L8 & L8' & T8 & L2 & L2' & T2). unfold lf_size, lf_code, lf_tail, lf_of. cbn [al_levels al_enabled al_updates snd is_some].
  assert (Ux : u8 (nth 0 (lf_level p) 0) /\ u8 (nth 1 (lf_level p) 0)).
  { rewrite Forall_forall in T4. split; apply T4; apply nth_In; lia. }
  replace ((0 <? nth 0 (lf_level p) 0) || (0 <? nth 1 (lf_level p) 0)) with true by (unfold u8 in *; lia).
  rewrite !app_length, !to_bits_length. cbn [length].
  destruct (lf_enabled p) eqn:En; [destruct (lf_update p) eqn:Up|]; cbn [andb length]; [|lia|lia].
  rewrite app_length, !upds_code_length by lia. rewrite !updates_size by lia. rewrite L8', L2'. rewrite firstn_all2 by lia.
  destruct (lf_upd_mode p) as [|m0 [|m1 [|]]]; try discriminate. destruct (lf_upd_ref p) as [|r0 [|r1 rs]]; try discriminate.
  cbn [firstn map list_sum fold_right]. set (x := fold_right Nat.add 0%nat (map (fun g : bool => if g then 8%nat else 1%nat) rs)).
  clearbody x. clear. destruct m0, m1, r0, r1; lia.
Qed.
(** Lossless or intra block copy: nothing is written and the parameters are reset. *)
Lemma lf_off out planes p : lf_typed p -> exists p', enc_lf out planes true p = Ok (out, p') /\
  nth 0 (lf_level p') 1 = 0 /\ nth 1 (lf_level p') 1 = 0 /\ lf_ref p' = [1; 0; 0; 0; -1; 0; -1; -1] /\ lf_mode p' = [0; 0].
Proof.
  intros (L4 & _). unfold enc_lf. destruct (lf_level p) as [|a [|b l]] eqn:E; try discriminate. cbn [length] in L4.
  change (put (a :: b :: l) 0 0) with (Ok (0 :: b :: l)). cbn [bind]. change (put (0 :: b :: l) 1 0) with (Ok (0 :: 0 :: l)). cbn [bind].
  eexists. split; [reflexivity|]. cbn. tauto.
Qed.

(** ** CDEF *)
Definition cdef_typed (p : cdefp) : Prop :=
  u8 (cd_damping p) /\ u8 (cd_bits p) /\ Forall u8 (cd_y_pri p) /\ Forall u8 (cd_y_sec p) /\ Forall u8 (cd_uv_pri p) /\ Forall u8 (cd_uv_sec p).
(** Number of strengths the frame uses. *)
Definition cdef_count (p : cdefp) : nat := Z.to_nat (2 ^ cd_bits p).
Definition cdef_long (p : cdefp) : Prop :=
  (cdef_count p <= length (cd_y_pri p) /\ cdef_count p <= length (cd_y_sec p) /\ cdef_count p <= length (cd_uv_pri p) /\ cdef_count p <= length (cd_uv_sec p))%nat.
(** A secondary strength of 3 means 4. *)
Definition sec (s : Z) : Z := if s =? 3 then 4 else s.
Definition cdef_of (p : cdefp) : Z * list (Z * Z * option (Z * Z)) :=
  (cd_damping p, map (fun i => (nth i (cd_y_pri p) 0, sec (nth i (cd_y_sec p) 0), Some (nth i (cd_uv_pri p) 0, sec (nth i (cd_uv_sec p) 0)))) (seq 0 (cdef_count p))).
Definition cdef_fits (p : cdefp) : Prop :=
  cd_damping p <= 6 /\ cd_bits p <= 3 /\ forall i, (i < cdef_count p)%nat ->
    nth i (cd_y_pri p) 0 < 16 /\ nth i (cd_y_sec p) 0 < 4 /\ nth i (cd_uv_pri p) 0 < 16 /\ nth i (cd_uv_sec p) 0 < 4.

Definition str_code (p : cdefp) (i : nat) : list Z :=
  to_bits 4 (nth i (cd_y_pri p) 0) ++ to_bits 2 (nth i (cd_y_sec p) 0) ++ to_bits 4 (nth i (cd_uv_pri p) 0) ++ to_bits 2 (nth i (cd_uv_sec p) 0).
Definition sec_prefix (n : nat) (l : list Z) : list Z := map sec (firstn n l) ++ skipn n l.
Definition cdef_kept (n : nat) (p : cdefp) : cdefp :=
  mkCdef (cd_damping p) (cd_bits p) (cd_y_pri p) (sec_prefix n (cd_y_sec p)) (cd_uv_pri p) (sec_prefix n (cd_uv_sec p)).
Lemma sec_prefix_length n l : length (sec_prefix n l) = length l.
Proof. unfold sec_prefix. rewrite app_length, map_length, <- app_length, firstn_skipn. reflexivity. Qed.
Lemma sec_prefix_nth n l i : nth i (sec_prefix n l) 0 = if (i <? n)%nat then sec (nth i l 0) else nth i l 0.
Proof.
  unfold sec_prefix. revert l i. induction n; intros l i.
  - cbn [firstn map app skipn]. reflexivity.
  - destruct l as [|x l]; [rewrite firstn_nil, skipn_nil; cbn [map app]; destruct i; cbn [nth]; destruct (_ <? _)%nat; reflexivity|]. cbn [firstn map app skipn]. destruct i; [reflexivity|].
    cbn [nth]. rewrite IHn. reflexivity.
Qed.
Lemma sec_prefix_S a l : (a < length l)%nat -> sec_prefix (S a) l = if nth a l 0 =? 3 then set_nth a 4 (sec_prefix a l) else sec_prefix a l.
Proof.
  revert l. induction a; intros [|x l] L; try (cbn [length] in L; lia).
  - cbn. unfold sec. destruct (x =? 3); reflexivity.
  - cbn [length] in L. specialize (IHa l ltac:(lia)).
    assert (X : forall n y m, sec_prefix (S n) (y :: m) = sec y :: sec_prefix n m) by reflexivity.
    rewrite !X, IHa. cbn [nth]. destruct (nth a l 0 =? 3); reflexivity.
Qed.
Lemma enc_strength_ok out pri sec0 (i : nat) : (i < length pri)%nat -> (i < length sec0)%nat ->
  enc_strength out (Z.of_nat i) pri sec0 =
  Ok (out ++ to_bits 4 (nth i pri 0) ++ to_bits 2 (nth i sec0 0), if nth i sec0 0 =? 3 then set_nth i 4 sec0 else sec0).
Proof.
  intros L1 L2. unfold enc_strength. destruct (idx_lt _ pri i L1) as (x & -> & X). cbn [bind]. rewrite push_bits_with_size_ok by lia. cbn [bind].
  destruct (idx_lt _ sec0 i L2) as (y & -> & Y). cbn [bind]. rewrite push_bits_with_size_ok by lia. cbn [bind].
  rewrite (nth_error_nth _ _ 0 X), (nth_error_nth _ _ 0 Y), Nat2Z.id, <- app_assoc. reflexivity.
Qed.
Lemma enc_strengths_ok p planes : 1 < planes -> cdef_long p -> forall n a out, (a + n <= cdef_count p)%nat ->
  enc_strengths out (seq a n) planes (cdef_kept a p) = Ok (out ++ concat (map (str_code p) (seq a n)), cdef_kept (a + n) p).
Proof.
  intros Hp (L1 & L2 & L3 & L4). induction n; intros a out H.
  - cbn. rewrite app_nil_r, Nat.add_0_r. reflexivity.
  - cbn [seq enc_strengths]. unfold cdef_kept at 1 2 3 4 5 6 7 8 9. cbn [cd_y_pri cd_y_sec cd_uv_pri cd_uv_sec cd_damping cd_bits].
    rewrite enc_strength_ok by (rewrite ?sec_prefix_length; lia). cbn [bind]. destruct (Z.ltb_spec 1 planes); [|lia].
    rewrite enc_strength_ok by (rewrite ?sec_prefix_length; lia). cbn [bind].
    rewrite !sec_prefix_nth. destruct (Nat.ltb_spec a a); [lia|]. rewrite <- !sec_prefix_S by lia.
    fold (cdef_kept (S a) p). rewrite IHn by lia. cbn [map concat]. unfold str_code at 2. rewrite <- !app_assoc.
    replace (S a + n)%nat with (a + S n)%nat by lia. reflexivity.
Qed.
Definition cdef_code (p : cdefp) : list Z :=
  to_bits 2 (cd_damping p - 3) ++ to_bits 2 (cd_bits p) ++ concat (map (str_code p) (seq 0 (cdef_count p))).
Lemma cdef_upto p : 0 <= cd_bits p -> upto (Z.shiftl 1 (cd_bits p)) = seq 0 (cdef_count p).
Proof. intros H. unfold upto, cdef_count. rewrite shiftl_mul, Z.mul_1_l by lia. reflexivity. Qed.
Lemma cdef_kept_0 p : cdef_kept 0 p = p.
Proof. destruct p; reflexivity. Qed.
Lemma enc_cdef_ok out planes p : cdef_typed p -> 1 < planes -> 3 <= cd_damping p -> cd_bits p < 64 -> cdef_long p ->
  enc_cdef out planes false p = Ok (out ++ cdef_code p, cdef_kept (cdef_count p) p).
Proof.
  intros (Td & Tb & _) Hp D B L. unfold enc_cdef. unfold u8 in *. rewrite chk_u8_ok by lia. cbn [bind].
  rewrite push_bits_with_size_ok by lia. cbn [bind]. rewrite push_bits_with_size_ok by lia. cbn [bind]. rewrite shift_ok_ok by lia. cbn [bind].
  rewrite cdef_upto by lia. pose proof (enc_strengths_ok p planes Hp L (cdef_count p) 0) as E. rewrite cdef_kept_0 in E.
  rewrite E by lia. unfold cdef_code. rewrite <- !app_assoc. reflexivity.
Qed.
(** The values that make the writer panic. *)
Lemma idx_ok_lt A (l : list A) (i : nat) v : idx l (Z.of_nat i) = Ok v -> (i < length l)%nat.
Proof.
  unfold idx. destruct (Z.ltb_spec (Z.of_nat i) 0); [lia|]. rewrite Nat2Z.id. destruct (nth_error l i) eqn:E; [|discriminate].
  intros _. apply nth_error_Some. congruence.
Qed.
Lemma set_nth_length A (l : list A) : forall i x, length (set_nth i x l) = length l.
Proof. induction l; intros [|i] x; cbn [set_nth length]; try reflexivity. rewrite IHl. reflexivity. Qed.
Lemma enc_strength_inv out i pri sec0 out' sec' : enc_strength out (Z.of_nat i) pri sec0 = Ok (out', sec') ->
  (i < length pri)%nat /\ (i < length sec0)%nat /\ length sec' = length sec0.
Proof.
  unfold enc_strength. intros H. apply bind_inv in H. destruct H as (x & E & H). apply bind_inv in H. destruct H as (o & _ & H).
  apply bind_inv in H. destruct H as (y & E' & H). apply bind_inv in H. destruct H as (o' & _ & H). injection H as _ <-.
  split; [exact (idx_ok_lt _ _ _ _ E)|]. split; [exact (idx_ok_lt _ _ _ _ E')|]. destruct (y =? 3); [apply set_nth_length|reflexivity].
Qed.
Lemma enc_strengths_inv planes : 1 < planes -> forall is out p r, enc_strengths out is planes p = Ok r -> forall i, In i is ->
  (i < length (cd_y_pri p) /\ i < length (cd_y_sec p) /\ i < length (cd_uv_pri p) /\ i < length (cd_uv_sec p))%nat.
Proof.
  intros Hp. induction is as [|j is IH]; intros out p r H i I; [destruct I|]. cbn [enc_strengths] in H.
  apply bind_inv in H. destruct H as ((o1 & ys) & E1 & H). apply bind_inv in H. destruct H as ((o2 & us) & E2 & H).
  destruct (Z.ltb_spec 1 planes); [|lia]. apply enc_strength_inv in E1. apply enc_strength_inv in E2.
  destruct I as [<-|I]; [tauto|]. specialize (IH _ _ _ H i I). cbn [cd_y_pri cd_y_sec cd_uv_pri cd_uv_sec] in IH. destruct E1 as (_ & _ & <-), E2 as (_ & _ & <-). exact IH.
Qed.
Lemma enc_cdef_inv out planes p r : cdef_typed p -> 1 < planes -> enc_cdef out planes false p = Ok r -> 3 <= cd_damping p /\ cd_bits p < 64 /\ cdef_long p.
Proof.
  intros (Td & Tb & _) Hp H. unfold enc_cdef, u8 in *.
  assert (D : 3 <= cd_damping p). { destruct (Z.lt_ge_cases (cd_damping p) 3); [|lia]. unfold chk_u8 in H. rewrite chk_not_ok in H by lia. discriminate. }
  rewrite chk_u8_ok in H by lia. cbn [bind] in H. rewrite push_bits_with_size_ok in H by lia. cbn [bind] in H. rewrite push_bits_with_size_ok in H by lia. cbn [bind] in H.
  assert (B : cd_bits p < 64). { destruct (Z.lt_ge_cases (cd_bits p) 64); [assumption|]. unfold shift_ok in H.
    replace ((0 <=? cd_bits p) && (cd_bits p <? 64)) with false in H by lia. discriminate. }
  rewrite shift_ok_ok in H by lia. cbn [bind] in H. rewrite cdef_upto in H by lia.
  split; [exact D|]. split; [exact B|]. pose proof (pow2_pos (cd_bits p) ltac:(lia)) as P.
  assert (C : (0 < cdef_count p)%nat) by (unfold cdef_count; lia).
  pose proof (enc_strengths_inv planes Hp _ _ _ _ H (cdef_count p - 1)%nat ltac:(apply in_seq; lia)). unfold cdef_long. lia.
Qed.

Lemma rd_strength_ok p i k : rd_strength 3 (str_code p i ++ k) =
  Some ((nth i (cd_y_pri p) 0 mod 16, sec (nth i (cd_y_sec p) 0 mod 4), Some (nth i (cd_uv_pri p) 0 mod 16, sec (nth i (cd_uv_sec p) 0 mod 4))), k).
Proof.
  unfold rd_strength, str_code, rd_sec, rd_if. rewrite <- !app_assoc. rewrite rd_any. cbn [obind]. rewrite rd_any. cbn [obind].
  change (1 <? 3) with true. cbv iota. rewrite rd_any. cbn [obind]. rewrite rd_any. reflexivity.
Qed.
Lemma rd_strengths_ok p k : forall n a, rd_times n (rd_strength 3) (concat (map (str_code p) (seq a n)) ++ k) =
  Some (map (fun i => (nth i (cd_y_pri p) 0 mod 16, sec (nth i (cd_y_sec p) 0 mod 4), Some (nth i (cd_uv_pri p) 0 mod 16, sec (nth i (cd_uv_sec p) 0 mod 4)))) (seq a n), k).
Proof.
  induction n; intros a; [reflexivity|]. cbn [rd_times seq map concat]. rewrite <- app_assoc, rd_strength_ok. cbn [obind]. rewrite IHn. reflexivity.
Qed.
Lemma rd_times_count A (r : list Z -> option (A * list Z)) n : forall q l k, rd_times n r q = Some (l, k) -> length l = n.
Proof. induction n; intros q l k H; cbn [rd_times] in H; [injection H as <- _; reflexivity|]. ob H. ob H. injection H as <- <-. cbn [length]. f_equal. eapply IHn. exact E0. Qed.
Lemma sec_mod s : u8 s -> (sec (s mod 4) = sec s <-> s < 4).
Proof. unfold u8, sec. intros. split; [destruct (Z.eqb_spec (s mod 4) 3), (Z.eqb_spec s 3); lia|]. intros. rewrite Z.mod_small by lia. reflexivity. Qed.
Lemma pow2_inj a b : 0 <= a -> 0 <= b -> 2 ^ a = 2 ^ b -> a = b.
Proof. intros A B E. apply (Z.pow_inj_r 2 a b); lia. Qed.
Lemma nth_u8 l i : Forall u8 l -> u8 (nth i l 0).
Proof.
  intros F. destruct (Nat.lt_ge_cases i (length l)); [|rewrite nth_overflow by lia; unfold u8; lia].
  rewrite Forall_forall in F. apply F. apply nth_In. assumption.
Qed.
Lemma cdef_code_read p k : cdef_typed p -> 3 <= cd_damping p -> (rd_cdef 3 (cdef_code p ++ k) = Some (cdef_of p, k) <-> cdef_fits p).
Proof.
  intros (Td & Tb & T1 & T2 & T3 & T4) D. unfold u8 in Td, Tb. unfold rd_cdef, cdef_code, cdef_of, cdef_fits. rewrite <- !app_assoc. rewrite rd_any. cbn [obind]. rewrite rd_any. cbn [obind].
  change (2 ^ Z.of_nat 2) with 4.
  destruct (Z.lt_ge_cases 6 (cd_damping p)) as [D6|D6]; [split; [|lia]; intros H; exfalso; ob H; injection H as H _; lia|].
  destruct (Z.lt_ge_cases 3 (cd_bits p)) as [B3|B3].
  { split; [|lia]. intros H. exfalso. ob H. apply rd_times_count in E. injection H as _ H _. subst. rewrite map_length, seq_length in E. unfold cdef_count in E.
    assert (E' : 2 ^ cd_bits p = 2 ^ (cd_bits p mod 4)). { pose proof (pow2_pos (cd_bits p)). pose proof (pow2_pos (cd_bits p mod 4)). lia. }
    apply pow2_inj in E'; lia. }
  rewrite (Z.mod_small (cd_bits p)), (Z.mod_small (cd_damping p - 3)) by lia. fold (cdef_count p). rewrite rd_strengths_ok. cbn [obind].
  replace (cd_damping p - 3 + 3) with (cd_damping p) by lia.
  assert (P : forall i, ((nth i (cd_y_pri p) 0 mod 16, sec (nth i (cd_y_sec p) 0 mod 4), Some (nth i (cd_uv_pri p) 0 mod 16, sec (nth i (cd_uv_sec p) 0 mod 4))) =
      (nth i (cd_y_pri p) 0, sec (nth i (cd_y_sec p) 0), Some (nth i (cd_uv_pri p) 0, sec (nth i (cd_uv_sec p) 0))) <->
      nth i (cd_y_pri p) 0 < 16 /\ nth i (cd_y_sec p) 0 < 4 /\ nth i (cd_uv_pri p) 0 < 16 /\ nth i (cd_uv_sec p) 0 < 4)).
  { intros i. pose proof (mod16 _ (nth_u8 _ i T1)) as M1. pose proof (sec_mod _ (nth_u8 _ i T2)) as M2. pose proof (mod16 _ (nth_u8 _ i T3)) as M3. pose proof (sec_mod _ (nth_u8 _ i T4)) as M4.
    rewrite <- M1, <- M2, <- M3, <- M4. split; [intros H; injection H; tauto|]. intros (-> & -> & -> & ->). reflexivity. }
  split.
  - intros H. split; [exact D6|]. split; [exact B3|]. intros i I. apply P.
    assert (H' : forall A (B : Type) (d d' : A) (l l' : B) (q q' : list Z), Some (d, l, q) = Some (d', l', q') -> l = l') by (intros * X; injection X; tauto).
    apply H' in H. rewrite map_ext_in_iff in H. apply H. apply in_seq. lia.
  - intros (_ & _ & H). do 3 f_equal. apply map_ext_in. intros i I. apply in_seq in I. apply P. apply H. lia.
Qed.
Lemma cdef_code_bits p : is_bits (cdef_code p).
Proof.
  unfold cdef_code. repeat (apply is_bits_app; split; [apply to_bits_bits|]). generalize (seq 0 (cdef_count p)) as l.
  induction l; [apply is_bits_nil|]. cbn [map concat]. apply is_bits_app. split; [unfold str_code; bits|exact IHl].
Qed.
Lemma cdef_decoded p : cdef_typed p -> 3 <= cd_damping p -> cd_bits p < 64 -> cdef_long p ->
  exists bits p', enc_cdef [] 3 false p = Ok (bits, p') /\
    (cdef_fits p -> decodes bits (rd_cdef 3) (cdef_of p)) /\ (~ cdef_fits p -> never_decodes bits (rd_cdef 3) (cdef_of p)).
Proof.
  intros T D B L. exists (cdef_code p), (cdef_kept (cdef_count p) p). split; [apply (enc_cdef_ok [] 3); try assumption; lia|]. split.
  - intros F. split; [apply cdef_code_bits|]. intros k. apply cdef_code_read; assumption.
  - intros N k H. apply N. apply (cdef_code_read p k T D). exact H.
Qed.
(** The kept parameters: a used secondary strength of 3 has become 4. Written
    once more, it is read as 0. *)
Lemma cdef_again p : cdef_typed p -> cdef_fits p -> 3 <= cd_damping p -> cdef_long p ->
  exists bits p' bits' p'', enc_cdef [] 3 false p = Ok (bits, p') /\ cdef_of p' = cdef_of p /\ enc_cdef [] 3 false p' = Ok (bits', p'') /\
    ((exists i, (i < cdef_count p)%nat /\ (nth i (cd_y_sec p) 0 = 3 \/ nth i (cd_uv_sec p) 0 = 3)) -> never_decodes bits' (rd_cdef 3) (cdef_of p)) /\
    ((forall i, (i < cdef_count p)%nat -> nth i (cd_y_sec p) 0 <> 3 /\ nth i (cd_uv_sec p) 0 <> 3) -> decodes bits' (rd_cdef 3) (cdef_of p)).
Proof.
  intros T F D L. assert (B : cd_bits p < 64) by (destruct F as (_ & F & _); lia).
  set (p' := cdef_kept (cdef_count p) p).
  assert (Sx : forall l n, Forall u8 l -> Forall u8 (sec_prefix n l)).
  { intros l n X. unfold sec_prefix. apply Forall_app. rewrite <- (firstn_skipn n l) in X. apply Forall_app in X. destruct X as [X1 X2]. split; [|exact X2].
    apply Forall_forall. intros y Y. apply in_map_iff in Y. destruct Y as (x & <- & Y). rewrite Forall_forall in X1. specialize (X1 x Y). unfold sec, u8 in *. destruct (x =? 3); lia. }
  assert (T' : cdef_typed p'). { destruct T as (? & ? & ? & ? & ? & ?). unfold p', cdef_kept, cdef_typed. cbn. repeat split; try tauto; try apply Sx; try assumption; unfold u8 in *; lia. }
  assert (C' : cdef_count p' = cdef_count p) by reflexivity.
  assert (L' : cdef_long p'). { unfold cdef_long. rewrite C'. unfold p', cdef_kept. cbn. rewrite !sec_prefix_length. exact L. }
  assert (Of : cdef_of p' = cdef_of p).
  { unfold cdef_of. rewrite C'. f_equal. apply map_ext_in. intros i I. apply in_seq in I. unfold p', cdef_kept. cbn [cd_y_pri cd_y_sec cd_uv_pri cd_uv_sec].
    rewrite !sec_prefix_nth. destruct (Nat.ltb_spec i (cdef_count p)); [|lia].
    assert (X : forall x, sec (sec x) = sec x) by (intros x; unfold sec; destruct (Z.eqb_spec x 3); [reflexivity|]; destruct (Z.eqb_spec x 3); [contradiction|reflexivity]).
    rewrite !X. reflexivity. }
  destruct (cdef_decoded p' T' D B L') as (bits' & p'' & E' & Y & N).
  exists (cdef_code p), p', bits', p''. split; [apply (enc_cdef_ok [] 3); try assumption; lia|]. split; [exact Of|]. split; [exact E'|].
  rewrite Of in Y, N. split.
  - intros (i & I & S3). apply N. intros (_ & _ & F'). specialize (F' i I). unfold p', cdef_kept in F'. cbn [cd_y_pri cd_y_sec cd_uv_pri cd_uv_sec] in F'. rewrite !sec_prefix_nth in F'.
    destruct (Nat.ltb_spec i (cdef_count p)); [|lia]. unfold sec in F'. destruct S3 as [S3|S3]; rewrite S3 in F'; cbn in F'; lia.
  - intros H. apply Y. destruct F as (F1 & F2 & F3). split; [exact F1|]. split; [exact F2|]. intros i I. rewrite C' in I. specialize (F3 i I). specialize (H i I).
    unfold p', cdef_kept. cbn [cd_y_pri cd_y_sec cd_uv_pri cd_uv_sec]. rewrite !sec_prefix_nth. destruct (Nat.ltb_spec i (cdef_count p)); [|lia]. unfold sec.
    destruct (Z.eqb_spec (nth i (cd_y_sec p) 0) 3), (Z.eqb_spec (nth i (cd_uv_sec p) 0) 3); tauto.
Qed.
(** CDEF switched off in the sequence header: a decoder reads nothing, the writer
    writes at least four bits. *)
Lemma cdef_disabled p bits p' (v : Z * list (Z * Z * option (Z * Z))) : cdef_typed p -> enc_cdef [] 3 false p = Ok (bits, p') ->
  never_decodes bits (rd_if false (rd_cdef 3) v) v.
Proof.
  intros T E k H. pose proof (enc_cdef_inv [] 3 p _ T ltac:(lia) E) as (D & B & L). rewrite (enc_cdef_ok [] 3) in E by (try assumption; lia). injection E as <- _.
  unfold rd_if in H. injection H as H. apply (f_equal (@length Z)) in H. unfold cdef_code in H. rewrite !app_length, !to_bits_length in H. clear - H. cbn [length] in H. lia.
Qed.
(** Lossless or intra block copy. *)
Lemma cdef_off out planes p : (cd_y_pri p <> [] /\ cd_y_sec p <> [] /\ cd_uv_pri p <> [] /\ cd_uv_sec p <> [] ->
    exists p', enc_cdef out planes true p = Ok (out, p') /\ cdef_of p' = (3, [(0, 0, Some (0, 0))])) /\
  (cd_y_pri p = [] \/ cd_y_sec p = [] \/ cd_uv_pri p = [] \/ cd_uv_sec p = [] -> enc_cdef out planes true p = Panic).
Proof.
  destruct p as [d b yp ys up us]. cbn [cd_y_pri cd_y_sec cd_uv_pri cd_uv_sec]. unfold enc_cdef, put. cbn [cd_y_pri cd_y_sec cd_uv_pri cd_uv_sec]. split.
  - intros (A & B & C & D). destruct yp; [congruence|]. destruct ys; [congruence|]. destruct up; [congruence|]. destruct us; [congruence|].
    cbn. eexists. split; reflexivity.
  - intros H. destruct yp as [|? ?]; [reflexivity|]. destruct ys as [|? ?]; [reflexivity|]. destruct up as [|? ?]; [reflexivity|]. destruct us as [|? ?]; [reflexivity|].
    destruct H as [H|[H|[H|H]]]; discriminate.
Qed.

(** ** Loop restoration *)
Definition lr_typed (p : lrp) (c : lrc) : Prop :=
  u8 (lr_type p) /\ 0 <= lr_shift p < 2 ^ 64 /\ 0 <= lr_uv p < 2 ^ 64 /\ length (lc_type c) = 3%nat /\ length (lc_size c) = 3%nat /\
  Forall (fun s => 0 <= s < 2 ^ 64) (lc_size c).
Lemma lr_types_ok out p c : lr_typed p c -> enc_lr_types out (upto 3) (lr_type p) (lc_type c) false false =
  if 3 <? lr_type p then Panic
  else let t := av1_remap (lr_type p) in let on := negb (t =? 0) in
    Ok (out ++ to_bits 2 (lr_type p) ++ to_bits 2 (lr_type p) ++ to_bits 2 (lr_type p), [t; t; t], on, on).
Proof.
  intros (T & _ & _ & L & _). destruct (lc_type c) as [|x [|y [|z [|? ?]]]]; try discriminate. unfold u8 in T.
  change (upto 3) with [0; 1; 2]%nat. cbn [enc_lr_types]. rewrite push_bits_with_size_ok by lia. cbn [bind].
  destruct (Z.ltb_spec 3 (lr_type p)) as [B|B].
  - assert (E : idx remap_lr_type (lr_type p) = Panic).
    { unfold idx. destruct (Z.ltb_spec (lr_type p) 0); [lia|]. destruct (nth_error remap_lr_type (Z.to_nat (lr_type p))) eqn:E; [|reflexivity].
      assert (X : nth_error remap_lr_type (Z.to_nat (lr_type p)) <> None) by congruence. apply nth_error_Some in X. cbn [remap_lr_type length] in X. lia. }
    rewrite E. reflexivity.
  - assert (E : idx remap_lr_type (lr_type p) = Ok (av1_remap (lr_type p))).
    { assert (C : lr_type p = 0 \/ lr_type p = 1 \/ lr_type p = 2 \/ lr_type p = 3) by lia. destruct C as [-> | [-> | [-> | ->]]]; reflexivity. }
    rewrite E. cbn [bind]. set (t := av1_remap (lr_type p)).
    change (put [x; y; z] (Z.of_nat 0) t) with (Ok [t; y; z]). cbn [bind]. rewrite push_bits_with_size_ok by lia. cbn [bind].
    change (put [t; y; z] (Z.of_nat 1) t) with (Ok [t; t; z]). cbn [bind]. rewrite push_bits_with_size_ok by lia. cbn [bind].
    change (put [t; t; z] (Z.of_nat 2) t) with (Ok [t; t; t]). cbn [bind]. rewrite <- !app_assoc. unfold RESTORE_NONE.
    cbn [orb andb]. destruct (negb (t =? 0)); reflexivity.
Qed.
(** What the frame asks for: one type and one size for all planes, but for the
    shift of the chroma size. *)
Definition lr_of (ss : bool) (p : lrp) : list Z * option (Z * Z * Z) :=
  let t := av1_remap (lr_type p) in
  let size := 2 ^ (6 + lr_shift p) in
  let uv := if ss then lr_uv p else 0 in
  ([t; t; t], if t =? 0 then None else Some (size, size / 2 ^ uv, size / 2 ^ uv)).
Lemma remap_zero t : 0 <= t <= 3 -> (av1_remap t =? 0) = (t =? 0).
Proof. intros. assert (C : t = 0 \/ t = 1 \/ t = 2 \/ t = 3) by lia. destruct C as [-> | [-> | [-> | ->]]]; reflexivity. Qed.

Definition lr_shift_code (sb128 : bool) (p : lrp) : list Z :=
  if sb128 then [lr_shift p - 1] else if 1 <=? lr_shift p then [lr_shift p; lr_shift p - 1] else [lr_shift p].
Definition lr_code (sb128 ss : bool) (p : lrp) : list Z :=
  (to_bits 2 (lr_type p) ++ to_bits 2 (lr_type p) ++ to_bits 2 (lr_type p)) ++
  (if lr_type p =? 0 then [] else lr_shift_code sb128 p ++ (if ss then [lr_uv p] else [])).
Definition lr_ok (sb128 ss : bool) (p : lrp) : Prop :=
  lr_type p <= 3 /\ (lr_type p <> 0 -> (if sb128 then 1 else 0) <= lr_shift p <= 2 /\ (ss = true -> lr_uv p < 64)).

Lemma enc_lr_ok out sb128 ss p c : lr_typed p c -> lr_ok sb128 ss p -> exists p' c', enc_lr out 3 false sb128 ss p c = Ok (out ++ lr_code sb128 ss p, p', c') /\
  lc_type c' = fst (lr_of ss p) /\ lc_uses c' = negb (lr_type p =? 0) /\
  (lr_type p <> 0 -> exists s1 s2, lc_size c = [nth 0 (lc_size c) 0; s1; s2] /\
     lc_size c' = [2 ^ (6 + lr_shift p); s1 / 2 ^ (if ss then lr_uv p else 0); s2 / 2 ^ (if ss then lr_uv p else 0)]).
Proof.
  intros T (O1 & O2). unfold enc_lr. rewrite lr_types_ok with (1 := T). destruct (Z.ltb_spec 3 (lr_type p)); [lia|]. cbv zeta. cbn [bind].
  destruct T as (T1 & T2 & T3 & L1 & L2 & T4). unfold u8 in T1. rewrite remap_zero by lia. unfold lr_code, lr_of.
  destruct (Z.eqb_spec (lr_type p) 0) as [E|E]; cbn [negb].
  - eexists _, _. split; [rewrite app_nil_r; reflexivity|]. cbn [lc_type lc_uses fst]. split; [reflexivity|]. split; [reflexivity|]. contradiction.
  - destruct (O2 E) as [S U]. destruct (lc_size c) as [|s0 [|s1 [|s2 [|? ?]]]]; try discriminate.
    inversion T4 as [|? ? F0 T4a]. inversion T4a as [|? ? F1 T4b]. inversion T4b as [|? ? F2 _]. subst. clear T4 T4a T4b L2.
    assert (A8 : forall z, 0 <= z <= 2 -> as_u8 z = z) by (intros z Z; unfold as_u8; apply Z.mod_small; lia).
    assert (G : exists extra, (if sb128 then s3 <- chk_u64 (lr_shift p - 1) ;;
         Ok (push (out ++ to_bits 2 (lr_type p) ++ to_bits 2 (lr_type p) ++ to_bits 2 (lr_type p)) (as_u8 s3), lr_extra p)
      else let out0 := push (out ++ to_bits 2 (lr_type p) ++ to_bits 2 (lr_type p) ++ to_bits 2 (lr_type p)) (as_u8 (lr_shift p)) in
           if 1 <=? lr_shift p then Ok (push out0 (as_u8 (lr_shift p - 1)), lr_shift p - 1) else Ok (out0, lr_extra p)) =
      Ok (out ++ (to_bits 2 (lr_type p) ++ to_bits 2 (lr_type p) ++ to_bits 2 (lr_type p)) ++ lr_shift_code sb128 p, extra)).
    { unfold lr_shift_code. destruct sb128.
      - rewrite chk_u64_ok by lia. cbn [bind]. rewrite A8 by lia. eexists. unfold push. rewrite <- !app_assoc. reflexivity.
      - cbv zeta. destruct (Z.leb_spec 1 (lr_shift p)); eexists; unfold push; rewrite !A8 by lia; rewrite <- !app_assoc; reflexivity. }
    destruct G as [extra G]. cbv zeta in G. rewrite G. clear G. cbn [bind]. rewrite chk_u64_ok by lia. cbn [bind].
    change (put [s0; s1; s2] 0 (Z.shiftr RESTORATION_TILESIZE_MAX (2 - lr_shift p))) with (Ok [Z.shiftr RESTORATION_TILESIZE_MAX (2 - lr_shift p); s1; s2]). cbn [bind].
    assert (Sz : Z.shiftr RESTORATION_TILESIZE_MAX (2 - lr_shift p) = 2 ^ (6 + lr_shift p)).
    { assert (C : lr_shift p = 0 \/ lr_shift p = 1 \/ lr_shift p = 2) by lia. destruct C as [-> | [-> | ->]]; reflexivity. }
    rewrite Sz. rewrite andb_true_r.
    assert (Hu : forall uv a b c, 0 <= uv < 64 -> (_ <- shift_ok 64 uv ;; s3 <- idx [a; b; c] 1 ;; size <- put [a; b; c] 1 (Z.shiftr s3 uv) ;;
        s4 <- idx size 2 ;; size <- put size 2 (Z.shiftr s4 uv) ;; Ok size) = Ok [a; b / 2 ^ uv; c / 2 ^ uv]).
    { intros uv a b c0 R. rewrite shift_ok_ok by lia. cbn [bind]. change (idx [a; b; c0] 1) with (Ok b). cbn [bind].
      change (put [a; b; c0] 1 (Z.shiftr b uv)) with (Ok [a; Z.shiftr b uv; c0]). cbn [bind]. change (idx [a; Z.shiftr b uv; c0] 2) with (Ok c0). cbn [bind].
      change (put [a; Z.shiftr b uv; c0] 2 (Z.shiftr c0 uv)) with (Ok [a; Z.shiftr b uv; Z.shiftr c0 uv]). cbn [bind]. rewrite !shiftr_div by lia. reflexivity. }
    destruct ss; cbv zeta iota.
    + specialize (U eq_refl). assert (A : as_u8 (lr_uv p) = lr_uv p) by (unfold as_u8; apply Z.mod_small; lia). rewrite A.
      specialize (Hu (lr_uv p) (2 ^ (6 + lr_shift p)) s1 s2 ltac:(lia)).
      rewrite shift_ok_ok in * by lia. cbn [bind] in *. change (idx [2 ^ (6 + lr_shift p); s1; s2] 1) with (Ok s1) in *. cbn [bind] in *.
      change (put [2 ^ (6 + lr_shift p); s1; s2] 1 (Z.shiftr s1 (lr_uv p))) with (Ok [2 ^ (6 + lr_shift p); Z.shiftr s1 (lr_uv p); s2]) in *. cbn [bind] in *.
      change (idx [2 ^ (6 + lr_shift p); Z.shiftr s1 (lr_uv p); s2] 2) with (Ok s2) in *. cbn [bind] in *.
      change (put [2 ^ (6 + lr_shift p); Z.shiftr s1 (lr_uv p); s2] 2 (Z.shiftr s2 (lr_uv p))) with (Ok [2 ^ (6 + lr_shift p); Z.shiftr s1 (lr_uv p); Z.shiftr s2 (lr_uv p)]) in *. cbn [bind] in *.
      injection Hu as H1 H2. rewrite H1, H2. eexists _, _. split; [unfold push; rewrite <- !app_assoc; reflexivity|]. cbn [lc_type lc_uses lc_size fst].
      split; [reflexivity|]. split; [reflexivity|]. intros _. exists s1, s2. split; reflexivity.
    + specialize (Hu 0 (2 ^ (6 + lr_shift p)) s1 s2 ltac:(lia)).
      rewrite shift_ok_ok in * by lia. cbn [bind] in *. change (idx [2 ^ (6 + lr_shift p); s1; s2] 1) with (Ok s1) in *. cbn [bind] in *.
      change (put [2 ^ (6 + lr_shift p); s1; s2] 1 (Z.shiftr s1 0)) with (Ok [2 ^ (6 + lr_shift p); Z.shiftr s1 0; s2]) in *. cbn [bind] in *.
      change (idx [2 ^ (6 + lr_shift p); Z.shiftr s1 0; s2] 2) with (Ok s2) in *. cbn [bind] in *.
      change (put [2 ^ (6 + lr_shift p); Z.shiftr s1 0; s2] 2 (Z.shiftr s2 0)) with (Ok [2 ^ (6 + lr_shift p); Z.shiftr s1 0; Z.shiftr s2 0]) in *. cbn [bind] in *.
      injection Hu as H1 H2. rewrite H1, H2. eexists _, _. split; [rewrite app_nil_r, <- ?app_assoc; reflexivity|]. cbn [lc_type lc_uses lc_size fst].
      split; [reflexivity|]. split; [reflexivity|]. intros _. exists s1, s2. split; reflexivity.
Qed.
(** Otherwise it panics. *)
Lemma enc_lr_inv out sb128 ss p c r : lr_typed p c -> enc_lr out 3 false sb128 ss p c = Ok r -> lr_ok sb128 ss p.
Proof.
  intros T H. unfold enc_lr in H. rewrite lr_types_ok with (1 := T) in H. unfold lr_ok. destruct (Z.ltb_spec 3 (lr_type p)); [discriminate|]. split; [assumption|].
  cbv zeta in H. cbn [bind] in H. destruct T as (T1 & T2 & T3 & _). unfold u8 in T1. rewrite remap_zero in H by lia. intros E. destruct (Z.eqb_spec (lr_type p) 0); [contradiction|].
  cbn [negb] in H. apply bind_inv in H. destruct H as ((o & extra) & H1 & H). apply bind_inv in H. destruct H as (k & H2 & H).
  apply bind_inv in H. destruct H as (size & _ & H).
  assert (S2 : lr_shift p <= 2). { destruct (Z.le_gt_cases (lr_shift p) 2); [assumption|]. unfold chk_u64 in H2. rewrite chk_not_ok in H2 by lia. discriminate. }
  assert (S1 : (if sb128 then 1 else 0) <= lr_shift p).
  { destruct sb128; [|lia]. destruct (Z.le_gt_cases 1 (lr_shift p)); [assumption|]. unfold chk_u64 in H1. rewrite chk_not_ok in H1 by lia. discriminate. }
  split; [lia|]. intros ->. cbn [andb] in H. cbv zeta iota in H. apply bind_inv in H. destruct H as (u & H & _). unfold shift_ok in H.
  destruct (Z.lt_ge_cases (lr_uv p) 64); [assumption|]. replace ((0 <=? lr_uv p) && (lr_uv p <? 64)) with false in H by lia. discriminate.
Qed.

(** Fields of one bit. *)
Definition lr_fits (sb128 ss : bool) (p : lrp) : Prop :=
  lr_type p <> 0 -> (sb128 = false -> lr_shift p <= 1) /\ (ss = true -> lr_uv p <= 1).
Lemma lr_code_read sb128 ss p c k : lr_typed p c -> lr_ok sb128 ss p -> lr_fits sb128 ss p ->
  rd_lr 3 sb128 ss (lr_code sb128 ss p ++ k) = Some (lr_of ss p, k).
Proof.
  intros (T1 & T2 & T3 & _) (O1 & O2) F. unfold u8 in T1. unfold rd_lr, lr_code, lr_of. change (Z.to_nat 3) with 3%nat. cbn [rd_times]. rewrite <- !app_assoc.
  rewrite rd_any. cbn [obind]. rewrite rd_any. cbn [obind]. rewrite rd_any. cbn [obind]. change (2 ^ Z.of_nat 2) with 4. rewrite (Z.mod_small (lr_type p)) by lia.
  cbn [map existsb tl]. rewrite remap_zero by lia. destruct (Z.eqb_spec (lr_type p) 0) as [E|E]; cbn [negb orb]; [reflexivity|].
  destruct (O2 E) as [S U]. destruct (F E) as [F1 F2]. rewrite andb_true_r. unfold lr_shift_code, rd_if.
  destruct sb128; cbn [app].
  - rewrite rd_bit by lia. cbn [obind]. destruct ss; cbn [app].
    + specialize (F2 eq_refl). rewrite rd_bit by lia. cbn [obind]. replace (lr_shift p - 1 + 1) with (lr_shift p) by lia. reflexivity.
    + cbn [obind]. replace (lr_shift p - 1 + 1) with (lr_shift p) by lia. reflexivity.
  - specialize (F1 eq_refl). destruct (Z.leb_spec 1 (lr_shift p)); cbn [app]; rewrite rd_bit by lia; cbn [obind].
    + destruct (Z.eqb_spec (lr_shift p) 1); [|lia]. rewrite rd_bit by lia. cbn [obind]. replace (lr_shift p + (lr_shift p - 1)) with (lr_shift p) by lia.
      destruct ss; cbn [app obind]; [specialize (F2 eq_refl); rewrite rd_bit by lia; cbn [obind]|]; reflexivity.
    + destruct (Z.eqb_spec (lr_shift p) 1); [lia|]. cbn [obind]. rewrite Z.add_0_r.
      destruct ss; cbn [app obind]; [specialize (F2 eq_refl); rewrite rd_bit by lia; cbn [obind]|]; reflexivity.
Qed.
Lemma lr_code_bits sb128 ss p c : lr_typed p c -> lr_ok sb128 ss p -> (is_bits (lr_code sb128 ss p) <-> lr_fits sb128 ss p).
Proof.
  intros (T1 & T2 & T3 & _) (O1 & O2). unfold lr_code, lr_fits. rewrite is_bits_app.
  assert (X : is_bits (to_bits 2 (lr_type p) ++ to_bits 2 (lr_type p) ++ to_bits 2 (lr_type p))) by bits.
  destruct (Z.eqb_spec (lr_type p) 0) as [E|E].
  - split; [contradiction|]. intros _. split; [exact X|apply is_bits_nil].
  - destruct (O2 E) as [S U]. rewrite (is_bits_app (lr_shift_code sb128 p)). unfold lr_shift_code.
    assert (N : forall z l, is_bits (z :: l) <-> (z = 0 \/ z = 1) /\ is_bits l) by (intros; apply is_bits_cons).
    assert (B0 : is_bits [] <-> True) by (split; [trivial|intros _; apply is_bits_nil]).
    split.
    + intros (_ & A & B) _. split.
      * intros ->. destruct (Z.leb_spec 1 (lr_shift p)); rewrite ?N in A; lia.
      * intros ->. rewrite N in B. lia.
    + intros F. destruct (F E) as [F1 F2]. split; [exact X|]. split.
      * destruct sb128; [rewrite N; split; [lia|apply is_bits_nil]|]. specialize (F1 eq_refl). destruct (Z.leb_spec 1 (lr_shift p)); rewrite ?N; repeat split; try lia; apply is_bits_nil.
      * destruct ss; [rewrite N; split; [specialize (F2 eq_refl); lia|apply is_bits_nil]|apply is_bits_nil].
Qed.
(** Exactly when the written parameters can be read. *)
Lemma lr_decoded sb128 ss p c : lr_typed p c -> lr_ok sb128 ss p -> exists bits p' c', enc_lr [] 3 false sb128 ss p c = Ok (bits, p', c') /\
  (decodes bits (rd_lr 3 sb128 ss) (lr_of ss p) <-> lr_fits sb128 ss p).
Proof.
  intros T O. destruct (enc_lr_ok [] sb128 ss p c T O) as (p' & c' & E & _). exists (lr_code sb128 ss p), p', c'. split; [exact E|]. split.
  - intros [B _]. apply (lr_code_bits sb128 ss p c T O). exact B.
  - intros F. split; [apply (lr_code_bits sb128 ss p c T O); exact F|]. intros k. apply (lr_code_read sb128 ss p c k T O F).
Qed.
(** The condition under which they are written is the wrong way round. *)
Lemma lr_inverted sb128 ss p c : lr_typed p c -> 
  (exists c', enc_lr [] 3 true sb128 ss p c = Ok ([], p, c') /\ lc_type c' = [0; 0; 0]) /\
  (forall v, never_decodes [] (rd_lr 3 sb128 ss) v) /\
  (forall bits p' c', enc_lr [] 3 false sb128 ss p c = Ok (bits, p', c') -> (6 <= length bits)%nat).
Proof.
  intros T. split; [eexists; split; reflexivity|]. split.
  - intros v k H. unfold rd_lr in H. cbn [app] in H. change (Z.to_nat 3) with 3%nat in H.
    assert (L : forall n q l k, rd_times n (rd 2) q = Some (l, k) -> length q = (2 * n + length k)%nat).
    { clear. induction n; intros q l k H; cbn [rd_times] in H; [injection H as _ <-; lia|]. ob H. ob H. injection H as _ <-. apply rd_length in E. apply IHn in E0. lia. }
    ob H. apply L in E.
    assert (G : (length k <= length l)%nat).
    { destruct (existsb (fun t => negb (t =? 0)) (map av1_remap v0)).
      - ob H. ob H. injection H as _ <-.
        assert (G1 : (length l0 <= length l)%nat).
        { destruct sb128; ob E0; [injection E0 as _ <-; apply rd_length in E2; lia|]. ob E0. injection E0 as _ <-. apply rd_length in E2. unfold rd_if in E3.
          destruct (v3 =? 1); [apply rd_length in E3; lia|injection E3 as _ <-; lia]. }
        unfold rd_if in E1. destruct (ss && existsb (fun t => negb (t =? 0)) (tl (map av1_remap v0))); [apply rd_length in E1; lia|injection E1 as _ <-; lia].
      - injection H as _ <-. lia. }
    lia.
  - intros bits p' c' E. pose proof (enc_lr_inv _ _ _ _ _ _ T E) as O. destruct (enc_lr_ok [] sb128 ss p c T O) as (q & d & E' & _). rewrite E in E'. injection E' as -> _ _.
    cbn [app]. unfold lr_code. rewrite !app_length, !to_bits_length. lia.
Qed.
