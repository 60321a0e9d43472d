(** leb128: round trip, minimal size, canonical form. *)
From Coq Require Import ZArith List Bool Lia ZifyBool ZifyNat.
From Verif Require Import Base BaseProofs UtilModel UtilSpec UtilProofs BitsSpec BitsProofs
  RangeCoderModel RangeEncProofs BitCodecModel BitCodecSpec BitCodecProofs.
Import ListNotations.
Open Scope Z_scope.
Ltac Zify.zify_post_hook ::= Z.div_mod_to_equations.

Fixpoint leb_code (f : nat) (v : Z) : list Z :=
  match f with
  | O => []
  | S f' => (b2z (127 <? v) :: to_bits 7 v) ++ (if 0 <? v / 128 then leb_code f' (v / 128) else [])
  end.

Lemma pow128_S : forall f, 128 ^ Z.of_nat (S f) = 128 * 128 ^ Z.of_nat f.
Proof. intros. rewrite Nat2Z.inj_succ, Z.pow_succ_r by lia. reflexivity. Qed.

Lemma encode_leb128_loop_ok : forall f out v, (1 <= f)%nat -> 0 <= v < 128 ^ Z.of_nat f ->
  encode_leb128_loop f out v = Ok (out ++ leb_code f v).
Proof.
  induction f; intros out v Hf Hv; [lia|]. cbn [encode_leb128_loop leb_code].
  rewrite push_range_0 by lia. cbn [bind]. rewrite shiftr_div by lia. change (2 ^ 7) with 128.
  unfold push. rewrite <- !app_assoc. cbn [app].
  destruct (0 <? v / 128) eqn:E; [|rewrite app_nil_r; reflexivity].
  rewrite pow128_S in Hv. destruct f.
  - change (128 ^ Z.of_nat 0) with 1 in Hv. lia.
  - rewrite IHf by lia. rewrite <- app_assoc. reflexivity.
Qed.

Lemma leb_code_fuel : forall f g v, 0 <= v < 128 ^ Z.of_nat f -> (1 <= f <= g)%nat -> leb_code g v = leb_code f v.
Proof.
  induction f; intros g v Hv Hf; [lia|]. destruct g; [lia|]. cbn [leb_code].
  destruct (0 <? v / 128) eqn:E; [|reflexivity]. rewrite pow128_S in Hv.
  destruct f; [change (128 ^ Z.of_nat 0) with 1 in Hv; lia|]. rewrite IHf by lia. reflexivity.
Qed.

Lemma encode_leb128_ok : forall out v, 0 <= v < 2 ^ 56 -> encode_leb128 out v = Ok (out ++ leb_code 8 v).
Proof.
  intros out v Hv. unfold encode_leb128. change (Z.shiftl 1 56) with (2 ^ 56).
  destruct (v <? 2 ^ 56) eqn:E; [|lia]. rewrite encode_leb128_loop_ok.
  - rewrite (leb_code_fuel 8 10 v); [reflexivity| |lia]. change (128 ^ Z.of_nat 8) with (2 ^ 56). lia.
  - lia.
  - change (128 ^ Z.of_nat 10) with (2 ^ 70). assert (2 ^ 56 < 2 ^ 70) by reflexivity. lia.
Qed.

Lemma encode_leb128_big : forall out v, 2 ^ 56 <= v -> encode_leb128 out v = Panic.
Proof. intros out v Hv. unfold encode_leb128. change (Z.shiftl 1 56) with (2 ^ 56). destruct (v <? 2 ^ 56) eqn:E; [lia|reflexivity]. Qed.

Definition leb_size (f : nat) (v : Z) : Z := Z.of_nat (length (leb_code f v)) / 8.

Lemma leb_code_bits : forall f v, is_bits (leb_code f v).
Proof.
  induction f; intros; [constructor|]. cbn [leb_code]. apply is_bits_app. split.
  - apply is_bits_cons. split; [destruct (127 <? v); [right|left]; reflexivity|apply to_bits_bits].
  - destruct (0 <? v / 128); [apply IHf|constructor].
Qed.

Lemma leb_code_size : forall f v, (1 <= f)%nat -> 0 <= v < 128 ^ Z.of_nat f ->
  exists s, is_leb_size v s /\ s <= Z.of_nat f /\ Z.of_nat (length (leb_code f v)) = 8 * s.
Proof.
  induction f; intros v Hf Hv; [lia|]. cbn [leb_code]. rewrite app_length. cbn [length]. rewrite to_bits_length.
  rewrite pow128_S in Hv. destruct (0 <? v / 128) eqn:E.
  - destruct f; [change (128 ^ Z.of_nat 0) with 1 in Hv; lia|].
    destruct (IHf (v / 128) ltac:(lia) ltac:(lia)) as (s & (H1 & H2 & H3) & Hs & HL).
    exists (s + 1). split; [|split; lia]. split; [lia|]. 
    assert (P : 128 ^ (s + 1) = 128 * 128 ^ s) by (rewrite Z.pow_add_r by lia; lia).
    split; [rewrite P; lia|]. right. replace (s + 1 - 1) with s by lia.
    destruct H3 as [-> | H3]; [change (128 ^ 1) with 128; lia|].
    replace s with (s - 1 + 1) by lia. rewrite Z.pow_add_r by lia. change (128 ^ 1) with 128. lia.
  - exists 1. split; [|split; [lia|cbn [length]; lia]]. split; [lia|]. split; [change (128 ^ 1) with 128; lia|left; reflexivity].
Qed.

Lemma is_leb_size_unique : forall v s t, 0 <= v -> is_leb_size v s -> is_leb_size v t -> s = t.
Proof.
  assert (forall v s t, 0 <= v -> is_leb_size v s -> is_leb_size v t -> ~ s < t).
  { intros v s t Hv (A & B & C) (A' & B' & C') L. destruct C' as [->|C']; [lia|].
    assert (128 ^ s <= 128 ^ (t - 1)) by (apply Z.pow_le_mono_r; lia). lia. }
  intros v s t Hv Hs Ht. pose proof (H v s t Hv Hs Ht). pose proof (H v t s Hv Ht Hs). lia.
Qed.

Lemma leb_split : forall B leb, is_bits B -> length B = 8%nat -> leb = bits_val B -> 0 <= leb < 256 /\
  Z.land leb 127 = leb mod 128 /\ (Z.land leb 128 =? 0) = (leb <? 128) /\
  B = b2z (128 <=? leb) :: to_bits 7 (leb mod 128).
Proof.
  intros B leb HB HL ->. pose proof (bits_val_bound B HB) as Hb. rewrite HL in Hb. change (2 ^ Z.of_nat 8) with 256 in Hb.
  split; [lia|]. split; [change 127 with (2 ^ 7 - 1); rewrite land_ones_mod by lia; reflexivity|].
  split.
  - change 128 with (2 ^ 7) at 1. rewrite land_pow2_bit by lia. change (2 ^ 7) with 128. lia.
  - destruct B as [|b r]; [discriminate|]. apply is_bits_cons in HB. destruct HB as [H1 H2].
    cbn [length] in HL. rewrite bits_val_cons in *. assert (L : length r = 7%nat) by lia.
    pose proof (bits_val_bound r H2) as Hr. rewrite L in *. change (2 ^ Z.of_nat 7) with 128 in *.
    assert (E : (b * 128 + bits_val r) mod 128 = bits_val r) by lia. rewrite E.
    rewrite <- L, to_bits_val by assumption. f_equal. destruct H1 as [-> | ->]; unfold b2z.
    + destruct (128 <=? _) eqn:X; [lia|reflexivity].
    + destruct (128 <=? _) eqn:X; [reflexivity|lia].
Qed.

Lemma lor_disjoint : forall a b n, 0 <= n -> 0 <= a < 2 ^ n -> Z.lor a (b * 2 ^ n) = a + b * 2 ^ n.
Proof.
  intros a b n Hn Ha. symmetry. rewrite <- Z.lxor_lor. apply Z.add_nocarry_lxor.
  all: apply Z.bits_inj'; intros i Hi; rewrite Z.land_spec, Z.bits_0, Z.mul_pow2_bits by lia;
    destruct (Z_lt_le_dec i n);
    [rewrite (Z.testbit_neg_r b) by lia; apply andb_false_r|
     rewrite <- (Z.mod_small a (2 ^ n)) by lia; rewrite Z.mod_pow2_bits_high by lia; reflexivity].
Qed.

(** One iteration of the decoder. *)
Lemma decode_leb_step : forall k i v nb B q, is_bits B -> length B = 8%nat -> 0 <= i -> i < 8 ->
  0 <= v < 128 ^ i -> 0 <= nb < 2 ^ 64 - 1 ->
  decode_leb128_loop (S k) i v nb (B ++ q) =
  (let leb := bits_val B in
   let v' := v + (leb mod 128) * 128 ^ i in
   if leb <? 128 then Ok (v', nb + 1, q) else decode_leb128_loop k (i + 1) v' (nb + 1) q).
Proof.
  intros k i v nb B q HB HL Hi Hi8 Hv Hnb. cbn [decode_leb128_loop].
  pose proof (read_u64_0 B q HB ltac:(lia)) as R. rewrite HL in R. rewrite R. cbn [bind].
  destruct (leb_split B _ HB HL eq_refl) as (Hr & H127 & H128 & _). rewrite H127, H128.
  change (2 ^ 64) with 18446744073709551616 in Hnb. rewrite chk_u64_ok by lia. cbn [bind].
  assert (P : 128 ^ i = 2 ^ (i * 7)). { change 128 with (2 ^ 7). rewrite <- Z.pow_mul_r by lia. f_equal. lia. }
  rewrite shiftl_mul by lia.
  assert (M : 0 <= bits_val B mod 128 < 128) by lia.
  assert (Q : 128 * 2 ^ (i * 7) <= 2 ^ 56). { change 128 with (2 ^ 7). rewrite <- Z.pow_add_r by lia. apply pow2_le. lia. }
  change (2 ^ 56) with 72057594037927936 in Q. rewrite P in *. set (p := 2 ^ (i * 7)) in *.
  rewrite as_u64_id by nia. subst p. rewrite lor_disjoint by lia. reflexivity.
Qed.

Lemma decode_leb_ok : forall f k i v nb w tail, (1 <= f <= k)%nat -> 0 <= i -> i + Z.of_nat k <= 8 ->
  0 <= v < 128 ^ i -> 0 <= w < 128 ^ Z.of_nat f -> 0 <= nb -> nb + leb_size f w < 2 ^ 64 ->
  decode_leb128_loop k i v nb (leb_code f w ++ tail) = Ok (v + w * 128 ^ i, nb + leb_size f w, tail).
Proof.
  induction f; intros k i v nb w tail Hf Hi Hik Hv Hw Hnb Hb; [lia|]. destruct k; [lia|].
  unfold leb_size in *. cbn [leb_code] in *. rewrite <- app_assoc.
  set (B := b2z (127 <? w) :: to_bits 7 w) in *.
  assert (HB : is_bits B) by (apply is_bits_cons; split; [destruct (127 <? w); [right|left]; reflexivity|apply to_bits_bits]).
  assert (HL : length B = 8%nat) by (subst B; cbn [length]; rewrite to_bits_length; reflexivity).
  rewrite app_length, HL in *.
  assert (HV : bits_val B = b2z (127 <? w) * 128 + w mod 128).
  { subst B. rewrite bits_val_cons, to_bits_length, bits_val_to_bits. reflexivity. }
  rewrite decode_leb_step by (try assumption; lia). cbv zeta. rewrite HV.
  replace ((b2z (127 <? w) * 128 + w mod 128) mod 128) with (w mod 128) by (destruct (127 <? w); unfold b2z; lia).
  rewrite pow128_S in Hw.
  destruct (0 <? w / 128) eqn:E.
  - assert (E2 : (127 <? w) = true) by lia. rewrite E2. change (b2z true) with 1.
    destruct (1 * 128 + w mod 128 <? 128) eqn:E3; [lia|].
    destruct f; [change (128 ^ Z.of_nat 0) with 1 in Hw; lia|].
    assert (P : 128 ^ (i + 1) = 128 * 128 ^ i) by (rewrite Z.pow_add_r by lia; lia).
    assert (0 < 128 ^ i) by (apply Z.pow_pos_nonneg; lia).
    unfold leb_size in IHf. rewrite IHf; try lia.
    + rewrite P. f_equal. f_equal; [f_equal; [|lia]]. rewrite (Z.div_mod w 128) at 3 by lia. lia.
    + rewrite P. assert (0 <= w mod 128 <= 127) by lia. nia.
  - assert (E2 : (127 <? w) = false) by lia. rewrite E2. change (b2z false) with 0.
    destruct (0 * 128 + w mod 128 <? 128) eqn:E3; [|lia]. cbn [app length].
    rewrite Z.mod_small by lia. reflexivity.
Qed.

Lemma decode_leb128_ok : forall nb v s tail, 0 <= v < 2 ^ 56 -> is_leb_size v s -> 0 <= nb -> nb + s < 2 ^ 64 ->
  decode_leb128 nb (leb_code 8 v ++ tail) = Ok (v, nb + s, tail).
Proof.
  intros nb v s tail Hv Hs Hnb Hb. change (2 ^ 56) with (128 ^ Z.of_nat 8) in Hv.
  destruct (leb_code_size 8 v ltac:(lia) Hv) as (s' & Hs' & Hle & HL).
  assert (s = s') by (apply (is_leb_size_unique v); try assumption; lia). subst s'.
  assert (E : leb_size 8 v = s). { unfold leb_size. rewrite HL. lia. }
  unfold decode_leb128. rewrite decode_leb_ok by (try assumption; try lia; cbn; lia).
  rewrite E. f_equal. f_equal. f_equal. cbn. lia.
Qed.

Lemma app_eq_len_inv : forall (A : Type) (a b c d : list A), length a = length c -> a ++ b = c ++ d -> a = c /\ b = d.
Proof.
  induction a; destruct c; intros d L H; simpl in L; try lia; [split; [reflexivity|assumption]|].
  simpl in H. inversion H; subst. destruct (IHa b c d ltac:(lia) H2) as [-> ->]. split; reflexivity.
Qed.

Definition last8 (D : list Z) : Z := bits_val (skipn (length D - 8) D).

Lemma last8_app : forall A B, (8 <= length B)%nat -> last8 (A ++ B) = last8 B.
Proof.
  intros A B H. unfold last8. rewrite app_length, skipn_app, skipn_all2 by lia. cbn [app]. f_equal. f_equal. lia.
Qed.

Lemma leb_code_last : forall f v, (1 <= f)%nat -> 0 <= v < 128 ^ Z.of_nat f ->
  (8 <= length (leb_code f v))%nat /\ last8 (leb_code f v) < 128 /\ (0 < v -> 0 < last8 (leb_code f v)).
Proof.
  induction f; intros v Hf Hv; [lia|]. cbn [leb_code]. rewrite pow128_S in Hv.
  rewrite app_length. cbn [length]. rewrite to_bits_length.
  destruct (0 <? v / 128) eqn:E.
  - destruct f; [change (128 ^ Z.of_nat 0) with 1 in Hv; lia|].
    destruct (IHf (v / 128) ltac:(lia) ltac:(lia)) as (A & B & C). rewrite last8_app by assumption.
    split; [lia|]. split; [assumption|]. intros _. apply C. lia.
  - rewrite app_nil_r. unfold last8. cbn [length]. rewrite to_bits_length. change (8 - 8)%nat with 0%nat. rewrite skipn_O.
    rewrite bits_val_cons, bits_val_to_bits, to_bits_length. change (2 ^ Z.of_nat 7) with 128.
    assert (E2 : (127 <? v) = false) by lia. rewrite E2. change (b2z false) with 0. cbn [length]. split; [lia|]. split; lia.
Qed.

Lemma leb_minimal_last : forall D, leb_minimal D <-> last8 D < 128 /\ (length D = 8%nat \/ 0 < last8 D).
Proof. intros. unfold leb_minimal, last8. tauto. Qed.

Lemma decode_leb_inv : forall k i v nb q v' nb' q', is_bits q -> (1 <= k)%nat -> 0 <= i -> i + Z.of_nat k <= 8 ->
  0 <= v < 128 ^ i -> 0 <= nb -> nb + Z.of_nat k < 2 ^ 64 ->
  decode_leb128_loop k i v nb q = Ok (v', nb', q') ->
  exists D w, q = D ++ q' /\ Z.of_nat (length D) = 8 * (nb' - nb) /\ (8 <= length D)%nat /\
    0 <= w < 128 ^ Z.of_nat k /\ v' = v + w * 128 ^ i /\ (leb_minimal D <-> leb_code k w = D).
Proof.
  induction k; intros i v nb q v' nb' q' Hq Hk Hi Hik Hv Hnb Hb H; [lia|].
  assert (H' := H). cbn [decode_leb128_loop] in H'. apply bind_inv in H'. destruct H' as ([l r] & E & _).
  destruct (read_u64_split _ _ _ _ _ E) as (B & HL & ->). clear E l.
  apply is_bits_app in Hq. destruct Hq as [HB Hr].
  rewrite decode_leb_step in H by (try assumption; lia). cbv zeta in H.
  destruct (leb_split B _ HB HL eq_refl) as (Hlr & _ & _ & HBe). set (leb := bits_val B) in *.
  assert (HlB : last8 B = leb). { unfold last8. rewrite HL. reflexivity. }
  clearbody leb. rewrite pow128_S. assert (0 < 128 ^ i) by (apply Z.pow_pos_nonneg; lia).
  assert (Pk : 1 <= 128 ^ Z.of_nat k) by (pose proof (Z.pow_pos_nonneg 128 (Z.of_nat k)); lia).
  destruct (leb <? 128) eqn:L.
  - inversion H; subst v' nb' r. exists B, leb. rewrite Z.mod_small by lia.
    split; [reflexivity|]. split; [lia|]. split; [lia|]. split; [lia|]. split; [lia|].
    rewrite leb_minimal_last. split.
    + intros _. cbn [leb_code]. assert (E0 : (0 <? leb / 128) = false) by lia. rewrite E0, app_nil_r.
      rewrite HBe. rewrite Z.mod_small by lia. f_equal. f_equal. lia.
    + intros _. lia.
  - destruct k as [|k].
    + cbn [decode_leb128_loop] in H. inversion H; subst v' nb' r. exists B, (leb mod 128).
      split; [reflexivity|]. split; [lia|]. split; [lia|]. split; [lia|]. split; [lia|].
      rewrite leb_minimal_last. split; [intros (M & _); lia|].
      cbn [leb_code]. assert (E0 : (0 <? leb mod 128 / 128) = false) by lia. rewrite E0, app_nil_r. rewrite HBe at 1.
      assert (E1 : (127 <? leb mod 128) = false) by lia. assert (E2 : (128 <=? leb) = true) by lia.
      rewrite E1, E2. discriminate.
    + assert (P : 128 ^ (i + 1) = 128 * 128 ^ i) by (rewrite Z.pow_add_r by lia; lia).
      assert (Hm : 0 <= leb mod 128 <= 127) by lia.
      apply IHk in H; [|assumption|lia|lia|lia|rewrite P; nia|lia|lia].
      destruct H as (D1 & w1 & -> & HD1 & HD8 & Hw1 & -> & HM).
      exists (B ++ D1), (leb mod 128 + 128 * w1). rewrite app_assoc, app_length, HL.
      assert (E0 : (leb mod 128 + 128 * w1) / 128 = w1) by lia.
      assert (E1 : to_bits 7 (leb mod 128 + 128 * w1) = to_bits 7 (leb mod 128)).
      { rewrite <- (to_bits_mod 7). change (2 ^ Z.of_nat 7) with 128. f_equal. lia. }
      assert (E2 : (128 <=? leb) = true) by lia.
      destruct (leb_code_last (S k) w1 ltac:(lia) Hw1) as (C1 & C2 & C3).
      split; [reflexivity|]. split; [lia|]. split; [lia|]. split; [lia|]. split; [rewrite P; lia|].
      rewrite leb_minimal_last, last8_app by assumption. rewrite app_length, HL.
      rewrite leb_minimal_last in HM.
      remember (S k) as K. cbn [leb_code]. rewrite E0, E1. split.
      * intros (M1 & M2). assert (Hc : leb_code K w1 = D1) by (apply HM; split; [assumption|right; lia]).
        destruct (Z.eq_dec w1 0) as [Z0|NZ].
        -- subst w1. subst K. cbn [leb_code] in Hc. change (0 <? 0 / 128) with false in Hc. cbn iota in Hc. 
           rewrite app_nil_r in Hc. subst D1. exfalso. change (last8 _) with 0 in M2. destruct M2 as [M2|M2]; [|lia].
           cbn [length] in M2. rewrite to_bits_length in M2. lia.
        -- destruct (0 <? w1) eqn:X; [|lia]. rewrite Hc. rewrite HBe at 1. rewrite E2.
           assert (E3 : (127 <? leb mod 128 + 128 * w1) = true) by lia. rewrite E3. reflexivity.
      * intros Hc. destruct (0 <? w1) eqn:X.
        -- apply app_eq_len_inv in Hc; [|cbn [length]; rewrite to_bits_length; lia]. destruct Hc as [_ Hc].
           subst D1. split; [assumption|right; apply C3; lia].
        -- exfalso. rewrite app_nil_r in Hc. apply (f_equal (@length Z)) in Hc. cbn [length] in Hc.
           rewrite app_length, to_bits_length in Hc. lia.
Qed.

Lemma decode_leb128_canonical : forall nb q v nb' q', is_bits q -> 0 <= nb < 2 ^ 64 - 8 ->
  decode_leb128 nb q = Ok (v, nb', q') ->
  exists D, q = D ++ q' /\ Z.of_nat (length D) = 8 * (nb' - nb) /\ 0 <= v < 2 ^ 56 /\
    (leb_minimal D <-> encode_leb128 [] v = Ok D).
Proof.
  intros nb q v nb' q' Hq Hnb H. unfold decode_leb128 in H. change (2 ^ 64) with 18446744073709551616 in Hnb.
  destruct (decode_leb_inv 8 0 0 nb q v nb' q' Hq ltac:(lia) ltac:(lia) ltac:(lia) ltac:(cbn; lia) ltac:(lia) ltac:(change (2 ^ 64) with 18446744073709551616; lia) H)
    as (D & w & -> & HD & _ & Hw & Hv & HM).
  change (128 ^ 0) with 1 in Hv. change (128 ^ Z.of_nat 8) with (2 ^ 56) in Hw. assert (v = w) by lia. subst w.
  exists D. split; [reflexivity|]. split; [assumption|]. split; [assumption|]. rewrite encode_leb128_ok by assumption. cbn [app].
  split; [intro M; f_equal; apply HM; assumption|]. intro M. apply HM. inversion M. reflexivity.
Qed.
