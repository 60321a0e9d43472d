(** The code words of the encoder read by the specification's own readers, and
    the closed form of the adaptation rule. *)
From Coq Require Import ZArith List Bool Lia ZifyBool ZifyNat Sorted.
From Verif Require Import Base BaseProofs UtilModel UtilSpec UtilProofs BitsSpec BitsProofs
  RangeCoderModel RangeCoderSpec CdfProofs RangeEncProofs RangeDecProofs SegmentProofs BitCodecModel BitCodecSpec BitCodecProofs LebProofs
  SeqSpec SeqProofs SyntaxSpec.
Import ListNotations.
Open Scope Z_scope.
Ltac Zify.zify_post_hook ::= Z.div_mod_to_equations.

(** ** Code words *)
Lemma byte_cons : forall b v, is_bit b -> bits_val (b :: to_bits 7 v) = 128 * b + v mod 128.
Proof.
  intros b v Hb. rewrite bits_val_cons, to_bits_length, bits_val_to_bits. change (2 ^ Z.of_nat 7) with 128. lia.
Qed.

Lemma rd_leb_ok : forall f v r, (1 <= f)%nat -> 0 <= v < 128 ^ Z.of_nat f ->
  rd_leb_bits f (leb_code f v ++ r) = Some (v, r).
Proof.
  induction f; intros v r Hf Hv; [lia|]. cbn [rd_leb_bits leb_code]. rewrite <- app_assoc.
  rewrite rd_len by (cbn [length]; rewrite to_bits_length; reflexivity). cbn [obind].
  rewrite byte_cons by (destruct (127 <? v); [right|left]; reflexivity). rewrite pow128_S in Hv.
  destruct (127 <? v) eqn:E; cbn [b2z].
  - assert (E1 : (0 <? v / 128) = true) by lia. assert (E2 : (128 * 1 + v mod 128 <? 128) = false) by lia.
    rewrite E1, E2. destruct f; [change (128 ^ Z.of_nat 0) with 1 in Hv; lia|].
    rewrite IHf by lia. cbn [obind]. f_equal. f_equal. lia.
  - assert (E1 : (0 <? v / 128) = false) by lia. assert (E2 : (128 * 0 + v mod 128 <? 128) = true) by lia.
    rewrite E1, E2. cbn [app]. f_equal. f_equal. lia.
Qed.

Lemma rd_le_ok : forall k v r, 0 <= v < 256 ^ Z.of_nat k -> rd_le k (le_code k v ++ r) = Some (v, r).
Proof.
  induction k; intros v r Hv; cbn [rd_le le_code].
  - change (256 ^ Z.of_nat 0) with 1 in Hv. cbn [app]. f_equal. f_equal. lia.
  - rewrite <- app_assoc. rewrite rd_len by apply to_bits_length. cbn [obind].
    rewrite Nat2Z.inj_succ, Z.pow_succ_r in Hv by lia.
    rewrite IHk by lia. cbn [obind]. rewrite bits_val_to_bits. change (2 ^ Z.of_nat 8) with 256. f_equal. f_equal. lia.
Qed.

Lemma rd_su_ok : forall n v r, 1 <= n -> - 2 ^ (n - 1) <= v < 2 ^ (n - 1) ->
  rd_su (Z.to_nat n) (su_code (Z.to_nat n) v ++ r) = Some (v, r).
Proof.
  intros n v r Hn Hv. unfold rd_su, su_code. rewrite rd_len by apply to_bits_length. cbn [obind].
  rewrite bits_val_to_bits, Z.mod_mod by (pose proof (pow2_nat_pos (Z.to_nat n)); lia).
  assert (P : 2 ^ n = 2 * 2 ^ (n - 1)) by (replace n with ((n - 1) + 1) at 1 by lia; rewrite Z.pow_add_r by lia; lia).
  rewrite Z2Nat.id by lia. set (p := 2 ^ n) in *. set (h := 2 ^ (n - 1)) in *.
  destruct (Z_lt_ge_dec v 0) as [L|L].
  - assert (M : v mod p = v + p). { symmetry. apply Z.mod_unique with (q := -1); lia. }
    rewrite M. destruct (p <=? 2 * (v + p)) eqn:E; [|lia]. f_equal. f_equal. lia.
  - rewrite Z.mod_small by lia. destruct (p <=? 2 * v) eqn:E; [lia|]. reflexivity.
Qed.

Lemma bit_width_log2 : forall p, Z.of_nat (bit_width p) = Z.log2 (Zpos p) + 1.
Proof.
  induction p; cbn [bit_width]; [| |reflexivity].
  - rewrite Nat2Z.inj_succ, IHp. rewrite Pos2Z.inj_xI. rewrite Z.log2_succ_double by lia. lia.
  - rewrite Nat2Z.inj_succ, IHp. rewrite Pos2Z.inj_xO. rewrite Z.log2_double by lia. lia.
Qed.

Lemma rd_ns_ok : forall n v r, Zpos n < 2 ^ 63 -> 0 <= v < Zpos n ->
  rd_ns n (ns_code (Zpos n) v ++ r) = Some (v, r).
Proof.
  intros n v r Hn Hv. destruct (ns_facts (Zpos n) ltac:(lia)) as (Hw & Hw2 & Hwn & Hm & H63).
  unfold rd_ns, ns_code. cbv zeta. pose proof (bit_width_log2 n) as B.
  set (w := Z.log2 (Zpos n) + 1) in *. rewrite B. set (m := 2 ^ w - Zpos n) in *.
  replace (bit_width n - 1)%nat with (Z.to_nat (w - 1)) by lia.
  destruct (v <? m) eqn:E.
  - rewrite rd_ok by (rewrite Z2Nat.id by lia; lia). cbn [obind]. rewrite E. reflexivity.
  - replace (Z.to_nat w) with (S (Z.to_nat (w - 1))) by lia. rewrite to_bits_snoc, <- app_assoc.
    rewrite rd_ok by (rewrite Z2Nat.id by lia; lia). cbn [obind].
    destruct ((v + m) / 2 <? m) eqn:E2; [lia|].
    rewrite rd_len by reflexivity. cbn [obind]. unfold bits_val. cbn [fold_left]. f_equal. f_equal. lia.
Qed.

Lemma uvlc_conforms : forall v out, 0 <= v < 2 ^ 32 - 1 ->
  exists D, encode_uvlc out v = Ok (out ++ D) /\ forall tail, rd_uvlc (D ++ tail) = Some (v, tail).
Proof. intros v out Hv. exists (uvlc_code v). split; [apply encode_uvlc_ok; assumption|intros; apply rd_uvlc_ok; assumption]. Qed.
Lemma leb_conforms : forall v out, 0 <= v < 2 ^ 56 ->
  exists D, encode_leb128 out v = Ok (out ++ D) /\ forall tail, rd_leb_bits 8 (D ++ tail) = Some (v, tail).
Proof. intros v out Hv. exists (leb_code 8 v). split; [apply encode_leb128_ok; assumption|intros; apply rd_leb_ok; [lia|exact Hv]]. Qed.
Lemma le_conforms : forall v n out, (n <= 8)%nat -> 0 <= v < 256 ^ Z.of_nat n ->
  exists D, encode_le out v (Z.of_nat n) = Ok (out ++ D) /\ forall tail, rd_le n (D ++ tail) = Some (v, tail).
Proof.
  intros v n out Hn Hv. exists (le_code n v). split; [|intros; apply rd_le_ok; assumption].
  rewrite encode_le_ok by lia. rewrite Nat2Z.id. reflexivity.
Qed.
Lemma su_conforms : forall v n out, (1 <= n <= 62)%nat -> - 2 ^ (Z.of_nat n - 1) <= v < 2 ^ (Z.of_nat n - 1) ->
  exists D, encode_su out v (Z.of_nat n) = Ok (out ++ D) /\ forall tail, rd_su n (D ++ tail) = Some (v, tail).
Proof.
  intros v n out Hn Hv. exists (su_code n v). split.
  - rewrite encode_su_ok by (try assumption; lia). rewrite Nat2Z.id. reflexivity.
  - intros. rewrite <- (Nat2Z.id n). apply rd_su_ok; [lia|assumption].
Qed.
Lemma ns_conforms : forall v n out, Zpos n < 2 ^ 63 -> 0 <= v < Zpos n ->
  exists D, encode_ns out v (Zpos n) = Ok (out ++ D) /\ forall tail, rd_ns n (D ++ tail) = Some (v, tail).
Proof.
  intros v n out Hn Hv. exists (ns_code (Zpos n) v). split; [apply encode_ns_ok; lia|intros; apply rd_ns_ok; assumption].
Qed.
Lemma fixed_conforms : forall v n out, (n <= 32)%nat -> 0 <= v < 2 ^ Z.of_nat n ->
  exists D, push_bits_with_size out v (Z.of_nat n) = Ok (out ++ D) /\ forall tail, rd n (D ++ tail) = Some (v, tail).
Proof.
  intros v n out Hn Hv. exists (to_bits n v). split.
  - rewrite push_bits_with_size_ok by lia. rewrite Nat2Z.id. reflexivity.
  - intros. apply rd_ok. assumption.
Qed.

(** ** Adaptation *)
Lemma adapt_pure_nth : forall k i s t d r l j, (k <= length l)%nat -> (j < k)%nat ->
  nth j (adapt_pure k i s t d r l) 0 =
  pull r (nth j l 0) (t + 32 * Z.of_nat j + (if (i <=? s) && (s <=? i + Z.of_nat j) then d else 0)).
Proof.
  induction k; intros i s t d r l j Hk Hj; [lia|]. destruct l as [|c l]; [cbn [length] in Hk; lia|].
  cbn [adapt_pure]. cbn [length] in Hk. destruct j; cbn [nth].
  - f_equal. destruct (i =? s) eqn:E; destruct ((i <=? s) && (s <=? i + Z.of_nat 0)) eqn:E2; lia.
  - rewrite IHk by lia. f_equal.
    destruct (i =? s) eqn:E; destruct ((i <=? s) && (s <=? i + Z.of_nat (S j))) eqn:E2;
      destruct ((i + 1 <=? s) && (s <=? i + 1 + Z.of_nat j)) eqn:E3; lia.
Qed.

Lemma adapt_pure_nth_last : forall k i s t d r l, (k < length l)%nat ->
  nth k (adapt_pure k i s t d r l) 0 = nth k l 0.
Proof.
  induction k; intros i s t d r l Hk; [reflexivity|]. destruct l as [|c l]; [cbn [length] in Hk; lia|].
  cbn [adapt_pure nth]. apply IHk. cbn [length] in Hk. lia.
Qed.

Lemma update_cdf_rule : forall N cdf s, valid_cdf N cdf -> 0 <= s ->
  exists cdf', update_cdf s cdf = Ok cdf' /\ draft_adapted N s cdf cdf'.
Proof.
  intros N cdf s V Hs0. pose proof (valid_cdf_last _ _ V) as Hlast.
  destruct V as (probs & cnt & -> & Hl & HN & Hs & Hla & Hc).
  assert (Hcnt : nth N (probs ++ [cnt]) 0 = cnt) by (rewrite app_nth2 by lia; rewrite Hl, Nat.sub_diag; reflexivity).
  unfold draft_adapted, draft_rate. rewrite Hcnt. cbv zeta.
  unfold update_cdf. rewrite len_app. unfold len. rewrite Hl. cbn [length].
  rewrite chk_u64_ok by lia. cbn [bind].
  replace (Z.of_nat N + Z.of_nat 1 - 1) with (Z.of_nat N) by lia.
  rewrite as_i32_id by lia.
  rewrite idx_nth with (d := 0).
  2:{ rewrite len_app. unfold len. rewrite Hl. simpl. lia. }
  rewrite Nat2Z.id, Hcnt. cbn [bind].
  rewrite as_u16_id by lia. rewrite msb16_log2 by lia. cbn [bind].
  change (b2z (31 <? cnt)) with (if 31 <? cnt then 1 else 0).
  set (rate := 4 + (if 31 <? cnt then 1 else 0) + Z.log2 (Z.of_nat N)).
  assert (Hlog : 0 <= Z.log2 (Z.of_nat N) <= 10).
  { split; [apply Z.log2_nonneg|]. change 10 with (Z.log2 1024). apply Z.log2_le_mono. lia. }
  assert (Hrate : 4 <= rate <= 15). { subst rate. destruct (31 <? cnt); lia. }
  clearbody rate.
  rewrite !shiftl_mul by lia. change (2 ^ 5) with 32. change (1 * 2 ^ 15) with 32768.
  rewrite as_i32_id by lia. rewrite chk_i32_ok by lia. cbn [bind].
  rewrite shiftr_div by lia.
  assert (Hp : 0 < 2 ^ rate) by (apply Z.pow_pos_nonneg; lia).
  unfold draft_target. replace (32 * Z.of_nat N) with (Z.of_nat N * 32) by lia.
  set (d := 32768 - Z.of_nat N * 32) in *.
  assert (Hdd : d + Z.of_nat N * 32 = 32768) by (subst d; lia). clearbody d.
  assert (Hd : 0 <= d / 2 ^ rate * 2 ^ rate <= d).
  { pose proof (Z.div_mod d (2 ^ rate) ltac:(lia)).
    pose proof (Z.mod_pos_bound d (2 ^ rate) Hp).
    assert (0 <= d / 2 ^ rate) by (apply Z.div_pos; lia). nia. }
  rewrite (shiftl_mul (d / 2 ^ rate)) by lia.
  set (diff := d / 2 ^ rate * 2 ^ rate) in *. clearbody diff.
  rewrite (as_i32_id diff) by lia.
  replace (Z.to_nat (Z.of_nat N - 1)) with (N - 1)%nat by lia.
  rewrite adapt_loop_ok; try lia.
  2:{ rewrite app_length; simpl; lia. }
  2:{ intros j Hj. rewrite app_nth1 by lia.
      pose proof (sorted_bounds probs 0 32768 Hs Hla ltac:(lia) j ltac:(lia)). lia. }
  2:{ destruct (0 <=? s); lia. }
  cbn [bind]. rewrite adapt_pure_app by lia. rewrite bump_last_ok by lia.
  eexists. split; [reflexivity|].
  repeat split.
  - rewrite !app_length, adapt_pure_length. reflexivity.
  - intros i Hi. rewrite !app_nth1 by (rewrite ?adapt_pure_length; lia).
    rewrite adapt_pure_nth by lia. unfold pull. f_equal. f_equal. f_equal.
    destruct (Z.of_nat i <? s) eqn:E1; destruct ((0 <=? s) && (s <=? 0 + Z.of_nat i)) eqn:E2; lia.
  - rewrite app_nth1 by (rewrite adapt_pure_length; lia). rewrite adapt_pure_nth_last by lia.
    rewrite app_nth1 in Hlast by lia. exact Hlast.
  - rewrite app_nth2 by (rewrite adapt_pure_length; lia). rewrite adapt_pure_length, Hl, Nat.sub_diag. cbn [nth].
    destruct (cnt <? 32) eqn:E; cbn [b2z]; lia.
Qed.

Lemma encode_symbol_update : forall c s out cdf c' out' cdf', encode_symbol c s out cdf = Ok (c', out', cdf') ->
  update_cdf s cdf = Ok cdf'.
Proof.
  intros c s out cdf c' out' cdf' E. unfold encode_symbol, encode_symbol_fuel in E.
  repeat (apply bind_inv in E; destruct E as (? & ? & E)). cbv zeta in E.
  repeat (match type of E with (bind _ _) = _ => apply bind_inv in E; destruct E as (? & ? & E) | (let '(_,_) := ?x in _) = _ => destruct x end).
  inversion E; subst. assumption.
Qed.

Lemma encode_adapts : forall N cdf s c out c' out' cdf', valid_cdf N cdf -> 0 <= s ->
  encode_symbol c s out cdf = Ok (c', out', cdf') -> draft_adapted N s cdf cdf'.
Proof.
  intros N cdf s c out c' out' cdf' V Hs E. apply encode_symbol_update in E.
  destruct (update_cdf_rule N cdf s V Hs) as (x & U & A). rewrite U in E. inversion E; subst. exact A.
Qed.

Lemma decode_adapts : forall N cdf c q s c' q' cdf', valid_cdf N cdf ->
  decode_symbol c q cdf = Ok (s, c', q', cdf') -> draft_adapted N s cdf cdf'.
Proof.
  intros N cdf c q s c' q' cdf' V E. apply decode_symbol_cdf in E. destruct E as [Hs U].
  rewrite dec_update_cdf_eq in U.
  destruct (update_cdf_rule N cdf s V ltac:(lia)) as (x & U2 & A). rewrite U in U2. inversion U2; subst. exact A.
Qed.
