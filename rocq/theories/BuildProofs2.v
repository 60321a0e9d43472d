(** What a release build does where a debug build panics. *)
From Coq Require Import ZArith List Bool Lia ZifyBool ZifyNat.
From Verif Require Import Base BaseProofs UtilModel UtilSpec UtilProofs BitsSpec BitsProofs
  RangeCoderModel BitCodecModel BitCodecSpec BitCodecProofs SessionModel SessionSpec SessionProofs SegmentProofs BuildSpec BuildProofs.
From Verif Require BuildModel.
Import ListNotations.
Open Scope Z_scope.

(** ** Wrapped arithmetic *)

Lemma as_i64_mod x : as_i64 x mod 2 ^ 64 = x mod 2 ^ 64.
Proof.
  unfold as_i64. rewrite Zminus_mod_idemp_l. f_equal. lia.
Qed.

Lemma as_u64_i64 x : as_u64 (as_i64 x) = x mod 2 ^ 64.
Proof. apply as_i64_mod. Qed.

Lemma as_i64_cong x y : x mod 2 ^ 64 = y mod 2 ^ 64 -> as_i64 x = as_i64 y.
Proof.
  intros H. unfold as_i64. rewrite <- Zplus_mod_idemp_l, H, Zplus_mod_idemp_l. reflexivity.
Qed.

Lemma mod_pow_sub x k : 0 <= k <= 64 -> (x mod 2 ^ 64) mod 2 ^ k = x mod 2 ^ k.
Proof.
  intros Hk. replace (2 ^ 64) with (2 ^ k * 2 ^ (64 - k)) by (rewrite <- Z.pow_add_r by lia; f_equal; lia).
  rewrite Z.rem_mul_r by (try apply Z.pow_nonzero; try apply pow2_pos; lia).
  rewrite Z.mul_comm, Z_mod_plus_full, Z.mod_mod; [reflexivity|]. apply Z.pow_nonzero; lia.
Qed.

Lemma to_bits_cong k x y : x mod 2 ^ Z.of_nat k = y mod 2 ^ Z.of_nat k -> to_bits k x = to_bits k y.
Proof. intros H. rewrite <- (to_bits_mod k x), H. apply to_bits_mod. Qed.

(** ** Transfer from the debug build *)

Lemma rel_push_range k width out v lo : 0 <= lo -> lo + Z.of_nat k <= width ->
  BuildModel.push_range Release width out v lo k = Ok (out ++ to_bits k (v / 2 ^ lo)).
Proof.
  intros. eapply le_ok; [apply le_push_range|]. rewrite debug_push_range. now apply push_range_ok.
Qed.
Lemma rel_push_range_0 k width out v : Z.of_nat k <= width ->
  BuildModel.push_range Release width out v 0 k = Ok (out ++ to_bits k v).
Proof.
  intros. eapply le_ok; [apply le_push_range|]. rewrite debug_push_range. now apply push_range_0.
Qed.
Lemma rel_read_u64_to_bits k v tail : (k <= 64)%nat -> 0 <= v < 2 ^ Z.of_nat k ->
  BuildModel.read_u64 Release k 0 (to_bits k v ++ tail) = Ok (v, tail).
Proof. intros. eapply le_ok; [apply le_read_u64|]. now apply read_u64_to_bits. Qed.
Lemma rel_FloorLog2 n : 0 < n < 2 ^ 64 -> BuildModel.FloorLog2 Release n = Ok (Z.log2 n).
Proof. intros. eapply le_ok; [apply le_FloorLog2|]. now apply FloorLog2_ok. Qed.

(** ** uvlc: the largest u32 is written as zero *)

Lemma rel_uvlc_max out : BuildModel.encode_uvlc Release out (2 ^ 32 - 1) = Ok (out ++ [1]).
Proof. reflexivity. Qed.

Lemma rel_uvlc v out : 0 <= v < 2 ^ 32 ->
  exists D, BuildModel.encode_uvlc Release out v = Ok (out ++ D) /\
    forall tail, BuildModel.decode_uvlc Release (D ++ tail) = Ok (if v =? 2 ^ 32 - 1 then 0 else v, tail).
Proof.
  intros Hv. destruct (v =? 2 ^ 32 - 1) eqn:E.
  - exists [1]. replace v with (2 ^ 32 - 1) by lia. split; [apply rel_uvlc_max|reflexivity].
  - exists (uvlc_code v). split.
    + eapply le_ok; [apply le_encode_uvlc|]. rewrite debug_encode_uvlc. apply encode_uvlc_ok. lia.
    + intros tail. eapply le_ok; [apply le_decode_uvlc|]. rewrite debug_decode_uvlc. apply decode_uvlc_ok. lia.
Qed.

(** ** su(n): every width up to 64 *)

Lemma rel_encode_su out v n : 1 <= n <= 64 -> - 2 ^ (n - 1) <= v < 2 ^ (n - 1) ->
  BuildModel.encode_su Release out v n = Ok (out ++ su_code (Z.to_nat n) v).
Proof.
  intros Hn Hv. unfold BuildModel.encode_su, su_code. cbn [BuildModel.chk_u8 BuildModel.shift_ok BuildModel.shift_amt BuildModel.chk_i64 bind].
  rewrite as_u8_id by lia. rewrite (Z.mod_small (n - 1) 64) by lia.
  replace (Z.to_nat n) with (S (Z.to_nat (n - 1))) by lia. rewrite pow2_S.
  cbn [to_bits]. rewrite Z2Nat.id by lia.
  assert (Hp : 1 <= 2 ^ (n - 1)) by (pose proof (pow2_pos (n - 1)); lia).
  rewrite shiftl_mul, Z.mul_1_l by lia.
  assert (H2 : 2 * 2 ^ (n - 1) = 2 ^ n) by (rewrite <- Z.pow_succ_r by lia; f_equal; lia).
  destruct (v <? 0) eqn:E.
  - rewrite rel_push_range_0 by lia. unfold push. rewrite <- app_assoc. cbn [app b2z].
    assert (Hm : v mod (2 * 2 ^ (n - 1)) = v + 2 * 2 ^ (n - 1)).
    { symmetry. apply Z.mod_unique with (q := -1); lia. }
    f_equal. f_equal. rewrite Hm. set (p := 2 ^ (n - 1)) in *. f_equal.
    + assert (D : (v + 2 * p) / p = 1) by (symmetry; apply Z.div_unique with (r := v + p); lia).
      now rewrite D.
    + apply to_bits_cong. rewrite as_u64_i64. rewrite Z2Nat.id by lia. fold p.
      pose proof (mod_pow_sub (v + 2 * p) (n - 1) ltac:(lia)) as Hs. fold p in Hs. rewrite <- Hs. f_equal.
      rewrite <- Zplus_mod_idemp_r, as_i64_mod, Zplus_mod_idemp_r.
      rewrite <- Zplus_mod_idemp_r, <- Zmult_mod_idemp_r, as_i64_mod, Zmult_mod_idemp_r, Zplus_mod_idemp_r.
      reflexivity.
  - rewrite rel_push_range_0 by lia. unfold push. rewrite <- app_assoc. cbn [app b2z].
    rewrite (Z.mod_small v (2 * _)) by lia. rewrite (Z.div_small v) by lia. reflexivity.
Qed.

Lemma rel_decode_su n v tail : 1 <= n <= 64 -> - 2 ^ (n - 1) <= v < 2 ^ (n - 1) ->
  BuildModel.decode_su Release (su_code (Z.to_nat n) v ++ tail) n = Ok (v, tail).
Proof.
  intros Hn Hv. unfold BuildModel.decode_su, su_code.
  assert (Hp : 1 <= 2 ^ (n - 1) <= 2 ^ 63). { split; [pose proof (pow2_pos (n - 1)); lia|apply pow2_le; lia]. }
  assert (H2 : 2 ^ n = 2 * 2 ^ (n - 1)) by (rewrite <- Z.pow_succ_r by lia; f_equal; lia).
  rewrite Z2Nat.id by lia.
  rewrite rel_read_u64_to_bits; [|lia|rewrite Z2Nat.id by lia; apply Z.mod_pos_bound; lia].
  cbn [BuildModel.chk_u8 BuildModel.shift_ok BuildModel.shift_amt BuildModel.chk_i64 bind].
  rewrite as_u8_id by lia. rewrite (Z.mod_small (n - 1) 64) by lia.
  rewrite shiftl_mul, Z.mul_1_l by lia. rewrite land_pow2_bit by lia. rewrite H2.
  set (p := 2 ^ (n - 1)) in *. change (2 ^ 63) with 9223372036854775808 in *.
  destruct (Z_lt_le_dec v 0) as [L|L].
  - assert (Hm : v mod (2 * p) = v + 2 * p) by (symmetry; apply Z.mod_unique with (q := -1); lia).
    rewrite Hm. assert (D : (v + 2 * p) / p = 1) by (symmetry; apply Z.div_unique with (r := v + p); lia).
    rewrite D. change (1 mod 2 * p) with (1 * p). destruct (0 <? 1 * p) eqn:E; [|lia].
    f_equal. f_equal. transitivity (as_i64 v); [|apply as_i64_id; lia]. apply as_i64_cong.
    rewrite Zminus_mod, !as_i64_mod. rewrite <- (Zmult_mod_idemp_r (as_i64 p)), as_i64_mod, Zmult_mod_idemp_r.
    rewrite <- Zminus_mod. f_equal. lia.
  - rewrite (Z.mod_small v) by lia. rewrite (Z.div_small v p) by lia. change (0 mod 2 * p) with 0.
    cbn [Z.ltb Z.compare]. rewrite as_i64_id by lia. reflexivity.
Qed.

Lemma rel_su v n out : 1 <= n <= 64 -> - 2 ^ (n - 1) <= v < 2 ^ (n - 1) ->
  exists D, BuildModel.encode_su Release out v n = Ok (out ++ D) /\ Z.of_nat (length D) = n /\ twos_val D = v /\
    forall tail, BuildModel.decode_su Release (D ++ tail) n = Ok (v, tail).
Proof.
  intros Hn Hv. exists (su_code (Z.to_nat n) v). split; [now apply rel_encode_su|].
  split; [unfold su_code; rewrite to_bits_length; lia|]. split; [apply su_code_val; lia|].
  intros tail. now apply rel_decode_su.
Qed.

(** ** ns(n) with n of 64 bits *)

Lemma log2_64 n : 2 ^ 63 <= n < 2 ^ 64 -> Z.log2 n = 63.
Proof. intros H. apply Z.log2_unique; lia. Qed.

Lemma rel_ns v n out : 2 ^ 63 <= n < 2 ^ 64 -> 0 <= v < n -> v < n - 1 \/ n = 2 ^ 63 ->
  exists D, BuildModel.encode_ns Release out v n = Ok (out ++ D) /\
    forall tail, BuildModel.decode_ns Release (D ++ tail) n = Ok (v, tail).
Proof.
  intros Hn Hv Hok. unfold BuildModel.encode_ns, BuildModel.decode_ns.
  rewrite rel_FloorLog2 by lia. rewrite log2_64 by assumption.
  cbn [bind BuildModel.chk_u64 BuildModel.shift_ok BuildModel.shift_amt]. change (as_u64 (63 + 1)) with 64.
  change (as_u64 (64 - 1)) with 63. change (64 mod 64) with 0. change (Z.shiftl 1 0) with 1.
  change (64 - 1) with 63.
  assert (Hm : as_u64 (1 - n) = 2 ^ 64 + 1 - n).
  { unfold as_u64. symmetry. apply Z.mod_unique with (q := -1); lia. }
  rewrite Hm. change (2 ^ 63) with 9223372036854775808 in *. change (2 ^ 64) with 18446744073709551616 in *.
  set (m := 18446744073709551616 + 1 - n) in *.
  destruct (v <? m) eqn:E.
  - exists (to_bits 63 v). split; [apply rel_push_range_0; lia|].
    intros tail. change (Z.to_nat 63) with 63%nat.
    rewrite rel_read_u64_to_bits by (try change (2 ^ Z.of_nat 63) with 9223372036854775808; lia).
    cbn [bind]. now rewrite E.
  - exists (to_bits 64 (v + m)). rewrite as_u64_id by lia. split.
    + rewrite rel_push_range by lia. cbn [bind]. unfold push. rewrite <- app_assoc, land_1.
      now rewrite (to_bits_snoc 63).
    + intros tail. rewrite (to_bits_snoc 63), <- app_assoc. change (Z.to_nat 63) with 63%nat.
      rewrite rel_read_u64_to_bits; [|lia|].
      2:{ change (2 ^ Z.of_nat 63) with 9223372036854775808.
          split; [apply Z.div_pos; lia|apply Z.div_lt_upper_bound; lia]. }
      cbn [bind]. pose proof (Z.div_mod (v + m) 2 ltac:(lia)) as Hd.
      pose proof (Z.mod_pos_bound (v + m) 2 ltac:(lia)) as Hb.
      destruct ((v + m) / 2 <? m) eqn:E2; [lia|]. cbn [app pop bind].
      rewrite shiftl_mul by lia. change (2 ^ 1) with 2.
      rewrite (as_u64_id (_ * 2)) by lia. rewrite (as_u64_id (_ * 2 - m)) by lia. rewrite as_u64_id by lia.
      f_equal. f_equal. lia.
Qed.

Lemma rel_ns_last n out : 2 ^ 63 < n < 2 ^ 64 ->
  BuildModel.encode_ns Release out (n - 1) n = Ok (out ++ repeat 0 64) /\
  forall tail, BuildModel.decode_ns Release (repeat 0 64 ++ tail) n = Ok (0, 0 :: tail).
Proof.
  intros Hn. unfold BuildModel.encode_ns, BuildModel.decode_ns.
  rewrite rel_FloorLog2 by lia. rewrite log2_64 by lia.
  cbn [bind BuildModel.chk_u64 BuildModel.shift_ok BuildModel.shift_amt]. change (as_u64 (63 + 1)) with 64.
  change (as_u64 (64 - 1)) with 63. change (64 mod 64) with 0. change (Z.shiftl 1 0) with 1.
  change (64 - 1) with 63.
  assert (Hm : as_u64 (1 - n) = 2 ^ 64 + 1 - n).
  { unfold as_u64. symmetry. apply Z.mod_unique with (q := -1); lia. }
  rewrite Hm. change (2 ^ 63) with 9223372036854775808 in *. change (2 ^ 64) with 18446744073709551616 in *.
  set (m := 18446744073709551616 + 1 - n) in *. split.
  - destruct (n - 1 <? m) eqn:E; [lia|]. replace (n - 1 + m) with 18446744073709551616 by lia.
    change (as_u64 18446744073709551616) with 0. rewrite rel_push_range by lia. cbn [bind].
    unfold push. rewrite <- app_assoc. reflexivity.
  - intros tail. change (Z.to_nat 63) with 63%nat. change (repeat 0 64) with (to_bits 63 0 ++ [0]).
    rewrite <- app_assoc. rewrite rel_read_u64_to_bits by (try change (2 ^ Z.of_nat 63) with 9223372036854775808; lia).
    cbn [bind]. destruct (0 <? m) eqn:E; [reflexivity|lia].
Qed.

(** ** le(n) with more than eight bytes: the bytes are repeated *)

Definition le_sum (v n : Z) : Z := n / 8 * v + v mod 256 ^ (n mod 8).

Lemma le_sum_next v i : 0 <= i -> 0 <= v < 2 ^ 64 ->
  le_sum v (i + 1) = le_sum v i + (v / 2 ^ (8 * (i mod 8))) mod 256 * 2 ^ (8 * (i mod 8)).
Proof.
  intros Hi Hv. unfold le_sum. pose proof (Z.mod_pos_bound i 8 ltac:(lia)) as Hj.
  pose proof (Z.div_mod i 8 ltac:(lia)) as Hd. set (j := i mod 8) in *. set (k := i / 8) in *.
  rewrite Z.pow_mul_r by lia. change (2 ^ 8) with 256.
  assert (S1 : v mod 256 ^ (j + 1) = v mod 256 ^ j + (v / 256 ^ j) mod 256 * 256 ^ j).
  { rewrite Z.pow_add_r by lia. change (256 ^ 1) with 256.
    rewrite Z.rem_mul_r by (try apply Z.pow_nonzero; try lia). lia. }
  destruct (Z.eq_dec j 7) as [J|J].
  - assert (K : (i + 1) / 8 = k + 1) by (symmetry; apply Z.div_unique with (r := 0); lia).
    assert (M : (i + 1) mod 8 = 0) by (symmetry; apply Z.mod_unique with (q := k + 1); lia).
    rewrite K, M. change (256 ^ 0) with 1. rewrite Z.mod_1_r.
    rewrite J in *. change (256 ^ (7 + 1)) with (2 ^ 64) in S1. rewrite Z.mod_small in S1 by assumption. lia.
  - assert (K : (i + 1) / 8 = k) by (symmetry; apply Z.div_unique with (r := j + 1); lia).
    assert (M : (i + 1) mod 8 = j + 1) by (symmetry; apply Z.mod_unique with (q := k); lia).
    rewrite K, M, S1. lia.
Qed.

Fixpoint le_rep (k : nat) (i v : Z) : list Z :=
  match k with
  | O => []
  | S k' => to_bits 8 (v / 2 ^ (8 * (i mod 8))) ++ le_rep k' (i + 1) v
  end.

Lemma sh_amount i : 0 <= i -> as_u8 (i * 8) mod 64 = 8 * (i mod 8).
Proof.
  intros Hi. unfold as_u8. change (2 ^ 8) with (8 * 32). rewrite (Z.mul_comm i 8).
  rewrite Z.mul_mod_distr_l by lia. change 64 with (8 * 8). rewrite Z.mul_mod_distr_l by lia.
  f_equal. change 32 with (8 * 4). rewrite Z.rem_mul_r by lia.
  rewrite Z.mul_comm, Z_mod_plus_full. apply Z.mod_mod. lia.
Qed.

Lemma rel_encode_le_loop k : forall i out v, 0 <= i -> 0 <= v ->
  BuildModel.encode_le_loop Release k i out v = Ok (out ++ le_rep k i v).
Proof.
  induction k as [|k IH]; intros i out v Hi Hv; cbn [BuildModel.encode_le_loop le_rep]; [now rewrite app_nil_r|].
  cbn [BuildModel.chk_u8 BuildModel.shift_ok BuildModel.shift_amt bind]. rewrite sh_amount by assumption.
  rewrite rel_push_range_0 by lia. cbn [bind]. rewrite IH by lia. rewrite <- app_assoc. f_equal. f_equal. f_equal.
  pose proof (Z.mod_pos_bound i 8 ltac:(lia)).
  rewrite shiftr_div by lia. change 255 with (2 ^ 8 - 1). rewrite land_ones_mod by lia.
  pose proof (Z.mod_pos_bound (v / 2 ^ (8 * (i mod 8))) (2 ^ 8) ltac:(lia)).
  rewrite as_u8_id by lia. apply (to_bits_mod 8).
Qed.

Lemma rel_read_u8 v tail : 0 <= v ->
  BuildModel.read_u8 Release 8 0 (to_bits 8 v ++ tail) = Ok (v mod 256, tail).
Proof. intros. eapply le_ok; [apply le_read_u8|]. now apply read_u8_to_bits. Qed.

Lemma rel_decode_le_loop k : forall i t v tail, 0 <= i -> 0 <= v < 2 ^ 64 -> t = le_sum v i mod 2 ^ 64 ->
  BuildModel.decode_le_loop Release k i t (le_rep k i v ++ tail) =
  Ok (le_sum v (i + Z.of_nat k) mod 2 ^ 64, tail).
Proof.
  induction k as [|k IH]; intros i t v tail Hi Hv Ht; cbn [BuildModel.decode_le_loop le_rep].
  - cbn [app]. rewrite Ht. f_equal. f_equal. f_equal. f_equal. lia.
  - pose proof (Z.mod_pos_bound i 8 ltac:(lia)) as Hj.
    rewrite <- app_assoc. rewrite rel_read_u8 by (apply Z.div_pos; [lia|apply pow2_pos; lia]).
    cbn [BuildModel.chk_u8 BuildModel.shift_ok BuildModel.shift_amt BuildModel.chk_u64 bind]. rewrite sh_amount by assumption.
    rewrite IH; [f_equal; f_equal; f_equal; f_equal; lia|lia|assumption|].
    unfold as_u64. rewrite Zplus_mod_idemp_r, Ht, Zplus_mod_idemp_l.
    rewrite le_sum_next by assumption. rewrite shiftl_mul by lia. reflexivity.
Qed.

Lemma le_rep_length k : forall i v, Z.of_nat (length (le_rep k i v)) = 8 * Z.of_nat k.
Proof.
  induction k as [|k IH]; intros i v; cbn [le_rep]; [reflexivity|].
  rewrite app_length, to_bits_length. pose proof (IH (i + 1) v). lia.
Qed.

Lemma rel_le v n out : 0 <= n <= 255 -> 0 <= v < 2 ^ 64 ->
  exists D, BuildModel.encode_le Release out v n = Ok (out ++ D) /\ Z.of_nat (length D) = 8 * n /\
    forall tail, BuildModel.decode_le Release (D ++ tail) n =
      Ok ((n / 8 * v + v mod 256 ^ (n mod 8)) mod 2 ^ 64, tail).
Proof.
  intros Hn Hv. exists (le_rep (Z.to_nat n) 0 v). unfold BuildModel.encode_le, BuildModel.decode_le.
  split; [apply rel_encode_le_loop; lia|]. split; [rewrite le_rep_length; lia|].
  intros tail. rewrite rel_decode_le_loop; [|lia|assumption|].
  - unfold le_sum. rewrite Z2Nat.id by lia. reflexivity.
  - unfold le_sum. change (0 mod 8) with 0. change (256 ^ 0) with 1. rewrite Z.mod_1_r. reflexivity.
Qed.

(** Nine to sixteen bytes: read back only where the low bytes are all zero. *)
Lemma rel_le_exact v n : 8 < n < 16 -> 0 <= v < 2 ^ 64 ->
  ((n / 8 * v + v mod 256 ^ (n mod 8)) mod 2 ^ 64 = v <-> v mod 256 ^ (n - 8) = 0).
Proof.
  intros Hn Hv.
  assert (K : n / 8 = 1) by (symmetry; apply Z.div_unique with (r := n - 8); lia).
  assert (M : n mod 8 = n - 8) by (symmetry; apply Z.mod_unique with (q := 1); lia).
  rewrite K, M, Z.mul_1_l. assert (Hp : 0 < 256 ^ (n - 8)) by (apply Z.pow_pos_nonneg; lia).
  assert (Hp2 : 256 ^ (n - 8) <= 256 ^ 7) by (apply Z.pow_le_mono_r; lia).
  pose proof (Z.mod_pos_bound v (256 ^ (n - 8)) Hp) as B. set (x := v mod 256 ^ (n - 8)) in *.
  change (256 ^ 7) with 72057594037927936 in Hp2. change (2 ^ 64) with 18446744073709551616 in *. split.
  - intros H. pose proof (Z.div_mod (v + x) 18446744073709551616 ltac:(lia)) as D. rewrite H in D. lia.
  - intros ->. rewrite Z.add_0_r. apply Z.mod_small. assumption.
Qed.

(** ** Literals of more than 64 bits *)

(** The bits of an [n]-bit literal of a 64-bit value: position [i] holds bit
    [i mod 64]. *)
Fixpoint lit_bits (n : nat) (v : Z) : list Z :=
  match n with
  | O => []
  | S i => (v / 2 ^ (Z.of_nat i mod 64)) mod 2 :: lit_bits i v
  end.

Lemma lit_bits_length n v : length (lit_bits n v) = n.
Proof. induction n; cbn; auto. Qed.
Lemma lit_bits_bits n v : is_bits (lit_bits n v).
Proof. induction n; cbn [lit_bits]; constructor; [apply mod2_bit|assumption]. Qed.
Lemma lit_bits_low n v : (n <= 64)%nat -> lit_bits n v = to_bits n v.
Proof.
  induction n as [|n IH]; intros H; cbn [lit_bits to_bits]; [reflexivity|].
  rewrite (Z.mod_small (Z.of_nat n) 64) by lia. now rewrite IH by lia.
Qed.
Lemma lit_bits_split n v : (64 <= n)%nat -> exists h, lit_bits n v = h ++ to_bits 64 v.
Proof.
  induction n as [|n IH]; intros H; [lia|]. destruct (Nat.eq_dec n 63) as [->|N].
  - exists []. apply lit_bits_low. lia.
  - destruct (IH ltac:(lia)) as [h E]. cbn [lit_bits]. rewrite E.
    exists ((v / 2 ^ (Z.of_nat n mod 64)) mod 2 :: h). reflexivity.
Qed.

Lemma bits_val_lit n v : (64 <= n)%nat -> 0 <= v < 2 ^ 64 -> bits_val (lit_bits n v) mod 2 ^ 64 = v.
Proof.
  intros Hn Hv. destruct (lit_bits_split n v Hn) as [h ->]. rewrite bits_val_app, to_bits_length, bits_val_to_bits.
  change (2 ^ Z.of_nat 64) with (2 ^ 64). rewrite (Z.mod_small v) by assumption.
  rewrite Z.add_comm, Z_mod_plus_full. now apply Z.mod_small.
Qed.

Definition bit_ops (l : list Z) : list op := map (OBit 128) l.

Lemma rel_encode_literal n v : 0 <= v -> forall c t out,
  BuildModel.encode_op Release c t out (OLit n v) = BuildModel.encode_ops Release c t out (bit_ops (lit_bits n v)).
Proof.
  intros Hv. induction n as [|n IH]; intros c t out; [reflexivity|].
  cbn [lit_bits bit_ops map BuildModel.encode_ops]. specialize (IH).
  cbn [BuildModel.encode_op BuildModel.encode_literal BuildModel.shift_ok BuildModel.shift_amt bind] in *.
  pose proof (Z.mod_pos_bound (Z.of_nat n) 64 ltac:(lia)).
  rewrite land_1, shiftr_div by lia.
  pose proof (Z.mod_pos_bound (v / 2 ^ (Z.of_nat n mod 64)) 2 ltac:(lia)).
  rewrite as_u8_id by lia.
  destruct (BuildModel.encode_symbolp Release c _ out 128) as [[c1 o1]| |]; cbn [bind]; try reflexivity.
  apply IH.
Qed.

Lemma rel_decode_literal_loop l : is_bits l -> forall x d t q d' t' q',
  BuildModel.decode_ops Release d t q (map shape_of (bit_ops l)) = Ok (bit_ops l, d', t', q') ->
  t' = t /\
  BuildModel.decode_literal_loop Release (length l) x d q =
    Ok (match l with [] => x | _ => (x * 2 ^ Z.of_nat (length l) + bits_val l) mod 2 ^ 64 end, d', q').
Proof.
  induction l as [|b l IH]; intros Hl x d t q d' t' q' H.
  - cbn in H. injection H as <- <- <-. split; reflexivity.
  - apply is_bits_cons in Hl. destruct Hl as [Hb Hl].
    cbn [map bit_ops shape_of BuildModel.decode_ops BuildModel.decode_op length BuildModel.decode_literal_loop] in *.
    destruct (BuildModel.decode_symbolp Release d q 128) as [[[s d1] q1]| |]; cbn [bind] in *; try discriminate.
    change (map (OBit 128) l) with (bit_ops l) in H.
    destruct (BuildModel.decode_ops Release d1 t q1 (map shape_of (bit_ops l))) as [[[[os d2] t2] q2]| |] eqn:E;
      cbn [bind] in *; try discriminate.
    injection H as -> -> <- <- <-.
    destruct (IH Hl (as_u64 (as_u64 (Z.shiftl x 1) + b)) d1 t q1 _ _ _ E) as [-> F].
    split; [reflexivity|]. cbn [BuildModel.chk_u64]. cbn [bind]. rewrite F. f_equal. f_equal. f_equal.
    rewrite bits_val_cons, pow2_S. rewrite shiftl_mul by lia. change (2 ^ 1) with 2. unfold as_u64.
    rewrite Zplus_mod_idemp_l. destruct l as [|b' l].
    + cbn [length]. rewrite bits_val_nil. change (2 ^ Z.of_nat 0) with 1. f_equal. lia.
    + rewrite <- Zplus_mod_idemp_l, Zmult_mod_idemp_l, Zplus_mod_idemp_l. f_equal. lia.
Qed.

Notation rel_op := wide_op.

Definition spell (o : op) : list op :=
  match o with
  | OLit n v => if (n <=? 64)%nat then [o] else bit_ops (lit_bits n v)
  | _ => [o]
  end.

Lemma spell_valid sizes o : rel_op sizes o -> Forall (valid_op sizes) (spell o).
Proof.
  destruct o as [ctx s|p b|p bs|n v]; cbn [wide_op spell]; intros H; try (constructor; [exact H|constructor]).
  destruct (n <=? 64)%nat eqn:E.
  - constructor; [|constructor]. cbn. apply Nat.leb_le in E. split; [assumption|].
    rewrite Z.min_r in H by lia. tauto.
  - apply Forall_forall. intros o Ho. apply in_map_iff in Ho. destruct Ho as (b & <- & Hb).
    cbn. split; [lia|]. exact (proj1 (Forall_forall _ _) (lit_bits_bits n v) b Hb).
Qed.

Lemma spell_symbols o : session_symbols (spell o) = op_symbols o.
Proof.
  destruct o as [ctx s|p b|p bs|n v]; try (cbn; lia). cbn [spell op_symbols].
  destruct (n <=? 64)%nat; [cbn; lia|].
  rewrite <- (lit_bits_length n v) at 2. unfold bit_ops, session_symbols.
  induction (lit_bits n v) as [|b l IH]; cbn; [reflexivity|]. now rewrite IH.
Qed.

Lemma session_symbols_app a b : session_symbols (a ++ b) = (session_symbols a + session_symbols b)%nat.
Proof. unfold session_symbols. induction a; cbn; [reflexivity|]. rewrite IHa. lia. Qed.

Lemma spell_fits ops : session_symbols (flat_map spell ops) = session_symbols ops.
Proof.
  induction ops as [|o ops IH]; [reflexivity|]. cbn [flat_map]. rewrite session_symbols_app, spell_symbols, IH.
  reflexivity.
Qed.

Lemma rel_ops_app a : forall b c t out,
  BuildModel.encode_ops Release c t out (a ++ b) =
  ('(c, t, out) <- BuildModel.encode_ops Release c t out a ;; BuildModel.encode_ops Release c t out b).
Proof.
  induction a as [|o a IH]; intros; [reflexivity|]. cbn [app BuildModel.encode_ops].
  destruct (BuildModel.encode_op Release c t out o) as [[[c1 t1] o1]| |]; cbn [bind]; try reflexivity. apply IH.
Qed.

Lemma rel_encode_spell sizes ops : Forall (rel_op sizes) ops -> forall c t out,
  BuildModel.encode_ops Release c t out (flat_map spell ops) = BuildModel.encode_ops Release c t out ops.
Proof.
  induction 1 as [|o ops Ho H IH]; intros c t out; [reflexivity|]. cbn [flat_map]. rewrite rel_ops_app.
  assert (E : BuildModel.encode_ops Release c t out (spell o) = BuildModel.encode_op Release c t out o).
  { destruct o as [ctx s|p b|p bs|n v]; cbn [spell];
      try (cbn [BuildModel.encode_ops]; destruct (BuildModel.encode_op _ _ _ _ _) as [[[? ?] ?]| |]; reflexivity).
    destruct (n <=? 64)%nat.
    - cbn [BuildModel.encode_ops]. destruct (BuildModel.encode_op _ _ _ _ _) as [[[? ?] ?]| |]; reflexivity.
    - symmetry. apply rel_encode_literal. cbn in Ho. lia. }
  rewrite E. cbn [BuildModel.encode_ops].
  destruct (BuildModel.encode_op Release c t out o) as [[[c1 t1] o1]| |]; cbn [bind]; try reflexivity. apply IH.
Qed.

Lemma rel_decode_app a : forall b d t q,
  BuildModel.decode_ops Release d t q (a ++ b) =
  ('(os, d, t, q) <- BuildModel.decode_ops Release d t q a ;;
   '(os2, d, t, q) <- BuildModel.decode_ops Release d t q b ;; Ok (os ++ os2, d, t, q)).
Proof.
  induction a as [|s a IH]; intros; cbn [app BuildModel.decode_ops bind].
  - destruct (BuildModel.decode_ops Release d t q b) as [[[[? ?] ?] ?]| |]; reflexivity.
  - destruct (BuildModel.decode_op Release d t q s) as [[[[o1 d1] t1] q1]| |]; cbn [bind]; try reflexivity.
    rewrite IH. destruct (BuildModel.decode_ops Release d1 t1 q1 a) as [[[[? ?] ?] ?]| |]; cbn [bind]; try reflexivity.
    destruct (BuildModel.decode_ops Release c c0 l0 b) as [[[[? ?] ?] ?]| |]; reflexivity.
Qed.

Lemma decode_ops_length ss : forall d t q os d' t' q',
  BuildModel.decode_ops Release d t q ss = Ok (os, d', t', q') -> length os = length ss.
Proof.
  induction ss as [|s ss IH]; intros d t q os d' t' q' H; cbn [BuildModel.decode_ops] in H.
  - injection H as <- <- <- <-. reflexivity.
  - destruct (BuildModel.decode_op Release d t q s) as [[[[o1 d1] t1] q1]| |]; cbn [bind] in H; try discriminate.
    destruct (BuildModel.decode_ops Release d1 t1 q1 ss) as [[[[? ?] ?] ?]| |] eqn:E; cbn [bind] in H; try discriminate.
    injection H as <- <- <- <-. cbn. f_equal. eapply IH. exact E.
Qed.

Lemma rel_decode_spell_op sizes o d t q d' t' q' : rel_op sizes o ->
  BuildModel.decode_ops Release d t q (map shape_of (spell o)) = Ok (spell o, d', t', q') ->
  BuildModel.decode_op Release d t q (shape_of o) = Ok (o, d', t', q').
Proof.
  intros Ho. assert (G : BuildModel.decode_ops Release d t q (map shape_of [o]) = Ok ([o], d', t', q') ->
                        BuildModel.decode_op Release d t q (shape_of o) = Ok (o, d', t', q')).
  { cbn [map BuildModel.decode_ops]. destruct (BuildModel.decode_op _ _ _ _ _) as [[[[? ?] ?] ?]| |];
      cbn [bind]; try discriminate. intros [= <- <- <- <-]. reflexivity. }
  destruct o as [ctx s|p b|p bs|n v]; cbn [spell]; try exact G.
  destruct (n <=? 64)%nat eqn:E; [exact G|]. clear G. apply Nat.leb_gt in E. intros H.
  destruct (rel_decode_literal_loop _ (lit_bits_bits n v) 0 _ _ _ _ _ _ H) as [-> F].
  rewrite lit_bits_length in F. cbn [shape_of BuildModel.decode_op]. unfold BuildModel.decode_literal.
  rewrite F. cbn [bind]. f_equal. f_equal. f_equal. f_equal. f_equal.
  destruct (lit_bits n v) as [|b l] eqn:L.
  - pose proof (lit_bits_length n v) as K. rewrite L in K. cbn in K. lia.
  - rewrite <- L. rewrite Z.mul_0_l, Z.add_0_l. apply bits_val_lit; [lia|].
    cbn in Ho. rewrite Z.min_l in Ho by lia. tauto.
Qed.

Lemma rel_decode_spell sizes ops : Forall (rel_op sizes) ops -> forall d t q d' t' q',
  BuildModel.decode_ops Release d t q (map shape_of (flat_map spell ops)) = Ok (flat_map spell ops, d', t', q') ->
  BuildModel.decode_ops Release d t q (map shape_of ops) = Ok (ops, d', t', q').
Proof.
  induction 1 as [|o ops Ho H IH]; intros d t q d' t' q' E; [exact E|].
  cbn [flat_map map] in *. rewrite map_app, rel_decode_app in E. cbn [BuildModel.decode_ops].
  destruct (BuildModel.decode_ops Release d t q (map shape_of (spell o))) as [[[[os d1] t1] q1]| |] eqn:E1;
    cbn [bind] in E; try discriminate.
  destruct (BuildModel.decode_ops Release d1 t1 q1 _) as [[[[os2 d2] t2] q2]| |] eqn:E2;
    cbn [bind] in E; try discriminate.
  injection E as Eo <- <- <-.
  pose proof (decode_ops_length _ _ _ _ _ _ _ _ E1) as L1. rewrite map_length in L1.
  assert (os = spell o /\ os2 = flat_map spell ops) as [-> ->].
  { split.
    - rewrite <- (firstn_all2 (n := length os) os) at 1 by lia.
      transitivity (firstn (length os) (os ++ os2)); [now rewrite firstn_app, Nat.sub_diag, firstn_O, app_nil_r|].
      rewrite Eo, L1, firstn_app, Nat.sub_diag, firstn_O, app_nil_r, firstn_all. reflexivity.
    - transitivity (skipn (length os) (os ++ os2)); [now rewrite skipn_app, skipn_all, Nat.sub_diag|].
      rewrite Eo, L1, skipn_app, skipn_all, Nat.sub_diag. reflexivity. }
  rewrite (rel_decode_spell_op sizes o _ _ _ _ _ _ Ho E1). cbn [bind]. rewrite (IH _ _ _ _ _ _ E2). reflexivity.
Qed.

Lemma rel_session sizes t ops c d out sz tail :
  valid_table sizes t -> Forall (rel_op sizes) ops -> fits ops ->
  0 <= bit_count c < 2 ^ 62 -> 0 <= sz < 2 ^ 28 -> is_bits tail ->
  exists c' t' D d' q',
    BuildModel.encode_session Release c t out ops = Ok (c', t', out ++ D) /\
    BuildModel.decode_session Release d t (D ++ tail) sz (map shape_of ops) = Ok (ops, d', t', q').
Proof.
  intros Ht Ho Hf Hc Hs Hb.
  assert (V : Forall (valid_op sizes) (flat_map spell ops)).
  { apply Forall_flat_map. apply Forall_forall. intros o Hin. apply spell_valid.
    exact (proj1 (Forall_forall _ _) Ho o Hin). }
  assert (F : fits (flat_map spell ops)) by (unfold fits in *; rewrite spell_fits; assumption).
  destruct (session_round_trip sizes t (flat_map spell ops) c d out sz tail Ht V F Hc Hs Hb)
    as (c' & t' & D & d' & used & rest & E & _ & _ & X).
  exists c', t', D, d', (rest ++ tail). split.
  - rewrite <- debug_encode_session in E. apply (le_ok _ _ _ (le_encode_session _ _ _ _)) in E.
    unfold BuildModel.encode_session in *. rewrite (rel_encode_spell sizes ops Ho) in E. exact E.
  - rewrite <- debug_decode_session in X. apply (le_ok _ _ _ (le_decode_session _ _ _ _ _)) in X. unfold BuildModel.decode_session in *.
    destruct (BuildModel.init_decoder Release d (D ++ tail) sz) as [[d0 q0]| |]; cbn [bind] in *; try discriminate.
    exact (rel_decode_spell sizes ops Ho _ _ _ _ _ _ X).
Qed.

Lemma le_same {A} (a b : res A) : le a b -> same_unless_panic a b.
Proof. intros [H|H] N; [contradiction|exact H]. Qed.
Lemma same_le {A} (a b : res A) : same_unless_panic a b -> le a b.
Proof. intros H. destruct a; [right; apply H; discriminate|now left|right; apply H; discriminate]. Qed.
