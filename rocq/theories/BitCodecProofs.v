(** Header codecs: every encoder appends a code word which its decoder reads. *)
From Coq Require Import ZArith List Bool Lia ZifyBool ZifyNat.
From Verif Require Import Base BaseProofs UtilModel UtilSpec UtilProofs BitsSpec BitsProofs
  RangeCoderModel RangeEncProofs BitCodecModel BitCodecSpec.
Import ListNotations.
Open Scope Z_scope.
Ltac Zify.zify_post_hook ::= Z.div_mod_to_equations.

Lemma bit_at_mod : forall v i, 0 <= i -> bit_at v i = (v / 2 ^ i) mod 2.
Proof. intros. unfold bit_at. rewrite land_1, shiftr_div by assumption. reflexivity. Qed.

Lemma push_range_ok : forall k width out v lo, 0 <= lo -> lo + Z.of_nat k <= width ->
  push_range width out v lo k = Ok (out ++ to_bits k (v / 2 ^ lo)).
Proof.
  induction k; intros width out v lo H0 H; cbn [push_range to_bits]; [rewrite app_nil_r; reflexivity|].
  rewrite shift_ok_ok by lia. cbn [bind]. rewrite IHk by lia. unfold push. rewrite <- app_assoc. cbn [app].
  rewrite bit_at_mod by lia. rewrite Z.pow_add_r by lia. rewrite <- Z.div_div by (try apply Z.pow_nonzero; try apply pow2_pos; lia).
  reflexivity.
Qed.

Lemma push_range_0 : forall k width out v, Z.of_nat k <= width ->
  push_range width out v 0 k = Ok (out ++ to_bits k v).
Proof. intros. rewrite push_range_ok by lia. change (2 ^ 0) with 1. rewrite Z.div_1_r. reflexivity. Qed.

Lemma push_range_overflow : forall k width out v lo, 0 <= lo -> 0 < Z.of_nat k -> width < lo + Z.of_nat k ->
  push_range width out v lo k = Panic.
Proof.
  intros k width out v lo H0 Hk H. destruct k; [lia|]. cbn [push_range]. rewrite shift_ok_bad by lia. reflexivity.
Qed.

Lemma read_u64_ok : forall l acc tail, is_bits l -> 0 <= acc -> (acc + 1) * 2 ^ Z.of_nat (length l) <= 2 ^ 64 ->
  read_u64 (length l) acc (l ++ tail) = Ok (acc * 2 ^ Z.of_nat (length l) + bits_val l, tail).
Proof.
  induction l as [|b l IH]; intros acc tail Hl Ha Hb.
  - cbn [length read_u64 app]. change (2 ^ Z.of_nat 0) with 1. rewrite bits_val_nil. f_equal. f_equal. lia.
  - apply is_bits_cons in Hl. destruct Hl as [Hbit Hl]. cbn [length read_u64 app pop bind] in *.
    rewrite pow2_S in Hb. pose proof (pow2_nat_pos (length l)) as Hp.
    assert (0 <= b <= 1) by (destruct Hbit; lia).
    rewrite shiftl_mul by lia. change (2 ^ 1) with 2.
    change (2 ^ 64) with 18446744073709551616 in *.
    rewrite as_u64_id by nia. rewrite chk_u64_ok by nia. cbn [bind].
    rewrite IH; [|assumption|lia|change (2 ^ 64) with 18446744073709551616; nia].
    rewrite bits_val_cons, pow2_S. f_equal. f_equal. lia.
Qed.

Lemma read_u64_0 : forall l tail, is_bits l -> (length l <= 64)%nat ->
  read_u64 (length l) 0 (l ++ tail) = Ok (bits_val l, tail).
Proof.
  intros l tail Hl H. rewrite read_u64_ok by (try assumption; try lia; rewrite Z.mul_1_l; apply pow2_le; lia).
  rewrite Z.mul_0_l. reflexivity.
Qed.

Lemma read_u64_to_bits : forall k v tail, (k <= 64)%nat -> 0 <= v < 2 ^ Z.of_nat k ->
  read_u64 k 0 (to_bits k v ++ tail) = Ok (v, tail).
Proof.
  intros k v tail Hk Hv. rewrite <- (to_bits_length k v) at 1.
  rewrite read_u64_0 by (try apply to_bits_bits; rewrite to_bits_length; lia).
  rewrite bits_val_to_bits_small by assumption. reflexivity.
Qed.

(** Inversion: whatever [read_u64] returns was read from the front of the queue. *)
Lemma read_u64_split : forall k acc q v q', read_u64 k acc q = Ok (v, q') -> exists l, length l = k /\ q = l ++ q'.
Proof.
  induction k; intros acc q v q' H; cbn [read_u64] in H; [inversion H; exists []; split; reflexivity|].
  apply bind_inv in H. destruct H as ([b r] & E & H). apply bind_inv in H. destruct H as (v' & _ & H).
  destruct q; [discriminate|]. inversion E; subst. destruct (IHk _ _ _ _ H) as (l & Hl & ->).
  exists (b :: l). split; [simpl; congruence|reflexivity].
Qed.

Lemma read_u64_inv : forall k q v q', is_bits q -> (k <= 64)%nat -> read_u64 k 0 q = Ok (v, q') ->
  q = to_bits k v ++ q' /\ 0 <= v < 2 ^ Z.of_nat k /\ is_bits q'.
Proof.
  intros k q v q' Hq Hk H. destruct (read_u64_split _ _ _ _ _ H) as (l & Hl & ->).
  apply is_bits_app in Hq. destruct Hq as [Hl2 Hq]. subst k.
  rewrite read_u64_0 in H by assumption. inversion H; subst.
  split; [rewrite to_bits_val by assumption; reflexivity|]. split; [apply bits_val_bound; assumption|assumption].
Qed.

(** ** f(n): push_bits_with_size *)
Lemma push_bits_with_size_ok : forall out v n, 0 <= n <= 32 ->
  push_bits_with_size out v n = Ok (out ++ to_bits (Z.to_nat n) v).
Proof. intros. unfold push_bits_with_size. apply push_range_0. lia. Qed.

(** ** uvlc *)
Definition uvlc_code (v : Z) : list Z :=
  let n := Z.to_nat (Z.log2 (v + 1)) in repeat 0 n ++ [1] ++ to_bits n (v + 1).

Lemma encode_uvlc_ok : forall out v, 0 <= v < 2 ^ 32 - 1 -> encode_uvlc out v = Ok (out ++ uvlc_code v).
Proof.
  intros out v Hv. change (2 ^ 32 - 1) with 4294967295 in Hv. unfold encode_uvlc.
  rewrite chk_u32_ok by lia. cbn [bind]. rewrite msb64_log2 by (change (2 ^ 64) with 18446744073709551616; lia).
  cbn [bind].
  assert (0 <= Z.log2 (v + 1) < 32) by (apply log2_bound; [lia|change (2 ^ 32) with 4294967296; lia]).
  rewrite push_range_0 by lia. rewrite push_n_ok. unfold push, uvlc_code. rewrite <- !app_assoc. reflexivity.
Qed.

Lemma uvlc_zeros_ok : forall k lz q, 0 <= lz -> lz + Z.of_nat k < 2 ^ 31 ->
  uvlc_zeros (repeat 0 k ++ 1 :: q) lz = Ok (lz + Z.of_nat k, q).
Proof.
  induction k; intros lz q H0 H; cbn [repeat app uvlc_zeros].
  - change (0 <? 1) with true. cbn iota. f_equal. f_equal. lia.
  - change (0 <? 0) with false. cbn iota. change (2 ^ 31) with 2147483648 in H.
    rewrite chk_i32_ok by lia. cbn [bind]. rewrite IHk; [f_equal; f_equal; lia|lia|change (2 ^ 31) with 2147483648; lia].
Qed.

Lemma decode_uvlc_ok : forall v tail, 0 <= v < 2 ^ 32 - 1 -> decode_uvlc (uvlc_code v ++ tail) = Ok (v, tail).
Proof.
  intros v tail Hv. change (2 ^ 32 - 1) with 4294967295 in Hv.
  assert (Hn : 0 <= Z.log2 (v + 1) < 32) by (apply log2_bound; [lia|change (2 ^ 32) with 4294967296; lia]).
  destruct (log2_is_floor (v + 1) ltac:(lia)) as [_ Hf].
  unfold decode_uvlc, uvlc_code. cbv zeta. rewrite <- !app_assoc. cbn [app].
  rewrite uvlc_zeros_ok by (try change (2 ^ 31) with 2147483648; lia). cbn [bind].
  rewrite Z2Nat.id by lia. rewrite Z.add_0_l.
  destruct (32 <=? Z.log2 (v + 1)) eqn:E; [lia|].
  set (n := Z.log2 (v + 1)) in *.
  rewrite Z.pow_add_r in Hf by lia. change (2 ^ 1) with 2 in Hf.
  assert (Hp : 2 ^ n < 4294967296). { change 4294967296 with (2 ^ 32). apply Z.pow_lt_mono_r; lia. }
  rewrite <- to_bits_mod. rewrite Z2Nat.id by lia.
  replace ((v + 1) mod 2 ^ n) with (v + 1 - 2 ^ n).
  2:{ symmetry. replace (v + 1) with ((v + 1 - 2 ^ n) + 1 * 2 ^ n) at 1 by lia.
      rewrite Z.mod_add by lia. apply Z.mod_small. lia. }
  rewrite read_u64_to_bits by (rewrite ?Z2Nat.id by lia; lia). cbn [bind].
  rewrite shiftl_mul by lia. rewrite Z.mul_1_l.
  rewrite chk_u64_ok by lia. cbn [bind]. rewrite chk_u64_ok by lia. cbn [bind].
  rewrite as_u32_id by lia. f_equal. f_equal. lia.
Qed.

Lemma uvlc_code_length : forall v, 0 <= v -> Z.of_nat (length (uvlc_code v)) = 2 * Z.log2 (v + 1) + 1.
Proof.
  intros. unfold uvlc_code. cbv zeta. rewrite !app_length, repeat_length, to_bits_length.
  pose proof (Z.log2_nonneg (v + 1)). cbn [length]. lia.
Qed.

Lemma uvlc_zeros_inv : forall q lz n r, is_bits q -> 0 <= lz -> uvlc_zeros q lz = Ok (n, r) ->
  lz <= n /\ q = repeat 0 (Z.to_nat (n - lz)) ++ 1 :: r /\ is_bits r.
Proof.
  induction q as [|b q IH]; intros lz n r Hq H0 H; [discriminate|]. cbn [uvlc_zeros] in H.
  apply is_bits_cons in Hq. destruct Hq as [Hb Hq]. destruct Hb as [-> | ->].
  - change (0 <? 0) with false in H. cbn iota in H. apply bind_inv in H. destruct H as (lz' & E & H).
    apply chk_inv in E. destruct E as [-> E]. destruct (IH (lz + 1) n r Hq ltac:(lia) H) as (A & -> & C).
    split; [lia|]. split; [|assumption]. replace (Z.to_nat (n - lz)) with (S (Z.to_nat (n - (lz + 1)))) by lia. reflexivity.
  - change (0 <? 1) with true in H. cbn iota in H. inversion H; subst. rewrite Z.sub_diag.
    split; [lia|]. split; [reflexivity|assumption].
Qed.

Lemma decode_uvlc_canonical : forall q v q', is_bits q -> decode_uvlc q = Ok (v, q') -> v <> 2 ^ 32 - 1 ->
  0 <= v < 2 ^ 32 - 1 /\ q = uvlc_code v ++ q'.
Proof.
  intros q v q' Hq H Hv. unfold decode_uvlc in H. apply bind_inv in H. destruct H as ([n r] & E & H).
  destruct (uvlc_zeros_inv _ _ _ _ Hq (Z.le_refl 0) E) as (Hn & -> & Hr). rewrite Z.sub_0_r.
  destruct (32 <=? n) eqn:L; [exfalso; inversion H; subst; apply Hv; reflexivity|].
  apply bind_inv in H. destruct H as ([w r2] & E2 & H).
  destruct (read_u64_inv (Z.to_nat n) _ _ _ Hr ltac:(lia) E2) as (-> & Hw & Hr2). rewrite Z2Nat.id in Hw by lia.
  rewrite shiftl_mul, Z.mul_1_l in H by lia.
  assert (Hp : 1 <= 2 ^ n <= 2147483648).
  { split; [pose proof (pow2_pos n Hn); lia|]. change 2147483648 with (2 ^ 31). apply pow2_le. lia. }
  rewrite chk_u64_ok in H by lia. cbn [bind] in H. rewrite chk_u64_ok in H by lia. cbn [bind] in H.
  rewrite as_u32_id in H by lia. inversion H; subst; clear H. change (2 ^ 32 - 1) with 4294967295.
  split; [lia|].
  assert (Hl : Z.log2 (w + 2 ^ n - 1 + 1) = n).
  { apply floor_log2_unique. split; [lia|]. rewrite Z.pow_add_r by lia. lia. }
  unfold uvlc_code. rewrite Hl. cbv zeta. rewrite <- !app_assoc. cbn [app]. f_equal. f_equal.
  rewrite <- (to_bits_mod (Z.to_nat n) (w + 2 ^ n - 1 + 1)). rewrite Z2Nat.id by lia.
  replace (w + 2 ^ n - 1 + 1) with (w + 1 * 2 ^ n) by lia. rewrite Z.mod_add by lia. rewrite Z.mod_small by lia. reflexivity.
Qed.

(** Exhausted queue: the loop runs for ever. *)
Lemma uvlc_hang : forall k lz, 0 <= lz -> lz + Z.of_nat k < 2 ^ 31 -> uvlc_zeros (repeat 0 k) lz = Hang.
Proof.
  induction k; intros lz H0 H; [reflexivity|]. cbn [repeat uvlc_zeros]. change (0 <? 0) with false. cbn iota.
  change (2 ^ 31) with 2147483648 in H.
  rewrite chk_i32_ok by lia. cbn [bind]. apply IHk; [lia|change (2 ^ 31) with 2147483648; lia].
Qed.

(** ** le(n) *)
Fixpoint le_code (k : nat) (v : Z) : list Z :=
  match k with
  | O => []
  | S k' => to_bits 8 v ++ le_code k' (v / 256)
  end.

Lemma encode_le_loop_ok : forall k i out v, 0 <= i -> i + Z.of_nat k <= 8 -> 0 <= v ->
  encode_le_loop k i out v = Ok (out ++ le_code k (v / 2 ^ (8 * i))).
Proof.
  induction k; intros i out v H0 H Hv; cbn [encode_le_loop le_code]; [rewrite app_nil_r; reflexivity|].
  rewrite chk_u8_ok by lia. cbn [bind]. rewrite shift_ok_ok by lia. cbn [bind].
  rewrite shiftr_div by lia. change 255 with (2 ^ 8 - 1). rewrite land_ones_mod by lia.
  rewrite as_u8_id by (change (2 ^ 8) with 256; lia). rewrite push_range_0 by lia. cbn [bind].
  rewrite IHk by lia. rewrite <- app_assoc. f_equal. f_equal. replace (i * 8) with (8 * i) by lia.
  rewrite (to_bits_mod 8). f_equal. f_equal.
  change 256 with (2 ^ 8). rewrite Z.div_div by (try apply Z.pow_nonzero; try apply pow2_pos; lia).
  rewrite <- Z.pow_add_r by lia. f_equal. f_equal. lia.
Qed.

Lemma encode_le_ok : forall out v n, 0 <= n <= 8 -> 0 <= v -> encode_le out v n = Ok (out ++ le_code (Z.to_nat n) v).
Proof.
  intros. unfold encode_le. rewrite encode_le_loop_ok by lia. change (2 ^ (8 * 0)) with 1. rewrite Z.div_1_r. reflexivity.
Qed.

Lemma read_u8_ok : forall l acc tail, is_bits l -> 0 <= acc -> (acc + 1) * 2 ^ Z.of_nat (length l) <= 2 ^ 8 ->
  read_u8 (length l) acc (l ++ tail) = Ok (acc * 2 ^ Z.of_nat (length l) + bits_val l, tail).
Proof.
  induction l as [|b l IH]; intros acc tail Hl Ha Hb.
  - cbn [length read_u8 app]. change (2 ^ Z.of_nat 0) with 1. rewrite bits_val_nil. f_equal. f_equal. lia.
  - apply is_bits_cons in Hl. destruct Hl as [Hbit Hl]. cbn [length read_u8 app pop bind] in *.
    rewrite pow2_S in Hb. pose proof (pow2_nat_pos (length l)) as Hp.
    assert (0 <= b <= 1) by (destruct Hbit; lia).
    rewrite shiftl_mul by lia. change (2 ^ 1) with 2.
    change (2 ^ 8) with 256 in *.
    rewrite as_u8_id by nia. rewrite chk_u8_ok by nia. cbn [bind].
    rewrite IH; [|assumption|lia|change (2 ^ 8) with 256; nia].
    rewrite bits_val_cons, pow2_S. f_equal. f_equal. lia.
Qed.

Lemma read_u8_to_bits : forall v tail, 0 <= v -> read_u8 8 0 (to_bits 8 v ++ tail) = Ok (v mod 256, tail).
Proof.
  intros v tail Hv. pose proof (read_u8_ok (to_bits 8 v) 0 tail (to_bits_bits 8 v)) as H.
  rewrite to_bits_length in H. rewrite H by (try lia; reflexivity || lia). rewrite bits_val_to_bits. reflexivity.
Qed.

Lemma decode_le_loop_ok : forall k i t v tail, 0 <= i -> i + Z.of_nat k <= 8 -> 0 <= v < 2 ^ (8 * Z.of_nat k) ->
  0 <= t < 2 ^ (8 * i) ->
  decode_le_loop k i t (le_code k v ++ tail) = Ok (t + v * 2 ^ (8 * i), tail).
Proof.
  induction k; intros i t v tail H0 H Hv Ht; cbn [decode_le_loop le_code].
  - assert (v = 0) by (change (2 ^ (8 * Z.of_nat 0)) with 1 in Hv; lia). subst. cbn [app]. f_equal. f_equal. lia.
  - rewrite <- app_assoc. rewrite read_u8_to_bits by lia. cbn [bind].
    rewrite chk_u8_ok by lia. cbn [bind]. rewrite shift_ok_ok by lia. cbn [bind].
    rewrite shiftl_mul by lia. replace (i * 8) with (8 * i) by lia.
    assert (Hp : 2 ^ (8 * i) * 256 <= 2 ^ 64).
    { change 256 with (2 ^ 8). rewrite <- Z.pow_add_r by lia. apply pow2_le. lia. }
    change (2 ^ 64) with 18446744073709551616 in Hp.
    set (p := 2 ^ (8 * i)) in *. set (lo := v mod 256).
    assert (Hlo : 0 <= lo < 256) by (subst lo; lia).
    assert (Hlp : 0 <= lo * p <= 255 * p) by nia.
    rewrite as_u64_id by lia. rewrite chk_u64_ok by lia. cbn [bind].
    assert (Hp1 : 2 ^ (8 * (i + 1)) = p * 256).
    { subst p. replace (8 * (i + 1)) with (8 * i + 8) by lia. rewrite Z.pow_add_r by lia. reflexivity. }
    rewrite IHk; [|lia|lia| |rewrite Hp1; lia].
    + rewrite Hp1. f_equal. f_equal. subst lo. rewrite (Z.div_mod v 256) at 3 by lia. lia.
    + replace (8 * Z.of_nat (S k)) with (8 * Z.of_nat k + 8) in Hv by lia. rewrite Z.pow_add_r in Hv by lia.
      change (2 ^ 8) with 256 in Hv. lia.
Qed.

Lemma decode_le_ok : forall v n tail, 0 <= n <= 8 -> 0 <= v < 256 ^ n ->
  decode_le (le_code (Z.to_nat n) v ++ tail) n = Ok (v, tail).
Proof.
  intros v n tail Hn Hv. unfold decode_le. change 256 with (2 ^ 8) in Hv. rewrite <- Z.pow_mul_r in Hv by lia.
  rewrite decode_le_loop_ok; try lia.
  - change (2 ^ (8 * 0)) with 1. f_equal. f_equal. lia.
  - rewrite Z2Nat.id by lia. lia.
Qed.

Lemma le_code_length : forall k v, length (le_code k v) = (8 * k)%nat.
Proof. induction k; intros; [reflexivity|]. cbn [le_code]. rewrite app_length, to_bits_length, IHk. lia. Qed.

Lemma le_code_bits : forall k v, is_bits (le_code k v).
Proof. induction k; intros; [constructor|]. cbn [le_code]. apply is_bits_app. split; [apply to_bits_bits|apply IHk]. Qed.

Lemma le_code_val : forall k v, 0 <= v < 256 ^ Z.of_nat k -> le_val k (le_code k v) = v.
Proof.
  induction k; intros v Hv; [change (256 ^ Z.of_nat 0) with 1 in Hv; cbn; lia|].
  cbn [le_val le_code].
  assert (L : length (to_bits 8 v) = 8%nat) by apply to_bits_length.
  rewrite firstn_app, L, Nat.sub_diag, firstn_O, app_nil_r, firstn_all2 by lia.
  rewrite skipn_app, L, Nat.sub_diag, skipn_O, skipn_all2 by lia. cbn [app].
  rewrite bits_val_to_bits. change (2 ^ Z.of_nat 8) with 256.
  rewrite Nat2Z.inj_succ, Z.pow_succ_r in Hv by lia. rewrite IHk by lia. lia.
Qed.

Lemma read_u8_split : forall k acc q v q', read_u8 k acc q = Ok (v, q') -> exists l, length l = k /\ q = l ++ q'.
Proof.
  induction k; intros acc q v q' H; cbn [read_u8] in H; [inversion H; exists []; split; reflexivity|].
  apply bind_inv in H. destruct H as ([b r] & E & H). apply bind_inv in H. destruct H as (v' & _ & H).
  destruct q; [discriminate|]. inversion E; subst. destruct (IHk _ _ _ _ H) as (l & Hl & ->).
  exists (b :: l). split; [simpl; congruence|reflexivity].
Qed.

Lemma decode_le_split : forall k i t q v q', is_bits q -> 0 <= i -> i + Z.of_nat k <= 8 ->
  decode_le_loop k i t q = Ok (v, q') -> exists w, 0 <= w < 2 ^ (8 * Z.of_nat k) /\ q = le_code k w ++ q'.
Proof.
  induction k; intros i t q v q' Hq H0 H8 H; cbn [decode_le_loop] in H.
  - inversion H; subst. exists 0. split; [cbn; lia|reflexivity].
  - apply bind_inv in H. destruct H as ([b r] & E & H). destruct (read_u8_split _ _ _ _ _ E) as (l & Hl & ->).
    apply is_bits_app in Hq. destruct Hq as [Hl2 Hr].
    pose proof (read_u8_ok l 0 r Hl2 ltac:(lia) ltac:(rewrite Hl; cbn; lia)) as E2. rewrite Hl in E2.
    do 3 (apply bind_inv in H; destruct H as (? & _ & H)).
    destruct (IHk (i + 1) _ _ _ _ Hr ltac:(lia) ltac:(lia) H) as (w & Hw & ->).
    pose proof (bits_val_bound l Hl2) as Hb. rewrite Hl in Hb. change (2 ^ Z.of_nat 8) with 256 in Hb.
    exists (bits_val l + 256 * w). replace (8 * Z.of_nat (S k)) with (8 * Z.of_nat k + 8) by lia.
    rewrite Z.pow_add_r by lia. change (2 ^ 8) with 256. split; [lia|]. cbn [le_code]. rewrite <- app_assoc.
    replace ((bits_val l + 256 * w) / 256) with w by lia. f_equal.
    rewrite <- (to_bits_mod 8). change (2 ^ Z.of_nat 8) with 256. replace ((bits_val l + 256 * w) mod 256) with (bits_val l) by lia.
    rewrite <- Hl. symmetry. apply to_bits_val. assumption.
Qed.

Lemma decode_le_canonical : forall q n v q', is_bits q -> 0 <= n <= 8 -> decode_le q n = Ok (v, q') ->
  0 <= v < 256 ^ n /\ q = le_code (Z.to_nat n) v ++ q'.
Proof.
  intros q n v q' Hq Hn H. unfold decode_le in H.
  destruct (decode_le_split (Z.to_nat n) 0 _ _ _ _ Hq (Z.le_refl 0) ltac:(lia) H) as (w & Hw & ->).
  rewrite Z2Nat.id in Hw by lia. rewrite Z.pow_mul_r in Hw by lia. change (2 ^ 8) with 256 in Hw.
  assert (E := decode_le_ok w n q' Hn Hw). unfold decode_le in E. rewrite H in E. inversion E; subst. split; [assumption|reflexivity].
Qed.

(** ** su(n) *)
Definition su_code (n : nat) (v : Z) : list Z := to_bits n (v mod 2 ^ Z.of_nat n).

Lemma encode_su_ok : forall out v n, 1 <= n <= 62 -> - 2 ^ (n - 1) <= v < 2 ^ (n - 1) ->
  encode_su out v n = Ok (out ++ su_code (Z.to_nat n) v).
Proof.
  intros out v n Hn Hv. unfold encode_su, su_code.
  assert (Hp : 1 <= 2 ^ (n - 1) <= 2 ^ 61). { split; [pose proof (pow2_pos (n - 1)); lia|apply pow2_le; lia]. }
  change (2 ^ 61) with 2305843009213693952 in Hp.
  rewrite chk_u8_ok by lia. cbn [bind].
  replace (Z.to_nat n) with (S (Z.to_nat (n - 1))) by lia. rewrite pow2_S. rewrite Z2Nat.id by lia.
  cbn [to_bits]. rewrite Z2Nat.id by lia. set (p := 2 ^ (n - 1)) in *.
  destruct (v <? 0) eqn:E.
  - rewrite shift_ok_ok by lia. cbn [bind]. rewrite shiftl_mul, Z.mul_1_l by lia. fold p.
    rewrite as_i64_id by lia. rewrite chk_i64_ok by lia. cbn [bind]. rewrite chk_i64_ok by lia. cbn [bind].
    rewrite as_u64_id by lia. rewrite push_range_0 by lia. unfold push. rewrite <- app_assoc. cbn [app].
    replace (v mod (2 * p)) with (v + 2 * p).
    2:{ replace v with ((v + 2 * p) + (-1) * (2 * p)) at 2 by lia. rewrite Z.mod_add by lia. symmetry. apply Z.mod_small. lia. }
    f_equal. f_equal. f_equal. cbn [b2z].
    assert (D : (v + 2 * p) / p = 1). { symmetry. apply Z.div_unique with (r := v + p); lia. }
    rewrite D. reflexivity.
  - rewrite push_range_0 by lia. unfold push. rewrite <- app_assoc. cbn [app].
    rewrite (Z.mod_small v (2 * p)) by lia. cbn [b2z]. rewrite (Z.div_small v p) by lia. reflexivity.
Qed.

Lemma land_pow2_bit : forall v k, 0 <= k -> Z.land v (2 ^ k) = (v / 2 ^ k) mod 2 * 2 ^ k.
Proof.
  intros v k Hk. apply Z.bits_inj'. intros i Hi. rewrite Z.land_spec, Z.pow2_bits_eqb by lia.
  rewrite Z.mul_pow2_bits by lia.
  destruct (Z.eqb_spec k i) as [->|N].
  - rewrite Z.sub_diag, andb_true_r.
    rewrite (Z.testbit_spec' v i) || idtac.
    rewrite <- (Z.add_0_l i) at 1. rewrite <- Z.div_pow2_bits by lia.
    set (w := v / 2 ^ i). rewrite !Z.bit0_odd. rewrite (Z.div_mod w 2) at 1 by lia.
    rewrite Z.odd_add. rewrite Z.odd_mul. cbn [Z.odd]. rewrite andb_false_l. rewrite xorb_false_l. reflexivity.
  - rewrite andb_false_r. symmetry. destruct (Z_lt_le_dec i k); [apply Z.testbit_neg_r; lia|].
    assert (B : 0 <= (v / 2 ^ k) mod 2 < 2) by lia. set (x := (v / 2 ^ k) mod 2) in *.
    destruct (Z.eq_dec x 0) as [->|X]; [apply Z.bits_0|]. replace x with 1 by lia.
    replace 1 with (2 ^ 0) by reflexivity. rewrite Z.pow2_bits_eqb by lia. apply Z.eqb_neq. lia.
Qed.

Lemma decode_su_raw : forall n D tail, 1 <= n <= 62 -> is_bits D -> length D = Z.to_nat n ->
  decode_su (D ++ tail) n = Ok (twos_val D, tail).
Proof.
  intros n D tail Hn HD HL. unfold decode_su. rewrite <- HL. rewrite read_u64_0 by (try assumption; lia). cbn [bind].
  rewrite chk_u8_ok by lia. cbn [bind]. rewrite shift_ok_ok by lia. cbn [bind].
  rewrite shiftl_mul, Z.mul_1_l by lia. rewrite land_pow2_bit by lia.
  assert (Hp : 1 <= 2 ^ (n - 1) <= 2 ^ 61). { split; [pose proof (pow2_pos (n - 1)); lia|apply pow2_le; lia]. }
  change (2 ^ 61) with 2305843009213693952 in Hp.
  destruct D as [|b r]; [simpl in HL; lia|]. cbn [length] in HL. cbn [twos_val].
  apply is_bits_cons in HD. destruct HD as [Hb Hr]. pose proof (bits_val_bound r Hr) as Hv.
  rewrite bits_val_cons. replace (Z.of_nat (length r)) with (n - 1) in * by lia.
  set (p := 2 ^ (n - 1)) in *.
  assert (Dv : (b * p + bits_val r) / p = b).
  { symmetry. apply Z.div_unique with (r := bits_val r); lia. }
  rewrite Dv. destruct Hb as [-> | ->].
  - change (0 mod 2 * p) with 0. change (0 <? 0) with false. cbn iota. rewrite as_i64_id by lia. f_equal. f_equal. lia.
  - change (1 mod 2) with 1. rewrite Z.mul_1_l. destruct (0 <? p) eqn:E; [|lia].
    rewrite (as_i64_id p) by lia. rewrite chk_i64_ok by lia. cbn [bind]. rewrite as_i64_id by lia.
    rewrite chk_i64_ok by lia. cbn [bind]. f_equal. f_equal. lia.
Qed.

Lemma su_code_val : forall n v, 1 <= n -> - 2 ^ (n - 1) <= v < 2 ^ (n - 1) -> twos_val (su_code (Z.to_nat n) v) = v.
Proof.
  intros n v Hn Hv. unfold su_code. assert (Hp := pow2_pos (n - 1) ltac:(lia)).
  replace (Z.to_nat n) with (S (Z.to_nat (n - 1))) by lia. rewrite pow2_S. cbn [to_bits twos_val].
  rewrite to_bits_length, bits_val_to_bits. rewrite Z2Nat.id by lia. set (p := 2 ^ (n - 1)) in *.
  destruct (Z_lt_le_dec v 0).
  - replace (v mod (2 * p)) with (v + 2 * p).
    2:{ replace v with ((v + 2 * p) + (-1) * (2 * p)) at 2 by lia. rewrite Z.mod_add by lia. symmetry. apply Z.mod_small. lia. }
    assert (D : (v + 2 * p) / p = 1). { symmetry. apply Z.div_unique with (r := v + p); lia. }
    rewrite D. replace ((v + 2 * p) mod p) with (v + p). 2:{ apply Z.mod_unique with (q := 1); lia. }
    change (1 mod 2) with 1. lia.
  - rewrite (Z.mod_small v (2 * p)) by lia. rewrite (Z.div_small v p) by lia. rewrite (Z.mod_small v p) by lia.
    change (0 mod 2) with 0. lia.
Qed.

Lemma decode_su_ok : forall v n tail, 1 <= n <= 62 -> - 2 ^ (n - 1) <= v < 2 ^ (n - 1) ->
  decode_su (su_code (Z.to_nat n) v ++ tail) n = Ok (v, tail).
Proof.
  intros v n tail Hn Hv. rewrite decode_su_raw; [|assumption|apply to_bits_bits|apply to_bits_length].
  rewrite su_code_val by (try assumption; lia). reflexivity.
Qed.

Lemma twos_val_range : forall D, is_bits D -> D <> [] ->
  - 2 ^ (Z.of_nat (length D) - 1) <= twos_val D < 2 ^ (Z.of_nat (length D) - 1).
Proof.
  intros [|b r] H Hn; [contradiction|]. apply is_bits_cons in H. destruct H as [Hb Hr].
  pose proof (bits_val_bound r Hr). cbn [twos_val length]. replace (Z.of_nat (S (length r)) - 1) with (Z.of_nat (length r)) by lia.
  destruct Hb as [-> | ->]; lia.
Qed.

Lemma su_code_twos : forall D, is_bits D -> D <> [] -> su_code (length D) (twos_val D) = D.
Proof.
  intros D H Hn. pose proof (twos_val_range D H Hn) as Hr.
  apply bits_val_inj; [apply to_bits_bits|assumption|apply to_bits_length|].
  unfold su_code. rewrite bits_val_to_bits, Z.mod_mod by (pose proof (pow2_nat_pos (length D)); lia).
  pose proof (bits_val_bound D H) as Hb.
  destruct D as [|b r]; [contradiction|]. cbn [twos_val length] in *. rewrite bits_val_cons in *. rewrite pow2_S in *.
  apply is_bits_cons in H. destruct H as [Hbit Hrr]. set (p := 2 ^ Z.of_nat (length r)) in *.
  replace (bits_val r - b * p) with ((b * p + bits_val r) + (- b) * (2 * p)) by lia.
  rewrite Z.mod_add by lia. apply Z.mod_small. lia.
Qed.

Lemma decode_su_canonical : forall q n v q', is_bits q -> 1 <= n <= 62 -> decode_su q n = Ok (v, q') ->
  - 2 ^ (n - 1) <= v < 2 ^ (n - 1) /\ q = su_code (Z.to_nat n) v ++ q'.
Proof.
  intros q n v q' Hq Hn H. assert (H' := H). unfold decode_su in H'. apply bind_inv in H'. destruct H' as ([w r] & E & H').
  destruct (read_u64_split _ _ _ _ _ E) as (l & Hl & ->). clear H'.
  apply is_bits_app in Hq. destruct Hq as [Hl2 Hr].
  rewrite decode_su_raw in H by assumption. inversion H; subst.
  assert (l <> []) by (intro; subst; simpl in Hl; lia).
  rewrite <- Hl. rewrite su_code_twos by assumption. pose proof (twos_val_range l Hl2 H0) as Hr2.
  replace (Z.of_nat (length l) - 1) with (n - 1) in Hr2 by lia. split; [assumption|reflexivity].
Qed.

(** ** ns(n) *)
Definition ns_code (n v : Z) : list Z :=
  let w := Z.log2 n + 1 in
  let m := 2 ^ w - n in
  if v <? m then to_bits (Z.to_nat (w - 1)) v else to_bits (Z.to_nat w) (v + m).

Lemma ns_facts : forall n, 1 <= n < 2 ^ 63 ->
  let w := Z.log2 n + 1 in let m := 2 ^ w - n in
  1 <= w <= 63 /\ 2 ^ w = 2 * 2 ^ (w - 1) /\ 2 ^ (w - 1) <= n < 2 ^ w /\ 1 <= m <= 2 ^ (w - 1) /\ 2 ^ w <= 2 ^ 63.
Proof.
  intros n Hn w m. destruct (log2_is_floor n ltac:(lia)) as [H0 Hf].
  assert (Z.log2 n < 63) by (apply log2_bound; lia).
  subst w m. replace (Z.log2 n + 1 - 1) with (Z.log2 n) by lia.
  assert (2 ^ (Z.log2 n + 1) = 2 * 2 ^ Z.log2 n) by (rewrite Z.pow_add_r by lia; lia).
  repeat split; try lia. apply pow2_le. lia.
Qed.

Lemma encode_ns_ok : forall out v n, 1 <= n < 2 ^ 63 -> 0 <= v < n ->
  encode_ns out v n = Ok (out ++ ns_code n v).
Proof.
  intros out v n Hn Hv. destruct (ns_facts n Hn) as (Hw & Hw2 & Hwn & Hm & H63).
  unfold encode_ns, ns_code. cbv zeta.
  rewrite FloorLog2_ok by (change (2 ^ 64) with 18446744073709551616; change (2 ^ 63) with 9223372036854775808 in *; lia).
  cbn [bind]. change (2 ^ 63) with 9223372036854775808 in *.
  rewrite chk_u64_ok by lia. cbn [bind]. rewrite shift_ok_ok by lia. cbn [bind].
  rewrite shiftl_mul, Z.mul_1_l by lia. rewrite chk_u64_ok by lia. cbn [bind].
  set (w := Z.log2 n + 1) in *. set (m := 2 ^ w - n) in *.
  destruct (v <? m) eqn:E.
  - rewrite push_range_0 by lia. reflexivity.
  - rewrite chk_u64_ok by lia. cbn [bind]. rewrite push_range_ok by lia. cbn [bind].
    unfold push. rewrite <- app_assoc. rewrite land_1. change (2 ^ 1) with 2.
    replace (Z.to_nat w) with (S (Z.to_nat (w - 1))) by lia. rewrite to_bits_snoc. reflexivity.
Qed.

Lemma decode_ns_ok : forall v n tail, 1 <= n < 2 ^ 63 -> 0 <= v < n ->
  decode_ns (ns_code n v ++ tail) n = Ok (v, tail).
Proof.
  intros v n tail Hn Hv. destruct (ns_facts n Hn) as (Hw & Hw2 & Hwn & Hm & H63).
  unfold decode_ns, ns_code. cbv zeta.
  rewrite FloorLog2_ok by (change (2 ^ 64) with 18446744073709551616; change (2 ^ 63) with 9223372036854775808 in *; lia).
  cbn [bind]. change (2 ^ 63) with 9223372036854775808 in *.
  rewrite chk_u64_ok by lia. cbn [bind]. rewrite shift_ok_ok by lia. cbn [bind].
  rewrite shiftl_mul, Z.mul_1_l by lia. rewrite chk_u64_ok by lia. cbn [bind].
  set (w := Z.log2 n + 1) in *. set (m := 2 ^ w - n) in *.
  destruct (v <? m) eqn:E.
  - rewrite read_u64_to_bits by (rewrite ?Z2Nat.id by lia; lia). cbn [bind]. rewrite E. reflexivity.
  - replace (Z.to_nat w) with (S (Z.to_nat (w - 1))) by lia. rewrite to_bits_snoc, <- app_assoc.
    rewrite read_u64_to_bits by (rewrite ?Z2Nat.id by lia; lia). cbn [bind].
    destruct ((v + m) / 2 <? m) eqn:E2; [lia|]. cbn [app pop bind].
    rewrite shiftl_mul by lia. change (2 ^ 1) with 2. rewrite as_u64_id by lia.
    rewrite chk_u64_ok by lia. cbn [bind]. rewrite chk_u64_ok by lia. cbn [bind]. f_equal. f_equal. lia.
Qed.

Lemma ns_code_length : forall n v, 1 <= n < 2 ^ 63 ->
  Z.of_nat (length (ns_code n v)) = if v <? 2 ^ (Z.log2 n + 1) - n then Z.log2 n else Z.log2 n + 1.
Proof.
  intros n v Hn. pose proof (Z.log2_nonneg n). unfold ns_code. cbv zeta.
  destruct (v <? 2 ^ (Z.log2 n + 1) - n); rewrite to_bits_length; lia.
Qed.

Lemma ns_code_bits : forall n v, is_bits (ns_code n v).
Proof. intros. unfold ns_code. cbv zeta. destruct (v <? _); apply to_bits_bits. Qed.

Lemma decode_ns_canonical : forall q n v q', is_bits q -> 1 <= n < 2 ^ 63 -> decode_ns q n = Ok (v, q') ->
  0 <= v < n /\ q = ns_code n v ++ q'.
Proof.
  intros q n v q' Hq Hn H. destruct (ns_facts n Hn) as (Hw & Hw2 & Hwn & Hm & H63).
  unfold decode_ns in H. 
  rewrite FloorLog2_ok in H by (change (2 ^ 64) with 18446744073709551616; change (2 ^ 63) with 9223372036854775808 in *; lia).
  cbn [bind] in H. change (2 ^ 63) with 9223372036854775808 in *.
  rewrite chk_u64_ok in H by lia. cbn [bind] in H. rewrite shift_ok_ok in H by lia. cbn [bind] in H.
  rewrite shiftl_mul, Z.mul_1_l in H by lia. rewrite chk_u64_ok in H by lia. cbn [bind] in H.
  unfold ns_code. cbv zeta.
  set (w := Z.log2 n + 1) in *. set (m := 2 ^ w - n) in *.
  apply bind_inv in H. destruct H as ([x r] & E & H).
  destruct (read_u64_inv (Z.to_nat (w - 1)) _ _ _ Hq ltac:(lia) E) as (-> & Hx & Hr). rewrite Z2Nat.id in Hx by lia.
  destruct (x <? m) eqn:L.
  - inversion H; subst. rewrite L. split; [lia|reflexivity].
  - apply bind_inv in H. destruct H as ([b r2] & E2 & H). destruct r as [|b' r']; [discriminate|]. inversion E2; subst.
    apply is_bits_cons in Hr. destruct Hr as [Hb Hr]. assert (0 <= b <= 1) by (destruct Hb; lia).
    rewrite shiftl_mul in H by lia. change (2 ^ 1) with 2 in H. rewrite as_u64_id in H by lia.
    rewrite chk_u64_ok in H by lia. cbn [bind] in H. rewrite chk_u64_ok in H by lia. cbn [bind] in H. inversion H; subst.
    split; [lia|]. destruct (x * 2 - m + b <? m) eqn:L2; [lia|].
    replace (Z.to_nat w) with (S (Z.to_nat (w - 1))) by lia. rewrite to_bits_snoc, <- app_assoc.
    replace ((x * 2 - m + b + m) / 2) with x by lia. replace ((x * 2 - m + b + m) mod 2) with b by lia. reflexivity.
Qed.
