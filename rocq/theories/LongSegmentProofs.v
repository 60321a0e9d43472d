(** What the session theorem for any length gives: round trip, lockstep, size,
    alignment, position after decoding, injectivity; and the sizes for which the
    decoder cannot even start. *)
From Coq Require Import ZArith List Bool Lia ZifyBool ZifyNat Sorted.
From Verif Require Import Base BaseProofs UtilModel UtilProofs BitsSpec BitsProofs
  RangeCoderModel RangeCoderSpec CdfProofs RangeEncProofs RangeDecProofs SessionModel SessionSpec SessionProofs
  SegmentProofs LongSessionProofs.
Import ListNotations.
Open Scope Z_scope.
Ltac Zify.zify_post_hook ::= Z.div_mod_to_equations.

Lemma long_round_trip : forall sizes t ops c out c' t' o,
  valid_table sizes t -> Forall (valid_op sizes) ops -> 0 <= bit_count c < 2 ^ 62 ->
  encode_session c t out ops = Ok (c', t', o) -> Z.of_nat (length o) < Z.of_nat (length out) + 2 ^ 31 ->
  exists D used rest, o = out ++ D /\ D = used ++ rest /\ is_bits D /\
    forall d sz tail, 0 <= sz < 2 ^ 28 -> 2 * Z.of_nat (length D) <= 8 * sz + 2 ^ 31 -> is_bits tail ->
      exists d', decode_session d t (D ++ tail) sz (map shape_of ops) = Ok (ops, d', t', rest ++ tail).
Proof.
  intros sizes t ops c out c' t' o Ht Ho Hb E Hl.
  destruct (long_session _ _ _ _ _ _ _ _ Ht Ho Hb E Hl) as (D & n & pad & -> & -> & HD & _ & _ & HlD & _ & _ & X).
  exists D, (firstn (n + 15) D), (skipn (n + 15) D).
  split; [reflexivity|]. split; [symmetry; apply firstn_skipn|]. split; [assumption|].
  intros d sz tail Hs Hm Htl. destruct (X d sz tail Hs ltac:(lia) Htl) as (d' & F & _). exists d'. exact F.
Qed.

Lemma long_adaptive : forall sizes t ops f c d out c' t' D sz tail,
  valid_table sizes t -> Forall (valid_op sizes) ops -> 0 <= bit_count c < 2 ^ 62 ->
  encode_session c t out ops = Ok (c', t', out ++ D) ->
  Z.of_nat (length D) <= 8 * sz -> 0 <= sz < 2 ^ 28 -> is_bits tail -> follows f ops ->
  exists d0 q0 d' q',
    init_decoder d (D ++ tail) sz = Ok (d0, q0) /\
    decode_adaptive (length ops) f [] d0 t q0 = Ok (ops, d', t', q').
Proof.
  intros sizes t ops f c d out c' t' D sz tail Ht Ho Hb E Hl Hs Htl Hfo.
  destruct (long_round_trip _ _ _ _ _ _ _ _ Ht Ho Hb E) as (D' & used & rest & ED & _ & _ & X).
  { rewrite app_length. lia. }
  apply app_inv_head in ED. subst D'. destruct (X d sz tail Hs ltac:(lia) Htl) as (d' & F).
  unfold decode_session in F. apply bind_inv in F. destruct F as ([d0 q0] & F0 & F).
  exists d0, q0, d', (rest ++ tail). split; [assumption|].
  apply (decode_adaptive_ok ops f [] d0 t q0 ops d' t' (rest ++ tail)); [|assumption|reflexivity].
  intros h o' r Hr. apply (Hfo h o' r Hr).
Qed.

Lemma encode_ops_app : forall ops1 ops2 c t out c' t' out',
  encode_ops c t out (ops1 ++ ops2) = Ok (c', t', out') ->
  exists c1 t1 out1, encode_ops c t out ops1 = Ok (c1, t1, out1) /\ encode_ops c1 t1 out1 ops2 = Ok (c', t', out').
Proof.
  induction ops1 as [|o ops1 IH]; intros ops2 c t out c' t' out' E.
  - exists c, t, out. split; [reflexivity|exact E].
  - cbn [app encode_ops] in *. apply bind_inv in E. destruct E as ([[ca ta] oa] & Ea & E).
    destruct (IH _ _ _ _ _ _ _ E) as (c1 & t1 & out1 & E1 & E2). exists c1, t1, out1.
    rewrite Ea. cbn [bind]. split; assumption.
Qed.

Lemma decode_tables : forall sizes ops t d q d' t' q', valid_table sizes t -> Forall (valid_op sizes) ops ->
  decode_ops d t q (map shape_of ops) = Ok (ops, d', t', q') -> t' = tables_after t ops.
Proof.
  intros sizes. induction ops as [|o ops IH]; intros t d q d' t' q' Ht Ho H; [inversion H; reflexivity|].
  inversion Ho; subst. cbn [map decode_ops tables_after] in *.
  apply bind_inv in H. destruct H as ([[[o1 ca] ta] qa] & E & H).
  apply bind_inv in H. destruct H as ([[[os' cb] tb] qb] & E2 & H). inversion H; subst; clear H.
  enough (ta = table_after t o) by (subst ta; eapply IH; [apply table_after_valid; assumption|eassumption|eassumption]).
  destruct o; cbn [shape_of decode_op table_after] in *;
    try (apply bind_inv in E; destruct E as ([[? ?] ?] & _ & E); inversion E; reflexivity).
  destruct H2 as (N & Hn & Hs). destruct (valid_table_nth _ _ _ _ Ht Hn) as [Ei _].
  rewrite Ei in E. cbn [bind] in E. apply bind_inv in E. destruct E as ([[[s1 ?] ?] cdf'] & E & E3). inversion E3; subst.
  destruct (decode_symbol_cdf _ _ _ _ _ _ _ E) as [Hz U]. rewrite dec_update_cdf_eq in U.
  rewrite Z2Nat.id by assumption. rewrite U. reflexivity.
Qed.

Lemma long_lockstep : forall sizes t ops1 ops2 c d out c' t' D sz tail,
  valid_table sizes t -> Forall (valid_op sizes) (ops1 ++ ops2) -> 0 <= bit_count c < 2 ^ 62 ->
  encode_session c t out (ops1 ++ ops2) = Ok (c', t', out ++ D) ->
  Z.of_nat (length D) <= 8 * sz -> 0 <= sz < 2 ^ 28 -> is_bits tail ->
  exists c1 t1 out1 d1 q1,
    encode_ops (init_encoder c) t out ops1 = Ok (c1, t1, out1) /\
    decode_session d t (D ++ tail) sz (map shape_of ops1) = Ok (ops1, d1, t1, q1) /\
    valid_table sizes t1.
Proof.
  intros sizes t ops1 ops2 c d out c' t' D sz tail Ht Ho Hb E Hl Hs Htl.
  pose proof Ho as Ho'. apply Forall_app in Ho'. destruct Ho' as [Ho1 Ho2].
  destruct (long_round_trip _ _ _ _ _ _ _ _ Ht Ho Hb E) as (D' & used & rest & ED & _ & _ & X).
  { rewrite app_length. lia. }
  apply app_inv_head in ED. subst D'. destruct (X d sz tail Hs ltac:(lia) Htl) as (d' & F).
  unfold encode_session in E. apply bind_inv in E. destruct E as ([[ca ta] oa] & Ea & _).
  destruct (encode_ops_app _ _ _ _ _ _ _ _ Ea) as (c1 & t1 & out1 & E1 & _).
  pose proof (encode_ops_tables _ _ _ _ _ Ht Ho1 _ _ _ E1) as ->.
  rewrite map_app in F. destruct (decode_session_app _ _ _ _ _ _ _ _ _ _ F) as (o1 & o2 & d1 & t1 & q1 & F1 & Eo & Lo).
  rewrite map_length in Lo.
  destruct (app_len_inj _ _ _ _ _ Eo ltac:(lia)) as [Ea' Eb']. subst o1 o2.
  exists c1, (tables_after t ops1), out1, d1, q1.
  split; [assumption|]. split; [|apply tables_after_valid; assumption].
  rewrite F1. f_equal. f_equal. f_equal.
  unfold decode_session in F1. apply bind_inv in F1. destruct F1 as ([dd qq] & _ & F1).
  eapply decode_tables; [| |exact F1]; eassumption.
Qed.

Lemma long_size : forall sizes t ops c out c' t' D,
  valid_table sizes t -> Forall (valid_op sizes) ops -> 0 <= bit_count c < 2 ^ 62 ->
  encode_session c t out ops = Ok (c', t', out ++ D) -> Z.of_nat (length D) < 2 ^ 31 ->
  exists pad, (pad <= 7)%nat /\
    (16 <= length D <= Nat.max 1 (session_cost t ops) + 15 + pad)%nat /\
    (Z.of_nat (length D) + bit_count c) mod 8 = 0.
Proof.
  intros sizes t ops c out c' t' D Ht Ho Hb E Hl.
  destruct (long_session _ _ _ _ _ _ _ _ Ht Ho Hb E) as (D' & n & pad & ED & _ & HD & Hn & Hp & HlD & _).
  { rewrite app_length. lia. }
  apply app_inv_head in ED. subst D'. exists pad. split; [clear - Hp; lia|]. split; [clear - HlD Hn; lia|].
  rewrite HlD, Hp. apply mod8_len. lia.
Qed.

Lemma long_exit_position : forall sizes t ops d out c' t' D tail,
  valid_table sizes t -> Forall (valid_op sizes) ops ->
  encode_session new_coder t out ops = Ok (c', t', out ++ D) -> Z.of_nat (length D) < 2 ^ 31 -> is_bits tail ->
  exists d' q j,
    decode_session d t (D ++ tail) (Z.of_nat (length D / 8)) (map shape_of ops) = Ok (ops, d', t', q) /\
    snd (exit_decoder d' q) = repeat 0 j ++ tail /\ (j < 8)%nat /\
    (j = 0%nat <-> bit_count c' mod 8 = 0).
Proof.
  intros sizes t ops d out c' t' D tail Ht Ho E HL Htl.
  destruct (long_session _ _ _ new_coder out _ _ _ Ht Ho ltac:(cbn; lia) E) as (D' & n & pad & ED & -> & HD & Hn & Hp & Hl & Hbc & Hz & X).
  { rewrite app_length. lia. }
  apply app_inv_head in ED. subst D'.
  cbn [bit_count new_coder] in Hp, Hbc.
  pose proof (mod8_len 0 n ltac:(lia)) as H8. rewrite <- Hp, <- Hl in H8.
  assert (L8 : 8 * Z.of_nat (length D / 8) = Z.of_nat (length D)) by lia.
  destruct (X d (Z.of_nat (length D / 8)) tail) as (d' & F & M); [change (2 ^ 28) with 268435456; change (2 ^ 31) with 2147483648 in HL; lia|lia|assumption|].
  unfold exit_decoder.
  destruct (Nat.eq_dec n 0) as [->|Hn0].
  - assert (Hpad : pad = 0%nat) by (rewrite Hp; reflexivity). subst pad. rewrite Hpad in Hl, Hz.
    assert (Hl16 : length D = 16%nat) by lia.
    exists d', (skipn (0 + 15) D ++ tail), 0%nat.
    split; [assumption|]. cbn [snd]. split; [|split; [lia|]].
    + rewrite M, Hl16. change (Z.to_nat (8 * Z.of_nat (16 / 8) - 15 - 2 * Z.of_nat 0)) with 1%nat.
      rewrite skipn_app, skipn_add. rewrite skipn_all2 by lia. rewrite skipn_length, Hl16.
      reflexivity.
    + split; [|reflexivity]. intros _. rewrite Hbc. reflexivity.
  - assert (Hsk : skipn (n + 15) D = repeat 0 pad).
    { replace (n + 15)%nat with (n - 1 + 16)%nat by lia. assumption. }
    exists d', (skipn (n + 15) D ++ tail), (Nat.min n pad).
    split; [assumption|]. cbn [snd].
    split; [|split; [lia|]].
    + rewrite M, Hsk. rewrite L8.
      assert (Hj : Z.to_nat (Z.of_nat (length D) - 15 - 2 * Z.of_nat n) = (pad - n)%nat) by lia.
      rewrite Hj. rewrite skipn_app, repeat_length.
      replace (pad - n - pad)%nat with 0%nat by lia. rewrite skipn_O. f_equal.
      replace pad with ((pad - n) + Nat.min n pad)%nat at 2 by lia.
      rewrite repeat_app, skipn_app, repeat_length.
      rewrite skipn_all2 by (rewrite repeat_length; lia). rewrite Nat.sub_diag. reflexivity.
    + rewrite Hbc. lia.
Qed.

Lemma long_injective : forall sizes t f ops1 ops2 c1 c2 out1 out2 D c1' c2' t1 t2,
  valid_table sizes t -> Forall (valid_op sizes) ops1 -> Forall (valid_op sizes) ops2 ->
  0 <= bit_count c1 < 2 ^ 62 -> 0 <= bit_count c2 < 2 ^ 62 -> Z.of_nat (length D) <= 2 ^ 31 - 8 ->
  follows f ops1 -> follows f ops2 -> length ops1 = length ops2 ->
  encode_session c1 t out1 ops1 = Ok (c1', t1, out1 ++ D) ->
  encode_session c2 t out2 ops2 = Ok (c2', t2, out2 ++ D) ->
  ops1 = ops2.
Proof.
  intros sizes t f ops1 ops2 c1 c2 out1 out2 D c1' c2' t1 t2 Ht Ho1 Ho2 Hb1 Hb2 Hl Hw1 Hw2 Hlen E1 E2.
  destruct (long_adaptive sizes t ops1 f c1 new_coder out1 _ _ _ (2 ^ 28 - 1) [] Ht Ho1 Hb1 E1 ltac:(lia) ltac:(lia) ltac:(constructor) Hw1)
    as (d0 & q0 & ? & ? & G1 & H1).
  destruct (long_adaptive sizes t ops2 f c2 new_coder out2 _ _ _ (2 ^ 28 - 1) [] Ht Ho2 Hb2 E2 ltac:(lia) ltac:(lia) ltac:(constructor) Hw2)
    as (d02 & q02 & ? & ? & G2 & H2).
  rewrite G1 in G2. inversion G2; subst. rewrite <- Hlen, H1 in H2. inversion H2. reflexivity.
Qed.

(** The encoder returns unless more than 2^31 - 1 bits are due. *)
Lemma long_returns : forall sizes t ops c out,
  valid_table sizes t -> Forall (valid_op sizes) ops -> 0 <= bit_count c < 2 ^ 62 ->
  Z.of_nat (session_cost t ops) <= 2 ^ 31 - 1 ->
  exists c' t' D, encode_session c t out ops = Ok (c', t', out ++ D).
Proof.
  intros sizes t ops c out Ht Ho Hbc Hc.
  destruct (paired_ops sizes ops t Ht Ho out (bit_count c) (init_encoder c) out [] 0 0%nat (init_inv c out Hbc))
    as (c1 & B1 & L1 & n1 & E1 & I1 & R1 & N1 & M1 & Lb1 & D1).
  { unfold init_encoder. cbn [bool_range]. rewrite shiftl_mul by lia. change (1 * 2 ^ 15) with 32768. lia. }
  { lia. }
  apply bind_inv in E1. destruct E1 as ([[c1' t1] out1] & E1 & E1'). inversion E1'; subst; clear E1'.
  destruct (exit_encoder_ok _ _ _ _ _ _ _ I1 ltac:(lia) ltac:(lia)) as (c2 & D & pad & E2 & _).
  exists c2, (tables_after t ops), D. unfold encode_session. rewrite E1. cbn [bind]. rewrite E2. reflexivity.
Qed.

Lemma read_bits_cases : forall k acc q, (exists r, read_bits k acc q = Ok r) \/ read_bits k acc q = Panic.
Proof.
  induction k; intros acc q; cbn [read_bits]; [left; eexists; reflexivity|].
  destruct q as [|b q]; cbn [pop bind]; [right; reflexivity|].
  destruct (chk_i32 _) as [y| |] eqn:E; cbn [bind].
  - apply IHk.
  - right. reflexivity.
  - unfold chk_i32, chk in E. destruct (_ && _) in E; discriminate.
Qed.

Lemma size_limit : forall d q sz, 2 ^ 28 <= sz < 2 ^ 31 -> init_decoder d q sz = Panic.
Proof.
  intros d q sz H. unfold init_decoder.
  destruct (read_bits_cases 15 0 q) as [[[b r] ->]| ->]; cbn [bind]; [|reflexivity].
  rewrite as_i32_id by lia. unfold chk_i32, chk.
  destruct (_ && _) eqn:E; [|reflexivity]. exfalso. lia.
Qed.

(** Sessions far longer than the 2^26 symbols of the first theorems. *)
Lemma half_bits_cost : forall t b k, is_bit b -> session_cost t (repeat (OBit 128 b) k) = k.
Proof.
  intros t b k Hb. revert t. induction k; intros t; [reflexivity|]. cbn [repeat session_cost table_after op_cost].
  rewrite (bit_cost_128 b Hb), IHk. reflexivity.
Qed.

Lemma half_bits_symbols : forall b k, session_symbols (repeat (OBit 128 b) k) = k.
Proof.
  intros b k. induction k; [reflexivity|]. unfold session_symbols in *. cbn [repeat fold_right op_symbols].
  rewrite IHk. reflexivity.
Qed.

Lemma half_bits_valid : forall sizes b k, is_bit b -> Forall (valid_op sizes) (repeat (OBit 128 b) k).
Proof. intros sizes b k Hb. apply Forall_forall. intros o H. apply repeat_spec in H. subst. cbn. split; [lia|assumption]. Qed.

Lemma long_case : forall sizes t c out b k, valid_table sizes t -> is_bit b -> 0 <= bit_count c < 2 ^ 62 ->
  0 <= k <= 2 ^ 31 - 32 ->
  exists ops c' t' D, Forall (valid_op sizes) ops /\ Z.of_nat (session_symbols ops) = k /\
    encode_session c t out ops = Ok (c', t', out ++ D) /\ Z.of_nat (length D) <= k + 23.
Proof.
  intros sizes t c out b k Ht Hb Hbc Hk.
  pose proof (half_bits_valid sizes b (Z.to_nat k) Hb) as Ho.
  destruct (paired_ops sizes _ t Ht Ho out (bit_count c) (init_encoder c) out [] 0 0%nat (init_inv c out Hbc))
    as (c1 & B1 & L1 & n1 & E1 & I1 & R1 & N1 & M1 & Lb1 & D1).
  { unfold init_encoder. cbn [bool_range]. rewrite shiftl_mul by lia. change (1 * 2 ^ 15) with 32768. lia. }
  { rewrite half_bits_cost by assumption. lia. }
  rewrite half_bits_cost in N1 by assumption.
  apply bind_inv in E1. destruct E1 as ([[c1' t1] out1] & E1 & E1'). inversion E1'; subst; clear E1'.
  destruct (exit_encoder_ok _ _ _ _ _ _ _ I1 ltac:(lia) ltac:(lia)) as (c2 & D & pad & E2 & HD & Hpad & HlD & _).
  exists (repeat (OBit 128 b) (Z.to_nat k)), c2, (tables_after t (repeat (OBit 128 b) (Z.to_nat k))), D.
  split; [assumption|]. rewrite half_bits_symbols. split; [lia|].
  unfold encode_session. rewrite E1. cbn [bind]. rewrite E2. cbn [bind]. split; [reflexivity|].
  assert (pad <= 7)%nat by (clear - Hpad; lia). clear - HlD N1 H Hk. lia.
Qed.
