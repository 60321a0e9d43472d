(** C01-C12 once more, for sessions of any length. What is limited is only the
    size of what is written: less than 2^31 bits, that is 2^28 bytes, the most a
    size handed to [init_decoder] can describe. *)
From Coq Require Import ZArith List Bool Lia.
From Verif Require Import Base UtilModel BitsSpec RangeCoderModel RangeCoderSpec SessionModel SessionSpec
  SessionProofs SegmentProofs LongSegmentProofs PropertiesRange.
Import ListNotations.
Open Scope Z_scope.

(** C01, C05, C09. Whenever the encoder returns, the decoder returns the same
    calls from the bits written, whatever follows them, and has read nothing
    beyond them. *)
Theorem C01_any_length : forall sizes t ops c out c' t' o,
  valid_table sizes t -> Forall (valid_op sizes) ops -> 0 <= bit_count c < 2 ^ 62 ->
  encode_session c t out ops = Ok (c', t', o) -> Z.of_nat (length o) < Z.of_nat (length out) + 2 ^ 31 ->
  exists D used rest, o = out ++ D /\ D = used ++ rest /\ is_bits D /\
    forall d sz tail, 0 <= sz < 2 ^ 28 -> 2 * Z.of_nat (length D) <= 8 * sz + 2 ^ 31 -> is_bits tail ->
      exists d', decode_session d t (D ++ tail) sz (map shape_of ops) = Ok (ops, d', t', rest ++ tail).
Proof. exact long_round_trip. Qed.
Print Assumptions C01_any_length.

(** The same with the decoder choosing its calls, given a size that covers the
    bits written. *)
Theorem C01_any_length_adaptive : forall sizes t ops f c d out c' t' D sz tail,
  valid_table sizes t -> Forall (valid_op sizes) ops -> 0 <= bit_count c < 2 ^ 62 ->
  encode_session c t out ops = Ok (c', t', out ++ D) ->
  Z.of_nat (length D) <= 8 * sz -> 0 <= sz < 2 ^ 28 -> is_bits tail ->
  (forall h o r, ops = h ++ o :: r -> shape_of o = f h) ->
  exists d0 q0 d' q',
    init_decoder d (D ++ tail) sz = Ok (d0, q0) /\
    decode_adaptive (length ops) f [] d0 t q0 = Ok (ops, d', t', q').
Proof. exact long_adaptive. Qed.
Print Assumptions C01_any_length_adaptive.

(** Beyond 2^28 bytes nothing can be decoded: [init_decoder] overflows whatever
    the queue holds. *)
Theorem C01_size_limit : forall d q sz, 2 ^ 28 <= sz < 2 ^ 31 -> init_decoder d q sz = Panic.
Proof. exact size_limit. Qed.
Print Assumptions C01_size_limit.

(** C02. *)
Theorem C02_lockstep_any_length : forall sizes t ops1 ops2 c d out c' t' D sz tail,
  valid_table sizes t -> Forall (valid_op sizes) (ops1 ++ ops2) -> 0 <= bit_count c < 2 ^ 62 ->
  encode_session c t out (ops1 ++ ops2) = Ok (c', t', out ++ D) ->
  Z.of_nat (length D) <= 8 * sz -> 0 <= sz < 2 ^ 28 -> is_bits tail ->
  exists c1 t1 out1 d1 q1,
    encode_ops (init_encoder c) t out ops1 = Ok (c1, t1, out1) /\
    decode_session d t (D ++ tail) sz (map shape_of ops1) = Ok (ops1, d1, t1, q1) /\
    valid_table sizes t1.
Proof. exact long_lockstep. Qed.
Print Assumptions C02_lockstep_any_length.

(** C04. The encoder returns unless more than 2^31 - 1 bits are due. *)
Theorem C04_encoder_returns : forall sizes t ops c out,
  valid_table sizes t -> Forall (valid_op sizes) ops -> 0 <= bit_count c < 2 ^ 62 ->
  Z.of_nat (session_cost t ops) <= 2 ^ 31 - 1 ->
  exists c' t' D, encode_session c t out ops = Ok (c', t', out ++ D).
Proof. exact long_returns. Qed.
Print Assumptions C04_encoder_returns.

(** C06, C07, C08. *)
Theorem C06_size_any_length : forall sizes t ops c out c' t' D,
  valid_table sizes t -> Forall (valid_op sizes) ops -> 0 <= bit_count c < 2 ^ 62 ->
  encode_session c t out ops = Ok (c', t', out ++ D) -> Z.of_nat (length D) < 2 ^ 31 ->
  exists pad, (pad <= 7)%nat /\
    (16 <= length D <= Nat.max 1 (session_cost t ops) + 15 + pad)%nat /\
    (Z.of_nat (length D) + bit_count c) mod 8 = 0.
Proof. exact long_size. Qed.
Print Assumptions C06_size_any_length.

(** C10. *)
Theorem C10_exit_decoder_any_length : forall sizes t ops d out c' t' D tail,
  valid_table sizes t -> Forall (valid_op sizes) ops ->
  encode_session new_coder t out ops = Ok (c', t', out ++ D) -> Z.of_nat (length D) < 2 ^ 31 -> is_bits tail ->
  exists d' q j,
    decode_session d t (D ++ tail) (Z.of_nat (length D / 8)) (map shape_of ops) = Ok (ops, d', t', q) /\
    snd (exit_decoder d' q) = repeat 0 j ++ tail /\ (j < 8)%nat /\
    (j = 0%nat <-> bit_count c' mod 8 = 0).
Proof. exact long_exit_position. Qed.
Print Assumptions C10_exit_decoder_any_length.

(** C12. *)
Theorem C12_injective_any_length : forall sizes t f ops1 ops2 c1 c2 out1 out2 D c1' c2' t1 t2,
  valid_table sizes t -> Forall (valid_op sizes) ops1 -> Forall (valid_op sizes) ops2 ->
  0 <= bit_count c1 < 2 ^ 62 -> 0 <= bit_count c2 < 2 ^ 62 -> Z.of_nat (length D) <= 2 ^ 31 - 8 ->
  (forall h o r, ops1 = h ++ o :: r -> shape_of o = f h) ->
  (forall h o r, ops2 = h ++ o :: r -> shape_of o = f h) ->
  length ops1 = length ops2 ->
  encode_session c1 t out1 ops1 = Ok (c1', t1, out1 ++ D) ->
  encode_session c2 t out2 ops2 = Ok (c2', t2, out2 ++ D) ->
  ops1 = ops2.
Proof. exact long_injective. Qed.
Print Assumptions C12_injective_any_length.

(** A session of 2^30 symbols, sixteen times what the bound of the earlier
    theorems admits, meets the hypotheses. *)
Example C01_any_length_case : exists ops c' t' D,
  Forall (valid_op ex_sizes) ops /\ Z.of_nat (session_symbols ops) = 2 ^ 30 /\
  encode_session new_coder ex_table [1; 0] ops = Ok (c', t', [1; 0] ++ D) /\ Z.of_nat (length D) < 2 ^ 31.
Proof.
  destruct (long_case ex_sizes ex_table new_coder [1; 0] 1 (2 ^ 30) ex_table_valid) as (ops & c' & t' & D & H1 & H2 & H3 & H4);
    [right; reflexivity|cbn; lia|lia|].
  exists ops, c', t', D. repeat split; try assumption; lia.
Qed.
