(** Properties C01-C12: the arithmetic coder. *)
From Coq Require Import ZArith List Bool Lia Sorted.
From Verif Require Import Base BitsSpec RangeCoderModel RangeCoderSpec SessionModel SessionSpec SegmentProofs.
Import ListNotations.
Open Scope Z_scope.

(** ** A concrete non-trivial case, used to show that the hypotheses can be met:
    a table of two CDFs (4 and 2 symbols), and a session that mixes all kinds of
    calls. *)
Definition ex_sizes : list nat := [4%nat; 2%nat].
Definition ex_table : cdf_table := [[100; 200; 32000; 32768; 0]; [1; 32768; 31]].
Definition ex_msg : list (nat * nat) := [(0, 3); (1, 0); (0, 0); (1, 0); (1, 1); (0, 2)]%nat.
Definition ex_ops : list op :=
  [OSym 0 3; OBit 0 0; OSym 1 0; OLit 9 300; OBits 200 [1; 0; 1; 1]; OSym 0 1; OLit 64 18446744073709551615].

Lemma ex_cdf0 : valid_cdf 4 [100; 200; 32000; 32768; 0].
Proof. exists [100; 200; 32000; 32768], 0. repeat split; try reflexivity; try lia. repeat constructor; lia. Qed.
Lemma ex_cdf1 : valid_cdf 2 [1; 32768; 31].
Proof. exists [1; 32768], 31. repeat split; try reflexivity; try lia. repeat constructor; lia. Qed.
Example ex_table_valid : valid_table ex_sizes ex_table.
Proof. repeat constructor; [exact ex_cdf0|exact ex_cdf1]. Qed.
Example ex_msg_in_range : in_range ex_sizes ex_msg.
Proof. repeat constructor; simpl; eexists; (split; [reflexivity|lia]). Qed.
Example ex_ops_valid : Forall (valid_op ex_sizes) ex_ops.
Proof.
  unfold ex_ops. repeat (apply Forall_cons; [|]); try apply Forall_nil; cbn [valid_op];
    try (eexists; split; [reflexivity|lia]); try (split; [lia|]);
    try (left; reflexivity); try (right; reflexivity); try (cbn; lia).
  repeat constructor; ((left; reflexivity) || (right; reflexivity)).
Qed.
Example ex_fits : fits ex_ops. Proof. unfold fits. cbn. lia. Qed.

(** C01. Every message over every table of valid CDFs, coded with one
    [encode_symbol] per symbol by a coder in any state, on any output buffer, is
    decoded by a decoder in any state from the bits produced, whatever follows. *)
Theorem C01_range_coder_round_trip : forall sizes t msg c d out sz tail,
  valid_table sizes t -> in_range sizes msg -> Z.of_nat (length msg) <= 2 ^ 26 ->
  0 <= bit_count c < 2 ^ 62 -> 0 <= sz < 2 ^ 28 -> is_bits tail ->
  exists c' t' D d' used rest,
    encode_session c t out (sym_ops msg) = Ok (c', t', out ++ D) /\
    D = used ++ rest /\ is_bits D /\
    decode_session d t (D ++ tail) sz (map (fun m => SSym (fst m)) msg) =
      Ok (sym_ops msg, d', t', rest ++ tail).
Proof. exact symbol_round_trip. Qed.
Print Assumptions C01_range_coder_round_trip.

(** The same with the decoder choosing each CDF from what it has decoded so far,
    as a parser does. [f] is the choice; the message must have been coded with
    the same choices. *)
Theorem C01_adaptive_context_round_trip : forall sizes t ops f c d out sz tail,
  valid_table sizes t -> Forall (valid_op sizes) ops -> fits ops ->
  0 <= bit_count c < 2 ^ 62 -> 0 <= sz < 2 ^ 28 -> is_bits tail ->
  (forall h o r, ops = h ++ o :: r -> shape_of o = f h) ->
  exists c' t' D d0 q0 d' q',
    encode_session c t out ops = Ok (c', t', out ++ D) /\
    init_decoder d (D ++ tail) sz = Ok (d0, q0) /\
    decode_adaptive (length ops) f [] d0 t q0 = Ok (ops, d', t', q').
Proof. exact adaptive_round_trip. Qed.
Print Assumptions C01_adaptive_context_round_trip.

(** The example message takes 56 bits and decodes (symbols shown with their CDF). *)
Example C01_instance :
  match encode_session new_coder ex_table [1; 1; 0] (sym_ops ex_msg) with
  | Ok (_, _, o) =>
      match decode_session new_coder ex_table (skipn 3 o ++ [1; 0; 1]) 6 (map (fun m => SSym (fst m)) ex_msg) with
      | Ok (os, _, _, _) => (firstn 3 o, length o, os)
      | _ => ([], 0%nat, [])
      end
  | _ => ([], 0%nat, [])
  end = ([1; 1; 0], 59%nat, sym_ops ex_msg).
Proof. vm_compute. reflexivity. Qed.

(** C02. At every point of a session the decoder holds the same CDFs as the
    encoder did at that point. *)
Theorem C02_lockstep_adaptation : forall sizes t ops1 ops2 c d out sz tail,
  valid_table sizes t -> Forall (valid_op sizes) (ops1 ++ ops2) -> fits (ops1 ++ ops2) ->
  0 <= bit_count c < 2 ^ 62 -> 0 <= sz < 2 ^ 28 -> is_bits tail ->
  exists c1 t1 out1 c' t' D d1 q1,
    encode_ops (init_encoder c) t out ops1 = Ok (c1, t1, out1) /\
    encode_session c t out (ops1 ++ ops2) = Ok (c', t', out ++ D) /\
    decode_session d t (D ++ tail) sz (map shape_of ops1) = Ok (ops1, d1, t1, q1) /\
    valid_table sizes t1.
Proof. exact lockstep. Qed.
Print Assumptions C02_lockstep_adaptation.

(** C03. *)
Theorem C03_adaptation_keeps_valid : forall N cdf s, valid_cdf N cdf -> (s < N)%nat ->
  exists cdf', update_cdf (Z.of_nat s) cdf = Ok cdf' /\
    dec_update_cdf (Z.of_nat s) cdf = Ok cdf' /\ valid_cdf N cdf'.
Proof. exact adaptation_valid. Qed.
Print Assumptions C03_adaptation_keeps_valid.

Theorem C03_encode_keeps_valid : forall N cdf s c out c' out' cdf', valid_cdf N cdf ->
  encode_symbol c s out cdf = Ok (c', out', cdf') -> valid_cdf N cdf'.
Proof. exact encode_keeps_valid. Qed.
Print Assumptions C03_encode_keeps_valid.

Theorem C03_decode_keeps_valid : forall N cdf c q s c' q' cdf', valid_cdf N cdf ->
  decode_symbol c q cdf = Ok (s, c', q', cdf') -> valid_cdf N cdf'.
Proof. exact decode_keeps_valid. Qed.
Print Assumptions C03_decode_keeps_valid.

Example C03_instance : valid_cdf 2 [1; 32768; 31] /\
  update_cdf 1 [1; 32768; 31] = Ok [1 - Z.shiftr (1 - 32) 5; 32768; 32].
Proof. split; [exact ex_cdf1|reflexivity]. Qed.

(** C04. Whatever has been coded before, the next call succeeds, range and value
    stay normalised, and so does the final flush; and one symbol needs at most 16
    tests of the renormalisation condition, that is 15 iterations. *)
Theorem C04_encoder_safe : forall sizes t ops1 o ops2 c out,
  valid_table sizes t -> Forall (valid_op sizes) (ops1 ++ o :: ops2) -> fits (ops1 ++ o :: ops2) ->
  0 <= bit_count c < 2 ^ 62 ->
  (exists c1 t1 out1 c2 t2 out2,
    encode_ops (init_encoder c) t out ops1 = Ok (c1, t1, out1) /\
    encode_op c1 t1 out1 o = Ok (c2, t2, out2) /\
    32768 <= bool_range c1 < 65536 /\ 0 <= bool_value c1 < 65536 /\
    32768 <= bool_range c2 < 65536 /\ 0 <= bool_value c2 < 65536) /\
  exists r, encode_session c t out (ops1 ++ o :: ops2) = Ok r.
Proof. exact encoder_safe. Qed.
Print Assumptions C04_encoder_safe.

Theorem C04_renormalisation_bound : forall N cdf s c out,
  valid_cdf N cdf -> (s < N)%nat -> 32768 <= bool_range c < 65536 ->
  encode_symbol_fuel 16 c (Z.of_nat s) out cdf = encode_symbol c (Z.of_nat s) out cdf.
Proof. exact encode_symbol_16. Qed.
Print Assumptions C04_renormalisation_bound.

(** The bound is attained: a symbol of probability 1/32768 takes 15 iterations. *)
Example C04_bound_tight :
  encode_symbol_fuel 15 (init_encoder new_coder) 0 [] [1; 32768; 0] = Hang /\
  exists r, encode_symbol_fuel 16 (init_encoder new_coder) 0 [] [1; 32768; 0] = Ok r.
Proof. split; [reflexivity|]. eexists. vm_compute. reflexivity. Qed.

(** C05. Decoding from exactly the produced bits, with nothing after them. *)
Theorem C05_decoder_never_runs_out : forall sizes t ops c d out sz,
  valid_table sizes t -> Forall (valid_op sizes) ops -> fits ops ->
  0 <= bit_count c < 2 ^ 62 -> 0 <= sz < 2 ^ 28 ->
  exists c' t' D d' used rest,
    encode_session c t out ops = Ok (c', t', out ++ D) /\
    decode_session d t D sz (map shape_of ops) = Ok (ops, d', t', rest) /\
    D = used ++ rest.
Proof. exact no_underrun. Qed.
Print Assumptions C05_decoder_never_runs_out.

(** C06. [session_cost] sums, over the symbols coded, the least k such that 2^-k
    does not exceed the probability the symbol had when it was coded. *)
Theorem C06_compression_bound : forall sizes t ops c out,
  valid_table sizes t -> Forall (valid_op sizes) ops -> fits ops -> 0 <= bit_count c < 2 ^ 62 ->
  exists c' t' D pad,
    encode_session c t out ops = Ok (c', t', out ++ D) /\
    (pad <= 7)%nat /\
    (15 <= length D <= Nat.max 1 (session_cost t ops) + 15 + pad)%nat.
Proof. exact compression. Qed.
Print Assumptions C06_compression_bound.

Theorem C06_cost_meaning : forall N cdf s, valid_cdf N cdf -> (s < N)%nat ->
  2 ^ (15 - Z.of_nat (cost cdf s)) <= prob cdf s /\
  forall k, 0 <= k <= 15 -> 2 ^ (15 - k) <= prob cdf s -> Z.of_nat (cost cdf s) <= k.
Proof. exact cost_char. Qed.
Print Assumptions C06_cost_meaning.

Example C06_instance : session_cost ex_table ex_ops = 127%nat.
Proof. vm_compute. reflexivity. Qed.

(** C07. *)
Theorem C07_fresh_segment_byte_aligned : forall sizes t ops out,
  valid_table sizes t -> Forall (valid_op sizes) ops -> fits ops ->
  exists c' t' D,
    encode_session new_coder t out ops = Ok (c', t', out ++ D) /\
    (length D mod 8 = 0)%nat.
Proof. exact fresh_aligned. Qed.
Print Assumptions C07_fresh_segment_byte_aligned.

(** C08 is false: after a first session [bit_count] is not a multiple of 8 and the
    second session of the same coder is misaligned. *)
Theorem C08_reuse_alignment_refuted : exists sizes t ops1 ops2 c1 t1 D1 c2 t2 D2,
  valid_table sizes t /\ Forall (valid_op sizes) ops1 /\ Forall (valid_op sizes) ops2 /\
  fits ops1 /\ fits ops2 /\
  encode_session new_coder t [] ops1 = Ok (c1, t1, D1) /\
  encode_session c1 t1 [] ops2 = Ok (c2, t2, D2) /\
  (length D2 mod 8 <> 0)%nat.
Proof.
  exists ex_sizes, ex_table, [OLit 4 9], [OLit 8 255].
  do 6 eexists. split; [exact ex_table_valid|].
  split. { repeat constructor; cbn; lia. }
  split. { repeat constructor; cbn; lia. }
  split. { unfold fits; cbn; lia. }
  split. { unfold fits; cbn; lia. }
  split. { vm_compute. reflexivity. }
  split. { vm_compute. reflexivity. }
  vm_compute. discriminate.
Qed.
Print Assumptions C08_reuse_alignment_refuted.

(** What does hold: the length of a segment makes up exactly for the bit count
    the coder started with, so it is a whole number of bytes if and only if that
    count was a multiple of 8. *)
Theorem C08_segment_length_residue : forall sizes t ops c out,
  valid_table sizes t -> Forall (valid_op sizes) ops -> fits ops -> 0 <= bit_count c < 2 ^ 62 ->
  exists c' t' D,
    encode_session c t out ops = Ok (c', t', out ++ D) /\
    (Z.of_nat (length D) + bit_count c) mod 8 = 0.
Proof. exact alignment_residue. Qed.
Print Assumptions C08_segment_length_residue.

(** C09. All kinds of calls mixed. *)
Theorem C09_mixed_calls_round_trip : forall sizes t ops c d out sz tail,
  valid_table sizes t -> Forall (valid_op sizes) ops -> fits ops ->
  0 <= bit_count c < 2 ^ 62 -> 0 <= sz < 2 ^ 28 -> is_bits tail ->
  exists c' t' D d' used rest,
    encode_session c t out ops = Ok (c', t', out ++ D) /\
    D = used ++ rest /\ is_bits D /\
    decode_session d t (D ++ tail) sz (map shape_of ops) = Ok (ops, d', t', rest ++ tail).
Proof. exact session_round_trip. Qed.
Print Assumptions C09_mixed_calls_round_trip.

(** C10 is false: [exit_decoder] may stop inside the segment. *)
Theorem C10_exit_decoder_refuted : exists sizes t ops c' t' D d' t'' q tail,
  valid_table sizes t /\ Forall (valid_op sizes) ops /\ fits ops /\
  encode_session new_coder t [] ops = Ok (c', t', D) /\
  decode_session new_coder t (D ++ tail) (Z.of_nat (length D / 8)) (map shape_of ops) = Ok (ops, d', t'', q) /\
  snd (exit_decoder d' q) <> tail.
Proof.
  exists ex_sizes, ex_table, [OLit 4 9]. do 6 eexists. exists [1].
  split; [exact ex_table_valid|].
  split. { repeat constructor; cbn; lia. }
  split. { unfold fits; cbn; lia. }
  split. { vm_compute. reflexivity. }
  split. { vm_compute. reflexivity. }
  vm_compute. discriminate.
Qed.
Print Assumptions C10_exit_decoder_refuted.

(** What does hold: fewer than 8 zero bits (padding of the segment) are left in
    front of what follows, and none exactly when the encoder's bit count after the
    segment is a multiple of 8. *)
Theorem C10_exit_decoder_position : forall sizes t ops d out tail,
  valid_table sizes t -> Forall (valid_op sizes) ops -> fits ops -> is_bits tail ->
  exists c' t' D d' q j,
    encode_session new_coder t out ops = Ok (c', t', out ++ D) /\
    decode_session d t (D ++ tail) (Z.of_nat (length D / 8)) (map shape_of ops) = Ok (ops, d', t', q) /\
    snd (exit_decoder d' q) = repeat 0 j ++ tail /\ (j < 8)%nat /\
    (j = 0%nat <-> bit_count c' mod 8 = 0).
Proof. exact exit_decoder_position. Qed.
Print Assumptions C10_exit_decoder_position.

(** C11. For every coder state, CDF (valid or not) and symbol: the output with [p]
    already in the buffer is [p] followed by the output with an empty buffer;
    panics and non-termination do not depend on the buffer either. *)
Theorem C11_encode_symbol_appends : forall c s p cdf,
  encode_symbol c s p cdf =
  match encode_symbol c s [] cdf with
  | Ok (c', o, cdf') => Ok (c', p ++ o, cdf')
  | Panic => Panic
  | Hang => Hang
  end.
Proof. exact encode_symbol_appends. Qed.
Print Assumptions C11_encode_symbol_appends.

Theorem C11_encode_call_appends : forall o c t p,
  encode_op c t p o =
  match encode_op c t [] o with
  | Ok (c', t', out) => Ok (c', t', p ++ out)
  | Panic => Panic
  | Hang => Hang
  end.
Proof. exact encode_op_appends. Qed.
Print Assumptions C11_encode_call_appends.

Theorem C11_exit_encoder_appends : forall c p,
  exit_encoder c p =
  match exit_encoder c [] with
  | Ok (c', out) => Ok (c', p ++ out)
  | Panic => Panic
  | Hang => Hang
  end.
Proof. exact exit_encoder_appends. Qed.
Print Assumptions C11_exit_encoder_appends.

(** C12. Two messages of the same length that follow the same rule for choosing
    CDFs and give the same bits are the same message. *)
Theorem C12_segments_injective : forall sizes t f ops1 ops2 c1 c2 out1 out2 D c1' c2' t1 t2,
  valid_table sizes t -> Forall (valid_op sizes) ops1 -> Forall (valid_op sizes) ops2 ->
  fits ops1 -> fits ops2 -> 0 <= bit_count c1 < 2 ^ 62 -> 0 <= bit_count c2 < 2 ^ 62 ->
  (forall h o r, ops1 = h ++ o :: r -> shape_of o = f h) ->
  (forall h o r, ops2 = h ++ o :: r -> shape_of o = f h) ->
  length ops1 = length ops2 ->
  encode_session c1 t out1 ops1 = Ok (c1', t1, out1 ++ D) ->
  encode_session c2 t out2 ops2 = Ok (c2', t2, out2 ++ D) ->
  ops1 = ops2.
Proof. exact segment_injective. Qed.
Print Assumptions C12_segments_injective.

Theorem C12_prefix_decoding : forall sizes t ops1 ops2 c d out sz tail,
  valid_table sizes t -> Forall (valid_op sizes) (ops1 ++ ops2) -> fits (ops1 ++ ops2) ->
  0 <= bit_count c < 2 ^ 62 -> 0 <= sz < 2 ^ 28 -> is_bits tail ->
  exists c' t' D d1 t1 q1,
    encode_session c t out (ops1 ++ ops2) = Ok (c', t', out ++ D) /\
    decode_session d t (D ++ tail) sz (map shape_of ops1) = Ok (ops1, d1, t1, q1).
Proof. exact prefix_decoding. Qed.
Print Assumptions C12_prefix_decoding.
