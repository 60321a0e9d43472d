(** C101: adaptation never makes a symbol (nearly) impossible. *)
From Coq Require Import ZArith List Bool Lia.
From Verif Require Import Base RangeCoderModel RangeCoderSpec SessionModel SessionSpec SegmentProofs CdfTableSpec CdfTableProofs CdfTables FloorSpec FloorProofs.
Import ListNotations.
Open Scope Z_scope.

(** C101: coding a symbol leaves every probability of the CDF at 32 (of 32768) or more,
    or, where it was below 32 already, no lower than it was. *)
Theorem C101_encoder : forall N cdf s c out c' out' cdf',
  valid_cdf N cdf -> 0 <= s -> encode_symbol c s out cdf = Ok (c', out', cdf') -> no_lower N cdf cdf'.
Proof. intros. intros j J. eapply floor_encode; eassumption. Qed.
Print Assumptions C101_encoder.

(** C101: so does decoding one. *)
Theorem C101_decoder : forall N cdf c q s c' q' cdf',
  valid_cdf N cdf -> decode_symbol c q cdf = Ok (s, c', q', cdf') -> no_lower N cdf cdf'.
Proof. intros. intros j J. eapply floor_decode; eassumption. Qed.
Print Assumptions C101_decoder.

(** C101: over a whole session of the encoder, however long, entry by entry. *)
Theorem C101_session : forall sizes c t out ops c' t' out',
  valid_table sizes t -> encode_session c t out ops = Ok (c', t', out') ->
  valid_table sizes t' /\ table_no_lower sizes t t'.
Proof. exact lower_session. Qed.
Print Assumptions C101_session.

(** C101: and of a decoder that chooses its next call from what it has decoded, on any
    input bits whatever. *)
Theorem C101_decode_session : forall sizes n f hist c t q os c' t' q',
  valid_table sizes t -> decode_adaptive n f hist c t q = Ok (os, c', t', q') ->
  valid_table sizes t' /\ table_no_lower sizes t t'.
Proof. exact lower_adaptive. Qed.
Print Assumptions C101_decode_session.

(** C101: from the default tables, no probability ever becomes 0. *)
Theorem C101_default : forall c out ops c' t' out' i N j,
  encode_session c default_table out ops = Ok (c', t', out') ->
  nth_error default_sizes i = Some N -> (j < N)%nat -> 1 <= prob (nth i t' []) j.
Proof.
  intros c out ops c' t' out' i N j E H J. destruct (lower_session _ _ _ _ _ _ _ _ default_table_valid E) as [_ [_ K]].
  specialize (K i N H j J). assert (P : 1 <= prob (nth i default_table []) j); [|lia].
  assert (A : forallb (fun p => forallb (fun j => 1 <=? prob (snd p) j) (seq 0 (fst p))) (combine default_sizes default_table) = true) by (vm_compute; reflexivity).
  rewrite forallb_forall in A. assert (L : length default_sizes = length default_table) by (unfold default_sizes; apply map_length).
  assert (I : (i < length default_sizes)%nat) by (apply nth_error_Some; rewrite H; discriminate).
  specialize (A (N, nth i default_table [])). rewrite forallb_forall in A. apply Z.leb_le. apply A.
  - rewrite <- (nth_error_nth _ _ 0%nat H). rewrite <- (combine_nth default_sizes default_table i 0%nat [] L). apply nth_In. rewrite combine_length. lia.
  - apply in_seq. cbn [fst]. lia.
Qed.
Print Assumptions C101_default.

(** C101: the price: when no probability is below 2^(15-k) to begin with, [n] symbols
    take at most [k * n + 22] bits (more precisely max(1, k n) + 22), whatever the
    message, because none gets below while coding ([k] is 10 or more). *)
Theorem C101_size : forall m sizes k t msg c out,
  m <= 32 -> 0 <= k <= 15 -> 2 ^ (15 - k) <= m -> floored_table m sizes t -> SegmentProofs.in_range sizes msg ->
  Z.of_nat (length msg) <= 2 ^ 26 -> 0 <= bit_count c < 2 ^ 62 ->
  exists c' t' D, encode_session c t out (sym_ops msg) = Ok (c', t', out ++ D) /\
    Z.of_nat (length D) <= Z.max 1 (k * Z.of_nat (length msg)) + 22.
Proof. exact floored_size. Qed.
Print Assumptions C101_size.

(** The bound 32 is met: a symbol of probability 33 falls to 32 and one of probability
    32 stays, when another symbol is coded. *)
Example C101_tight :
  match encode_symbol (init_encoder new_coder) 0 [] [32735; 32768; 0] with Ok (_, _, cdf) => prob cdf 1 | _ => 0 end = 32 /\
  match encode_symbol (init_encoder new_coder) 0 [] [32736; 32768; 0] with Ok (_, _, cdf) => prob cdf 1 | _ => 0 end = 32.
Proof. vm_compute. split; reflexivity. Qed.
Example C101_hypotheses : floored_table 32 [2; 3]%nat [[16384; 32768; 0]; [32; 32736; 32768; 0]] /\ SegmentProofs.in_range [2; 3]%nat [(0, 1); (1, 2); (1, 0)]%nat.
Proof.
  split.
  - constructor; [|constructor; [|constructor]]; (split; [apply row_okb_ok; vm_compute; reflexivity|]); intros j J; do 3 (destruct j as [|j]; [first [lia | vm_compute; congruence]|]); lia.
  - unfold SegmentProofs.in_range. repeat (apply Forall_cons; [eexists; split; [reflexivity|cbn [snd]; lia]|]). apply Forall_nil.
Qed.
