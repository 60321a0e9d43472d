(** C35, C41 and C45 once more, for sessions of any length; see PropertiesLong. *)
From Coq Require Import String ZArith List Bool Lia.
From Verif Require Import BitsSpec Base BaseProofs UtilModel RangeCoderModel RangeCoderSpec SessionModel SessionSpec SessionProofs ReaderSpec ElementModel ElementSpec
  CdfTables CdfTableSpec CdfTableProofs ContextModel ContextSpec ContextCallSpec ContextRunProofs ContextWriterProofs LongSegmentProofs LongContextProofs PropertiesElement PropertiesContext.
Import ListNotations.
Open Scope list_scope.
Open Scope Z_scope.

(** C35. Starting from the default CDFs. *)
Theorem C35_default_state_any_length : forall ops c out c' t' o,
  Forall (valid_op default_sizes) ops -> 0 <= bit_count c < 2 ^ 62 ->
  encode_session c default_table out ops = Ok (c', t', o) -> Z.of_nat (List.length o) < Z.of_nat (List.length out) + 2 ^ 31 ->
  exists D used rest, o = out ++ D /\ D = used ++ rest /\ is_bits D /\
    forall d sz tail, 0 <= sz < 2 ^ 28 -> 2 * Z.of_nat (List.length D) <= 8 * sz + 2 ^ 31 -> is_bits tail ->
      exists d', decode_session d default_table (D ++ tail) sz (map shape_of ops) = Ok (ops, d', t', rest ++ tail).
Proof. exact (fun ops c out c' t' o => long_round_trip default_sizes default_table ops c out c' t' o default_table_valid). Qed.
Print Assumptions C35_default_state_any_length.

(** C45. Any sequence of legal calls that returns. *)
Theorem C45_any_length : forall s ws c out c' s' o,
  state_ok s -> Forall legal ws -> 0 <= bit_count c < 2 ^ 62 ->
  write_session c s out ws = Ok (c', s', o) -> Z.of_nat (List.length o) < Z.of_nat (List.length out) + 2 ^ 31 ->
  exists es D rest, ws = map (@Ok element) es /\ o = out ++ D /\ is_bits D /\
    forall d sz tail, 0 <= sz < 2 ^ 28 -> 2 * Z.of_nat (List.length D) <= 8 * sz + 2 ^ 31 -> is_bits tail ->
      exists d', read_session d s (D ++ tail) sz (map fst es) = Ok (map snd es, d', s', rest ++ tail).
Proof.
  intros s ws c out c' s' o S L B W N. destruct (sound_list ws) as (es & -> & R); [eapply Forall_impl; [exact legal_sound|exact L]|].
  destruct (long_writers s es c out c' s' o S R B W N) as (D & rest & E & I & F). exists es, D, rest. auto.
Qed.
Print Assumptions C45_any_length.

(** C41. The deltas, anywhere in a segment of any length. *)
Theorem C41_delta_q_any_length : forall sizes t ctx pre post q cur k,
  valid_table sizes t -> nth_error sizes ctx = Some 4%nat -> Forall (valid_op sizes) pre -> Forall (valid_op sizes) post ->
  0 <= q < 2 ^ 63 -> 0 <= cur < 2 ^ 63 -> 0 <= k < 64 -> Z.abs ((q - cur) / 2 ^ k) <= 512 ->
  exists ops v, delta_q_ops ctx q cur k = Ok (ops, q) /\ carries t pre ops post (av1_delta ctx) v /\
    (v = (q - cur) / 2 ^ k <-> Z.abs ((q - cur) / 2 ^ k) < 3).
Proof. exact delta_q_carried. Qed.
Print Assumptions C41_delta_q_any_length.
Theorem C41_delta_lf_any_length : forall sizes t ctx pre post lf cur k,
  valid_table sizes t -> nth_error sizes ctx = Some 4%nat -> Forall (valid_op sizes) pre -> Forall (valid_op sizes) post ->
  - 2 ^ 62 <= lf < 2 ^ 62 -> - 2 ^ 62 <= cur < 2 ^ 62 -> 0 <= k < 64 -> Z.abs ((lf - cur) / 2 ^ k) <= 512 ->
  exists ops v, delta_lf_ops ctx lf cur k = Ok (ops, lf) /\ carries t pre ops post (av1_delta ctx) v /\
    (v = (lf - cur) / 2 ^ k <-> Z.abs ((lf - cur) / 2 ^ k) <= 4).
Proof. exact delta_lf_carried. Qed.
Print Assumptions C41_delta_lf_any_length.

(** Before and after the delta 2^29 symbols each. *)
Example C41_any_length_case : exists pre c' t' D,
  Forall (valid_op [4%nat]) pre /\ Z.of_nat (session_symbols pre) = 2 ^ 29 /\
  delta_q_ops 0 102 100 0 = Ok ([OSym 0 2; OLit 1 0], 102) /\
  encode_session new_coder dq_table [] (pre ++ [OSym 0 2; OLit 1 0] ++ pre) = Ok (c', t', D) /\ Z.of_nat (List.length D) < 2 ^ 31.
Proof.
  destruct (long_middle [4%nat] dq_table [OSym 0 2; OLit 1 0] (2 ^ 29) dq_table_valid) as (pre & c' & t' & D & V & S & E & L); [|cbn; lia|lia|].
  - constructor; [exists 4%nat; split; [reflexivity|lia]|]. constructor; [cbn; lia|constructor].
  - exists pre, c', t', D. repeat split; assumption.
Qed.
