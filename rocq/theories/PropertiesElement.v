(** Properties C36 and C39 to C42: small elements of the frame and tile syntax. *)
From Coq Require Import ZArith List Bool Lia.
From Verif Require Import Base BitsSpec UtilModel RangeCoderModel RangeCoderSpec BitCodecModel SessionModel SessionSpec SeqSpec
  SyntaxSpec ReaderSpec ElementModel ElementSpec ElementProofs.
Import ListNotations.
Open Scope Z_scope.

(** C36. The two conditions determine the result. *)
Theorem C36_relative_dist : forall a b bits, 0 <= a < 2 ^ 63 -> 0 <= b < 2 ^ 63 -> 1 <= bits <= 63 ->
  exists d, get_relative_dist a b true bits = Ok d /\
    - 2 ^ (bits - 1) <= d < 2 ^ (bits - 1) /\ (d - (a - b)) mod 2 ^ bits = 0.
Proof. exact relative_dist_ok. Qed.
Print Assumptions C36_relative_dist.

Theorem C36_disabled : forall a b bits, get_relative_dist a b false bits = Ok 0.
Proof. exact relative_dist_disabled. Qed.
Print Assumptions C36_disabled.

Example C36_case : get_relative_dist 2 250 true 8 = Ok 8 /\ get_relative_dist 250 2 true 8 = Ok (-8) /\
  get_relative_dist 0 128 true 8 = Ok (-128) /\ get_relative_dist 128 0 true 8 = Ok (-128).
Proof. repeat split. Qed.

(** C39. Multiples of the step and never further away than half a step; with
    integer vectors forced it rounds to the nearest multiple of 8, so it may move
    away from zero. *)
Theorem C39_lower_mv_precision : forall force v, - 2 ^ 62 <= v <= 2 ^ 62 ->
  exists r, lower_mv_precision force v = Ok r /\
    (if force then r mod 8 = 0 /\ Z.abs (r - v) <= 4
     else r mod 2 = 0 /\ Z.abs (r - v) <= 1 /\ Z.abs r <= Z.abs v) /\
    0 <= v * r.
Proof. exact lower_mv_facts. Qed.
Print Assumptions C39_lower_mv_precision.

Theorem C39_towards_zero_refuted : exists v r, lower_mv_precision true v = Ok r /\ Z.abs v < Z.abs r.
Proof. exists 5, 8. split; [reflexivity|cbn; lia]. Qed.
Print Assumptions C39_towards_zero_refuted.

(** It is the rounding of the standard for frames without high precision
    vectors, for which the standard prescribes it ... *)
Theorem C39_conforms_without_high_precision : forall force v, - 2 ^ 62 <= v <= 2 ^ 62 ->
  lower_mv_precision force v = Ok (av1_lower_mv false force v).
Proof. exact lower_mv_std. Qed.
Print Assumptions C39_conforms_without_high_precision.

(** ... but the code also rounds in frames with high precision vectors, where the
    standard does not: right only for the vectors that need no rounding. *)
Theorem C39_high_precision_exactly : forall force v, - 2 ^ 62 <= v <= 2 ^ 62 ->
  (lower_mv_precision force v = Ok (av1_lower_mv true force v) <-> v mod (if force then 8 else 2) = 0).
Proof. exact lower_mv_hp. Qed.
Print Assumptions C39_high_precision_exactly.

Theorem C39_high_precision_refuted : exists force v, lower_mv_precision force v <> Ok (av1_lower_mv true force v).
Proof. exists false, 7. vm_compute. discriminate. Qed.
Print Assumptions C39_high_precision_refuted.

Example C39_case : lower_mv_precision true (-13) = Ok (-16) /\ lower_mv_precision true 12 = Ok 8 /\
  lower_mv_precision true 4 = Ok 0 /\ lower_mv_precision false (-7) = Ok (-6) /\ lower_mv_precision false 6 = Ok 6.
Proof. repeat split. Qed.

(** C40 is false: in a build with overflow checks every predicted id strictly
    between 0 and the last one panics. *)
Theorem C40_neg_interleave_panics : forall v rf max, 0 < rf < max - 1 -> 0 <= v < 2 ^ 62 -> max < 2 ^ 62 ->
  neg_interleave v rf max = Panic.
Proof. exact neg_interleave_panics. Qed.
Print Assumptions C40_neg_interleave_panics.

Theorem C40_neg_interleave_refuted : exists v rf max, 0 <= v < max /\ 0 <= rf < max /\ max <= 8 /\ neg_interleave v rf max = Panic.
Proof. exists 3, 2, 8. repeat split; lia. Qed.
Print Assumptions C40_neg_interleave_refuted.

(** For the other predictions the code is below the maximum and the decoding
    process of the standard gives the id back. *)
Theorem C40_extreme_predictions : forall v rf max, 1 <= max < 2 ^ 62 -> 0 <= v < max -> rf = 0 \/ max - 1 <= rf ->
  exists code, neg_interleave v rf max = Ok code /\ 0 <= code < max /\ av1_neg_deinterleave code rf max = v.
Proof. exact neg_interleave_ends. Qed.
Print Assumptions C40_extreme_predictions.

(** In a release build, where the subtractions wrap, the id is recovered except
    exactly for small ids with a prediction in the upper half. *)
Theorem C40_wrapping_exactly : forall v rf max, 0 <= rf < 2 ^ 60 -> 1 <= max < 2 ^ 60 -> 0 <= v < max ->
  (av1_neg_deinterleave (neg_interleave_wrapping v rf max) rf max = v <->
   ~ (0 < rf < max - 1 /\ max <= 2 * rf /\ v < 2 * rf - max + 1)).
Proof. exact neg_wrapping_recovered. Qed.
Print Assumptions C40_wrapping_exactly.

Theorem C40_wrapping_refuted : exists v w rf max, v <> w /\ 0 <= v < max /\ 0 <= w < max /\ 0 <= rf < max /\ max <= 8 /\
  neg_interleave_wrapping v rf max = neg_interleave_wrapping w rf max.
Proof. exists 1, 7, 5, 8. repeat split; lia. Qed.
Print Assumptions C40_wrapping_refuted.

Example C40_case : neg_interleave 3 7 8 = Ok 4 /\ neg_interleave 3 0 8 = Ok 3 /\
  neg_interleave_wrapping 3 2 8 = 1 /\ av1_neg_deinterleave 1 2 8 = 3.
Proof. repeat split. Qed.

(** C41 is false for larger deltas. Coded anywhere in a segment, a delta q is
    what a standard reader gets back exactly when it is smaller than 3 in
    magnitude. [512] bounds the deltas the three bits for the length can
    announce; q indices differ by at most 255. *)
Theorem C41_delta_q_exactly : forall sizes t ctx pre post q cur k,
  valid_table sizes t -> nth_error sizes ctx = Some 4%nat ->
  Forall (valid_op sizes) pre -> Forall (valid_op sizes) post -> Z.of_nat (session_symbols (pre ++ post)) + 13 <= 2 ^ 26 ->
  0 <= q < 2 ^ 63 -> 0 <= cur < 2 ^ 63 -> 0 <= k < 64 -> Z.abs ((q - cur) / 2 ^ k) <= 512 ->
  exists ops v, delta_q_ops ctx q cur k = Ok (ops, q) /\ transmits t pre ops post (av1_delta ctx) v /\
    (v = (q - cur) / 2 ^ k <-> Z.abs ((q - cur) / 2 ^ k) < 3).
Proof. exact delta_q_transmitted. Qed.
Print Assumptions C41_delta_q_exactly.

(** Delta lf: exactly up to 4. *)
Theorem C41_delta_lf_exactly : forall sizes t ctx pre post lf cur k,
  valid_table sizes t -> nth_error sizes ctx = Some 4%nat ->
  Forall (valid_op sizes) pre -> Forall (valid_op sizes) post -> Z.of_nat (session_symbols (pre ++ post)) + 13 <= 2 ^ 26 ->
  - 2 ^ 62 <= lf < 2 ^ 62 -> - 2 ^ 62 <= cur < 2 ^ 62 -> 0 <= k < 64 -> Z.abs ((lf - cur) / 2 ^ k) <= 512 ->
  exists ops v, delta_lf_ops ctx lf cur k = Ok (ops, lf) /\ transmits t pre ops post (av1_delta ctx) v /\
    (v = (lf - cur) / 2 ^ k <-> Z.abs ((lf - cur) / 2 ^ k) <= 4).
Proof. exact delta_lf_transmitted. Qed.
Print Assumptions C41_delta_lf_exactly.

(** [delta_q] of the default CDFs (cdf.rs 619) as the only entry of a table. *)
Definition dq_table : cdf_table := [[28160; 32120; 32677; 32768; 0]].
Lemma dq_table_valid : valid_table [4%nat] dq_table.
Proof.
  repeat constructor. exists [28160; 32120; 32677; 32768], 0.
  split; [reflexivity|]. split; [reflexivity|]. split; [lia|].
  split; [|split; [reflexivity|lia]].
  repeat (constructor; [lia|] || constructor); try lia.
Qed.

Theorem C41_delta_q_refuted : exists q cur ops v, 0 <= q <= 255 /\ 0 <= cur <= 255 /\
  delta_q_ops 0 q cur 0 = Ok (ops, q) /\ transmits dq_table [] ops [] (av1_delta 0) v /\ v <> q - cur.
Proof.
  destruct (delta_q_transmitted [4%nat] dq_table 0%nat [] [] 105 100 0 dq_table_valid eq_refl (Forall_nil _) (Forall_nil _)
    ltac:(cbn; lia) ltac:(lia) ltac:(lia) ltac:(lia) ltac:(cbn; lia)) as (ops & v & E & T & X).
  exists 105, 100, ops, v. split; [lia|]. split; [lia|]. split; [exact E|]. split; [exact T|].
  intros V. apply X in V; [cbn in V; lia].
Qed.
Print Assumptions C41_delta_q_refuted.

(** Even a delta that is transmitted leaves the decoder with another quantizer
    index, unless the difference is a multiple of the resolution: the encoder
    goes on with the index it wanted, not with the one it sent. (Indices below the
    resolution are left out: there the clipping of the decoder to 1 may make up
    for it.) *)
Theorem C41_current_q_exactly : forall q cur k, 2 ^ k <= q <= 255 -> 1 <= cur <= 255 -> 0 <= k <= 3 ->
  (av1_current_q cur ((q - cur) / 2 ^ k) k = q <-> (q - cur) mod 2 ^ k = 0).
Proof. exact current_q_iff. Qed.
Print Assumptions C41_current_q_exactly.

Theorem C41_current_q_refuted : exists q cur k ops, 1 <= q <= 255 /\ 1 <= cur <= 255 /\ 0 <= k <= 3 /\
  delta_q_ops 0 q cur k = Ok (ops, q) /\ av1_current_q cur ((q - cur) / 2 ^ k) k <> q.
Proof. exists 102, 100, 2. eexists. repeat split; try lia; vm_compute; discriminate. Qed.
Print Assumptions C41_current_q_refuted.

(** C42. The sub-exponential code itself is read back by the standard process. *)
Theorem C42_subexp_round_trip : forall out v num, 0 <= v < num -> num <= 2 ^ 31 ->
  exists D, encode_subexp out v num = Ok (out ++ D) /\ forall tail, rd_subexp num (D ++ tail) = Some (v, tail).
Proof. exact encode_subexp_ok. Qed.
Print Assumptions C42_subexp_round_trip.

(** But the encoder maps values with the inverse of the mapping it should use: for
    a prediction in the lower half the decoder gets the inverse recentering
    applied twice. *)
Theorem C42_translation_decoded : forall out translation hp idx gm prev,
  0 <= idx < 2 ->
  let '(ab, pb) := trans_bits translation hp in
  let m := gm / 2 ^ (16 - pb) in let p := prev / 2 ^ (16 - pb) in let mx := 2 ^ ab in
  - mx <= m <= mx -> - mx <= p <= 0 ->
  exists D, encode_global_param out translation hp idx gm prev = Ok (out ++ D) /\
    forall tail, rd_global_param translation hp idx prev (D ++ tail) =
      Some ((av1_inverse_recenter (p + mx) (av1_inverse_recenter (p + mx) (m + mx)) - mx) * 2 ^ (16 - pb), tail).
Proof. exact global_param_low. Qed.
Print Assumptions C42_translation_decoded.

(** So a translation equal to its prediction is never recovered. *)
Theorem C42_predicted_value_misread : forall out translation hp idx gm,
  0 <= idx < 2 ->
  let '(ab, pb) := trans_bits translation hp in
  - 2 ^ ab + 2 <= gm / 2 ^ (16 - pb) <= 0 ->
  exists D v, encode_global_param out translation hp idx gm gm = Ok (out ++ D) /\
    (forall tail, rd_global_param translation hp idx gm (D ++ tail) = Some (v, tail)) /\
    v <> gm / 2 ^ (16 - pb) * 2 ^ (16 - pb).
Proof. exact global_param_predicted. Qed.
Print Assumptions C42_predicted_value_misread.

Theorem C42_global_motion_refuted : exists D v, encode_global_param [] true true 0 0 0 = Ok D /\
  rd_global_param true true 0 0 D = Some (v, []) /\ v <> 0.
Proof. eexists. eexists. split; [vm_compute; reflexivity|]. split; [vm_compute; reflexivity|]. discriminate. Qed.
Print Assumptions C42_global_motion_refuted.

(** And with [prev_gm_params] as the encoder leaves it (all 0: encoder.rs 112, no
    assignment anywhere), writing a diagonal parameter of a rotation or affine
    model always panics. *)
Theorem C42_diagonal_panics : forall out translation hp idx gm, idx = 2 \/ idx = 5 ->
  - 2 ^ 60 <= gm <= 2 ^ 60 -> encode_global_param out translation hp idx gm 0 = Panic.
Proof. exact global_param_diagonal. Qed.
Print Assumptions C42_diagonal_panics.

Example C42_case : encode_subexp [] 20 8193 = Ok [1; 1; 0; 0; 1; 0; 0] /\
  rd_subexp 8193 [1; 1; 0; 0; 1; 0; 0] = Some (20, []) /\
  trans_bits true false = (8, 2) /\ av1_inverse_recenter 5 (av1_inverse_recenter 5 11) = 11.
Proof. repeat split. Qed.
