(** The properties C95 and C96: the quantizer tables. *)
From Coq Require Import ZArith List.
From Verif Require Import QuantTables QuantSpec QuantProofs.
Import ListNotations.
Open Scope Z_scope.

(** C95. Read as the standard reads it, every matrix is that of the transposed size
    transposed (so square ones are symmetric). *)
Theorem C95_transposed : forall level plane size other r c, table level plane -> coefficient size r c ->
  0 <= other < 19 -> qm_w other = qm_h size -> qm_h other = qm_w size ->
  exists v, weight quantizer_matrix qm_offset level plane size r c = Some v /\ weight quantizer_matrix qm_offset level plane other c r = Some v.
Proof. exact transposed. Qed.
Print Assumptions C95_transposed.
(** Every square one is sampled from the 32 by 32 one, every tall one from the 16 by 32
    one, and with the transposed ones these are all. *)
Theorem C95_square : forall level plane size r c s, table level plane -> coefficient size r c -> qm_w size = qm_h size -> s * qm_w size = 32 ->
  exists v, weight quantizer_matrix qm_offset level plane size r c = Some v /\
    weight quantizer_matrix qm_offset level plane 3 (r * s + (s - 1) / 2) (c * s + (s - 1) / 2) = Some v.
Proof. exact square_sampled. Qed.
Print Assumptions C95_square.
Theorem C95_tall : forall level plane size r c sw sh, table level plane -> coefficient size r c -> qm_w size < qm_h size -> sw * qm_w size = 16 -> sh * qm_h size = 32 ->
  exists v, weight quantizer_matrix qm_offset level plane size r c = Some v /\
    weight quantizer_matrix qm_offset level plane 9 (r * sh + (sh - 1) / 2) (c * sw + (sw - 1) / 2) = Some v.
Proof. exact tall_sampled. Qed.
Print Assumptions C95_tall.
Theorem C95_square_or_tall : forall size, 0 <= size < 19 -> qm_w size <= qm_h size ->
  (qm_w size = qm_h size /\ exists s, s * qm_w size = 32) \/ (qm_w size < qm_h size /\ exists sw sh, sw * qm_w size = 16 /\ sh * qm_h size = 32).
Proof. exact sampled_cases. Qed.
Print Assumptions C95_square_or_tall.
(** No weight is 0 or needs more than 8 bits; level 15 is flat. *)
Theorem C95_values : forall level plane size r c, table level plane -> coefficient size r c ->
  exists v, weight quantizer_matrix qm_offset level plane size r c = Some v /\ 30 <= v <= 242 /\ (level = 15 -> v = 32).
Proof. exact values. Qed.
Print Assumptions C95_values.
(** Two sizes share a matrix exactly if they have the same 32 by 32 part, otherwise their
    matrices do not overlap; and no entry is left over. *)
Theorem C95_apart : forall a b oa ob, 0 <= a < 19 -> 0 <= b < 19 -> at_ qm_offset a = Some oa -> at_ qm_offset b = Some ob ->
  (qm_w a = qm_w b /\ qm_h a = qm_h b /\ oa = ob) \/ oa + qm_w a * qm_h a <= ob \/ ob + qm_w b * qm_h b <= oa.
Proof. exact offsets. Qed.
Print Assumptions C95_apart.
Theorem C95_covered : forall i, 0 <= i < 3344 -> exists size r c o, coefficient size r c /\ at_ qm_offset size = Some o /\ i = o + r * qm_w size + c.
Proof. exact covered. Qed.
Print Assumptions C95_covered.
Example C95_case : table 2 1 /\ coefficient 13 10 3 /\ qm_w 14 = qm_h 13 /\ qm_h 14 = qm_w 13 /\ weight quantizer_matrix qm_offset 2 1 13 10 3 = Some 87 /\
  weight quantizer_matrix qm_offset 2 1 9 20 13 = Some 87 /\ 4 * qm_w 13 = 16 /\ 2 * qm_h 13 = 32.
Proof. repeat split; vm_compute; reflexivity || discriminate. Qed.

(** C96. The steps grow with the quantizer index, from 4 on, at every bit depth. *)
Theorem C96_dc_grows : forall depth p q, 0 <= depth < 3 -> 0 <= p <= q -> q < 256 ->
  exists x y, step dc_q_lookup depth p = Some x /\ step dc_q_lookup depth q = Some y /\ 4 <= x <= y /\ ((0 <? depth) = true -> p < q -> x < y).
Proof. intros. exact (steps_increase _ _ _ _ _ dc_run H H0 H1). Qed.
Print Assumptions C96_dc_grows.
Theorem C96_ac_grows : forall depth p q, 0 <= depth < 3 -> 0 <= p <= q -> q < 256 ->
  exists x y, step ac_q_lookup depth p = Some x /\ step ac_q_lookup depth q = Some y /\ 4 <= x <= y /\ (p < q -> x < y).
Proof. intros. destruct (steps_increase _ _ _ _ _ ac_run H H0 H1) as (x & y & A & B & C & D). exists x, y. auto. Qed.
Print Assumptions C96_ac_grows.
Theorem C96_starts : forall depth, 0 <= depth < 3 -> step dc_q_lookup depth 0 = Some 4 /\ step ac_q_lookup depth 0 = Some 4 /\
  step dc_q_lookup depth 256 = None /\ step ac_q_lookup depth 256 = None.
Proof. intros depth D. destruct (steps _ _ _ dc_run D) as (A & B & _). destruct (steps _ _ _ ac_run D) as (A' & B' & _). auto. Qed.
Print Assumptions C96_starts.
(** The step of the DC coefficient is at most that of the others; each depth has four
    times the steps of the one before, up to the offset of small steps. *)
Theorem C96_beside : forall q, 0 <= q < 256 -> exists d0 d1 d2 a0 a1 a2,
  step dc_q_lookup 0 q = Some d0 /\ step dc_q_lookup 1 q = Some d1 /\ step dc_q_lookup 2 q = Some d2 /\
  step ac_q_lookup 0 q = Some a0 /\ step ac_q_lookup 1 q = Some a1 /\ step ac_q_lookup 2 q = Some a2 /\
  d0 <= a0 /\ d1 <= a1 /\ d2 <= a2 /\ d0 <= d1 <= d2 /\ a0 <= a1 <= a2 /\
  -33 <= d1 - 4 * d0 <= 4 /\ -35 <= d2 - 4 * d1 <= 2 /\ -37 <= a1 - 4 * a0 <= 0 /\ -38 <= a2 - 4 * a1 <= 1.
Proof. exact steps_beside. Qed.
Print Assumptions C96_beside.
Example C96_case : step ac_q_lookup 2 255 = Some 29247 /\ step dc_q_lookup 0 1 = step dc_q_lookup 0 2.
Proof. split; reflexivity. Qed.
