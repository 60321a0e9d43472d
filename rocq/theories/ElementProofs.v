From Coq Require Import ZArith List Bool Lia ZifyBool ZifyNat ZifyN.
From Verif Require Import Base BaseProofs BitsSpec BitsProofs UtilModel UtilProofs RangeCoderModel RangeCoderSpec BitCodecModel
  BitCodecProofs SessionModel SessionSpec SeqSpec SeqProofs SyntaxSpec SyntaxProofs ReaderSpec ReaderProofs
  ElementModel ElementSpec.
Import ListNotations.
Open Scope Z_scope.
Ltac Zify.zify_post_hook ::= Z.div_mod_to_equations.

Lemma odd_mod : forall z, Z.odd z = (z mod 2 =? 1).
Proof. intros. rewrite Zmod_odd. destruct (Z.odd z); reflexivity. Qed.

(** Order hints. *)
Lemma land_pow2 : forall a k, 0 <= k -> Z.land a (2 ^ k) = 2 ^ k * ((a / 2 ^ k) mod 2).
Proof.
  intros a k Hk. rewrite <- Z.bit0_mod. rewrite Z.div_pow2_bits by lia. rewrite Z.add_0_l.
  apply Z.bits_inj'. intros n Hn. rewrite Z.land_spec.
  destruct (Z.testbit a k) eqn:E; cbn [Z.b2z].
  - rewrite Z.mul_1_r. destruct (Z.eq_dec n k) as [->|H]; [rewrite E; reflexivity|].
    rewrite (Z.pow2_bits_false k n) by lia. apply andb_false_r.
  - rewrite Z.mul_0_r, Z.bits_0. destruct (Z.eq_dec n k) as [->|H]; [rewrite E; reflexivity|].
    rewrite (Z.pow2_bits_false k n) by lia. apply andb_false_r.
Qed.

Lemma relative_dist_ok : forall a b bits, 0 <= a < 2 ^ 63 -> 0 <= b < 2 ^ 63 -> 1 <= bits <= 63 ->
  exists d, get_relative_dist a b true bits = Ok d /\
    - 2 ^ (bits - 1) <= d < 2 ^ (bits - 1) /\ (d - (a - b)) mod 2 ^ bits = 0.
Proof.
  intros a b bits Ha Hb Hk. unfold get_relative_dist. cbn [negb].
  rewrite !as_i64_id by lia. rewrite chk_i64_ok by lia. cbn [bind].
  rewrite chk_u64_ok by lia. cbn [bind]. rewrite shift_ok_ok by lia. cbn [bind].
  rewrite shiftl_mul, Z.mul_1_l by lia. set (k := bits - 1) in *.
  assert (P : 0 < 2 ^ k <= 2 ^ 62) by (split; [apply pow2_pos; lia|apply pow2_le; lia]).
  rewrite as_i64_id by lia. rewrite chk_i64_ok by lia. cbn [bind].
  rewrite land_ones_mod, land_pow2 by lia.
  replace bits with (k + 1) by lia. rewrite Z.pow_add_r by lia. change (2 ^ 1) with 2.
  set (p := 2 ^ k) in *. set (x := a - b).
  pose proof (Z.mod_pos_bound x p ltac:(lia)) as B.
  pose proof (Z.mod_pos_bound (x / p) 2 ltac:(lia)) as B2.
  assert (B3 : p * ((x / p) mod 2) = 0 \/ p * ((x / p) mod 2) = p) by (destruct (Z.eq_dec ((x / p) mod 2) 0) as [E|E]; [rewrite E; lia|replace ((x / p) mod 2) with 1 by lia; lia]).
  rewrite chk_i64_ok by lia. eexists. split; [reflexivity|]. split; [lia|].
  pose proof (Z.div_mod x p ltac:(lia)) as D.
  pose proof (Z.div_mod (x / p) 2 ltac:(lia)) as D2.
  assert (EQ : x mod p - p * ((x / p) mod 2) - x = (- (x / p / 2) - (x / p) mod 2) * (p * 2)) by nia.
  rewrite EQ. apply Z_mod_mult.
Qed.

Lemma relative_dist_disabled : forall a b bits, get_relative_dist a b false bits = Ok 0.
Proof. reflexivity. Qed.

(** Motion vectors. *)
Lemma lower_mv_std : forall f v, - 2 ^ 62 <= v <= 2 ^ 62 -> lower_mv_precision f v = Ok (av1_lower_mv false f v).
Proof.
  intros f v H. unfold lower_mv_precision, av1_lower_mv. destruct f.
  - assert (E : (if 0 <=? v then Ok v else chk_i64 (- v)) = Ok (Z.abs v)).
    { destruct (0 <=? v) eqn:E; [rewrite Z.abs_eq by lia; reflexivity|]. rewrite chk_i64_ok by lia. rewrite Z.abs_neq by lia. reflexivity. }
    rewrite E. cbn [bind]. rewrite chk_i64_ok by lia. cbn [bind].
    rewrite shiftr_div, shiftl_mul by lia. change (2 ^ 3) with 8.
    rewrite as_i64_id by lia.
    destruct (Z.sgn_spec v) as [[? Q]|[[? Q]|[? Q]]]; rewrite ?Q; (destruct (0 <? v) eqn:E2; [f_equal; lia|]); try rewrite chk_i64_ok by lia; f_equal; lia.
  - rewrite land_1. rewrite (odd_mod v). replace (v mod 2 =? 1) with (negb (v mod 2 =? 0)) by lia. destruct (negb (v mod 2 =? 0)) eqn:E; [|reflexivity].
    destruct (0 <? v) eqn:E2; rewrite chk_i64_ok by lia; f_equal; lia.
Qed.

Lemma lower_mv_facts : forall f v, - 2 ^ 62 <= v <= 2 ^ 62 -> exists r, lower_mv_precision f v = Ok r /\
  (if f then r mod 8 = 0 /\ Z.abs (r - v) <= 4 else r mod 2 = 0 /\ Z.abs (r - v) <= 1 /\ Z.abs r <= Z.abs v) /\
  (0 <= v * r).
Proof.
  intros f v H. rewrite (lower_mv_std f v H). eexists. split; [reflexivity|]. unfold av1_lower_mv.
  destruct f.
  - destruct (Z.sgn_spec v) as [[? Q]|[[? Q]|[? Q]]]; rewrite ?Q; (split; [split; lia|nia]).
  - rewrite (odd_mod v). replace (v mod 2 =? 1) with (negb (v mod 2 =? 0)) by lia. destruct (negb (v mod 2 =? 0)) eqn:E; destruct (Z.sgn_spec v) as [[? Q]|[[? Q]|[? Q]]]; rewrite ?Q; (split; [split; lia|nia]).
Qed.

Lemma ok_val : forall A (a b : A), Ok a = Ok b -> a = b.
Proof. intros A a b H. congruence. Qed.

(** Where high precision vectors are allowed the standard leaves them alone. *)
Lemma lower_mv_hp : forall f v, - 2 ^ 62 <= v <= 2 ^ 62 ->
  (lower_mv_precision f v = Ok (av1_lower_mv true f v) <-> v mod (if f then 8 else 2) = 0).
Proof.
  intros f v H. rewrite (lower_mv_std f v H). cbn [av1_lower_mv].
  assert (X : (if f then Z.sgn v * (8 * ((Z.abs v + 3) / 8)) else if Z.odd v then v - Z.sgn v else v) = v <-> v mod (if f then 8 else 2) = 0).
  { destruct f.
    - destruct (Z.sgn_spec v) as [[? Q]|[[? Q]|[? Q]]]; rewrite ?Q; lia.
    - rewrite (odd_mod v). replace (v mod 2 =? 1) with (negb (v mod 2 =? 0)) by lia. destruct (negb (v mod 2 =? 0)) eqn:E; destruct (Z.sgn_spec v) as [[? Q]|[[? Q]|[? Q]]]; rewrite ?Q; lia. }
  split; intros E; [apply X; apply ok_val in E; exact E|]. f_equal. apply X. exact E.
Qed.

(** Segment ids. *)
Lemma neg_interleave_panics : forall v rf max, 0 < rf < max - 1 -> 0 <= v < 2 ^ 62 -> max < 2 ^ 62 ->
  neg_interleave v rf max = Panic.
Proof.
  intros v rf max H Hv Hm. unfold neg_interleave.
  destruct (rf =? 0) eqn:E; [lia|]. rewrite (chk_u64_ok (max - 1)) by lia. cbn [bind].
  destruct (max - 1 <=? rf) eqn:E1; [lia|]. rewrite (chk_u64_ok (2 * rf)) by lia. cbn [bind].
  assert (P : v <= rf -> forall A (k : Z -> res A), bind (bind (chk_u64 (v - rf)) (fun a => chk_u64 (as_u64 (Z.shiftl a 1) - 1))) k = Panic).
  { intros L A k. destruct (Z.eq_dec v rf) as [->|N].
    - rewrite Z.sub_diag. reflexivity.
    - unfold chk_u64 at 1. rewrite chk_not_ok by lia. reflexivity. }
  destruct (Z.le_gt_cases v rf) as [L|L].
  - destruct (2 * rf <? max).
    + match goal with |- bind (chk_u64 (v - rf)) ?k = _ => destruct (chk_u64 (v - rf)) as [a| |] eqn:Q; try reflexivity end.
      * apply chk_inv in Q. destruct Q as [-> Q]. assert (v = rf) by lia. subst v. rewrite Z.sub_diag. reflexivity.
      * unfold chk_u64, chk in Q. destruct (_ && _) in Q; discriminate.
    + match goal with |- bind (chk_u64 (v - rf)) ?k = _ => destruct (chk_u64 (v - rf)) as [a| |] eqn:Q; try reflexivity end.
      * apply chk_inv in Q. destruct Q as [-> Q]. assert (v = rf) by lia. subst v. rewrite Z.sub_diag. reflexivity.
      * unfold chk_u64, chk in Q. destruct (_ && _) in Q; discriminate.
  - assert (B : chk_u64 (rf - v) = Panic) by (apply chk_not_ok; lia).
    rewrite (chk_u64_ok (v - rf)) by lia. cbn [bind]. rewrite shiftl_mul by lia. change (2 ^ 1) with 2.
    rewrite (as_u64_id ((v - rf) * 2)) by lia.
    rewrite (chk_u64_ok ((v - rf) * 2 - 1)) by lia. cbn [bind]. rewrite B. cbn [bind].
    destruct (2 * rf <? max); reflexivity.
Qed.

Lemma neg_interleave_ends : forall v rf max, 1 <= max < 2 ^ 62 -> 0 <= v < max -> rf = 0 \/ max - 1 <= rf ->
  exists code, neg_interleave v rf max = Ok code /\ 0 <= code < max /\ av1_neg_deinterleave code rf max = v.
Proof.
  intros v rf max Hm Hv H. unfold neg_interleave, av1_neg_deinterleave.
  destruct (rf =? 0) eqn:E; [exists v; repeat split; lia|].
  rewrite (chk_u64_ok (max - 1)) by lia. cbn [bind].
  destruct (max - 1 <=? rf) eqn:E1; [|lia]. rewrite chk_u64_ok by lia. eexists. split; [reflexivity|]. lia.
Qed.

Lemma as_u64_neg : forall z, - 2 ^ 64 <= z < 0 -> as_u64 z = z + 2 ^ 64.
Proof. intros z H. unfold as_u64. rewrite <- (Z_mod_plus_full z 1 (2 ^ 64)). rewrite Z.mod_small; lia. Qed.

(** The wrapping version, with unbounded integers. *)
Lemma neg_wrapping_value : forall v rf max, 0 <= rf < 2 ^ 60 -> 1 <= max < 2 ^ 60 -> 0 <= v < max ->
  neg_interleave_wrapping v rf max =
  if rf =? 0 then v
  else if max - 1 <=? rf then max - 1 - v
  else if 2 * rf <? max then
    if (rf <? v) && (2 * (v - rf) - 1 <=? 2 * rf) then 2 * (v - rf) - 1
    else if (v <=? rf) && (2 * (rf - v) <=? 2 * rf) then 2 * (rf - v) else v
  else
    if (rf <? v) && (2 * (v - rf) - 1 <=? 2 * (max - rf - 1)) then 2 * (v - rf) - 1
    else if (v <=? rf) && (2 * (rf - v) <=? 2 * (max - rf - 1)) then 2 * (rf - v) else as_u64 (rf - v - 1).
Proof.
  intros v rf max Hr Hm Hv. unfold neg_interleave_wrapping.
  destruct (rf =? 0) eqn:E; [reflexivity|]. rewrite (as_u64_id (max - 1)) by lia.
  destruct (max - 1 <=? rf) eqn:E1; [rewrite as_u64_id by lia; reflexivity|].
  rewrite (as_u64_id (2 * rf)) by lia. cbv zeta.
  rewrite (as_u64_id (2 * (max - rf - 1))) by lia.
  destruct (Z.lt_trichotomy v rf) as [L|[L|L]].
  - rewrite (as_u64_neg (v - rf)) by lia. rewrite (as_u64_id (rf - v)) by lia. rewrite (as_u64_id (2 * (rf - v))) by lia.
    assert (X : as_u64 (2 * (v - rf + 2 ^ 64) - 1) = 2 * (v - rf) - 1 + 2 ^ 64).
    { unfold as_u64. replace (2 * (v - rf + 2 ^ 64) - 1) with (2 * (v - rf) - 1 + 2 ^ 64 + 1 * 2 ^ 64) by lia.
      rewrite Z_mod_plus_full. rewrite Z.mod_small; lia. }
    rewrite X.
    replace (2 * (v - rf) - 1 + 2 ^ 64 <=? 2 * rf) with false by lia.
    replace (2 * (v - rf) - 1 + 2 ^ 64 <=? 2 * (max - rf - 1)) with false by lia.
    replace (rf <? v) with false by lia. replace (v <=? rf) with true by lia. cbn [andb]. reflexivity.
  - subst v. rewrite Z.sub_diag. rewrite (as_u64_id 0) by lia. rewrite Z.mul_0_r. rewrite (as_u64_id 0) by lia.
    rewrite (as_u64_neg (0 - 1)) by lia.
    replace (0 - 1 + 2 ^ 64 <=? 2 * rf) with false by lia.
    replace (0 - 1 + 2 ^ 64 <=? 2 * (max - rf - 1)) with false by lia.
    replace (rf <? rf) with false by lia. replace (rf <=? rf) with true by lia. cbn [andb]. reflexivity.
  - rewrite (as_u64_id (v - rf)) by lia. rewrite (as_u64_id (2 * (v - rf) - 1)) by lia.
    rewrite (as_u64_neg (rf - v)) by lia.
    assert (X : as_u64 (2 * (rf - v + 2 ^ 64)) = 2 * (rf - v) + 2 ^ 64).
    { unfold as_u64. replace (2 * (rf - v + 2 ^ 64)) with (2 * (rf - v) + 2 ^ 64 + 1 * 2 ^ 64) by lia.
      rewrite Z_mod_plus_full. rewrite Z.mod_small; lia. }
    rewrite X.
    replace (2 * (rf - v) + 2 ^ 64 <=? 2 * rf) with false by lia.
    replace (2 * (rf - v) + 2 ^ 64 <=? 2 * (max - rf - 1)) with false by lia.
    replace (rf <? v) with true by lia. replace (v <=? rf) with false by lia. cbn [andb]. reflexivity.
Qed.


Lemma neg_wrapping_recovered : forall v rf max, 0 <= rf < 2 ^ 60 -> 1 <= max < 2 ^ 60 -> 0 <= v < max ->
  (av1_neg_deinterleave (neg_interleave_wrapping v rf max) rf max = v <->
   ~ (0 < rf < max - 1 /\ max <= 2 * rf /\ v < 2 * rf - max + 1)).
Proof.
  intros v rf max Hr Hm Hv. rewrite neg_wrapping_value by assumption. unfold av1_neg_deinterleave.
  destruct (rf =? 0) eqn:E0; [lia|]. destruct (max - 1 <=? rf) eqn:E1; [lia|].
  destruct (2 * rf <? max) eqn:E2.
  - destruct ((rf <? v) && (2 * (v - rf) - 1 <=? 2 * rf)) eqn:A; [|destruct ((v <=? rf) && (2 * (rf - v) <=? 2 * rf)) eqn:B];
      rewrite odd_mod; match goal with |- context [?x <=? 2 * rf] => destruct (x <=? 2 * rf) eqn:D end;
      try match goal with |- context [?x mod 2 =? 1] => destruct (x mod 2 =? 1) eqn:F end; lia.
  - destruct ((rf <? v) && (2 * (v - rf) - 1 <=? 2 * (max - rf - 1))) eqn:A; [|destruct ((v <=? rf) && (2 * (rf - v) <=? 2 * (max - rf - 1))) eqn:B];
      [| |rewrite as_u64_id by lia];
      rewrite odd_mod; match goal with |- context [?x <=? 2 * (max - rf - 1)] => destruct (x <=? 2 * (max - rf - 1)) eqn:D end;
      try match goal with |- context [?x mod 2 =? 1] => destruct (x mod 2 =? 1) eqn:F end; lia.
Qed.

(** Delta q and delta lf. *)
Definition delta_coded (extra delta : Z) : Z :=
  let a := Z.abs delta in
  let rem := Z.log2 (a - 1) in
  if a <? 3 then delta
  else Z.sgn delta * ((a - 1 - 2 ^ (rem - 1) - extra) mod 2 ^ rem + 2 ^ rem + 1).

Lemma log2_range : forall a, 3 <= a <= 512 -> 1 <= Z.log2 (a - 1) <= 8 /\ 2 ^ Z.log2 (a - 1) <= a - 1 < 2 * 2 ^ Z.log2 (a - 1) /\
  2 ^ Z.log2 (a - 1) = 2 * 2 ^ (Z.log2 (a - 1) - 1).
Proof.
  intros a H. pose proof (Z.log2_spec (a - 1) ltac:(lia)) as [A B]. rewrite Z.pow_succ_r in B by apply Z.log2_nonneg.
  pose proof (Z.log2_le_mono 2 (a - 1) ltac:(lia)) as L1. change (Z.log2 2) with 1 in L1.
  assert (Z.log2 (a - 1) <= Z.log2 511) by (apply Z.log2_le_mono; lia). change (Z.log2 511) with 8 in *.
  split; [lia|]. split; [lia|]. rewrite <- Z.pow_succ_r by lia. f_equal. lia.
Qed.

Lemma delta_coded_iff : forall extra delta, Z.abs delta <= 512 -> extra = 0 \/ extra = 1 ->
  (delta_coded extra delta = delta <-> Z.abs delta < 3 + 2 * extra).
Proof.
  intros extra delta H He. unfold delta_coded. cbv zeta. destruct (Z.abs delta <? 3) eqn:E; [lia|].
  destruct (log2_range (Z.abs delta) ltac:(lia)) as (R & P & Q).
  set (rem := Z.log2 (Z.abs delta - 1)) in *. set (h := 2 ^ (rem - 1)) in *. rewrite Q in *.
  assert (Hh : 1 <= h) by (subst h; pose proof (pow2_pos (rem - 1)); lia).
  assert (Hh2 : (h = 1 /\ rem = 1) \/ 2 <= h).
  { destruct (Z.eq_dec rem 1) as [E1|E1]; [left; subst h; rewrite E1; split; reflexivity|].
    right. subst h. change 2 with (2 ^ 1) at 1. apply pow2_le. lia. }
  set (a := Z.abs delta) in *.
  assert (M : (a - 1 - h - extra) mod (2 * h) = if a - 1 <? 3 * h + extra then a - 1 - h - extra else a - 1 - 3 * h - extra).
  { destruct (a - 1 <? 3 * h + extra) eqn:C.
    - rewrite Z.mod_small; lia.
    - replace (a - 1 - h - extra) with (a - 1 - 3 * h - extra + 1 * (2 * h)) by lia. rewrite Z_mod_plus_full.
      rewrite Z.mod_small; lia. }
  rewrite M. destruct (Z.sgn_spec delta) as [[? S]|[[? S]|[? S]]]; rewrite S; subst a; destruct (Z.abs delta - 1 <? 3 * h + extra) eqn:C; lia.
Qed.

Lemma delta_reads : forall extra ctx delta, Z.abs delta <= 512 -> extra = 0 \/ extra = 1 ->
  let a := Z.abs delta in
  let rem := Z.log2 (a - 1) in
  let tail := [OLit 1 (if delta <? 0 then 1 else 0)] in
  let ops := if delta =? 0 then [OSym ctx 0]
             else if a <? 3 then [OSym ctx (Z.to_nat a)] ++ tail
             else [OSym ctx 3; OLit 3 (rem - 1); OLit (Z.to_nat rem) (a - 1 - 2 ^ (rem - 1) - extra)] ++ tail in
  reads (av1_delta ctx) (map norm ops) (delta_coded extra delta) /\
  (forall sizes, nth_error sizes ctx = Some 4%nat -> Forall (valid_op sizes) (map norm ops)) /\
  (session_symbols ops <= 13)%nat.
Proof.
  intros extra ctx delta H He a rem tail ops. unfold delta_coded. fold a. fold rem. cbv zeta.
  assert (Hs : forall x n, (0 <= x mod 2 ^ Z.of_nat n < 2 ^ Z.of_nat n)) by (intros; apply Z.mod_pos_bound, pow2_nat_pos).
  unfold ops, tail. destruct (delta =? 0) eqn:E0.
  { assert (delta = 0) by lia. subst delta. cbn. split; [split; [reflexivity|]; reflexivity|].
    split; [|lia]. intros sizes Hz. repeat constructor. exists 4%nat. split; [assumption|lia]. }
  destruct (a <? 3) eqn:E.
  - split; [|split].
    + cbn [app map norm reads av1_delta ask_sym ask_lit val shape_of]. split; [reflexivity|].
      destruct (Z.of_nat (Z.to_nat a) =? 3) eqn:E3; [lia|].
      destruct (Z.of_nat (Z.to_nat a) =? 0) eqn:E4; [lia|]. cbn [reads]. split; [reflexivity|]. cbn [val].
      destruct (delta <? 0) eqn:E5; cbn; lia.
    + intros sizes Hz. cbn [app map norm]. constructor; [exists 4%nat; split; [assumption|lia]|]. constructor; [|constructor].
      cbn [valid_op]. split; [lia|apply Hs].
    + cbn. lia.
  - destruct (log2_range a ltac:(lia)) as (R & P & Q). fold rem in R, P, Q.
    assert (E3 : (rem - 1) mod 2 ^ Z.of_nat 3 = rem - 1) by (apply Z.mod_small; cbn; lia).
    split; [|split].
    + cbn [app map norm reads av1_delta ask_sym ask_lit val shape_of]. split; [reflexivity|].
      change (Z.of_nat 3 =? 3) with true. cbn [reads val shape_of]. split; [reflexivity|].
      rewrite E3. cbn [val]. replace (rem - 1 + 1) with rem by lia. split; [reflexivity|].
      rewrite Z2Nat.id by lia. cbn [val].
      pose proof (Z.mod_pos_bound (a - 1 - 2 ^ (rem - 1) - extra) (2 ^ rem) (pow2_pos rem ltac:(lia))) as B.
      pose proof (pow2_pos rem ltac:(lia)).
      set (X := (a - 1 - 2 ^ (rem - 1) - extra) mod 2 ^ rem) in *. clearbody X.
      destruct (X + 2 ^ rem + 1 =? 0) eqn:E4; [lia|]. cbn [reads shape_of val]. split; [reflexivity|].
      destruct (Z.sgn_spec delta) as [[? S]|[[? S]|[? S]]]; rewrite S; destruct (delta <? 0) eqn:E5; try (exfalso; lia);
        cbn [reads val]; [change (0 mod 2 ^ Z.of_nat 1 =? 0) with true|change (1 mod 2 ^ Z.of_nat 1 =? 0) with false]; cbv iota; lia.
    + intros sizes Hz. cbn [app map norm]. rewrite E3. constructor; [exists 4%nat; split; [assumption|lia]|].
      constructor; [cbn; lia|]. constructor; [cbn [valid_op]; split; [lia|apply Hs]|]. constructor; [|constructor].
      cbn [valid_op]. split; [lia|apply Hs].
    + cbn. lia.
Qed.

Lemma delta_q_ops_value : forall ctx q cur k, 0 <= q < 2 ^ 63 -> 0 <= cur < 2 ^ 63 -> 0 <= k < 64 ->
  let delta := (q - cur) / 2 ^ k in let a := Z.abs delta in let rem := Z.log2 (a - 1) in
  a <= 512 ->
  delta_q_ops ctx q cur k = Ok (
    (if delta =? 0 then [OSym ctx 0]
     else if a <? 3 then [OSym ctx (Z.to_nat a)] ++ [OLit 1 (if delta <? 0 then 1 else 0)]
     else [OSym ctx 3; OLit 3 (rem - 1); OLit (Z.to_nat rem) (a - 1 - 2 ^ (rem - 1) - 0)] ++ [OLit 1 (if delta <? 0 then 1 else 0)]), q).
Proof.
  intros ctx q cur k Hq Hc Hk delta a rem Ha. unfold delta_q_ops. rewrite !as_i64_id by lia. rewrite chk_i64_ok by lia. cbn [bind].
  rewrite shift_ok_ok by lia. cbn [bind]. rewrite shiftr_div by lia. fold delta.
  assert (E : (if 0 <=? delta then Ok delta else chk_i64 (- delta)) = Ok a).
  { destruct (0 <=? delta) eqn:E; [unfold a; rewrite Z.abs_eq by lia; reflexivity|]. rewrite chk_i64_ok by lia. unfold a. rewrite Z.abs_neq by lia. reflexivity. }
  rewrite E. cbn [bind]. destruct (delta =? 0) eqn:E0; cbn [negb].
  { replace a with 0 by lia. reflexivity. }
  unfold DELTA_Q_SMALL. destruct (a <? 3) eqn:E3; [reflexivity|].
  destruct (log2_range a ltac:(lia)) as (R & P & Q). fold rem in R, P, Q.
  rewrite as_u16_id by lia. rewrite msb16_log2 by lia. cbn [bind]. fold rem.
  rewrite (chk_u8_ok (rem - 1)) by lia. cbn [bind]. rewrite shiftl_mul, Z.mul_1_l by lia.
  rewrite (chk_u64_ok (a - 1 - 2 ^ (rem - 1))) by lia. cbn [bind]. rewrite Z.sub_0_r. reflexivity.
Qed.

Lemma delta_lf_ops_value : forall ctx q cur k, - 2 ^ 62 <= q < 2 ^ 62 -> - 2 ^ 62 <= cur < 2 ^ 62 -> 0 <= k < 64 ->
  let delta := (q - cur) / 2 ^ k in let a := Z.abs delta in let rem := Z.log2 (a - 1) in
  a <= 512 ->
  delta_lf_ops ctx q cur k =
    (if delta =? 0 then Ok ([OSym ctx 0], q)
     else if a <? 3 then Ok ([OSym ctx (Z.to_nat a)] ++ [OLit 1 (if delta <? 0 then 1 else 0)], q)
     else Ok ([OSym ctx 3; OLit 3 (rem - 1); OLit (Z.to_nat rem) (a - 1 - 2 ^ (rem - 1) - 1)] ++ [OLit 1 (if delta <? 0 then 1 else 0)], q)).
Proof.
  intros ctx q cur k Hq Hc Hk delta a rem Ha. unfold delta_lf_ops. rewrite chk_i64_ok by lia. cbn [bind].
  rewrite shift_ok_ok by lia. cbn [bind]. rewrite shiftr_div by lia. fold delta.
  destruct (delta =? 0) eqn:E0; cbn [negb]; [reflexivity|].
  assert (E : (if 0 <=? delta then Ok delta else chk_i64 (- delta)) = Ok a).
  { destruct (0 <=? delta) eqn:E; [unfold a; rewrite Z.abs_eq by lia; reflexivity|]. rewrite chk_i64_ok by lia. unfold a. rewrite Z.abs_neq by lia. reflexivity. }
  rewrite E. cbn [bind].
  unfold DELTA_LF_SMALL. destruct (a <? 3) eqn:E3; [reflexivity|].
  destruct (log2_range a ltac:(lia)) as (R & P & Q). fold rem in R, P, Q.
  rewrite as_u16_id by lia. rewrite msb16_log2 by lia. cbn [bind]. fold rem.
  rewrite (chk_u8_ok (rem - 1)) by lia. cbn [bind]. rewrite shiftl_mul, Z.mul_1_l by lia.
  pose proof (pow2_pos (rem - 1) ltac:(lia)).
  rewrite (chk_u64_ok (a - 1 - 2 ^ (rem - 1))) by lia. cbn [bind].
  rewrite (chk_u64_ok (a - 1 - 2 ^ (rem - 1) - 1)) by lia. cbn [bind]. reflexivity.
Qed.

Lemma fits_insert : forall pre ops post, (session_symbols ops <= 13)%nat ->
  Z.of_nat (session_symbols (pre ++ post)) + 13 <= 2 ^ 26 -> fits (pre ++ ops ++ post).
Proof. intros pre ops post H Hf. unfold fits. rewrite !session_symbols_app in *. lia. Qed.

Lemma delta_q_transmitted : forall sizes t ctx pre post q cur k,
  valid_table sizes t -> nth_error sizes ctx = Some 4%nat ->
  Forall (valid_op sizes) pre -> Forall (valid_op sizes) post -> Z.of_nat (session_symbols (pre ++ post)) + 13 <= 2 ^ 26 ->
  0 <= q < 2 ^ 63 -> 0 <= cur < 2 ^ 63 -> 0 <= k < 64 -> Z.abs ((q - cur) / 2 ^ k) <= 512 ->
  exists ops v, delta_q_ops ctx q cur k = Ok (ops, q) /\ transmits t pre ops post (av1_delta ctx) v /\
    (v = (q - cur) / 2 ^ k <-> Z.abs ((q - cur) / 2 ^ k) < 3).
Proof.
  intros sizes t ctx pre post q cur k Ht Hx Hp Hpo Hf Hq Hc Hk Ha.
  rewrite (delta_q_ops_value ctx q cur k Hq Hc Hk Ha).
  destruct (delta_reads 0 ctx ((q - cur) / 2 ^ k) Ha ltac:(lia)) as (R & V & S).
  eexists. exists (delta_coded 0 ((q - cur) / 2 ^ k)). split; [reflexivity|]. split.
  - eapply transmits_ok; [eassumption|assumption|apply V; assumption|assumption|apply fits_insert; [exact S|exact Hf]|exact R].
  - apply (delta_coded_iff 0); [assumption|lia].
Qed.

Lemma delta_lf_transmitted : forall sizes t ctx pre post q cur k,
  valid_table sizes t -> nth_error sizes ctx = Some 4%nat ->
  Forall (valid_op sizes) pre -> Forall (valid_op sizes) post -> Z.of_nat (session_symbols (pre ++ post)) + 13 <= 2 ^ 26 ->
  - 2 ^ 62 <= q < 2 ^ 62 -> - 2 ^ 62 <= cur < 2 ^ 62 -> 0 <= k < 64 -> Z.abs ((q - cur) / 2 ^ k) <= 512 ->
  exists ops v, delta_lf_ops ctx q cur k = Ok (ops, q) /\ transmits t pre ops post (av1_delta ctx) v /\
    (v = (q - cur) / 2 ^ k <-> Z.abs ((q - cur) / 2 ^ k) <= 4).
Proof.
  intros sizes t ctx pre post q cur k Ht Hx Hp Hpo Hf Hq Hc Hk Ha.
  rewrite (delta_lf_ops_value ctx q cur k Hq Hc Hk Ha).
  destruct (delta_reads 1 ctx ((q - cur) / 2 ^ k) Ha ltac:(lia)) as (R & V & S). cbv zeta in R, V, S.
  destruct ((q - cur) / 2 ^ k =? 0) eqn:E0; [|destruct (Z.abs ((q - cur) / 2 ^ k) <? 3) eqn:E3];
    (eexists; exists (delta_coded 1 ((q - cur) / 2 ^ k)); split; [reflexivity|]; split;
    [eapply transmits_ok; [eassumption|assumption|apply V; assumption|assumption|apply fits_insert; [exact S|exact Hf]|exact R]
    |pose proof (delta_coded_iff 1 _ Ha ltac:(lia)); lia]).
Qed.

(** Sub-exponential codes. *)
Definition mk_of (i : Z) : Z := if i =? 0 then 0 else 2 ^ (i + 2).

Lemma encode_subexp_loop_ok : forall fuel out v num i,
  0 <= i -> 34 <= Z.of_nat fuel + i -> mk_of i <= v < num -> num <= 2 ^ 31 ->
  exists D, encode_subexp_loop fuel out v num i (mk_of i) = Ok (out ++ D) /\
    forall tail, rd_subexp_loop fuel i (mk_of i) num (D ++ tail) = Some (v, tail).
Proof.
  induction fuel; intros out v num i Hi Hf Hv Hn.
  - exfalso. assert (32 <= i) by lia. unfold mk_of in Hv. destruct (i =? 0) eqn:E; [lia|].
    pose proof (pow2_le 34 (i + 2) ltac:(lia)). lia.
  - assert (I29 : i <= 28).
    { unfold mk_of in Hv. destruct (i =? 0) eqn:E; [lia|]. apply Z.le_ngt. intros L. pose proof (pow2_le 31 (i + 2) ltac:(lia)). lia. }
    set (b2 := if i =? 0 then 3 else 3 + i - 1).
    assert (Hb2 : b2 = (if 0 <? i then 3 + i - 1 else 3)) by (subst b2; destruct (i =? 0) eqn:E, (0 <? i) eqn:E'; lia).
    assert (Hb : 3 <= b2 <= 30) by (subst b2; destruct (i =? 0) eqn:E; lia).
    assert (Ha : 8 <= 2 ^ b2 <= 2 ^ 30) by (split; [change 8 with (2 ^ 3); apply pow2_le; lia|apply pow2_le; lia]).
    assert (Hmk : 0 <= mk_of i <= 2 ^ 30) by (unfold mk_of; destruct (i =? 0) eqn:E; [lia|split; [pose proof (pow2_pos (i + 2)); lia|apply pow2_le; lia]]).
    assert (Hnx : mk_of (i + 1) = mk_of i + 2 ^ b2).
    { unfold mk_of. subst b2. destruct (i + 1 =? 0) eqn:E1; [lia|]. destruct (i =? 0) eqn:E.
      - replace i with 0 by lia. reflexivity.
      - replace (3 + i - 1) with (i + 2) by lia. replace (i + 1 + 2) with (Z.succ (i + 2)) by lia. rewrite Z.pow_succ_r by lia. lia. }
    cbn [encode_subexp_loop rd_subexp_loop]. fold b2. rewrite <- Hb2. rewrite chk_u8_ok by lia. cbn [bind].
    rewrite shift_ok_ok by lia. cbn [bind]. rewrite shiftl_mul, Z.mul_1_l by lia.
    rewrite (chk_u64_ok (3 * 2 ^ b2)) by lia. cbn [bind].
    rewrite (chk_u64_ok (mk_of i + 3 * 2 ^ b2)) by lia. cbn [bind].
    destruct (num <=? mk_of i + 3 * 2 ^ b2) eqn:E.
    + rewrite (chk_u64_ok (v - mk_of i)) by lia. cbn [bind]. rewrite (chk_u64_ok (num - mk_of i)) by lia. cbn [bind].
      exists (ns_code (num - mk_of i) (v - mk_of i)). split; [apply encode_ns_ok; lia|]. intros tail.
      assert (EP : num - mk_of i = Zpos (Z.to_pos (num - mk_of i))) by (rewrite Z2Pos.id; lia).
      rewrite EP at 2. rewrite rd_ns_ok by lia. cbn [obind]. f_equal. f_equal. lia.
    + rewrite (chk_u64_ok (mk_of i + 2 ^ b2 - 1)) by lia. cbn [bind].
      destruct (v <=? mk_of i + 2 ^ b2 - 1) eqn:E2.
      * rewrite (chk_u64_ok (v - mk_of i)) by lia. cbn [bind]. rewrite as_u32_id by lia.
        rewrite push_bits_with_size_ok by lia. unfold push. rewrite <- app_assoc. cbn [app].
        eexists. split; [reflexivity|]. intros tail. cbn [app rd1 obind].
        rewrite rd_ok by (rewrite Z2Nat.id by lia; lia). cbn [obind]. change (0 =? 1) with false. cbv iota. f_equal. f_equal. lia.
      * rewrite (chk_u8_ok (i + 1)) by lia. cbn [bind]. rewrite (chk_u64_ok (mk_of i + 2 ^ b2)) by lia. cbn [bind].
        rewrite <- Hnx. destruct (IHfuel (push out 1) v num (i + 1) ltac:(lia) ltac:(lia) ltac:(lia) Hn) as (D & E3 & R).
        exists (1 :: D). rewrite E3. unfold push. rewrite <- app_assoc. cbn [app]. split; [reflexivity|].
        intros tail. cbn [app rd1 obind]. change (1 =? 1) with true. cbv iota. apply R.
Qed.

Lemma encode_subexp_ok : forall out v num, 0 <= v < num -> num <= 2 ^ 31 ->
  exists D, encode_subexp out v num = Ok (out ++ D) /\ forall tail, rd_subexp num (D ++ tail) = Some (v, tail).
Proof.
  intros out v num Hv Hn. unfold encode_subexp, rd_subexp. change 0 with (mk_of 0) at 2 4.
  apply encode_subexp_loop_ok; [lia|lia|exact Hv|exact Hn].
Qed.

Lemma inverse_recenter_ok : forall r v, 0 <= r < 2 ^ 62 -> 0 <= v < 2 ^ 62 ->
  inverse_recenter r v = Ok (av1_inverse_recenter r v).
Proof.
  intros r v Hr Hv. unfold inverse_recenter, av1_inverse_recenter. rewrite (chk_u64_ok (2 * r)) by lia. cbn [bind].
  destruct (2 * r <? v) eqn:E; [reflexivity|]. rewrite land_1, odd_mod, !shiftr_div by lia. change (2 ^ 1) with 2.
  destruct (0 <? v mod 2) eqn:E1, (v mod 2 =? 1) eqn:E2; try lia.
  - rewrite (chk_u64_ok (v + 1)) by lia. cbn [bind]. rewrite shiftr_div by lia. change (2 ^ 1) with 2. apply chk_u64_ok. lia.
  - apply chk_u64_ok. lia.
Qed.

Lemma av1_inverse_recenter_range : forall r v mx, 0 <= v < mx -> 0 <= r -> 2 * r <= mx -> 0 <= av1_inverse_recenter r v < mx \/ (2 * r = mx /\ v = mx).
Proof.
  intros r v mx Hv Hr H. unfold av1_inverse_recenter. destruct (2 * r <? v) eqn:E; [lia|]. rewrite odd_mod.
  destruct (v mod 2 =? 1) eqn:E1; left; lia.
Qed.

(** Prediction in the lower half: what the decoder gets is the inverse
    recentering applied twice. *)
Lemma unsigned_subexp_low : forall out v mx r, 0 <= v < mx -> mx <= 2 ^ 31 -> 0 <= r -> 2 * r <= mx ->
  exists D, encode_unsigned_subexp_with_ref out v mx r = Ok (out ++ D) /\
    forall tail, rd_unsigned_subexp mx r (D ++ tail) = Some (av1_inverse_recenter r (av1_inverse_recenter r v), tail).
Proof.
  intros out v mx r Hv Hm Hr H. unfold encode_unsigned_subexp_with_ref. rewrite shiftl_mul by lia. change (2 ^ 1) with 2.
  rewrite as_u64_id by lia. destruct (r * 2 <=? mx) eqn:E; [|lia].
  rewrite inverse_recenter_ok by lia. cbn [bind].
  destruct (av1_inverse_recenter_range r v mx Hv Hr H) as [B|B]; [|lia].
  destruct (encode_subexp_ok out _ mx B Hm) as (D & ED & R). exists D. split; [exact ED|].
  intros tail. unfold rd_unsigned_subexp. rewrite R. cbn [obind]. destruct (2 * r <=? mx) eqn:E2; [reflexivity|lia].
Qed.

Lemma recenter_twice_above : forall r v, 0 <= r -> 2 * r < v -> av1_inverse_recenter r (av1_inverse_recenter r v) = v.
Proof. intros r v Hr H. unfold av1_inverse_recenter. destruct (2 * r <? v) eqn:E; [rewrite E; reflexivity|lia]. Qed.

(** The value equal to its prediction. *)
Lemma recenter_twice_pred : forall r, 2 <= r -> av1_inverse_recenter r (av1_inverse_recenter r r) <> r.
Proof.
  intros r Hr. unfold av1_inverse_recenter. destruct (2 * r <? r) eqn:E; [lia|]. rewrite !odd_mod.
  destruct (r mod 2 =? 1) eqn:E1.
  - destruct (2 * r <? r - (r + 1) / 2) eqn:E2; [lia|]. destruct ((r - (r + 1) / 2) mod 2 =? 1) eqn:E3; lia.
  - destruct (2 * r <? r + r / 2) eqn:E2; [lia|]. destruct ((r + r / 2) mod 2 =? 1) eqn:E3; lia.
Qed.

Lemma chk_u64_panic : forall z, z < 0 -> chk_u64 z = Panic.
Proof. intros. apply chk_not_ok. lia. Qed.

(** Translation parameters whose prediction is not positive. *)
Lemma global_param_low : forall out translation hp idx gm prev,
  0 <= idx < 2 ->
  let '(ab, pb) := trans_bits translation hp in
  let m := gm / 2 ^ (16 - pb) in let p := prev / 2 ^ (16 - pb) in let mx := 2 ^ ab in
  - mx <= m <= mx -> - mx <= p <= 0 ->
  exists D, encode_global_param out translation hp idx gm prev = Ok (out ++ D) /\
    forall tail, rd_global_param translation hp idx prev (D ++ tail) =
      Some ((av1_inverse_recenter (p + mx) (av1_inverse_recenter (p + mx) (m + mx)) - mx) * 2 ^ (16 - pb), tail).
Proof.
  intros out translation hp idx gm prev Hi. destruct (trans_bits translation hp) as [ab pb] eqn:TB.
  intros m p mx Hm Hp. unfold encode_global_param, rd_global_param. cbv zeta.
  destruct (idx <? 2) eqn:E; [|lia]. destruct (idx mod 3 =? 2) eqn:E2; [lia|].
  replace (if translation then (9 - (if hp then 0 else 1), 3 - (if hp then 0 else 1)) else (12, 6)) with (ab, pb)
    by (rewrite <- TB; unfold trans_bits; destruct translation, hp; reflexivity).
  replace (if translation then GM_ABS_TRANS_ONLY_BITS - b2z (negb hp) else GM_ABS_TRANS_BITS) with ab
    by (change ab with (fst (ab, pb)); rewrite <- TB; unfold trans_bits; destruct translation, hp; reflexivity).
  replace (if translation then GM_TRANS_ONLY_PREC_BITS - b2z (negb hp) else GM_TRANS_PREC_BITS) with pb
    by (change pb with (snd (ab, pb)); rewrite <- TB; unfold trans_bits; destruct translation, hp; reflexivity).
  assert (Hab : 8 <= ab <= 12 /\ 2 <= pb <= 6) by (unfold trans_bits in TB; destruct translation, hp; cbn in *; inversion TB; lia).
  assert (Pm : 2 ^ 8 <= mx <= 2 ^ 12) by (subst mx; split; apply pow2_le; lia).
  assert (Pd : 1 <= 2 ^ (16 - pb) <= 2 ^ 14) by (split; [pose proof (pow2_pos (16 - pb)); lia|apply pow2_le; lia]).
  unfold WARPEDMODEL_PREC_BITS. rewrite !Z.sub_0_r, !shiftr_div, shiftl_mul, Z.mul_1_l by lia. fold mx. fold m. fold p.
  rewrite (chk_i64_ok p) by lia. cbn [bind].
  assert (Hg : - 2 ^ 40 <= gm <= 2 ^ 40).
  { subst m. pose proof (Z.div_mod gm (2 ^ (16 - pb)) ltac:(lia)). pose proof (Z.mod_pos_bound gm (2 ^ (16 - pb)) ltac:(lia)). nia. }
  rewrite (chk_i64_ok gm) by lia. cbn [bind]. rewrite ?shiftr_div by lia. fold m.
  unfold encode_signed_subexp_with_ref. rewrite (chk_i64_ok (m - - mx)), (chk_i64_ok (mx + 1 - - mx)), (chk_i64_ok (p - - mx)) by lia.
  cbn [bind]. rewrite !as_u64_id by lia.
  replace (m - - mx) with (m + mx) by lia. replace (p - - mx) with (p + mx) by lia.
  destruct (unsigned_subexp_low out (m + mx) (mx + 1 - - mx) (p + mx) ltac:(lia) ltac:(lia) ltac:(lia) ltac:(lia)) as (D & ED & R).
  exists D. split; [exact ED|]. intros tail. unfold rd_signed_subexp.
  replace (p - - mx) with (p + mx) by lia. rewrite R. cbn [obind]. f_equal. f_equal. lia.
Qed.

Lemma global_param_predicted : forall out translation hp idx gm,
  0 <= idx < 2 ->
  let '(ab, pb) := trans_bits translation hp in
  - 2 ^ ab + 2 <= gm / 2 ^ (16 - pb) <= 0 ->
  exists D v, encode_global_param out translation hp idx gm gm = Ok (out ++ D) /\
    (forall tail, rd_global_param translation hp idx gm (D ++ tail) = Some (v, tail)) /\
    v <> gm / 2 ^ (16 - pb) * 2 ^ (16 - pb).
Proof.
  intros out translation hp idx gm Hi. pose proof (global_param_low out translation hp idx gm gm Hi) as X.
  destruct (trans_bits translation hp) as [ab pb] eqn:TB. intros H.
  assert (Hab : 8 <= ab <= 12 /\ 2 <= pb <= 6) by (unfold trans_bits in TB; destruct translation, hp; cbn in *; inversion TB; lia).
  assert (Pm : 2 ^ 8 <= 2 ^ ab <= 2 ^ 12) by (split; apply pow2_le; lia).
  cbv zeta in X. destruct (X ltac:(lia) ltac:(lia)) as (D & ED & R).
  exists D. eexists. split; [exact ED|]. split; [exact R|].
  pose proof (recenter_twice_pred (gm / 2 ^ (16 - pb) + 2 ^ ab) ltac:(lia)) as N.
  intros E. apply Z.mul_reg_r in E; [|pose proof (pow2_pos (16 - pb)); lia]. lia.
Qed.

Lemma global_param_diagonal : forall out translation hp idx gm, idx = 2 \/ idx = 5 ->
  - 2 ^ 60 <= gm <= 2 ^ 60 -> encode_global_param out translation hp idx gm 0 = Panic.
Proof.
  intros out translation hp idx gm Hi Hg. unfold encode_global_param.
  destruct (idx <? 2) eqn:E; [lia|]. destruct (idx mod 3 =? 2) eqn:E2; [|lia].
  change (Z.shiftr 0 (WARPEDMODEL_PREC_BITS - GM_ALPHA_PREC_BITS) - Z.shiftl 1 GM_ALPHA_PREC_BITS) with (-32768).
  change (Z.shiftl 1 WARPEDMODEL_PREC_BITS) with 65536. change (Z.shiftl 1 GM_ABS_ALPHA_BITS) with 4096.
  change (WARPEDMODEL_PREC_BITS - GM_ALPHA_PREC_BITS) with 1.
  rewrite chk_i64_ok by lia. cbn [bind]. rewrite chk_i64_ok by lia. cbn [bind].
  rewrite shiftr_div by lia. change (2 ^ 1) with 2. unfold encode_signed_subexp_with_ref.
  rewrite (chk_i64_ok ((gm - 65536) / 2 - Z.opp 4096)) by lia. cbn [bind].
  replace (chk_i64 (4096 + 1 - Z.opp 4096)) with (@Ok Z 8193) by reflexivity.
  replace (chk_i64 (-32768 - Z.opp 4096)) with (@Ok Z (-28672)) by reflexivity. cbn [bind].
  unfold encode_unsigned_subexp_with_ref. change (as_u64 (-28672)) with 18446744073709522944. change (as_u64 8193) with 8193.
  change (as_u64 (Z.shiftl 18446744073709522944 1) <=? 8193) with false. cbv iota.
  change (chk_u64 (8193 - 1)) with (@Ok Z 8192). cbn [bind].
  change (chk_u64 (8192 - 18446744073709522944)) with (@Panic Z). cbn [bind].
  match goal with |- bind (chk_u64 ?z) _ = _ => unfold chk_u64 at 1; unfold chk; destruct ((0 <=? z) && (z <=? 2 ^ 64 - 1)) end; reflexivity.
Qed.

Lemma current_q_iff : forall q cur k, 2 ^ k <= q <= 255 -> 1 <= cur <= 255 -> 0 <= k <= 3 ->
  (av1_current_q cur ((q - cur) / 2 ^ k) k = q <-> (q - cur) mod 2 ^ k = 0).
Proof.
  intros q cur k Hq Hc Hk. unfold av1_current_q.
  assert (K : k = 0 \/ k = 1 \/ k = 2 \/ k = 3) by lia.
  destruct K as [->|[->|[->| ->]]]; [change (2 ^ 0) with 1 in *|change (2 ^ 1) with 2 in *|change (2 ^ 2) with 4 in *|change (2 ^ 3) with 8 in *];
    match goal with |- context [?x =? 0] => destruct (x =? 0) eqn:E end; lia.
Qed.
