(** Adaptation never makes a symbol (nearly) impossible: probabilities do not fall below
    32 / 32768. *)
From Coq Require Import ZArith List Bool Lia Sorted ZifyBool ZifyNat.
From Verif Require Import Base BaseProofs UtilModel RangeCoderModel RangeCoderSpec SessionModel SessionSpec CdfProofs SegmentProofs SyntaxSpec SyntaxProofs FloorSpec.
Import ListNotations.
Open Scope Z_scope.

Lemma div_lip a b p : 0 < p -> b <= a -> a / p - b / p <= a - b.
Proof.
  intros P L. assert (a <= b + (a - b) * p) by nia. pose proof (Z.div_le_mono a (b + (a - b) * p) p P H) as D.
  rewrite Z.div_add in D by lia. lia.
Qed.
Lemma div_neg a p : 0 < p -> a < 0 -> a <= a / p <= -1.
Proof.
  intros P L. split.
  - apply Z.div_le_lower_bound; [lia|]. nia.
  - assert (a / p < 0) by (apply Z.div_lt_upper_bound; lia). lia.
Qed.

Lemma probs_last N cdf : valid_cdf N cdf -> (2 <= N)%nat /\ nth (N - 1) cdf 0 = 32768.
Proof.
  intros (probs & cnt & -> & L & B & _ & E & _). split; [lia|]. rewrite app_nth1 by lia. rewrite <- E.
  destruct (@exists_last Z probs) as (r & x & ->); [intros ->; cbn in L; lia|].
  rewrite last_last. rewrite app_length in L. cbn [length] in L. rewrite app_nth2 by lia. replace (N - 1 - length r)%nat with O by lia. reflexivity.
Qed.

Lemma floor_step N s cdf cdf' : valid_cdf N cdf -> draft_adapted N s cdf cdf' ->
  forall j, (j < N)%nat -> Z.min 32 (prob cdf j) <= prob cdf' j.
Proof.
  intros V (L & A & E & _) j J. destruct (probs_last N cdf V) as [N2 EV].
  set (rate := draft_rate (Z.of_nat N) (nth N cdf 0)) in *.
  assert (R : 0 <= rate). { unfold rate, draft_rate. pose proof (Z.log2_nonneg (Z.of_nat N)). destruct (31 <? nth N cdf 0); lia. }
  assert (P : 0 < 2 ^ rate) by (apply Z.pow_pos_nonneg; lia).
  assert (NB : (N <= 1024)%nat) by (destruct V as (? & ? & _ & _ & B & _); lia).
  unfold draft_target in A. set (diff := (32768 - 32 * Z.of_nat N) / 2 ^ rate * 2 ^ rate) in *.
  assert (D : 0 <= diff <= 32768 - 32 * Z.of_nat N).
  { unfold diff. pose proof (Z.mul_div_le (32768 - 32 * Z.of_nat N) (2 ^ rate) P). assert (0 <= (32768 - 32 * Z.of_nat N) / 2 ^ rate) by (apply Z.div_pos; lia). nia. }
  clearbody diff. clearbody rate. set (p := 2 ^ rate) in *. clearbody p. unfold prob. destruct j as [|j].
  - rewrite (A 0%nat) by lia. set (c := nth 0 cdf 0). set (T := 32 * (Z.of_nat 0 + 1) + _). assert (32 <= T) by (unfold T; destruct (Z.of_nat 0 <? s); lia). clearbody T.
    destruct (Z_lt_le_dec c T) as [K|K].
    + pose proof (div_neg (c - T) p P ltac:(lia)). lia.
    + pose proof (div_lip (c - T) 0 p P ltac:(lia)) as X. rewrite Z.div_0_l in X by lia. lia.
  - rewrite (A j) by lia. set (x := nth j cdf 0). destruct (Nat.eq_dec (S j) (N - 1)) as [Q|Q].
    + rewrite Q, E, EV. set (T := 32 * (Z.of_nat j + 1) + _).
      assert (T <= 32768 - 32) by (unfold T; destruct (Z.of_nat j <? s); lia). clearbody T.
      destruct (Z_lt_le_dec x T) as [K|K].
      * pose proof (div_neg (x - T) p P ltac:(lia)). lia.
      * assert (0 <= (x - T) / p) by (apply Z.div_pos; lia). lia.
    + rewrite (A (S j)) by lia. set (y := nth (S j) cdf 0).
      set (Tx := 32 * (Z.of_nat j + 1) + _). set (Ty := 32 * (Z.of_nat (S j) + 1) + _).
      assert (Tx + 32 <= Ty) by (unfold Tx, Ty; destruct (Z.ltb_spec (Z.of_nat j) s), (Z.ltb_spec (Z.of_nat (S j)) s); lia). clearbody Tx Ty.
      destruct (Z_lt_le_dec (y - Ty) (x - Tx)) as [K|K].
      * pose proof (Z.div_le_mono (y - Ty) (x - Tx) p P ltac:(lia)). lia.
      * pose proof (div_lip (y - Ty) (x - Tx) p P K). lia.
Qed.

Lemma floor_encode N cdf s c out c' out' cdf' : valid_cdf N cdf -> 0 <= s -> encode_symbol c s out cdf = Ok (c', out', cdf') ->
  forall j, (j < N)%nat -> Z.min 32 (prob cdf j) <= prob cdf' j.
Proof. intros V S E. exact (floor_step N s cdf cdf' V (encode_adapts _ _ _ _ _ _ _ _ V S E)). Qed.
Lemma floor_decode N cdf c q s c' q' cdf' : valid_cdf N cdf -> decode_symbol c q cdf = Ok (s, c', q', cdf') ->
  forall j, (j < N)%nat -> Z.min 32 (prob cdf j) <= prob cdf' j.
Proof. intros V E. exact (floor_step N s cdf cdf' V (decode_adapts _ _ _ _ _ _ _ _ V E)). Qed.

(** ** Whole sessions *)
Lemma floored_valid m sizes t : floored_table m sizes t -> valid_table sizes t.
Proof. intros H. induction H as [|N cdf ? ? F ? IH]; constructor; [exact (proj1 F)|exact IH]. Qed.
Lemma floored_nth m sizes t i : floored_table m sizes t -> (i < length t)%nat -> exists N, nth_error sizes i = Some N /\ floored m N (nth i t []).
Proof.
  intros H. revert i. induction H as [|N cdf ? ? F ? IH]; intros i I; [cbn in I; lia|]. destruct i as [|i]; [exists N; split; [reflexivity|exact F]|].
  cbn in I. exact (IH i ltac:(lia)).
Qed.
Lemma floored_set m sizes t i N cdf : floored_table m sizes t -> nth_error sizes i = Some N -> floored m N cdf -> floored_table m sizes (set_nth i cdf t).
Proof.
  intros H. revert i. induction H as [|M x ? ? F G IH]; intros i I K; [destruct i; discriminate|]. destruct i as [|i]; cbn [set_nth].
  - injection I as ->. constructor; assumption.
  - constructor; [exact F|]. exact (IH i I K).
Qed.
Lemma floored_encode m N cdf s c out c' out' cdf' : m <= 32 -> floored m N cdf -> 0 <= s -> encode_symbol c s out cdf = Ok (c', out', cdf') -> floored m N cdf'.
Proof.
  intros M [V F] S E. split; [exact (encode_keeps_valid _ _ _ _ _ _ _ _ V E)|]. intros j J.
  pose proof (floor_encode _ _ _ _ _ _ _ _ V S E j J). pose proof (F j J). lia.
Qed.
Lemma floored_decode m N cdf c q s c' q' cdf' : m <= 32 -> floored m N cdf -> decode_symbol c q cdf = Ok (s, c', q', cdf') -> floored m N cdf'.
Proof.
  intros M [V F] E. split; [exact (decode_keeps_valid _ _ _ _ _ _ _ _ V E)|]. intros j J.
  pose proof (floor_decode _ _ _ _ _ _ _ _ V E j J). pose proof (F j J). lia.
Qed.
Lemma idx_inv {A} (t : list A) i x d : idx t (Z.of_nat i) = Ok x -> (i < length t)%nat /\ x = nth i t d.
Proof.
  unfold idx. destruct (Z.of_nat i <? 0) eqn:E; [lia|]. rewrite Nat2Z.id. destruct (nth_error t i) as [y|] eqn:F; [|discriminate]. intros K. injection K as <-.
  split; [apply nth_error_Some; congruence|]. symmetry. apply nth_error_nth. exact F.
Qed.
Lemma floored_ops m sizes : m <= 32 -> forall ops c t out c' t' out', floored_table m sizes t -> encode_ops c t out ops = Ok (c', t', out') -> floored_table m sizes t'.
Proof.
  intros M. induction ops as [|o ops IH]; intros c t out c' t' out' F E; cbn [encode_ops] in E; [injection E as <- <- <-; exact F|].
  apply bind_inv in E. destruct E as ([[c1 t1] out1] & E1 & E). apply (IH _ _ _ _ _ _) in E; [exact E|]. clear E IH.
  destruct o as [i s|p b|p bs|n v]; cbn [encode_op] in E1.
  - apply bind_inv in E1. destruct E1 as (cdf & Ei & E1). apply bind_inv in E1. destruct E1 as ([[c2 out2] cdf2] & Es & E1). injection E1 as <- <- <-.
    destruct (idx_inv _ _ _ [] Ei) as [L X]. destruct (floored_nth _ _ _ _ F L) as (N & HN & FN). rewrite <- X in FN.
    apply (floored_set _ _ _ _ N); [exact F|exact HN|]. exact (floored_encode _ _ _ _ _ _ _ _ _ M FN (Nat2Z.is_nonneg s) Es).
  - apply bind_inv in E1. destruct E1 as ([? ?] & _ & E1). injection E1 as <- <- <-. exact F.
  - apply bind_inv in E1. destruct E1 as ([? ?] & _ & E1). injection E1 as <- <- <-. exact F.
  - apply bind_inv in E1. destruct E1 as ([? ?] & _ & E1). injection E1 as <- <- <-. exact F.
Qed.
Lemma floored_session m sizes c t out ops c' t' out' : m <= 32 -> floored_table m sizes t -> encode_session c t out ops = Ok (c', t', out') -> floored_table m sizes t'.
Proof.
  intros M F E. unfold encode_session in E. apply bind_inv in E. destruct E as ([[c1 t1] o1] & E1 & E). apply bind_inv in E. destruct E as ([c2 o2] & _ & E). injection E as <- <- <-.
  exact (floored_ops _ _ M _ _ _ _ _ _ _ F E1).
Qed.
Lemma floored_decode_ops m sizes : m <= 32 -> forall ss c t q os c' t' q', floored_table m sizes t -> decode_ops c t q ss = Ok (os, c', t', q') -> floored_table m sizes t'.
Proof.
  intros M. induction ss as [|o ss IH]; intros c t q os c' t' q' F E; cbn [decode_ops] in E; [injection E as <- <- <- <-; exact F|].
  apply bind_inv in E. destruct E as ([[[o1 c1] t1] q1] & E1 & E). apply bind_inv in E. destruct E as ([[[os2 c2] t2] q2] & E2 & E). injection E as <- <- <- <-.
  apply (IH _ _ _ _ _ _ _) in E2; [exact E2|]. clear E2 IH.
  destruct o as [i|p|p n|n]; cbn [decode_op] in E1.
  - apply bind_inv in E1. destruct E1 as (cdf & Ei & E1). apply bind_inv in E1. destruct E1 as ([[[s3 c3] q3] cdf3] & Es & E1). injection E1 as <- <- <- <-.
    destruct (idx_inv _ _ _ [] Ei) as [L X]. destruct (floored_nth _ _ _ _ F L) as (N & HN & FN). rewrite <- X in FN.
    apply (floored_set _ _ _ _ N); [exact F|exact HN|]. exact (floored_decode _ _ _ _ _ _ _ _ _ M FN Es).
  - apply bind_inv in E1. destruct E1 as ([[? ?] ?] & _ & E1). injection E1 as <- <- <- <-. exact F.
  - apply bind_inv in E1. destruct E1 as ([[? ?] ?] & _ & E1). injection E1 as <- <- <- <-. exact F.
  - apply bind_inv in E1. destruct E1 as ([[? ?] ?] & _ & E1). injection E1 as <- <- <- <-. exact F.
Qed.

(** ** What that means for the size of the output *)
Lemma floored_after m sizes t i s : m <= 32 -> floored_table m sizes t -> floored_table m sizes (table_after t (OSym i s)).
Proof.
  intros M F. cbn [table_after]. destruct (update_cdf (Z.of_nat s) (nth i t [])) as [cdf'| |] eqn:U; try exact F.
  destruct (Nat.lt_ge_cases i (length t)) as [L|L].
  - destruct (floored_nth _ _ _ _ F L) as (N & HN & V & FN). apply (floored_set _ _ _ _ N); [exact F|exact HN|].
    destruct (update_cdf_valid N _ (Z.of_nat s) V) as (x & Ux & Vx). rewrite U in Ux. injection Ux as <-. split; [exact Vx|].
    destruct (update_cdf_rule N (nth i t []) (Z.of_nat s) V ltac:(lia)) as (y & Uy & A). rewrite U in Uy. injection Uy as <-.
    intros j J. pose proof (floor_step N (Z.of_nat s) _ _ V A j J). pose proof (FN j J). lia.
  - replace (set_nth i cdf' t) with t; [exact F|]. clear - L. revert i L. induction t as [|x t IH]; intros i L; [destruct i; reflexivity|].
    destruct i as [|i]; cbn in *; [lia|]. f_equal. apply IH. lia.
Qed.
Lemma floored_cost m sizes k : m <= 32 -> 0 <= k <= 15 -> 2 ^ (15 - k) <= m -> forall msg t, floored_table m sizes t -> in_range sizes msg ->
  Z.of_nat (session_cost t (sym_ops msg)) <= k * Z.of_nat (length msg).
Proof.
  intros M K P. induction msg as [|[i s] msg IH]; intros t F R; [cbn; lia|].
  inversion R as [|? ? R1 R2]; subst. cbn [sym_ops map session_cost op_cost fst snd length]. pose proof (IH _ (floored_after m sizes t i s M F) R2) as B. unfold sym_ops in B.
  assert (C : Z.of_nat (cost (nth i t []) s) <= k).
  { destruct R1 as (N & HN & S). cbn [fst snd] in *. assert (L : (i < length t)%nat).
    { assert (LL : length sizes = length t) by (clear - F; induction F; cbn; congruence). rewrite <- LL. apply nth_error_Some. congruence. }
    destruct (floored_nth _ _ _ _ F L) as (N' & HN' & V & FN). rewrite HN in HN'. injection HN' as <-.
    apply (proj2 (cost_char N _ s V S)); [exact K|]. pose proof (FN s S). lia. }
  cbn [fst snd] in *. lia.
Qed.
Lemma floored_size m sizes k t msg c out : m <= 32 -> 0 <= k <= 15 -> 2 ^ (15 - k) <= m -> floored_table m sizes t -> in_range sizes msg ->
  Z.of_nat (length msg) <= 2 ^ 26 -> 0 <= bit_count c < 2 ^ 62 ->
  exists c' t' D, encode_session c t out (sym_ops msg) = Ok (c', t', out ++ D) /\ Z.of_nat (length D) <= Z.max 1 (k * Z.of_nat (length msg)) + 22.
Proof.
  intros M K P F R L B. assert (FT : fits (sym_ops msg)).
  { unfold fits. replace (session_symbols (sym_ops msg)) with (length msg); [exact L|]. clear. induction msg as [|x msg IH]; [reflexivity|]. cbn in *. rewrite IH. reflexivity. }
  destruct (compression sizes t (sym_ops msg) c out (floored_valid _ _ _ F) (sym_ops_valid _ _ R) FT B) as (c' & t' & D & pad & E & Pd & H).
  exists c', t', D. split; [exact E|]. pose proof (floored_cost m sizes k M K P msg t F R). lia.
Qed.

(** Entry by entry. *)
Lemma no_lower_refl N cdf : no_lower N cdf cdf.
Proof. intros j J. lia. Qed.
Lemma no_lower_trans N a b c : no_lower N a b -> no_lower N b c -> no_lower N a c.
Proof. intros H K j J. specialize (H j J). specialize (K j J). lia. Qed.
Lemma table_refl sizes t : table_no_lower sizes t t.
Proof. split; [reflexivity|]. intros i N _. apply no_lower_refl. Qed.
Lemma table_trans sizes a b c : table_no_lower sizes a b -> table_no_lower sizes b c -> table_no_lower sizes a c.
Proof. intros [L H] [M K]. split; [lia|]. intros i N E. exact (no_lower_trans N _ _ _ (H i N E) (K i N E)). Qed.
Lemma set_nth_other A (l : list A) : forall i j x d, i <> j -> nth j (set_nth i x l) d = nth j l d.
Proof. induction l as [|y l IH]; intros [|i] [|j] x d H; cbn [set_nth nth]; try reflexivity; try lia. apply IH. lia. Qed.
Lemma set_nth_same A (l : list A) : forall i x d, (i < length l)%nat -> nth i (set_nth i x l) d = x.
Proof. induction l as [|y l IH]; intros [|i] x d H; cbn [set_nth nth length] in *; try lia; [reflexivity|]. apply IH. lia. Qed.
Lemma set_nth_len A (l : list A) : forall i x, length (set_nth i x l) = length l.
Proof. induction l as [|y l IH]; intros [|i] x; cbn [set_nth length]; try reflexivity. rewrite IH. reflexivity. Qed.
Lemma table_set sizes t i cdf : (i < length t)%nat -> (forall N, nth_error sizes i = Some N -> no_lower N (nth i t []) cdf) -> table_no_lower sizes t (set_nth i cdf t).
Proof.
  intros I H. split; [apply set_nth_len|]. intros j N E. destruct (Nat.eq_dec i j) as [<-|D].
  - rewrite set_nth_same by exact I. exact (H N E).
  - rewrite set_nth_other by exact D. apply no_lower_refl.
Qed.
Lemma valid_floored N cdf : valid_cdf N cdf -> floored 0 N cdf.
Proof.
  intros V. split; [exact V|]. intros j J. destruct V as (probs & cnt & -> & L & B & Sd & _). 
  assert (G : forall x l, Sorted Z.lt (x :: l) -> forall j, (S j < length (x :: l))%nat -> nth j (x :: l) 0 < nth (S j) (x :: l) 0).
  { clear. intros x l. revert x. induction l as [|y l IH]; intros x Sd j J; [cbn in J; lia|]. inversion Sd as [|? ? S1 H1]; subst. inversion H1; subst.
    destruct j as [|j]; [cbn; lia|]. cbn in J. exact (IH y S1 j ltac:(cbn; lia)). }
  unfold prob. pose proof (G 0 probs Sd j ltac:(cbn; lia)) as K. destruct j as [|j]; [rewrite app_nth1 by lia; cbn in K; lia|].
  rewrite !app_nth1 by lia. cbn [nth] in K. change (nth (S j) (0 :: probs) 0) with (nth j probs 0) in K. lia.
Qed.
Lemma valid_to_floored sizes t : valid_table sizes t -> floored_table 0 sizes t.
Proof. intros H. induction H as [|N cdf ? ? V ? IH]; constructor; [exact (valid_floored _ _ V)|exact IH]. Qed.

Lemma lower_op sizes o c t out c' t' out' : valid_table sizes t -> encode_op c t out o = Ok (c', t', out') -> valid_table sizes t' /\ table_no_lower sizes t t'.
Proof.
  intros V E1. destruct o as [i s|p b|p bs|n v]; cbn [encode_op] in E1.
  - apply bind_inv in E1. destruct E1 as (cdf & Ei & E1). apply bind_inv in E1. destruct E1 as ([[c2 out2] cdf2] & Es & E1). injection E1 as <- <- <-.
    destruct (idx_inv _ _ _ [] Ei) as [L X]. destruct (floored_nth _ _ _ _ (valid_to_floored _ _ V) L) as (N & HN & FN). rewrite <- X in FN. split.
    + apply (floored_valid 0). apply (floored_set _ _ _ _ N); [exact (valid_to_floored _ _ V)|exact HN|]. exact (floored_encode 0 _ _ _ _ _ _ _ _ ltac:(lia) FN (Nat2Z.is_nonneg s) Es).
    + apply table_set; [exact L|]. intros M HM. rewrite HN in HM. injection HM as <-. rewrite <- X. exact (floor_encode _ _ _ _ _ _ _ _ (proj1 FN) (Nat2Z.is_nonneg s) Es).
  - apply bind_inv in E1. destruct E1 as ([? ?] & _ & E1). injection E1 as <- <- <-. split; [exact V|apply table_refl].
  - apply bind_inv in E1. destruct E1 as ([? ?] & _ & E1). injection E1 as <- <- <-. split; [exact V|apply table_refl].
  - apply bind_inv in E1. destruct E1 as ([? ?] & _ & E1). injection E1 as <- <- <-. split; [exact V|apply table_refl].
Qed.
Lemma lower_ops sizes : forall ops c t out c' t' out', valid_table sizes t -> encode_ops c t out ops = Ok (c', t', out') -> valid_table sizes t' /\ table_no_lower sizes t t'.
Proof.
  induction ops as [|o ops IH]; intros c t out c' t' out' V E; cbn [encode_ops] in E; [injection E as <- <- <-; split; [exact V|apply table_refl]|].
  apply bind_inv in E. destruct E as ([[c1 t1] out1] & E1 & E). destruct (lower_op _ _ _ _ _ _ _ _ V E1) as [V1 H1]. destruct (IH _ _ _ _ _ _ V1 E) as [V2 H2].
  split; [exact V2|exact (table_trans _ _ _ _ H1 H2)].
Qed.
Lemma lower_session sizes c t out ops c' t' out' : valid_table sizes t -> encode_session c t out ops = Ok (c', t', out') -> valid_table sizes t' /\ table_no_lower sizes t t'.
Proof.
  intros F E. unfold encode_session in E. apply bind_inv in E. destruct E as ([[c1 t1] o1] & E1 & E). apply bind_inv in E. destruct E as ([c2 o2] & _ & E). injection E as <- <- <-.
  exact (lower_ops _ _ _ _ _ _ _ _ F E1).
Qed.
Lemma lower_decode_op sizes s c t q o c' t' q' : valid_table sizes t -> decode_op c t q s = Ok (o, c', t', q') -> valid_table sizes t' /\ table_no_lower sizes t t'.
Proof.
  intros V E1. destruct s as [i|p|p n|n]; cbn [decode_op] in E1.
  - apply bind_inv in E1. destruct E1 as (cdf & Ei & E1). apply bind_inv in E1. destruct E1 as ([[[s3 c3] q3] cdf3] & Es & E1). injection E1 as <- <- <- <-.
    destruct (idx_inv _ _ _ [] Ei) as [L X]. destruct (floored_nth _ _ _ _ (valid_to_floored _ _ V) L) as (N & HN & FN). rewrite <- X in FN. split.
    + apply (floored_valid 0). apply (floored_set _ _ _ _ N); [exact (valid_to_floored _ _ V)|exact HN|]. exact (floored_decode 0 _ _ _ _ _ _ _ _ ltac:(lia) FN Es).
    + apply table_set; [exact L|]. intros M HM. rewrite HN in HM. injection HM as <-. rewrite <- X. exact (floor_decode _ _ _ _ _ _ _ _ (proj1 FN) Es).
  - apply bind_inv in E1. destruct E1 as ([[? ?] ?] & _ & E1). injection E1 as <- <- <- <-. split; [exact V|apply table_refl].
  - apply bind_inv in E1. destruct E1 as ([[? ?] ?] & _ & E1). injection E1 as <- <- <- <-. split; [exact V|apply table_refl].
  - apply bind_inv in E1. destruct E1 as ([[? ?] ?] & _ & E1). injection E1 as <- <- <- <-. split; [exact V|apply table_refl].
Qed.
Lemma lower_adaptive sizes : forall n f hist c t q os c' t' q', valid_table sizes t -> decode_adaptive n f hist c t q = Ok (os, c', t', q') -> valid_table sizes t' /\ table_no_lower sizes t t'.
Proof.
  induction n as [|n IH]; intros f hist c t q os c' t' q' V E; cbn [decode_adaptive] in E; [injection E as <- <- <- <-; split; [exact V|apply table_refl]|].
  apply bind_inv in E. destruct E as ([[[o1 c1] t1] q1] & E1 & E). destruct (lower_decode_op _ _ _ _ _ _ _ _ _ V E1) as [V1 H1]. destruct (IH _ _ _ _ _ _ _ _ _ V1 E) as [V2 H2].
  split; [exact V2|exact (table_trans _ _ _ _ H1 H2)].
Qed.
