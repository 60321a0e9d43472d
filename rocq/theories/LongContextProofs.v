(** The writers of a tile and the delta values, in sessions of any length. *)
From Coq Require Import String ZArith List Bool Lia ZifyBool ZifyNat.
From Verif Require Import Base BaseProofs UtilModel BitsSpec BitsProofs RangeCoderModel RangeCoderSpec CdfProofs RangeEncProofs RangeDecProofs SessionModel SessionSpec SessionProofs SegmentProofs LongSessionProofs LongSegmentProofs
  ReaderSpec ReaderProofs ElementModel ElementSpec ElementProofs CdfTables CdfTableSpec CdfTableProofs ContextModel ContextSpec ContextRunProofs.
Import ListNotations.
Open Scope Z_scope.

Lemma writer_back : forall c s out e c' s' out', codable s e -> run_writer c s out (Ok e) = Ok (c', s', out') ->
  encode_op c (flat s) out (op_of s e) = Ok (c', flat s', out') /\ erase_all s' = erase_all s.
Proof.
  intros c s out [[n p] v] c' s' out' [(t & F & row & G) V] E. destruct (field_slot _ _ _ _ _ F G) as (A & B & C).
  unfold run_writer in E. cbn [bind] in E. rewrite F in E. cbn [bind] in E. rewrite G in E. cbn [bind] in E.
  apply bind_inv in E. destruct E as ([[c1 o1] row1] & E & H). injection H as <- <- <-.
  cbn [op_of encode_op]. rewrite (idx_of_nat _ _ _ _ A). cbn [bind]. rewrite Z2Nat.id by exact V. rewrite E. cbn [bind]. rewrite B. split; [reflexivity|apply C].
Qed.
Lemma writers_back : forall es c s out c' s' out', Forall (codable s) es ->
  run_writers c s out (map (@Ok element) es) = Ok (c', s', out') ->
  encode_ops c (flat s) out (map (op_of s) es) = Ok (c', flat s', out') /\ erase_all s' = erase_all s.
Proof.
  induction es as [|e es IH]; intros c s out c' s' out' H E; cbn [map run_writers] in E.
  - injection E as <- <- <-. split; reflexivity.
  - inversion H as [|? ? He Hes]; subst. apply bind_inv in E. destruct E as ([[c1 s1] o1] & E1 & E2).
    destruct (writer_back _ _ _ _ _ _ _ He E1) as (W & Er).
    destruct (IH _ _ _ _ _ _ (Forall_impl _ (fun e' X => codable_erase s s1 e' (eq_sym Er) X) Hes) E2) as (W2 & Er2).
    cbn [map encode_ops]. rewrite W. cbn [bind]. split; [|congruence]. rewrite <- W2. f_equal. apply map_ext. intros e'. apply op_of_erase. congruence.
Qed.

Lemma long_writers : forall s (es : list element) c out c' s' o,
  state_ok s -> Forall in_range es -> 0 <= bit_count c < 2 ^ 62 ->
  write_session c s out (map (@Ok element) es) = Ok (c', s', o) -> Z.of_nat (List.length o) < Z.of_nat (List.length out) + 2 ^ 31 ->
  exists D rest, o = out ++ D /\ is_bits D /\
    forall d sz tail, 0 <= sz < 2 ^ 28 -> 2 * Z.of_nat (List.length D) <= 8 * sz + 2 ^ 31 -> is_bits tail ->
      exists d', read_session d s (D ++ tail) sz (map fst es) = Ok (map snd es, d', s', rest ++ tail).
Proof.
  intros s es c out c' s' o S R Hc W L.
  assert (Cd : Forall (codable s) es) by (eapply Forall_impl; [|exact R]; intros e He; apply (in_range_op s e S He)).
  assert (Vo : Forall (valid_op (sizes_of s)) (map (op_of s) es)).
  { apply Forall_map. eapply Forall_impl; [|exact R]. intros e He. apply (in_range_op s e S He). }
  unfold write_session in W. apply bind_inv in W. destruct W as ([[c1 s1] o1] & W & X). apply bind_inv in X. destruct X as ([c2 o2] & X & Y). injection Y as -> -> ->.
  destruct (writers_back _ _ _ _ _ _ _ Cd W) as (E & Er).
  assert (ES : encode_session c (flat s) out (map (op_of s) es) = Ok (c', flat s', o)) by (unfold encode_session; rewrite E; cbn [bind]; rewrite X; reflexivity).
  destruct (long_round_trip _ _ _ _ _ _ _ _ (state_valid s S) Vo Hc ES L) as (D & used & rest & -> & _ & B & F). exists D, rest. split; [reflexivity|]. split; [exact B|].
  intros d sz tail Hs HL Ht. destruct (F d sz tail Hs HL Ht) as (d' & G). exists d'.
  unfold decode_session in G. apply bind_inv in G. destruct G as ([d0 q0] & F0 & F1).
  destruct (readers_run _ _ _ _ _ _ _ _ Cd F1 eq_refl decode_symbol_nonneg) as (s2 & R2 & Fl2 & Er2).
  assert (s' = s2) by (apply erase_all_inj; congruence). subst s2. unfold read_session. rewrite F0. cbn [bind]. exact R2.
Qed.

Lemma carries_ok : forall A sizes t pre ops post (r : reader A) a,
  valid_table sizes t -> Forall (valid_op sizes) pre -> Forall (valid_op sizes) (map norm ops) -> Forall (valid_op sizes) post ->
  reads r (map norm ops) a -> carries t pre ops post r a.
Proof.
  intros A sizes t pre ops post r a Ht Hp Ho Hq R c' t' D E sz tail Hl Hs Htl.
  set (all := pre ++ map norm ops ++ post).
  assert (Ha : Forall (valid_op sizes) all) by (apply Forall_app; split; [assumption|]; apply Forall_app; split; assumption).
  assert (E' : encode_session new_coder t [] all = Ok (c', t', D)).
  { rewrite <- encode_session_norm in E. rewrite !map_app in E. rewrite (norm_valid_all sizes pre), (norm_valid_all sizes post) in E by assumption. exact E. }
  destruct (long_round_trip sizes t all new_coder [] c' t' D Ht Ha ltac:(cbn; lia) E' ltac:(cbn [List.length]; lia)) as (D' & used & rest & ED & _ & _ & F).
  cbn [app] in ED. subst D'. destruct (F new_coder sz tail Hs ltac:(lia) Htl) as (d' & G). clear F.
  unfold decode_session in G. apply bind_inv in G. destruct G as ([d0 q0] & I & G). unfold all in G.
  destruct (decode_ops_split _ _ _ _ _ _ _ _ G) as (d1 & t1 & q1 & F1 & F').
  destruct (decode_ops_split _ _ _ _ _ _ _ _ F') as (d2 & t2 & q2 & F2 & F3).
  exists d1, t1, q1, d2, t2, q2, d', (rest ++ tail).
  split; [unfold decode_session; rewrite I; cbn [bind]; exact F1|].
  split; [|exact F3]. eapply reads_run; eassumption.
Qed.

Lemma delta_q_carried : forall sizes t ctx pre post q cur k,
  valid_table sizes t -> nth_error sizes ctx = Some 4%nat -> Forall (valid_op sizes) pre -> Forall (valid_op sizes) post ->
  0 <= q < 2 ^ 63 -> 0 <= cur < 2 ^ 63 -> 0 <= k < 64 -> Z.abs ((q - cur) / 2 ^ k) <= 512 ->
  exists ops v, delta_q_ops ctx q cur k = Ok (ops, q) /\ carries t pre ops post (av1_delta ctx) v /\
    (v = (q - cur) / 2 ^ k <-> Z.abs ((q - cur) / 2 ^ k) < 3).
Proof.
  intros sizes t ctx pre post q cur k Ht Hx Hp Hpo Hq Hc Hk Ha.
  rewrite (delta_q_ops_value ctx q cur k Hq Hc Hk Ha).
  destruct (delta_reads 0 ctx ((q - cur) / 2 ^ k) Ha ltac:(lia)) as (R & V & S).
  eexists. exists (delta_coded 0 ((q - cur) / 2 ^ k)). split; [reflexivity|]. split.
  - eapply carries_ok; [eassumption|assumption|apply V; assumption|assumption|exact R].
  - apply (delta_coded_iff 0); [assumption|lia].
Qed.
Lemma delta_lf_carried : forall sizes t ctx pre post q cur k,
  valid_table sizes t -> nth_error sizes ctx = Some 4%nat -> Forall (valid_op sizes) pre -> Forall (valid_op sizes) post ->
  - 2 ^ 62 <= q < 2 ^ 62 -> - 2 ^ 62 <= cur < 2 ^ 62 -> 0 <= k < 64 -> Z.abs ((q - cur) / 2 ^ k) <= 512 ->
  exists ops v, delta_lf_ops ctx q cur k = Ok (ops, q) /\ carries t pre ops post (av1_delta ctx) v /\
    (v = (q - cur) / 2 ^ k <-> Z.abs ((q - cur) / 2 ^ k) <= 4).
Proof.
  intros sizes t ctx pre post q cur k Ht Hx Hp Hpo Hq Hc Hk Ha.
  rewrite (delta_lf_ops_value ctx q cur k Hq Hc Hk Ha).
  destruct (delta_reads 1 ctx ((q - cur) / 2 ^ k) Ha ltac:(lia)) as (R & V & S). cbv zeta in R, V, S.
  destruct ((q - cur) / 2 ^ k =? 0) eqn:E0; [|destruct (Z.abs ((q - cur) / 2 ^ k) <? 3) eqn:E3];
    (eexists; exists (delta_coded 1 ((q - cur) / 2 ^ k)); split; [reflexivity|]; split;
    [eapply carries_ok; [eassumption|assumption|apply V; assumption|assumption|exact R]
    |pose proof (delta_coded_iff 1 _ Ha ltac:(lia)); lia]).
Qed.

(** A session is as long as its cost. *)
Lemma long_small : forall sizes t ops c out, valid_table sizes t -> Forall (valid_op sizes) ops -> 0 <= bit_count c < 2 ^ 62 ->
  Z.of_nat (session_cost t ops) <= 2 ^ 31 - 32 ->
  exists c' t' D, encode_session c t out ops = Ok (c', t', out ++ D) /\ Z.of_nat (List.length D) <= Z.of_nat (session_cost t ops) + 23.
Proof.
  intros sizes t ops c out Ht Ho Hbc Hk.
  destruct (paired_ops sizes _ t Ht Ho out (bit_count c) (init_encoder c) out [] 0 0%nat (init_inv c out Hbc))
    as (c1 & B1 & L1 & n1 & E1 & I1 & R1 & N1 & M1 & Lb1 & D1).
  { unfold init_encoder. cbn [bool_range]. rewrite shiftl_mul by lia. change (1 * 2 ^ 15) with 32768. lia. }
  { lia. }
  apply bind_inv in E1. destruct E1 as ([[c1' t1] out1] & E1 & E1'). inversion E1'; subst; clear E1'.
  destruct (exit_encoder_ok _ _ _ _ _ _ _ I1 ltac:(lia) ltac:(lia)) as (c2 & D & pad & E2 & HD & Hpad & HlD & _).
  exists c2, (tables_after t ops), D. unfold encode_session. rewrite E1. cbn [bind]. rewrite E2. cbn [bind]. split; [reflexivity|].
  assert (pad <= 7)%nat by (clear - Hpad; lia). clear - HlD N1 H Hk. lia.
Qed.
Lemma session_cost_app : forall a b t, session_cost t (a ++ b) = (session_cost t a + session_cost (tables_after t a) b)%nat.
Proof. induction a as [|o a IH]; intros b t; [reflexivity|]. cbn [app session_cost tables_after]. rewrite IH. lia. Qed.
Lemma long_middle : forall sizes t ops k, valid_table sizes t -> Forall (valid_op sizes) ops -> (session_symbols ops <= 10)%nat -> 0 <= k <= 2 ^ 30 - 200 ->
  exists pre c' t' D, Forall (valid_op sizes) pre /\ Z.of_nat (session_symbols pre) = k /\
    encode_session new_coder t [] (pre ++ ops ++ pre) = Ok (c', t', D) /\ Z.of_nat (List.length D) < 2 ^ 31.
Proof.
  intros sizes t ops k Ht Ho Hs Hk. assert (B : is_bit 1) by (right; reflexivity). set (pre := repeat (OBit 128 1) (Z.to_nat k)).
  assert (V : Forall (valid_op sizes) pre) by (apply half_bits_valid; exact B).
  assert (C : Z.of_nat (session_cost t (pre ++ ops ++ pre)) <= 2 * k + 150).
  { rewrite !session_cost_app. unfold pre. rewrite !half_bits_cost by exact B. pose proof (session_cost_le ops (tables_after t (repeat (OBit 128 1) (Z.to_nat k)))). lia. }
  destruct (long_small sizes t (pre ++ ops ++ pre) new_coder [] Ht) as (c' & t' & D & E & L).
  - apply Forall_app; split; [exact V|]. apply Forall_app; split; [exact Ho|exact V].
  - cbn. lia.
  - lia.
  - exists pre, c', t', D. split; [exact V|]. split; [unfold pre; rewrite half_bits_symbols; lia|]. split; [exact E|lia].
Qed.
