(** Consequences of the session theorem: appending, prefixes, injectivity,
    alignment, position after decoding. *)
From Coq Require Import ZArith List Bool Lia ZifyBool ZifyNat Sorted.
From Verif Require Import Base BaseProofs UtilModel UtilProofs BitsSpec BitsProofs
  RangeCoderModel RangeCoderSpec CdfProofs RangeEncProofs RangeDecProofs SessionModel SessionSpec SessionProofs.
Import ListNotations.
Open Scope Z_scope.
Ltac Zify.zify_post_hook ::= Z.div_mod_to_equations.

(** Put [p] in front of the output component of a result. *)
Definition pre2 {A : Type} (p : list Z) (r : res (A * list Z)) : res (A * list Z) :=
  '(a, o) <- r ;; Ok (a, p ++ o).
Definition pre3 {A B : Type} (p : list Z) (r : res (A * list Z * B)) : res (A * list Z * B) :=
  '(a, o, b) <- r ;; Ok (a, p ++ o, b).

Lemma push_pre : forall p out b, push (p ++ out) b = p ++ push out b.
Proof. intros. unfold push. rewrite app_assoc. reflexivity. Qed.

Lemma emit_pre : forall c p out b, emit c (p ++ out) b = pre2 p (emit c out b).
Proof. intros. unfold emit, pre2. destruct (chk_u64 (bit_count c + 1)); cbn [bind]; [|reflexivity..]. rewrite push_pre. reflexivity. Qed.

Lemma emit_n_pre : forall k c p out b, emit_n k c (p ++ out) b = pre2 p (emit_n k c out b).
Proof.
  induction k; intros; [reflexivity|]. cbn [emit_n]. rewrite emit_pre. unfold pre2.
  destruct (emit c out b) as [[? ?]| |]; cbn [bind]; [|reflexivity..]. rewrite IHk. reflexivity.
Qed.

Lemma carry_pre : forall c p out, carry_step c (p ++ out) = pre2 p (carry_step c out).
Proof.
  intros. unfold carry_step. destruct (65536 <=? bool_value c); [|reflexivity]. cbv zeta.
  destruct (0 <? bool_value_zero_count _); [|reflexivity].
  rewrite emit_pre. unfold pre2 at 1.
  destruct (emit _ out 1) as [[? ?]| |]; cbn [bind]; [|reflexivity..].
  rewrite emit_n_pre. unfold pre2. destruct (emit_n _ _ l 0) as [[? ?]| |]; reflexivity.
Qed.

Lemma renorm_pre : forall k c p out, renorm_loop k c (p ++ out) = pre2 p (renorm_loop k c out).
Proof.
  induction k; intros; [reflexivity|]. cbn [renorm_loop].
  destruct (bool_range c <? 32768); [|reflexivity]. cbv zeta.
  destruct (negb (bool_first c)); cbn [bind].
  - destruct (Z.land (Z.shiftr (bool_value c) 15) 1 =? 0).
    + destruct (bool_value_last_zero c).
      * rewrite emit_pre. unfold pre2 at 1. destruct (emit c out 0) as [[? ?]| |]; cbn [bind]; [|reflexivity..].
        rewrite emit_n_pre. unfold pre2 at 1. destruct (emit_n _ _ l 1) as [[? ?]| |]; cbn [bind]; [|reflexivity..]. apply IHk.
      * cbn [bind]. rewrite emit_n_pre. unfold pre2 at 1. destruct (emit_n _ _ out 1) as [[? ?]| |]; cbn [bind]; [|reflexivity..]. apply IHk.
    + destruct (chk_i32 (bool_value_zero_count c + 1)); cbn [bind]; [|reflexivity..]. apply IHk.
  - apply IHk.
Qed.

Lemma encode_symbol_pre : forall c s p out cdf,
  encode_symbol c s (p ++ out) cdf = pre3 p (encode_symbol c s out cdf).
Proof.
  intros. unfold encode_symbol, encode_symbol_fuel.
  destruct (chk_u64 (len cdf - 1)); cbn [bind]; [|reflexivity..].
  match goal with |- bind ?e _ = pre3 p (bind ?e _) => destruct e; cbn [bind]; [|reflexivity..] end.
  match goal with |- bind ?e _ = pre3 p (bind ?e _) => destruct e; cbn [bind]; [|reflexivity..] end.
  do 3 (match goal with |- bind ?e _ = pre3 p (bind ?e _) => destruct e; cbn [bind]; [|reflexivity..] end).
  cbv zeta.
  do 3 (match goal with |- bind ?e _ = pre3 p (bind ?e _) => destruct e; cbn [bind]; [|reflexivity..] end).
  rewrite carry_pre. unfold pre2 at 1. destruct (carry_step _ out) as [[? ?]| |]; cbn [bind]; [|reflexivity..].
  rewrite renorm_pre. unfold pre2 at 1. destruct (renorm_loop 40 c0 l) as [[? ?]| |]; cbn [bind]; [|reflexivity..].
  destruct (update_cdf s cdf); reflexivity.
Qed.

Lemma push_value_bits_pre : forall k v i p out, push_value_bits k v i (p ++ out) = p ++ push_value_bits k v i out.
Proof. induction k; intros; [reflexivity|]. cbn [push_value_bits]. rewrite push_pre. apply IHk. Qed.

Lemma push_n_pre : forall k p out b, push_n k (p ++ out) b = p ++ push_n k out b.
Proof. induction k; intros; [reflexivity|]. cbn [push_n]. rewrite push_pre. apply IHk. Qed.

Lemma exit_encoder_pre : forall c p out, exit_encoder c (p ++ out) = pre2 p (exit_encoder c out).
Proof.
  intros. unfold exit_encoder.
  assert (G : forall c p out,
    ('(c, out) <- emit_n (Z.to_nat (bool_value_zero_count c)) c (p ++ out) 1 ;;
     let out := push_value_bits 16 (bool_value c) 0 out in
     let padding := (8 - bit_count c mod 8) mod 8 in
     Ok (c, push_n (Z.to_nat padding) out 0)) =
    pre2 p ('(c, out) <- emit_n (Z.to_nat (bool_value_zero_count c)) c out 1 ;;
     let out := push_value_bits 16 (bool_value c) 0 out in
     let padding := (8 - bit_count c mod 8) mod 8 in
     Ok (c, push_n (Z.to_nat padding) out 0))).
  { intros. rewrite emit_n_pre. unfold pre2 at 1.
    destruct (emit_n _ c0 out0 1) as [[? ?]| |]; cbn [bind]; [|reflexivity..].
    cbv zeta. rewrite push_value_bits_pre, push_n_pre. reflexivity. }
  destruct (bool_value_last_zero c).
  - rewrite emit_pre. unfold pre2 at 1. destruct (emit c out 0) as [[? ?]| |]; cbn [bind]; [|reflexivity..]. apply G.
  - cbn [bind]. apply G.
Qed.

Lemma encode_symbolp_pre : forall c b p out pr, encode_symbolp c b (p ++ out) pr = pre2 p (encode_symbolp c b out pr).
Proof.
  intros. unfold encode_symbolp. destruct (cdf_p pr); cbn [bind]; [|reflexivity..].
  rewrite encode_symbol_pre. unfold pre3. destruct (encode_symbol c b out a) as [[[? ?] ?]| |]; reflexivity.
Qed.

Lemma encode_symbols_loop_pre : forall bs c p out cdf,
  encode_symbols_loop c bs (p ++ out) cdf = pre2 p (encode_symbols_loop c bs out cdf).
Proof.
  induction bs; intros; [reflexivity|]. cbn [encode_symbols_loop].
  rewrite encode_symbol_pre. unfold pre3. destruct (encode_symbol c a out cdf) as [[[? ?] ?]| |]; cbn [bind]; [|reflexivity..].
  apply IHbs.
Qed.

Lemma encode_symbols_pre : forall c bs p out pr, encode_symbols c bs (p ++ out) pr = pre2 p (encode_symbols c bs out pr).
Proof.
  intros. unfold encode_symbols. destruct (cdf_p pr); cbn [bind]; [|reflexivity..]. apply encode_symbols_loop_pre.
Qed.

Lemma encode_literal_pre : forall n c p out v, encode_literal c (p ++ out) v n = pre2 p (encode_literal c out v n).
Proof.
  induction n; intros; [reflexivity|]. cbn [encode_literal].
  destruct (shift_ok 64 (Z.of_nat n)); cbn [bind]; [|reflexivity..].
  rewrite encode_symbolp_pre. unfold pre2 at 1.
  destruct (encode_symbolp c _ out 128) as [[? ?]| |]; cbn [bind]; [|reflexivity..]. apply IHn.
Qed.

Lemma encode_op_pre : forall o c t p out, encode_op c t (p ++ out) o = pre2 p (encode_op c t out o).
Proof.
  intros. destruct o; cbn [encode_op].
  - destruct (idx t (Z.of_nat ctx)); cbn [bind]; [|reflexivity..].
    rewrite encode_symbol_pre. unfold pre3. destruct (encode_symbol c _ out a) as [[[? ?] ?]| |]; reflexivity.
  - rewrite encode_symbolp_pre. unfold pre2 at 1. destruct (encode_symbolp c b out p0) as [[? ?]| |]; reflexivity.
  - rewrite encode_symbols_pre. unfold pre2 at 1. destruct (encode_symbols c bs out p0) as [[? ?]| |]; reflexivity.
  - rewrite encode_literal_pre. unfold pre2 at 1. destruct (encode_literal c out v n) as [[? ?]| |]; reflexivity.
Qed.

Lemma encode_ops_pre : forall os c t p out, encode_ops c t (p ++ out) os = pre2 p (encode_ops c t out os).
Proof.
  induction os; intros; [reflexivity|]. cbn [encode_ops]. rewrite encode_op_pre. unfold pre2 at 1.
  destruct (encode_op c t out a) as [[[? ?] ?]| |]; cbn [bind]; [|reflexivity..]. apply IHos.
Qed.

Lemma encode_session_pre : forall os c t p out,
  encode_session c t (p ++ out) os = pre2 p (encode_session c t out os).
Proof.
  intros. unfold encode_session. rewrite encode_ops_pre. unfold pre2 at 1.
  destruct (encode_ops _ t out os) as [[[? ?] ?]| |]; cbn [bind]; [|reflexivity..].
  rewrite exit_encoder_pre. unfold pre2 at 1. destruct (exit_encoder c0 l) as [[? ?]| |]; reflexivity.
Qed.

(** Prefixes. *)
Lemma decode_ops_app : forall s1 s2 c t q os c' t' q',
  decode_ops c t q (s1 ++ s2) = Ok (os, c', t', q') ->
  exists o1 o2 c1 t1 q1, decode_ops c t q s1 = Ok (o1, c1, t1, q1) /\
    decode_ops c1 t1 q1 s2 = Ok (o2, c', t', q') /\ os = o1 ++ o2 /\ length o1 = length s1.
Proof.
  induction s1; intros s2 c t q os c' t' q' H.
  - exists [], os, c, t, q. repeat split. exact H.
  - cbn [app decode_ops] in *. apply bind_inv in H. destruct H as ([[[o ca] ta] qa] & E & H).
    apply bind_inv in H. destruct H as ([[[os' cb] tb] qb] & E2 & H). inversion H; subst; clear H.
    destruct (IHs1 _ _ _ _ _ _ _ _ E2) as (o1 & o2 & c1 & t1 & q1 & A & B & C & D).
    exists (o :: o1), o2, c1, t1, q1. rewrite E. cbn [bind]. rewrite A. cbn [bind].
    split; [reflexivity|]. split; [assumption|]. split; [subst; reflexivity|]. simpl. congruence.
Qed.

Lemma decode_session_app : forall s1 s2 c t q sz os c' t' q',
  decode_session c t q sz (s1 ++ s2) = Ok (os, c', t', q') ->
  exists o1 o2 c1 t1 q1, decode_session c t q sz s1 = Ok (o1, c1, t1, q1) /\
    os = o1 ++ o2 /\ length o1 = length s1.
Proof.
  intros s1 s2 c t q sz os c' t' q' H. unfold decode_session in *.
  apply bind_inv in H. destruct H as ([ci qi] & E & H). rewrite E. cbn [bind].
  destruct (decode_ops_app _ _ _ _ _ _ _ _ _ H) as (o1 & o2 & c1 & t1 & q1 & A & B & C & D).
  exists o1, o2, c1, t1, q1. repeat split; assumption.
Qed.

Lemma app_len_inj : forall (A : Type) (a b c d : list A), a ++ b = c ++ d -> length a = length c -> a = c /\ b = d.
Proof.
  induction a; intros b c d H Hl; destruct c; try discriminate; [split; [reflexivity|assumption]|].
  simpl in *. inversion H; subst. destruct (IHa b c d H2 ltac:(lia)). subst. split; reflexivity.
Qed.

(** Adaptive decoding. *)
Definition follows (f : list op -> shape) (ops : list op) : Prop :=
  forall h o r, ops = h ++ o :: r -> shape_of o = f h.

Lemma decode_adaptive_ok : forall ops f hist c t q os c' t' q',
  (forall h o r, ops = h ++ o :: r -> shape_of o = f (hist ++ h)) ->
  decode_ops c t q (map shape_of ops) = Ok (os, c', t', q') -> os = ops ->
  decode_adaptive (length ops) f hist c t q = Ok (hist ++ ops, c', t', q').
Proof.
  induction ops as [|o ops IH]; intros f hist c t q os c' t' q' Hf H Ho.
  - simpl in *. inversion H; subst. rewrite app_nil_r. reflexivity.
  - cbn [map decode_ops length decode_adaptive] in *.
    apply bind_inv in H. destruct H as ([[[o1 ca] ta] qa] & E & H).
    apply bind_inv in H. destruct H as ([[[os' cb] tb] qb] & E2 & H). inversion H; subst; clear H.
    inversion H1; subst; clear H1.
    specialize (Hf [] o ops eq_refl) as Hf0. rewrite app_nil_r in Hf0. rewrite <- Hf0, E. cbn [bind].
    rewrite (IH f (hist ++ [o]) ca ta qa ops c' t' q'); [rewrite <- app_assoc; reflexivity| |assumption|reflexivity].
    intros h o' r Hr. specialize (Hf (o :: h) o' r). rewrite <- app_assoc. apply Hf. rewrite Hr. reflexivity.
Qed.

(** The table after a prefix is the one the encoder has after the same prefix. *)
Lemma encode_ops_tables : forall sizes ops t c out,
  valid_table sizes t -> Forall (valid_op sizes) ops ->
  forall c' t' out', encode_ops c t out ops = Ok (c', t', out') -> t' = tables_after t ops.
Proof.
  induction ops as [|o ops IH]; intros t c out Ht Ho c' t' out' H; [inversion H; reflexivity|].
  inversion Ho; subst. cbn [encode_ops tables_after] in *. apply bind_inv in H. destruct H as ([[c1 t1] out1] & E & H).
  assert (t1 = table_after t o).
  { destruct o; cbn [encode_op table_after] in *;
      try (apply bind_inv in E; destruct E as ([? ?] & _ & E); inversion E; reflexivity).
    destruct H2 as (N & Hn & Hs). destruct (valid_table_nth _ _ _ _ Ht Hn) as [Ei _].
    rewrite Ei in E. cbn [bind] in E. apply bind_inv in E. destruct E as ([[? ?] cdf'] & E & E2). inversion E2; subst.
    unfold encode_symbol, encode_symbol_fuel in E. repeat (apply bind_inv in E; destruct E as (? & ? & E)).
    cbv zeta in E. repeat (match type of E with (bind _ _) = _ => apply bind_inv in E; destruct E as (? & ? & E) | (let '(_,_) := ?x in _) = _ => destruct x end).
    inversion E; subst. match goal with H : update_cdf _ _ = _ |- _ => rewrite H end. reflexivity. }
  subst t1. eapply IH; [|eassumption|eassumption]. apply table_after_valid; assumption.
Qed.

(** ** The statements *)

(** A message: pairs (number of the CDF, symbol), coded one [encode_symbol] each. *)
Definition sym_ops (msg : list (nat * nat)) : list op := map (fun m => OSym (fst m) (snd m)) msg.
Definition in_range (sizes : list nat) (msg : list (nat * nat)) : Prop :=
  Forall (fun m => exists N, nth_error sizes (fst m) = Some N /\ (snd m < N)%nat) msg.

Lemma sym_ops_valid : forall sizes msg, in_range sizes msg -> Forall (valid_op sizes) (sym_ops msg).
Proof. intros sizes msg H. unfold sym_ops. apply Forall_map. eapply Forall_impl; [|exact H]. intros [x s] K. exact K. Qed.

Lemma sym_ops_symbols : forall msg, session_symbols (sym_ops msg) = length msg.
Proof. induction msg; [reflexivity|]. unfold session_symbols in *. cbn [sym_ops map fold_right op_symbols length] in *.
  unfold sym_ops in IHmsg. rewrite IHmsg. reflexivity. Qed.

Lemma session_round_trip : forall sizes t ops c d out sz tail,
  valid_table sizes t -> Forall (valid_op sizes) ops -> fits ops ->
  0 <= bit_count c < 2 ^ 62 -> 0 <= sz < 2 ^ 28 -> is_bits tail ->
  exists c' t' D d' used rest,
    encode_session c t out ops = Ok (c', t', out ++ D) /\
    D = used ++ rest /\ is_bits D /\
    decode_session d t (D ++ tail) sz (map shape_of ops) = Ok (ops, d', t', rest ++ tail).
Proof.
  intros sizes t ops c d out sz tail Ht Ho Hf Hb Hs Htl.
  destruct (session_ok sizes t ops c out Ht Ho Hf Hb) as (c' & D & n & pad & E & HD & _ & _ & _ & _ & _ & _ & X).
  destruct (X d sz tail Hs Htl) as (d' & F & _).
  exists c', (tables_after t ops), D, d', (firstn (n + 15) D), (skipn (n + 15) D).
  split; [assumption|]. split; [symmetry; apply firstn_skipn|]. split; assumption.
Qed.

Lemma symbol_round_trip : forall sizes t msg c d out sz tail,
  valid_table sizes t -> in_range sizes msg -> Z.of_nat (length msg) <= 2 ^ 26 ->
  0 <= bit_count c < 2 ^ 62 -> 0 <= sz < 2 ^ 28 -> is_bits tail ->
  exists c' t' D d' used rest,
    encode_session c t out (sym_ops msg) = Ok (c', t', out ++ D) /\
    D = used ++ rest /\ is_bits D /\
    decode_session d t (D ++ tail) sz (map (fun m => SSym (fst m)) msg) =
      Ok (sym_ops msg, d', t', rest ++ tail).
Proof.
  intros sizes t msg c d out sz tail Ht Ho Hf Hb Hs Htl.
  assert (E : map (fun m => SSym (fst m)) msg = map shape_of (sym_ops msg)).
  { unfold sym_ops. rewrite map_map. reflexivity. }
  rewrite E. apply session_round_trip with (sizes := sizes); try assumption.
  - apply sym_ops_valid. assumption.
  - unfold fits. rewrite sym_ops_symbols. assumption.
Qed.

Lemma adaptive_round_trip : forall sizes t ops f c d out sz tail,
  valid_table sizes t -> Forall (valid_op sizes) ops -> fits ops ->
  0 <= bit_count c < 2 ^ 62 -> 0 <= sz < 2 ^ 28 -> is_bits tail ->
  follows f ops ->
  exists c' t' D d0 q0 d' q',
    encode_session c t out ops = Ok (c', t', out ++ D) /\
    init_decoder d (D ++ tail) sz = Ok (d0, q0) /\
    decode_adaptive (length ops) f [] d0 t q0 = Ok (ops, d', t', q').
Proof.
  intros sizes t ops f c d out sz tail Ht Ho Hf Hb Hs Htl Hfo.
  destruct (session_round_trip sizes t ops c d out sz tail Ht Ho Hf Hb Hs Htl)
    as (c' & t' & D & d' & used & rest & E & _ & _ & F).
  unfold decode_session in F. apply bind_inv in F. destruct F as ([d0 q0] & F0 & F).
  exists c', t', D, d0, q0, d', (rest ++ tail). split; [assumption|]. split; [assumption|].
  apply (decode_adaptive_ok ops f [] d0 t q0 ops d' t' (rest ++ tail)); [|assumption|reflexivity].
  intros h o r Hr. apply (Hfo h o r Hr).
Qed.

Lemma session_symbols_app : forall a b, session_symbols (a ++ b) = (session_symbols a + session_symbols b)%nat.
Proof. unfold session_symbols. induction a; intros b; [reflexivity|]. simpl. rewrite IHa. lia. Qed.

Lemma encode_ops_ok : forall sizes t ops c out,
  valid_table sizes t -> Forall (valid_op sizes) ops -> fits ops -> 0 <= bit_count c < 2 ^ 62 ->
  exists c1 out1, encode_ops (init_encoder c) t out ops = Ok (c1, tables_after t ops, out1) /\
    32768 <= bool_range c1 < 65536 /\ 0 <= bool_value c1 < 65536.
Proof.
  intros sizes t ops c out Ht Ho Hf Hbc.
  pose proof (session_cost_le ops t) as Hcost. unfold fits in Hf. change (2 ^ 26) with 67108864 in Hf.
  destruct (paired_ops sizes ops t Ht Ho out (bit_count c) (init_encoder c) out [] 0 0%nat (init_inv c out Hbc))
    as (c1 & B1 & L1 & n1 & E1 & I1 & R1 & N1 & M1 & Lb1 & D1).
  { unfold init_encoder. cbn [bool_range]. rewrite shiftl_mul by lia. change (1 * 2 ^ 15) with 32768. lia. }
  { lia. }
  apply bind_inv in E1. destruct E1 as ([[c1' t1] out1] & E1 & E1'). inversion E1'; subst.
  exists c1, (out ++ B1). split; [assumption|]. split; [assumption|].
  pose proof (ei_v _ _ _ _ _ _ _ _ I1). pose proof (ei_vmax _ _ _ _ _ _ _ _ I1). lia.
Qed.

Lemma find_symbol_nonneg : forall k range value cdf s p z a b, 0 <= s ->
  find_symbol k range value cdf s p = Ok (z, a, b) -> 0 <= z.
Proof.
  induction k; intros range value cdf s p z a b Hs H; [discriminate|]. cbn [find_symbol] in H.
  do 3 (apply bind_inv in H; destruct H as (? & ? & H)). cbv zeta in H.
  destruct (_ <? _) in H; [eapply IHk; [|eassumption]; lia|inversion H; lia].
Qed.

Lemma decode_symbol_cdf : forall c q cdf s c' q' cdf',
  decode_symbol c q cdf = Ok (s, c', q', cdf') -> 0 <= s /\ dec_update_cdf s cdf = Ok cdf'.
Proof.
  intros c q cdf s c' q' cdf' E. unfold decode_symbol in E.
  apply bind_inv in E; destruct E as (? & ? & E). apply bind_inv in E; destruct E as ([[z a] b] & F & E).
  do 4 (apply bind_inv in E; destruct E as (? & ? & E)). cbv zeta in E.
  apply bind_inv in E; destruct E as ([[? ?] ?] & ? & E).
  do 4 (apply bind_inv in E; destruct E as (? & ? & E)). inversion E; subst.
  split; [|assumption]. eapply find_symbol_nonneg; [|exact F]. lia.
Qed.

Lemma lockstep : forall sizes t ops1 ops2 c d out sz tail,
  valid_table sizes t -> Forall (valid_op sizes) (ops1 ++ ops2) -> fits (ops1 ++ ops2) ->
  0 <= bit_count c < 2 ^ 62 -> 0 <= sz < 2 ^ 28 -> is_bits tail ->
  exists c1 t1 out1 c' t' D d1 q1,
    encode_ops (init_encoder c) t out ops1 = Ok (c1, t1, out1) /\
    encode_session c t out (ops1 ++ ops2) = Ok (c', t', out ++ D) /\
    decode_session d t (D ++ tail) sz (map shape_of ops1) = Ok (ops1, d1, t1, q1) /\
    valid_table sizes t1.
Proof.
  intros sizes t ops1 ops2 c d out sz tail Ht Ho Hf Hb Hs Htl.
  destruct (session_round_trip sizes t _ c d out sz tail Ht Ho Hf Hb Hs Htl)
    as (c' & t' & D & d' & used & rest & E & _ & HD & F).
  pose proof Ho as Ho'. apply Forall_app in Ho'. destruct Ho' as [Ho1 Ho2].
  assert (Hf1 : fits ops1) by (unfold fits in *; rewrite session_symbols_app in Hf; lia).
  destruct (encode_ops_ok sizes t ops1 c out Ht Ho1 Hf1 Hb) as (c1 & out1 & E1 & _).
  rewrite map_app in F. destruct (decode_session_app _ _ _ _ _ _ _ _ _ _ F) as (o1 & o2 & d1 & t1 & q1 & F1 & Eo & Lo).
  rewrite map_length in Lo.
  destruct (app_len_inj _ _ _ _ _ Eo ltac:(lia)) as [Ea Eb]. subst o1 o2.
  exists c1, (tables_after t ops1), out1, c', t', D, d1, q1.
  split; [assumption|]. split; [assumption|]. split; [|apply tables_after_valid; assumption].
  rewrite F1. f_equal. f_equal. f_equal.
  assert (G : forall ops t d q d' t' q', valid_table sizes t -> Forall (valid_op sizes) ops ->
     decode_ops d t q (map shape_of ops) = Ok (ops, d', t', q') -> t' = tables_after t ops).
  { clear. induction ops as [|o ops IH]; intros t d q d' t' q' Ht Ho H; [inversion H; reflexivity|].
    inversion Ho; subst. cbn [map decode_ops tables_after] in *.
    apply bind_inv in H. destruct H as ([[[o1 ca] ta] qa] & E & H).
    apply bind_inv in H. destruct H as ([[[os' cb] tb] qb] & E2 & H). inversion H; subst; clear H.
    enough (ta = table_after t o) by (subst ta; eapply IH; [apply table_after_valid; assumption|eassumption|eassumption]).
    destruct o; cbn [shape_of decode_op table_after] in *;
      try (apply bind_inv in E; destruct E as ([[? ?] ?] & _ & E); inversion E; reflexivity).
    destruct H2 as (N & Hn & Hs). destruct (valid_table_nth _ _ _ _ Ht Hn) as [Ei _].
    rewrite Ei in E. cbn [bind] in E. apply bind_inv in E. destruct E as ([[[s1 ?] ?] cdf'] & E & E3). inversion E3; subst.
    destruct (decode_symbol_cdf _ _ _ _ _ _ _ E) as [Hz U]. rewrite dec_update_cdf_eq in U.
    rewrite Z2Nat.id by assumption. rewrite U. reflexivity. }
  symmetry. unfold decode_session in F1. apply bind_inv in F1. destruct F1 as ([dd qq] & _ & F1).
  symmetry. eapply G; [| |exact F1]; assumption.
Qed.

(** Renormalisation: 16 tests of the loop condition are enough. *)
Lemma renorm_fuel : forall k c out, 1 <= bool_range c < 65536 -> 2 ^ 15 <= bool_range c * 2 ^ Z.of_nat k ->
  forall f1 f2, (k < f1)%nat -> (k < f2)%nat -> renorm_loop f1 c out = renorm_loop f2 c out.
Proof.
  induction k; intros c out Hr Hp f1 f2 H1 H2; (destruct f1; [lia|]); (destruct f2; [lia|]); cbn [renorm_loop].
  - change (2 ^ Z.of_nat 0) with 1 in Hp. change (2 ^ 15) with 32768 in Hp.
    destruct (bool_range c <? 32768) eqn:E; [lia|reflexivity].
  - destruct (bool_range c <? 32768) eqn:E; [|reflexivity]. cbv zeta.
    match goal with |- bind ?e _ = bind ?e _ => destruct e as [[c1 o1]| |] eqn:X; cbn [bind]; [|reflexivity..] end.
    assert (R : bool_range c1 = bool_range c).
    { assert (G : forall k c o b c' o', emit_n k c o b = Ok (c', o') -> bool_range c' = bool_range c).
      { induction k0; intros ? ? ? ? ? Y; cbn [emit_n] in Y; [inversion Y; reflexivity|].
        unfold emit in Y. destruct (chk_u64 (bit_count c0 + 1)); cbn [bind] in Y; try discriminate.
        apply IHk0 in Y. exact Y. }
      destruct (negb (bool_first c)); [|inversion X; reflexivity].
      destruct (_ =? 0) in X.
      - apply bind_inv in X. destruct X as ([ca oa] & Xa & X). apply bind_inv in X. destruct X as ([cb ob] & Xb & X).
        inversion X; subst. apply G in Xb. cbn [set_pending bool_range]. rewrite Xb.
        destruct (bool_value_last_zero c); [|inversion Xa; reflexivity].
        unfold emit in Xa. destruct (chk_u64 (bit_count c + 1)); cbn [bind] in Xa; try discriminate. inversion Xa; reflexivity.
      - apply bind_inv in X. destruct X as (? & _ & X). inversion X; reflexivity. }
    assert (E2 : as_i32 (Z.shiftl (bool_range c1) 1) = 2 * bool_range c).
    { rewrite shiftl_mul by lia. change (2 ^ 1) with 2. rewrite as_i32_id by lia. lia. }
    apply IHk; try lia.
    + unfold set_vr, set_first. cbn [bool_range bool_value bool_max_bits bool_value_last_zero
            bool_value_zero_count bool_first bit_count leb_128_bytes]. rewrite E2. lia.
    + unfold set_vr, set_first. cbn [bool_range bool_value bool_max_bits bool_value_last_zero
            bool_value_zero_count bool_first bit_count leb_128_bytes]. rewrite E2. rewrite pow2_S in Hp. lia.
Qed.

Lemma carry_range : forall c out c' out', carry_step c out = Ok (c', out') -> bool_range c' = bool_range c.
Proof.
  intros c out c' out' X. unfold carry_step in X.
  assert (G : forall k c o b c' o', emit_n k c o b = Ok (c', o') -> bool_range c' = bool_range c).
  { induction k; intros ? ? ? ? ? Y; cbn [emit_n] in Y; [inversion Y; reflexivity|].
    unfold emit in Y. destruct (chk_u64 (bit_count c0 + 1)); cbn [bind] in Y; try discriminate.
    apply IHk in Y. exact Y. }
  destruct (65536 <=? bool_value c); [|inversion X; reflexivity]. cbv zeta in X.
  destruct (0 <? _) in X; [|inversion X; reflexivity].
  apply bind_inv in X. destruct X as ([ca oa] & Xa & X). apply bind_inv in X. destruct X as ([cb ob] & Xb & X).
  inversion X; subst. apply G in Xb. cbn [set_pending bool_range]. rewrite Xb.
  unfold emit in Xa. apply bind_inv in Xa. destruct Xa as (? & _ & Xa). inversion Xa; reflexivity.
Qed.

(** In every state with a normalised range, a symbol of a valid CDF needs at most
    15 iterations (16 tests of the condition) of the renormalisation loop. *)
Lemma encode_symbol_16 : forall N cdf s c out,
  valid_cdf N cdf -> (s < N)%nat -> 32768 <= bool_range c < 65536 ->
  encode_symbol_fuel 16 c (Z.of_nat s) out cdf = encode_symbol c (Z.of_nat s) out cdf.
Proof.
  intros N cdf s c out Hc Hs HR. unfold encode_symbol. unfold encode_symbol_fuel at 1 2. fold (encode_symbol_fuel 16).
  set (R := bool_range c) in *.
  destruct (valid_cdf_len N cdf Hc) as [Hlen HN].
  destruct (cut_gap R cdf N s Hc HR Hs) as [Hgap Hprob].
  destruct (cut_bounds R cdf N s Hc HR Hs) as [Hcut0 Hcut1].
  pose proof (valid_cdf_nth N cdf s Hc Hs) as Hx.
  unfold len at 1 2. rewrite Hlen. rewrite chk_u64_ok by lia. cbn [bind].
  rewrite (idx_nth _ cdf (Z.of_nat s) 0) by (unfold len; lia). rewrite Nat2Z.id.
  assert (HfL : exists fl, (if 0 <? Z.of_nat s
      then s1 <- chk_i32 (Z.of_nat s - 1) ;; x <- idx cdf s1 ;; chk_i32 (32768 - x)
      else Ok 0) = Ok fl /\ 0 <= fl <= 32768 /\
      (if Z.of_nat s =? 0 then R else Z.shiftr (Z.shiftr R 8 * fl) 7) = left_of R cdf s).
  { destruct s as [|s].
    - exists 0. simpl. repeat split; lia.
    - destruct (0 <? Z.of_nat (S s)) eqn:E; [|lia]. rewrite chk_i32_ok by lia. cbn [bind].
      rewrite (idx_nth _ cdf _ 0) by (unfold len; lia). cbn [bind].
      replace (Z.to_nat (Z.of_nat (S s) - 1)) with s by lia.
      pose proof (valid_cdf_nth N cdf s Hc ltac:(lia)).
      rewrite chk_i32_ok by lia. eexists. split; [reflexivity|]. split; [lia|].
      destruct (Z.of_nat (S s) =? 0) eqn:E2; [lia|].
      rewrite !shiftr_div by lia. reflexivity. }
  destruct HfL as (fl & -> & Hfl & Hleft). cbn [bind].
  rewrite chk_i32_ok by lia. cbn [bind].
  assert (HRd : 0 <= Z.shiftr R 8 <= 255). { rewrite shiftr_div by lia. change (2 ^ 8) with 256. lia. }
  rewrite chk_i32_ok by nia. cbn [bind]. rewrite chk_i32_ok by nia. cbn [bind].
  rewrite Hleft.
  assert (Hright : Z.shiftr (Z.shiftr R 8 * (32768 - nth s cdf 0)) 7 = cut R cdf s).
  { rewrite !shiftr_div by lia. reflexivity. }
  rewrite Hright.
  destruct (chk_i32 (R - left_of R cdf s)); cbn [bind]; [|reflexivity..].
  destruct (chk_i32 (bool_value c + a)); cbn [bind]; [|reflexivity..].
  rewrite chk_i32_ok by lia. cbn [bind].
  set (r1 := left_of R cdf s - cut R cdf s). assert (Hr1 : 1 <= r1 < 65536) by (subst r1; lia).
  destruct (carry_step (set_vr c a0 r1) out) as [[c1 o1]| |] eqn:X; cbn [bind]; [|reflexivity..].
  apply carry_range in X. cbn [set_vr bool_range] in X.
  rewrite (renorm_fuel 15 c1 o1 ltac:(lia) ltac:(rewrite X; change (2 ^ Z.of_nat 15) with 32768; change (2 ^ 15) with 32768; lia) 16 40) by lia.
  reflexivity.
Qed.

Lemma encoder_safe : forall sizes t ops1 o ops2 c out,
  valid_table sizes t -> Forall (valid_op sizes) (ops1 ++ o :: ops2) -> fits (ops1 ++ o :: ops2) ->
  0 <= bit_count c < 2 ^ 62 ->
  (exists c1 t1 out1 c2 t2 out2,
    encode_ops (init_encoder c) t out ops1 = Ok (c1, t1, out1) /\
    encode_op c1 t1 out1 o = Ok (c2, t2, out2) /\
    32768 <= bool_range c1 < 65536 /\ 0 <= bool_value c1 < 65536 /\
    32768 <= bool_range c2 < 65536 /\ 0 <= bool_value c2 < 65536) /\
  exists r, encode_session c t out (ops1 ++ o :: ops2) = Ok r.
Proof.
  intros sizes t ops1 o ops2 c out Ht Ho Hf Hb.
  pose proof Ho as Ho'. apply Forall_app in Ho'. destruct Ho' as [Ho1 Ho2].
  inversion Ho2 as [|? ? Hoo Ho3]; subst.
  assert (Hf' := Hf). unfold fits in Hf'. rewrite session_symbols_app in Hf'.
  cbn [session_symbols fold_right] in Hf'. fold (session_symbols ops2) in Hf'.
  split.
  - destruct (encode_ops_ok sizes t ops1 c out Ht Ho1 ltac:(unfold fits; lia) Hb) as (c1 & out1 & E1 & R1 & V1).
    destruct (encode_ops_ok sizes t (ops1 ++ [o]) c out Ht) as (c2 & out2 & E2 & R2 & V2).
    { apply Forall_app. split; [assumption|]. constructor; [assumption|constructor]. }
    { unfold fits. rewrite session_symbols_app. cbn [session_symbols fold_right]. lia. }
    { assumption. }
    assert (G : forall a b c t out, encode_ops c t out (a ++ b) =
      '(c, t, out) <- encode_ops c t out a ;; encode_ops c t out b).
    { clear. induction a; intros; [reflexivity|]. cbn [app encode_ops].
      destruct (encode_op c t out a) as [[[? ?] ?]| |]; cbn [bind]; [|reflexivity..]. apply IHa. }
    rewrite G, E1 in E2. cbn [bind encode_ops] in E2.
    apply bind_inv in E2. destruct E2 as ([[ca ta] oa] & E2 & E3). inversion E3; subst.
    exists c1, (tables_after t ops1), out1, c2, (tables_after t (ops1 ++ [o])), out2.
    repeat split; try assumption; lia.
  - destruct (session_ok sizes t _ c out Ht Ho Hf Hb) as (c' & D & n & pad & E & _). eexists. exact E.
Qed.

Lemma no_underrun : forall sizes t ops c d out sz,
  valid_table sizes t -> Forall (valid_op sizes) ops -> fits ops ->
  0 <= bit_count c < 2 ^ 62 -> 0 <= sz < 2 ^ 28 ->
  exists c' t' D d' used rest,
    encode_session c t out ops = Ok (c', t', out ++ D) /\
    decode_session d t D sz (map shape_of ops) = Ok (ops, d', t', rest) /\
    D = used ++ rest.
Proof.
  intros sizes t ops c d out sz Ht Ho Hf Hb Hs.
  destruct (session_round_trip sizes t ops c d out sz [] Ht Ho Hf Hb Hs ltac:(constructor))
    as (c' & t' & D & d' & used & rest & E & HD & _ & F).
  rewrite !app_nil_r in F. exists c', t', D, d', used, rest. repeat split; assumption.
Qed.

Lemma compression : forall sizes t ops c out,
  valid_table sizes t -> Forall (valid_op sizes) ops -> fits ops -> 0 <= bit_count c < 2 ^ 62 ->
  exists c' t' D pad,
    encode_session c t out ops = Ok (c', t', out ++ D) /\
    (pad <= 7)%nat /\
    (15 <= length D <= Nat.max 1 (session_cost t ops) + 15 + pad)%nat.
Proof.
  intros sizes t ops c out Ht Ho Hf Hb.
  destruct (session_ok sizes t ops c out Ht Ho Hf Hb) as (c' & D & n & pad & E & HD & Hn & Hp & Hl & _).
  exists c', (tables_after t ops), D, pad. split; [assumption|]. lia.
Qed.

Lemma cost_char : forall N cdf s, valid_cdf N cdf -> (s < N)%nat ->
  2 ^ (15 - Z.of_nat (cost cdf s)) <= prob cdf s /\
  forall k, 0 <= k <= 15 -> 2 ^ (15 - k) <= prob cdf s -> Z.of_nat (cost cdf s) <= k.
Proof.
  intros N cdf s Hc Hs.
  destruct (cut_gap 32768 cdf N s Hc ltac:(lia) Hs) as [_ Hp]. unfold cost.
  pose proof (Z.log2_nonneg (prob cdf s)) as H0.
  assert (H1 : Z.log2 (prob cdf s) <= 15). { change 15 with (Z.log2 32768). apply Z.log2_le_mono. lia. }
  rewrite Z2Nat.id by lia. split.
  - replace (15 - (15 - Z.log2 (prob cdf s))) with (Z.log2 (prob cdf s)) by lia. apply Z.log2_spec. lia.
  - intros k Hk H. apply Z.log2_le_mono in H. rewrite Z.log2_pow2 in H by lia. lia.
Qed.

Lemma mod8_len : forall bc n, 0 <= bc ->
  (Z.of_nat ((n - 1) + 16 + Z.to_nat ((8 - (bc + Z.of_nat (n - 1)) mod 8) mod 8)) + bc) mod 8 = 0.
Proof. intros. lia. Qed.

Lemma alignment_residue : forall sizes t ops c out,
  valid_table sizes t -> Forall (valid_op sizes) ops -> fits ops -> 0 <= bit_count c < 2 ^ 62 ->
  exists c' t' D,
    encode_session c t out ops = Ok (c', t', out ++ D) /\
    (Z.of_nat (length D) + bit_count c) mod 8 = 0.
Proof.
  intros sizes t ops c out Ht Ho Hf Hb.
  destruct (session_ok sizes t ops c out Ht Ho Hf Hb) as (c' & D & n & pad & E & HD & Hn & Hp & Hl & _).
  exists c', (tables_after t ops), D. split; [assumption|]. rewrite Hl, Hp. apply mod8_len. lia.
Qed.

Lemma fresh_aligned : forall sizes t ops out,
  valid_table sizes t -> Forall (valid_op sizes) ops -> fits ops ->
  exists c' t' D,
    encode_session new_coder t out ops = Ok (c', t', out ++ D) /\
    (length D mod 8 = 0)%nat.
Proof.
  intros sizes t ops out Ht Ho Hf.
  destruct (alignment_residue sizes t ops new_coder out Ht Ho Hf) as (c' & t' & D & E & H).
  { cbn. lia. }
  exists c', t', D. split; [assumption|]. cbn [bit_count new_coder] in H. lia.
Qed.

(** Where [exit_decoder] leaves the queue. *)
Lemma exit_decoder_position : forall sizes t ops d out tail,
  valid_table sizes t -> Forall (valid_op sizes) ops -> fits ops -> is_bits tail ->
  exists c' t' D d' q j,
    encode_session new_coder t out ops = Ok (c', t', out ++ D) /\
    decode_session d t (D ++ tail) (Z.of_nat (length D / 8)) (map shape_of ops) = Ok (ops, d', t', q) /\
    snd (exit_decoder d' q) = repeat 0 j ++ tail /\ (j < 8)%nat /\
    (j = 0%nat <-> bit_count c' mod 8 = 0).
Proof.
  intros sizes t ops d out tail Ht Ho Hf Htl.
  destruct (session_ok sizes t ops new_coder out Ht Ho Hf ltac:(cbn; lia))
    as (c' & D & n & pad & E & HD & Hn & Hp & Hl & Hbc & _ & Hz & X).
  cbn [bit_count new_coder] in Hp, Hbc.
  pose proof (session_cost_le ops t) as Hcost. unfold fits in Hf. change (2 ^ 26) with 67108864 in Hf.
  destruct (X d (Z.of_nat (length D / 8)) tail) as (d' & F & M); [change (2 ^ 28) with 268435456; lia|assumption|].
  pose proof (mod8_len 0 n ltac:(lia)) as H8. rewrite <- Hp, <- Hl in H8.
  unfold exit_decoder. 
  destruct (Nat.eq_dec n 0) as [->|Hn0].
  - assert (Hpad : pad = 0%nat) by (rewrite Hp; reflexivity). subst pad. rewrite Hpad in Hl, Hz.
    assert (Hl16 : length D = 16%nat) by lia.
    exists c', (tables_after t ops), D, d', (skipn (0 + 15) D ++ tail), 0%nat.
    split; [assumption|]. split; [assumption|]. cbn [snd]. split; [|split; [lia|]].
    + rewrite M, Hl16. change (Z.to_nat (8 * Z.of_nat (16 / 8) - 15 - 2 * Z.of_nat 0)) with 1%nat.
      rewrite skipn_app, skipn_add. rewrite skipn_all2 by lia. rewrite skipn_length, Hl16.
      reflexivity.
    + split; [|reflexivity]. intros _. rewrite Hbc. reflexivity.
  - assert (Hsk : skipn (n + 15) D = repeat 0 pad).
    { replace (n + 15)%nat with (n - 1 + 16)%nat by lia. assumption. }
    exists c', (tables_after t ops), D, d', (skipn (n + 15) D ++ tail), (Nat.min n pad).
    split; [assumption|]. split; [assumption|]. cbn [snd].
    split; [|split; [lia|]].
    + rewrite M, Hsk.
      assert (L8 : 8 * Z.of_nat (length D / 8) = Z.of_nat (length D)) by lia. rewrite L8.
      assert (Hj : Z.to_nat (Z.of_nat (length D) - 15 - 2 * Z.of_nat n) = (pad - n)%nat) by lia.
      rewrite Hj. rewrite skipn_app, repeat_length.
      replace (pad - n - pad)%nat with 0%nat by lia. rewrite skipn_O. f_equal.
      replace pad with ((pad - n) + Nat.min n pad)%nat at 2 by lia.
      rewrite repeat_app, skipn_app, repeat_length.
      rewrite skipn_all2 by (rewrite repeat_length; lia). rewrite Nat.sub_diag. reflexivity.
    + rewrite Hbc. lia.
Qed.

(** Same bits imply same message. *)
Lemma segment_injective : forall sizes t f ops1 ops2 c1 c2 out1 out2 D c1' c2' t1 t2,
  valid_table sizes t -> Forall (valid_op sizes) ops1 -> Forall (valid_op sizes) ops2 ->
  fits ops1 -> fits ops2 -> 0 <= bit_count c1 < 2 ^ 62 -> 0 <= bit_count c2 < 2 ^ 62 ->
  follows f ops1 -> follows f ops2 -> length ops1 = length ops2 ->
  encode_session c1 t out1 ops1 = Ok (c1', t1, out1 ++ D) ->
  encode_session c2 t out2 ops2 = Ok (c2', t2, out2 ++ D) ->
  ops1 = ops2.
Proof.
  intros sizes t f ops1 ops2 c1 c2 out1 out2 D c1' c2' t1 t2 Ht Ho1 Ho2 Hf1 Hf2 Hb1 Hb2 Hw1 Hw2 Hlen E1 E2.
  destruct (adaptive_round_trip sizes t ops1 f c1 new_coder out1 0 [] Ht Ho1 Hf1 Hb1 ltac:(lia) ltac:(constructor) Hw1)
    as (? & ? & D1 & d0 & q0 & ? & ? & F1 & G1 & H1).
  destruct (adaptive_round_trip sizes t ops2 f c2 new_coder out2 0 [] Ht Ho2 Hf2 Hb2 ltac:(lia) ltac:(constructor) Hw2)
    as (? & ? & D2 & d02 & q02 & ? & ? & F2 & G2 & H2).
  rewrite E1 in F1. inversion F1 as [[X1 X2 X3]]. apply app_inv_head in X3. subst D1.
  rewrite E2 in F2. inversion F2 as [[Y1 Y2 Y3]]. apply app_inv_head in Y3. subst D2.
  rewrite G1 in G2. inversion G2; subst. rewrite <- Hlen, H1 in H2. inversion H2. reflexivity.
Qed.

Lemma prefix_decoding : forall sizes t ops1 ops2 c d out sz tail,
  valid_table sizes t -> Forall (valid_op sizes) (ops1 ++ ops2) -> fits (ops1 ++ ops2) ->
  0 <= bit_count c < 2 ^ 62 -> 0 <= sz < 2 ^ 28 -> is_bits tail ->
  exists c' t' D d1 t1 q1,
    encode_session c t out (ops1 ++ ops2) = Ok (c', t', out ++ D) /\
    decode_session d t (D ++ tail) sz (map shape_of ops1) = Ok (ops1, d1, t1, q1).
Proof.
  intros sizes t ops1 ops2 c d out sz tail Ht Ho Hf Hb Hs Htl.
  destruct (lockstep sizes t ops1 ops2 c d out sz tail Ht Ho Hf Hb Hs Htl)
    as (c1 & t1 & out1 & c' & t' & D & d1 & q1 & _ & E & F & _).
  exists c', t', D, d1, t1, q1. split; assumption.
Qed.

Lemma adaptation_valid : forall N cdf s, valid_cdf N cdf -> (s < N)%nat ->
  exists cdf', update_cdf (Z.of_nat s) cdf = Ok cdf' /\ dec_update_cdf (Z.of_nat s) cdf = Ok cdf' /\ valid_cdf N cdf'.
Proof.
  intros N cdf s Hc Hs. destruct (update_cdf_valid N cdf (Z.of_nat s) Hc) as (cdf' & E & V).
  exists cdf'. split; [exact E|]. split; [|exact V]. etransitivity; [apply dec_update_cdf_eq|exact E].
Qed.

Lemma encode_keeps_valid : forall N cdf s c out c' out' cdf', valid_cdf N cdf ->
  encode_symbol c s out cdf = Ok (c', out', cdf') -> valid_cdf N cdf'.
Proof.
  intros N cdf s c out c' out' cdf' Hc E. unfold encode_symbol, encode_symbol_fuel in E.
  repeat (apply bind_inv in E; destruct E as (? & ? & E)). cbv zeta in E.
  repeat (match type of E with (bind _ _) = _ => apply bind_inv in E; destruct E as (? & ? & E) | (let '(_,_) := ?x in _) = _ => destruct x end).
  inversion E; subst. destruct (update_cdf_valid N cdf s Hc) as (cdf2 & U & V).
  assert (cdf2 = cdf') by congruence. subst. assumption.
Qed.

Lemma decode_keeps_valid : forall N cdf c q s c' q' cdf', valid_cdf N cdf ->
  decode_symbol c q cdf = Ok (s, c', q', cdf') -> valid_cdf N cdf'.
Proof.
  intros N cdf c q s c' q' cdf' Hc E. apply decode_symbol_cdf in E. destruct E as [_ U].
  rewrite dec_update_cdf_eq in U. destruct (update_cdf_valid N cdf s Hc) as (cdf2 & U2 & V).
  rewrite U in U2. inversion U2; subst. assumption.
Qed.

(** Appending, in terms of the empty buffer. *)
Lemma encode_symbol_appends : forall c s p cdf,
  encode_symbol c s p cdf =
  match encode_symbol c s [] cdf with
  | Ok (c', o, cdf') => Ok (c', p ++ o, cdf')
  | Panic => Panic
  | Hang => Hang
  end.
Proof.
  intros. rewrite <- (app_nil_r p) at 1. rewrite encode_symbol_pre. unfold pre3.
  destruct (encode_symbol c s [] cdf) as [[[? ?] ?]| |]; reflexivity.
Qed.

Lemma encode_op_appends : forall o c t p,
  encode_op c t p o =
  match encode_op c t [] o with
  | Ok (c', t', out) => Ok (c', t', p ++ out)
  | Panic => Panic
  | Hang => Hang
  end.
Proof.
  intros. rewrite <- (app_nil_r p) at 1. rewrite encode_op_pre. unfold pre2.
  destruct (encode_op c t [] o) as [[[? ?] ?]| |]; reflexivity.
Qed.

Lemma exit_encoder_appends : forall c p,
  exit_encoder c p =
  match exit_encoder c [] with
  | Ok (c', out) => Ok (c', p ++ out)
  | Panic => Panic
  | Hang => Hang
  end.
Proof.
  intros. rewrite <- (app_nil_r p) at 1. rewrite exit_encoder_pre. unfold pre2.
  destruct (exit_encoder c []) as [[? ?]| |]; reflexivity.
Qed.
