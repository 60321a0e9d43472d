From Coq Require Import ZArith List Bool Lia ZifyBool ZifyNat ZifyN.
From Verif Require Import Base BaseProofs BitsSpec BitsProofs UtilModel RangeCoderModel RangeCoderSpec SessionModel SessionSpec
  SegmentProofs ReaderSpec.
Import ListNotations.
Open Scope Z_scope.
Ltac Zify.zify_post_hook ::= Z.div_mod_to_equations.

(** Only the low bits of a literal are coded. *)
Definition norm (o : op) : op :=
  match o with OLit n v => OLit n (v mod 2 ^ Z.of_nat n) | _ => o end.

Lemma bit_mod : forall v i n, 0 <= i < n -> Z.land (Z.shiftr (v mod 2 ^ n) i) 1 = Z.land (Z.shiftr v i) 1.
Proof.
  intros v i n H. apply Z.bits_inj'. intros k Hk. rewrite !Z.land_spec, !Z.shiftr_spec by lia.
  destruct (Z.eq_dec k 0) as [->|Hk0].
  - rewrite Z.mod_pow2_bits_low by lia. reflexivity.
  - replace (Z.testbit 1 k) with false; [rewrite !andb_false_r; reflexivity|].
    change 1 with (2 ^ 0). symmetry. apply Z.pow2_bits_false. lia.
Qed.

Lemma encode_literal_mod : forall n m c out v, (n <= m)%nat ->
  encode_literal c out (v mod 2 ^ Z.of_nat m) n = encode_literal c out v n.
Proof.
  induction n; intros m c out v H; [reflexivity|]. cbn [encode_literal].
  destruct (shift_ok 64 (Z.of_nat n)); cbn [bind]; try reflexivity.
  rewrite bit_mod by lia. destruct (encode_symbolp c (as_u8 (Z.land (Z.shiftr v (Z.of_nat n)) 1)) out 128) as [[c1 o1]| |];
    cbn [bind]; try reflexivity. apply IHn. lia.
Qed.

Lemma encode_op_norm : forall c t out o, encode_op c t out (norm o) = encode_op c t out o.
Proof. intros c t out [| | |n v]; try reflexivity. cbn [norm encode_op]. rewrite encode_literal_mod by lia. reflexivity. Qed.

Lemma encode_ops_norm : forall ops c t out, encode_ops c t out (map norm ops) = encode_ops c t out ops.
Proof.
  induction ops as [|o ops IH]; intros; [reflexivity|]. cbn [map encode_ops]. rewrite encode_op_norm.
  destruct (encode_op c t out o) as [[[? ?] ?]| |]; cbn [bind]; try reflexivity. apply IH.
Qed.

Lemma encode_session_norm : forall ops c t out, encode_session c t out (map norm ops) = encode_session c t out ops.
Proof. intros. unfold encode_session. rewrite encode_ops_norm. reflexivity. Qed.

Lemma norm_valid : forall sizes o, valid_op sizes o -> norm o = o.
Proof. intros sizes [| | |n v] H; try reflexivity. cbn in *. rewrite Z.mod_small by lia. reflexivity. Qed.
Lemma norm_valid_all : forall sizes ops, Forall (valid_op sizes) ops -> map norm ops = ops.
Proof.
  induction 1 as [|o ops Ho H IH]; [reflexivity|]. cbn [map]. rewrite (norm_valid sizes) by assumption. congruence.
Qed.

Lemma decode_ops_split : forall x y c t q c' t' q',
  decode_ops c t q (map shape_of (x ++ y)) = Ok (x ++ y, c', t', q') ->
  exists c1 t1 q1, decode_ops c t q (map shape_of x) = Ok (x, c1, t1, q1) /\
                   decode_ops c1 t1 q1 (map shape_of y) = Ok (y, c', t', q').
Proof.
  induction x as [|o x IH]; intros y c t q c' t' q' H.
  - exists c, t, q. split; [reflexivity|exact H].
  - cbn [app map decode_ops] in *.
    apply bind_inv in H. destruct H as ([[[o1 ca] ta] qa] & E & H).
    apply bind_inv in H. destruct H as ([[[os' cb] tb] qb] & E2 & H). inversion H; subst. clear H.
    destruct (IH _ _ _ _ _ _ _ E2) as (c1 & t1 & q1 & G1 & G2).
    exists c1, t1, q1. split; [|exact G2]. rewrite E. cbn [bind]. rewrite G1. reflexivity.
Qed.

Lemma reads_run : forall A (r : reader A) ops a c t q c' t' q',
  reads r ops a -> decode_ops c t q (map shape_of ops) = Ok (ops, c', t', q') ->
  run_reader r c t q = Ok (a, c', t', q').
Proof.
  induction r as [x|s k IH]; intros ops a c t q c' t' q' R H; destruct ops as [|o ops]; cbn [reads] in R; try contradiction.
  - subst. cbn in *. inversion H; reflexivity.
  - destruct R as [<- R]. cbn [map decode_ops] in H. cbn [run_reader].
    apply bind_inv in H. destruct H as ([[[o1 ca] ta] qa] & E & H).
    apply bind_inv in H. destruct H as ([[[os' cb] tb] qb] & E2 & H). inversion H; subst. clear H.
    rewrite E. cbn [bind]. eapply IH; eassumption.
Qed.

Lemma shape_norm : forall o, shape_of (norm o) = shape_of o.
Proof. destruct o; reflexivity. Qed.

Lemma session_symbols_app : forall a b, session_symbols (a ++ b) = (session_symbols a + session_symbols b)%nat.
Proof. induction a; intros b; cbn in *; [reflexivity|]. fold (session_symbols (a0 ++ b)). rewrite IHa. fold (session_symbols a0). lia. Qed.
Lemma session_symbols_norm : forall a, session_symbols (map norm a) = session_symbols a.
Proof. induction a as [|o a IH]; [reflexivity|]. cbn in *. unfold session_symbols in IH. rewrite IH. destruct o; reflexivity. Qed.

Lemma transmits_ok : forall A sizes t pre ops post (r : reader A) a,
  valid_table sizes t -> Forall (valid_op sizes) pre -> Forall (valid_op sizes) (map norm ops) -> Forall (valid_op sizes) post ->
  fits (pre ++ ops ++ post) -> reads r (map norm ops) a -> transmits t pre ops post r a.
Proof.
  intros A sizes t pre ops post r a Ht Hp Ho Hq Hf R sz tail Hs Htl.
  set (all := pre ++ map norm ops ++ post).
  assert (Ha : Forall (valid_op sizes) all) by (apply Forall_app; split; [assumption|]; apply Forall_app; split; assumption).
  assert (Hfa : fits all).
  { unfold fits, all in *. rewrite !session_symbols_app in *. rewrite session_symbols_norm. exact Hf. }
  destruct (session_round_trip sizes t all new_coder new_coder [] sz tail Ht Ha Hfa ltac:(cbn; lia) Hs Htl)
    as (c' & t' & D & d' & used & rest & E & _ & _ & F).
  assert (E' : encode_session new_coder t [] (pre ++ ops ++ post) = Ok (c', t', D)).
  { rewrite <- encode_session_norm. rewrite !map_app.
    rewrite (norm_valid_all sizes pre), (norm_valid_all sizes post) by assumption. exact E. }
  unfold decode_session in F. apply bind_inv in F. destruct F as ([d0 q0] & I & F).
  destruct (decode_ops_split _ _ _ _ _ _ _ _ F) as (d1 & t1 & q1 & F1 & F').
  destruct (decode_ops_split _ _ _ _ _ _ _ _ F') as (d2 & t2 & q2 & F2 & F3).
  exists c', t', D, d1, t1, q1, d2, t2, q2, d', (rest ++ tail).
  split; [exact E'|]. split; [unfold decode_session; rewrite I; cbn [bind]; exact F1|].
  split; [|exact F3]. eapply reads_run; eassumption.
Qed.
