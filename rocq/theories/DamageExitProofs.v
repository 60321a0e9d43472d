(** Where the decoder stops (C118): the count of bits left is lowered twice for each bit. *)
From Coq Require Import ZArith List Bool Lia ZifyBool ZifyNat.
From Verif Require Import Base BaseProofs BitsSpec UtilModel RangeCoderSpec RangeCoderModel SessionModel SessionSpec DamageSpec.
Import ListNotations.
Open Scope Z_scope.

Definition spent (c c' : coder) (q q' : list Z) : Prop := exists pre, q = pre ++ q' /\ bool_max_bits c' = bool_max_bits c - 2 * len pre.
Lemma spent_refl c q : spent c c q q.
Proof. exists []. split; [reflexivity|unfold len; cbn; lia]. Qed.
Lemma spent_trans c1 c2 c3 q1 q2 q3 : spent c1 c2 q1 q2 -> spent c2 c3 q2 q3 -> spent c1 c3 q1 q3.
Proof. intros (a & -> & E1) (b & -> & E2). exists (a ++ b). split; [apply app_assoc|]. unfold len in *. rewrite app_length. lia. Qed.

Lemma chk_i32_val x y : chk_i32 x = Ok y -> y = x.
Proof. unfold chk_i32, chk. intros H. destruct (_ && _); [injection H as <-; reflexivity|discriminate]. Qed.
Lemma pop_inv q b r : pop q = Ok (b, r) -> q = b :: r.
Proof. destruct q; cbn; [discriminate|]. intros H. injection H as <- <-. reflexivity. Qed.
Lemma refill_spends k : forall nd m q nd' m' q', refill k nd m q = Ok (nd', m', q') -> exists pre, q = pre ++ q' /\ length pre = k /\ m' = m - Z.of_nat k.
Proof.
  induction k as [|k IH]; intros nd m q nd' m' q' H; cbn [refill] in H; [injection H as _ <- <-; exists []; repeat split; lia|].
  apply bind_inv in H as ([b r] & P & H). apply pop_inv in P as ->. apply bind_inv in H as (x & _ & H). apply bind_inv in H as (y & Y & H). apply chk_i32_val in Y.
  apply IH in H as (pre & -> & L & ->). exists (b :: pre). cbn [length app]. repeat split; lia.
Qed.
Lemma symbol_spends c q cdf s c' q' cdf' : decode_symbol c q cdf = Ok (s, c', q', cdf') -> spent c c' q q'.
Proof.
  intros H. unfold decode_symbol in H. apply bind_inv in H as (? & _ & H). apply bind_inv in H as ([[? ?] ?] & _ & H). apply bind_inv in H as (? & _ & H). apply bind_inv in H as (? & _ & H).
  apply bind_inv in H as (m & _ & H). apply bind_inv in H as (k & K & H). apply bind_inv in H as ([[nd mb] r] & R & H). apply bind_inv in H as (? & _ & H). apply bind_inv in H as (? & _ & H).
  apply bind_inv in H as (mb' & M & H). apply bind_inv in H as (? & _ & H). injection H as _ <- <- _. apply chk_i32_val in M.
  assert (0 <= k) by (unfold chk_u8, chk in K; destruct (_ && _) eqn:B in K; [injection K as <-; apply andb_prop in B as [B _]; apply Z.leb_le in B; exact B|discriminate]).
  apply refill_spends in R as (pre & -> & L & ->). exists pre. split; [reflexivity|]. unfold len. cbn [set_max_bits bool_max_bits]. lia.
Qed.
Lemma symbolp_spends c q p s c' q' : decode_symbolp c q p = Ok (s, c', q') -> spent c c' q q'.
Proof. intros H. unfold decode_symbolp in H. apply bind_inv in H as (? & _ & H). apply bind_inv in H as ([[[? ?] ?] ?] & E & H). injection H as <- <- <-. exact (symbol_spends _ _ _ _ _ _ _ E). Qed.
Lemma symbols_spend n : forall c q cdf s c' q', decode_symbols_loop n c q cdf = Ok (s, c', q') -> spent c c' q q'.
Proof.
  induction n as [|n IH]; intros c q cdf s c' q' H; cbn [decode_symbols_loop] in H; [injection H as _ <- <-; apply spent_refl|].
  apply bind_inv in H as ([[[? ?] ?] ?] & E & H). apply bind_inv in H as ([[? ?] ?] & F & H). injection H as _ <- <-.
  eapply spent_trans; [exact (symbol_spends _ _ _ _ _ _ _ E)|exact (IH _ _ _ _ _ _ F)].
Qed.
Lemma literal_spends n : forall x c q s c' q', decode_literal_loop n x c q = Ok (s, c', q') -> spent c c' q q'.
Proof.
  induction n as [|n IH]; intros x c q s c' q' H; cbn [decode_literal_loop] in H; [injection H as _ <- <-; apply spent_refl|].
  apply bind_inv in H as ([[? ?] ?] & E & H). apply bind_inv in H as (? & _ & H). eapply spent_trans; [exact (symbolp_spends _ _ _ _ _ _ E)|exact (IH _ _ _ _ _ _ H)].
Qed.
Lemma op_spends s t c q o c' t' q' : decode_op c t q s = Ok (o, c', t', q') -> spent c c' q q'.
Proof.
  intros H. destruct s as [ctx|p|p n|n]; cbn [decode_op] in H.
  - apply bind_inv in H as (? & _ & H). apply bind_inv in H as ([[[? ?] ?] ?] & E & H). injection H as _ <- _ <-. exact (symbol_spends _ _ _ _ _ _ _ E).
  - apply bind_inv in H as ([[? ?] ?] & E & H). injection H as _ <- _ <-. exact (symbolp_spends _ _ _ _ _ _ E).
  - apply bind_inv in H as ([[? ?] ?] & E & H). injection H as _ <- _ <-. unfold decode_symbols in E. apply bind_inv in E as (? & _ & E). exact (symbols_spend _ _ _ _ _ _ _ E).
  - apply bind_inv in H as ([[? ?] ?] & E & H). injection H as _ <- _ <-. exact (literal_spends _ _ _ _ _ _ _ E).
Qed.
Lemma ops_spend ss : forall t c q o c' t' q', decode_ops c t q ss = Ok (o, c', t', q') -> spent c c' q q'.
Proof.
  induction ss as [|s ss IH]; intros t c q o c' t' q' H; cbn [decode_ops] in H; [injection H as _ <- _ <-; apply spent_refl|].
  apply bind_inv in H as ([[[? ?] ?] ?] & E & H). apply bind_inv in H as ([[[? ?] ?] ?] & F & H). injection H as _ <- _ <-.
  eapply spent_trans; [exact (op_spends _ _ _ _ _ _ _ _ E)|exact (IH _ _ _ _ _ _ _ F)].
Qed.
Lemma read_bits_spends k : forall acc q v q', read_bits k acc q = Ok (v, q') -> exists pre, q = pre ++ q' /\ length pre = k.
Proof.
  induction k as [|k IH]; intros acc q v q' H; cbn [read_bits] in H; [injection H as _ <-; exists []; auto|].
  apply bind_inv in H as ([b r] & P & H). apply pop_inv in P as ->. apply bind_inv in H as (x & _ & H). apply IH in H as (pre & -> & L). exists (b :: pre). cbn. auto.
Qed.
Lemma session_spends d t q sz ss o c t' q' : 0 <= sz < 2 ^ 28 -> decode_session d t q sz ss = Ok (o, c, t', q') ->
  exists used, q = used ++ q' /\ 15 <= len used /\ bool_max_bits c = 8 * sz + 15 - 2 * len used.
Proof.
  intros SZ H. unfold decode_session in H. apply bind_inv in H as ([c0 q0] & I & H). unfold init_decoder in I. apply bind_inv in I as ([buf r] & R & I).
  apply bind_inv in I as (m & M & I). apply bind_inv in I as (mb & MB & I). injection I as <- <-. apply chk_i32_val in M, MB.
  assert (S : as_i32 sz = sz) by (unfold as_i32; rewrite Z.mod_small by lia; lia).
  apply read_bits_spends in R as (pre & -> & L). apply ops_spend in H as (pre2 & -> & E). cbn [set_max_bits bool_max_bits] in E.
  exists (pre ++ pre2). split; [apply app_assoc|]. unfold len in *. rewrite app_length. lia.
Qed.

Lemma exit_exactly d t q sz ss o c t' q' : 2 <= sz < 2 ^ 28 -> 8 * sz <= len q -> decode_session d t q sz ss = Ok (o, c, t', q') ->
  exists used, q = used ++ q' /\ snd (exit_decoder c q') = skipn (Z.to_nat (Z.max (len used) (8 * sz + 15 - len used))) q /\
    (snd (exit_decoder c q') = skipn (Z.to_nat (8 * sz)) q <-> len used = 15 \/ len used = 8 * sz).
Proof.
  intros SZ L H. apply session_spends in H as (used & -> & B & E); [|lia]. exists used. split; [reflexivity|].
  assert (X : snd (exit_decoder c q') = skipn (Z.to_nat (Z.max (len used) (8 * sz + 15 - len used))) (used ++ q')).
  { unfold exit_decoder. cbn [snd]. rewrite E. rewrite skipn_app. unfold len in *. rewrite (skipn_all2 used) by lia. cbn [app]. f_equal. lia. }
  split; [exact X|]. rewrite X. set (q := used ++ q') in *. split.
  - intros Q. apply (f_equal (@length Z)) in Q. rewrite !skipn_length in Q. assert (len used <= len q) by (unfold len, q; rewrite app_length; lia). unfold len in *. lia.
  - intros Q. f_equal. lia.
Qed.
