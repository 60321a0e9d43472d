(** The size given to the decoder has no influence on what it reads (C118). *)
From Coq Require Import ZArith List Bool Lia.
From Verif Require Import Base BaseProofs BitsSpec UtilModel RangeCoderSpec RangeCoderModel SessionModel SessionSpec DamageSpec DamageProofs.
Import ListNotations.
Open Scope Z_scope.

(** Coders that differ at most in their count of bits. *)
Definition alike (c d : coder) : Prop := bool_value c = bool_value d /\ bool_range c = bool_range d.

Lemma refill_alike k : forall nd m1 m2 q n1 m1' q1 n2 m2' q2, refill k nd m1 q = Ok (n1, m1', q1) -> refill k nd m2 q = Ok (n2, m2', q2) -> n1 = n2 /\ q1 = q2.
Proof.
  induction k as [|k IH]; intros nd m1 m2 q n1 m1' q1 n2 m2' q2 H1 H2; cbn [refill] in *; [injection H1 as <- _ <-; injection H2 as <- _ <-; auto|].
  destruct (pop q) as [[b r]| |]; cbn [bind] in *; try discriminate. destruct (chk_i32 _) as [nd'| |]; cbn [bind] in *; try discriminate.
  destruct (chk_i32 (m1 - 1)) as [x1| |]; cbn [bind] in *; try discriminate. destruct (chk_i32 (m2 - 1)) as [x2| |]; cbn [bind] in *; try discriminate.
  exact (IH _ _ _ _ _ _ _ _ _ _ H1 H2).
Qed.

Lemma symbol_alike c d q cdf s1 c' q1 f1 s2 d' q2 f2 : alike c d -> decode_symbol c q cdf = Ok (s1, c', q1, f1) -> decode_symbol d q cdf = Ok (s2, d', q2, f2) ->
  s1 = s2 /\ alike c' d' /\ q1 = q2 /\ f1 = f2.
Proof.
  intros [V R] H1 H2. unfold decode_symbol in *. rewrite V, R in H1.
  destruct (chk_u64 _) as [n| |]; cbn [bind] in *; try discriminate.
  destruct (find_symbol _ _ _ _ _ _) as [[[s p] u]| |]; cbn [bind] in *; try discriminate.
  destruct (chk_i32 (p - u)) as [rg| |]; cbn [bind] in *; try discriminate. destruct (chk_i32 (bool_value d - u)) as [v| |]; cbn [bind] in *; try discriminate.
  destruct (msb16 _) as [m| |]; cbn [bind] in *; try discriminate. destruct (chk_u8 _) as [k| |]; cbn [bind] in *; try discriminate.
  destruct (refill _ _ (bool_max_bits c) _) as [[[a1 b1] r1]| |] eqn:E1; cbn [bind] in *; try discriminate.
  destruct (refill _ _ (bool_max_bits d) _) as [[[a2 b2] r2]| |] eqn:E2; cbn [bind] in *; try discriminate.
  destruct (refill_alike _ _ _ _ _ _ _ _ _ _ _ E1 E2) as [-> ->].
  destruct (chk_i32 (v + 1)) as [x1| |]; cbn [bind] in *; try discriminate. destruct (chk_i32 (_ - 1)) as [x2| |]; cbn [bind] in *; try discriminate.
  destruct (chk_i32 (b1 - k)) as [y1| |]; cbn [bind] in *; try discriminate. destruct (chk_i32 (b2 - k)) as [y2| |]; cbn [bind] in *; try discriminate.
  destruct (dec_update_cdf _ _) as [f| |]; cbn [bind] in *; try discriminate.
  injection H1 as <- <- <- <-. injection H2 as <- <- <- <-. repeat split.
Qed.

Lemma symbolp_alike c d q p s1 c' q1 s2 d' q2 : alike c d -> decode_symbolp c q p = Ok (s1, c', q1) -> decode_symbolp d q p = Ok (s2, d', q2) ->
  s1 = s2 /\ alike c' d' /\ q1 = q2.
Proof.
  intros A H1 H2. unfold decode_symbolp in *. destruct (cdf_p p) as [f| |]; cbn [bind] in *; try discriminate.
  apply bind_inv in H1 as ([[[a b] e] g] & E1 & H1). apply bind_inv in H2 as ([[[a2 b2] e2] g2] & E2 & H2).
  injection H1 as <- <- <-. injection H2 as <- <- <-. destruct (symbol_alike _ _ _ _ _ _ _ _ _ _ _ _ A E1 E2) as (? & ? & ? & _). auto.
Qed.
Lemma symbols_alike n : forall c d q f s1 c' q1 s2 d' q2, alike c d -> decode_symbols_loop n c q f = Ok (s1, c', q1) -> decode_symbols_loop n d q f = Ok (s2, d', q2) ->
  s1 = s2 /\ alike c' d' /\ q1 = q2.
Proof.
  induction n as [|n IH]; intros c d q f s1 c' q1 s2 d' q2 A H1 H2; cbn [decode_symbols_loop] in *; [injection H1 as <- <- <-; injection H2 as <- <- <-; auto|].
  apply bind_inv in H1 as ([[[a b] e] g] & E1 & H1). apply bind_inv in H2 as ([[[a2 b2] e2] g2] & E2 & H2).
  destruct (symbol_alike _ _ _ _ _ _ _ _ _ _ _ _ A E1 E2) as (-> & A2 & -> & ->).
  apply bind_inv in H1 as ([[u v] w] & F1 & H1). apply bind_inv in H2 as ([[u2 v2] w2] & F2 & H2). injection H1 as <- <- <-. injection H2 as <- <- <-.
  destruct (IH _ _ _ _ _ _ _ _ _ _ A2 F1 F2) as (-> & ? & ->). auto.
Qed.
Lemma literal_alike n : forall x c d q s1 c' q1 s2 d' q2, alike c d -> decode_literal_loop n x c q = Ok (s1, c', q1) -> decode_literal_loop n x d q = Ok (s2, d', q2) ->
  s1 = s2 /\ alike c' d' /\ q1 = q2.
Proof.
  induction n as [|n IH]; intros x c d q s1 c' q1 s2 d' q2 A H1 H2; cbn [decode_literal_loop] in *; [injection H1 as <- <- <-; injection H2 as <- <- <-; auto|].
  apply bind_inv in H1 as ([[a b] e] & E1 & H1). apply bind_inv in H2 as ([[a2 b2] e2] & E2 & H2).
  destruct (symbolp_alike _ _ _ _ _ _ _ _ _ _ A E1 E2) as (-> & A2 & ->). destruct (chk_u64 _) as [y| |]; cbn [bind] in *; try discriminate.
  exact (IH _ _ _ _ _ _ _ _ _ _ A2 H1 H2).
Qed.
Lemma op_alike s t c d q o1 c' t1 q1 o2 d' t2 q2 : alike c d -> decode_op c t q s = Ok (o1, c', t1, q1) -> decode_op d t q s = Ok (o2, d', t2, q2) ->
  o1 = o2 /\ alike c' d' /\ t1 = t2 /\ q1 = q2.
Proof.
  intros A H1 H2. destruct s as [ctx|p|p n|n]; cbn [decode_op] in *.
  - destruct (idx t _) as [f| |]; cbn [bind] in *; try discriminate.
    apply bind_inv in H1 as ([[[a b] e] g] & E1 & H1). apply bind_inv in H2 as ([[[a2 b2] e2] g2] & E2 & H2).
    destruct (symbol_alike _ _ _ _ _ _ _ _ _ _ _ _ A E1 E2) as (-> & A2 & -> & ->). injection H1 as <- <- <- <-. injection H2 as <- <- <- <-. auto.
  - apply bind_inv in H1 as ([[a b] e] & E1 & H1). apply bind_inv in H2 as ([[a2 b2] e2] & E2 & H2).
    destruct (symbolp_alike _ _ _ _ _ _ _ _ _ _ A E1 E2) as (-> & A2 & ->). injection H1 as <- <- <- <-. injection H2 as <- <- <- <-. auto.
  - unfold decode_symbols in *. destruct (cdf_p p) as [f| |]; cbn [bind] in *; try discriminate.
    apply bind_inv in H1 as ([[a b] e] & E1 & H1). apply bind_inv in H2 as ([[a2 b2] e2] & E2 & H2).
    destruct (symbols_alike _ _ _ _ _ _ _ _ _ _ _ A E1 E2) as (-> & A2 & ->). injection H1 as <- <- <- <-. injection H2 as <- <- <- <-. auto.
  - unfold decode_literal in *. apply bind_inv in H1 as ([[a b] e] & E1 & H1). apply bind_inv in H2 as ([[a2 b2] e2] & E2 & H2).
    destruct (literal_alike _ _ _ _ _ _ _ _ _ _ _ A E1 E2) as (-> & A2 & ->). injection H1 as <- <- <- <-. injection H2 as <- <- <- <-. auto.
Qed.
Lemma ops_alike ss : forall t c d q o1 c' t1 q1 o2 d' t2 q2, alike c d -> decode_ops c t q ss = Ok (o1, c', t1, q1) -> decode_ops d t q ss = Ok (o2, d', t2, q2) ->
  o1 = o2 /\ alike c' d' /\ t1 = t2 /\ q1 = q2.
Proof.
  induction ss as [|s ss IH]; intros t c d q o1 c' t1 q1 o2 d' t2 q2 A H1 H2; cbn [decode_ops] in *; [injection H1 as <- <- <- <-; injection H2 as <- <- <- <-; auto|].
  apply bind_inv in H1 as ([[[a b] e] g] & E1 & H1). apply bind_inv in H2 as ([[[a2 b2] e2] g2] & E2 & H2).
  destruct (op_alike _ _ _ _ _ _ _ _ _ _ _ _ _ A E1 E2) as (-> & A2 & -> & ->).
  apply bind_inv in H1 as ([[[u v] w] z] & F1 & H1). apply bind_inv in H2 as ([[[u2 v2] w2] z2] & F2 & H2). injection H1 as <- <- <- <-. injection H2 as <- <- <- <-.
  destruct (IH _ _ _ _ _ _ _ _ _ _ _ _ A2 F1 F2) as (-> & ? & -> & ->). auto.
Qed.
Lemma init_alike c d q s1 s2 c' q1 d' q2 : init_decoder c q s1 = Ok (c', q1) -> init_decoder d q s2 = Ok (d', q2) -> alike c' d' /\ q1 = q2.
Proof.
  intros H1 H2. unfold init_decoder in *. destruct (read_bits 15 0 q) as [[buf r]| |]; cbn [bind] in *; try discriminate.
  apply bind_inv in H1 as (? & _ & H1). apply bind_inv in H1 as (? & _ & H1). apply bind_inv in H2 as (? & _ & H2). apply bind_inv in H2 as (? & _ & H2).
  injection H1 as <- <-. injection H2 as <- <-. repeat split.
Qed.

(** Two sizes, two coders. *)
Lemma session_alike d1 d2 t q sz1 sz2 ss o1 c1 t1 q1 o2 c2 t2 q2 :
  decode_session d1 t q sz1 ss = Ok (o1, c1, t1, q1) -> decode_session d2 t q sz2 ss = Ok (o2, c2, t2, q2) -> o1 = o2 /\ t1 = t2 /\ q1 = q2.
Proof.
  intros H1 H2. unfold decode_session in *. apply bind_inv in H1 as ([a r] & E1 & H1). apply bind_inv in H2 as ([b r2] & E2 & H2).
  destruct (init_alike _ _ _ _ _ _ _ _ _ E1 E2) as (A & ->). destruct (ops_alike _ _ _ _ _ _ _ _ _ _ _ _ _ A H1 H2) as (? & _ & ? & ?). auto.
Qed.

Lemma size_ignored sizes d1 d2 t q sz1 sz2 ss : valid_table sizes t -> Forall (shape_ok sizes) ss -> few_symbols ss -> is_bits q -> 0 <= sz1 < 2 ^ 28 -> 0 <= sz2 < 2 ^ 28 ->
  match decode_session d1 t q sz1 ss, decode_session d2 t q sz2 ss with
  | Ok (o1, _, t1, q1), Ok (o2, _, t2, q2) => o1 = o2 /\ t1 = t2 /\ q1 = q2
  | Panic, Panic => True
  | _, _ => False
  end.
Proof.
  assert (half : forall d1 d2 sz1 sz2, valid_table sizes t -> Forall (shape_ok sizes) ss -> few_symbols ss -> is_bits q -> 0 <= sz1 < 2 ^ 28 -> 0 <= sz2 < 2 ^ 28 ->
    forall v, decode_session d1 t q sz1 ss = Ok v -> decode_session d2 t q sz2 ss <> Panic).
  { clear. intros d1 d2 sz1 sz2 T S F B Z1 Z2 v E P.
    destruct (any_session sizes d1 t q sz1 ss T S F B Z1) as [(used & q' & ops & t' & -> & R)|(N & _)]; [|congruence].
    apply (proj1 (session_panics_iff sizes d2 t _ sz2 ss T S F B Z2)) in P as (more & ops2 & t2 & NE & _ & R2).
    destruct R as (_ & _ & _ & e & R). destruct R2 as (_ & _ & _ & e2 & R2). specialize (R (q' ++ more)). specialize (R2 []).
    rewrite app_nil_r, <- app_assoc in R2. destruct (session_alike _ _ _ _ _ _ _ _ _ _ _ _ _ _ _ R R2) as (_ & _ & L).
    apply app_eq_nil in L as [_ L]. contradiction. }
  intros T S F B Z1 Z2.
  assert (NH : forall d sz, 0 <= sz < 2 ^ 28 -> decode_session d t q sz ss <> Hang).
  { intros d sz Z. destruct (any_session sizes d t q sz ss T S F B Z) as [(used & q' & ops & t' & -> & (_ & _ & _ & e & R))|(N & _)]; [rewrite (R q')|rewrite N]; discriminate. }
  pose proof (half d1 d2 sz1 sz2 T S F B Z1 Z2) as A1. pose proof (half d2 d1 sz2 sz1 T S F B Z2 Z1) as A2.
  pose proof (NH d1 sz1 Z1) as N1. pose proof (NH d2 sz2 Z2) as N2.
  destruct (decode_session d1 t q sz1 ss) as [[[[o1 c1] t1] q1]| |] eqn:E1; [| |now elim N1];
    (destruct (decode_session d2 t q sz2 ss) as [[[[o2 c2] t2] q2]| |] eqn:E2; [| |now elim N2]).
  - exact (session_alike _ _ _ _ _ _ _ _ _ _ _ _ _ _ _ E1 E2).
  - exact (A1 _ eq_refl eq_refl).
  - exact (A2 _ eq_refl eq_refl).
  - exact I.
Qed.

(** The same for a parser. *)
Lemma adaptive_alike n f : forall hist t c d q o1 c' t1 q1 o2 d' t2 q2, alike c d ->
  decode_adaptive n f hist c t q = Ok (o1, c', t1, q1) -> decode_adaptive n f hist d t q = Ok (o2, d', t2, q2) -> o1 = o2 /\ t1 = t2 /\ q1 = q2.
Proof.
  induction n as [|n IH]; intros hist t c d q o1 c' t1 q1 o2 d' t2 q2 A H1 H2; cbn [decode_adaptive] in *; [injection H1 as <- <- <- <-; injection H2 as <- <- <- <-; auto|].
  apply bind_inv in H1 as ([[[a b] e] g] & E1 & H1). apply bind_inv in H2 as ([[[a2 b2] e2] g2] & E2 & H2).
  destruct (op_alike _ _ _ _ _ _ _ _ _ _ _ _ _ A E1 E2) as (-> & A2 & -> & ->). exact (IH _ _ _ _ _ _ _ _ _ _ _ _ _ A2 H1 H2).
Qed.
Lemma parser_alike n f d1 d2 t q sz1 sz2 o1 c1 t1 q1 o2 c2 t2 q2 :
  ('(c, q) <- init_decoder d1 q sz1 ;; decode_adaptive n f [] c t q) = Ok (o1, c1, t1, q1) ->
  ('(c, q) <- init_decoder d2 q sz2 ;; decode_adaptive n f [] c t q) = Ok (o2, c2, t2, q2) -> o1 = o2 /\ t1 = t2 /\ q1 = q2.
Proof.
  intros H1 H2. apply bind_inv in H1 as ([a r] & E1 & H1). apply bind_inv in H2 as ([b r2] & E2 & H2).
  destruct (init_alike _ _ _ _ _ _ _ _ _ E1 E2) as (A & ->). exact (adaptive_alike _ _ _ _ _ _ _ _ _ _ _ _ _ _ _ A H1 H2).
Qed.
