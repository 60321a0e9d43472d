(** Encoding followed by decoding for sessions of any length: the size of what is
    written, not the number of calls, is what is limited. *)
From Coq Require Import ZArith List Bool Lia ZifyBool ZifyNat Sorted.
From Verif Require Import Base BaseProofs UtilModel UtilProofs BitsSpec BitsProofs
  RangeCoderModel RangeCoderSpec CdfProofs RangeEncProofs RangeDecProofs SessionModel SessionSpec SessionProofs.
Import ListNotations.
Open Scope Z_scope.
Ltac Zify.zify_post_hook ::= Z.div_mod_to_equations.

(** The bits written so far together with those still pending. *)
Definition made (c : coder) (out : list Z) : Z :=
  Z.of_nat (length out) + bool_value_zero_count c + b2z (bool_value_last_zero c).

Class grows {X : Type} (enc : coder -> list Z -> res (coder * list Z * X)) : Prop :=
  growing : forall c out c' out' x, 0 <= bool_value_zero_count c -> enc c out = Ok (c', out', x) ->
    0 <= bool_value_zero_count c' /\ made c out <= made c' out'.

Lemma emit_made : forall c out b c' out', emit c out b = Ok (c', out') ->
  bool_value_zero_count c' = bool_value_zero_count c /\ bool_value_last_zero c' = bool_value_last_zero c /\
  length out' = S (length out).
Proof.
  intros c out b c' out' E. unfold emit in E. apply bind_inv in E. destruct E as (n & _ & E).
  inversion E; subst. cbn. unfold push. rewrite app_length. cbn. repeat split; lia.
Qed.

Lemma emit_n_made : forall k c out b c' out', emit_n k c out b = Ok (c', out') ->
  bool_value_zero_count c' = bool_value_zero_count c /\ bool_value_last_zero c' = bool_value_last_zero c /\
  length out' = (k + length out)%nat.
Proof.
  induction k; intros c out b c' out' E; cbn [emit_n] in E.
  - inversion E; subst. auto.
  - apply bind_inv in E. destruct E as ([c1 o1] & E1 & E). apply emit_made in E1. apply IHk in E.
    destruct E1 as (-> & -> & Hl) in E |- *. destruct E as (-> & -> & ->). rewrite Hl. repeat split; lia.
Qed.

Lemma carry_made : forall c out c' out', 0 <= bool_value_zero_count c -> carry_step c out = Ok (c', out') ->
  0 <= bool_value_zero_count c' /\ made c out <= made c' out'.
Proof.
  intros c out c' out' Hz E. unfold carry_step in E. unfold made.
  destruct (65536 <=? bool_value c); [|inversion E; subst; lia].
  cbn [set_vr bool_value_zero_count] in E.
  destruct (0 <? bool_value_zero_count c) eqn:Ez.
  - apply bind_inv in E. destruct E as ([c1 o1] & E1 & E). apply emit_made in E1.
    apply bind_inv in E. destruct E as ([c2 o2] & E2 & E). apply emit_n_made in E2.
    inversion E; subst. cbn [set_pending bool_value_zero_count bool_value_last_zero].
    destruct E1 as (Z1 & _ & N1), E2 as (_ & _ & N2). cbn [set_vr bool_value_zero_count] in Z1. rewrite Z1 in N2.
    cbn [b2z]. destruct (bool_value_last_zero c); cbn [b2z]; lia.
  - inversion E; subst. cbn [set_pending bool_value_zero_count bool_value_last_zero b2z].
    destruct (bool_value_last_zero c); cbn [b2z]; lia.
Qed.

Lemma renorm_made : forall f c out c' out', 0 <= bool_value_zero_count c -> renorm_loop f c out = Ok (c', out') ->
  0 <= bool_value_zero_count c' /\ made c out <= made c' out'.
Proof.
  induction f; intros c out c' out' Hz E; cbn [renorm_loop] in E; [discriminate|].
  destruct (bool_range c <? 32768); [|inversion E; subst; unfold made; lia].
  apply bind_inv in E. destruct E as ([c1 o1] & E1 & E).
  assert (G : 0 <= bool_value_zero_count c1 /\ made c out <= made c1 o1).
  { destruct (negb (bool_first c)); [|inversion E1; subst; lia].
    destruct (_ =? 0).
    - apply bind_inv in E1. destruct E1 as ([ca oa] & Ea & E1).
      apply bind_inv in E1. destruct E1 as ([cb ob] & Eb & E1). apply emit_n_made in Eb.
      inversion E1; subst. unfold made. cbn [set_pending bool_value_zero_count bool_value_last_zero b2z].
      destruct Eb as (_ & _ & ->). split; [lia|].
      destruct (bool_value_last_zero c); cbn [b2z].
      + apply emit_made in Ea. destruct Ea as (_ & _ & ->). lia.
      + inversion Ea; subst. lia.
    - apply bind_inv in E1. destruct E1 as (z & Ez & E1). apply chk_inv in Ez. destruct Ez as [-> _].
      inversion E1; subst. unfold made. cbn [set_pending bool_value_zero_count bool_value_last_zero]. lia. }
  apply IHf in E; [|cbn; lia]. unfold made in *. cbn [set_vr set_first bool_value_zero_count bool_value_last_zero] in E. lia.
Qed.

#[export] Instance symbol_grows : forall s cdf, grows (fun c out => encode_symbol c s out cdf).
Proof.
  intros s cdf c out c' out' x Hz E. unfold encode_symbol, encode_symbol_fuel in E.
  repeat match type of E with
  | bind (carry_step _ _) _ = _ => fail 1
  | bind _ _ = _ => let y := fresh in let F := fresh in apply bind_inv in E; destruct E as (y & F & E); clear F
  end.
  apply bind_inv in E. destruct E as ([c1 o1] & E1 & E). apply carry_made in E1; [|exact Hz].
  apply bind_inv in E. destruct E as ([c2 o2] & E2 & E). apply renorm_made in E2; [|lia].
  apply bind_inv in E. destruct E as (? & _ & E). inversion E; subst.
  unfold made in *. cbn [set_vr bool_value_zero_count bool_value_last_zero] in E1. lia.
Qed.

Lemma exit_made : forall c out c' out', 0 <= bool_value_zero_count c -> exit_encoder c out = Ok (c', out') ->
  made c out + 16 <= Z.of_nat (length out').
Proof.
  intros c out c' out' Hz E. unfold exit_encoder in E.
  apply bind_inv in E. destruct E as ([ca oa] & Ea & E).
  apply bind_inv in E. destruct E as ([cb ob] & Eb & E). apply emit_n_made in Eb.
  apply (f_equal (fun r => match r with Ok (_, y) => length y | _ => 0%nat end)) in E. rewrite <- E. clear E.
  assert (G : forall k o b, length (push_n k o b) = (k + length o)%nat).
  { induction k; intros; cbn [push_n]; [reflexivity|]. rewrite IHk. unfold push. rewrite app_length. cbn. lia. }
  assert (G2 : forall k v i o, length (push_value_bits k v i o) = (k + length o)%nat).
  { induction k; intros; cbn [push_value_bits]; [reflexivity|]. rewrite IHk. unfold push. rewrite app_length. cbn. lia. }
  rewrite G, G2. destruct Eb as (_ & _ & ->). unfold made.
  destruct (bool_value_last_zero c); cbn [b2z].
  - apply emit_made in Ea. destruct Ea as (-> & _ & ->). lia.
  - inversion Ea; subst. lia.
Qed.

Lemma inv_made : forall o0 bc0 c out B L n vm, enc_inv o0 bc0 c out B L n vm ->
  Z.of_nat n - 1 <= made c out - Z.of_nat (length o0).
Proof.
  intros o0 bc0 c out B L n vm H. pose proof (ei_out _ _ _ _ _ _ _ _ H) as ->. unfold made.
  pose proof (ei_z _ _ _ _ _ _ _ _ H). rewrite app_length. destruct (bool_first c) eqn:E.
  - destruct (ei_first _ _ _ _ _ _ _ _ H E) as (-> & _ & Hz & _ & -> & _). destruct (bool_value_last_zero c); cbn; lia.
  - destruct (ei_rest _ _ _ _ _ _ _ _ H E) as (Hn & _). rewrite app_length, pend_length in Hn.
    destruct (bool_value_last_zero c); cbn [b2z] in *; lia.
Qed.

#[export] Instance ret_grows : forall (X : Type) (x : X), grows (fun c out => Ok (c, out, x)).
Proof. intros X x c out c' out' y Hz E. inversion E; subst. lia. Qed.

#[export] Instance symbolp_grows : forall b p,
  grows (fun c out => '(c, out) <- encode_symbolp c b out p ;; Ok (c, out, tt)).
Proof.
  intros b p c out c' out' x Hz E. apply bind_inv in E. destruct E as ([c1 o1] & E1 & E). inversion E; subst.
  unfold encode_symbolp in E1. apply bind_inv in E1. destruct E1 as (cdf & _ & E1).
  apply bind_inv in E1. destruct E1 as ([[c2 o2] cdf2] & E1 & E2). inversion E2; subst.
  exact (symbol_grows _ _ _ _ _ _ _ Hz E1).
Qed.

#[export] Instance symbols_loop_grows : forall bs cdf,
  grows (fun c out => '(c, out) <- encode_symbols_loop c bs out cdf ;; Ok (c, out, tt)).
Proof.
  induction bs as [|b bs IH]; intros cdf c out c' out' x Hz E; cbn [encode_symbols_loop] in E.
  - inversion E; subst. lia.
  - apply bind_inv in E. destruct E as ([c1 o1] & E1 & E). inversion E; subst; clear E.
    apply bind_inv in E1. destruct E1 as ([[c2 o2] cdf2] & E1 & E2).
    apply symbol_grows in E1; [|assumption].
    destruct (IH cdf2 c2 o2 c' out' tt) as [G1 G2]; [lia|rewrite E2; reflexivity|]. lia.
Qed.

#[export] Instance literal_grows : forall n v,
  grows (fun c out => '(c, out) <- encode_literal c out v n ;; Ok (c, out, tt)).
Proof.
  induction n; intros v c out c' out' x Hz E; cbn [encode_literal] in E.
  - inversion E; subst. lia.
  - apply bind_inv in E. destruct E as ([c1 o1] & E1 & E). inversion E; subst; clear E.
    apply bind_inv in E1. destruct E1 as (u & _ & E1).
    apply bind_inv in E1. destruct E1 as ([c2 o2] & E1 & E2).
    match type of E1 with encode_symbolp c ?b _ _ = _ =>
      destruct (symbolp_grows b 128 c out c2 o2 tt Hz) as [A1 A2]; [rewrite E1; reflexivity|] end.
    destruct (IHn v c2 o2 c' out' tt) as [G1 G2]; [lia|rewrite E2; reflexivity|]. lia.
Qed.

#[export] Instance op_grows : forall o t, grows (enc_op' t o).
Proof.
  intros o t c out c' out' x Hz E. unfold enc_op' in E.
  apply bind_inv in E. destruct E as ([[c1 t1] o1] & E1 & E). inversion E; subst; clear E.
  destruct o as [ctx s|p b|p bs|n v]; cbn [encode_op] in E1.
  - apply bind_inv in E1. destruct E1 as (cdf & _ & E1). apply bind_inv in E1.
    destruct E1 as ([[c2 o2] cdf2] & E1 & E2). inversion E2; subst. exact (symbol_grows _ _ _ _ _ _ _ Hz E1).
  - apply bind_inv in E1. destruct E1 as ([c2 o2] & E1 & E2). inversion E2; subst.
    apply (symbolp_grows b p _ _ _ _ tt Hz). rewrite E1. reflexivity.
  - apply bind_inv in E1. destruct E1 as ([c2 o2] & E1 & E2). inversion E2; subst.
    unfold encode_symbols in E1. apply bind_inv in E1. destruct E1 as (cdf & _ & E1).
    apply (symbols_loop_grows bs cdf _ _ _ _ tt Hz). rewrite E1. reflexivity.
  - apply bind_inv in E1. destruct E1 as ([c2 o2] & E1 & E2). inversion E2; subst.
    apply (literal_grows n v _ _ _ _ tt Hz). rewrite E1. reflexivity.
Qed.

#[export] Instance ops_grows : forall ops t,
  grows (fun c out => '(c, t, out) <- encode_ops c t out ops ;; Ok (c, out, t)).
Proof.
  induction ops as [|o ops IH]; intros t c out c' out' x Hz E; cbn [encode_ops] in E.
  - inversion E; subst. lia.
  - apply bind_inv in E. destruct E as ([[c1 t1] o1] & E1 & E). inversion E; subst; clear E.
    apply bind_inv in E1. destruct E1 as ([[c2 t2] o2] & E1 & E2).
    destruct (op_grows o t c out c2 o2 t2 Hz) as [A1 A2]; [unfold enc_op'; rewrite E1; reflexivity|].
    destruct (IH t2 c2 o2 c' out' x) as [G1 G2]; [lia|rewrite E2; reflexivity|]. lia.
Qed.

(** [flow k enc dec a x]: whenever [enc] returns from a good state and what it has
    made fits, it yields [x], and [dec], run on any bits that continue the
    encoder's output, yields [a] and [x]; at most [k] shifts are made. *)
Definition flow {A X : Type} (k : nat)
  (enc : coder -> list Z -> res (coder * list Z * X))
  (dec : coder -> list Z -> res (A * coder * list Z * X)) (a : A) (x : X) : Prop :=
  grows enc /\
  forall o0 bc0 c out B L n c' out' x',
    enc_inv o0 bc0 c out B L n 65536 -> 32768 <= bool_range c < 65536 ->
    enc c out = Ok (c', out', x') -> made c' out' <= Z.of_nat (length o0) + 2 ^ 31 - 17 ->
    exists B' L' n',
      out' = o0 ++ B' /\ x' = x /\
      enc_inv o0 bc0 c' (o0 ++ B') B' L' n' 65536 /\
      32768 <= bool_range c' < 65536 /\ (n <= n' <= n + k)%nat /\
      bool_max_bits c' = bool_max_bits c /\ leb_128_bytes c' = leb_128_bytes c /\
      forall T, is_bits T -> contains T L' (bool_range c') n' ->
        contains T L (bool_range c) n /\
        forall d q, dec_match T d q L (bool_range c) n ->
          - 2 ^ 31 + 2 * Z.of_nat (n' - n) <= bool_max_bits d <= 2 ^ 31 - 1 ->
          exists d' q',
            dec d q = Ok (a, d', q', x) /\
            dec_match T d' q' L' (bool_range c') n' /\
            bool_max_bits d' = bool_max_bits d - 2 * Z.of_nat (n' - n) /\
            leb_128_bytes d' = leb_128_bytes d /\ bit_count d' = bit_count d.

Lemma flow_ret : forall (A X : Type) (a : A) (x : X),
  flow 0 (fun c out => Ok (c, out, x)) (fun d q => Ok (a, d, q, x)) a x.
Proof.
  intros A X a x. split.
  - intros c out c' out' y Hz E. inversion E; subst. lia.
  - intros o0 bc0 c out B L n c' out' x' H HR E Hm. inversion E; subst.
    exists B, L, n. pose proof (ei_out _ _ _ _ _ _ _ _ H) as Ho. subst out'.
    split; [reflexivity|]. split; [reflexivity|]. split; [assumption|]. split; [assumption|]. split; [lia|].
    split; [reflexivity|]. split; [reflexivity|].
    intros T HT HC. split; [assumption|]. intros d q HM Hmb. exists d, q.
    split; [reflexivity|]. split; [assumption|]. split; [lia|auto].
Qed.

Lemma flow_bind : forall (A X A2 X2 : Type) k k2 enc dec (a : A) (x : X)
    (enc2 : X -> coder -> list Z -> res (coder * list Z * X2))
    (dec2 : A -> X -> coder -> list Z -> res (A2 * coder * list Z * X2)) a2 x2 {G2 : forall y, grows (enc2 y)},
  flow k enc dec a x -> flow k2 (enc2 x) (dec2 a x) a2 x2 ->
  flow (k + k2)
    (fun c out => '(c, out, x) <- enc c out ;; enc2 x c out)
    (fun d q => '(a, d, q, x) <- dec d q ;; dec2 a x d q) a2 x2.
Proof.
  intros A X A2 X2 k k2 enc dec a x enc2 dec2 a2 x2 G2 [G1 P1] [_ P2]. unfold grows in G2. split.
  - intros c out c' out' y Hz E. apply bind_inv in E. destruct E as ([[c1 o1] x1] & E1 & E).
    apply G1 in E1; [|assumption]. apply G2 in E; [|lia]. lia.
  - intros o0 bc0 c out B L n c' out' x' H HR E Hm.
    apply bind_inv in E. destruct E as ([[c1 o1] x1] & E1 & E2).
    pose proof (ei_z _ _ _ _ _ _ _ _ H) as Hz.
    destruct (G1 _ _ _ _ _ Hz E1) as [Hz1 Hm1]. destruct (G2 x1 _ _ _ _ _ Hz1 E2) as [Hz2 Hm2].
    destruct (P1 o0 bc0 c out B L n _ _ _ H HR E1 ltac:(lia)) as (B1 & L1 & n1 & -> & -> & I1 & R1 & N1 & M1 & Lb1 & D1).
    destruct (P2 o0 bc0 c1 _ B1 L1 n1 _ _ _ I1 R1 E2 Hm) as (B2 & L2 & n2 & -> & -> & I2 & R2 & N2 & M2 & Lb2 & D2).
    exists B2, L2, n2. split; [reflexivity|]. split; [reflexivity|]. split; [assumption|].
    split; [assumption|]. split; [lia|]. split; [congruence|]. split; [congruence|].
    intros T HT HC. destruct (D2 T HT HC) as [C1 X2']. destruct (D1 T HT C1) as [C0 X1'].
    split; [assumption|]. intros d q HM Hmb.
    destruct (X1' d q HM ltac:(lia)) as (d1 & q1 & F1 & Gd1 & K1 & K1a & K1b).
    destruct (X2' d1 q1 Gd1 ltac:(lia)) as (d2 & q2 & F2 & Gd2 & K2 & K2a & K2b).
    exists d2, q2. rewrite F1. cbn [bind]. split; [assumption|]. split; [assumption|].
    split; [lia|]. split; congruence.
Qed.

Lemma flow_ext : forall (A X : Type) k k' enc enc' dec dec' (a : A) (x : X),
  flow k enc dec a x -> (k <= k')%nat ->
  (forall c out, enc' c out = enc c out) -> (forall d q, dec' d q = dec d q) ->
  flow k' enc' dec' a x.
Proof.
  intros A X k k' enc enc' dec dec' a x [G P] Hk He Hd. split.
  - intros c out c' out' y Hz E. rewrite He in E. eapply G; eassumption.
  - intros o0 bc0 c out B L n c' out' x' H HR E Hm. rewrite He in E.
    destruct (P o0 bc0 c out B L n _ _ _ H HR E Hm) as (B1 & L1 & n1 & Y1 & Y2 & I1 & R1 & N1 & M1 & Lb1 & D1).
    exists B1, L1, n1. do 4 (split; [assumption|]). split; [lia|]. do 2 (split; [assumption|]).
    intros T HT HC. destruct (D1 T HT HC) as [C0 X1]. split; [assumption|].
    intros d q HM Hmb. destruct (X1 d q HM ltac:(lia)) as (d' & q' & Y). exists d', q'. rewrite Hd. exact Y.
Qed.

Lemma flow_symbol : forall N cdf s cdf',
  valid_cdf N cdf -> (s < N)%nat -> update_cdf (Z.of_nat s) cdf = Ok cdf' ->
  flow (cost cdf s) (fun c out => encode_symbol c (Z.of_nat s) out cdf)
            (fun d q => decode_symbol d q cdf) (Z.of_nat s) cdf'.
Proof.
  intros N cdf s cdf' Hc Hs Hu. split; [apply symbol_grows|].
  intros o0 bc0 c out B L n c' out' x' H HR E Hm.
  destruct (symbol_grows _ _ _ _ _ _ _ (ei_z _ _ _ _ _ _ _ _ H) E) as [_ Hg].
  pose proof (inv_made _ _ _ _ _ _ _ _ H) as Hn. pose proof (cost_le _ _ _ Hc Hs) as Hk.
  destruct (paired_symbol N cdf s cdf' Hc Hs Hu o0 bc0 c out B L n H HR) as (c1 & B1 & L1 & n1 & E1 & I1 & R1 & N1 & M1 & Lb1 & D1).
  { lia. }
  cbv beta in E. rewrite E1 in E. inversion E; subst. exists B1, L1, n1.
  split; [reflexivity|]. split; [reflexivity|]. split; [assumption|]. split; [assumption|]. split; [lia|].
  split; [assumption|]. split; [assumption|]. exact D1.
Qed.

Lemma flow_symbol_ex : forall N cdf s, valid_cdf N cdf -> (s < N)%nat ->
  exists cdf', valid_cdf N cdf' /\ update_cdf (Z.of_nat s) cdf = Ok cdf' /\
  flow (cost cdf s) (fun c out => encode_symbol c (Z.of_nat s) out cdf)
            (fun d q => decode_symbol d q cdf) (Z.of_nat s) cdf'.
Proof.
  intros N cdf s Hc Hs. destruct (update_cdf_valid N cdf (Z.of_nat s) Hc) as (cdf' & E & V).
  exists cdf'. split; [assumption|]. split; [assumption|]. eapply flow_symbol; eassumption.
Qed.

Lemma flow_symbolp : forall p b, 0 <= p <= 255 -> is_bit b ->
  flow (bit_cost p b)
    (fun c out => '(c, out) <- encode_symbolp c b out p ;; Ok (c, out, tt))
    (fun d q => '(s, d, q) <- decode_symbolp d q p ;; Ok (s, d, q, tt)) b tt.
Proof.
  intros p b Hp Hb. destruct (cdf_p_ok p Hp) as [E V]. destruct (bit_nat b Hb) as [Eb Lb].
  destruct (flow_symbol_ex 2 _ (Z.to_nat b) V Lb) as (cdf' & _ & _ & P). rewrite <- Eb in P.
  refine (flow_ext _ _ _ _ _ _ _ _ _ _
    (flow_bind _ _ _ _ _ 0 _ _ _ _ (fun _ c out => Ok (c, out, tt)) (fun a _ d q => Ok (a, d, q, tt))
       b tt P (flow_ret _ _ b tt)) _ _ _).
  - unfold bit_cost. lia.
  - intros c out. unfold encode_symbolp. rewrite E. cbn [bind].
    destruct (encode_symbol c b out _) as [[[? ?] ?]| |]; reflexivity.
  - intros d q. unfold decode_symbolp. rewrite E. cbn [bind].
    destruct (decode_symbol d q _) as [[[[? ?] ?] ?]| |]; reflexivity.
Qed.

Lemma flow_symbols_loop : forall bs cdf, valid_cdf 2 cdf -> is_bits bs ->
  flow (run_cost cdf bs)
    (fun c out => '(c, out) <- encode_symbols_loop c bs out cdf ;; Ok (c, out, tt))
    (fun d q => '(s, d, q) <- decode_symbols_loop (length bs) d q cdf ;; Ok (s, d, q, tt)) bs tt.
Proof.
  induction bs as [|b bs IH]; intros cdf V Hb.
  - refine (flow_ext _ _ _ _ _ _ _ _ _ _ (flow_ret _ _ [] tt) _ _ _); [lia|reflexivity|reflexivity].
  - apply is_bits_cons in Hb. destruct Hb as [Hb Hbs]. destruct (bit_nat b Hb) as [Eb Lb].
    destruct (flow_symbol_ex 2 _ (Z.to_nat b) V Lb) as (cdf' & V' & U & P). rewrite <- Eb in P, U.
    cbn [run_cost]. rewrite U.
    refine (flow_ext _ _ _ _ _ _ _ _ _ _
      (flow_bind _ _ _ _ _ _ _ _ _ _
        (fun x c out => '(c, out) <- encode_symbols_loop c bs out x ;; Ok (c, out, tt))
        (fun a x d q => '(r, d, q, u) <- ('(s, d, q) <- decode_symbols_loop (length bs) d q x ;; Ok (s, d, q, tt)) ;;
                        Ok (as_u8 a :: r, d, q, u))
        (b :: bs) tt P _) _ _ _).
    + refine (flow_ext _ _ _ _ _ _ _ _ _ _
        (flow_bind _ _ _ _ _ 0 _ _ _ _ (fun u c out => Ok (c, out, u))
          (fun r u d q => Ok (as_u8 b :: r, d, q, u)) (b :: bs) tt (IH cdf' V' Hbs) _) _ _ _).
      * rewrite as_u8_id by (destruct Hb; lia). apply flow_ret.
      * instantiate (1 := run_cost cdf' bs). lia.
      * intros c out. destruct (encode_symbols_loop c bs out cdf') as [[? ?]| |]; reflexivity.
      * intros d q. destruct (decode_symbols_loop (length bs) d q cdf') as [[[? ?] ?]| |]; reflexivity.
    + lia.
    + intros c out. cbn [encode_symbols_loop].
      destruct (encode_symbol c b out cdf) as [[[? ?] ?]| |]; reflexivity.
    + intros d q. cbn [decode_symbols_loop length].
      destruct (decode_symbol d q cdf) as [[[[? ?] ?] ?]| |]; cbn [bind]; try reflexivity.
      destruct (decode_symbols_loop (length bs) c l l0) as [[[? ?] ?]| |]; reflexivity.
Qed.

Lemma flow_literal_loop : forall n x v, (n <= 64)%nat -> 0 <= v -> 0 <= x ->
  (x + 1) * 2 ^ Z.of_nat n <= 2 ^ 64 ->
  flow n
    (fun c out => '(c, out) <- encode_literal c out v n ;; Ok (c, out, tt))
    (fun d q => '(s, d, q) <- decode_literal_loop n x d q ;; Ok (s, d, q, tt))
    (x * 2 ^ Z.of_nat n + v mod 2 ^ Z.of_nat n) tt.
Proof.
  induction n; intros x v Hn Hv Hx Hxn.
  - change (2 ^ Z.of_nat 0) with 1. rewrite Z.mod_1_r, Z.mul_1_r, Z.add_0_r.
    refine (flow_ext _ _ _ _ _ _ _ _ _ _ (flow_ret _ _ x tt) _ _ _); [lia|reflexivity|reflexivity].
  - set (b := (v / 2 ^ Z.of_nat n) mod 2).
    assert (Hb : is_bit b) by apply mod2_bit.
    assert (Hb2 : 0 <= b <= 1) by (destruct Hb; lia).
    rewrite pow2_S in Hxn. pose proof (pow2_nat_pos n) as Hp.
    assert (Hx2 : 2 * x + b < 2 ^ 64). { change (2 ^ 64) with 18446744073709551616 in *. nia. }
    replace (x * 2 ^ Z.of_nat (S n) + v mod 2 ^ Z.of_nat (S n))
      with ((2 * x + b) * 2 ^ Z.of_nat n + v mod 2 ^ Z.of_nat n)
      by (rewrite mod_pow2_S, pow2_S; fold b; lia).
    change (2 ^ 64) with 18446744073709551616 in *.
    refine (flow_ext _ _ _ _ _ _ _ _ _ _
      (flow_bind _ _ _ _ _ _ _ _ _ _
        (fun _ c out => '(c, out) <- encode_literal c out v n ;; Ok (c, out, tt))
        (fun s _ d q => '(s, d, q) <- (x' <- chk_u64 (as_u64 (Z.shiftl x 1) + s) ;; decode_literal_loop n x' d q) ;;
                         Ok (s, d, q, tt))
        _ tt (flow_symbolp 128 b ltac:(lia) Hb) _) _ _ _).
    + refine (flow_ext _ _ _ _ _ _ _ _ _ _ (IHn (2 * x + b) v ltac:(lia) Hv ltac:(lia) _) _ _ _).
      * nia.
      * apply le_n.
      * reflexivity.
      * intros d q. rewrite shiftl_mul by lia. change (2 ^ 1) with 2. rewrite as_u64_id by lia.
        rewrite chk_u64_ok by lia. cbn [bind]. replace (x * 2 + b) with (2 * x + b) by lia. reflexivity.
    + rewrite (bit_cost_128 b Hb). lia.
    + intros c out. cbn [encode_literal]. rewrite shift_ok_ok by lia. cbn [bind].
      rewrite land_1, shiftr_div by lia. fold b. rewrite as_u8_id by lia.
      destruct (encode_symbolp c b out 128) as [[? ?]| |]; reflexivity.
    + intros d q. cbn [decode_literal_loop].
      destruct (decode_symbolp d q 128) as [[[? ?] ?]| |]; reflexivity.
Qed.

Lemma flow_op : forall sizes t o, valid_table sizes t -> valid_op sizes o ->
  flow (op_cost t o) (enc_op' t o) (dec_op' t (shape_of o)) o (table_after t o).
Proof.
  intros sizes t o Ht Ho. destruct o as [ctx s|p b|p bs|n v]; simpl in Ho.
  - destruct Ho as (N & Hn & Hs). destruct (valid_table_nth _ _ _ _ Ht Hn) as [E V].
    destruct (flow_symbol_ex N _ s V Hs) as (cdf' & V' & U & P).
    cbn [table_after]. rewrite U.
    refine (flow_ext _ _ _ _ _ _ _ _ _ _
      (flow_bind _ _ _ _ _ 0 _ _ _ _ (fun x c out => Ok (c, out, set_nth ctx x t))
         (fun a x d q => Ok (OSym ctx (Z.to_nat a), d, q, set_nth ctx x t)) (OSym ctx s) _ P _) _ _ _).
    + rewrite Nat2Z.id. apply flow_ret.
    + cbn [op_cost]. lia.
    + intros c out. unfold enc_op', encode_op. rewrite E. cbn [bind].
      destruct (encode_symbol c (Z.of_nat s) out _) as [[[? ?] ?]| |]; reflexivity.
    + intros d q. unfold dec_op', decode_op. cbn [shape_of]. rewrite E. cbn [bind].
      destruct (decode_symbol d q _) as [[[[? ?] ?] ?]| |]; reflexivity.
  - destruct Ho as [Hp Hb]. pose proof (flow_symbolp p b Hp Hb) as P.
    refine (flow_ext _ _ _ _ _ _ _ _ _ _
      (flow_bind _ _ _ _ _ 0 _ _ _ _ (fun x c out => Ok (c, out, t))
         (fun a x d q => Ok (OBit p a, d, q, t)) (OBit p b) _ P (flow_ret _ _ _ _)) _ _ _).
    + cbn [op_cost]. lia.
    + intros c out. unfold enc_op', encode_op.
      destruct (encode_symbolp c b out p) as [[? ?]| |]; reflexivity.
    + intros d q. unfold dec_op', decode_op. cbn [shape_of].
      destruct (decode_symbolp d q p) as [[[? ?] ?]| |]; reflexivity.
  - destruct Ho as [Hp Hb]. destruct (cdf_p_ok p Hp) as [E V].
    pose proof (flow_symbols_loop bs _ V Hb) as P.
    refine (flow_ext _ _ _ _ _ _ _ _ _ _
      (flow_bind _ _ _ _ _ 0 _ _ _ _ (fun x c out => Ok (c, out, t))
         (fun a x d q => Ok (OBits p a, d, q, t)) (OBits p bs) _ P (flow_ret _ _ _ _)) _ _ _).
    + cbn [op_cost]. lia.
    + intros c out. unfold enc_op', encode_op, encode_symbols. rewrite E. cbn [bind].
      destruct (encode_symbols_loop c bs out _) as [[? ?]| |]; reflexivity.
    + intros d q. unfold dec_op', decode_op, decode_symbols. cbn [shape_of]. rewrite E. cbn [bind].
      rewrite Nat2Z.id.
      destruct (decode_symbols_loop (length bs) d q _) as [[[? ?] ?]| |]; reflexivity.
  - destruct Ho as [Hn Hv].
    assert (H64 : 2 ^ Z.of_nat n <= 2 ^ 64) by (apply pow2_le; lia).
    pose proof (flow_literal_loop n 0 v Hn ltac:(lia) ltac:(lia) ltac:(lia)) as P.
    rewrite Z.mul_0_l, Z.add_0_l, Z.mod_small in P by assumption.
    refine (flow_ext _ _ _ _ _ _ _ _ _ _
      (flow_bind _ _ _ _ _ 0 _ _ _ _ (fun x c out => Ok (c, out, t))
         (fun a x d q => Ok (OLit n a, d, q, t)) (OLit n v) _ P (flow_ret _ _ _ _)) _ _ _).
    + cbn [op_cost]. lia.
    + intros c out. unfold enc_op', encode_op.
      destruct (encode_literal c out v n) as [[? ?]| |]; reflexivity.
    + intros d q. unfold dec_op', decode_op, decode_literal. cbn [shape_of].
      destruct (decode_literal_loop n 0 d q) as [[[? ?] ?]| |]; reflexivity.
Qed.

Lemma flow_ops : forall sizes ops t, valid_table sizes t -> Forall (valid_op sizes) ops ->
  flow (session_cost t ops)
    (fun c out => '(c, t, out) <- encode_ops c t out ops ;; Ok (c, out, t))
    (fun d q => '(os, d, t, q) <- decode_ops d t q (map shape_of ops) ;; Ok (os, d, q, t))
    ops (tables_after t ops).
Proof.
  induction ops as [|o ops IH]; intros t Ht Ho.
  - refine (flow_ext _ _ _ _ _ _ _ _ _ _ (flow_ret _ _ [] t) _ _ _); [cbn; lia|reflexivity|reflexivity].
  - inversion Ho as [|? ? Ho1 Ho2]; subst.
    pose proof (flow_op sizes t o Ht Ho1) as P.
    specialize (IH (table_after t o) (table_after_valid _ _ _ Ht Ho1) Ho2).
    cbn [session_cost tables_after].
    refine (flow_ext _ _ _ _ _ _ _ _ _ _
      (flow_bind _ _ _ _ _ _ _ _ _ _
        (fun x c out => '(c, t, out) <- encode_ops c x out ops ;; Ok (c, out, t))
        (fun a x d q => '(os, d, q, t) <- ('(os, d, t, q) <- decode_ops d x q (map shape_of ops) ;; Ok (os, d, q, t)) ;;
                        Ok (a :: os, d, q, t))
        (o :: ops) _ P
        (flow_ext _ _ _ (session_cost (table_after t o) ops) _ _ _ _ _ _
          (flow_bind _ _ _ _ _ 0 _ _ _ _ (fun x c out => Ok (c, out, x))
            (fun a x d q => Ok (o :: a, d, q, x)) (o :: ops) _ IH (flow_ret _ _ _ _)) _ _ _)) _ _ _).
    + lia.
    + intros c out. destruct (encode_ops c _ out ops) as [[[? ?] ?]| |]; reflexivity.
    + intros d q. destruct (decode_ops d _ q _) as [[[[? ?] ?] ?]| |]; reflexivity.
    + lia.
    + intros c out. cbn [encode_ops]. unfold enc_op'.
      destruct (encode_op c t out o) as [[[? ?] ?]| |]; reflexivity.
    + intros d q. cbn [decode_ops map]. unfold dec_op'.
      destruct (decode_op d t q (shape_of o)) as [[[[? ?] ?] ?]| |]; cbn [bind]; try reflexivity.
      destruct (decode_ops c c0 l (map shape_of ops)) as [[[[? ?] ?] ?]| |]; reflexivity.
Qed.

(** One session of any length. *)
Lemma long_session : forall sizes t ops c out c' t' o,
  valid_table sizes t -> Forall (valid_op sizes) ops -> 0 <= bit_count c < 2 ^ 62 ->
  encode_session c t out ops = Ok (c', t', o) -> Z.of_nat (length o) < Z.of_nat (length out) + 2 ^ 31 ->
  exists D n pad,
    o = out ++ D /\ t' = tables_after t ops /\ is_bits D /\
    (n <= session_cost t ops)%nat /\
    pad = Z.to_nat ((8 - (bit_count c + Z.of_nat (n - 1)) mod 8) mod 8) /\
    length D = ((n - 1) + 16 + pad)%nat /\
    bit_count c' = bit_count c + Z.of_nat (n - 1) /\
    skipn ((n - 1) + 16) D = repeat 0 pad /\
    forall d sz tail, 0 <= sz < 2 ^ 28 -> 2 * Z.of_nat n <= 8 * sz - 15 + 2 ^ 31 -> is_bits tail ->
      exists d',
        decode_session d t (D ++ tail) sz (map shape_of ops)
          = Ok (ops, d', t', skipn (n + 15) D ++ tail) /\
        bool_max_bits d' = 8 * sz - 15 - 2 * Z.of_nat n.
Proof.
  intros sizes t ops c out c' t' o Ht Ho Hbc E Hlen. unfold encode_session in E.
  apply bind_inv in E. destruct E as ([[c1 t1] out1] & E1 & E).
  apply bind_inv in E. destruct E as ([c2 o2] & E2 & E). inversion E; subst; clear E.
  pose proof (init_inv c out Hbc) as I0.
  destruct (ops_grows ops t (init_encoder c) out c1 out1 t') as [Z1 G1].
  { unfold init_encoder. cbn. lia. }
  { rewrite E1. reflexivity. }
  pose proof (exit_made _ _ _ _ Z1 E2) as Hx.
  destruct (flow_ops sizes ops t Ht Ho) as [_ F].
  destruct (F out (bit_count c) (init_encoder c) out [] 0 0%nat c1 out1 t' I0)
    as (B1 & L1 & n1 & -> & -> & I1 & R1 & N1 & M1 & Lb1 & D1).
  { unfold init_encoder. cbn [bool_range]. rewrite shiftl_mul by lia. change (1 * 2 ^ 15) with 32768. lia. }
  { rewrite E1. reflexivity. }
  { lia. }
  clear F. pose proof (inv_made _ _ _ _ _ _ _ _ I1) as Hn1.
  destruct (exit_encoder_ok _ _ _ _ _ _ _ I1 ltac:(lia) ltac:(lia)) as (c3 & D & pad & E3 & HD & Hpad & HlD & HX & Hbc2 & Hzero).
  rewrite E3 in E2. inversion E2; subst c3 o; clear E2.
  exists D, n1, pad.
  do 8 (split; [first [reflexivity|assumption|lia]|]).
  intros d sz tail Hsz Hmb Htl.
  assert (HT : is_bits (D ++ tail)) by (apply is_bits_app; split; assumption).
  assert (HlT : (n1 + 15 <= length D)%nat) by lia.
  destruct (D1 (D ++ tail) HT) as [C0 X].
  { split; [rewrite app_length; lia|]. unfold prefix_val. rewrite firstn_app.
    replace (n1 + 15 - length D)%nat with 0%nat by lia. rewrite firstn_O, app_nil_r, HX. lia. }
  destruct (init_decoder_ok (D ++ tail) d sz HT ltac:(rewrite app_length; lia) Hsz)
    as (d0 & F0 & M0 & K0 & K0a & K0b).
  change (2 ^ 28) with 268435456 in *.
  destruct (X d0 (skipn 15 (D ++ tail))) as (d1 & q1 & F1 & Gd1 & K1 & K1a & K1b).
  { unfold init_encoder. cbn [bool_range]. rewrite shiftl_mul by lia. exact M0. }
  { rewrite K0. change (2 ^ 31) with 2147483648 in *. lia. }
  apply bind_inv in F1. destruct F1 as ([[[os d2] t2] q2] & F1 & F1'). inversion F1'; subst; clear F1'.
  exists d1. unfold decode_session. rewrite F0. cbn [bind]. rewrite F1.
  split.
  - f_equal. f_equal. destruct Gd1 as [_ _ Hq]. rewrite Hq. rewrite skipn_app.
    replace (n1 + 15 - length D)%nat with 0%nat by lia. reflexivity.
  - rewrite K1, K0. lia.
Qed.
