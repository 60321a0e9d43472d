(** Encoding followed by decoding, for whole sessions. *)
From Coq Require Import ZArith List Bool Lia ZifyBool ZifyNat Sorted.
From Verif Require Import Base BaseProofs UtilModel UtilProofs BitsSpec BitsProofs
  RangeCoderModel RangeCoderSpec CdfProofs RangeEncProofs RangeDecProofs SessionModel SessionSpec.
Import ListNotations.
Open Scope Z_scope.
Ltac Zify.zify_post_hook ::= Z.div_mod_to_equations.

(** [paired k enc dec a x]: from every good state [enc] succeeds, adds at most [k]
    shifts and yields [x]; and [dec], run on any bits that continue the encoder's
    output, yields [a] and [x]. *)
Definition paired {A X : Type} (k : nat)
  (enc : coder -> list Z -> res (coder * list Z * X))
  (dec : coder -> list Z -> res (A * coder * list Z * X)) (a : A) (x : X) : Prop :=
  forall o0 bc0 c out B L n,
    enc_inv o0 bc0 c out B L n 65536 -> 32768 <= bool_range c < 65536 ->
    Z.of_nat (n + k) <= 2 ^ 31 - 1 ->
    exists c' B' L' n',
      enc c out = Ok (c', o0 ++ B', x) /\
      enc_inv o0 bc0 c' (o0 ++ B') B' L' n' 65536 /\
      32768 <= bool_range c' < 65536 /\ (n <= n' <= n + k)%nat /\
      bool_max_bits c' = bool_max_bits c /\ leb_128_bytes c' = leb_128_bytes c /\
      forall T, is_bits T -> contains T L' (bool_range c') n' ->
        contains T L (bool_range c) n /\
        forall d q, dec_match T d q L (bool_range c) n ->
          - 2 ^ 31 + 2 * Z.of_nat (n' - n) <= bool_max_bits d <= 2 ^ 31 - 1 ->
          exists d' q',
            dec d q = Ok (a, d', q', x) /\
            dec_match T d' q' L' (bool_range c') n' /\
            bool_max_bits d' = bool_max_bits d - 2 * Z.of_nat (n' - n) /\
            leb_128_bytes d' = leb_128_bytes d /\ bit_count d' = bit_count d.

Lemma paired_ret : forall (A X : Type) (a : A) (x : X),
  paired 0 (fun c out => Ok (c, out, x)) (fun d q => Ok (a, d, q, x)) a x.
Proof.
  intros A X a x o0 bc0 c out B L n H HR Hn.
  exists c, B, L, n. pose proof (ei_out _ _ _ _ _ _ _ _ H) as Ho. subst out.
  split; [reflexivity|]. split; [assumption|]. split; [assumption|]. split; [lia|].
  split; [reflexivity|]. split; [reflexivity|].
  intros T HT HC. split; [assumption|]. intros d q HM Hmb. exists d, q.
  split; [reflexivity|]. split; [assumption|]. split; [lia|auto].
Qed.

Lemma paired_bind : forall (A X A2 X2 : Type) k k2 enc dec (a : A) (x : X)
    (enc2 : X -> coder -> list Z -> res (coder * list Z * X2))
    (dec2 : A -> X -> coder -> list Z -> res (A2 * coder * list Z * X2)) a2 x2,
  paired k enc dec a x -> paired k2 (enc2 x) (dec2 a x) a2 x2 ->
  paired (k + k2)
    (fun c out => '(c, out, x) <- enc c out ;; enc2 x c out)
    (fun d q => '(a, d, q, x) <- dec d q ;; dec2 a x d q) a2 x2.
Proof.
  intros A X A2 X2 k k2 enc dec a x enc2 dec2 a2 x2 P1 P2 o0 bc0 c out B L n H HR Hn.
  destruct (P1 o0 bc0 c out B L n H HR ltac:(lia)) as (c1 & B1 & L1 & n1 & E1 & I1 & R1 & N1 & M1 & Lb1 & D1).
  destruct (P2 o0 bc0 c1 _ B1 L1 n1 I1 R1 ltac:(lia)) as (c2 & B2 & L2 & n2 & E2 & I2 & R2 & N2 & M2 & Lb2 & D2).
  exists c2, B2, L2, n2. rewrite E1. cbn [bind]. split; [assumption|]. split; [assumption|].
  split; [assumption|]. split; [lia|]. split; [congruence|]. split; [congruence|].
  intros T HT HC. destruct (D2 T HT HC) as [C1 X2']. destruct (D1 T HT C1) as [C0 X1'].
  split; [assumption|]. intros d q HM Hmb.
  destruct (X1' d q HM ltac:(lia)) as (d1 & q1 & F1 & G1 & K1 & K1a & K1b).
  destruct (X2' d1 q1 G1 ltac:(lia)) as (d2 & q2 & F2 & G2 & K2 & K2a & K2b).
  exists d2, q2. rewrite F1. cbn [bind]. split; [assumption|]. split; [assumption|].
  split; [lia|]. split; congruence.
Qed.

Lemma paired_ext : forall (A X : Type) k k' enc enc' dec dec' (a : A) (x : X),
  paired k enc dec a x -> (k <= k')%nat ->
  (forall c out, enc' c out = enc c out) -> (forall d q, dec' d q = dec d q) ->
  paired k' enc' dec' a x.
Proof.
  intros A X k k' enc enc' dec dec' a x P Hk He Hd o0 bc0 c out B L n H HR Hn.
  destruct (P o0 bc0 c out B L n H HR ltac:(lia)) as (c1 & B1 & L1 & n1 & E1 & I1 & R1 & N1 & M1 & Lb1 & D1).
  exists c1, B1, L1, n1. rewrite He. split; [assumption|]. split; [assumption|]. split; [assumption|].
  split; [lia|]. split; [assumption|]. split; [assumption|].
  intros T HT HC. destruct (D1 T HT HC) as [C0 X1]. split; [assumption|].
  intros d q HM Hmb. destruct (X1 d q HM ltac:(lia)) as (d' & q' & Y). exists d', q'. rewrite Hd. exact Y.
Qed.

Lemma cost_le : forall N cdf s, valid_cdf N cdf -> (s < N)%nat -> (cost cdf s <= 15)%nat.
Proof. intros. unfold cost. pose proof (Z.log2_nonneg (prob cdf s)). lia. Qed.

Lemma paired_symbol : forall N cdf s cdf',
  valid_cdf N cdf -> (s < N)%nat -> update_cdf (Z.of_nat s) cdf = Ok cdf' ->
  paired (cost cdf s) (fun c out => encode_symbol c (Z.of_nat s) out cdf)
            (fun d q => decode_symbol d q cdf) (Z.of_nat s) cdf'.
Proof.
  intros N cdf s cdf' Hc Hs Hu o0 bc0 c out B L n H HR Hn.
  set (R := bool_range c) in *.
  destruct (cut_gap R cdf N s Hc HR Hs) as [Hgap Hprob].
  destruct (cut_bounds R cdf N s Hc HR Hs) as [Hcut0 Hcut1].
  set (r1 := left_of R cdf s - cut R cdf s). set (b := nshift r1).
  assert (Hr1 : 1 <= r1 < 65536) by (subst r1; lia).
  destruct (nshift_spec r1 ltac:(lia)) as (S1 & S2 & S3 & S4). fold b in S1, S2, S3, S4.
  assert (Hb : (b <= cost cdf s)%nat).
  { unfold cost. assert (Z.log2 (prob cdf s) <= Z.log2 r1) by (apply Z.log2_le_mono; subst r1; lia). lia. }
  (* the budget in encode_symbol_ok is stated with 15 bits of slack *)
  assert (Hcost : (cost cdf s <= 15)%nat) by (eapply cost_le; eassumption).
  destruct (encode_symbol_ok o0 bc0 c out B L n N cdf s cdf' H HR Hc Hs Hu) as (c' & B' & E & I & R' & M & Lb).
  { fold R r1 b. lia. }
  fold R r1 b in I, R'.
  eexists c', B', _, (n + b)%nat. split; [exact E|]. split; [exact I|].
  split; [lia|]. split; [lia|]. split; [assumption|]. split; [assumption|].
  intros T HT HC. rewrite R' in HC.
  destruct (contains_back T L R (R - left_of R cdf s) r1 n b HT ltac:(lia) ltac:(subst r1; lia) HC) as [C0 _].
  split; [assumption|]. intros d q HM Hmb.
  pose proof (dm_range _ _ _ _ _ _ HM) as HRd.
  destruct (decode_symbol_ok T d q L n N cdf s cdf' HT ltac:(lia) Hc Hs Hu) as (d' & q' & F & G & K & K2 & K3);
    try (rewrite HRd; assumption).
  { rewrite HRd. fold r1 b. lia. }
  rewrite HRd in G, K. fold r1 b in G, K.
  exists d', q'. split; [assumption|]. split; [rewrite R'; assumption|].
  split; [rewrite K; lia|auto].
Qed.

(** Fixed-probability bits. *)
Lemma cdf_p_ok : forall p, 0 <= p <= 255 ->
  cdf_p p = Ok [(p * 32768 + 256 - p) / 256; 32768; 0] /\
  valid_cdf 2 [(p * 32768 + 256 - p) / 256; 32768; 0].
Proof.
  intros p Hp. unfold cdf_p. rewrite shiftl_mul by lia. change (2 ^ 15) with 32768.
  rewrite as_i32_id by lia. rewrite chk_i32_ok by lia. cbn [bind]. rewrite chk_i32_ok by lia. cbn [bind].
  rewrite shiftr_div by lia. change (2 ^ 8) with 256. rewrite shiftl_mul by lia.
  change (1 * 2 ^ 15) with 32768. split; [reflexivity|].
  exists [(p * 32768 + 256 - p) / 256; 32768], 0. split; [reflexivity|]. split; [reflexivity|].
  split; [lia|]. split; [|split; [reflexivity|lia]].
  repeat constructor; lia.
Qed.

Lemma paired_symbol_ex : forall N cdf s, valid_cdf N cdf -> (s < N)%nat ->
  exists cdf', valid_cdf N cdf' /\ update_cdf (Z.of_nat s) cdf = Ok cdf' /\
  paired (cost cdf s) (fun c out => encode_symbol c (Z.of_nat s) out cdf)
            (fun d q => decode_symbol d q cdf) (Z.of_nat s) cdf'.
Proof.
  intros N cdf s Hc Hs. destruct (update_cdf_valid N cdf (Z.of_nat s) Hc) as (cdf' & E & V).
  exists cdf'. split; [assumption|]. split; [assumption|]. eapply paired_symbol; eassumption.
Qed.

Lemma bit_nat : forall b, is_bit b -> b = Z.of_nat (Z.to_nat b) /\ (Z.to_nat b < 2)%nat.
Proof. intros b [->| ->]; simpl; lia. Qed.

Lemma paired_symbolp : forall p b, 0 <= p <= 255 -> is_bit b ->
  paired (bit_cost p b)
    (fun c out => '(c, out) <- encode_symbolp c b out p ;; Ok (c, out, tt))
    (fun d q => '(s, d, q) <- decode_symbolp d q p ;; Ok (s, d, q, tt)) b tt.
Proof.
  intros p b Hp Hb. destruct (cdf_p_ok p Hp) as [E V]. destruct (bit_nat b Hb) as [Eb Lb].
  destruct (paired_symbol_ex 2 _ (Z.to_nat b) V Lb) as (cdf' & _ & _ & P). rewrite <- Eb in P.
  refine (paired_ext _ _ _ _ _ _ _ _ _ _
    (paired_bind _ _ _ _ _ 0 _ _ _ _ (fun _ c out => Ok (c, out, tt)) (fun a _ d q => Ok (a, d, q, tt))
       b tt P (paired_ret _ _ b tt)) _ _ _).
  - unfold bit_cost. lia.
  - intros c out. unfold encode_symbolp. rewrite E. cbn [bind].
    destruct (encode_symbol c b out _) as [[[? ?] ?]| |]; reflexivity.
  - intros d q. unfold decode_symbolp. rewrite E. cbn [bind].
    destruct (decode_symbol d q _) as [[[[? ?] ?] ?]| |]; reflexivity.
Qed.

Lemma paired_symbols_loop : forall bs cdf, valid_cdf 2 cdf -> is_bits bs ->
  paired (run_cost cdf bs)
    (fun c out => '(c, out) <- encode_symbols_loop c bs out cdf ;; Ok (c, out, tt))
    (fun d q => '(s, d, q) <- decode_symbols_loop (length bs) d q cdf ;; Ok (s, d, q, tt)) bs tt.
Proof.
  induction bs as [|b bs IH]; intros cdf V Hb.
  - refine (paired_ext _ _ _ _ _ _ _ _ _ _ (paired_ret _ _ [] tt) _ _ _); [lia|reflexivity|reflexivity].
  - apply is_bits_cons in Hb. destruct Hb as [Hb Hbs]. destruct (bit_nat b Hb) as [Eb Lb].
    destruct (paired_symbol_ex 2 _ (Z.to_nat b) V Lb) as (cdf' & V' & U & P). rewrite <- Eb in P, U.
    cbn [run_cost]. rewrite U.
    refine (paired_ext _ _ _ _ _ _ _ _ _ _
      (paired_bind _ _ _ _ _ _ _ _ _ _
        (fun x c out => '(c, out) <- encode_symbols_loop c bs out x ;; Ok (c, out, tt))
        (fun a x d q => '(r, d, q, u) <- ('(s, d, q) <- decode_symbols_loop (length bs) d q x ;; Ok (s, d, q, tt)) ;;
                        Ok (as_u8 a :: r, d, q, u))
        (b :: bs) tt P _) _ _ _).
    + refine (paired_ext _ _ _ _ _ _ _ _ _ _
        (paired_bind _ _ _ _ _ 0 _ _ _ _ (fun u c out => Ok (c, out, u))
          (fun r u d q => Ok (as_u8 b :: r, d, q, u)) (b :: bs) tt (IH cdf' V' Hbs) _) _ _ _).
      * rewrite as_u8_id by (destruct Hb; lia). apply paired_ret.
      * instantiate (1 := run_cost cdf' bs). lia.
      * intros c out. destruct (encode_symbols_loop c bs out cdf') as [[? ?]| |]; reflexivity.
      * intros d q. destruct (decode_symbols_loop (length bs) d q cdf') as [[[? ?] ?]| |]; reflexivity.
    + lia.
    + intros c out. cbn [encode_symbols_loop].
      destruct (encode_symbol c b out cdf) as [[[? ?] ?]| |]; reflexivity.
    + intros d q. cbn [decode_symbols_loop length].
      destruct (decode_symbol d q cdf) as [[[[? ?] ?] ?]| |]; cbn [bind]; try reflexivity.
      destruct (decode_symbols_loop (length bs) c l l0) as [[[? ?] ?]| |]; reflexivity.
Qed.

(** Literals: one probability-1/2 bit per binary digit. *)
Lemma bit_cost_128 : forall b, is_bit b -> bit_cost 128 b = 1%nat.
Proof. intros b [->| ->]; reflexivity. Qed.

Lemma paired_literal_loop : forall n x v, (n <= 64)%nat -> 0 <= v -> 0 <= x ->
  (x + 1) * 2 ^ Z.of_nat n <= 2 ^ 64 ->
  paired n
    (fun c out => '(c, out) <- encode_literal c out v n ;; Ok (c, out, tt))
    (fun d q => '(s, d, q) <- decode_literal_loop n x d q ;; Ok (s, d, q, tt))
    (x * 2 ^ Z.of_nat n + v mod 2 ^ Z.of_nat n) tt.
Proof.
  induction n; intros x v Hn Hv Hx Hxn.
  - change (2 ^ Z.of_nat 0) with 1. rewrite Z.mod_1_r, Z.mul_1_r, Z.add_0_r.
    refine (paired_ext _ _ _ _ _ _ _ _ _ _ (paired_ret _ _ x tt) _ _ _); [lia|reflexivity|reflexivity].
  - set (b := (v / 2 ^ Z.of_nat n) mod 2).
    assert (Hb : is_bit b) by apply mod2_bit.
    assert (Hb2 : 0 <= b <= 1) by (destruct Hb; lia).
    rewrite pow2_S in Hxn. pose proof (pow2_nat_pos n) as Hp.
    assert (Hx2 : 2 * x + b < 2 ^ 64). { change (2 ^ 64) with 18446744073709551616 in *. nia. }
    replace (x * 2 ^ Z.of_nat (S n) + v mod 2 ^ Z.of_nat (S n))
      with ((2 * x + b) * 2 ^ Z.of_nat n + v mod 2 ^ Z.of_nat n)
      by (rewrite mod_pow2_S, pow2_S; fold b; lia).
    change (2 ^ 64) with 18446744073709551616 in *.
    refine (paired_ext _ _ _ _ _ _ _ _ _ _
      (paired_bind _ _ _ _ _ _ _ _ _ _
        (fun _ c out => '(c, out) <- encode_literal c out v n ;; Ok (c, out, tt))
        (fun s _ d q => '(s, d, q) <- (x' <- chk_u64 (as_u64 (Z.shiftl x 1) + s) ;; decode_literal_loop n x' d q) ;;
                         Ok (s, d, q, tt))
        _ tt (paired_symbolp 128 b ltac:(lia) Hb) _) _ _ _).
    + refine (paired_ext _ _ _ _ _ _ _ _ _ _ (IHn (2 * x + b) v ltac:(lia) Hv ltac:(lia) _) _ _ _).
      * nia.
      * apply le_n.
      * reflexivity.
      * intros d q. rewrite shiftl_mul by lia. change (2 ^ 1) with 2. rewrite as_u64_id by lia.
        rewrite chk_u64_ok by lia. cbn [bind]. replace (x * 2 + b) with (2 * x + b) by lia. reflexivity.
    + rewrite (bit_cost_128 b Hb). lia.
    + intros c out. cbn [encode_literal]. rewrite shift_ok_ok by lia. cbn [bind].
      rewrite land_1, shiftr_div by lia. fold b. rewrite as_u8_id by lia.
      destruct (encode_symbolp c b out 128) as [[? ?]| |]; reflexivity.
    + intros d q. cbn [decode_literal_loop].
      destruct (decode_symbolp d q 128) as [[[? ?] ?]| |]; reflexivity.
Qed.

(** Tables. *)
Lemma valid_table_nth : forall sizes t ctx N, valid_table sizes t -> nth_error sizes ctx = Some N ->
  idx t (Z.of_nat ctx) = Ok (nth ctx t []) /\ valid_cdf N (nth ctx t []).
Proof.
  intros sizes t ctx N H Hn. unfold idx. destruct (Z.of_nat ctx <? 0) eqn:E; [lia|]. clear E.
  rewrite Nat2Z.id. revert ctx Hn. induction H; intros ctx Hn; [destruct ctx; discriminate|].
  destruct ctx; simpl in *.
  - inversion Hn; subst. split; [reflexivity|assumption].
  - apply IHForall2. assumption.
Qed.

Lemma valid_table_set : forall sizes t ctx N cdf, valid_table sizes t -> nth_error sizes ctx = Some N ->
  valid_cdf N cdf -> valid_table sizes (set_nth ctx cdf t).
Proof.
  intros sizes t ctx N cdf H. revert ctx. induction H; intros ctx Hn Hc; [destruct ctx; discriminate|].
  destruct ctx; simpl in *.
  - inversion Hn; subst. constructor; assumption.
  - constructor; [assumption|]. apply IHForall2; assumption.
Qed.

(** Table-first versions of the drivers, matching the argument order of [paired]. *)
Definition enc_op' (t : cdf_table) (o : op) (c : coder) (out : list Z) : res (coder * list Z * cdf_table) :=
  '(c, t, out) <- encode_op c t out o ;; Ok (c, out, t).
Definition dec_op' (t : cdf_table) (s : shape) (c : coder) (q : list Z) : res (op * coder * list Z * cdf_table) :=
  '(o, c, t, q) <- decode_op c t q s ;; Ok (o, c, q, t).

Lemma table_after_valid : forall sizes t o, valid_table sizes t -> valid_op sizes o ->
  valid_table sizes (table_after t o).
Proof.
  intros sizes t o Ht Ho. destruct o; simpl; try assumption.
  destruct Ho as (N & Hn & Hs). destruct (valid_table_nth _ _ _ _ Ht Hn) as [_ V].
  destruct (update_cdf_valid N _ (Z.of_nat s) V) as (cdf' & E & V'). rewrite E.
  eapply valid_table_set; eassumption.
Qed.

Lemma paired_op : forall sizes t o, valid_table sizes t -> valid_op sizes o ->
  paired (op_cost t o) (enc_op' t o) (dec_op' t (shape_of o)) o (table_after t o).
Proof.
  intros sizes t o Ht Ho. destruct o as [ctx s|p b|p bs|n v]; simpl in Ho.
  - destruct Ho as (N & Hn & Hs). destruct (valid_table_nth _ _ _ _ Ht Hn) as [E V].
    destruct (paired_symbol_ex N _ s V Hs) as (cdf' & V' & U & P).
    cbn [table_after]. rewrite U.
    refine (paired_ext _ _ _ _ _ _ _ _ _ _
      (paired_bind _ _ _ _ _ 0 _ _ _ _ (fun x c out => Ok (c, out, set_nth ctx x t))
         (fun a x d q => Ok (OSym ctx (Z.to_nat a), d, q, set_nth ctx x t)) (OSym ctx s) _ P _) _ _ _).
    + rewrite Nat2Z.id. apply paired_ret.
    + cbn [op_cost]. lia.
    + intros c out. unfold enc_op', encode_op. rewrite E. cbn [bind].
      destruct (encode_symbol c (Z.of_nat s) out _) as [[[? ?] ?]| |]; reflexivity.
    + intros d q. unfold dec_op', decode_op. cbn [shape_of]. rewrite E. cbn [bind].
      destruct (decode_symbol d q _) as [[[[? ?] ?] ?]| |]; reflexivity.
  - destruct Ho as [Hp Hb]. pose proof (paired_symbolp p b Hp Hb) as P.
    refine (paired_ext _ _ _ _ _ _ _ _ _ _
      (paired_bind _ _ _ _ _ 0 _ _ _ _ (fun x c out => Ok (c, out, t))
         (fun a x d q => Ok (OBit p a, d, q, t)) (OBit p b) _ P (paired_ret _ _ _ _)) _ _ _).
    + cbn [op_cost]. lia.
    + intros c out. unfold enc_op', encode_op.
      destruct (encode_symbolp c b out p) as [[? ?]| |]; reflexivity.
    + intros d q. unfold dec_op', decode_op. cbn [shape_of].
      destruct (decode_symbolp d q p) as [[[? ?] ?]| |]; reflexivity.
  - destruct Ho as [Hp Hb]. destruct (cdf_p_ok p Hp) as [E V].
    pose proof (paired_symbols_loop bs _ V Hb) as P.
    refine (paired_ext _ _ _ _ _ _ _ _ _ _
      (paired_bind _ _ _ _ _ 0 _ _ _ _ (fun x c out => Ok (c, out, t))
         (fun a x d q => Ok (OBits p a, d, q, t)) (OBits p bs) _ P (paired_ret _ _ _ _)) _ _ _).
    + cbn [op_cost]. lia.
    + intros c out. unfold enc_op', encode_op, encode_symbols. rewrite E. cbn [bind].
      destruct (encode_symbols_loop c bs out _) as [[? ?]| |]; reflexivity.
    + intros d q. unfold dec_op', decode_op, decode_symbols. cbn [shape_of]. rewrite E. cbn [bind].
      rewrite Nat2Z.id.
      destruct (decode_symbols_loop (length bs) d q _) as [[[? ?] ?]| |]; reflexivity.
  - destruct Ho as [Hn Hv].
    assert (H64 : 2 ^ Z.of_nat n <= 2 ^ 64) by (apply pow2_le; lia).
    pose proof (paired_literal_loop n 0 v Hn ltac:(lia) ltac:(lia) ltac:(lia)) as P.
    rewrite Z.mul_0_l, Z.add_0_l, Z.mod_small in P by assumption.
    refine (paired_ext _ _ _ _ _ _ _ _ _ _
      (paired_bind _ _ _ _ _ 0 _ _ _ _ (fun x c out => Ok (c, out, t))
         (fun a x d q => Ok (OLit n a, d, q, t)) (OLit n v) _ P (paired_ret _ _ _ _)) _ _ _).
    + cbn [op_cost]. lia.
    + intros c out. unfold enc_op', encode_op.
      destruct (encode_literal c out v n) as [[? ?]| |]; reflexivity.
    + intros d q. unfold dec_op', decode_op, decode_literal. cbn [shape_of].
      destruct (decode_literal_loop n 0 d q) as [[[? ?] ?]| |]; reflexivity.
Qed.

Fixpoint tables_after (t : cdf_table) (ops : list op) : cdf_table :=
  match ops with
  | [] => t
  | o :: r => tables_after (table_after t o) r
  end.

Lemma tables_after_valid : forall sizes ops t, valid_table sizes t -> Forall (valid_op sizes) ops ->
  valid_table sizes (tables_after t ops).
Proof.
  induction ops; intros t Ht Ho; [assumption|]. inversion Ho; subst. cbn [tables_after].
  apply IHops; [|assumption]. apply table_after_valid; assumption.
Qed.

Lemma paired_ops : forall sizes ops t, valid_table sizes t -> Forall (valid_op sizes) ops ->
  paired (session_cost t ops)
    (fun c out => '(c, t, out) <- encode_ops c t out ops ;; Ok (c, out, t))
    (fun d q => '(os, d, t, q) <- decode_ops d t q (map shape_of ops) ;; Ok (os, d, q, t))
    ops (tables_after t ops).
Proof.
  induction ops as [|o ops IH]; intros t Ht Ho.
  - refine (paired_ext _ _ _ _ _ _ _ _ _ _ (paired_ret _ _ [] t) _ _ _); [cbn; lia|reflexivity|reflexivity].
  - inversion Ho as [|? ? Ho1 Ho2]; subst.
    pose proof (paired_op sizes t o Ht Ho1) as P.
    specialize (IH (table_after t o) (table_after_valid _ _ _ Ht Ho1) Ho2).
    cbn [session_cost tables_after].
    refine (paired_ext _ _ _ _ _ _ _ _ _ _
      (paired_bind _ _ _ _ _ _ _ _ _ _
        (fun x c out => '(c, t, out) <- encode_ops c x out ops ;; Ok (c, out, t))
        (fun a x d q => '(os, d, q, t) <- ('(os, d, t, q) <- decode_ops d x q (map shape_of ops) ;; Ok (os, d, q, t)) ;;
                        Ok (a :: os, d, q, t))
        (o :: ops) _ P
        (paired_ext _ _ _ (session_cost (table_after t o) ops) _ _ _ _ _ _
          (paired_bind _ _ _ _ _ 0 _ _ _ _ (fun x c out => Ok (c, out, x))
            (fun a x d q => Ok (o :: a, d, q, x)) (o :: ops) _ IH (paired_ret _ _ _ _)) _ _ _)) _ _ _).
    + lia.
    + intros c out. destruct (encode_ops c _ out ops) as [[[? ?] ?]| |]; reflexivity.
    + intros d q. destruct (decode_ops d _ q _) as [[[[? ?] ?] ?]| |]; reflexivity.
    + lia.
    + intros c out. cbn [encode_ops]. unfold enc_op'.
      destruct (encode_op c t out o) as [[[? ?] ?]| |]; reflexivity.
    + intros d q. cbn [decode_ops map]. unfold dec_op'.
      destruct (decode_op d t q (shape_of o)) as [[[[? ?] ?] ?]| |]; cbn [bind]; try reflexivity.
      destruct (decode_ops c c0 l (map shape_of ops)) as [[[[? ?] ?] ?]| |]; reflexivity.
Qed.

(** Costs are bounded by 15 bits per symbol. *)
Lemma run_cost_le : forall bs cdf, (run_cost cdf bs <= 15 * length bs)%nat.
Proof.
  induction bs; intros cdf; [cbn; lia|]. cbn [run_cost length].
  assert (cost cdf (Z.to_nat a) <= 15)%nat.
  { unfold cost. pose proof (Z.log2_nonneg (prob cdf (Z.to_nat a))). lia. }
  destruct (update_cdf a cdf) as [cdf'| |]; [specialize (IHbs cdf')| |]; lia.
Qed.

Lemma op_cost_le : forall t o, (op_cost t o <= 15 * op_symbols o)%nat.
Proof.
  intros t [ctx s|p b|p bs|n v]; cbn [op_cost op_symbols]; unfold bit_cost.
  - unfold cost. pose proof (Z.log2_nonneg (prob (nth ctx t []) s)). lia.
  - unfold cost. match goal with |- context [Z.log2 ?x] => pose proof (Z.log2_nonneg x) end. lia.
  - apply run_cost_le.
  - lia.
Qed.

Lemma session_cost_le : forall ops t, (session_cost t ops <= 15 * session_symbols ops)%nat.
Proof.
  induction ops; intros t; [cbn; lia|]. cbn [session_cost session_symbols fold_right].
  pose proof (op_cost_le t a). specialize (IHops (table_after t a)). unfold session_symbols in IHops. lia.
Qed.

Lemma init_inv : forall c out, 0 <= bit_count c < 2 ^ 62 ->
  enc_inv out (bit_count c) (init_encoder c) out [] 0 0 65536.
Proof.
  intros c out H. constructor; unfold init_encoder; cbn [bool_value bool_range bool_max_bits bool_value_last_zero
      bool_value_zero_count bool_first bit_count leb_128_bytes]; try discriminate; try lia.
  - rewrite app_nil_r. reflexivity.
  - constructor.
  - simpl. lia.
  - intros _. change (Z.shiftl 1 15) with 32768. repeat split; lia.
Qed.

(** The whole story of one session. [n] is the number of shifts. *)
Lemma session_ok : forall sizes t ops c out,
  valid_table sizes t -> Forall (valid_op sizes) ops -> fits ops -> 0 <= bit_count c < 2 ^ 62 ->
  exists c' D n pad,
    encode_session c t out ops = Ok (c', tables_after t ops, out ++ D) /\
    is_bits D /\
    (n <= session_cost t ops)%nat /\
    pad = Z.to_nat ((8 - (bit_count c + Z.of_nat (n - 1)) mod 8) mod 8) /\
    length D = ((n - 1) + 16 + pad)%nat /\
    bit_count c' = bit_count c + Z.of_nat (n - 1) /\
    leb_128_bytes c' = leb_128_bytes c /\
    skipn ((n - 1) + 16) D = repeat 0 pad /\
    forall d sz tail, 0 <= sz < 2 ^ 28 -> is_bits tail ->
      exists d',
        decode_session d t (D ++ tail) sz (map shape_of ops)
          = Ok (ops, d', tables_after t ops, skipn (n + 15) D ++ tail) /\
        bool_max_bits d' = 8 * sz - 15 - 2 * Z.of_nat n.
Proof.
  intros sizes t ops c out Ht Ho Hf Hbc.
  pose proof (session_cost_le ops t) as Hcost. unfold fits in Hf.
  change (2 ^ 26) with 67108864 in Hf.
  pose proof (init_inv c out Hbc) as I0.
  destruct (paired_ops sizes ops t Ht Ho out (bit_count c) (init_encoder c) out [] 0 0%nat I0)
    as (c1 & B1 & L1 & n1 & E1 & I1 & R1 & N1 & M1 & Lb1 & D1).
  { unfold init_encoder. cbn [bool_range]. rewrite shiftl_mul by lia. change (1 * 2 ^ 15) with 32768. lia. }
  { lia. }
  apply bind_inv in E1. destruct E1 as ([[c1' t1] out1] & E1 & E1'). inversion E1'; subst; clear E1'.
  destruct (exit_encoder_ok _ _ _ _ _ _ _ I1 ltac:(lia) ltac:(lia)) as (c2 & D & pad & E2 & HD & Hpad & HlD & HX & Hbc2 & Hzero).
  assert (Elb : leb_128_bytes c2 = leb_128_bytes c1).
  { unfold exit_encoder in E2.
    assert (G : forall k c o b c' o', emit_n k c o b = Ok (c', o') -> leb_128_bytes c' = leb_128_bytes c).
    { induction k; intros ? ? ? ? ? Y; cbn [emit_n] in Y; [inversion Y; reflexivity|].
      unfold emit in Y. destruct (chk_u64 (bit_count c0 + 1)); cbn [bind] in Y; try discriminate.
      apply IHk in Y. exact Y. }
    apply bind_inv in E2. destruct E2 as ([ca oa] & Ea & E2).
    apply bind_inv in E2. destruct E2 as ([cb ob] & Eb & E2). inversion E2; subst.
    apply G in Eb. rewrite Eb.
    destruct (bool_value_last_zero c1); [|inversion Ea; reflexivity].
    unfold emit in Ea. destruct (chk_u64 (bit_count c1 + 1)); cbn [bind] in Ea; try discriminate.
    inversion Ea; reflexivity. }
  exists c2, D, n1, pad. unfold encode_session. rewrite E1. cbn [bind]. rewrite E2. cbn [bind].
  split; [reflexivity|]. split; [assumption|]. split; [lia|]. split; [assumption|]. split; [assumption|].
  split; [assumption|]. split; [rewrite Elb, Lb1; reflexivity|]. split; [assumption|].
  intros d sz tail Hsz Htl.
  assert (HT : is_bits (D ++ tail)) by (apply is_bits_app; split; assumption).
  assert (HlT : (n1 + 15 <= length D)%nat) by lia.
  destruct (D1 (D ++ tail) HT) as [C0 X].
  { split; [rewrite app_length; lia|]. unfold prefix_val. rewrite firstn_app.
    replace (n1 + 15 - length D)%nat with 0%nat by lia. rewrite firstn_O, app_nil_r, HX. lia. }
  destruct (init_decoder_ok (D ++ tail) d sz HT ltac:(rewrite app_length; lia) Hsz)
    as (d0 & F0 & M0 & K0 & K0a & K0b).
  change (2 ^ 28) with 268435456 in *.
  destruct (X d0 (skipn 15 (D ++ tail))) as (d1 & q1 & F1 & G1 & K1 & K1a & K1b).
  { unfold init_encoder. cbn [bool_range]. rewrite shiftl_mul by lia. exact M0. }
  { rewrite K0. change (2 ^ 31) with 2147483648. lia. }
  apply bind_inv in F1. destruct F1 as ([[[os d2] t2] q2] & F1 & F1'). inversion F1'; subst; clear F1'.
  exists d1. unfold decode_session. rewrite F0. cbn [bind]. rewrite F1.
  split.
  - f_equal. f_equal. destruct G1 as [_ _ Hq]. rewrite Hq. rewrite skipn_app.
    replace (n1 + 15 - length D)%nat with 0%nat by lia. reflexivity.
  - rewrite K1, K0. lia.
Qed.
