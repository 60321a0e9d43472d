(** The encoder computes, bit by bit, the binary expansion of an exact interval
    lower bound [L] (an unbounded integer), with range [R]. *)
From Coq Require Import ZArith List Bool Lia ZifyBool ZifyNat.
From Verif Require Import Base BaseProofs UtilModel UtilProofs BitsSpec BitsProofs
  RangeCoderModel RangeCoderSpec CdfProofs.
Import ListNotations.
Open Scope Z_scope.
Ltac Zify.zify_post_hook ::= Z.div_mod_to_equations.

Definition set_bc (c : coder) (n : Z) : coder :=
  mkCoder (bool_value c) (bool_range c) (bool_max_bits c)
    (bool_value_last_zero c) (bool_value_zero_count c) (bool_first c)
    n (leb_128_bytes c).

Lemma emit_ok : forall c out b, 0 <= bit_count c < 2 ^ 63 ->
  emit c out b = Ok (set_bc c (bit_count c + 1), out ++ [b]).
Proof.
  intros. unfold emit. rewrite chk_u64_ok by (change (2 ^ 63) with 9223372036854775808 in *; lia).
  reflexivity.
Qed.

Lemma emit_n_ok : forall k c out b, 0 <= bit_count c -> bit_count c + Z.of_nat k <= 2 ^ 63 ->
  emit_n k c out b = Ok (set_bc c (bit_count c + Z.of_nat k), out ++ repeat b k).
Proof.
  induction k; intros c out b H0 H.
  - simpl. rewrite app_nil_r. f_equal. f_equal. destruct c; unfold set_bc; simpl in *.
    f_equal. lia.
  - cbn [emit_n]. rewrite emit_ok by lia. cbn [bind].
    rewrite IHk by (unfold set_bc; simpl bit_count; lia).
    simpl repeat. rewrite <- app_assoc. simpl app. f_equal. f_equal.
    unfold set_bc; simpl. f_equal. lia.
Qed.

(** The pending bits: an optional 0 followed by ones. *)
Definition pend (c : coder) : list Z :=
  (if bool_value_last_zero c then [0] else []) ++ repeat 1 (Z.to_nat (bool_value_zero_count c)).

Lemma pend_bits : forall c, is_bits (pend c).
Proof.
  intros. unfold pend. apply is_bits_app. split.
  - destruct (bool_value_last_zero c); [|constructor]. constructor; [left; reflexivity|constructor].
  - apply is_bits_repeat. right; reflexivity.
Qed.

Lemma pend_length : forall c, length (pend c) =
  ((if bool_value_last_zero c then 1 else 0) + Z.to_nat (bool_value_zero_count c))%nat.
Proof. intros. unfold pend. rewrite app_length, repeat_length. destruct (bool_value_last_zero c); reflexivity. Qed.

Lemma pend_val : forall c, bits_val (pend c) = 2 ^ Z.of_nat (Z.to_nat (bool_value_zero_count c)) - 1.
Proof.
  intros. unfold pend. rewrite bits_val_app, bits_val_ones. destruct (bool_value_last_zero c); simpl; lia.
Qed.

(** [o0]: output before the session; [bc0]: bit_count before the session;
    [B]: bits of this session already in the output; [n]: number of
    renormalisation shifts so far; [L]: exact lower bound of the interval. *)
Record enc_inv (o0 : list Z) (bc0 : Z) (c : coder) (out B : list Z) (L : Z) (n : nat) (vmax : Z) : Prop := {
  ei_out : out = o0 ++ B;
  ei_bits : is_bits B;
  ei_bc : bit_count c = bc0 + Z.of_nat (length B);
  ei_bc0 : 0 <= bc0 < 2 ^ 62;
  ei_v : 0 <= bool_value c;
  ei_vmax : bool_value c < vmax;
  ei_z : 0 <= bool_value_zero_count c;
  ei_first : bool_first c = true ->
    B = [] /\ bool_value_last_zero c = false /\ bool_value_zero_count c = 0 /\
    bool_value c + bool_range c <= 32768 /\ n = 0%nat /\ L = bool_value c;
  ei_rest : bool_first c = false ->
    n = S (length (B ++ pend c)) /\
    L = bits_val (B ++ pend c) * 65536 + bool_value c /\
    (bool_value_last_zero c = false ->
     L + bool_range c <= (bits_val B + 1) * 2 ^ (Z.of_nat (length (pend c)) + 16))
}.

Lemma pow2_16 : forall n, 2 ^ (Z.of_nat n + 16) = 2 ^ Z.of_nat n * 65536.
Proof. intros. rewrite Z.pow_add_r by lia. reflexivity. Qed.

(** The length of everything produced is bounded by [n]. *)
Lemma ei_small : forall o0 bc0 c out B L n vm, enc_inv o0 bc0 c out B L n vm ->
  (length B <= n)%nat /\ bool_value_zero_count c <= Z.of_nat n /\
  (length B + Z.to_nat (bool_value_zero_count c) <= n)%nat.
Proof.
  intros o0 bc0 c out B L n vm H. destruct (bool_first c) eqn:E.
  - destruct (ei_first _ _ _ _ _ _ _ _ H E) as (-> & _ & Hz & _). simpl. lia.
  - destruct (ei_rest _ _ _ _ _ _ _ _ H E) as (Hn & _). rewrite app_length, pend_length in Hn.
    pose proof (ei_z _ _ _ _ _ _ _ _ H). lia.
Qed.

(** Carry propagation. *)
Lemma carry_step_ok : forall o0 bc0 c out B L n,
  enc_inv o0 bc0 c out B L n 131072 ->
  bool_value c + bool_range c <= 131072 -> 0 < bool_range c ->
  Z.of_nat n <= 2 ^ 31 - 1 ->
  exists c' B', carry_step c out = Ok (c', o0 ++ B') /\
    enc_inv o0 bc0 c' (o0 ++ B') B' L n 65536 /\
    bool_range c' = bool_range c /\ bool_max_bits c' = bool_max_bits c /\
    leb_128_bytes c' = leb_128_bytes c.
Proof.
  intros o0 bc0 c out B L n H Hvr Hr Hn.
  pose proof (ei_small _ _ _ _ _ _ _ _ H) as (Hs1 & Hs2 & Hs3).
  unfold carry_step. destruct (65536 <=? bool_value c) eqn:E.
  2:{ exists c, B. split; [rewrite (ei_out _ _ _ _ _ _ _ _ H); reflexivity|].
      split; [|auto]. destruct H. constructor; auto. lia. }
  apply Z.leb_le in E.
  assert (Hf : bool_first c = false).
  { destruct (bool_first c) eqn:F; [|reflexivity].
    destruct (ei_first _ _ _ _ _ _ _ _ H F) as (_ & _ & _ & X & _). lia. }
  destruct (ei_rest _ _ _ _ _ _ _ _ H Hf) as (Hn1 & HL & Hlz).
  pose proof (ei_z _ _ _ _ _ _ _ _ H) as Hz.
  pose proof (ei_bc _ _ _ _ _ _ _ _ H) as Hbc. pose proof (ei_bc0 _ _ _ _ _ _ _ _ H) as Hbc0.
  assert (Hl : bool_value_last_zero c = true).
  { destruct (bool_value_last_zero c) eqn:Z0; [reflexivity|]. specialize (Hlz eq_refl).
    rewrite HL, bits_val_app, pend_val, pend_length, Z0, pow2_16 in Hlz.
    rewrite Nat.add_0_l in Hlz. pose proof (pow2_nat_pos (Z.to_nat (bool_value_zero_count c))). nia. }
  clear Hlz. pose proof (ei_out _ _ _ _ _ _ _ _ H) as Ho. pose proof (ei_bits _ _ _ _ _ _ _ _ H) as Hb.
  destruct c as [v r mb lz z f bc lb]. cbn [bool_value bool_range bool_max_bits bool_value_last_zero
    bool_value_zero_count bool_first bit_count leb_128_bytes] in *. subst lz f.
  unfold pend in *. cbn [bool_value_last_zero bool_value_zero_count] in *.
  cbn [set_vr bool_value bool_range bool_max_bits bool_value_last_zero
    bool_value_zero_count bool_first bit_count leb_128_bytes].
  destruct (0 <? z) eqn:Ez.
  - apply Z.ltb_lt in Ez.
    unfold set_vr. cbn [bool_value bool_range bool_max_bits bool_value_last_zero
      bool_value_zero_count bool_first bit_count leb_128_bytes].
    rewrite emit_ok by (cbn [bit_count]; lia). cbn [bind].
    unfold set_bc at 1 2. cbn [bool_value bool_range bool_max_bits bool_value_last_zero
      bool_value_zero_count bool_first bit_count leb_128_bytes].
    rewrite emit_n_ok by (cbn [bit_count]; lia). cbn [bind].
    exists (mkCoder (v - 65536) r mb true 0 false (bc + 1 + Z.of_nat (Z.to_nat (z - 1))) lb),
      (B ++ 1 :: repeat 0 (Z.to_nat (z - 1))).
    split. { subst out. rewrite <- !app_assoc. reflexivity. }
    split; [|auto].
    constructor; cbn [bool_value bool_range bool_max_bits bool_value_last_zero
      bool_value_zero_count bool_first bit_count leb_128_bytes]; try discriminate; try lia; try reflexivity.
    + apply is_bits_app. split; [assumption|]. constructor; [right; reflexivity|].
      apply is_bits_repeat. left; reflexivity.
    + rewrite app_length. cbn [length]. rewrite repeat_length. lia.
    + intros _. unfold pend. cbn [bool_value_last_zero bool_value_zero_count].
      change (repeat 1 (Z.to_nat 0)) with (@nil Z). rewrite app_nil_r.
      split; [|split; [|discriminate]].
      * rewrite Hn1. rewrite !app_length. cbn [length]. rewrite !repeat_length. lia.
      * rewrite HL, bits_val_snoc, !bits_val_app, (bits_val_cons 1), bits_val_ones, bits_val_zeros.
        cbn [length]. rewrite !app_length. cbn [length]. rewrite !repeat_length.
        change (bits_val [0]) with 0.
        replace (Z.to_nat z) with (S (Z.to_nat (z - 1))) by lia.
        set (k := Z.to_nat (z - 1)).
        change (1 + S k)%nat with (S (S k)).
        rewrite !pow2_S. pose proof (pow2_nat_pos k). lia.
  - apply Z.ltb_ge in Ez. assert (z = 0) by lia. subst z.
    exists (mkCoder (v - 65536) r mb false 1 false bc lb), B.
    split. { subst out. reflexivity. }
    split; [|auto].
    constructor; cbn [bool_value bool_range bool_max_bits bool_value_last_zero
      bool_value_zero_count bool_first bit_count leb_128_bytes]; try discriminate; try lia; try reflexivity.
    + assumption.
    + intros _. unfold pend. cbn [bool_value_last_zero bool_value_zero_count].
      change (repeat 1 (Z.to_nat 1)) with [1]. change (repeat 1 (Z.to_nat 0)) with (@nil Z) in *.
      rewrite app_nil_r in *. cbn [app]. split; [|split].
      * rewrite Hn1. rewrite !app_length. reflexivity.
      * rewrite HL. rewrite !bits_val_snoc. lia.
      * intros _. rewrite HL, bits_val_snoc. cbn [length]. rewrite pow2_16.
        change (2 ^ Z.of_nat 1) with 2. lia.
Qed.

Lemma land_bit15 : forall v, 0 <= v < 65536 -> Z.land (Z.shiftr v 15) 1 = v / 32768.
Proof.
  intros. rewrite land_1, shiftr_div by lia. change (2 ^ 15) with 32768.
  rewrite Z.mod_small; lia.
Qed.

Lemma shl16 : forall v, 0 <= v < 65536 -> Z.land (as_i32 (Z.shiftl v 1)) 65535 = 2 * v - (v / 32768) * 65536.
Proof.
  intros. rewrite shiftl_mul by lia. change (2 ^ 1) with 2. rewrite as_i32_id by lia.
  change 65535 with (2 ^ 16 - 1). rewrite land_ones_mod by lia. change (2 ^ 16) with 65536. lia.
Qed.

(** One iteration of the renormalisation loop body. *)
Lemma renorm_step_ok : forall f o0 bc0 c out B L n,
  enc_inv o0 bc0 c out B L n 65536 ->
  0 < bool_range c < 32768 ->
  Z.of_nat n < 2 ^ 31 - 1 ->
  exists c' B', renorm_loop (S f) c out = renorm_loop f c' (o0 ++ B') /\
    enc_inv o0 bc0 c' (o0 ++ B') B' (2 * L) (S n) 65536 /\
    bool_range c' = 2 * bool_range c /\ bool_max_bits c' = bool_max_bits c /\
    leb_128_bytes c' = leb_128_bytes c.
Proof.
  intros f o0 bc0 c out B L n H Hr Hn.
  pose proof (ei_small _ _ _ _ _ _ _ _ H) as (Hs1 & Hs2 & Hs3).
  pose proof (ei_z _ _ _ _ _ _ _ _ H) as Hz.
  pose proof (ei_bc _ _ _ _ _ _ _ _ H) as Hbc. pose proof (ei_bc0 _ _ _ _ _ _ _ _ H) as Hbc0.
  pose proof (ei_v _ _ _ _ _ _ _ _ H) as Hv. pose proof (ei_vmax _ _ _ _ _ _ _ _ H) as Hv2.
  pose proof (ei_out _ _ _ _ _ _ _ _ H) as Ho. pose proof (ei_bits _ _ _ _ _ _ _ _ H) as Hb.
  pose proof (ei_first _ _ _ _ _ _ _ _ H) as Hfi. pose proof (ei_rest _ _ _ _ _ _ _ _ H) as Hre.
  clear H. cbn [renorm_loop]. destruct (bool_range c <? 32768) eqn:E; [|lia]. clear E.
  rewrite land_bit15 by lia.
  destruct c as [v r mb lz z fi bc lb]. cbn [bool_value bool_range bool_max_bits bool_value_last_zero
    bool_value_zero_count bool_first bit_count leb_128_bytes] in *.
  destruct fi; cbn [negb].
  - destruct (Hfi eq_refl) as (-> & -> & -> & Hvr & -> & ->). cbn [bind]. clear Hre Hfi.
    unfold set_first, set_vr. cbn [bool_value bool_range bool_max_bits bool_value_last_zero
      bool_value_zero_count bool_first bit_count leb_128_bytes].
    rewrite shl16 by lia. rewrite shiftl_mul by lia. change (2 ^ 1) with 2. rewrite as_i32_id by lia.
    exists (mkCoder (2 * v - v / 32768 * 65536) (r * 2) mb false 0 false bc lb), [].
    split. { subst out. reflexivity. }
    split; [|cbn [bool_range bool_max_bits leb_128_bytes]; repeat split; lia].
    constructor; cbn [bool_value bool_range bool_max_bits bool_value_last_zero
      bool_value_zero_count bool_first bit_count leb_128_bytes]; try discriminate; try lia; try reflexivity.
    + constructor.
    + intros _. unfold pend. cbn [bool_value_last_zero bool_value_zero_count Z.to_nat repeat app length]. rewrite bits_val_nil. split; [reflexivity|]. split; [lia|]. intros _. change (2 ^ (Z.of_nat 0 + 16)) with 65536. lia.
  - destruct (Hre eq_refl) as (Hn1 & HL & Hlz). clear Hre Hfi.
    destruct (v / 32768 =? 0) eqn:Eb.
    + apply Z.eqb_eq in Eb.
      assert (X : ('(ca, oa) <- (if lz then emit (mkCoder v r mb lz z false bc lb) out 0
                                 else Ok (mkCoder v r mb lz z false bc lb, out)) ;;
              '(cb, ob) <- emit_n (Z.to_nat z) ca oa 1 ;;
              Ok (set_pending cb true 0, ob))
            = Ok (mkCoder v r mb true 0 false
                   (bc + Z.of_nat (length (pend (mkCoder v r mb lz z false bc lb)))) lb,
                  o0 ++ (B ++ pend (mkCoder v r mb lz z false bc lb)))).
      { rewrite pend_length. cbn [bool_value_last_zero bool_value_zero_count]. unfold pend.
        cbn [bool_value_last_zero bool_value_zero_count]. destruct lz.
        - rewrite emit_ok by (cbn [bit_count]; lia). cbn [bind].
          rewrite emit_n_ok by (unfold set_bc; cbn [bit_count]; lia). cbn [bind].
          unfold set_pending, set_bc. cbn [bool_value bool_range bool_max_bits bool_value_last_zero
            bool_value_zero_count bool_first bit_count leb_128_bytes].
          f_equal. f_equal; [f_equal; lia|]. subst out. rewrite <- !app_assoc. reflexivity.
        - cbn [bind]. rewrite emit_n_ok by (unfold set_bc; cbn [bit_count]; lia). cbn [bind].
          unfold set_pending, set_bc. cbn [bool_value bool_range bool_max_bits bool_value_last_zero
            bool_value_zero_count bool_first bit_count leb_128_bytes].
          f_equal. f_equal. subst out. rewrite <- !app_assoc. reflexivity. }
      rewrite X. clear X. cbn [bind].
      set (P := pend (mkCoder v r mb lz z false bc lb)) in *.
      assert (HPb : is_bits P) by apply pend_bits.
      unfold set_first, set_vr. cbn [bool_value bool_range bool_max_bits bool_value_last_zero
        bool_value_zero_count bool_first bit_count leb_128_bytes].
      rewrite shl16 by lia. rewrite shiftl_mul by lia. change (2 ^ 1) with 2. rewrite as_i32_id by lia.
      eexists. exists (B ++ P). split; [reflexivity|].
      split; [|cbn [bool_range bool_max_bits leb_128_bytes]; repeat split; lia].
      constructor; cbn [bool_value bool_range bool_max_bits bool_value_last_zero
        bool_value_zero_count bool_first bit_count leb_128_bytes]; try discriminate; try lia; try reflexivity.
      * apply is_bits_app; split; assumption.
      * rewrite app_length. lia.
      * intros _. unfold pend. cbn [bool_value_last_zero bool_value_zero_count].
        change (repeat 1 (Z.to_nat 0)) with (@nil Z). cbn [app].
        split; [|split; [|discriminate]].
        -- rewrite Hn1. rewrite (app_length (B ++ P)). cbn [length]. lia.
        -- rewrite HL, bits_val_snoc, Eb. lia.
    + apply Z.eqb_neq in Eb. assert (Eb1 : v / 32768 = 1) by lia.
      rewrite chk_i32_ok by lia. cbn [bind].
      unfold set_pending, set_first, set_vr. cbn [bool_value bool_range bool_max_bits bool_value_last_zero
        bool_value_zero_count bool_first bit_count leb_128_bytes].
      rewrite shl16 by lia. rewrite shiftl_mul by lia. change (2 ^ 1) with 2. rewrite as_i32_id by lia.
      exists (mkCoder (2 * v - v / 32768 * 65536) (r * 2) mb lz (z + 1) false bc lb), B.
      split. { subst out. reflexivity. }
      split; [|cbn [bool_range bool_max_bits leb_128_bytes]; repeat split; lia].
      assert (HP : pend (mkCoder (2 * v - v / 32768 * 65536) (r * 2) mb lz (z + 1) false bc lb)
                   = pend (mkCoder v r mb lz z false bc lb) ++ [1]).
      { unfold pend. cbn [bool_value_last_zero bool_value_zero_count].
        rewrite <- app_assoc. f_equal. replace (Z.to_nat (z + 1)) with (Z.to_nat z + 1)%nat by lia.
        rewrite repeat_app. reflexivity. }
      constructor; cbn [bool_value bool_range bool_max_bits bool_value_last_zero
        bool_value_zero_count bool_first bit_count leb_128_bytes]; try discriminate; try lia; try reflexivity.
      * assumption.
      * intros _. rewrite HP.
        set (P := pend (mkCoder v r mb lz z false bc lb)) in *. rewrite app_assoc.
        split; [|split].
        -- rewrite Hn1. rewrite (app_length (B ++ P)). cbn [length]. lia.
        -- rewrite HL, bits_val_snoc, Eb1. lia.
        -- intros Hl0. specialize (Hlz Hl0). rewrite app_length. cbn [length].
           rewrite pow2_16 in *. replace (length P + 1)%nat with (S (length P)) by lia.
           rewrite pow2_S. lia.
Qed.

(** The whole loop: [b] shifts bring the range back to [32768, 65536). *)
Lemma renorm_loop_ok : forall b f o0 bc0 c out B L n,
  enc_inv o0 bc0 c out B L n 65536 ->
  0 < bool_range c ->
  32768 <= bool_range c * 2 ^ Z.of_nat b < 65536 ->
  (b = 0%nat \/ bool_range c * 2 ^ Z.of_nat (b - 1) < 32768) ->
  (b < f)%nat ->
  Z.of_nat (n + b) <= 2 ^ 31 - 1 ->
  exists c' B', renorm_loop f c out = Ok (c', o0 ++ B') /\
    enc_inv o0 bc0 c' (o0 ++ B') B' (L * 2 ^ Z.of_nat b) (n + b) 65536 /\
    bool_range c' = bool_range c * 2 ^ Z.of_nat b /\ bool_max_bits c' = bool_max_bits c /\
    leb_128_bytes c' = leb_128_bytes c.
Proof.
  induction b; intros f o0 bc0 c out B L n H Hr Hb Hm Hf Hn.
  - destruct f as [|f]; [lia|]. exists c, B. cbn [renorm_loop].
    change (2 ^ Z.of_nat 0) with 1 in *. rewrite !Z.mul_1_r, Nat.add_0_r in *.
    destruct (bool_range c <? 32768) eqn:E; [lia|].
    pose proof (ei_out _ _ _ _ _ _ _ _ H) as Ho. subst out. auto.
  - destruct f as [|f]; [lia|].
    assert (Hb1 : bool_range c * 2 ^ Z.of_nat b < 32768).
    { destruct Hm as [Hm|Hm]; [discriminate|]. simpl in Hm. rewrite Nat.sub_0_r in Hm. assumption. }
    assert (Hr2 : bool_range c < 32768). { pose proof (pow2_nat_pos b). nia. }
    destruct (renorm_step_ok f o0 bc0 c out B L n H ltac:(lia) ltac:(lia))
      as (c1 & B1 & E1 & H1 & R1 & M1 & Lb1).
    rewrite E1. rewrite pow2_S in Hb.
    destruct (IHb f o0 bc0 c1 (o0 ++ B1) B1 (2 * L) (S n) H1) as (c2 & B2 & E2 & H2 & R2 & M2 & Lb2); [rewrite R1; lia|rewrite R1; lia| |lia|lia|].
    { destruct b; [left; reflexivity|right]. rewrite R1. simpl Nat.sub. rewrite Nat.sub_0_r.
      rewrite pow2_S in Hb1. lia. }
    exists c2, B2. split; [assumption|].
    split; [|split; [rewrite R2, R1, pow2_S; lia|split; congruence]].
    replace (L * 2 ^ Z.of_nat (S b)) with (2 * L * 2 ^ Z.of_nat b) by (rewrite pow2_S; lia).
    replace (n + S b)%nat with (S n + b)%nat by lia. assumption.
Qed.

(** Left and right ends of the sub-interval of symbol [s]. *)
Definition cut (R : Z) (cdf : list Z) (s : nat) : Z := (R / 256 * (32768 - nth s cdf 0)) / 128.
Definition left_of (R : Z) (cdf : list Z) (s : nat) : Z :=
  match s with O => R | S s' => cut R cdf s' end.

Lemma div128_diff : forall a x y, 128 <= a -> x <= y -> a * x / 128 + (y - x) <= a * y / 128.
Proof.
  intros. replace (a * x / 128 + (y - x)) with ((a * x + (y - x) * 128) / 128)
    by (rewrite Z.div_add by lia; reflexivity).
  apply Z.div_le_mono; [lia|]. nia.
Qed.

Lemma cut_bounds : forall R cdf N s, valid_cdf N cdf -> 32768 <= R < 65536 -> (s < N)%nat ->
  0 <= cut R cdf s /\ cut R cdf s + nth s cdf 0 <= R.
Proof.
  intros R cdf N s Hc HR Hs. pose proof (valid_cdf_nth N cdf s Hc Hs) as B. unfold cut.
  split.
  - apply Z.div_pos; [|lia]. apply Z.mul_nonneg_nonneg; lia.
  - pose proof (div128_diff (R / 256) (32768 - nth s cdf 0) 32768 ltac:(lia) ltac:(lia)).
    assert (R / 256 * 32768 / 128 <= R).
    { replace (R / 256 * 32768) with (R / 256 * 256 * 128) by lia. rewrite Z.div_mul by lia. lia. }
    lia.
Qed.

Lemma cut_gap : forall R cdf N s, valid_cdf N cdf -> 32768 <= R < 65536 -> (s < N)%nat ->
  cut R cdf s + prob cdf s <= left_of R cdf s <= R /\ 1 <= prob cdf s <= 32768.
Proof.
  intros R cdf N s Hc HR Hs. destruct s as [|s]; simpl left_of; simpl prob.
  - pose proof (cut_bounds R cdf N 0 Hc HR Hs). pose proof (valid_cdf_nth N cdf 0 Hc Hs). lia.
  - pose proof (cut_bounds R cdf N s Hc HR ltac:(lia)).
    pose proof (valid_cdf_nth N cdf s Hc ltac:(lia)).
    pose proof (valid_cdf_nth N cdf (S s) Hc ltac:(lia)).
    pose proof (valid_cdf_lt N cdf s (S s) Hc ltac:(lia)).
    unfold cut in *.
    pose proof (div128_diff (R / 256) (32768 - nth (S s) cdf 0) (32768 - nth s cdf 0) ltac:(lia) ltac:(lia)).
    change (match cdf with [] => 0 | _ :: t => nth s t 0 end) with (nth (S s) cdf 0) in *. lia.
Qed.

(** Number of shifts needed to renormalise [r]. *)
Definition nshift (r : Z) : nat := Z.to_nat (15 - Z.log2 r).

Lemma nshift_spec : forall r, 0 < r < 65536 ->
  32768 <= r * 2 ^ Z.of_nat (nshift r) < 65536 /\
  (nshift r = 0%nat \/ r * 2 ^ Z.of_nat (nshift r - 1) < 32768) /\ (nshift r <= 15)%nat /\
  Z.of_nat (nshift r) = 15 - Z.log2 r.
Proof.
  intros r Hr. unfold nshift.
  pose proof (log2_is_floor r ltac:(lia)) as (H0 & H1 & H2).
  assert (Hl : Z.log2 r <= 15).
  { change 15 with (Z.log2 65535). apply Z.log2_le_mono. lia. }
  set (l := Z.log2 r) in *. clearbody l.
  assert (Hz : Z.of_nat (Z.to_nat (15 - l)) = 15 - l) by lia.
  split; [|split; [|split; [lia|assumption]]].
  - rewrite Hz. rewrite Z.pow_add_r in H2 by lia. change (2 ^ 1) with 2 in H2.
    assert (2 ^ l * 2 ^ (15 - l) = 32768).
    { rewrite <- Z.pow_add_r by lia. replace (l + (15 - l)) with 15 by lia. reflexivity. }
    pose proof (pow2_pos (15 - l) ltac:(lia)). nia.
  - destruct (Z.eq_dec l 15); [left; lia|right].
    replace (Z.of_nat (Z.to_nat (15 - l) - 1)) with (14 - l) by lia.
    rewrite Z.pow_add_r in H2 by lia. change (2 ^ 1) with 2 in H2.
    assert (2 ^ l * 2 ^ (14 - l) = 16384).
    { rewrite <- Z.pow_add_r by lia. replace (l + (14 - l)) with 14 by lia. reflexivity. }
    pose proof (pow2_pos (14 - l) ltac:(lia)). nia.
Qed.

(** The full encoding step. *)
Lemma encode_symbol_ok : forall o0 bc0 c out B L n N cdf s cdf',
  enc_inv o0 bc0 c out B L n 65536 ->
  32768 <= bool_range c < 65536 ->
  valid_cdf N cdf -> (s < N)%nat ->
  update_cdf (Z.of_nat s) cdf = Ok cdf' ->
  let R := bool_range c in
  let r1 := left_of R cdf s - cut R cdf s in
  let b := nshift r1 in
  Z.of_nat (n + b) <= 2 ^ 31 - 1 ->
  exists c' B', encode_symbol c (Z.of_nat s) out cdf = Ok (c', o0 ++ B', cdf') /\
    enc_inv o0 bc0 c' (o0 ++ B') B' ((L + (R - left_of R cdf s)) * 2 ^ Z.of_nat b) (n + b) 65536 /\
    bool_range c' = r1 * 2 ^ Z.of_nat b /\
    bool_max_bits c' = bool_max_bits c /\ leb_128_bytes c' = leb_128_bytes c.
Proof.
  intros o0 bc0 c out B L n N cdf s cdf' H HR Hc Hs Hu R r1 b Hn.
  destruct (valid_cdf_len N cdf Hc) as [Hlen HN].
  destruct (cut_gap R cdf N s Hc HR Hs) as [Hgap Hprob].
  destruct (cut_bounds R cdf N s Hc HR Hs) as [Hcut0 Hcut1].
  pose proof (valid_cdf_nth N cdf s Hc Hs) as Hx.
  pose proof (ei_v _ _ _ _ _ _ _ _ H) as Hv. pose proof (ei_vmax _ _ _ _ _ _ _ _ H) as Hvm.
  unfold encode_symbol, encode_symbol_fuel. unfold len at 1. rewrite Hlen. rewrite chk_u64_ok by lia. cbn [bind].
  rewrite (idx_nth _ cdf (Z.of_nat s) 0) by (unfold len; lia). rewrite Nat2Z.id.
  fold R.
  assert (HfL : exists fl, (if 0 <? Z.of_nat s
      then s1 <- chk_i32 (Z.of_nat s - 1) ;; x <- idx cdf s1 ;; chk_i32 (32768 - x)
      else Ok 0) = Ok fl /\ 0 <= fl <= 32768 /\
      (if Z.of_nat s =? 0 then R else Z.shiftr (Z.shiftr R 8 * fl) 7) = left_of R cdf s).
  { destruct s as [|s].
    - exists 0. simpl. repeat split; lia.
    - destruct (0 <? Z.of_nat (S s)) eqn:E; [|lia]. rewrite chk_i32_ok by lia. cbn [bind].
      rewrite (idx_nth _ cdf _ 0) by (unfold len; lia). cbn [bind].
      replace (Z.to_nat (Z.of_nat (S s) - 1)) with s by lia.
      pose proof (valid_cdf_nth N cdf s Hc ltac:(lia)).
      rewrite chk_i32_ok by lia. eexists. split; [reflexivity|]. split; [lia|].
      destruct (Z.of_nat (S s) =? 0) eqn:E2; [lia|].
      rewrite !shiftr_div by lia. reflexivity. }
  destruct HfL as (fl & -> & Hfl & Hleft). cbn [bind].
  rewrite chk_i32_ok by lia. cbn [bind].
  assert (HRd : 0 <= Z.shiftr R 8 <= 255). { rewrite shiftr_div by lia. change (2 ^ 8) with 256. lia. }
  rewrite chk_i32_ok by nia. cbn [bind]. rewrite chk_i32_ok by nia. cbn [bind].
  rewrite Hleft.
  assert (Hright : Z.shiftr (Z.shiftr R 8 * (32768 - nth s cdf 0)) 7 = cut R cdf s).
  { rewrite !shiftr_div by lia. reflexivity. }
  rewrite Hright.
  rewrite chk_i32_ok by lia. cbn [bind]. rewrite chk_i32_ok by lia. cbn [bind].
  rewrite chk_i32_ok by lia. cbn [bind]. fold r1.
  assert (Hr1 : 1 <= r1 < 65536) by (subst r1; lia).
  assert (Hpre : enc_inv o0 bc0 (set_vr c (bool_value c + (R - left_of R cdf s)) r1) out B
            (L + (R - left_of R cdf s)) n 131072).
  { destruct H as [h1 h2 h3 h4 h5 h6 h7 h8 h9]. fold R in h8, h9.
    constructor; unfold set_vr, pend in *; cbn [bool_value bool_range bool_max_bits bool_value_last_zero
      bool_value_zero_count bool_first bit_count leb_128_bytes]; try assumption; try lia.
    - intros F. destruct (h8 F) as (e1 & e2 & e3 & e4 & e5 & e6). repeat split; try assumption; lia.
    - intros F. destruct (h9 F) as (e1 & e2 & e3). split; [assumption|]. split; [lia|].
      intros F2. specialize (e3 F2). lia. }
  destruct (carry_step_ok _ _ _ _ _ _ _ Hpre) as (c1 & B1 & E1 & I1 & R1 & M1 & Lb1);
    try (unfold set_vr; cbn [bool_value bool_range]; lia).
  rewrite E1. cbn [bind].
  assert (R1' : bool_range c1 = r1) by exact R1.
  destruct (nshift_spec r1 ltac:(lia)) as (S1 & S2 & S3 & S4). fold b in S1, S2, S3, S4.
  destruct (renorm_loop_ok b 40 o0 bc0 c1 (o0 ++ B1) B1 _ n I1) as (c2 & B2 & E2 & I2 & R2 & M2 & Lb2);
    try lia; try (rewrite R1'; assumption).
  rewrite E2. cbn [bind]. rewrite Hu. cbn [bind].
  exists c2, B2. split; [reflexivity|]. split; [assumption|].
  split; [rewrite R2, R1'; reflexivity|]. split; [rewrite M2, M1|rewrite Lb2, Lb1]; reflexivity.
Qed.

Lemma push_n_ok : forall k out b, push_n k out b = out ++ repeat b k.
Proof.
  induction k; intros; simpl; [rewrite app_nil_r; reflexivity|].
  rewrite IHk. unfold push. rewrite <- app_assoc. reflexivity.
Qed.

Lemma push_value_bits_ok : forall v out, 0 <= v < 65536 -> push_value_bits 16 v 0 out = out ++ to_bits 16 v.
Proof.
  intros v out Hv.
  assert (G : forall k i out, i = 16 - Z.of_nat k -> (k <= 16)%nat ->
             push_value_bits k v i out = out ++ to_bits k v).
  { induction k; intros i o Hi Hk; cbn [push_value_bits to_bits]; [rewrite app_nil_r; reflexivity|].
    rewrite IHk by lia. unfold push. rewrite <- app_assoc. cbn [app]. f_equal. f_equal.
    rewrite land_1, shiftr_div by lia. replace (15 - i) with (Z.of_nat k) by lia. reflexivity. }
  apply G; lia.
Qed.

(** Flushing: the first [n + 15] bits of the session denote exactly [L]. *)
Lemma exit_encoder_ok : forall o0 bc0 c out B L n,
  enc_inv o0 bc0 c out B L n 65536 -> 32768 <= bool_range c -> Z.of_nat n <= 2 ^ 31 - 1 ->
  exists c' D pad, exit_encoder c out = Ok (c', o0 ++ D) /\
    is_bits D /\
    pad = Z.to_nat ((8 - (bc0 + Z.of_nat (n - 1)) mod 8) mod 8) /\
    length D = ((n - 1) + 16 + pad)%nat /\
    bits_val (firstn (n + 15) D) = L /\
    bit_count c' = bc0 + Z.of_nat (n - 1) /\
    skipn ((n - 1) + 16) D = repeat 0 pad.
Proof.
  intros o0 bc0 c out B L n H Hr Hn.
  pose proof (ei_small _ _ _ _ _ _ _ _ H) as (Hs1 & Hs2 & Hs3).
  pose proof (ei_z _ _ _ _ _ _ _ _ H) as Hz.
  pose proof (ei_bc _ _ _ _ _ _ _ _ H) as Hbc. pose proof (ei_bc0 _ _ _ _ _ _ _ _ H) as Hbc0.
  pose proof (ei_v _ _ _ _ _ _ _ _ H) as Hv. pose proof (ei_vmax _ _ _ _ _ _ _ _ H) as Hv2.
  pose proof (ei_out _ _ _ _ _ _ _ _ H) as Ho. pose proof (ei_bits _ _ _ _ _ _ _ _ H) as Hb.
  pose proof (ei_first _ _ _ _ _ _ _ _ H) as Hfi. pose proof (ei_rest _ _ _ _ _ _ _ _ H) as Hre.
  set (P := pend c).
  assert (HPb : is_bits P) by apply pend_bits.
  assert (HPl : length P = ((if bool_value_last_zero c then 1 else 0) + Z.to_nat (bool_value_zero_count c))%nat)
    by apply pend_length.
  assert (Hlen : length (B ++ P) = (n - 1)%nat).
  { destruct (bool_first c) eqn:F.
    - destruct (Hfi eq_refl) as (-> & F1 & F2 & _ & -> & _). rewrite app_length, HPl, F1, F2. reflexivity.
    - destruct (Hre eq_refl) as (Hn1 & _). rewrite Hn1. unfold P. lia. }
  assert (HBl : (length B + length P = n - 1)%nat) by (rewrite <- app_length; assumption).
  set (pad := Z.to_nat ((8 - (bc0 + Z.of_nat (n - 1)) mod 8) mod 8)).
  exists (set_bc c (bc0 + Z.of_nat (n - 1))), ((B ++ P) ++ to_bits 16 (bool_value c) ++ repeat 0 pad), pad.
  split.
  { unfold exit_encoder.
    assert (X : '(c0, out0) <- (if bool_value_last_zero c then emit c out 0 else Ok (c, out)) ;;
               emit_n (Z.to_nat (bool_value_zero_count c0)) c0 out0 1
             = Ok (set_bc c (bc0 + Z.of_nat (n - 1)), o0 ++ (B ++ P))).
    { unfold P, pend in *. destruct (bool_value_last_zero c).
      - rewrite emit_ok by lia. cbn [bind]. unfold set_bc at 1. cbn [bool_value_zero_count].
        rewrite emit_n_ok by (unfold set_bc; cbn [bit_count]; lia).
        f_equal. f_equal; [unfold set_bc; cbn [bool_value bool_range bool_max_bits bool_value_last_zero
            bool_value_zero_count bool_first bit_count leb_128_bytes]; f_equal; lia|].
        subst out. rewrite <- !app_assoc. reflexivity.
      - cbn [bind]. rewrite emit_n_ok by lia.
        f_equal. f_equal; [unfold set_bc; f_equal; lia|].
        subst out. rewrite <- !app_assoc. reflexivity. }
    destruct (if bool_value_last_zero c then emit c out 0 else Ok (c, out)) as [[c0 o1]| |] eqn:Y;
      cbn [bind] in X |- *; try discriminate.
    rewrite X. cbn [bind]. unfold set_bc at 1 2 3. cbn [bool_value bit_count].
    rewrite push_value_bits_ok by lia. rewrite push_n_ok. rewrite <- !app_assoc. reflexivity. }
  split.
  { apply is_bits_app. split; [apply is_bits_app; split; assumption|].
    apply is_bits_app. split; [apply to_bits_bits|apply is_bits_repeat; left; reflexivity]. }
  split; [reflexivity|]. split.
  { rewrite app_length, Hlen, app_length, to_bits_length, repeat_length. lia. }
  split; [|split; [reflexivity|]].
  2:{ rewrite app_assoc, skipn_app, skipn_all2 by (rewrite app_length, to_bits_length, Hlen; lia).
      rewrite app_length, to_bits_length, Hlen. rewrite Nat.sub_diag. reflexivity. }
  destruct (bool_first c) eqn:F.
  - destruct (Hfi eq_refl) as (EB & F1 & F2 & F3 & Fn & FL).
    subst n. assert (EP : B ++ P = []) by (apply length_zero_iff_nil; simpl in Hlen; exact Hlen).
    rewrite EP. cbn [app]. rewrite firstn_app, to_bits_length.
    change (0 + 15 - 16)%nat with 0%nat. rewrite firstn_O, app_nil_r.
    rewrite bits_val_firstn by (try apply to_bits_bits; rewrite to_bits_length; lia).
    rewrite to_bits_length. change (Z.of_nat (16 - (0 + 15))) with 1.
    rewrite bits_val_to_bits_small by (change (2 ^ Z.of_nat 16) with 65536; lia).
    change (2 ^ 1) with 2. assert (bool_value c = 0) by lia. lia.
  - destruct (Hre eq_refl) as (Hn1 & HL & _).
    rewrite app_assoc. rewrite firstn_app.
    rewrite (firstn_all2 ((B ++ P) ++ to_bits 16 (bool_value c))) by
      (rewrite app_length, to_bits_length, Hlen; lia).
    rewrite app_length, to_bits_length, Hlen.
    replace (n + 15 - (n - 1 + 16))%nat with 0%nat by (fold P in Hn1; lia).
    rewrite firstn_O, app_nil_r. rewrite bits_val_app, to_bits_length.
    rewrite bits_val_to_bits_small by (change (2 ^ Z.of_nat 16) with 65536; lia).
    fold P in HL. rewrite HL. change (2 ^ Z.of_nat 16) with 65536. reflexivity.
Qed.
