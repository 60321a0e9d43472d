(** The decoder follows the encoder's exact interval. *)
From Coq Require Import ZArith List Bool Lia ZifyBool ZifyNat.
From Verif Require Import Base BaseProofs UtilModel UtilProofs BitsSpec BitsProofs
  RangeCoderModel RangeCoderSpec CdfProofs RangeEncProofs.
Import ListNotations.
Open Scope Z_scope.
Ltac Zify.zify_post_hook ::= Z.div_mod_to_equations.

Lemma lxor_ones_low : forall k a v, 0 <= k -> 0 <= a < 2 ^ k ->
  Z.lxor a (v * 2 ^ k + (2 ^ k - 1)) = v * 2 ^ k + (2 ^ k - 1 - a).
Proof.
  intros k a v Hk Ha. pose proof (pow2_pos k Hk) as Hp.
  apply Z.bits_inj'. intros i Hi. rewrite Z.lxor_spec.
  destruct (Z_lt_le_dec i k) as [L|L].
  - rewrite <- (Z.mod_pow2_bits_low (v * 2 ^ k + (2 ^ k - 1)) k i L).
    rewrite <- (Z.mod_pow2_bits_low (v * 2 ^ k + (2 ^ k - 1 - a)) k i L).
    replace (v * 2 ^ k + (2 ^ k - 1)) with ((-1) + (v + 1) * 2 ^ k) by lia.
    replace (v * 2 ^ k + (2 ^ k - 1 - a)) with (Z.lnot a + (v + 1) * 2 ^ k) by (unfold Z.lnot; lia).
    rewrite !Z.mod_add by lia. rewrite !Z.mod_pow2_bits_low by lia.
    rewrite Z.lnot_spec by lia. rewrite Z.bits_m1 by lia.
    destruct (Z.testbit a i); reflexivity.
  - replace (Z.testbit a i) with false.
    2:{ rewrite <- (Z.mod_small a (2 ^ k)) by assumption. rewrite Z.mod_pow2_bits_high by lia. reflexivity. }
    replace i with ((i - k) + k) by lia.
    rewrite <- !Z.div_pow2_bits by lia.
    rewrite !(Z.add_comm (v * 2 ^ k)). rewrite !Z.div_add by lia.
    rewrite !Z.div_small by lia. destruct (Z.testbit (0 + v) (i - k)); reflexivity.
Qed.

Lemma read_bits_ok : forall k acc q, is_bits (firstn k q) -> (k <= length q)%nat ->
  0 <= acc -> (acc + 1) * 2 ^ Z.of_nat k <= 2 ^ 31 ->
  read_bits k acc q = Ok (acc * 2 ^ Z.of_nat k + bits_val (firstn k q), skipn k q).
Proof.
  induction k; intros acc q Hb Hl H0 H.
  - cbn [read_bits firstn skipn]. rewrite bits_val_nil. change (2 ^ Z.of_nat 0) with 1. f_equal. f_equal. lia.
  - destruct q as [|b q]; [simpl in Hl; lia|]. cbn [read_bits pop bind firstn skipn].
    cbn [firstn] in Hb. apply is_bits_cons in Hb. destruct Hb as [Hb Hq].
    rewrite shiftl_mul by lia. change (2 ^ 1) with 2. rewrite pow2_S in H.
    pose proof (pow2_nat_pos k).
    assert (acc + 1 <= 2 ^ 30) by nia. change (2 ^ 30) with 1073741824 in *.
    rewrite as_i32_id by lia. assert (0 <= b <= 1) by (destruct Hb; lia).
    rewrite chk_i32_ok by lia. cbn [bind]. simpl in Hl.
    rewrite IHk; [|assumption|lia|lia|nia].
    rewrite bits_val_cons, firstn_length, Nat.min_l by lia. rewrite pow2_S. f_equal. f_equal. lia.
Qed.

Lemma refill_ok : forall k acc mb q, is_bits (firstn k q) -> (k <= length q)%nat ->
  0 <= acc -> (acc + 1) * 2 ^ Z.of_nat k <= 2 ^ 31 ->
  - 2 ^ 31 + Z.of_nat k <= mb <= 2 ^ 31 - 1 ->
  refill k acc mb q = Ok (acc * 2 ^ Z.of_nat k + bits_val (firstn k q), mb - Z.of_nat k, skipn k q).
Proof.
  induction k; intros acc mb q Hb Hl H0 H Hm.
  - cbn [refill firstn skipn]. rewrite bits_val_nil. change (2 ^ Z.of_nat 0) with 1.
    f_equal. f_equal. f_equal; lia.
  - destruct q as [|b q]; [simpl in Hl; lia|]. cbn [refill pop bind firstn skipn].
    cbn [firstn] in Hb. apply is_bits_cons in Hb. destruct Hb as [Hb Hq].
    rewrite shiftl_mul by lia. change (2 ^ 1) with 2. rewrite pow2_S in H.
    pose proof (pow2_nat_pos k).
    assert (acc + 1 <= 2 ^ 30) by nia. change (2 ^ 30) with 1073741824 in *.
    change (2 ^ 31) with 2147483648 in *.
    rewrite as_i32_id by lia. assert (0 <= b <= 1) by (destruct Hb; lia).
    rewrite chk_i32_ok by lia. cbn [bind]. rewrite chk_i32_ok by lia. cbn [bind]. simpl in Hl.
    rewrite IHk; [|assumption|lia|lia|change (2 ^ 31) with 2147483648; nia|change (2 ^ 31) with 2147483648; lia].
    rewrite bits_val_cons, firstn_length, Nat.min_l by lia. rewrite pow2_S. f_equal. f_equal. f_equal; lia.
Qed.

(** The symbol search finds the symbol whose sub-interval contains the value. *)
Lemma cut_antitone : forall R cdf N i j, valid_cdf N cdf -> 32768 <= R < 65536 -> (i <= j < N)%nat ->
  cut R cdf j <= cut R cdf i.
Proof.
  intros R cdf N i j Hc HR Hij. unfold cut.
  assert (nth i cdf 0 <= nth j cdf 0).
  { destruct (Nat.eq_dec i j); [subst; lia|]. pose proof (valid_cdf_lt N cdf i j Hc ltac:(lia)). lia. }
  apply Z.div_le_mono; [lia|]. apply Z.mul_le_mono_nonneg_l; lia.
Qed.

Lemma find_symbol_ok : forall R v cdf N s, valid_cdf N cdf -> 32768 <= R < 65536 -> (s < N)%nat ->
  cut R cdf s <= v < left_of R cdf s ->
  forall k j, (j <= s)%nat -> (S s - j <= k)%nat ->
  find_symbol k R v cdf (Z.of_nat j) (left_of R cdf j) = Ok (Z.of_nat s, left_of R cdf s, cut R cdf s).
Proof.
  intros R v cdf N s Hc HR Hs Hv.
  destruct (valid_cdf_len N cdf Hc) as [Hlen HN].
  induction k; intros j Hj Hk; [lia|].
  cbn [find_symbol]. rewrite (idx_nth _ cdf _ 0) by (unfold len; lia). cbn [bind]. rewrite Nat2Z.id.
  pose proof (valid_cdf_nth N cdf j Hc ltac:(lia)).
  rewrite shiftl_mul by lia. change (1 * 2 ^ 15) with 32768.
  rewrite chk_i32_ok by lia. cbn [bind].
  assert (HRd : 0 <= Z.shiftr R 8 <= 255). { rewrite shiftr_div by lia. change (2 ^ 8) with 256. lia. }
  rewrite chk_i32_ok by nia. cbn [bind].
  assert (Hcut : Z.shiftr (Z.shiftr R 8 * (32768 - nth j cdf 0)) 7 = cut R cdf j).
  { rewrite !shiftr_div by lia. reflexivity. }
  rewrite Hcut. destruct (Nat.eq_dec j s) as [->|Hne].
  - destruct (v <? cut R cdf s) eqn:E; [lia|reflexivity].
  - assert (v < cut R cdf j).
    { destruct s as [|s']; [lia|]. simpl left_of in Hv.
      pose proof (cut_antitone R cdf N j s' Hc HR ltac:(lia)). lia. }
    destruct (v <? cut R cdf j) eqn:E; [|lia].
    replace (Z.of_nat j + 1) with (Z.of_nat (S j)) by lia.
    change (cut R cdf j) with (left_of R cdf (S j)). apply IHk; lia.
Qed.

(** [T]: all bits of the session followed by anything. *)
Definition prefix_val (T : list Z) (k : nat) : Z := bits_val (firstn k T).

Definition contains (T : list Z) (L R : Z) (n : nat) : Prop :=
  (n + 15 <= length T)%nat /\ L <= prefix_val T (n + 15) < L + R.

Record dec_match (T : list Z) (d : coder) (q : list Z) (L R : Z) (n : nat) : Prop := {
  dm_range : bool_range d = R;
  dm_value : bool_value d = R - 1 - (prefix_val T (n + 15) - L);
  dm_queue : q = skipn (n + 15) T
}.

Lemma prefix_val_add : forall T k b, (k + b <= length T)%nat ->
  prefix_val T (k + b) = prefix_val T k * 2 ^ Z.of_nat b + bits_val (firstn b (skipn k T)).
Proof.
  intros T k b H. unfold prefix_val.
  assert (E : firstn (k + b) T = firstn k T ++ firstn b (skipn k T)).
  { rewrite <- (firstn_skipn k T) at 1. rewrite firstn_app, firstn_length, Nat.min_l by lia.
    rewrite firstn_firstn. rewrite Nat.min_r by lia. replace (k + b - k)%nat with b by lia. reflexivity. }
  rewrite E. rewrite bits_val_app. rewrite firstn_length, skipn_length, Nat.min_l by lia. reflexivity.
Qed.

Lemma is_bits_firstn : forall n l, is_bits l -> is_bits (firstn n l).
Proof. intros. unfold is_bits in *. rewrite <- (firstn_skipn n l) in H. apply Forall_app in H. tauto. Qed.
Lemma is_bits_skipn : forall n l, is_bits l -> is_bits (skipn n l).
Proof. intros. unfold is_bits in *. rewrite <- (firstn_skipn n l) in H. apply Forall_app in H. tauto. Qed.

Lemma skipn_add : forall (A : Type) a b (l : list A), skipn a (skipn b l) = skipn (a + b) l.
Proof.
  intros A a b. induction b; intros l; [rewrite Nat.add_0_r; reflexivity|].
  rewrite Nat.add_succ_r. destruct l; [rewrite !skipn_nil; reflexivity|]. cbn [skipn]. apply IHb.
Qed.

(** Going back one step, containment is inherited. *)
Lemma contains_back : forall T L R off r1 n b, is_bits T ->
  0 <= off -> off + r1 <= R ->
  contains T ((L + off) * 2 ^ Z.of_nat b) (r1 * 2 ^ Z.of_nat b) (n + b) ->
  contains T L R n /\ L + off <= prefix_val T (n + 15) < L + off + r1.
Proof.
  intros T L R off r1 n b HT Ho Hr [Hl HX].
  replace (n + b + 15)%nat with (n + 15 + b)%nat in * by lia.
  rewrite prefix_val_add in HX by assumption.
  pose proof (bits_val_bound (firstn b (skipn (n + 15) T)) (is_bits_firstn _ _ (is_bits_skipn _ _ HT))) as Hb.
  rewrite firstn_length, skipn_length, Nat.min_l in Hb by lia.
  set (x := prefix_val T (n + 15)) in *. set (w := bits_val (firstn b (skipn (n + 15) T))) in *.
  pose proof (pow2_nat_pos b) as Hp. set (p := 2 ^ Z.of_nat b) in *.
  assert (A : L + off <= x < L + off + r1).
  { split.
    - apply Z.le_ngt. intros C. assert (x + 1 <= L + off) by lia. nia.
    - apply Z.lt_nge. intros C. nia. }
  split; [|assumption]. split; [lia|]. fold x. lia.
Qed.

(** The decoder's copy of the adaptation code computes the same thing. *)
Lemma dec_adapt_loop_eq : forall k i s t d r l, dec_adapt_loop k i s t d r l = adapt_loop k i s t d r l.
Proof. induction k; intros; [reflexivity|]. destruct l; [reflexivity|]. cbn [dec_adapt_loop adapt_loop].
  destruct (chk_i32 (t + (if i =? s then d else 0))); cbn [bind]; [|reflexivity..].
  destruct (chk_i32 (z - a)); cbn [bind]; [|reflexivity..].
  destruct (chk_i32 (z - Z.shiftr a0 r)); cbn [bind]; [|reflexivity..].
  destruct (chk_i32 (a + 32)); cbn [bind]; [|reflexivity..]. rewrite IHk. reflexivity.
Qed.
Lemma dec_bump_last_eq : forall l, dec_bump_last l = bump_last l.
Proof. induction l as [|a l IH]; [reflexivity|]. destruct l; [reflexivity|]. cbn [dec_bump_last bump_last] in *. rewrite IH. reflexivity. Qed.
Lemma dec_update_cdf_eq : forall s cdf, dec_update_cdf s cdf = update_cdf s cdf.
Proof.
  intros. unfold dec_update_cdf, update_cdf.
  destruct (chk_u64 (len cdf - 1)); cbn [bind]; [|reflexivity..].
  destruct (idx cdf (as_i32 a)); cbn [bind]; [|reflexivity..].
  destruct (msb16 (as_u16 (as_i32 a))); cbn [bind]; [|reflexivity..].
  destruct (chk_i32 (Z.shiftl 1 15 - as_i32 (Z.shiftl (as_i32 a) 5))); cbn [bind]; [|reflexivity..].
  rewrite dec_adapt_loop_eq. destruct (adapt_loop _ _ _ _ _ _ _); cbn [bind]; [|reflexivity..].
  apply dec_bump_last_eq.
Qed.

Lemma decode_symbol_ok : forall T d q L n N cdf s cdf',
  is_bits T ->
  32768 <= bool_range d < 65536 ->
  valid_cdf N cdf -> (s < N)%nat ->
  update_cdf (Z.of_nat s) cdf = Ok cdf' ->
  let R := bool_range d in
  let r1 := left_of R cdf s - cut R cdf s in
  let b := nshift r1 in
  dec_match T d q L R n ->
  contains T ((L + (R - left_of R cdf s)) * 2 ^ Z.of_nat b) (r1 * 2 ^ Z.of_nat b) (n + b) ->
  - 2 ^ 31 + 2 * Z.of_nat b <= bool_max_bits d <= 2 ^ 31 - 1 ->
  exists d' q', decode_symbol d q cdf = Ok (Z.of_nat s, d', q', cdf') /\
    dec_match T d' q' ((L + (R - left_of R cdf s)) * 2 ^ Z.of_nat b) (r1 * 2 ^ Z.of_nat b) (n + b) /\
    bool_max_bits d' = bool_max_bits d - 2 * Z.of_nat b /\
    leb_128_bytes d' = leb_128_bytes d /\ bit_count d' = bit_count d.
Proof.
  intros T d q L n N cdf s cdf' HT HR Hc Hs Hu R r1 b HM Hcon Hmb.
  destruct (valid_cdf_len N cdf Hc) as [Hlen HN].
  destruct (cut_gap R cdf N s Hc HR Hs) as [Hgap Hprob].
  destruct (cut_bounds R cdf N s Hc HR Hs) as [Hcut0 Hcut1].
  assert (Hr1 : 1 <= r1 < 65536) by (subst r1; lia).
  destruct (contains_back T L R (R - left_of R cdf s) r1 n b HT ltac:(lia) ltac:(subst r1; lia) Hcon)
    as [Hc1 Hx].
  destruct HM as [_ HV HQ]. destruct Hcon as [Hln _].
  replace (n + b + 15)%nat with (n + 15 + b)%nat in * by lia.
  set (x := prefix_val T (n + 15)) in *.
  unfold decode_symbol. unfold len at 1. rewrite Hlen. rewrite chk_u64_ok by lia. cbn [bind].
  fold R. change R with (left_of R cdf 0) at 2.
  change 0 with (Z.of_nat 0) at 1.
  rewrite (find_symbol_ok R (bool_value d) cdf N s Hc HR Hs); [|subst r1; lia|lia|lia].
  cbn [bind]. fold r1. rewrite chk_i32_ok by (fold r1; lia). cbn [bind]. fold r1.
  rewrite chk_i32_ok by (subst r1; lia). cbn [bind].
  rewrite as_u16_id by lia. rewrite msb16_log2 by lia. cbn [bind].
  destruct (nshift_spec r1 ltac:(lia)) as (S1 & S2 & S3 & S4). fold b in S1, S2, S3, S4.
  rewrite <- S4. rewrite chk_u8_ok by lia. cbn [bind]. rewrite Nat2Z.id.
  pose proof (is_bits_skipn (n + 15) T HT) as HTs.
  assert (Hb15 : 2 ^ Z.of_nat b <= 32768). { change 32768 with (2 ^ 15). apply pow2_le. lia. }
  change (2 ^ 31) with 2147483648 in *.
  rewrite HQ. rewrite refill_ok.
  2:{ apply is_bits_firstn. assumption. }
  2:{ rewrite skipn_length. lia. }
  2:{ lia. }
  2:{ change (2 ^ 31) with 2147483648. lia. }
  2:{ change (2 ^ 31) with 2147483648. lia. }
  cbn [bind]. rewrite Z.mul_0_l, Z.add_0_l.
  set (w := bits_val (firstn b (skipn (n + 15) T))).
  assert (Hw : 0 <= w < 2 ^ Z.of_nat b).
  { pose proof (bits_val_bound (firstn b (skipn (n + 15) T)) (is_bits_firstn _ _ HTs)) as Hb.
    rewrite firstn_length, skipn_length, Nat.min_l in Hb by lia. exact Hb. }
  set (v := bool_value d - cut R cdf s).
  assert (Hv : 0 <= v < r1) by (subst v r1; lia).
  rewrite chk_i32_ok by lia. cbn [bind].
  rewrite !shiftl_mul by lia.
  set (p := 2 ^ Z.of_nat b) in *.
  assert (Hp : 0 < p) by (subst p; apply pow2_nat_pos).
  assert (Hvp : 0 < (v + 1) * p < 65536).
  { split; [apply Z.mul_pos_pos; lia|]. assert ((v + 1) * p <= r1 * p) by (apply Z.mul_le_mono_nonneg_r; lia). lia. }
  rewrite (as_i32_id ((v + 1) * p)) by lia. rewrite chk_i32_ok by lia. cbn [bind].
  rewrite chk_i32_ok by lia. cbn [bind]. rewrite dec_update_cdf_eq, Hu. cbn [bind].
  rewrite (as_i32_id (r1 * p)) by lia.
  replace ((v + 1) * p - 1) with (v * p + (p - 1)) by lia.
  subst p. rewrite lxor_ones_low by lia. set (p := 2 ^ Z.of_nat b) in *.
  eexists. eexists. split; [reflexivity|].
  unfold set_max_bits, set_vr. cbn [bool_max_bits leb_128_bytes bit_count].
  split; [|split; [lia|auto]].
  constructor; cbn [bool_range bool_value].
  - reflexivity.
  - replace (n + b + 15)%nat with (n + 15 + b)%nat by lia.
    rewrite prefix_val_add by assumption. fold x w p. subst v r1. lia.
  - rewrite skipn_add. f_equal. lia.
Qed.

Lemma init_decoder_ok : forall T d sz, is_bits T -> (15 <= length T)%nat -> 0 <= sz < 2 ^ 28 ->
  exists d', init_decoder d T sz = Ok (d', skipn 15 T) /\
    dec_match T d' (skipn 15 T) 0 32768 0 /\
    bool_max_bits d' = 8 * sz - 15 /\ leb_128_bytes d' = leb_128_bytes d /\ bit_count d' = bit_count d.
Proof.
  intros T d sz HT Hl Hsz. change (2 ^ 28) with 268435456 in *. unfold init_decoder.
  rewrite read_bits_ok; [|apply is_bits_firstn; assumption|lia|lia|lia]. cbn [bind].
  rewrite as_i32_id by lia. rewrite chk_i32_ok by lia. cbn [bind]. rewrite chk_i32_ok by lia. cbn [bind].
  rewrite !shiftl_mul by lia.
  pose proof (bits_val_bound (firstn 15 T) (is_bits_firstn _ _ HT)) as Hb.
  rewrite firstn_length, Nat.min_l in Hb by lia. change (2 ^ Z.of_nat 15) with 32768 in *.
  rewrite Z.mul_0_l, Z.add_0_l.
  rewrite Z.lxor_comm. change (1 * 2 ^ 15 - 1) with (0 * 2 ^ 15 + (2 ^ 15 - 1)).
  rewrite lxor_ones_low by (change (2 ^ 15) with 32768; lia).
  eexists. split; [reflexivity|].
  unfold set_max_bits, set_vr. cbn [bool_max_bits leb_128_bytes bit_count].
  split; [|auto]. constructor; cbn [bool_range bool_value]; try reflexivity.
  change (0 + 15)%nat with 15%nat. change (2 ^ 15) with 32768. unfold prefix_val. lia.
Qed.
