(** The arithmetic decoder on any bits. *)
From Coq Require Import ZArith List Bool Lia ZifyBool ZifyNat.
From Verif Require Import Base BaseProofs BitsSpec BitsProofs UtilModel UtilProofs RangeCoderModel RangeCoderSpec RangeEncProofs RangeDecProofs CdfProofs SegmentProofs SessionModel SessionSpec SessionProofs DamageSpec.
Import ListNotations.
Open Scope Z_scope.

(** [k] more symbols can be decoded before the count of bits overflows. *)
Record good (k : nat) (c : coder) : Prop := {
  gd_range : 32768 <= bool_range c < 65536;
  gd_value : 0 <= bool_value c < bool_range c;
  gd_bits : - 2 ^ 31 + 30 * Z.of_nat k <= bool_max_bits c <= 2 ^ 31 - 1
}.
Definition reader {A : Type} (k : nat) (P : A -> Prop) (f : coder -> list Z -> res (A * coder * list Z)) : Prop :=
  forall j c, good (k + j) c -> forall q, is_bits q ->
  (exists a c' used q', q = used ++ q' /\ P a /\ good j c' /\ forall tail, f c (used ++ tail) = Ok (a, c', tail)) \/
  (f c q = Panic /\ exists a c' more, more <> [] /\ is_bits more /\ P a /\ good j c' /\ forall tail, f c (q ++ more ++ tail) = Ok (a, c', tail)).

Lemma reader_ret : forall (A : Type) (P : A -> Prop) a, P a -> reader 0 P (fun c q => Ok (a, c, q)).
Proof. intros A P a H j c G q Hq. left. exists a, c, [], q. repeat split; try assumption; apply G. Qed.
Lemma reader_bind : forall (A B : Type) k1 k2 (P : A -> Prop) (Q : B -> Prop) f g,
  reader k1 P f -> (forall a, P a -> reader k2 Q (g a)) -> reader (k1 + k2) Q (fun c q => '(a, c, q) <- f c q ;; g a c q).
Proof.
  intros A B k1 k2 P Q f g Hf Hg j c G q Hq. rewrite <- Nat.add_assoc in G.
  destruct (Hf _ _ G q Hq) as [(a & c' & used & q' & E & Pa & G' & F)|(F & a & c' & more & M & Mb & Pa & G' & FM)].
  - subst q. assert (Hq' : is_bits q') by (apply is_bits_app in Hq; apply Hq).
    destruct (Hg a Pa _ _ G' q' Hq') as [(b & c2 & used2 & q2 & E & Qb & G2 & F2)|(F2 & b & c2 & more & M & Mb & Qb & G2 & FM)].
    + left. exists b, c2, (used ++ used2), q2. subst q'. split; [apply app_assoc|]. split; [exact Qb|]. split; [exact G2|].
      intros tail. rewrite <- app_assoc, F. cbn [bind]. apply F2.
    + right. split; [rewrite F; cbn [bind]; exact F2|]. exists b, c2, more. split; [exact M|]. split; [exact Mb|]. split; [exact Qb|]. split; [exact G2|].
      intros tail. rewrite <- app_assoc, F. cbn [bind]. apply FM.
  - right. split; [rewrite F; reflexivity|].
    destruct (Hg a Pa _ _ G' [] ltac:(constructor)) as [(b & c2 & used2 & q2 & E & Qb & G2 & F2)|(F2 & b & c2 & more2 & M2 & Mb2 & Qb & G2 & FM2)].
    + symmetry in E. apply app_eq_nil in E. destruct E as [-> ->]. exists b, c2, more. split; [exact M|]. split; [exact Mb|]. split; [exact Qb|]. split; [exact G2|].
      intros tail. rewrite FM. cbn [bind]. apply F2.
    + exists b, c2, (more ++ more2). split; [destruct more; [congruence|discriminate]|]. split; [apply is_bits_app; split; assumption|].
      split; [exact Qb|]. split; [exact G2|]. intros tail. rewrite <- app_assoc, FM. cbn [bind]. apply FM2.
Qed.
Lemma reader_ext : forall (A : Type) k (P : A -> Prop) f g, (forall c q, f c q = g c q) -> reader k P f -> reader k P g.
Proof.
  intros A k P f g E H j c G q Hq. destruct (H j c G q Hq) as [(a & c' & used & q' & Eq & Pa & G' & F)|(F & a & c' & more & M & Mb & Pa & G' & FM)].
  - left. exists a, c', used, q'. repeat split; try assumption; try apply G'. intros tail. rewrite <- E. apply F.
  - right. rewrite <- E. split; [exact F|]. exists a, c', more. repeat split; try assumption; try apply G'. intros tail. rewrite <- E. apply FM.
Qed.

(** Some symbol has the value in its part of the range. *)
Lemma cut_last : forall R cdf N, valid_cdf N cdf -> cut R cdf (N - 1) = 0.
Proof.
  intros R cdf N (probs & cnt & E & L & HN & _ & La & _). unfold cut. subst cdf. rewrite app_nth1 by lia.
  replace (nth (N - 1) probs 0) with (last probs 0).
  - rewrite La. replace (32768 - 32768) with 0 by lia. rewrite Z.mul_0_r. reflexivity.
  - rewrite <- L. clear. induction probs as [|a l IH]; [reflexivity|]. destruct l as [|b l]; [reflexivity|].
    change (last (a :: b :: l) 0) with (last (b :: l) 0). rewrite IH. cbn [length]. replace (S (S (length l)) - 1)%nat with (S (S (length l) - 1)) by lia. reflexivity.
Qed.
Lemma has_symbol : forall R V cdf N, valid_cdf N cdf -> 0 <= V < R -> exists s, (s < N)%nat /\ cut R cdf s <= V < left_of R cdf s.
Proof.
  intros R V cdf N Hc HV. pose proof (cut_last R cdf N Hc) as Z0. destruct (valid_cdf_len N cdf Hc) as [_ HN].
  assert (D : forall n, (n <= N)%nat -> (exists s, (s < n)%nat /\ cut R cdf s <= V < left_of R cdf s) \/ V < left_of R cdf n).
  { induction n as [|n IH]; intros Hn; [right; cbn; lia|]. destruct (IH ltac:(lia)) as [(s & S1 & S2)|L]; [left; exists s; split; [lia|exact S2]|].
    destruct (Z_lt_le_dec V (cut R cdf n)) as [C|C]; [right; exact C|left; exists n; split; [lia|lia]]. }
  destruct (D N ltac:(lia)) as [H|H]; [exact H|]. destruct N as [|n]; [lia|]. cbn [left_of] in H. replace (S n - 1)%nat with n in Z0 by lia. lia.
Qed.

Lemma refill_short : forall k acc mb q, is_bits q -> (length q < k)%nat -> 0 <= acc -> (acc + 1) * 2 ^ Z.of_nat k <= 2 ^ 31 ->
  - 2 ^ 31 + Z.of_nat k <= mb <= 2 ^ 31 - 1 -> refill k acc mb q = Panic.
Proof.
  induction k; intros acc mb q Hb Hl H0 H Hm; [lia|]. destruct q as [|b q]; [reflexivity|]. cbn [refill pop bind].
  apply is_bits_cons in Hb. destruct Hb as [Hb Hq]. rewrite pow2_S in H. pose proof (pow2_nat_pos k) as Pk.
  rewrite shiftl_mul by lia. change (2 ^ 1) with 2.
  assert (Hb' : b = 0 \/ b = 1) by (unfold is_bit in Hb; lia).
  assert (2 * acc + 2 <= 2 ^ 31).
  { apply Z.le_trans with ((acc + 1) * (2 * 2 ^ Z.of_nat k)); [|exact H]. apply Z.le_trans with ((acc + 1) * 2); [lia|]. apply Z.mul_le_mono_nonneg_l; lia. }
  change (2 ^ 31) with 2147483648 in *.
  rewrite as_i32_id by lia. rewrite chk_i32_ok by lia. cbn [bind]. rewrite chk_i32_ok by lia. cbn [bind].
  apply IHk; [exact Hq|cbn [length] in Hl; lia|lia| |change (2 ^ 31) with 2147483648; lia].
  change (2 ^ 31) with 2147483648. apply Z.le_trans with ((acc + 1) * (2 * 2 ^ Z.of_nat k)); [|exact H].
  replace ((acc + 1) * (2 * 2 ^ Z.of_nat k)) with ((2 * acc + 2) * 2 ^ Z.of_nat k) by ring. apply Z.mul_le_mono_nonneg_r; lia.
Qed.

Definition symbol_reader (cdf : list Z) (c : coder) (q : list Z) : res ((Z * list Z) * coder * list Z) :=
  '(s, c, q, cdf) <- decode_symbol c q cdf ;; Ok ((s, cdf), c, q).
Lemma any_symbol : forall N cdf, valid_cdf N cdf -> reader 1 (fun a => 0 <= fst a < Z.of_nat N /\ valid_cdf N (snd a)) (symbol_reader cdf).
Proof.
  intros N cdf Hc j c [HR HV HB] q Hq. set (R := bool_range c) in *. set (V := bool_value c) in *.
  destruct (has_symbol R V cdf N Hc HV) as (s & Hs & Hv).
  destruct (valid_cdf_len N cdf Hc) as [Hlen HN].
  destruct (cut_gap R cdf N s Hc HR Hs) as [Hgap Hprob]. destruct (cut_bounds R cdf N s Hc HR Hs) as [Hcut0 Hcut1].
  destruct (update_cdf_valid N cdf (Z.of_nat s) Hc) as (cdf' & Hu & Hc').
  set (r1 := left_of R cdf s - cut R cdf s) in *. assert (Hr1 : 1 <= r1 < 65536) by (subst r1; lia).
  set (b := nshift r1) in *. destruct (nshift_spec r1 ltac:(lia)) as (S1 & S2 & S3 & S4). fold b in S1, S2, S3, S4.
  assert (Hb15 : 2 ^ Z.of_nat b <= 32768). { change 32768 with (2 ^ 15). apply pow2_le. lia. }
  change (2 ^ 31) with 2147483648 in *.
  assert (Start : forall q, symbol_reader cdf c q =
    '(new_data, mb, q) <- refill b 0 (bool_max_bits c) q ;;
    '(s, c, q, cdf) <- (v1 <- chk_i32 (V - cut R cdf s + 1) ;; v2 <- chk_i32 (as_i32 (Z.shiftl v1 (Z.of_nat b)) - 1) ;; mb <- chk_i32 (mb - Z.of_nat b) ;;
    Ok (Z.of_nat s, set_max_bits (set_vr c (Z.lxor new_data v2) (r1 * 2 ^ Z.of_nat b)) mb, q, cdf')) ;; Ok ((s, cdf), c, q)).
  { intros q0. unfold symbol_reader, decode_symbol. unfold len at 1. rewrite Hlen. rewrite chk_u64_ok by lia. cbn [bind].
    fold R V. change R with (left_of R cdf 0) at 2. change 0 with (Z.of_nat 0) at 1.
    rewrite (find_symbol_ok R V cdf N s Hc HR Hs Hv) by lia. cbn [bind].
    fold r1. rewrite chk_i32_ok by (fold r1; lia). cbn [bind]. fold r1. rewrite chk_i32_ok by lia. cbn [bind].
    rewrite as_u16_id by lia. rewrite msb16_log2 by lia. cbn [bind]. rewrite <- S4. rewrite chk_u8_ok by lia. cbn [bind]. rewrite Nat2Z.id.
    rewrite (shiftl_mul r1) by lia. rewrite (as_i32_id (r1 * _)) by lia.
    rewrite dec_update_cdf_eq, Hu. cbn [bind].
    destruct (refill b 0 (bool_max_bits c) q0) as [[[nd mb] q1]| |]; [|reflexivity|reflexivity]. cbn [bind].
    repeat (match goal with |- context [bind (chk_i32 ?z) _] => destruct (chk_i32 z); cbn [bind]; [|reflexivity|reflexivity] end). reflexivity. }
  assert (Full : forall w, is_bits w -> length w = b -> exists c', good j c' /\ forall tail, symbol_reader cdf c (w ++ tail) = Ok ((Z.of_nat s, cdf'), c', tail)).
  { intros w Hw Lw. pose proof (bits_val_bound w Hw) as Bw. rewrite Lw in Bw. set (p := 2 ^ Z.of_nat b) in *.
    assert (Hp : 0 < p) by (subst p; apply pow2_nat_pos). set (v := V - cut R cdf s) in *. assert (Hv' : 0 <= v < r1) by (subst v r1; lia).
    assert (Hvp : 0 < (v + 1) * p < 65536).
    { split; [apply Z.mul_pos_pos; lia|]. assert ((v + 1) * p <= r1 * p) by (apply Z.mul_le_mono_nonneg_r; lia). lia. }
    exists (set_max_bits (set_vr c (v * p + (p - 1 - bits_val w)) (r1 * p)) (bool_max_bits c - Z.of_nat b - Z.of_nat b)). split.
    - constructor; cbn [set_max_bits set_vr bool_range bool_value bool_max_bits]; [exact S1| |change (2 ^ 31) with 2147483648; lia].
      assert ((v + 1) * p <= r1 * p) by (apply Z.mul_le_mono_nonneg_r; lia). assert (0 <= v * p) by (apply Z.mul_nonneg_nonneg; lia). lia.
    - intros tail. rewrite Start. rewrite refill_ok.
      + cbn [bind]. rewrite Z.mul_0_l, Z.add_0_l. rewrite firstn_app, Lw, Nat.sub_diag, firstn_O, app_nil_r, firstn_all2 by lia.
        rewrite skipn_app, Lw, Nat.sub_diag, skipn_O, skipn_all2 by lia. cbn [app].
        fold v. rewrite chk_i32_ok by lia. cbn [bind]. rewrite shiftl_mul by lia. fold p. rewrite (as_i32_id ((v + 1) * p)) by lia. rewrite chk_i32_ok by lia. cbn [bind].
        rewrite chk_i32_ok by lia. cbn [bind]. replace ((v + 1) * p - 1) with (v * p + (p - 1)) by lia. subst p. rewrite lxor_ones_low by lia. reflexivity.
      + rewrite firstn_app, Lw, Nat.sub_diag, firstn_O, app_nil_r, firstn_all2 by lia. exact Hw.
      + rewrite app_length. lia.
      + lia.
      + change (2 ^ 31) with 2147483648. fold p. lia.
      + change (2 ^ 31) with 2147483648. lia. }
  destruct (Nat.le_gt_cases b (length q)) as [L|L].
  - left. destruct (Full (firstn b q) (is_bits_firstn _ _ Hq) ltac:(rewrite firstn_length; lia)) as (c' & G' & F).
    exists (Z.of_nat s, cdf'), c', (firstn b q), (skipn b q). split; [symmetry; apply firstn_skipn|]. split; [cbn; split; [lia|exact Hc']|]. split; [exact G'|exact F].
  - right. split.
    + rewrite Start, refill_short; [reflexivity|exact Hq|exact L|lia| |]; change (2 ^ 31) with 2147483648; lia.
    + assert (Hz : is_bits (repeat 0 (b - length q))) by (apply Forall_forall; intros x Hx; apply repeat_spec in Hx; subst x; left; reflexivity).
      destruct (Full (q ++ repeat 0 (b - length q))) as (c' & G' & F).
      { apply is_bits_app. split; assumption. }
      { rewrite app_length, repeat_length. lia. }
      exists (Z.of_nat s, cdf'), c', (repeat 0 (b - length q)). split; [destruct (b - length q)%nat eqn:E; [lia|discriminate]|]. split; [exact Hz|].
      split; [cbn; split; [lia|exact Hc']|]. split; [exact G'|]. intros tail. rewrite app_assoc. apply F.
Qed.

Lemma any_bit : forall p, 0 <= p <= 255 -> reader 1 (fun s => is_bit s) (fun c q => decode_symbolp c q p).
Proof.
  intros p Hp. destruct (cdf_p_ok p Hp) as [E V].
  apply (reader_ext _ _ _ (fun c q => '(a, c, q) <- symbol_reader [(p * 32768 + 256 - p) / 256; 32768; 0] c q ;; Ok (fst a, c, q))).
  - intros c q. unfold decode_symbolp, symbol_reader. rewrite E. cbn [bind]. destruct (decode_symbol c q _) as [[[[? ?] ?] ?]| |]; reflexivity.
  - change 1%nat with (1 + 0)%nat. eapply reader_bind; [exact (any_symbol 2 _ V)|]. intros a [A _]. apply reader_ret. unfold is_bit. lia.
Qed.
Lemma any_bits : forall n cdf, valid_cdf 2 cdf -> reader n (fun bs => length bs = n /\ is_bits bs) (fun c q => decode_symbols_loop n c q cdf).
Proof.
  induction n as [|n IH]; intros cdf V; cbn [decode_symbols_loop]; [apply reader_ret; split; [reflexivity|constructor]|].
  apply (reader_ext _ _ _ (fun c q => '(a, c, q) <- symbol_reader cdf c q ;; '(r, c, q) <- decode_symbols_loop n c q (snd a) ;; Ok (as_u8 (fst a) :: r, c, q))).
  - intros c q. unfold symbol_reader. destruct (decode_symbol c q cdf) as [[[[? ?] ?] ?]| |]; reflexivity.
  - change (S n) with (1 + n)%nat. eapply reader_bind; [exact (any_symbol 2 _ V)|]. intros a [A B]. cbv beta.
    replace n with (n + 0)%nat at 1 by lia. eapply reader_bind; [exact (IH _ B)|]. intros r [L R]. apply reader_ret. split; [cbn; lia|].
    apply is_bits_cons. split; [|exact R]. unfold is_bit. rewrite as_u8_id by lia. lia.
Qed.
Lemma any_literal : forall n x m, 0 <= x < 2 ^ Z.of_nat m -> (m + n <= 64)%nat ->
  reader n (fun v => 0 <= v < 2 ^ Z.of_nat (m + n)) (decode_literal_loop n x).
Proof.
  induction n as [|n IH]; intros x m Hx Hm; cbn [decode_literal_loop].
  - apply reader_ret. rewrite Nat.add_0_r. exact Hx.
  - change (S n) with (1 + n)%nat. eapply reader_bind; [exact (any_bit 128 ltac:(lia))|]. intros s Hs. cbv beta.
    assert (P : 2 ^ Z.of_nat (S m) = 2 * 2 ^ Z.of_nat m) by apply pow2_S.
    assert (Q : 2 ^ Z.of_nat (S m) <= 2 ^ 64) by (apply Z.pow_le_mono_r; lia).
    assert (Hs' : s = 0 \/ s = 1) by (unfold is_bit in Hs; lia).
    apply (reader_ext _ _ _ (decode_literal_loop n (2 * x + s))).
    + intros c q. rewrite shiftl_mul by lia. change (2 ^ 1) with 2. unfold as_u64. rewrite Z.mod_small by lia. rewrite chk_u64_ok by lia. cbn [bind]. f_equal. lia.
    + replace (m + (1 + n))%nat with (S m + n)%nat by lia. apply IH; lia.
Qed.

Lemma set_nth_valid : forall sizes t i N cdf, valid_table sizes t -> nth_error sizes i = Some N -> valid_cdf N cdf -> valid_table sizes (set_nth i cdf t).
Proof.
  intros sizes t i N cdf H. revert i. induction H as [|M r sizes t A B IH]; intros i E V; [destruct i; discriminate E|].
  destruct i as [|i]; cbn in E |- *; [injection E as ->; constructor; assumption|constructor; [exact A|apply IH; assumption]].
Qed.
Definition op_reader (s : shape) (t : cdf_table) (c : coder) (q : list Z) : res ((op * cdf_table) * coder * list Z) :=
  '(o, c, t, q) <- decode_op c t q s ;; Ok ((o, t), c, q).
Lemma any_op : forall sizes t s, valid_table sizes t -> shape_ok sizes s ->
  reader (shape_symbols s) (fun a => shape_of (fst a) = s /\ valid_op sizes (fst a) /\ valid_table sizes (snd a)) (op_reader s t).
Proof.
  intros sizes t s T S. destruct s as [ctx|p|p n|n]; cbn [shape_ok shape_symbols] in *.
  - destruct (nth_error sizes ctx) as [N|] eqn:EN; [|apply nth_error_None in EN; lia].
    assert (X : exists cdf, nth_error t ctx = Some cdf /\ valid_cdf N cdf).
    { revert ctx S EN. clear -T. induction T as [|M r sizes t A B IH]; intros ctx S EN; [destruct ctx; discriminate EN|].
      destruct ctx; cbn in *; [injection EN as ->; exists r; split; [reflexivity|exact A]|apply IH; [lia|exact EN]]. }
    destruct X as (cdf & Et & V).
    apply (reader_ext _ _ _ (fun c q => '(a, c, q) <- symbol_reader cdf c q ;; Ok ((OSym ctx (Z.to_nat (fst a)), set_nth ctx (snd a) t), c, q))).
    + intros c q. unfold op_reader, decode_op, symbol_reader. assert (I : idx t (Z.of_nat ctx) = Ok cdf).
      { assert (Lt : (ctx < length t)%nat) by (apply nth_error_Some; congruence). rewrite (idx_nth _ t _ []) by (unfold len; lia). rewrite Nat2Z.id. f_equal. apply nth_error_nth. exact Et. }
      rewrite I. cbn [bind]. destruct (decode_symbol c q cdf) as [[[[? ?] ?] ?]| |]; reflexivity.
    + change 1%nat with (1 + 0)%nat. eapply reader_bind; [exact (any_symbol N _ V)|]. intros a [A B]. apply reader_ret. cbn. split; [reflexivity|].
      split; [exists N; split; [exact EN|lia]|eapply set_nth_valid; eassumption].
  - apply (reader_ext _ _ _ (fun c q => '(a, c, q) <- decode_symbolp c q p ;; Ok ((OBit p a, t), c, q))).
    + intros c q. unfold op_reader, decode_op. destruct (decode_symbolp c q p) as [[[? ?] ?]| |]; reflexivity.
    + change 1%nat with (1 + 0)%nat. eapply reader_bind; [exact (any_bit p S)|]. intros a A. apply reader_ret. cbn. auto.
  - destruct (cdf_p_ok p S) as [E V].
    apply (reader_ext _ _ _ (fun c q => '(a, c, q) <- decode_symbols_loop n c q [(p * 32768 + 256 - p) / 256; 32768; 0] ;; Ok ((OBits p a, t), c, q))).
    + intros c q. unfold op_reader, decode_op, decode_symbols. rewrite E. cbn [bind]. rewrite Nat2Z.id. destruct (decode_symbols_loop n c q _) as [[[? ?] ?]| |]; reflexivity.
    + replace n with (n + 0)%nat at 1 by lia. eapply reader_bind; [exact (any_bits n _ V)|]. intros a [A B]. apply reader_ret. cbn. rewrite A. auto.
  - apply (reader_ext _ _ _ (fun c q => '(a, c, q) <- decode_literal c q n ;; Ok ((OLit n a, t), c, q))).
    + intros c q. unfold op_reader, decode_op. destruct (decode_literal c q n) as [[[? ?] ?]| |]; reflexivity.
    + replace n with (n + 0)%nat at 1 by lia. eapply reader_bind; [exact (any_literal n 0 0 ltac:(cbn; lia) S)|]. intros a A. apply reader_ret. cbn in A |- *. auto.
Qed.
Definition ops_reader (ss : list shape) (t : cdf_table) (c : coder) (q : list Z) : res ((list op * cdf_table) * coder * list Z) :=
  '(o, c, t, q) <- decode_ops c t q ss ;; Ok ((o, t), c, q).
Lemma any_ops : forall sizes ss t, valid_table sizes t -> Forall (shape_ok sizes) ss ->
  reader (fold_right (fun s a => (shape_symbols s + a)%nat) 0%nat ss) (fun a => map shape_of (fst a) = ss /\ Forall (valid_op sizes) (fst a) /\ valid_table sizes (snd a)) (ops_reader ss t).
Proof.
  induction ss as [|s ss IH]; intros t T F; cbn [fold_right].
  - apply reader_ret. cbn. auto.
  - apply (reader_ext _ _ _ (fun c q => '(a, c, q) <- op_reader s t c q ;; '(b, c, q) <- ops_reader ss (snd a) c q ;; Ok ((fst a :: fst b, snd b), c, q))).
    + intros c q. unfold ops_reader, op_reader. cbn [decode_ops]. destruct (decode_op c t q s) as [[[[? ?] ?] ?]| |]; cbn [bind fst snd]; try reflexivity.
      destruct (decode_ops _ _ _ ss) as [[[[? ?] ?] ?]| |]; reflexivity.
    + inversion F as [|x l Fs Fl]; subst. eapply reader_bind; [exact (any_op sizes t s T Fs)|]. intros a (A1 & A2 & A3). cbv beta.
      match goal with |- reader ?k _ _ => replace k with (k + 0)%nat by lia end. eapply reader_bind; [exact (IH _ A3 Fl)|]. intros b (B1 & B2 & B3). apply reader_ret.
      cbn. rewrite A1, B1. auto.
Qed.

Lemma read_bits_short : forall k acc q, is_bits q -> (length q < k)%nat -> 0 <= acc -> (acc + 1) * 2 ^ Z.of_nat k <= 2 ^ 31 -> read_bits k acc q = Panic.
Proof.
  induction k; intros acc q Hb Hl H0 H; [lia|]. destruct q as [|b q]; [reflexivity|]. cbn [read_bits pop bind].
  apply is_bits_cons in Hb. destruct Hb as [Hb Hq]. rewrite pow2_S in H. pose proof (pow2_nat_pos k) as Pk.
  rewrite shiftl_mul by lia. change (2 ^ 1) with 2.
  assert (Hb' : b = 0 \/ b = 1) by (unfold is_bit in Hb; lia).
  assert (2 * acc + 2 <= 2 ^ 31).
  { apply Z.le_trans with ((acc + 1) * (2 * 2 ^ Z.of_nat k)); [|exact H]. apply Z.le_trans with ((acc + 1) * 2); [lia|]. apply Z.mul_le_mono_nonneg_l; lia. }
  change (2 ^ 31) with 2147483648 in *. rewrite as_i32_id by lia. rewrite chk_i32_ok by lia. cbn [bind].
  apply IHk; [exact Hq|cbn [length] in Hl; lia|lia|].
  change (2 ^ 31) with 2147483648. apply Z.le_trans with ((acc + 1) * (2 * 2 ^ Z.of_nat k)); [|exact H].
  replace ((acc + 1) * (2 * 2 ^ Z.of_nat k)) with ((2 * acc + 2) * 2 ^ Z.of_nat k) by ring. apply Z.mul_le_mono_nonneg_r; lia.
Qed.
Lemma start_good : forall d sz w, is_bits w -> length w = 15%nat -> 0 <= sz < 2 ^ 28 ->
  exists c, (forall tail, init_decoder d (w ++ tail) sz = Ok (c, tail)) /\ forall k, Z.of_nat k <= 2 ^ 26 -> good k c.
Proof.
  intros d sz w Hw Lw Hsz. change (2 ^ 28) with 268435456 in *. pose proof (bits_val_bound w Hw) as Bw. rewrite Lw in Bw. change (2 ^ Z.of_nat 15) with 32768 in Bw.
  exists (set_max_bits (set_vr d (32767 - bits_val w) 32768) (8 * sz - 15)). split.
  - intros tail. unfold init_decoder. rewrite read_bits_ok.
    + cbn [bind]. rewrite firstn_app, Lw, Nat.sub_diag, firstn_O, app_nil_r, firstn_all2 by lia. rewrite skipn_app, Lw, Nat.sub_diag, skipn_O, skipn_all2 by lia. cbn [app].
      rewrite as_i32_id by lia. rewrite chk_i32_ok by lia. cbn [bind]. rewrite chk_i32_ok by lia. cbn [bind]. rewrite Z.mul_0_l, Z.add_0_l.
      rewrite Z.lxor_comm. change (Z.shiftl 1 15 - 1) with (0 * 2 ^ 15 + (2 ^ 15 - 1)). rewrite lxor_ones_low by (change (2 ^ 15) with 32768; lia).
      change (Z.shiftl 1 15) with 32768. change (2 ^ 15) with 32768. repeat f_equal.
    + rewrite firstn_app, Lw, Nat.sub_diag, firstn_O, app_nil_r, firstn_all2 by lia. exact Hw.
    + rewrite app_length. lia.
    + lia.
    + vm_compute. discriminate.
  - intros k Hk. change (2 ^ 26) with 67108864 in Hk. constructor; cbn [set_max_bits set_vr bool_range bool_value bool_max_bits]; [lia|lia|change (2 ^ 31) with 2147483648; lia].
Qed.

Lemma any_session : forall sizes d t q sz ss, valid_table sizes t -> Forall (shape_ok sizes) ss -> few_symbols ss -> is_bits q -> 0 <= sz < 2 ^ 28 ->
  (exists used q' ops t', q = used ++ q' /\ session_reads sizes d t sz ss used ops t') \/
  (decode_session d t q sz ss = Panic /\ exists more ops t', more <> [] /\ is_bits more /\ session_reads sizes d t sz ss (q ++ more) ops t').
Proof.
  intros sizes d t q sz ss T F Few Hq Hsz. pose proof (any_ops sizes ss t T F) as O. unfold few_symbols in Few.
  set (n := fold_right (fun s a => (shape_symbols s + a)%nat) 0%nat ss) in *.
  assert (Out : forall w c, (forall tail, init_decoder d (w ++ tail) sz = Ok (c, tail)) -> forall r, decode_session d t (w ++ r) sz ss = '(a, c, q) <- ops_reader ss t c r ;; Ok (fst a, c, snd a, q)).
  { intros w c I r. unfold decode_session, ops_reader. rewrite I. cbn [bind]. destruct (decode_ops c t r ss) as [[[[? ?] ?] ?]| |]; reflexivity. }
  destruct (Nat.le_gt_cases 15 (length q)) as [L|L].
  - destruct (start_good d sz (firstn 15 q) (is_bits_firstn _ _ Hq) ltac:(rewrite firstn_length; lia) Hsz) as (c & I & G). specialize (Out _ _ I).
    pose proof (firstn_skipn 15 q) as Sp. set (w := firstn 15 q) in *. set (r := skipn 15 q) in *.
    assert (Hr : is_bits r) by (rewrite <- Sp in Hq; apply is_bits_app in Hq; apply Hq).
    destruct (O 0%nat c ltac:(apply G; lia) r Hr) as [(a & c' & used & q' & E & (P1 & P2 & P3) & G' & D)|(D & a & c' & more & M & Mb & (P1 & P2 & P3) & G' & DM)].
    + left. exists (w ++ used), q', (fst a), (snd a). split; [rewrite <- Sp, E; apply app_assoc|]. repeat split; try assumption. exists c'.
      intros tail. rewrite <- app_assoc, Out, D. reflexivity.
    + right. split; [rewrite <- Sp, Out, D; reflexivity|]. exists more, (fst a), (snd a). split; [exact M|]. split; [exact Mb|]. repeat split; try assumption. exists c'.
      intros tail. rewrite <- Sp, <- !app_assoc, Out, DM. reflexivity.
  - right. split; [unfold decode_session, init_decoder; rewrite read_bits_short; [reflexivity|exact Hq|exact L|lia|vm_compute; discriminate]|].
    set (z := repeat 0 (15 - length q)). assert (Hz : is_bits z) by (apply Forall_forall; intros x Hx; apply repeat_spec in Hx; subst x; left; reflexivity).
    destruct (start_good d sz (q ++ z)) as (c & I & G); [apply is_bits_app; split; assumption|unfold z; rewrite app_length, repeat_length; lia|exact Hsz|].
    specialize (Out _ _ I).
    assert (Nz : z <> []) by (unfold z; destruct (15 - length q)%nat eqn:E15; [lia|discriminate]).
    destruct (O 0%nat c ltac:(apply G; lia) [] ltac:(constructor)) as [(a & c' & used & q' & E & (P1 & P2 & P3) & G' & D)|(D & a & c' & more & M & Mb & (P1 & P2 & P3) & G' & DM)].
    + symmetry in E. apply app_eq_nil in E. destruct E as [-> ->]. exists z, (fst a), (snd a). split; [exact Nz|]. split; [exact Hz|]. repeat split; try assumption. exists c'.
      intros tail. rewrite Out. specialize (D tail). cbn [app] in D. rewrite D. reflexivity.
    + exists (z ++ more), (fst a), (snd a). split; [destruct z; [congruence|discriminate]|]. split; [apply is_bits_app; split; assumption|]. repeat split; try assumption. exists c'.
      intros tail. specialize (DM tail). cbn [app] in DM. rewrite (app_assoc q z more), <- app_assoc, Out, DM. reflexivity.
Qed.

(** When it panics, and only then, the bits are a proper beginning of bits it reads. *)
Lemma session_panics_iff : forall sizes d t q sz ss, valid_table sizes t -> Forall (shape_ok sizes) ss -> few_symbols ss -> is_bits q -> 0 <= sz < 2 ^ 28 ->
  (decode_session d t q sz ss = Panic <-> exists more ops t', more <> [] /\ is_bits more /\ session_reads sizes d t sz ss (q ++ more) ops t').
Proof.
  intros sizes d t q sz ss T F Few Hq Hsz. destruct (any_session sizes d t q sz ss T F Few Hq Hsz) as [(used & q' & ops & t' & E & R)|(P & more & ops & t' & M & Mb & R)].
  - destruct R as (_ & _ & _ & d1 & R). split.
    + intros P. rewrite E, R in P. discriminate P.
    + intros (more & ops2 & t2 & M & Mb & (_ & _ & _ & d2 & R2)). exfalso. specialize (R2 []). rewrite app_nil_r, E, <- app_assoc, R in R2. injection R2 as _ _ _ R2.
      apply app_eq_nil in R2. destruct R2 as [_ R2]. contradiction.
  - split; [intros _; exists more, ops, t'; auto|intros _; exact P].
Qed.

Lemma good_less : forall k j c, (j <= k)%nat -> good k c -> good j c.
Proof. intros k j c L [A B C]. constructor; [exact A|exact B|lia]. Qed.
Lemma reader_more : forall (A : Type) k k' (P : A -> Prop) f, (k <= k')%nat -> reader k P f -> reader k' P f.
Proof.
  intros A k k' P f L H j c G q Hq. destruct (H j c (good_less (k' + j) (k + j) c ltac:(lia) G) q Hq) as [X|X]; [left|right]; exact X.
Qed.
Definition adaptive_reader (n : nat) (f : list op -> shape) (hist : list op) (t : cdf_table) (c : coder) (q : list Z) : res ((list op * cdf_table) * coder * list Z) :=
  '(o, c, t, q) <- decode_adaptive n f hist c t q ;; Ok ((o, t), c, q).
Lemma any_adaptive : forall sizes m f, (forall h, Forall (valid_op sizes) h -> shape_ok sizes (f h) /\ (shape_symbols (f h) <= m)%nat) ->
  forall n hist t, valid_table sizes t -> Forall (valid_op sizes) hist ->
  reader (n * m) (fun a => (exists new, fst a = hist ++ new /\ length new = n /\ forall i, (i < n)%nat -> shape_of (nth i new (OLit 0 0)) = f (hist ++ firstn i new)) /\
    Forall (valid_op sizes) (fst a) /\ valid_table sizes (snd a)) (adaptive_reader n f hist t).
Proof.
  intros sizes m f Hf. induction n as [|n IH]; intros hist t T H.
  - apply reader_ret. cbn [fst snd]. split; [|auto]. exists []. rewrite app_nil_r. repeat split. intros i Hi. lia.
  - destruct (Hf hist H) as [Sh M]. cbn [Nat.mul].
    apply (reader_ext _ _ _ (fun c q => '(a, c, q) <- op_reader (f hist) t c q ;; adaptive_reader n f (hist ++ [fst a]) (snd a) c q)).
    + intros c q. unfold adaptive_reader, op_reader. cbn [decode_adaptive]. destruct (decode_op c t q (f hist)) as [[[[? ?] ?] ?]| |]; reflexivity.
    + eapply reader_bind; [exact (reader_more _ _ _ _ _ M (any_op sizes t (f hist) T Sh))|]. intros a (A1 & A2 & A3). cbv beta.
      assert (H' : Forall (valid_op sizes) (hist ++ [fst a])) by (apply Forall_app; split; [exact H|constructor; [exact A2|constructor]]).
      intros j c G q Hq.
      assert (W : forall x : list op * cdf_table, (exists new, fst x = (hist ++ [fst a]) ++ new /\ length new = n /\ (forall i, (i < n)%nat -> shape_of (nth i new (OLit 0 0)) = f ((hist ++ [fst a]) ++ firstn i new))) /\
          Forall (valid_op sizes) (fst x) /\ valid_table sizes (snd x) ->
        (exists new, fst x = hist ++ new /\ length new = S n /\ (forall i, (i < S n)%nat -> shape_of (nth i new (OLit 0 0)) = f (hist ++ firstn i new))) /\
          Forall (valid_op sizes) (fst x) /\ valid_table sizes (snd x)).
      { intros x [(new & N1 & N2 & N3) X]. split; [|exact X]. exists (fst a :: new). split; [rewrite N1, <- app_assoc; reflexivity|]. split; [cbn; lia|].
        intros i Hi. destruct i as [|i]; cbn [nth firstn]; [rewrite app_nil_r; exact A1|]. rewrite (N3 i ltac:(lia)), <- app_assoc. reflexivity. }
      destruct (IH (hist ++ [fst a]) (snd a) A3 H' j c G q Hq) as [(x & c' & used & q' & E & Px & G' & D)|(D & x & c' & more & M1 & M2 & Px & G' & DM)].
      * left. exists x, c', used, q'. split; [exact E|]. split; [exact (W x Px)|]. split; [exact G'|exact D].
      * right. split; [exact D|]. exists x, c', more. split; [exact M1|]. split; [exact M2|]. split; [exact (W x Px)|]. split; [exact G'|exact DM].
Qed.
Lemma any_parser : forall sizes d t q sz n m f, valid_table sizes t -> (forall h, Forall (valid_op sizes) h -> shape_ok sizes (f h) /\ (shape_symbols (f h) <= m)%nat) ->
  Z.of_nat (n * m) <= 2 ^ 26 -> is_bits q -> 0 <= sz < 2 ^ 28 ->
  (exists used q' ops t', q = used ++ q' /\ parser_reads sizes d t sz n f used ops t') \/
  (('(c, q) <- init_decoder d q sz ;; decode_adaptive n f [] c t q) = Panic /\ exists more ops t', more <> [] /\ is_bits more /\ parser_reads sizes d t sz n f (q ++ more) ops t').
Proof.
  intros sizes d t q sz n m f T Hf Few Hq Hsz. pose proof (any_adaptive sizes m f Hf n [] t T ltac:(constructor)) as O.
  assert (Out : forall w c, (forall tail, init_decoder d (w ++ tail) sz = Ok (c, tail)) -> forall r,
    ('(c, q) <- init_decoder d (w ++ r) sz ;; decode_adaptive n f [] c t q) = '(a, c, q) <- adaptive_reader n f [] t c r ;; Ok (fst a, c, snd a, q)).
  { intros w c I r. unfold adaptive_reader. rewrite I. cbn [bind]. destruct (decode_adaptive n f [] c t r) as [[[[? ?] ?] ?]| |]; reflexivity. }
  assert (Fin : forall a used c', ((exists new, fst a = [] ++ new /\ length new = n /\ (forall i, (i < n)%nat -> shape_of (nth i new (OLit 0 0)) = f ([] ++ firstn i new))) /\
          Forall (valid_op sizes) (fst a) /\ valid_table sizes (snd a)) ->
     (forall tail, ('(c, q) <- init_decoder d (used ++ tail) sz ;; decode_adaptive n f [] c t q) = Ok (fst a, c', snd a, tail)) -> parser_reads sizes d t sz n f used (fst a) (snd a)).
  { intros a used c' ((new & N1 & N2 & N3) & X & Y) D. cbn [app] in N1, N3. rewrite N1 in *. split; [split; [exact N2|exact N3]|]. split; [exact X|]. split; [exact Y|]. exists c'. exact D. }
  destruct (Nat.le_gt_cases 15 (length q)) as [L|L].
  - destruct (start_good d sz (firstn 15 q) (is_bits_firstn _ _ Hq) ltac:(rewrite firstn_length; lia) Hsz) as (c & I & G). specialize (Out _ _ I).
    pose proof (firstn_skipn 15 q) as Sp. set (w := firstn 15 q) in *. set (r := skipn 15 q) in *.
    assert (Hr : is_bits r) by (rewrite <- Sp in Hq; apply is_bits_app in Hq; apply Hq).
    destruct (O 0%nat c ltac:(apply G; lia) r Hr) as [(a & c' & used & q' & E & Pa & G' & D)|(D & a & c' & more & M & Mb & Pa & G' & DM)].
    + left. exists (w ++ used), q', (fst a), (snd a). split; [rewrite <- Sp, E; apply app_assoc|]. apply (Fin a _ c' Pa). intros tail. rewrite <- app_assoc, Out, D. reflexivity.
    + right. split; [rewrite <- Sp, Out, D; reflexivity|]. exists more, (fst a), (snd a). split; [exact M|]. split; [exact Mb|]. apply (Fin a _ c' Pa).
      intros tail. rewrite <- Sp, <- !app_assoc, Out, DM. reflexivity.
  - right. split; [unfold init_decoder; rewrite read_bits_short; [reflexivity|exact Hq|exact L|lia|vm_compute; discriminate]|].
    set (z := repeat 0 (15 - length q)). assert (Hz : is_bits z) by (apply Forall_forall; intros x Hx; apply repeat_spec in Hx; subst x; left; reflexivity).
    destruct (start_good d sz (q ++ z)) as (c & I & G); [apply is_bits_app; split; assumption|unfold z; rewrite app_length, repeat_length; lia|exact Hsz|].
    specialize (Out _ _ I).
    assert (Nz : z <> []) by (unfold z; destruct (15 - length q)%nat eqn:E15; [lia|discriminate]).
    destruct (O 0%nat c ltac:(apply G; lia) [] ltac:(constructor)) as [(a & c' & used & q' & E & Pa & G' & D)|(D & a & c' & more & M & Mb & Pa & G' & DM)].
    + symmetry in E. apply app_eq_nil in E. destruct E as [-> ->]. exists z, (fst a), (snd a). split; [exact Nz|]. split; [exact Hz|]. apply (Fin a _ c' Pa).
      intros tail. rewrite Out. specialize (D tail). cbn [app] in D. rewrite D. reflexivity.
    + exists (z ++ more), (fst a), (snd a). split; [destruct z; [congruence|discriminate]|]. split; [apply is_bits_app; split; assumption|]. apply (Fin a _ c' Pa).
      intros tail. specialize (DM tail). cbn [app] in DM. rewrite (app_assoc q z more), <- app_assoc, Out, DM. reflexivity.
Qed.
