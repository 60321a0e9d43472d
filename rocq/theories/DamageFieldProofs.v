(** The readers of header fields on any bits. *)
From Coq Require Import ZArith List Bool Lia ZifyBool ZifyNat.
From Verif Require Import Base BaseProofs BitsSpec BitsProofs UtilModel UtilProofs UtilSpec RangeCoderModel BitCodecModel BitCodecProofs FieldProofs DamageSpec.
Import ListNotations.
Open Scope Z_scope.

Lemma any_ret : forall (A : Type) (P : A -> Prop) a, P a -> reads_any P (fun q => Ok (a, q)).
Proof. intros A P a H q Hq. left. exists a, [], q. auto. Qed.
Lemma any_bind : forall (A B : Type) (P : A -> Prop) (Q : B -> Prop) f g,
  reads_any P f -> (forall a, P a -> reads_any Q (g a)) -> reads_any Q (fun q => '(a, q) <- f q ;; g a q).
Proof.
  intros A B P Q f g Hf Hg q Hq.
  destruct (Hf q Hq) as [(a & used & q' & E & Pa & F)|(F & a & more & M & Mb & Pa & FM)].
  - subst q. assert (Hq' : is_bits q') by (apply is_bits_app in Hq; apply Hq).
    destruct (Hg a Pa q' Hq') as [(b & used2 & q2 & E & Qb & F2)|(F2 & b & more & M & Mb & Qb & FM)].
    + left. exists b, (used ++ used2), q2. subst q'. split; [apply app_assoc|]. split; [exact Qb|].
      intros tail. rewrite <- app_assoc, F. cbn [bind]. apply F2.
    + right. split; [rewrite F; cbn [bind]; exact F2|]. exists b, more. split; [exact M|]. split; [exact Mb|]. split; [exact Qb|].
      intros tail. rewrite <- app_assoc, F. cbn [bind]. apply FM.
  - right. split; [rewrite F; reflexivity|].
    destruct (Hg a Pa [] ltac:(constructor)) as [(b & used2 & q2 & E & Qb & F2)|(F2 & b & more2 & M2 & Mb2 & Qb & FM2)].
    + symmetry in E. apply app_eq_nil in E. destruct E as [-> ->]. exists b, more. split; [exact M|]. split; [exact Mb|]. split; [exact Qb|].
      intros tail. rewrite FM. cbn [bind]. apply F2.
    + exists b, (more ++ more2). split; [destruct more; [congruence|discriminate]|]. split; [apply is_bits_app; split; assumption|].
      split; [exact Qb|]. intros tail. rewrite <- app_assoc, FM. cbn [bind]. apply FM2.
Qed.
Lemma any_ext : forall (A : Type) (P : A -> Prop) f g, (forall q, f q = g q) -> reads_any P f -> reads_any P g.
Proof.
  intros A P f g E H q Hq. destruct (H q Hq) as [(a & used & q' & Eq & Pa & F)|(F & a & more & M & Mb & Pa & FM)].
  - left. exists a, used, q'. repeat split; try assumption. intros tail. rewrite <- E. apply F.
  - right. rewrite <- E. split; [exact F|]. exists a, more. repeat split; try assumption. intros tail. rewrite <- E. apply FM.
Qed.
Lemma any_pop : reads_any is_bit pop.
Proof.
  intros q Hq. destruct q as [|b q].
  - right. split; [reflexivity|]. exists 0, [0]. repeat split; try discriminate; [repeat constructor|constructor; reflexivity].
  - left. apply is_bits_cons in Hq. exists b, [b], q. repeat split. apply Hq.
Qed.
Lemma any_u64 : forall k x m, 0 <= x < 2 ^ Z.of_nat m -> (m + k <= 64)%nat -> reads_any (fun v => 0 <= v < 2 ^ Z.of_nat (m + k)) (read_u64 k x).
Proof.
  induction k as [|k IH]; intros x m Hx Hm; cbn [read_u64].
  - apply any_ret. rewrite Nat.add_0_r. exact Hx.
  - eapply any_bind; [exact any_pop|]. intros s Hs. cbv beta.
    assert (P : 2 ^ Z.of_nat (S m) = 2 * 2 ^ Z.of_nat m) by apply pow2_S.
    assert (Q : 2 ^ Z.of_nat (S m) <= 2 ^ 64) by (apply Z.pow_le_mono_r; lia).
    assert (Hs' : s = 0 \/ s = 1) by (unfold is_bit in Hs; lia).
    apply (any_ext _ _ (read_u64 k (2 * x + s))).
    + intros q. rewrite shiftl_mul by lia. change (2 ^ 1) with 2. unfold as_u64. rewrite Z.mod_small by lia. rewrite chk_u64_ok by lia. cbn [bind]. f_equal. lia.
    + replace (m + S k)%nat with (S m + k)%nat by lia. apply IH; lia.
Qed.
Lemma any_u8 : forall k x m, 0 <= x < 2 ^ Z.of_nat m -> (m + k <= 8)%nat -> reads_any (fun v => 0 <= v < 2 ^ Z.of_nat (m + k)) (read_u8 k x).
Proof.
  induction k as [|k IH]; intros x m Hx Hm; cbn [read_u8].
  - apply any_ret. rewrite Nat.add_0_r. exact Hx.
  - eapply any_bind; [exact any_pop|]. intros s Hs. cbv beta.
    assert (P : 2 ^ Z.of_nat (S m) = 2 * 2 ^ Z.of_nat m) by apply pow2_S.
    assert (Q : 2 ^ Z.of_nat (S m) <= 2 ^ 8) by (apply Z.pow_le_mono_r; lia). change (2 ^ 8) with 256 in Q.
    assert (Hs' : s = 0 \/ s = 1) by (unfold is_bit in Hs; lia).
    apply (any_ext _ _ (read_u8 k (2 * x + s))).
    + intros q. rewrite shiftl_mul by lia. change (2 ^ 1) with 2. rewrite as_u8_id by lia. rewrite chk_u8_ok by lia. cbn [bind]. f_equal. lia.
    + replace (m + S k)%nat with (S m + k)%nat by lia. apply IH; lia.
Qed.

Lemma any_le_loop : forall k i t, 0 <= i -> i + Z.of_nat k <= 8 -> 0 <= t < 2 ^ (8 * i) -> reads_any (fun v => 0 <= v < 2 ^ (8 * (i + Z.of_nat k))) (decode_le_loop k i t).
Proof.
  induction k as [|k IH]; intros i t Hi Hk Ht; cbn [decode_le_loop].
  - apply any_ret. rewrite Z.add_0_r. exact Ht.
  - eapply any_bind; [exact (any_u8 8 0 0 ltac:(cbn; lia) ltac:(lia))|]. intros byte Hb. cbv beta in Hb |- *. change (2 ^ Z.of_nat (0 + 8)) with 256 in Hb.
    assert (P : 2 ^ (8 * (i + 1)) = 256 * 2 ^ (8 * i)) by (replace (8 * (i + 1)) with (8 + 8 * i) by lia; rewrite Z.pow_add_r by lia; reflexivity).
    assert (Q : 2 ^ (8 * (i + 1)) <= 2 ^ 64) by (apply Z.pow_le_mono_r; lia). assert (P0 : 0 < 2 ^ (8 * i)) by (apply Z.pow_pos_nonneg; lia).
    assert (B : 0 <= byte * 2 ^ (8 * i) <= 255 * 2 ^ (8 * i)) by (split; [apply Z.mul_nonneg_nonneg; lia|apply Z.mul_le_mono_nonneg_r; lia]).
    apply (any_ext _ _ (decode_le_loop k (i + 1) (t + byte * 2 ^ (8 * i)))).
    + intros q. rewrite chk_u8_ok by lia. cbn [bind]. unfold shift_ok. assert (S : (0 <=? i * 8) && (i * 8 <? 64) = true) by lia.
      replace (i * 8) with (8 * i) in * by lia. rewrite S. cbn [bind]. rewrite shiftl_mul by lia. unfold as_u64. rewrite Z.mod_small by lia. rewrite chk_u64_ok by lia. reflexivity.
    + replace (i + Z.of_nat (S k)) with (i + 1 + Z.of_nat k) by lia. apply IH; lia.
Qed.
Lemma any_le : forall n, 0 <= n <= 8 -> reads_any (fun v => 0 <= v < 256 ^ n) (fun q => decode_le q n).
Proof.
  intros n Hn. replace (256 ^ n) with (2 ^ (8 * (0 + Z.of_nat (Z.to_nat n)))).
  - unfold decode_le. apply any_le_loop; cbn; lia.
  - change 256 with (2 ^ 8). rewrite <- Z.pow_mul_r by lia. f_equal. lia.
Qed.

Lemma lor_bound : forall a b n, 0 <= n -> 0 <= a < 2 ^ n -> 0 <= b < 2 ^ n -> 0 <= Z.lor a b < 2 ^ n.
Proof.
  intros a b n Hn Ha Hb. split; [apply Z.lor_nonneg; lia|].
  destruct (Z.eq_dec (Z.lor a b) 0) as [E|E]; [rewrite E; apply Z.pow_pos_nonneg; lia|].
  assert (N : 0 <= Z.lor a b) by (apply Z.lor_nonneg; lia).
  destruct (Z.eq_dec n 0) as [->|N0]; [assert (a = 0) by (change (2 ^ 0) with 1 in *; lia); assert (b = 0) by (change (2 ^ 0) with 1 in *; lia); subst; contradiction|].
  apply Z.log2_lt_pow2; [lia|]. rewrite Z.log2_lor by lia. apply Z.max_lub_lt.
  - destruct (Z.eq_dec a 0) as [->|]; [change (Z.log2 0) with 0; lia|apply Z.log2_lt_pow2; lia].
  - destruct (Z.eq_dec b 0) as [->|]; [change (Z.log2 0) with 0; lia|apply Z.log2_lt_pow2; lia].
Qed.
Definition leb_reader (k : nat) (i v nb : Z) (q : list Z) : res ((Z * Z) * list Z) := '(v, nb, q) <- decode_leb128_loop k i v nb q ;; Ok ((v, nb), q).
Lemma any_leb_loop : forall k i v nb, 0 <= i -> i + Z.of_nat k <= 8 -> 0 <= v < 2 ^ (7 * i) -> 0 <= nb -> nb + Z.of_nat k < 2 ^ 64 ->
  reads_any (fun a => 0 <= fst a < 2 ^ 56 /\ nb + 1 <= snd a <= nb + Z.of_nat k) (leb_reader (S k - 1) i v nb) \/ k = 0%nat.
Proof.
  intros k i v nb Hi Hk Hv Hn Hnb. destruct k as [|k]; [right; reflexivity|left]. replace (S (S k) - 1)%nat with (S k) by lia.
  revert i v nb Hi Hk Hv Hn Hnb. induction k as [|k IH]; intros i v nb Hi Hk Hv Hn Hnb.
  all: unfold leb_reader; cbn [decode_leb128_loop].
  all: assert (P : 2 ^ (7 * (i + 1)) = 128 * 2 ^ (7 * i)) by (replace (7 * (i + 1)) with (7 + 7 * i) by lia; rewrite Z.pow_add_r by lia; reflexivity).
  all: assert (Q : 2 ^ (7 * (i + 1)) <= 2 ^ 56) by (apply Z.pow_le_mono_r; lia); assert (P0 : 0 < 2 ^ (7 * i)) by (apply Z.pow_pos_nonneg; lia).
  all: assert (B : forall leb, 0 <= leb < 256 -> let w := Z.lor v (as_u64 (Z.shiftl (Z.land leb 127) (i * 7))) in 0 <= w < 2 ^ (7 * (i + 1))) by
    (intros leb Hl; cbv zeta; change 127 with (Z.ones 7); rewrite Z.land_ones by lia; pose proof (Z.mod_pos_bound leb (2 ^ 7) ltac:(lia)) as M; change (2 ^ 7) with 128 in *;
     rewrite shiftl_mul by lia; replace (i * 7) with (7 * i) by lia;
     assert (0 <= (leb mod 128) * 2 ^ (7 * i) <= 127 * 2 ^ (7 * i)) by (split; [apply Z.mul_nonneg_nonneg; lia|apply Z.mul_le_mono_nonneg_r; lia]);
     assert (2 ^ 56 < 2 ^ 64) by (vm_compute; reflexivity); unfold as_u64; rewrite Z.mod_small by lia; apply lor_bound; lia).
  - apply (any_ext _ _ (fun q => '(leb, q) <- read_u64 8 0 q ;; Ok ((Z.lor v (as_u64 (Z.shiftl (Z.land leb 127) (i * 7))), nb + 1), q))).
    + intros q. destruct (read_u64 8 0 q) as [[leb q']| |]; [|reflexivity|reflexivity]. cbn [bind]. rewrite chk_u64_ok by lia. cbn [bind]. destruct (_ =? _); reflexivity.
    + eapply any_bind; [exact (any_u64 8 0 0 ltac:(cbn; lia) ltac:(lia))|]. intros leb Hl. cbv beta in Hl. change (2 ^ Z.of_nat (0 + 8)) with 256 in Hl. apply any_ret. specialize (B leb Hl). cbv zeta in B. cbn [fst snd]. lia.
  - apply (any_ext _ _ (fun q => '(leb, q) <- read_u64 8 0 q ;; let w := Z.lor v (as_u64 (Z.shiftl (Z.land leb 127) (i * 7))) in
      if Z.land leb 128 =? 0 then Ok ((w, nb + 1), q) else leb_reader (S k) (i + 1) w (nb + 1) q)).
    + intros q. destruct (read_u64 8 0 q) as [[leb q']| |]; [|reflexivity|reflexivity]. cbn [bind]. rewrite chk_u64_ok by lia. cbn [bind]. cbv zeta. destruct (_ =? _); reflexivity.
    + eapply any_bind; [exact (any_u64 8 0 0 ltac:(cbn; lia) ltac:(lia))|]. intros leb Hl. cbv beta in Hl. change (2 ^ Z.of_nat (0 + 8)) with 256 in Hl. specialize (B leb Hl). cbv zeta in B |- *.
      destruct (_ =? _); [apply any_ret; cbn [fst snd]; lia|].
      intros q Hq. destruct (IH (i + 1) _ (nb + 1) ltac:(lia) ltac:(lia) B ltac:(lia) ltac:(lia) q Hq) as [(a & used & q' & E & Pa & F)|(F & a & more & M & Mb & Pa & FM)].
      * left. exists a, used, q'. split; [exact E|]. split; [lia|exact F].
      * right. split; [exact F|]. exists a, more. split; [exact M|]. split; [exact Mb|]. split; [lia|exact FM].
Qed.
Lemma any_leb : forall nb, 0 <= nb < 2 ^ 64 - 8 ->
  reads_any (fun a => 0 <= fst a < 2 ^ 56 /\ nb + 1 <= snd a <= nb + 8) (fun q => '(v, nb, q) <- decode_leb128 nb q ;; Ok ((v, nb), q)).
Proof.
  intros nb Hn. destruct (any_leb_loop 8 0 0 nb ltac:(lia) ltac:(lia) ltac:(cbn; lia) ltac:(lia) ltac:(lia)) as [H|H]; [|discriminate H].
  exact H.
Qed.

Lemma any_strong : forall (A : Type) (P : A -> Prop) f, reads_any (fun _ => True) f -> (forall q a q', is_bits q -> f q = Ok (a, q') -> P a) -> reads_any P f.
Proof.
  intros A P f H S q Hq. destruct (H q Hq) as [(a & used & q' & E & _ & F)|(F & a & more & M & Mb & _ & FM)].
  - left. exists a, used, q'. split; [exact E|]. split; [|exact F]. apply (S q a q' Hq). rewrite E. apply F.
  - right. split; [exact F|]. exists a, more. split; [exact M|]. split; [exact Mb|]. split; [|exact FM]. apply (S (q ++ more) a []).
    + apply is_bits_app. split; assumption.
    + specialize (FM []). rewrite app_nil_r in FM. exact FM.
Qed.
Lemma any_su : forall n, 1 <= n <= 62 -> reads_any (fun v => - 2 ^ (n - 1) <= v < 2 ^ (n - 1)) (fun q => decode_su q n).
Proof.
  intros n Hn. apply any_strong; [|intros q a q' Hq E; exact (su_range q n a q' Hq Hn E)].
  assert (P : 2 ^ n = 2 * 2 ^ (n - 1)) by (rewrite <- Z.pow_succ_r by lia; f_equal; lia). assert (P0 : 0 < 2 ^ (n - 1)) by (apply Z.pow_pos_nonneg; lia).
  assert (P1 : 2 ^ n <= 2 ^ 62) by (apply Z.pow_le_mono_r; lia). change (2 ^ 62) with 4611686018427387904 in P1.
  unfold decode_su. eapply any_bind; [exact (any_u64 (Z.to_nat n) 0 0 ltac:(cbn; lia) ltac:(lia))|]. intros v Hv. cbv beta in Hv |- *.
  replace (Z.of_nat (0 + Z.to_nat n)) with n in Hv by lia. rewrite chk_u8_ok by lia. cbn [bind]. rewrite shift_ok_ok by lia. cbn [bind]. cbv zeta.
  rewrite shiftl_mul, Z.mul_1_l by lia. destruct (0 <? _).
  - rewrite !as_i64_id by lia. rewrite chk_i64_ok by lia. cbn [bind]. rewrite chk_i64_ok by lia. cbn [bind]. apply any_ret. exact I.
  - apply any_ret. exact I.
Qed.
Lemma any_ns : forall n, 1 <= n < 2 ^ 63 -> reads_any (fun v => 0 <= v < n) (fun q => decode_ns q n).
Proof.
  intros n Hn. apply any_strong; [|intros q a q' Hq E; exact (proj1 (decode_ns_canonical q n a q' Hq Hn E))].
  destruct (ns_facts n Hn) as (Hw & Hw2 & Hwn & Hm & H63). unfold decode_ns.
  rewrite FloorLog2_ok by (change (2 ^ 64) with 18446744073709551616; change (2 ^ 63) with 9223372036854775808 in *; lia).
  cbn [bind]. change (2 ^ 63) with 9223372036854775808 in *.
  rewrite chk_u64_ok by lia. cbn [bind]. rewrite shift_ok_ok by lia. cbn [bind].
  rewrite shiftl_mul, Z.mul_1_l by lia. rewrite chk_u64_ok by lia. cbn [bind].
  set (w := Z.log2 n + 1) in *. set (m := 2 ^ w - n) in *.
  eapply any_bind; [exact (any_u64 (Z.to_nat (w - 1)) 0 0 ltac:(cbn; lia) ltac:(lia))|]. intros v Hv. cbv beta in Hv |- *.
  replace (Z.of_nat (0 + Z.to_nat (w - 1))) with (w - 1) in Hv by lia.
  destruct (v <? m) eqn:E; [apply any_ret; exact I|].
  eapply any_bind; [exact any_pop|]. intros b Hb. cbv beta. assert (Hb' : b = 0 \/ b = 1) by (unfold is_bit in Hb; lia).
  assert (2 ^ w = 2 * 2 ^ (w - 1)) by (rewrite <- Z.pow_succ_r by lia; f_equal; lia).
  rewrite shiftl_mul by lia. change (2 ^ 1) with 2. rewrite as_u64_id by lia. rewrite chk_u64_ok by lia. cbn [bind]. rewrite chk_u64_ok by lia. cbn [bind]. apply any_ret. exact I.
Qed.

(** uvlc: once there is a one. *)
Lemma zeros_prefix : forall z lz q, is_bits z -> ~ In 1 z -> lz + Z.of_nat (length z) < 2 ^ 31 -> 0 <= lz -> uvlc_zeros (z ++ 1 :: q) lz = Ok (lz + Z.of_nat (length z), q).
Proof.
  induction z as [|b z IH]; intros lz q Hz N L P; [cbn; f_equal; f_equal; lia|]. apply is_bits_cons in Hz. destruct Hz as [Hb Hz].
  assert (b = 0) by (cbn in N; unfold is_bit in Hb; intuition lia). subst b. cbn [uvlc_zeros app]. change (0 <? 0) with false. cbv iota. cbn [length] in *.
  change (2 ^ 31) with 2147483648 in *. rewrite chk_i32_ok by lia. cbn [bind]. rewrite IH; [f_equal; f_equal; lia|exact Hz|cbn in N; tauto|change (2 ^ 31) with 2147483648; lia|lia].
Qed.
Lemma split_one : forall q, is_bits q -> In 1 q -> exists z r, q = z ++ 1 :: r /\ is_bits z /\ ~ In 1 z /\ is_bits r.
Proof.
  induction q as [|b q IH]; intros Hq I; [destruct I|]. apply is_bits_cons in Hq. destruct Hq as [Hb Hq].
  destruct (Z.eq_dec b 1) as [->|Nb]; [exists [], q; repeat split; [constructor|intros []|exact Hq]|].
  destruct I as [I|I]; [congruence|]. destruct (IH Hq I) as (z & r & -> & Hz & Nz & Hr). exists (b :: z), r. repeat split; [constructor; assumption|cbn; tauto|exact Hr].
Qed.
Lemma any_uvlc : forall q, is_bits q -> Z.of_nat (length q) < 2 ^ 31 -> In 1 q ->
  (exists v used q', q = used ++ q' /\ 0 <= v < 2 ^ 32 /\ forall tail, decode_uvlc (used ++ tail) = Ok (v, tail)) \/
  (decode_uvlc q = Panic /\ exists v more, more <> [] /\ is_bits more /\ 0 <= v < 2 ^ 32 /\ forall tail, decode_uvlc (q ++ more ++ tail) = Ok (v, tail)).
Proof.
  intros q Hq L I. destruct (split_one q Hq I) as (z & r & -> & Hz & Nz & Hr). rewrite app_length in L. cbn [length] in L.
  assert (Z0 : forall k, decode_uvlc (z ++ 1 :: k) = if 32 <=? Z.of_nat (length z) then Ok (2 ^ 32 - 1, k) else
    '(v, q) <- read_u64 (length z) 0 k ;; a <- chk_u64 (v + Z.shiftl 1 (Z.of_nat (length z))) ;; r <- chk_u64 (a - 1) ;; Ok (as_u32 r, q)).
  { intros k. unfold decode_uvlc. rewrite zeros_prefix by (assumption || lia). cbn [bind]. rewrite Z.add_0_l, Nat2Z.id. reflexivity. }
  destruct (32 <=? Z.of_nat (length z)) eqn:E.
  - left. exists (2 ^ 32 - 1), (z ++ [1]), r. split; [rewrite <- app_assoc; reflexivity|]. split; [lia|]. intros tail. rewrite <- app_assoc. apply Z0.
  - assert (R : reads_any (fun v => 0 <= v < 2 ^ 32) (fun k => '(v, q) <- read_u64 (length z) 0 k ;; a <- chk_u64 (v + Z.shiftl 1 (Z.of_nat (length z))) ;; r <- chk_u64 (a - 1) ;; Ok (as_u32 r, q))).
    { eapply any_bind; [exact (any_u64 (length z) 0 0 ltac:(cbn; lia) ltac:(lia))|]. intros v Hv. cbv beta in Hv |- *. rewrite Nat.add_0_l in Hv.
      assert (2 ^ Z.of_nat (length z) <= 2 ^ 31) by (apply Z.pow_le_mono_r; lia). change (2 ^ 31) with 2147483648 in *. rewrite shiftl_mul, Z.mul_1_l by lia.
      rewrite chk_u64_ok by lia. cbn [bind]. rewrite chk_u64_ok by lia. cbn [bind]. apply any_ret. unfold as_u32. apply Z.mod_pos_bound. lia. }
    destruct (R r Hr) as [(v & used & q' & Er & Pv & F)|(F & v & more & M & Mb & Pv & FM)].
    + left. exists v, (z ++ 1 :: used), q'. split; [rewrite Er, <- app_assoc; reflexivity|]. split; [exact Pv|]. intros tail. rewrite <- app_assoc. cbn [app]. rewrite Z0. apply F.
    + right. split; [rewrite Z0; exact F|]. exists v, more. split; [exact M|]. split; [exact Mb|]. split; [exact Pv|]. intros tail. rewrite <- app_assoc. cbn [app]. rewrite Z0. apply FM.
Qed.
