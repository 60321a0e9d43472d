From Coq Require Import String ZArith List Bool Lia ZifyBool ZifyNat.
From Verif Require Import Base BaseProofs UtilModel UtilProofs SeqSpec ContextModel ModeInfoModel ModeInfoSpec MvCallProofs MvComponentModel MvComponentSpec.
Import ListNotations.
Open Scope string_scope.
Open Scope list_scope.
Open Scope Z_scope.

Lemma land1 : forall x, Z.land x 1 = x mod 2.
Proof. intros x. change 1 with (Z.ones 1). now rewrite Z.land_ones. Qed.
Lemma land3 : forall x, Z.land x 3 = x mod 4.
Proof. intros x. change 3 with (Z.ones 2). now rewrite Z.land_ones. Qed.

Lemma some_pair : forall (a b : Z) (k : list ev), a = b -> Some (a, k) = Some (b, k).
Proof. intros a b k ->. reflexivity. Qed.
Lemma abs_of : forall v, - 2 ^ 63 < v < 2 ^ 63 -> (if 0 <=? v then Ok v else chk_i64 (- v)) = Ok (Z.abs v).
Proof.
  intros v H. destruct (0 <=? v) eqn:E; [now rewrite Z.abs_eq by lia|]. unfold chk_i64, chk.
  change (- 2 ^ 63) with (-9223372036854775808) in *. change (2 ^ 63 - 1) with 9223372036854775807. change (2 ^ 63) with 9223372036854775808 in *.
  destruct (_ && _) eqn:F; [f_equal; lia|lia].
Qed.
Lemma class_of : forall a, 0 <= a -> exists m, msb16 (as_u16 a) = Ok m /\ m / 8 = (if a mod 65536 <? 256 then 0 else 1).
Proof.
  intros a A. unfold as_u16. change (2 ^ 16) with 65536. pose proof (Z.mod_pos_bound a 65536 ltac:(lia)) as B. set (n := a mod 65536) in *. clearbody n.
  exists (Z.log2 n). split; [apply msb16_log2; exact B|].
  destruct (n <? 256) eqn:E.
  - assert (Z.log2 n <= Z.log2 255) by (apply Z.log2_le_mono; lia). change (Z.log2 255) with 7 in H. pose proof (Z.log2_nonneg n). apply Z.div_small. lia.
  - assert (Z.log2 n <= Z.log2 65535) by (apply Z.log2_le_mono; lia). change (Z.log2 65535) with 15 in H.
    assert (Z.log2 256 <= Z.log2 n) by (apply Z.log2_le_mono; lia). change (Z.log2 256) with 8 in H0. symmetry. apply Z.div_unique with (Z.log2 n - 8); lia.
Qed.

Lemma component_read_as : forall int hp ctx v comp es, - 2 ^ 63 < v < 2 ^ 63 ->
  exists c ds, mv_component int hp ctx v comp es = Ok (es ++ ESym "mv_class" [ctx; comp] c :: ds) /\
  forall s, reads_as (ESym "mv_sign" [ctx; comp] s :: ESym "mv_class" [ctx; comp] c :: ds) (av1_component ctx comp int hp)
    (if s =? 0 then read_magnitude int hp (Z.abs v) else - read_magnitude int hp (Z.abs v)).
Proof.
  intros int hp ctx v comp es H. unfold mv_component. rewrite abs_of by exact H. cbn [bind].
  assert (A : 0 <= Z.abs v < 2 ^ 63) by lia. set (a := Z.abs v) in *. clearbody a.
  destruct (class_of a (proj1 A)) as (m & -> & M). cbn [bind]. rewrite M.
  exists (if a mod 65536 <? 256 then 0 else 1).
  unfold read_magnitude. destruct (a mod 65536 <? 256) eqn:E; cbn [Z.ltb Z.compare Pos.compare Pos.compare_cont Z.eqb].
  - destruct int, hp; (eexists; split;
    [ unfold emit, encode_mv_class, encode_mv_class0_bit, encode_mv_class0_fr, encode_mv_class0_hp; cbn [bind]; rewrite <- !app_assoc; reflexivity
    | intros s k; unfold av1_component; cbn [app]; rewrite here; cbn [obind]; rewrite here; cbn [obind Z.eqb app]; repeat (rewrite here; cbn [obind]); rewrite ?land1, ?land3, ?Z.shiftr_div_pow2 by lia; change (2 ^ 3) with 8; change (2 ^ 1) with 2; reflexivity ]).
  - change (shift_ok 64 (1 + 2)) with (Ok tt). cbn [bind]. change (Z.shiftl 2 (1 + 2)) with 16.
    assert (256 <= a) by (pose proof (Z.mod_le a 65536 ltac:(lia) ltac:(lia)); lia).
    unfold chk_u64, chk. change (2 ^ 64 - 1) with 18446744073709551615. change (2 ^ 63) with 9223372036854775808 in A.
    destruct ((0 <=? a - 16) && (a - 16 <=? 18446744073709551615)) eqn:F; [|lia]. cbn [bind]. change (Z.to_nat 1) with 1%nat.
    cbn [mv_bit_loop]. change (shift_ok 64 (0 + 3)) with (Ok tt). cbn [bind]. change (0 + 3) with 3.
    assert (B3 : (a - 16) / 8 mod 2 = a / 8 mod 2) by lia. assert (B1 : (a - 16) / 2 mod 4 = a / 2 mod 4) by lia. assert (B0 : (a - 16) mod 2 = a mod 2) by lia.
    destruct int, hp; (eexists; split;
    [ unfold emit, encode_mv_class, encode_mv_bit, encode_mv_fr, encode_mv_hp; cbn [bind]; rewrite <- !app_assoc; reflexivity
    | intros s k; unfold av1_component; cbn [app]; rewrite here; cbn [obind]; rewrite here; cbn [obind Z.eqb]; change (Z.to_nat 1) with 1%nat; cbn [av1_bits app]; repeat (rewrite here; cbn [obind]); rewrite ?land1, ?land3, ?Z.shiftr_div_pow2 by lia; change (2 ^ 3) with 8; change (2 ^ 1) with 2;
        rewrite ?B3, ?B1, ?B0; change (2 * 2 ^ (1 + 2)) with 16; (apply some_pair; destruct (s =? 0); lia) ]).
Qed.

Lemma magnitude_wrong : forall int hp a, 0 <= a -> read_magnitude int hp a <> a /\ 1 <= read_magnitude int hp a <= 32.
Proof.
  intros int hp a A. unfold read_magnitude. destruct (a mod 65536 <? 256) eqn:E, int, hp; lia.
Qed.
Lemma never_magnitude : forall int hp ctx v comp es, - 2 ^ 63 < v < 2 ^ 63 ->
  exists ds, mv_component int hp ctx v comp es = Ok (es ++ ds) /\ never_reads_as ds (av1_component ctx comp int hp) v /\
    forall s, never_reads_as (ESym "mv_sign" [ctx; comp] s :: ds) (av1_component ctx comp int hp) v.
Proof.
  intros int hp ctx v comp es H. destruct (component_read_as int hp ctx v comp es H) as (c & ds & E & R). eexists. split; [exact E|]. split.
  - intros k. unfold av1_component. cbn. discriminate.
  - intros s k X. rewrite R in X. injection X as X. destruct (magnitude_wrong int hp (Z.abs v) ltac:(lia)) as (W & B). destruct (s =? 0); lia.
Qed.
Lemma component_panics : forall int hp ctx v comp es, - 2 ^ 63 <= v < 2 ^ 63 -> (mv_component int hp ctx v comp es = Panic <-> v = - 2 ^ 63).
Proof.
  intros int hp ctx v comp es H. split; [|intros ->; reflexivity]. intros P. destruct (Z.eq_dec v (- 2 ^ 63)) as [E|N]; [exact E|].
  destruct (component_read_as int hp ctx v comp es ltac:(lia)) as (c & ds & E & _). rewrite P in E. discriminate E.
Qed.
