(** Final lemmas for the header codecs (C13-C23). *)
From Coq Require Import ZArith List Bool Lia ZifyBool ZifyNat.
From Verif Require Import Base BaseProofs UtilModel UtilSpec UtilProofs BitsSpec BitsProofs
  RangeCoderModel RangeEncProofs BitCodecModel BitCodecSpec BitCodecProofs LebProofs FieldModel.
Import ListNotations.
Open Scope Z_scope.
Ltac Zify.zify_post_hook ::= Z.div_mod_to_equations.

Lemma uvlc_round_trip : forall v out k, 0 <= v < 2 ^ 32 - 1 -> is_floor_log2 (v + 1) k ->
  exists D, encode_uvlc out v = Ok (out ++ D) /\ Z.of_nat (length D) = 2 * k + 1 /\
    forall tail, decode_uvlc (D ++ tail) = Ok (v, tail).
Proof.
  intros v out k Hv Hk. exists (uvlc_code v). split; [apply encode_uvlc_ok; assumption|]. split.
  - rewrite uvlc_code_length by lia. rewrite (floor_log2_unique _ _ Hk). reflexivity.
  - intro. apply decode_uvlc_ok. assumption.
Qed.

Lemma uvlc_max : forall out, encode_uvlc out (2 ^ 32 - 1) = Panic.
Proof. reflexivity. Qed.

Lemma decode_uvlc_hang : forall q, is_bits q -> Z.of_nat (length q) < 2 ^ 31 ->
  (decode_uvlc q = Hang <-> ~ In 1 q).
Proof.
  intros q Hq HL. split.
  - intros H Hin. apply in_split in Hin. destruct Hin as (a & b & ->).
    assert (Z : forall a lz, is_bits a -> exists n r, uvlc_zeros (a ++ 1 :: b) lz = Ok (n, r) \/ uvlc_zeros (a ++ 1 :: b) lz = Panic).
    { clear. induction a as [|x a IH]; intros lz Ha; cbn [app uvlc_zeros].
      - change (0 <? 1) with true. cbn iota. exists lz, b. left; reflexivity.
      - apply is_bits_cons in Ha. destruct Ha as [_ Ha]. destruct (0 <? x); [exists lz, (a ++ 1 :: b); left; reflexivity|].
        destruct (chk_i32 (lz + 1)) as [z| |] eqn:E.
        + apply IH. assumption.
        + exists 0, []. right; reflexivity.
        + unfold chk_i32, chk in E. destruct (_ && _); discriminate. }
    apply is_bits_app in Hq. destruct Hq as [Ha _].
    destruct (Z a 0 Ha) as (n & r & [E|E]); unfold decode_uvlc in H; rewrite E in H; cbn [bind] in H; [|discriminate].
    destruct (32 <=? n); [discriminate|].
    assert (R : forall k acc q, read_u64 k acc q <> Hang).
    { clear. induction k; intros acc q; [discriminate|]. cbn [read_u64]. destruct q; [discriminate|]. cbn [pop bind].
      unfold chk_u64 at 1, chk. destruct (_ && _); [apply IHk|discriminate]. }
    destruct (read_u64 (Z.to_nat n) 0 r) as [[w r2]| |] eqn:E2; cbn [bind] in H; [|discriminate|exact (R _ _ _ E2)].
    unfold chk_u64, chk in H.
    repeat (match type of H with context [if ?b then _ else _] => destruct b end; cbn [bind] in H; try discriminate).
  - intros H. assert (E : q = repeat 0 (length q)).
    { clear HL. induction q as [|x q IH]; [reflexivity|]. apply is_bits_cons in Hq. destruct Hq as [Hx Hq].
      cbn [length repeat]. f_equal; [destruct Hx as [-> | ->]; [reflexivity|exfalso; apply H; left; reflexivity]|].
      apply IH; [assumption|]. intro. apply H. right. assumption. }
    rewrite E. unfold decode_uvlc. rewrite uvlc_hang by lia. reflexivity.
Qed.

Lemma leb_round_trip : forall v out nb s, 0 <= v < 2 ^ 56 -> is_leb_size v s -> 0 <= nb -> nb + s < 2 ^ 64 ->
  1 <= s <= 8 /\
  exists D, encode_leb128 out v = Ok (out ++ D) /\ Z.of_nat (length D) = 8 * s /\
    forall tail, decode_leb128 nb (D ++ tail) = Ok (v, nb + s, tail).
Proof.
  intros v out nb s Hv Hs Hnb Hb. change (2 ^ 56) with (128 ^ Z.of_nat 8) in Hv.
  destruct (leb_code_size 8 v ltac:(lia) Hv) as (s' & Hs' & Hle & HL).
  assert (s = s') by (apply (is_leb_size_unique v); try assumption; lia). subst s'.
  split; [destruct Hs; lia|]. exists (leb_code 8 v).
  split; [apply encode_leb128_ok; assumption|]. split; [assumption|]. intro. apply decode_leb128_ok; assumption.
Qed.

Lemma leb_shortest : forall v s q nb nb' q', is_bits q -> is_leb_size v s -> 0 <= nb < 2 ^ 64 - 8 ->
  decode_leb128 nb q = Ok (v, nb', q') -> 8 * s + Z.of_nat (length q') <= Z.of_nat (length q).
Proof.
  intros v s q nb nb' q' Hq (H1 & H2 & H3) Hnb H. change (2 ^ 64) with 18446744073709551616 in Hnb.
  assert (G : forall k i v0 nb0 q v1 nb1 q1, is_bits q -> 0 <= i -> i + Z.of_nat k <= 8 -> 0 <= nb0 -> nb0 + Z.of_nat k < 2 ^ 64 ->
      0 <= v0 < 128 ^ i -> decode_leb128_loop k i v0 nb0 q = Ok (v1, nb1, q1) ->
      exists j, (k = 0%nat \/ 1 <= j) /\ 0 <= j <= Z.of_nat k /\ v1 < 128 ^ (i + j) /\ (8 * j + Z.of_nat (length q1) = Z.of_nat (length q))).
  { clear. induction k; intros i v0 nb0 q v1 nb1 q1 Hq Hi Hik Hnb Hnb2 Hv H.
      - cbn [decode_leb128_loop] in H. inversion H; subst. exists 0. rewrite Z.add_0_r. lia.
      - assert (H' := H). cbn [decode_leb128_loop] in H'. apply bind_inv in H'. destruct H' as ([l r] & E & _).
        destruct (read_u64_split _ _ _ _ _ E) as (B & HL & ->). clear E l.
        apply is_bits_app in Hq. destruct Hq as [HB Hr].
        rewrite decode_leb_step in H by (try assumption; lia). cbv zeta in H. rewrite app_length, HL.
        assert (P : 128 ^ (i + 1) = 128 * 128 ^ i) by (rewrite Z.pow_add_r by lia; lia).
        assert (0 < 128 ^ i) by (apply Z.pow_pos_nonneg; lia).
        assert (M : 0 <= bits_val B mod 128 <= 127) by lia.
        assert (V : 0 <= v0 + bits_val B mod 128 * 128 ^ i < 128 ^ (i + 1)) by (rewrite P; nia).
        destruct (bits_val B <? 128).
        + inversion H; subst. exists 1. lia.
        + apply IHk in H; [|assumption|lia|lia|lia|lia|assumption].
          destruct H as (j & _ & Hj & Hv1 & HL1). exists (j + 1). replace (i + (j + 1)) with (i + 1 + j) by lia. lia. }
  unfold decode_leb128 in H.
  destruct (G 8%nat 0 0 nb q v nb' q' Hq ltac:(lia) ltac:(lia) ltac:(lia) ltac:(change (2 ^ 64) with 18446744073709551616; lia) ltac:(cbn; lia) H) as (j & Hj1 & Hj & Hvj & HLj).
  rewrite Z.add_0_l in Hvj.
  assert (~ j <= s - 1); [|lia]. intro. destruct H3 as [-> | H3]; [lia|].
  assert (128 ^ j <= 128 ^ (s - 1)) by (apply Z.pow_le_mono_r; lia). lia.
Qed.

Lemma le_round_trip : forall v n out, 0 <= n <= 8 -> 0 <= v < 256 ^ n ->
  exists D, encode_le out v n = Ok (out ++ D) /\ Z.of_nat (length D) = 8 * n /\ le_val (Z.to_nat n) D = v /\
    forall tail, decode_le (D ++ tail) n = Ok (v, tail).
Proof.
  intros v n out Hn Hv. exists (le_code (Z.to_nat n) v). split; [apply encode_le_ok; lia|].
  split; [rewrite le_code_length; lia|]. split; [apply le_code_val; rewrite Z2Nat.id by lia; assumption|].
  intro. apply decode_le_ok; assumption.
Qed.

Lemma su_round_trip : forall v n out, 1 <= n <= 62 -> - 2 ^ (n - 1) <= v < 2 ^ (n - 1) ->
  exists D, encode_su out v n = Ok (out ++ D) /\ Z.of_nat (length D) = n /\ twos_val D = v /\
    forall tail, decode_su (D ++ tail) n = Ok (v, tail).
Proof.
  intros v n out Hn Hv. exists (su_code (Z.to_nat n) v). split; [apply encode_su_ok; assumption|].
  split; [unfold su_code; rewrite to_bits_length; lia|]. split; [apply su_code_val; [lia|assumption]|].
  intro. apply decode_su_ok; assumption.
Qed.

Lemma su_range : forall q n v q', is_bits q -> 1 <= n <= 62 -> decode_su q n = Ok (v, q') ->
  - 2 ^ (n - 1) <= v < 2 ^ (n - 1).
Proof. intros q n v q' Hq Hn H. apply (decode_su_canonical q n v q' Hq Hn H). Qed.

Lemma ns_round_trip : forall v n out k, 1 <= n < 2 ^ 63 -> 0 <= v < n -> is_floor_log2 n k ->
  exists D, encode_ns out v n = Ok (out ++ D) /\
    Z.of_nat (length D) = (if v <? 2 ^ (k + 1) - n then k else k + 1) /\
    forall tail, decode_ns (D ++ tail) n = Ok (v, tail).
Proof.
  intros v n out k Hn Hv Hk. apply floor_log2_unique in Hk. subst k. exists (ns_code n v).
  split; [apply encode_ns_ok; assumption|]. split; [apply ns_code_length; assumption|].
  intro. apply decode_ns_ok; assumption.
Qed.

Lemma ns_prefix_free : forall n a b A B x, 1 <= n < 2 ^ 63 -> 0 <= a < n -> 0 <= b < n ->
  encode_ns [] a n = Ok A -> encode_ns [] b n = Ok B -> B = A ++ x -> a = b /\ x = [].
Proof.
  intros n a b A B x Hn Ha Hb HA HB E. rewrite encode_ns_ok in HA, HB by assumption. cbn [app] in *.
  injection HA as HA. injection HB as HB. rewrite <- HA, <- HB in E. clear HA HB A B.
  pose proof (decode_ns_ok a n x Hn Ha) as D1. pose proof (decode_ns_ok b n [] Hn Hb) as D2.
  rewrite app_nil_r, E, D1 in D2. inversion D2; subst. split; reflexivity.
Qed.

Lemma write_field_ok : forall f out, field_ok f -> exists D, write_field out f = Ok (out ++ D) /\
  forall nb tail, 0 <= nb < 2 ^ 64 - 8 -> exists nb', nb <= nb' <= nb + 8 /\
    read_field nb (D ++ tail) (syntax_of f) = Ok (f, nb', tail).
Proof.
  intros [v n|v|v n|v|v n|v n] out H; cbn [write_field field_ok syntax_of] in *.
  - destruct H as [Hn Hv]. exists (to_bits (Z.to_nat n) v). split; [apply push_bits_with_size_ok; assumption|].
    intros nb tail Hnb. exists nb. split; [lia|]. cbn [read_field]. unfold read_f. rewrite app_length, to_bits_length.
    destruct (_ <? _)%nat eqn:E; [lia|]. rewrite firstn_app, skipn_app, to_bits_length, Nat.sub_diag, firstn_O, app_nil_r, skipn_O.
    rewrite firstn_all2, skipn_all2 by (rewrite to_bits_length; lia). cbn [app bind].
    rewrite bits_val_to_bits_small; [reflexivity|]. rewrite Z2Nat.id by lia. assumption.
  - destruct (uvlc_round_trip v out (Z.log2 (v + 1)) H (log2_is_floor (v + 1) ltac:(lia))) as (D & E & _ & R).
    exists D. split; [assumption|]. intros nb tail Hnb. exists nb. split; [lia|]. cbn [read_field]. rewrite R. reflexivity.
  - destruct H as [Hn Hv]. destruct (le_round_trip v n out Hn Hv) as (D & E & _ & _ & R). exists D. split; [assumption|].
    intros nb tail Hnb. exists nb. split; [lia|]. cbn [read_field]. rewrite R. reflexivity.
  - exists (leb_code 8 v). split; [apply encode_leb128_ok; assumption|]. intros nb tail Hnb.
    destruct (leb_code_size 8 v ltac:(lia) ltac:(change (128 ^ Z.of_nat 8) with (2 ^ 56); lia)) as (s & Hs & Hle & _).
    assert (1 <= s) by (destruct Hs; assumption). exists (nb + s). split; [lia|]. cbn [read_field].
    rewrite (decode_leb128_ok nb v s tail H Hs) by lia. reflexivity.
  - destruct H as [Hn Hv]. destruct (su_round_trip v n out Hn Hv) as (D & E & _ & _ & R). exists D. split; [assumption|].
    intros nb tail Hnb. exists nb. split; [lia|]. cbn [read_field]. rewrite R. reflexivity.
  - destruct H as [Hn Hv]. destruct (ns_round_trip v n out _ Hn Hv (log2_is_floor n ltac:(lia))) as (D & E & _ & R). exists D. split; [assumption|].
    intros nb tail Hnb. exists nb. split; [lia|]. cbn [read_field]. rewrite R. reflexivity.
Qed.

Lemma fields_round_trip : forall l out, Forall field_ok l -> exists D, write_fields out l = Ok (out ++ D) /\
  forall nb tail, 0 <= nb -> nb + 8 * Z.of_nat (length l) < 2 ^ 64 -> exists nb',
    read_fields nb (D ++ tail) (map syntax_of l) = Ok (l, nb', tail).
Proof.
  intros l out H. revert out. induction H as [|f l Hf Hl IH]; intro out.
  - exists []. split; [cbn; rewrite app_nil_r; reflexivity|]. intros nb tail _ _. exists nb. reflexivity.
  - destruct (write_field_ok f out Hf) as (D1 & E1 & R1). destruct (IH (out ++ D1)) as (D2 & E2 & R2).
    exists (D1 ++ D2). cbn [write_fields]. rewrite E1. cbn [bind]. rewrite E2, <- app_assoc. split; [reflexivity|].
    intros nb tail H0 Hb. cbn [length] in Hb. destruct (R1 nb (D2 ++ tail) ltac:(lia)) as (nb1 & Hnb1 & F1).
    destruct (R2 nb1 tail ltac:(lia) ltac:(lia)) as (nb2 & F2). exists nb2.
    cbn [map read_fields]. rewrite <- app_assoc, F1. cbn [bind]. rewrite F2. reflexivity.
Qed.

Lemma uvlc_canonical : forall q v q', is_bits q -> decode_uvlc q = Ok (v, q') -> v <> 2 ^ 32 - 1 ->
  exists D, q = D ++ q' /\ encode_uvlc [] v = Ok D.
Proof.
  intros q v q' Hq H Hv. destruct (decode_uvlc_canonical q v q' Hq H Hv) as [Hr ->]. exists (uvlc_code v).
  split; [reflexivity|]. rewrite encode_uvlc_ok by assumption. reflexivity.
Qed.

Lemma uvlc_escape : forall k q, (32 <= k)%nat -> Z.of_nat k < 2 ^ 31 -> decode_uvlc (repeat 0 k ++ 1 :: q) = Ok (2 ^ 32 - 1, q).
Proof.
  intros k q H H2. unfold decode_uvlc. rewrite uvlc_zeros_ok by lia. cbn [bind].
  destruct (32 <=? 0 + Z.of_nat k) eqn:E; [reflexivity|lia].
Qed.

Lemma le_canonical : forall q n v q', is_bits q -> 0 <= n <= 8 -> decode_le q n = Ok (v, q') ->
  exists D, q = D ++ q' /\ encode_le [] v n = Ok D.
Proof.
  intros q n v q' Hq Hn H. destruct (decode_le_canonical q n v q' Hq Hn H) as [Hr ->]. exists (le_code (Z.to_nat n) v).
  split; [reflexivity|]. rewrite encode_le_ok by lia. reflexivity.
Qed.

Lemma su_canonical : forall q n v q', is_bits q -> 1 <= n <= 62 -> decode_su q n = Ok (v, q') ->
  exists D, q = D ++ q' /\ encode_su [] v n = Ok D.
Proof.
  intros q n v q' Hq Hn H. destruct (decode_su_canonical q n v q' Hq Hn H) as [Hr ->]. exists (su_code (Z.to_nat n) v).
  split; [reflexivity|]. rewrite encode_su_ok by assumption. reflexivity.
Qed.

Lemma ns_canonical : forall q n v q', is_bits q -> 1 <= n < 2 ^ 63 -> decode_ns q n = Ok (v, q') ->
  v < n /\ exists D, q = D ++ q' /\ encode_ns [] v n = Ok D.
Proof.
  intros q n v q' Hq Hn H. destruct (decode_ns_canonical q n v q' Hq Hn H) as [Hr ->]. split; [lia|]. exists (ns_code n v).
  split; [reflexivity|]. rewrite encode_ns_ok by assumption. reflexivity.
Qed.

(** ** byte padding of a bit buffer *)
Lemma push_bits_align_ok : forall out, exists k, push_bits_align out = out ++ repeat 0 k /\ (k < 8)%nat /\
  (Z.of_nat (length (push_bits_align out)) mod 8 = 0).
Proof.
  intros out. unfold push_bits_align, len. rewrite push_n_ok. exists (Z.to_nat ((8 - Z.of_nat (length out) mod 8) mod 8)).
  split; [reflexivity|]. split; [lia|]. rewrite app_length, repeat_length. lia.
Qed.

Lemma push_bits_ok : forall l out, push_bits out l = out ++ l.
Proof.
  unfold push_bits. induction l; intro out; cbn [fold_left]; [rewrite app_nil_r; reflexivity|].
  rewrite IHl. unfold push. rewrite <- app_assoc. reflexivity.
Qed.

(** ** rounding helpers *)
Lemma clip3_spec : forall lo hi z, lo <= hi -> lo <= Clip3 lo hi z <= hi /\
  forall y, lo <= y <= hi -> Z.abs (z - Clip3 lo hi z) <= Z.abs (z - y).
Proof. intros. unfold Clip3. destruct (z <? lo) eqn:A; [|destruct (hi <? z) eqn:B]; split; intros; lia. Qed.

Lemma round2signed_even : forall x n, Round2Signed (- x) n = Round2Signed x n.
Proof.
  intros. unfold Round2Signed. destruct (0 <=? x) eqn:A; destruct (0 <=? - x) eqn:B.
  - assert (x = 0) by lia. subst. reflexivity.
  - rewrite Z.opp_involutive. reflexivity.
  - reflexivity.
  - lia.
Qed.

Lemma round2signed_odd_iff : forall x n, 0 <= n ->
  (Round2Signed (- x) n = - Round2Signed x n <-> 2 * Z.abs x < 2 ^ n).
Proof.
  intros x n Hn. rewrite round2signed_even.
  assert (E : Round2Signed x n = Round2 (Z.abs x) n).
  { unfold Round2Signed. destruct (0 <=? x) eqn:A; f_equal; lia. }
  rewrite E. pose proof (Round2_rounded (Z.abs x) n Hn) as (H1 & H2).
  set (r := Round2 (Z.abs x) n) in *. pose proof (pow2_pos n Hn).
  split; intro H0.
  - assert (r = 0) by lia. rewrite H3 in *. lia.
  - assert (r = 0); [|lia]. nia.
Qed.
