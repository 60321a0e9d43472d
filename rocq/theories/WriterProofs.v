(** The bit writer hands on exactly the stream. *)
From Coq Require Import ZArith List Bool Lia ZifyBool ZifyNat.
From Verif Require Import Base BaseProofs BitsSpec BitsProofs WriterModel WriterSpec.
Import ListNotations.
Open Scope Z_scope.
Ltac Zify.zify_post_hook ::= Z.div_mod_to_equations.

(** [w] has taken the bits [s]. *)
Definition holds (w : writer) (s : list Z) : Prop :=
  exists held, unpack (w_bytes w) ++ held = s /\ is_bits held /\ w_index w = Z.of_nat (length held) /\
    (length held < 8)%nat /\ w_buf w = bits_val held /\ Forall is_byte (w_bytes w).

Lemma unpack_app : forall a b, unpack (a ++ b) = unpack a ++ unpack b.
Proof. intros. unfold unpack. apply flat_map_app. Qed.

Lemma unpack_length : forall a, length (unpack a) = (8 * length a)%nat.
Proof. induction a; [reflexivity|]. cbn [unpack flat_map]. rewrite app_length, to_bits_length. fold (unpack a0). rewrite IHa. cbn [length]. lia. Qed.

Lemma write_bit_ok : forall w s b, holds w s -> is_bit b -> exists w', write_bit w b = Ok w' /\ holds w' (s ++ [b]).
Proof.
  intros w s b (h & Hs & Hb & Hi & Hl & Hv & HB) Hbit. unfold write_bit.
  pose proof (bits_val_bound h Hb) as Hr. assert (Hp : 2 ^ Z.of_nat (length h) <= 128) by (change 128 with (2 ^ 7); apply pow2_le; lia).
  assert (0 <= b <= 1) by (destruct Hbit; lia).
  rewrite shiftl_mul by lia. change (2 ^ 1) with 2. rewrite as_u8_id by lia. rewrite chk_u8_ok by lia. cbn [bind].
  rewrite chk_u64_ok by lia. cbn [bind].
  assert (HbA : is_bits (h ++ [b])) by (apply is_bits_app; split; [assumption|constructor; [assumption|constructor]]).
  assert (Hval : bits_val (h ++ [b]) = w_buf w * 2 + b) by (rewrite bits_val_snoc; lia).
  destruct (w_index w + 1 =? 8) eqn:E; eexists; (split; [reflexivity|]).
  - assert (HL : length (h ++ [b]) = 8%nat) by (rewrite app_length; cbn [length]; lia).
    exists []. cbn [w_bytes w_index w_buf length]. rewrite unpack_app, app_nil_r. cbn [unpack flat_map]. rewrite app_nil_r.
    rewrite <- Hval. rewrite <- HL. rewrite to_bits_val by assumption. rewrite <- Hs, <- app_assoc.
    split; [reflexivity|]. split; [constructor|]. split; [reflexivity|]. split; [lia|]. split; [reflexivity|].
    apply Forall_app. split; [assumption|]. constructor; [|constructor]. unfold is_byte. lia.
  - exists (h ++ [b]). cbn [w_bytes w_index w_buf]. rewrite app_length. cbn [length]. rewrite <- Hs, <- app_assoc.
    split; [reflexivity|]. split; [assumption|]. split; [lia|]. split; [lia|]. split; [lia|assumption].
Qed.

Lemma write_bits_ok : forall l w s, holds w s -> is_bits l -> exists w', write_bits w l = Ok w' /\ holds w' (s ++ l).
Proof.
  induction l as [|b l IH]; intros w s Hw Hl.
  - exists w. rewrite app_nil_r. split; [reflexivity|assumption].
  - apply is_bits_cons in Hl. destruct Hl as [Hb Hl]. destruct (write_bit_ok w s b Hw Hb) as (w1 & E & H1).
    destruct (IH w1 (s ++ [b]) H1 Hl) as (w2 & E2 & H2). exists w2. cbn [write_bits]. rewrite E. cbn [bind].
    rewrite <- app_assoc in H2. split; assumption.
Qed.

Lemma pad8_eq : forall n, pad8 n = Z.to_nat ((8 - Z.of_nat n mod 8) mod 8).
Proof.
  intro n. unfold pad8. pose proof (Nat.mod_upper_bound n 8 ltac:(lia)) as H.
  assert (E : Z.of_nat n mod 8 = Z.of_nat (n mod 8)) by (rewrite Nat2Z.inj_mod; reflexivity). rewrite E.
  destruct (n mod 8)%nat as [|k] eqn:X; [reflexivity|]. 
  rewrite Z.mod_small by lia. lia.
Qed.

Lemma holds_length : forall w s, holds w s -> Z.of_nat (length s) mod 8 = w_index w /\ 0 <= w_index w < 8.
Proof.
  intros w s (h & Hs & _ & Hi & Hl & _ & _). rewrite <- Hs, app_length, unpack_length. lia.
Qed.

Lemma byte_align_ok : forall w s, holds w s -> exists w', byte_align w = Ok w' /\
  holds w' (s ++ repeat 0 (pad8 (length s))) /\ w_index w' = 0.
Proof.
  intros w s Hw. destruct (holds_length w s Hw) as [Hm Hr]. unfold byte_align.
  assert (E : (if 0 <? w_index w then chk_u64 (8 - w_index w) else Ok 0) = Ok ((8 - Z.of_nat (length s) mod 8) mod 8)).
  { destruct (0 <? w_index w) eqn:X; [rewrite chk_u64_ok by lia|]; f_equal; lia. }
  rewrite E. cbn [bind]. rewrite <- pad8_eq.
  destruct (write_bits_ok (repeat 0 (pad8 (length s))) w s Hw) as (w' & E2 & H2); [apply is_bits_repeat; left; reflexivity|].
  exists w'. split; [assumption|]. split; [assumption|]. destruct (holds_length w' _ H2) as [Hm2 _]. rewrite <- Hm2.
  rewrite app_length, repeat_length, pad8_eq. lia.
Qed.

Lemma new_writer_holds : holds new_writer [].
Proof. exists []. repeat split; try constructor. cbn [length]. lia. Qed.

Lemma write_calls_ok : forall l w s, holds w s -> Forall call_ok l ->
  exists w', write_calls w l = Ok w' /\ holds w' (stream s l).
Proof.
  induction l as [|c l IH]; intros w s Hw Hl.
  - exists w. split; [reflexivity|assumption].
  - inversion Hl as [|? ? Hc Hl']; subst. cbn [write_calls stream fold_left].
    assert (S : exists w1, write_call w c = Ok w1 /\ holds w1 (stream_step s c)).
    { destruct c; cbn [write_call stream_step call_ok] in *.
      - apply write_bit_ok; assumption.
      - apply write_bits_ok; assumption.
      - destruct (byte_align_ok w s Hw) as (w1 & E & H1 & _). exists w1. split; assumption. }
    destruct S as (w1 & E & H1). rewrite E. cbn [bind]. apply IH; assumption.
Qed.

Lemma writer_correct : forall l, Forall call_ok l -> exists w held,
  write_calls new_writer l = Ok w /\ unpack (w_bytes w) ++ held = stream [] l /\ (length held <= 7)%nat /\
  Forall is_byte (w_bytes w) /\ w_index w = Z.of_nat (length held) /\ w_buf w = bits_val held.
Proof.
  intros l H. destruct (write_calls_ok l new_writer [] new_writer_holds H) as (w & E & (h & Hs & _ & Hi & Hl & Hv & HB)).
  exists w, h. repeat split; try assumption. lia.
Qed.

Lemma writer_flushed : forall l, Forall call_ok l -> exists w,
  write_calls new_writer (l ++ [WAlign]) = Ok w /\ unpack (w_bytes w) = stream [] (l ++ [WAlign]).
Proof.
  intros l H. destruct (write_calls_ok l new_writer [] new_writer_holds H) as (w & E & Hw).
  destruct (byte_align_ok w _ Hw) as (w2 & E2 & (h & Hs & _ & Hi & _ & _ & _) & Hz). exists w2.
  assert (A : forall l1 l2 w0, write_calls w0 (l1 ++ l2) = (w1 <- write_calls w0 l1 ;; write_calls w1 l2)).
  { induction l1; intros; [reflexivity|]. cbn [app write_calls]. destruct (write_call w0 a); cbn [bind]; [apply IHl1|reflexivity|reflexivity]. }
  rewrite A, E. cbn [bind write_calls write_call]. rewrite E2. split; [reflexivity|].
  unfold stream. rewrite fold_left_app. cbn [fold_left stream_step]. fold (stream [] l). rewrite <- Hs.
  destruct h; [rewrite app_nil_r; reflexivity|cbn [length] in Hi; lia].
Qed.
