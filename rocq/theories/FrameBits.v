(** Lemmas for the frame header: writing and reading back fields of any value. *)
From Coq Require Import ZArith List Bool Lia ZifyBool ZifyNat.
From Verif Require Import Base BaseProofs TableLemmas UtilModel UtilSpec UtilProofs BitsSpec BitsProofs RangeCoderModel BitCodecModel BitCodecProofs
  SessionModel SeqModel SeqSpec SeqProofs TileModel TileSpec TileProofs FrameParamModel FrameSpec.
Import ListNotations.
Open Scope Z_scope.
Ltac Zify.zify_post_hook ::= Z.div_mod_to_equations.

(** ** Fields *)
Lemma rd_any n v k : rd n (to_bits n v ++ k) = Some (v mod 2 ^ Z.of_nat n, k).
Proof. rewrite rd_len by apply to_bits_length. rewrite bits_val_to_bits. reflexivity. Qed.

Lemma to_bits_mod_ge n m v : (n <= m)%nat -> to_bits n (v mod 2 ^ Z.of_nat m) = to_bits n v.
Proof.
  intros L. rewrite <- (to_bits_mod n (v mod 2 ^ Z.of_nat m)), <- (to_bits_mod n v). f_equal.
  replace m with (n + (m - n))%nat by lia. rewrite pow2_add. pose proof (pow2_nat_pos n). pose proof (pow2_nat_pos (m - n)).
  rewrite Z.rem_mul_r by lia. rewrite Z.mul_comm, Z.mod_add by lia. apply Z.mod_mod. lia.
Qed.

(** What su(n) makes of a value: its sign and its n-1 low bits. *)
Definition su_wrap (n : nat) (v : Z) : Z := v mod 2 ^ Z.of_nat (n - 1) - (if v <? 0 then 2 ^ Z.of_nat (n - 1) else 0).
Definition su_bits (n : nat) (v : Z) : list Z := b2z (v <? 0) :: to_bits (n - 1) v.

Lemma encode_su_any out v (n : Z) : 1 <= n <= 62 -> - 2 ^ 63 <= v < 2 ^ 63 ->
  encode_su out v n = Ok (out ++ su_bits (Z.to_nat n) v).
Proof.
  intros Hn Hv. unfold encode_su, su_bits. rewrite chk_u8_ok by lia. cbn [bind].
  assert (Hp : 1 <= 2 ^ (n - 1) <= 2 ^ 61). { split; [pose proof (pow2_pos (n - 1)); lia|apply pow2_le; lia]. }
  change (2 ^ 61) with 2305843009213693952 in Hp. change (2 ^ 63) with 9223372036854775808 in Hv.
  replace (Z.to_nat n - 1)%nat with (Z.to_nat (n - 1)) by lia.
  destruct (v <? 0) eqn:E; cbn [b2z].
  - rewrite shift_ok_ok by lia. cbn [bind]. rewrite shiftl_mul, Z.mul_1_l by lia.
    rewrite as_i64_id by lia. rewrite chk_i64_ok by lia. cbn [bind]. rewrite chk_i64_ok by lia. cbn [bind].
    rewrite push_range_0 by lia. unfold push. rewrite <- app_assoc. cbn [app]. do 3 f_equal.
    unfold as_u64. change (2 ^ 64) with (2 ^ Z.of_nat 64). rewrite to_bits_mod_ge by lia.
    rewrite <- (to_bits_mod _ (v + _)), <- (to_bits_mod _ v). f_equal. rewrite Z2Nat.id by lia. apply Z.mod_add. lia.
  - rewrite push_range_0 by lia. unfold push. rewrite <- app_assoc. reflexivity.
Qed.
Lemma su_bits_bits n v : is_bits (su_bits n v).
Proof. unfold su_bits. constructor; [destruct (v <? 0); cbn; unfold is_bit; lia|apply to_bits_bits]. Qed.
Lemma su_bits_length n v : (1 <= n)%nat -> length (su_bits n v) = n.
Proof. intros. unfold su_bits. cbn [length]. rewrite to_bits_length. lia. Qed.

Lemma rd_su_any n v k : (1 <= n)%nat -> rd_su n (su_bits n v ++ k) = Some (su_wrap n v, k).
Proof.
  intros L. unfold rd_su. rewrite rd_len by (apply su_bits_length; exact L). cbn [obind]. unfold su_bits, su_wrap.
  rewrite bits_val_cons, to_bits_length, bits_val_to_bits.
  replace (Z.of_nat n - 1) with (Z.of_nat (n - 1)) by lia. replace (2 ^ Z.of_nat n) with (2 * 2 ^ Z.of_nat (n - 1)) by (rewrite <- pow2_S; do 2 f_equal; lia).
  pose proof (pow2_nat_pos (n - 1)). set (p := 2 ^ Z.of_nat (n - 1)) in *. pose proof (Z.mod_pos_bound v p ltac:(lia)).
  do 2 f_equal. destruct (v <? 0); cbn [b2z]; match goal with |- context [?a <=? ?b] => destruct (Z.leb_spec a b) end; lia.
Qed.
Lemma su_wrap_iff n v : (1 <= n)%nat -> (su_wrap n v = v <-> - 2 ^ Z.of_nat (n - 1) <= v < 2 ^ Z.of_nat (n - 1)).
Proof.
  intros L. unfold su_wrap. pose proof (pow2_nat_pos (n - 1)). set (p := 2 ^ Z.of_nat (n - 1)) in *.
  pose proof (Z.mod_pos_bound v p ltac:(lia)). destruct (v <? 0) eqn:E.
  - split; [lia|]. intros R. replace v with ((v + p) + (-1) * p) at 1 by lia. rewrite Z.mod_add by lia. rewrite Z.mod_small by lia. lia.
  - split; [lia|]. intros R. rewrite Z.mod_small by lia. lia.
Qed.

Lemma is_bits_b2z b : is_bits [b2z b].
Proof. constructor; [destruct b; cbn; unfold is_bit; lia|constructor]. Qed.
Lemma is_bits_nil : is_bits [].
Proof. constructor. Qed.

(** Writing and reading step by step. *)
Ltac bits := repeat first [apply is_bits_nil | apply is_bits_b2z | apply to_bits_bits | apply su_bits_bits | assumption
  | apply is_bits_app; split | (apply is_bits_cons; split; [destruct_bit|])]
with destruct_bit := match goal with |- is_bit (b2z ?b) => destruct b; cbn; unfold is_bit; lia | |- is_bit _ => unfold is_bit; lia end.

(** ** A relation: a writer appends [code] and returns [a]; a reader takes exactly
    [code] and returns [v]. *)
Definition wrote {A B : Type} (w : list Z -> res (list Z * A)) (r : list Z -> option (B * list Z)) (a : A) (v : B) : Prop :=
  exists code, is_bits code /\ (forall out, w out = Ok (out ++ code, a)) /\ forall k, r (code ++ k) = Some (v, k).
Definition wrote_ {B : Type} (w : list Z -> res (list Z)) (r : list Z -> option (B * list Z)) (v : B) : Prop :=
  exists code, is_bits code /\ (forall out, w out = Ok (out ++ code)) /\ forall k, r (code ++ k) = Some (v, k).

Lemma wrote_decodes A B (w : list Z -> res (list Z * A)) (r : list Z -> option (B * list Z)) a v :
  wrote w r a v -> exists code, w [] = Ok (code, a) /\ decodes code r v.
Proof. intros (code & Hb & Hw & Hr). exists code. split; [apply (Hw [])|]. split; assumption. Qed.

(** The readings of one string: at most one. *)
Lemma decodes_unique A bits (r : list Z -> option (A * list Z)) v v' : decodes bits r v -> decodes bits r v' -> v = v'.
Proof. intros [_ H] [_ H']. specialize (H []). rewrite H' in H. congruence. Qed.
Lemma wrote_decodes_iff A B (w : list Z -> res (list Z * A)) (r : list Z -> option (B * list Z)) a v v' code : wrote w r a v ->
  w [] = Ok (code, a) -> (decodes code r v' <-> v' = v).
Proof.
  intros W E. destruct (wrote_decodes _ _ _ _ _ _ W) as (code' & E' & D). rewrite E in E'. injection E' as <-.
  split; [intros D'; apply (decodes_unique _ _ _ _ _ D' D)|intros ->; exact D].
Qed.

Lemma wrote_push (n : Z) v : 0 <= n <= 32 -> wrote_ (fun out => push_bits_with_size out v n) (rd (Z.to_nat n)) (v mod 2 ^ n).
Proof.
  intros L. exists (to_bits (Z.to_nat n) v). split; [bits|]. split; [intros; apply push_bits_with_size_ok; exact L|].
  intros k. rewrite rd_any. rewrite Z2Nat.id by lia. reflexivity.
Qed.

(** Reading consumes bits. *)
Definition sized {A : Type} (r : list Z -> option (A * list Z)) (size : A -> nat) : Prop :=
  forall q v k, r q = Some (v, k) -> length q = (size v + length k)%nat.
Lemma sized_never A (r : list Z -> option (A * list Z)) size bits v : sized r size -> size v <> length bits -> never_decodes bits r v.
Proof. intros S N k H. apply S in H. rewrite app_length in H. lia. Qed.
Lemma rd1_length q (b : bool) k : rd1 q = Some (b, k) -> length q = S (length k).
Proof. destruct q; cbn; [discriminate|]. intros H. injection H as _ <-. reflexivity. Qed.
Lemma rd_su_length n q v k : rd_su n q = Some (v, k) -> length q = (n + length k)%nat.
Proof. unfold rd_su. intros H. apply obind_inv in H. destruct H as ((x & r) & E & H). injection H as _ <-. apply rd_length in E. exact E. Qed.
(** Take a sequence of reads apart; the lengths are added to the context. *)
Ltac ob H := let a := fresh "v" in let E := fresh "E" in
  apply obind_inv in H; destruct H as (a & E & H); repeat match type of a with (_ * _)%type => destruct a as [a ?] end;
  cbv beta iota in H.
