(** Proofs for MvCallSpec. *)
From Coq Require Import String ZArith List Bool Lia ZifyBool ZifyNat.
From Verif Require Import BitsSpec Base BaseProofs TableLemmas SeqSpec RangeCoderModel CdfTables CdfTableSpec ContextModel ContextSpec ContextCallSpec ContextWriterProofs ContextRunProofs PropertiesContext
  ModeInfoModel ModeInfoSpec ModeInfoProofs BridgeSpec BridgeProofs MvCallSpec.
Import ListNotations.
Open Scope string_scope.
Open Scope list_scope.
Open Scope Z_scope.
Ltac Zify.zify_post_hook ::= Z.div_mod_to_equations.

Lemma legal_elements : forall ws, Forall legal ws -> Forall codable_element (map element_of ws) /\
  (forall c s out, run_writers c s out ws = write_elements c s out (map element_of ws)) /\ symbols_of (map element_of ws) = Z.of_nat (List.length ws).
Proof.
  intros ws H. induction H as [|w ws Hw _ (IH1 & IH2 & IH3)]; [split; [constructor|split; reflexivity]|].
  destruct (legal_sound w Hw) as ([[n p] v] & -> & R). cbn [map element_of List.length]. split; [|split].
  - constructor; assumption.
  - intros c s out. cbn [run_writers write_elements write_element]. destruct (run_writer c s out (Ok (n, p, v))) as [[[c1 s1] o1]| |]; cbn [bind]; [apply IH2|reflexivity|reflexivity].
  - change (symbols_of (ESym n p v :: map element_of ws)) with (1 + symbols_of (map element_of ws)). lia.
Qed.
Lemma legal_session : forall ws, Forall legal ws -> forall c s out, write_session c s out ws = element_session c s out (map element_of ws).
Proof. intros ws H c s out. unfold write_session, element_session. now rewrite (proj1 (proj2 (legal_elements ws H))). Qed.

(** Legal calls and a reader of their elements: on bits. *)
Lemma calls_read : forall (A : Type) (rd : list ev -> option (A * list ev)) ws v, bitwise rd -> Forall legal ws -> Z.of_nat (List.length ws) <= 2 ^ 26 ->
  reads_as (map element_of ws) rd v ->
  exists p, (forall q, rd q = on_elements p q) /\
  forall s c d out sz tail, state_ok s -> 0 <= bit_count c < 2 ^ 62 -> 0 <= sz < 2 ^ 28 -> is_bits tail ->
  exists c' s' D d' rest, write_session c s out ws = Ok (c', s', out ++ D) /\ is_bits D /\
    decode_bits p d s (D ++ tail) sz = Ok (v, d', s', rest ++ tail).
Proof.
  intros A rd ws v B L N R. destruct (bridge_reader A rd (map element_of ws) v B R) as (p & P & H). exists p. split; [exact P|].
  intros s c d out sz tail S Hc Hs Ht. rewrite (legal_session ws L). destruct (legal_elements ws L) as (C & _ & E).
  apply H; try assumption. rewrite E. exact N.
Qed.

(** ** Motion vectors *)
Lemma class_range : forall d, d <> 0 -> Z.abs d <= 2 ^ 14 ->
  0 <= component_class d <= 10 /\ (component_class d = 0 -> 0 <= Z.abs d - 1 < 16) /\
  (component_class d <> 0 -> 2 ^ (component_class d + 3) <= Z.abs d - 1 < 2 ^ (component_class d + 4)).
Proof.
  intros d N H. unfold component_class. destruct (Z.ltb_spec (Z.abs d - 1) 16) as [L|L]; [lia|].
  change (2 ^ 14) with 16384 in H. assert (A : Z.log2 16 <= Z.log2 (Z.abs d - 1)) by (apply Z.log2_le_mono; lia). change (Z.log2 16) with 4 in A.
  assert (B : Z.log2 (Z.abs d - 1) <= Z.log2 16383) by (apply Z.log2_le_mono; lia). change (Z.log2 16383) with 13 in B.
  split; [lia|]. split; [lia|]. intros _. destruct (Z.log2_spec (Z.abs d - 1) ltac:(lia)) as (X & Y).
  replace (Z.log2 (Z.abs d - 1) - 3 + 3) with (Z.log2 (Z.abs d - 1)) by lia. replace (Z.log2 (Z.abs d - 1) - 3 + 4) with (Z.succ (Z.log2 (Z.abs d - 1))) by lia. lia.
Qed.

Lemma component_legal : forall d ctx comp int hp, d <> 0 -> Z.abs d <= 2 ^ 14 -> bit ctx -> bit comp -> Forall legal (component_calls d ctx comp int hp).
Proof.
  intros d ctx comp int hp N H C P. destruct (class_range d N H) as (R & R0 & R1). unfold component_calls. cbv zeta. set (c := component_class d) in *. set (z := Z.abs d - 1) in *.
  assert (Z0 : 0 <= z) by (subst z; lia). clearbody c z.
  apply Forall_app. split; [constructor; [apply L_mv_sign; try assumption; unfold bit; destruct (d <? 0); lia|constructor; [apply L_mv_class; try assumption; lia|constructor]]|].
  assert (B : forall x, bit (x mod 2)) by (intros; unfold bit; lia).
  destruct (Z.eqb_spec c 0) as [E|E].
  - specialize (R0 E). assert (bit (z / 8)) by (unfold bit; lia). apply Forall_app. split; [constructor; [apply L_mv_class0_bit; assumption|constructor]|].
    apply Forall_app. split; [destruct int; constructor; [apply L_mv_class0_fr; try assumption; lia|constructor]|].
    destruct hp; constructor; [apply L_mv_class0_hp; auto|constructor].
  - apply Forall_app. split.
    + apply Forall_map. apply Forall_forall. intros i I. apply in_seq in I. apply L_mv_bit; auto. lia.
    + apply Forall_app. split; [destruct int; constructor; [apply L_mv_fr; try assumption; lia|constructor]|].
      destruct hp; constructor; [apply L_mv_hp; auto|constructor].
Qed.
Lemma mv_legal : forall d ctx int hp, Z.abs (fst d) <= 2 ^ 14 -> Z.abs (snd d) <= 2 ^ 14 -> bit ctx -> Forall legal (mv_calls d ctx int hp).
Proof.
  intros (a, b) ctx int hp A B C. cbn [fst snd] in *. unfold mv_calls. apply Forall_app. split.
  - constructor; [|constructor]. apply L_mv_joint; [destruct (a =? 0); destruct (b =? 0); lia|exact C].
  - apply Forall_app. split; [destruct (Z.eqb_spec a 0)|destruct (Z.eqb_spec b 0)]; first [apply Forall_nil|apply component_legal; try assumption; unfold bit; lia].
Qed.

Lemma here : forall name path s r, sym name path (ESym name path s :: r) = Some (s, r).
Proof. intros. cbn [sym]. rewrite String.eqb_refl. destruct (list_eq_dec Z.eq_dec path path) as [|X]; [reflexivity|destruct (X eq_refl)]. Qed.

Lemma bits_read : forall z ctx comp n i k, 0 <= z ->
  av1_bits ctx comp n (Z.of_nat i) (map element_of (map (fun i => encode_mv_bit (z / 2 ^ (3 + Z.of_nat i) mod 2) (Z.of_nat i) ctx comp) (seq i n)) ++ k) =
  Some (z / 2 ^ (3 + Z.of_nat i) mod 2 ^ Z.of_nat n, k).
Proof.
  intros z ctx comp n. induction n as [|n IH]; intros i k Hz; [cbn [seq map app av1_bits]; rewrite Z.mod_1_r; reflexivity|].
  cbn [seq map app av1_bits]. unfold encode_mv_bit at 1. cbn [element_of]. rewrite here. cbn [obind].
  replace (Z.of_nat i + 1) with (Z.of_nat (S i)) by lia. rewrite IH by assumption. cbn [obind]. f_equal. f_equal.
  replace (3 + Z.of_nat (S i)) with (3 + Z.of_nat i + 1) by lia. rewrite (Z.pow_add_r 2 (3 + Z.of_nat i) 1) by lia. change (2 ^ 1) with 2.
  rewrite <- Z.div_div by (try apply Z.pow_nonzero; lia). set (y := z / 2 ^ (3 + Z.of_nat i)).
  replace (Z.of_nat (S n)) with (1 + Z.of_nat n) by lia. rewrite Z.pow_add_r by lia. change (2 ^ 1) with 2.
  rewrite (Z.rem_mul_r y 2 (2 ^ Z.of_nat n)) by (try apply Z.pow_nonzero; lia). reflexivity.
Qed.

Lemma component_read : forall d ctx comp int hp k, d <> 0 -> expressible int hp d ->
  av1_component ctx comp int hp (map element_of (component_calls d ctx comp int hp) ++ k) = Some (d, k).
Proof.
  intros d ctx comp int hp k N (H & I & E & IH). destruct (class_range d N H) as (R & R0 & R1). unfold component_calls. cbv zeta.
  set (c := component_class d) in *. set (z := Z.abs d - 1) in *. assert (Zd : Z.abs d = z + 1) by (subst z; lia). clearbody c z.
  rewrite map_app, <- app_assoc. unfold av1_component. cbn [map app element_of encode_mv_sign encode_mv_class]. rewrite here. cbn [obind]. rewrite here. cbn [obind].
  set (sg := if d <? 0 then 1 else 0).
  assert (Fin : forall m, m = z + 1 -> (if sg =? 0 then m else - m) = d) by (intros m ->; subst sg; destruct (Z.ltb_spec d 0); cbn; lia). clearbody sg.
  assert (Hodd : hp = false -> z mod 2 = 1) by (intros X; specialize (E X); lia).
  assert (Hint : int = true -> z / 2 mod 4 = 3) by (intros X; specialize (I X); lia).
  assert (Z0 : 0 <= z) by lia.
  destruct (Z.eqb_spec c 0) as [C|C].
  - specialize (R0 C). cbn [map app element_of encode_mv_class0_bit]. rewrite here. cbn [obind].
    destruct int; destruct hp; try (discriminate (IH eq_refl)); cbn [map app element_of encode_mv_class0_fr encode_mv_class0_hp obind]; repeat (rewrite here; cbn [obind]);
      (f_equal; f_equal; apply Fin; try specialize (Hodd eq_refl); try specialize (Hint eq_refl); lia).
  - specialize (R1 C). rewrite map_app, <- app_assoc. change (av1_bits ctx comp (Z.to_nat c) 0) with (av1_bits ctx comp (Z.to_nat c) (Z.of_nat 0)).
    rewrite (bits_read z ctx comp (Z.to_nat c) 0%nat) by assumption. cbn [obind]. rewrite Z2Nat.id by lia. change (2 ^ (3 + Z.of_nat 0)) with 8.
    assert (D : z / 8 mod 2 ^ c = z / 8 - 2 ^ c).
    { rewrite !Z.pow_add_r in R1 by lia. change (2 ^ 3) with 8 in R1. change (2 ^ 4) with 16 in R1. clear - R1 Z0. set (w := 2 ^ c) in *. clearbody w.
      symmetry. apply Z.mod_unique with 1; [left; lia|lia]. }
    assert (W : 2 * 2 ^ (c + 2) = 8 * 2 ^ c) by (rewrite Z.pow_add_r by lia; change (2 ^ 2) with 4; lia). rewrite D, W.
    set (w := 2 ^ c) in *. clearbody w.
    destruct int; destruct hp; try (discriminate (IH eq_refl)); cbn [map app element_of encode_mv_fr encode_mv_hp obind]; repeat (rewrite here; cbn [obind]);
      (f_equal; f_equal; apply Fin; try specialize (Hodd eq_refl); try specialize (Hint eq_refl); lia).
Qed.

Lemma mv_read : forall d ctx int hp pred, expressible int hp (fst d) -> expressible int hp (snd d) ->
  reads_as (map element_of (mv_calls d ctx int hp)) (av1_mv ctx int hp pred) (fst pred + fst d, snd pred + snd d).
Proof.
  intros (a, b) ctx int hp pred A B k. cbn [fst snd] in *. unfold mv_calls, av1_mv. rewrite !map_app, <- !app_assoc.
  cbn [map app element_of encode_mv_joint]. rewrite here. cbn [obind].
  destruct (Z.eqb_spec a 0) as [->|Na]; destruct (Z.eqb_spec b 0) as [->|Nb]; cbn [Z.add Z.eqb Pos.eqb Pos.add Pos.succ orb map app obind];
    repeat (rewrite component_read by assumption; cbn [obind]); reflexivity.
Qed.
Lemma component_count : forall d ctx comp int hp, d <> 0 -> Z.abs d <= 2 ^ 14 -> Z.of_nat (List.length (component_calls d ctx comp int hp)) <= 14.
Proof.
  intros d ctx comp int hp N H. destruct (class_range d N H) as (R & _). unfold component_calls. cbv zeta. set (c := component_class d) in *. clearbody c.
  destruct (c =? 0); rewrite ?app_length, ?map_length, ?seq_length; destruct int; destruct hp; cbn [List.length]; lia.
Qed.
Lemma mv_count : forall d ctx int hp, Z.abs (fst d) <= 2 ^ 14 -> Z.abs (snd d) <= 2 ^ 14 -> Z.of_nat (List.length (mv_calls d ctx int hp)) <= 29.
Proof.
  intros (a, b) ctx int hp A B. cbn [fst snd] in *. unfold mv_calls. rewrite !app_length.
  pose proof (component_count a ctx 0 int hp) as X. pose proof (component_count b ctx 1 int hp) as Y.
  destruct (Z.eqb_spec a 0); destruct (Z.eqb_spec b 0); cbn [List.length]; try specialize (X n A); try specialize (Y n B); try specialize (Y n0 B); lia.
Qed.
Lemma mv_calls_read : forall d ctx int hp pred, expressible int hp (fst d) -> expressible int hp (snd d) -> bit ctx ->
  exists p, (forall q, av1_mv ctx int hp pred q = on_elements p q) /\
  forall s c dc out sz tail, state_ok s -> 0 <= bit_count c < 2 ^ 62 -> 0 <= sz < 2 ^ 28 -> is_bits tail ->
  exists c' s' D d' rest, write_session c s out (mv_calls d ctx int hp) = Ok (c', s', out ++ D) /\ is_bits D /\
    decode_bits p dc s (D ++ tail) sz = Ok ((fst pred + fst d, snd pred + snd d), d', s', rest ++ tail).
Proof.
  intros d ctx int hp pred A B C. apply calls_read.
  - exact (isprog_bitwise _ _ (prog_mv ctx int hp pred)).
  - apply mv_legal; [apply A|apply B|exact C].
  - eapply Z.le_trans; [apply mv_count; [apply A|apply B]|]. discriminate.
  - apply mv_read; assumption.
Qed.
