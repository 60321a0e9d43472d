(** Proofs about the partition symbols. *)
From Coq Require Import ZArith List Bool Lia Sorted ZifyBool ZifyNat.
From Verif Require Import Base BaseProofs BitsSpec UtilModel RangeCoderModel RangeCoderSpec SessionModel SessionSpec CdfProofs SegmentProofs FloorSpec FloorProofs
  BlockTables GeomModel PartSpec CdfTables CdfTableSpec CdfTableProofs WholeTileModel.
Import ListNotations.
Open Scope Z_scope.

Lemma used_std b w above left : square b w -> (used_index w above left = std_index w above left <-> w = 128).
Proof.
  intros Q. unfold square in Q. cbn [In] in Q.
  destruct Q as [E|[E|[E|[E|[E|[]]]]]]; injection E as <- <-; unfold used_index, std_index; cbn [Z.eqb Pos.eqb]; lia.
Qed.

Lemma four {P : nat -> list Z -> Prop} {N : nat} (l : list (list Z)) : Forall2 P (repeat N 4) l -> exists r0 r1 r2 r3, l = [r0; r1; r2; r3] /\ P N r0 /\ P N r1 /\ P N r2 /\ P N r3.
Proof.
  intros H. cbn [repeat] in H. inversion H as [|? r0 ? l1 H0 K0]; subst. inversion K0 as [|? r1 ? l2 H1 K1]; subst.
  inversion K1 as [|? r2 ? l3 H2 K2]; subst. inversion K2 as [|? r3 ? l4 H3 K3]; subst. inversion K3; subst.
  exists r0, r1, r2, r3. repeat split; assumption.
Qed.
Ltac open_parts H :=
  destruct H as (H8 & H16 & H32 & H64 & H128);
  destruct (four _ H8) as (? & ? & ? & ? & E8 & ? & ? & ? & ?);
  destruct (four _ H16) as (? & ? & ? & ? & E16 & ? & ? & ? & ?);
  destruct (four _ H32) as (? & ? & ? & ? & E32 & ? & ? & ? & ?);
  destruct (four _ H64) as (? & ? & ? & ? & E64 & ? & ? & ? & ?);
  destruct (four _ H128) as (? & ? & ? & ? & E128 & ? & ? & ? & ?);
  clear H8 H16 H32 H64 H128.

Lemma flat_parts P t : parts P t -> Forall2 P part_sizes (flat t).
Proof. intros (A & B & C & D & E). unfold part_sizes, flat. change (repeat 10%nat 12) with (repeat 10%nat 4 ++ repeat 10%nat 4 ++ repeat 10%nat 4). rewrite <- !app_assoc. repeat (apply Forall2_app; [assumption|]). assumption. Qed.

(** One call of the writer is one symbol coded with a CDF of the whole list. *)
Lemma code_op P t c out b w above left p : parts P t -> square b w ->
  encode_op c (flat t) out (OSym (used_index w above left) p) =
  match code_partition c t out b above left (Z.of_nat p) with
  | Ok (c', t', out') => Ok (c', flat t', out')
  | Panic => Panic
  | Hang => Hang
  end.
Proof.
  intros H Q. open_parts H. destruct t as [t8 t16 t32 t64 t128]. cbn [partition_w8 partition_w16 partition_w32 partition_w64 partition_w128] in *. subst.
  unfold square in Q. cbn [In] in Q. cbn [encode_op]. generalize (Z.of_nat p). intros z.
  destruct Q as [E|[E|[E|[E|[E|[]]]]]]; injection E as <- <-; destruct above, left; cbv -[encode_symbol];
    (match goal with |- context [encode_symbol ?c ?s ?o ?d] => destruct (encode_symbol c s o d) as [[[? ?] ?]| |] end); reflexivity.
Qed.

(** What the row of a CDF is. *)
Lemma row_of P t w above left : parts P t -> exists N row, nth_error part_sizes (used_index w above left) = Some N /\ nth_error (flat t) (used_index w above left) = Some row /\ P N row /\
  N = (if ((w =? 8) || (w =? 16))%Z then 10 else 8)%nat.
Proof.
  intros H. open_parts H. unfold flat. rewrite E8, E16, E32, E64, E128. unfold used_index, context.
  destruct (w =? 8), (w =? 16), above, left; cbn; eexists; eexists; repeat split; eassumption.
Qed.

Lemma code_keeps m t c out b w above left p c' t' out' : m <= 32 -> parts (floored m) t -> square b w -> 0 <= p ->
  code_partition c t out b above left p = Ok (c', t', out') -> parts (floored m) t'.
Proof.
  intros M H Q P0 E. destruct H as (H8 & H16 & H32 & H64 & H128).
  unfold code_partition in E. apply bind_inv in E. destruct E as (bsl & Eb & E). apply bind_inv in E. destruct E as (cdf & Ec & E).
  apply bind_inv in E. destruct E as ([[c1 o1] cdf1] & Es & E). injection E as <- <- <-.
  assert (I : exists i, b2z left * 2 + b2z above = Z.of_nat i) by (exists (context above left); destruct above, left; reflexivity).
  destruct I as (i & I). rewrite I in *. clear I. rewrite Nat2Z.id.
  assert (G : forall N tb, Forall2 (floored m) (repeat N 4) tb -> idx tb (Z.of_nat i) = Ok cdf -> Forall2 (floored m) (repeat N 4) (set_nth i cdf1 tb)).
  { intros N tb T Ei. destruct (idx_inv _ _ _ [] Ei) as [L X]. destruct (floored_nth _ _ _ _ T L) as (N' & HN & FN). rewrite <- X in FN.
    apply (floored_set _ _ _ _ N'); [exact T|exact HN|]. exact (floored_encode _ _ _ _ _ _ _ _ _ M FN P0 Es). }
  unfold square in Q. cbn [In] in Q.
  destruct Q as [Q|[Q|[Q|[Q|[Q|[]]]]]]; injection Q as <- <-; cbv in Eb; injection Eb as <-;
    unfold part_table in Ec |- *; unfold part_set; cbn [Z.eqb Pos.eqb] in Ec |- *;
    unfold parts; cbn [partition_w8 partition_w16 partition_w32 partition_w64 partition_w128]; repeat split; try assumption; apply G; assumption.
Qed.

(** ** Sessions *)
Lemma width_square b w : square b w -> width_of b = w.
Proof. intros Q. unfold square in Q. cbn [In] in Q. destruct Q as [E|[E|[E|[E|[E|[]]]]]]; injection E as <- <-; reflexivity. Qed.
Lemma write_ops : forall l m t c out, m <= 32 -> parts (floored m) t -> Forall choice_ok l ->
  encode_ops c (flat t) out (sym_ops (map used_choice l)) =
  match write_choices c t out l with Ok (c', t', out') => Ok (c', flat t', out') | Panic => Panic | Hang => Hang end.
Proof.
  induction l as [|x l IH]; intros m t c out M H L; [reflexivity|]. inversion L as [|? ? (w & Q & T) L']; subst.
  cbn [map sym_ops encode_ops used_choice fst snd write_choices]. rewrite (width_square _ _ Q). rewrite (code_op _ t c out _ w _ _ _ H Q).
  destruct (code_partition c t out (ch_size x) (ch_above x) (ch_left x) (Z.of_nat (ch_type x))) as [[[c1 t1] o1]| |] eqn:E; cbn [bind]; [|reflexivity|reflexivity].
  apply (IH m); [exact M|exact (code_keeps m _ _ _ _ w _ _ _ _ _ _ M H Q (Nat2Z.is_nonneg _) E)|exact L'].
Qed.

Lemma parts_impl (P Q : nat -> list Z -> Prop) t : (forall N x, P N x -> Q N x) -> parts P t -> parts Q t.
Proof.
  intros I (A & B & C & D & E). assert (G : forall s l, Forall2 P s l -> Forall2 Q s l) by (intros s l H; induction H; constructor; auto).
  repeat split; apply G; assumption.
Qed.

Lemma choices_round_trip t l c d out sz tail : parts valid_cdf t -> Forall choice_ok l -> Z.of_nat (length l) <= 2 ^ 26 ->
  0 <= bit_count c < 2 ^ 62 -> 0 <= sz < 2 ^ 28 -> is_bits tail ->
  exists c' t' D d' used rest, choice_session c t out l = Ok (c', t', out ++ D) /\ D = used ++ rest /\ is_bits D /\
    decode_session d (flat t) (D ++ tail) sz (map (fun x => SSym (fst (used_choice x))) l) =
      Ok (map (fun x => OSym (fst (used_choice x)) (ch_type x)) l, d', flat t', rest ++ tail).
Proof.
  intros V L Len B Z T. assert (R : SegmentProofs.in_range part_sizes (map used_choice l)).
  { unfold SegmentProofs.in_range. apply Forall_map. eapply Forall_impl; [|exact L]. intros x (w & Q & K). cbn [used_choice fst snd]. rewrite (width_square _ _ Q).
    destruct (row_of _ t w (ch_above x) (ch_left x) V) as (N & row & HN & _ & _ & EN). exists N. split; [exact HN|]. rewrite EN. exact K. }
  destruct (symbol_round_trip part_sizes (flat t) (map used_choice l) c d out sz tail (flat_parts _ _ V) R ltac:(rewrite map_length; exact Len) B Z T)
    as (c' & f' & D & d' & used & rest & E & ED & IB & Dec).
  unfold encode_session in E. rewrite (write_ops l 0) in E; [|lia|exact (parts_impl _ _ _ valid_floored V)|exact L].
  destruct (write_choices (init_encoder c) t out l) as [[[c1 t1] o1]| |] eqn:W; cbn [bind] in E; try discriminate.
  apply bind_inv in E. destruct E as ([c2 o2] & X & E). injection E as <- <- Eo.
  exists c2, t1, D, d', used, rest. split; [unfold choice_session; rewrite W; cbn [bind]; rewrite X; cbn [bind]; rewrite Eo; reflexivity|].
  split; [exact ED|]. split; [exact IB|]. rewrite !map_map in Dec. unfold sym_ops in Dec. rewrite map_map in Dec. exact Dec.
Qed.

(** ** Alphabets too small *)
Lemma vert_4_panics t c out b above left : parts valid_cdf t -> b = 9 \/ b = 12 -> code_partition c t out b above left 9 = Panic.
Proof.
  intros V B. assert (Q : exists w, square b w /\ (w =? 8) || (w =? 16) = false) by (destruct B as [->| ->]; [exists 32|exists 64]; split; try reflexivity; unfold square; cbn; tauto).
  destruct Q as (w & Q & W). destruct (row_of _ t w above left V) as (N & row & _ & HR & VR & EN). rewrite W in EN. subst N.
  pose proof (code_op _ t c out b w above left 9 V Q) as E. cbn [encode_op] in E. unfold idx at 1 in E. destruct (Z.ltb_spec (Z.of_nat (used_index w above left)) 0) as [K|_]; [lia|].
  rewrite Nat2Z.id, HR in E. cbn [bind] in E. change (Z.of_nat 9) with 9 in E.
  assert (P : encode_symbol c 9 out row = Panic).
  { destruct VR as (probs & cnt & -> & L & _ & _ & _ & C). unfold encode_symbol, encode_symbol_fuel. unfold len. rewrite app_length, L. cbn [length].
    rewrite chk_u64_ok by lia. cbn [bind]. change (0 <? 9) with true. cbv iota. rewrite chk_i32_ok by lia. cbn [bind].
    assert (I8 : idx (probs ++ [cnt]) (9 - 1) = Ok cnt). { unfold idx. change (9 - 1 <? 0) with false. cbv iota. change (Z.to_nat (9 - 1)) with 8%nat. rewrite nth_error_app2, L by lia. reflexivity. }
    assert (I9 : idx (probs ++ [cnt]) 9 = Panic). { unfold idx. change (9 <? 0) with false. cbv iota. change (Z.to_nat 9) with 9%nat. replace (nth_error (probs ++ [cnt]) 9) with (@None Z); [reflexivity|]. symmetry. apply nth_error_None. rewrite app_length, L. cbn. lia. }
    rewrite I8. cbn [bind]. rewrite chk_i32_ok by lia. cbn [bind]. rewrite I9. reflexivity. }
  rewrite P in E. cbn [bind] in E. destruct (code_partition c t out b above left 9) as [[[? ?] ?]| |]; [discriminate|reflexivity|discriminate].
Qed.

(** ** Forced divisions *)
Lemma entry_bounds N row i : valid_cdf N row -> (i < N)%nat -> 0 < nth i row 0 <= 32768.
Proof.
  intros (probs & cnt & -> & L & B & Sd & E & _) I. rewrite app_nth1 by lia. exact (sorted_bounds probs 0 32768 Sd E ltac:(lia) i ltac:(lia)).
Qed.
Lemma idx_entry N row i : valid_cdf N row -> 0 <= i < Z.of_nat N -> idx row i = Ok (nth (Z.to_nat i) row 0).
Proof.
  intros V I. apply idx_nth. destruct V as (probs & cnt & -> & L & _). unfold len. rewrite app_length. cbn [length]. lia.
Qed.
Lemma term_ok N row acc x : valid_cdf N row -> 1 <= x < Z.of_nat N -> 0 <= acc <= 2 ^ 20 ->
  psum_term row acc x = Ok (acc + prob row (Z.to_nat x)).
Proof.
  intros V X A. unfold psum_term. rewrite (idx_entry N) by (assumption || lia). cbn [bind].
  pose proof (entry_bounds N row (Z.to_nat x) V ltac:(lia)). pose proof (entry_bounds N row (Z.to_nat (x - 1)) V ltac:(lia)).
  rewrite chk_i32_ok by lia. cbn [bind]. rewrite (idx_entry N) by (assumption || lia). cbn [bind]. rewrite chk_i32_ok by lia. f_equal.
  unfold prob. replace (Z.to_nat x) with (S (Z.to_nat (x - 1))) by lia. lia.
Qed.
Lemma prob_bounds N row j : valid_cdf N row -> (j < N)%nat -> 0 <= prob row j <= 32768.
Proof.
  intros V J. split; [exact (proj2 (valid_floored N row V) j J)|]. unfold prob. pose proof (entry_bounds N row j V J).
  destruct j as [|j]; [lia|]. pose proof (entry_bounds N row j V ltac:(lia)). lia.
Qed.
Lemma terms_ok N row : valid_cdf N row -> forall xs acc, Forall (fun x => 1 <= x < Z.of_nat N) xs -> 0 <= acc -> acc + 32768 * Z.of_nat (length xs) <= 2 ^ 20 ->
  psum_terms row acc xs = Ok (acc + total row (map Z.to_nat xs)).
Proof.
  intros V. induction xs as [|x xs IH]; intros acc F A B; cbn [psum_terms map total fold_right]; [f_equal; lia|]. inversion F as [|? ? X F']; subst. cbn [length] in B.
  rewrite (term_ok N) by (assumption || lia). cbn [bind]. pose proof (prob_bounds N row (Z.to_nat x) V ltac:(lia)).
  rewrite IH by (assumption || lia). f_equal. unfold total. lia.
Qed.

Lemma table_row (t : part_cdfs) b w above left bsl row : square b w -> idx mi_width_log2 b = Ok bsl ->
  parts valid_cdf t -> nth_error (flat t) (used_index w above left) = Some row -> idx (part_table t bsl) (b2z left * 2 + b2z above) = Ok row.
Proof.
  intros Q B H R. open_parts H. destruct t as [t8 t16 t32 t64 t128]. cbn [partition_w8 partition_w16 partition_w32 partition_w64 partition_w128] in *. subst.
  unfold square in Q. cbn [In] in Q.
  destruct Q as [Q|[Q|[Q|[Q|[Q|[]]]]]]; injection Q as <- <-; cbv in B; injection B as <-; destruct above, left; cbv in R |- *; injection R as <-; reflexivity.
Qed.
Lemma size_log2 b w : square b w -> exists bsl, idx mi_width_log2 b = Ok bsl.
Proof. intros Q. unfold square in Q. cbn [In] in Q. destruct Q as [Q|[Q|[Q|[Q|[Q|[]]]]]]; injection Q as <- <-; eexists; vm_compute; reflexivity. Qed.

Lemma split_two row b w N (types : list Z) : square b w -> valid_cdf N row -> N = (if ((w =? 8) || (w =? 16))%Z then 10 else 8)%nat ->
  Forall (fun x => 1 <= x < 8) types -> (length types = 5)%nat ->
  split_cdf row b types =
    if (w =? 32) || (w =? 64) then Panic
    else let q := total row (map Z.to_nat types) + (if w =? 128 then 0 else prob row 9) in if 15 <? q then Panic else Ok [2 ^ (15 - q); 32768; 0].
Proof.
  intros Q V EN F L. unfold split_cdf.
  assert (N8 : (8 <= N)%nat) by (rewrite EN; destruct ((w =? 8) || (w =? 16)); lia).
  assert (FN : Forall (fun x => 1 <= x < Z.of_nat N) types) by (eapply Forall_impl; [|exact F]; cbv beta; intros; lia).
  rewrite (terms_ok N row V types 0 FN) by (rewrite ?L; lia). cbn [bind]. rewrite Z.add_0_l.
  assert (T : 0 <= total row (map Z.to_nat types) <= 32768 * Z.of_nat (length types)).
  { clear L FN. induction types as [|x xs IH]; [cbn; lia|]. inversion F as [|? ? X F']; subst. pose proof (IH F') as I. cbn [map total fold_right length] in *.
    pose proof (prob_bounds _ row (Z.to_nat x) V ltac:(lia)). unfold total in I. lia. }
  rewrite L in T. set (sum := total row (map Z.to_nat types)) in *. clearbody sum.
  assert (K : forall q, 0 <= q <= 2 ^ 20 -> (k <- chk_i32 (15 - q) ;; _ <- shift_ok 32 k ;; Ok [as_i32 (Z.shiftl 1 k); 32768; 0]) = if 15 <? q then Panic else Ok [2 ^ (15 - q); 32768; 0]).
  { intros q B. rewrite chk_i32_ok by lia. cbn [bind]. destruct (Z.ltb_spec 15 q) as [G|G].
    - unfold shift_ok. replace ((0 <=? 15 - q) && (15 - q <? 32)) with false by lia. reflexivity.
    - rewrite shift_ok_ok by lia. cbn [bind]. rewrite shiftl_mul by lia. rewrite Z.mul_1_l. assert (0 < 2 ^ (15 - q) <= 2 ^ 15) by (split; [apply Z.pow_pos_nonneg; lia|apply Z.pow_le_mono_r; lia]).
      rewrite as_i32_id by lia. reflexivity. }
  unfold square in Q. cbn [In] in Q. cbv zeta.
  destruct Q as [Q|[Q|[Q|[Q|[Q|[]]]]]]; injection Q as <- <-; unfold BLOCK_128X128; cbn [Z.eqb Pos.eqb orb] in *.
  1, 2: subst N; change PARTITION_VERT_4 with 9; rewrite (idx_entry 10) by (assumption || lia); cbn [bind]; change (9 - 1) with 8; rewrite (idx_entry 10) by (assumption || lia); cbn [bind];
    pose proof (entry_bounds 10 row 9 V ltac:(lia)); pose proof (entry_bounds 10 row 8 V ltac:(lia)); pose proof (prob_bounds 10 row 9 V ltac:(lia)) as PB;
    change (Z.to_nat 9) with 9%nat; change (Z.to_nat 8) with 8%nat; rewrite chk_i32_ok by lia; cbn [bind];
    change (nth 9 row 0 - nth 8 row 0) with (prob row 9); rewrite chk_i32_ok by lia; cbn [bind]; rewrite K by lia; reflexivity.
  1, 2: subst N; assert (I : idx row PARTITION_VERT_4 = Panic) by
    (unfold idx; change (PARTITION_VERT_4 <? 0) with false; cbv iota; change (Z.to_nat PARTITION_VERT_4) with 9%nat; destruct V as (probs & cnt & -> & L' & _);
     replace (nth_error (probs ++ [cnt]) 9) with (@None Z); [reflexivity|symmetry; apply nth_error_None; rewrite app_length, L'; cbn; lia]);
    rewrite I; reflexivity.
  cbn [bind]. rewrite Z.add_0_r. apply K. lia.
Qed.

Lemma split_or_horz_outcome t c out b w above left s : parts valid_cdf t -> square b w ->
  exists row, nth_error (flat t) (used_index w above left) = Some row /\
    code_split_or_horz c t out b above left s = split_outcome w row [2; 2; 2; 2; 2]%nat c out s.
Proof.
  intros H Q. destruct (row_of _ t w above left H) as (N & row & _ & HR & V & EN). exists row. split; [exact HR|].
  destruct (size_log2 b w Q) as (bsl & B). unfold code_split_or_horz. rewrite B. cbn [bind]. rewrite (table_row t b w above left bsl row Q B H HR). cbn [bind].
  rewrite (split_two row b w N) by (try assumption; try reflexivity; repeat (apply Forall_cons; [unfold PARTITION_VERT; lia|]); apply Forall_nil).
  unfold split_outcome. change (map Z.to_nat [PARTITION_VERT; PARTITION_VERT; PARTITION_VERT; PARTITION_VERT; PARTITION_VERT]) with [2; 2; 2; 2; 2]%nat.
  destruct ((w =? 32) || (w =? 64)); [reflexivity|]. cbv zeta. destruct (15 <? _); [reflexivity|]. cbn [bind].
  destruct (encode_symbol c s out _) as [[[? ?] ?]| |]; reflexivity.
Qed.
Lemma split_or_vert_outcome t c out b w above left s : parts valid_cdf t -> square b w ->
  exists row, nth_error (flat t) (used_index w above left) = Some row /\
    code_split_or_vert c t out b above left s = split_outcome w row [2; 3; 4; 6; 7]%nat c out s.
Proof.
  intros H Q. destruct (row_of _ t w above left H) as (N & row & _ & HR & V & EN). exists row. split; [exact HR|].
  destruct (size_log2 b w Q) as (bsl & B). unfold code_split_or_vert. rewrite B. cbn [bind]. rewrite (table_row t b w above left bsl row Q B H HR). cbn [bind].
  rewrite (split_two row b w N) by (try assumption; try reflexivity; repeat (apply Forall_cons; [unfold PARTITION_VERT, PARTITION_SPLIT, PARTITION_HORZ_A, PARTITION_VERT_A, PARTITION_VERT_B; lia|]); apply Forall_nil).
  unfold split_outcome. change (map Z.to_nat _) with [2; 3; 4; 6; 7]%nat.
  destruct ((w =? 32) || (w =? 64)); [reflexivity|]. cbv zeta. destruct (15 <? _); [reflexivity|]. cbn [bind].
  destruct (encode_symbol c s out _) as [[[? ?] ?]| |]; reflexivity.
Qed.

(** Probabilities of at least 4 make it panic. *)
Lemma floored_valid_parts m t : parts (floored m) t -> parts valid_cdf t.
Proof. apply parts_impl. intros N x H. exact (proj1 H). Qed.
Lemma split_panics t c out b w above left s : parts (floored 4) t -> square b w ->
  code_split_or_horz c t out b above left s = Panic /\ code_split_or_vert c t out b above left s = Panic.
Proof.
  intros H Q. pose proof (floored_valid_parts _ _ H) as V.
  destruct (split_or_horz_outcome t c out b w above left s V Q) as (row & R & ->). destruct (split_or_vert_outcome t c out b w above left s V Q) as (row' & R' & ->).
  rewrite R in R'. injection R' as <-. destruct (row_of _ t w above left H) as (N & row' & _ & HR & [VR F] & EN). rewrite R in HR. injection HR as <-.
  assert (N8 : (8 <= N)%nat) by (rewrite EN; destruct ((w =? 8) || (w =? 16)); lia).
  unfold split_outcome. destruct ((w =? 32) || (w =? 64)) eqn:W; [split; reflexivity|].
  assert (P9 : 0 <= (if w =? 128 then 0 else prob row 9)).
  { destruct (w =? 128) eqn:W1; [lia|]. replace ((w =? 8) || (w =? 16)) with true in EN by (unfold square in Q; cbn [In] in Q; destruct Q as [Q|[Q|[Q|[Q|[Q|[]]]]]]; injection Q as <- <-; cbn in *; congruence || reflexivity).
    apply (prob_bounds N row 9 VR). lia. }
  pose proof (F 2%nat ltac:(lia)). pose proof (F 3%nat ltac:(lia)). pose proof (F 4%nat ltac:(lia)). pose proof (F 6%nat ltac:(lia)). pose proof (F 7%nat ltac:(lia)).
  cbn [total fold_right]. cbv zeta. split; (match goal with |- (if 15 <? ?q then _ else _) = _ => replace (15 <? q) with true by lia end); reflexivity.
Qed.
Lemma write_keeps m : m <= 32 -> forall l t c out c' t' out', parts (floored m) t -> Forall choice_ok l -> write_choices c t out l = Ok (c', t', out') -> parts (floored m) t'.
Proof.
  intros M. induction l as [|x l IH]; intros t c out c' t' out' H L E; cbn [write_choices] in E; [injection E as <- <- <-; exact H|].
  inversion L as [|? ? (w & Q & T) L']; subst. apply bind_inv in E. destruct E as ([[c1 t1] o1] & E1 & E).
  apply (IH t1 c1 o1 c' t' out'); [|exact L'|exact E]. exact (code_keeps m _ _ _ _ w _ _ _ _ _ _ M H Q (Nat2Z.is_nonneg _) E1).
Qed.
