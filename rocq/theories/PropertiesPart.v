(** C99: the CDF a partition symbol is coded with. C100: forced divisions. *)
From Coq Require Import ZArith List Bool Lia ZifyBool.
From Verif Require Import Base RangeCoderModel RangeCoderSpec BitsSpec SessionModel SessionSpec SegmentProofs CdfProofs CdfTableSpec CdfTableProofs CdfTables FloorSpec FloorProofs
  GeomModel WholeTileModel PartSpec PartProofs.
Import ListNotations.
Open Scope Z_scope.

(** C99: the CDF is not that of the block's own size, but for 128x128 blocks: the
    writer takes the one for blocks four times as wide (at most 128). *)
Theorem C99_index : forall b w above left, square b w -> (used_index w above left = std_index w above left <-> w = 128).
Proof. exact used_std. Qed.
Print Assumptions C99_index.

(** C99: with these CDFs it is a code: a decoder using the same CDFs reads back any
    sequence of choices, and ends with the same tables. Types 8 and 9 cannot be written
    for 32x32 and 64x64 blocks ([choice_ok]), while types 4 to 9 can for 8x8 blocks. *)
Theorem C99_own_tables : forall t l c d out sz tail,
  parts valid_cdf t -> Forall choice_ok l -> Z.of_nat (length l) <= 2 ^ 26 ->
  0 <= bit_count c < 2 ^ 62 -> 0 <= sz < 2 ^ 28 -> is_bits tail ->
  exists c' t' D d' used rest, choice_session c t out l = Ok (c', t', out ++ D) /\ D = used ++ rest /\ is_bits D /\
    decode_session d (flat t) (D ++ tail) sz (map (fun x => SSym (fst (used_choice x))) l) =
      Ok (map (fun x => OSym (fst (used_choice x)) (ch_type x)) l, d', flat t', rest ++ tail).
Proof. exact choices_round_trip. Qed.
Print Assumptions C99_own_tables.

(** C99: choices for 128x128 blocks only are read back with the CDFs of the standard. *)
Theorem C99_partition_128 : forall t l c d out sz tail,
  parts valid_cdf t -> Forall (fun x => ch_size x = 15 /\ (ch_type x < 8)%nat) l -> Z.of_nat (length l) <= 2 ^ 26 ->
  0 <= bit_count c < 2 ^ 62 -> 0 <= sz < 2 ^ 28 -> is_bits tail ->
  exists c' t' D d' used rest, choice_session c t out l = Ok (c', t', out ++ D) /\ D = used ++ rest /\ is_bits D /\
    decode_session d (flat t) (D ++ tail) sz (map (fun x => SSym (std_index 128 (ch_above x) (ch_left x))) l) =
      Ok (map (fun x => OSym (std_index 128 (ch_above x) (ch_left x)) (ch_type x)) l, d', flat t', rest ++ tail).
Proof.
  intros t l c d out sz tail H L N C Z T.
  assert (K : Forall choice_ok l).
  { eapply Forall_impl; [|exact L]. intros x [E F]. exists 128. rewrite E. split; [unfold square; cbn; tauto|exact F]. }
  destruct (choices_round_trip t l c d out sz tail H K N C Z T) as (c' & t' & D & d' & used & rest & E & DU & BD & R).
  exists c', t', D, d', used, rest. repeat (split; [assumption|]).
  assert (U : forall x, In x l -> fst (used_choice x) = std_index 128 (ch_above x) (ch_left x)).
  { intros x I. rewrite Forall_forall in L. destruct (L x I) as [S _]. unfold used_choice. cbn [fst]. rewrite S. reflexivity. }
  rewrite (map_ext_in _ (fun x => SSym (fst (used_choice x)))) by (intros x I; rewrite (U x I); reflexivity).
  rewrite R. do 3 f_equal. f_equal. apply map_ext_in. intros x I. rewrite (U x I). reflexivity.
Qed.
Print Assumptions C99_partition_128.

(** C99 is false: for each of the other sizes there is a partition type that, coded from
    the default tables, the standard's decoder reads as another type. *)
Theorem C99_refuted : forall b w, square b w -> w <> 128 -> exists p c' t' D q d' u' r',
  (p < if (w =? 8)%Z then 4 else 10)%nat /\
  choice_session new_coder default_part [] [mkChoice b false false p] = Ok (c', t', D) /\
  decode_session new_coder (flat default_part) (D ++ repeat 0 64) 8 [SSym (std_index w false false)] =
    Ok ([OSym (std_index w false false) q], d', u', r') /\ q <> p.
Proof.
  intros b w Q W. unfold square in Q. cbn [In] in Q.
  destruct Q as [Q|[Q|[Q|[Q|[Q|[]]]]]]; injection Q as <- <-; [exists 1%nat|exists 3%nat|exists 1%nat|exists 1%nat|congruence];
    do 7 eexists; (split; [cbn; lia|split; [vm_compute; reflexivity|split; [vm_compute; reflexivity|lia]]]).
Qed.
Print Assumptions C99_refuted.

(** C99: a 32x32 or 64x64 block cannot be divided in four vertical strips: the type has
    no place in the CDF taken and the encoder panics, in every state. *)
Theorem C99_vert_4 : forall t c out b above left,
  parts valid_cdf t -> b = 9 \/ b = 12 -> code_partition c t out b above left 9 = Panic.
Proof. exact vert_4_panics. Qed.
Print Assumptions C99_vert_4.
(** ... and four horizontal strips take the counter of the CDF for a probability: with
    the default tables the encoder does not come back. *)
Example C99_horz_4 : code_partition (init_encoder new_coder) default_part [] 12 false false 8 = Hang.
Proof. vm_compute. reflexivity. Qed.

(** C99: of the two context flags, those the partition search passes say only that the
    neighbour is available; the standard's say that it is smaller too. They agree when,
    and only when, each available neighbour is smaller than the block. *)
Theorem C99_context : forall S (st : tstate S) b p wa wl w hl,
  signal_partition S st b true true p =
    (if b <? 3 then (if p =? 0 then Ok (Some (st, [])) else Ok None)
     else match code_partition (t_coder st) (t_cdf st) [] b (t_avail_u st) (t_avail_l st) p with
          | Ok (c, t, out) => Ok (Some (mkT c t (t_avail_u st) (t_avail_l st) (t_rest st), out)) | Panic => Panic | Hang => Hang end) /\
  (t_avail_u st = std_flag (t_avail_u st) wa w /\ t_avail_l st = std_flag (t_avail_l st) wl hl <->
     (t_avail_u st = true -> wa < w) /\ (t_avail_l st = true -> wl < hl)).
Proof.
  intros S st b p wa wl w hl. split.
  - unfold signal_partition, partition_tried. change BLOCK_8X8 with 3. change PARTITION_NONE with 0. destruct (b <? 3); [destruct (p =? 0); reflexivity|]. cbn [andb negb].
    destruct (code_partition _ _ _ _ _ _ _) as [[[? ?] ?]| |]; reflexivity.
  - unfold std_flag. destruct (t_avail_u st), (t_avail_l st); cbn [andb]; destruct (Z.ltb_spec wa w), (Z.ltb_spec wl hl); intuition (try congruence; try lia).
Qed.
Print Assumptions C99_context.

Lemma default_parts : parts (floored 20) default_part.
Proof.
  assert (G : forall m N rows, forallb (fun r => row_okb N r && forallb (fun j => m <=? prob r j) (seq 0 N)) rows = true -> length rows = 4%nat -> Forall2 (floored m) (repeat N 4) rows).
  { intros m N rows H L. do 5 (destruct rows as [|? rows]; try discriminate L). cbn [repeat]. cbn [forallb] in H. rewrite !andb_true_iff in H.
    repeat (apply Forall2_cons; [split; [apply row_okb_ok; tauto|intros j J;
      match goal with |- _ <= prob ?r _ => assert (F : forallb (fun j => m <=? prob r j) (seq 0 N) = true) by tauto end;
      rewrite forallb_forall in F; apply Z.leb_le; apply F; apply in_seq; lia]|]). apply Forall2_nil. }
  repeat split; apply G; vm_compute; reflexivity.
Qed.
Example C99_hypotheses : parts valid_cdf default_part /\
  Forall choice_ok [mkChoice 15 true false 3; mkChoice 12 false true 7; mkChoice 3 true true 9].
Proof.
  split; [exact (floored_valid_parts _ _ default_parts)|].
  repeat (apply Forall_cons; [eexists; split; [unfold square; cbn; eauto 8|cbn; lia]|]). apply Forall_nil.
Qed.

(** C100: what the two writers do, exactly. Blocks of 32 and 64 always panic; else the
    sum [q] taken (five times the vertical type for one, and the types of the other one's
    rule for the other, plus type 9 below 128) is used as a shift: more than 15 panics,
    up to 15 the flag is coded with probability 2^(15-q) of being 0. *)
Theorem C100_split_or_horz : forall t c out b w above left s, parts valid_cdf t -> square b w ->
  exists row, nth_error (flat t) (used_index w above left) = Some row /\
    code_split_or_horz c t out b above left s = split_outcome w row [2; 2; 2; 2; 2]%nat c out s.
Proof. exact split_or_horz_outcome. Qed.
Print Assumptions C100_split_or_horz.
Theorem C100_split_or_vert : forall t c out b w above left s, parts valid_cdf t -> square b w ->
  exists row, nth_error (flat t) (used_index w above left) = Some row /\
    code_split_or_vert c t out b above left s = split_outcome w row [2; 3; 4; 6; 7]%nat c out s.
Proof. exact split_or_vert_outcome. Qed.
Print Assumptions C100_split_or_vert.

(** C100: in a tile, that is from the default tables after any partition symbols whatever,
    both always panic: no frame whose edge cuts a block in half is encoded. *)
Theorem C100_always_panics : forall c out l c' t' out' b w above left s,
  Forall choice_ok l -> write_choices c default_part out l = Ok (c', t', out') -> square b w ->
  forall c2 out2, code_split_or_horz c2 t' out2 b above left s = Panic /\ code_split_or_vert c2 t' out2 b above left s = Panic.
Proof.
  intros c out l c' t' out' b w above left s L E Q c2 out2. apply (split_panics _ _ _ _ w); [|exact Q].
  pose proof (write_keeps 20 ltac:(lia) l _ _ _ _ _ _ default_parts L E) as H.
  eapply parts_impl; [|exact H]. intros N x [V F]. split; [exact V|]. intros j J. specialize (F j J). lia.
Qed.
Print Assumptions C100_always_panics.

(** C100: so in the partition search: at the bottom edge the two types tried (1 and 3),
    at the right edge the two types tried (2 and 3) panic; the others are skipped; at the
    corner only the split is tried and nothing is written. *)
Theorem C100_search : forall S (st : tstate S) b w p, parts (floored 4) (t_cdf st) -> square b w ->
  signal_partition S st b false true p = (if (p =? 3) || (p =? 1) then Panic else Ok None) /\
  signal_partition S st b true false p = (if (p =? 3) || (p =? 2) then Panic else Ok None) /\
  signal_partition S st b false false p = (if p =? 3 then Ok (Some (st, [])) else Ok None).
Proof.
  intros S st b w p H Q. assert (B : b <? BLOCK_8X8 = false) by (unfold square in Q; cbn [In] in Q; change BLOCK_8X8 with 3; destruct Q as [Q|[Q|[Q|[Q|[Q|[]]]]]]; injection Q as <- <-; reflexivity).
  unfold signal_partition, partition_tried. rewrite B. change PARTITION_SPLIT with 3. change PARTITION_HORZ with 1. change PARTITION_VERT with 2. cbn [andb].
  split; [|split].
  - destruct ((p =? 3) || (p =? 1)); [|reflexivity]. cbn [negb]. rewrite (proj1 (split_panics _ _ _ _ w _ _ _ H Q)). reflexivity.
  - destruct ((p =? 3) || (p =? 2)); [|reflexivity]. cbn [negb]. rewrite (proj2 (split_panics _ _ _ _ w _ _ _ H Q)). reflexivity.
  - destruct (p =? 3); reflexivity.
Qed.
Print Assumptions C100_search.
Example C100_search_hypotheses : parts (floored 4) default_part.
Proof. eapply parts_impl; [|exact default_parts]. intros N x [V F]. split; [exact V|]. intros j J. specialize (F j J). lia. Qed.

(** C100 is false: the standard's probability of a split from the default tables is a
    proper one (neither 0 nor 1) for each size from 16 and each context. *)
Theorem C100_refuted : forall b w above left c out s, square b w -> 16 <= w ->
  code_split_or_horz c default_part out b above left s = Panic /\
  code_split_or_vert c default_part out b above left s = Panic /\
  exists row, nth_error (flat default_part) (std_index w above left) = Some row /\
    0 < std_split_or_horz w row < 32768 /\ 0 < std_split_or_vert w row < 32768.
Proof.
  intros b w above left c out s Q W.
  destruct (C100_always_panics new_coder [] [] new_coder default_part [] b w above left s (Forall_nil _) eq_refl Q c out) as [H V].
  split; [exact H|split; [exact V|]]. unfold square in Q. cbn [In] in Q.
  destruct Q as [Q|[Q|[Q|[Q|[Q|[]]]]]]; injection Q as <- <-; [lia|..]; destruct above, left; eexists; (split; [vm_compute; reflexivity|split; vm_compute; split; reflexivity]).
Qed.
Print Assumptions C100_refuted.
(** The shift is also taken where it is small enough: type 2 of probability 1. *)
Example C100_small :
  let row := [1; 16000; 16001; 20000; 24000; 28000; 32000; 32768; 0] in
  let t := mkPart [] [] [] [] (repeat row 4) in
  match code_split_or_horz (init_encoder new_coder) t [] 15 false false 1, encode_symbol (init_encoder new_coder) 1 [] [1024; 32768; 0] with
  | Ok (c, o), Ok (c', o', _) => c = c' /\ o = o' | _, _ => False end.
Proof. vm_compute. split; reflexivity. Qed.
