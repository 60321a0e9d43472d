(** What no build profile gets past: failures that are not overflows. *)
From Coq Require Import ZArith List Bool Lia ZifyBool.
From Verif Require Import Base TableLemmas BaseProofs UtilModel UtilProofs BitsSpec BitsProofs RangeCoderModel BitCodecModel BitCodecSpec BitCodecProofs
  SessionModel BlockTables GeomModel GeomSpec GeomProofs SeqModel SeqSpec SeqProofs TileModel TileSpec TileProofs LrModel WholeTileModel WholeTileProofs
  FrameParamModel FrameModel FrameSpec FrameBits FrameProofs FrameProofs2 FrameProofs3 FrameProofs4 FrameProofs5 FrameProofs6 FrameProofs7 BuildSpec BuildProofs BuildProofs2 BuildEncProofs.
From Verif Require BuildModel BuildEncModel.
Import ListNotations.
Open Scope list_scope.
Open Scope Z_scope.

(** ** The partition search, as in GeomProofs.v and WholeTileProofs.v *)
Section Never.
Variable bld : BuildModel.build.
Variable S : Type.
Variable mode_info : tstate S -> block_env -> list Z -> res (tstate S * list Z).
Variable e : tile_env.

Lemma b_run_calls_first f st out r c b rest v :
  BuildEncModel.run_calls S f st out ((r, c, b) :: rest) = Ok v -> exists u, f st r c b out = Ok u.
Proof.
  cbn [BuildEncModel.run_calls]. intros H. apply bind_inv in H. destruct H as (u & U & _). exists u. exact U.
Qed.

Lemma b_signal_some st b hr hc p v : partition_tried b hr hc p = true ->
  BuildEncModel.signal_partition bld S st b hr hc p = Ok v -> exists u, v = Some u.
Proof.
  intros T H. unfold BuildEncModel.signal_partition in H. rewrite T in H. cbn [negb] in H.
  destruct (b <? BLOCK_8X8); [injection H as <-; eexists; reflexivity|].
  destruct (hr && hc).
  - apply bind_inv in H. destruct H as (((c1, t1), o1) & _ & H). injection H as <-. eexists; reflexivity.
  - destruct hc; [|destruct hr].
    + apply bind_inv in H. destruct H as ((c1, o1) & _ & H). injection H as <-. eexists; reflexivity.
    + apply bind_inv in H. destruct H as ((c1, o1) & _ & H). injection H as <-. eexists; reflexivity.
    + injection H as <-. eexists; reflexivity.
Qed.

Lemma b_try_all_reaches rec r c b hr hc p ps : forall st best v,
  BuildEncModel.try_all bld S mode_info e rec st r c b hr hc best ps = Ok v -> In p ps -> partition_tried b hr hc p = true ->
  exists st1 bits calls u, sub_blocks p b r c (e_mi_rows e) (e_mi_cols e) = Ok calls /\
    BuildEncModel.run_calls S (if p =? PARTITION_SPLIT then rec else BuildEncModel.leaf_call S mode_info e) st1 bits calls = Ok u.
Proof.
  induction ps as [|q ps IH]; intros st best v H I T; [destruct I|].
  cbn [BuildEncModel.try_all] in H. apply bind_inv in H. destruct H as (sg & Sg & H).
  destruct (Z.eq_dec q p) as [->|N].
  - destruct (b_signal_some _ _ _ _ _ _ T Sg) as ((st1, bits) & ->).
    apply bind_inv in H. destruct H as (calls & C & H).
    apply bind_inv in H. destruct H as (u & U & H).
    exists st1, bits, calls, u. split; assumption.
  - destruct I as [I|I]; [congruence|]. destruct sg as [(st1, bits)|].
    + apply bind_inv in H. destruct H as (calls & C & H).
      apply bind_inv in H. destruct H as (((st2, bits2), ts) & U & H).
      exact (IH _ _ _ H I T).
    + exact (IH _ _ _ H I T).
Qed.

Lemma b_partition_inv fuel st r c b out v : BuildEncModel.encode_partition bld S mode_info e fuel st r c b out = Ok v ->
  r < e_mi_rows e -> c < e_mi_cols e ->
  exists fuel' n st' w, fuel = Datatypes.S fuel' /\ idx num_4x4_blocks_wide b = Ok n /\
    BuildEncModel.try_all bld S mode_info e (BuildEncModel.encode_partition bld S mode_info e fuel') st' r c b
      (r + Z.shiftr n 1 <? e_mi_rows e) (c + Z.shiftr n 1 <? e_mi_cols e) None partitions_in_order = Ok w.
Proof.
  intros H R C. destruct fuel as [|fuel']; cbn [BuildEncModel.encode_partition] in H; [discriminate|].
  replace ((e_mi_rows e <=? r) || (e_mi_cols e <=? c)) with false in H by lia.
  apply bind_inv in H. destruct H as (n & N & H). apply bind_inv in H. destruct H as (w & W & _).
  exists fuel', n. do 2 eexists. split; [reflexivity|]. split; [exact N|exact W].
Qed.

Lemma b_block_invalid st r c out : BuildEncModel.encode_block S mode_info e st r c 22 out = Panic.
Proof. reflexivity. Qed.

Lemma b_never_8x8 fuel st r c out v :
  Z.even r = true -> Z.even c = true -> Z.even (e_mi_rows e) = true -> Z.even (e_mi_cols e) = true ->
  r < e_mi_rows e -> c < e_mi_cols e -> BuildEncModel.encode_partition bld S mode_info e fuel st r c 3 out <> Ok v.
Proof.
  intros E1 E2 E3 E4 R C H.
  destruct (b_partition_inv _ _ _ _ _ _ _ H R C) as (f' & n & st' & w & _ & N & T).
  apply Ok_inj in N. change (2 = n) in N. subst n. change (Z.shiftr 2 1) with 1 in T.
  apply even2 in E1, E2, E3, E4. destruct E1 as (r2 & E1), E2 as (c2 & E2), E3 as (rows2 & E3), E4 as (cols2 & E4).
  apply (b_try_all_reaches _ _ _ _ _ _ 8) in T.
  - destruct T as (st1 & bits & calls & u & Cl & Ru). revert Cl. blocks. intros Cl. injection Cl as <-.
    change (8 =? PARTITION_SPLIT) with false in Ru. cbv iota in Ru.
    apply b_run_calls_first in Ru. destruct Ru as (x & X). unfold BuildEncModel.leaf_call in X. rewrite b_block_invalid in X. discriminate.
  - vm_compute. tauto.
  - replace (r + 1 <? e_mi_rows e) with true by lia. replace (c + 1 <? e_mi_cols e) with true by lia. reflexivity.
Qed.

Lemma b_tried_split b hr hc : 3 <= b -> partition_tried b hr hc 3 = true.
Proof.
  intros B. unfold partition_tried. replace (b <? BLOCK_8X8) with false by (unfold BLOCK_8X8; lia).
  destruct hr, hc; reflexivity.
Qed.

Lemma b_never_split b s : 3 <= b -> idx2 partition_subsize 3 b = Ok s ->
  (forall fuel st r c out v,
    Z.even r = true -> Z.even c = true -> Z.even (e_mi_rows e) = true -> Z.even (e_mi_cols e) = true ->
    r < e_mi_rows e -> c < e_mi_cols e -> BuildEncModel.encode_partition bld S mode_info e fuel st r c s out <> Ok v) ->
  forall fuel st r c out v,
    Z.even r = true -> Z.even c = true -> Z.even (e_mi_rows e) = true -> Z.even (e_mi_cols e) = true ->
    r < e_mi_rows e -> c < e_mi_cols e -> BuildEncModel.encode_partition bld S mode_info e fuel st r c b out <> Ok v.
Proof.
  intros B Sb IH fuel st r c out v E1 E2 E3 E4 R C H.
  destruct (b_partition_inv _ _ _ _ _ _ _ H R C) as (f' & n & st' & w & _ & N & T).
  apply (b_try_all_reaches _ _ _ _ _ _ 3) in T.
  - destruct T as (st1 & bits & calls & u & Cl & Ru). unfold sub_blocks in Cl. rewrite N in Cl.
    change PARTITION_SPLIT with 3 in Cl. rewrite Sb in Cl. cbn [bind] in Cl. apply Ok_inj in Cl.
    unfold sub_calls in Cl. cbn [Z.eqb PARTITION_NONE PARTITION_HORZ PARTITION_VERT PARTITION_SPLIT Pos.eqb] in Cl.
    subst calls. change (3 =? PARTITION_SPLIT) with true in Ru. cbv iota in Ru.
    apply b_run_calls_first in Ru. destruct Ru as (x & X). exact (IH _ _ _ _ _ _ E1 E2 E3 E4 R C X).
  - vm_compute. tauto.
  - apply b_tried_split, B.
Qed.

Lemma b_never_partition fuel st r c b out v : In b [3; 6; 9; 12; 15] ->
  Z.even r = true -> Z.even c = true -> Z.even (e_mi_rows e) = true -> Z.even (e_mi_cols e) = true ->
  r < e_mi_rows e -> c < e_mi_cols e -> BuildEncModel.encode_partition bld S mode_info e fuel st r c b out <> Ok v.
Proof.
  pose proof b_never_8x8 as N3.
  pose proof (b_never_split 6 3 ltac:(lia) eq_refl N3) as N6.
  pose proof (b_never_split 9 6 ltac:(lia) eq_refl N6) as N9.
  pose proof (b_never_split 12 9 ltac:(lia) eq_refl N9) as N12.
  pose proof (b_never_split 15 12 ltac:(lia) eq_refl N12) as N15.
  cbn [In]. intros [<-|[<-|[<-|[<-|[<-|[]]]]]]; auto.
Qed.

End Never.

Section Whole.
Variable bld : BuildModel.build.
Variable S : Type.
Variable mode_info : tstate (rest S) -> block_env -> list Z -> res (tstate (rest S) * list Z).

(** A tile that begins inside the frame is never encoded, whatever the coder. *)
Lemma b_whole_never borrowed x n st out v r0 r1 c0 c1 :
  tile_bounds n (i_cols x) (i_rows x) (i_cs x) (i_rs x) = Ok (r0, r1, c0, c1) ->
  r0 < r1 -> c0 < c1 -> Z.even r0 = true -> Z.even c0 = true ->
  Z.even (i_mi_rows x) = true -> Z.even (i_mi_cols x) = true -> r0 < i_mi_rows x -> c0 < i_mi_cols x ->
  BuildEncModel.encode_whole_tile bld S mode_info borrowed x n st out <> Ok v.
Proof.
  intros B R C E1 E2 E3 E4 F1 F2 H. unfold BuildEncModel.encode_whole_tile in H.
  apply bind_inv in H. destruct H as (u & _ & H). rewrite B in H. cbn [bind] in H.
  apply bind_inv in H. destruct H as (w & _ & H). cbv zeta in H. unfold BuildEncModel.encode_tile in H. cbn [borrow_mut bind] in H.
  rewrite B in H. cbn [bind] in H. apply bind_inv in H. destruct H as (sb4 & _ & H).
  cbn [BuildEncModel.sb_rows] in H. replace (r0 <? r1) with true in H by lia.
  apply bind_inv in H. destruct H as (y & H & _). cbn [BuildEncModel.sb_row] in H. replace (c0 <? c1) with true in H by lia.
  apply bind_inv in H. destruct H as (cd & _ & H). apply bind_inv in H. destruct H as (y2 & H & _).
  unfold BuildEncModel.superblock in H. apply bind_inv in H. destruct H as ((lr, es) & _ & H). apply bind_inv in H. destruct H as ((cc, oo) & _ & H).
  cbv zeta in H. apply bind_inv in H. destruct H as (y3 & H & _). unfold BuildEncModel.encode_superblock in H.
  rewrite !Z.div_mul in H by lia. revert H. apply b_never_partition; cbn [e_mi_rows e_mi_cols]; try assumption.
  destruct (i_use128 x); cbn; tauto.
Qed.

End Whole.

(** ** Tile groups, as in TileProofs.v *)
Section Group.
Variable bld : BuildModel.build.
Variable T : Type.
Variable superblock : T -> list (list Z) -> Z -> Z -> Z -> list Z -> res (T * list (list Z) * list Z).

Lemma b_tile_group_never out use128 tc tr groups s e sz cs rs st cdef v : 1 <= tc -> 1 <= tr -> tc * tr < 2 ^ 64 ->
  BuildEncModel.encode_tile_group bld T superblock out use128 tc tr groups s e sz cs rs st cdef = Ok v ->
  tc * tr <> 1 /\ groups <> 0 /\ e < s.
Proof.
  intros TC TR TM H. unfold BuildEncModel.encode_tile_group in H. apply bind_inv in H. destruct H as (((s' & e') & o') & H1 & H).
  assert (L : (Z.to_nat (e' + 1 - s') = 0)%nat).
  { destruct (Z.to_nat (e' + 1 - s')) as [|k]; [reflexivity|]. cbn [BuildEncModel.tile_loop BuildEncModel.encode_tile borrow_mut bind] in H. discriminate. }
  destruct ((tc * tr =? 1) || (groups =? 0)) eqn:E.
  - apply bind_inv in H1. destruct H1 as (x & X & Q). injection Q as <- <- <-.
    destruct bld; cbn [BuildModel.chk_u64] in X; [apply chk_inv in X; destruct X as (-> & X)|injection X as <-; rewrite as_u64_id in L by nia]; nia.
  - apply bind_inv in H1. destruct H1 as (cl & _ & H1). apply bind_inv in H1. destruct H1 as (rl & _ & H1).
    apply bind_inv in H1. destruct H1 as (o1 & _ & H1). apply bind_inv in H1. destruct H1 as (o2 & _ & H1).
    injection H1 as <- <- <-. lia.
Qed.

End Group.

(** ** Frame headers, as in FrameProofs7.v *)
Section Header.
Variable bld : BuildModel.build.

Lemma b_set_order_hints_inv c f hint : forall is hints bias r, BuildEncModel.set_order_hints bld is c f hint hints bias = Ok r -> forall i, In i is -> (S i < length hints)%nat.
Proof.
  induction is as [|a is IH]; intros hints bias r H; [contradiction|]. cbn [BuildEncModel.set_order_hints] in H.
  apply bind_inv in H. destruct H as (x & _ & H). apply bind_inv in H. destruct H as (h & _ & H). apply bind_inv in H. destruct H as (hs & E & H).
  apply bind_inv in H. destruct H as (b & _ & H). apply bind_inv in H. destruct H as (bs & _ & H).
  replace (1 + Z.of_nat a) with (Z.of_nat (S a)) in E by lia. apply put_inv in E. destruct E as [L ->]. intros i [<-|I]; [exact L|].
  specialize (IH _ _ _ H i I). rewrite set_nth_length in IH. exact IH.
Qed.
(** A header is written only for a frame shown again, a hidden key frame or an
    intra-only frame, and not with reduced_still_picture_header. *)
Lemma b_header_needs out c f r : c_seen c = false -> length (c_order_hints c) = 7%nat -> BuildEncModel.encode_frame_header bld out c f = Ok r ->
  c_reduced c = false /\ (c_existing c = true \/ (f_type f = KEY_FRAME /\ c_show c = false) \/ f_type f = INTRA_ONLY_FRAME).
Proof.
  intros S L H. unfold BuildEncModel.encode_frame_header in H. rewrite S in H. apply bind_inv in H. destruct H as (l & _ & H). destruct (negb (c_reduced c) && c_existing c) eqn:X.
  - apply andb_true_iff in X. destruct (c_reduced c); [destruct X; discriminate|]. split; [reflexivity|]. left. apply X.
  - cbv zeta in H. apply bind_inv in H. destruct H as ((o & t) & T & H). apply bind_inv in H. destruct H as (((v & h) & hs) & R & H).
    apply (reset_refs_inv c t _ L) in R. destruct R as (K & R). injection R as -> -> ->.
    unfold BuildEncModel.enc_top in T. destruct (c_reduced c); [injection T as _ <-; discriminate|]. split; [reflexivity|]. right.
    apply bind_inv in T. destruct T as (o1 & _ & T). apply bind_inv in T. destruct T as (o2 & _ & T).
    destruct (if c_show c then (o2, false) else _) as [o3 sh]. destruct (if (f_type f =? SWITCH_FRAME) || _ then _ else _) as [o4 er]. injection T as _ <-. cbn [t_type t_show t_intra] in *.
    destruct ((f_type f =? INTRA_ONLY_FRAME) || (f_type f =? KEY_FRAME)) eqn:I.
    + apply orb_true_iff in I. destruct I as [I|I]; apply Z.eqb_eq in I; [right; exact I|left]. split; [exact I|]. rewrite I, Z.eqb_refl in K. exact K.
    + exfalso. destruct (enc_tools2 _ _ _ _) as [[o5 sct] imv]. apply bind_inv in H. destruct H as ((((o6 & p) & cu) & va) & _ & H).
      destruct (enc_override _ _ _) as [o7 ov]. apply bind_inv in H. destruct H as (o8 & _ & H). apply bind_inv in H. destruct H as ((o9 & pr) & _ & H).
      apply bind_inv in H. destruct H as (o10 & _ & H). apply bind_inv in H. destruct H as ((o11 & rf) & _ & H). apply bind_inv in H. destruct H as (va2 & _ & H).
      apply bind_inv in H. destruct H as ((o12 & m) & _ & H). cbn [negb] in H. apply bind_inv in H. destruct H as ((hs2 & bi) & E & _).
      pose proof (b_set_order_hints_inv _ _ _ _ _ _ _ E 6%nat) as P. rewrite L in P. assert (J : In 6%nat (upto REFS_PER_FRAME)) by (vm_compute; tauto). specialize (P J). lia.
Qed.
(** With uniform tile spacing and the vectors of tile starts the encoder creates none
    is written for a new frame. *)
Lemma b_header_starts out c f r : c_seen c = false -> length (c_order_hints c) = 7%nat -> c_existing c = false -> f_uniform f = true -> c_col_starts c = initial_starts ->
  BuildEncModel.encode_frame_header bld out c f <> Ok r.
Proof.
  intros S L X U CS H. unfold BuildEncModel.encode_frame_header in H. rewrite S in H. apply bind_inv in H. destruct H as (l & _ & H). rewrite X, andb_false_r in H.
  cbv zeta in H.
  repeat match type of H with
    | (x <- BuildEncModel.encode_tile_info _ _ _ _ _ _ _ _ _ _ _ _ ;; _) = Ok _ => fail 1
    | bind ?a _ = Ok _ => lazymatch a with BuildEncModel.encode_tile_info _ _ _ _ _ _ _ _ _ _ _ _ => fail | _ => idtac end;
        let v := fresh "v" in let E := fresh "E" in let H2 := fresh "H" in destruct (bind_inv _ _ _ _ _ H) as (v & E & H2); clear H E; rename H2 into H; try (destruct v as [v ?]); try (destruct v as [v ?]); try (destruct v as [v ?]); cbv beta iota in H
    | (let '(_, _) := ?x in _) = Ok _ => destruct x
    end.
  apply bind_inv in H. destruct H as (ti & E & _). rewrite U, CS in E. unfold BuildEncModel.encode_tile_info in E. apply bind_inv in E. destruct E as (lim0 & _ & E). apply bind_inv in E. destruct E as (zz & E & _).
  apply bind_inv in E. destruct E as (cl0 & _ & E). apply bind_inv in E. destruct E as (n0 & _ & E). apply bind_inv in E. destruct E as (u0 & _ & E). apply bind_inv in E. destruct E as (cs0 & E & _).
  cbn [fill_starts] in E. destruct (0 <? l_sb_cols lim0); cbn in E; discriminate.
Qed.
End Header.

(** ** Forced divisions, as in PartProofs.v *)
From Verif Require Import RangeCoderSpec CdfProofs PartSpec PartProofs BuildEncSpec.
Lemma r_terms cdf acc xs v : psum_terms cdf acc xs = Ok v -> BuildEncModel.psum_terms Release cdf acc xs = Ok v.
Proof. intros H. eapply le_ok; [apply le_psum_terms|]. rewrite debug_psum_terms. exact H. Qed.

Lemma r_split_two row b w N (types : list Z) : square b w -> valid_cdf N row -> N = (if ((w =? 8) || (w =? 16))%Z then 10 else 8)%nat ->
  Forall (fun x => 1 <= x < 8) types -> (length types = 5)%nat ->
  BuildEncModel.split_cdf Release row b types =
    if (w =? 32) || (w =? 64) then Panic
    else let q := total row (map Z.to_nat types) + (if w =? 128 then 0 else prob row 9) in Ok [as_i32 (2 ^ ((15 - q) mod 32)); 32768; 0].
Proof.
  intros Q V EN F L. unfold BuildEncModel.split_cdf.
  assert (N8 : (8 <= N)%nat) by (rewrite EN; destruct ((w =? 8) || (w =? 16)); lia).
  assert (FN : Forall (fun x => 1 <= x < Z.of_nat N) types) by (eapply Forall_impl; [|exact F]; cbv beta; intros; lia).
  rewrite (r_terms _ _ _ _ (terms_ok N row V types 0 FN ltac:(lia) ltac:(rewrite ?L; lia))). cbn [bind]. rewrite Z.add_0_l.
  assert (T : 0 <= total row (map Z.to_nat types) <= 32768 * Z.of_nat (length types)).
  { clear L FN. induction types as [|x xs IH]; [cbn; lia|]. inversion F as [|? ? X F']; subst. pose proof (IH F') as I. cbn [map total fold_right length] in *.
    pose proof (prob_bounds _ row (Z.to_nat x) V ltac:(lia)). unfold total in I. lia. }
  rewrite L in T. set (sum := total row (map Z.to_nat types)) in *. clearbody sum.
  assert (K : forall q, 0 <= q <= 2 ^ 20 -> (k <- BuildModel.chk_i32 Release (15 - q) ;; _ <- BuildModel.shift_ok Release 32 k ;;
    Ok [as_i32 (Z.shiftl 1 (BuildModel.shift_amt Release 32 k)); 32768; 0]) = Ok [as_i32 (2 ^ ((15 - q) mod 32)); 32768; 0]).
  { intros q B. cbn [BuildModel.chk_i32 BuildModel.shift_ok BuildModel.shift_amt bind]. rewrite (as_i32_id (15 - q)) by lia. rewrite Z.shiftl_1_l. reflexivity. }
  unfold square in Q. cbn [In] in Q. cbv zeta.
  destruct Q as [Q|[Q|[Q|[Q|[Q|[]]]]]]; injection Q as <- <-; unfold BLOCK_128X128; cbn [Z.eqb Pos.eqb orb] in *.
  1, 2: subst N; change PARTITION_VERT_4 with 9; rewrite (idx_entry 10) by (assumption || lia); cbn [bind]; change (9 - 1) with 8; rewrite (idx_entry 10) by (assumption || lia); cbn [bind];
    pose proof (entry_bounds 10 row 9 V ltac:(lia)); pose proof (entry_bounds 10 row 8 V ltac:(lia)); pose proof (prob_bounds 10 row 9 V ltac:(lia)) as PB;
    change (Z.to_nat 9) with 9%nat; change (Z.to_nat 8) with 8%nat;
    cbn [BuildModel.chk_i32 bind]; rewrite (as_i32_id (nth 9 row 0 - nth 8 row 0)) by lia; change (nth 9 row 0 - nth 8 row 0) with (prob row 9) in *;
    rewrite (as_i32_id (sum + prob row 9)) by lia; apply (K (sum + prob row 9)); lia.
  1, 2: subst N; assert (I : idx row PARTITION_VERT_4 = Panic) by
    (unfold idx; change (PARTITION_VERT_4 <? 0) with false; cbv iota; change (Z.to_nat PARTITION_VERT_4) with 9%nat; destruct V as (probs & cnt & -> & L' & _);
     replace (nth_error (probs ++ [cnt]) 9) with (@None Z); [reflexivity|symmetry; apply nth_error_None; rewrite app_length, L'; cbn; lia]);
    rewrite I; reflexivity.
  rewrite Z.add_0_r. apply (K sum). lia.
Qed.

Lemma r_split_or_horz t c out b w above left s : parts valid_cdf t -> square b w ->
  exists row, nth_error (flat t) (used_index w above left) = Some row /\
    BuildEncModel.code_split_or_horz Release c t out b above left s = release_split_outcome w row [2; 2; 2; 2; 2]%nat c out s.
Proof.
  intros H Q. destruct (row_of _ t w above left H) as (N & row & _ & HR & V & EN). exists row. split; [exact HR|].
  destruct (size_log2 b w Q) as (bsl & B). unfold BuildEncModel.code_split_or_horz. rewrite B. cbn [bind]. rewrite (table_row t b w above left bsl row Q B H HR). cbn [bind].
  rewrite (r_split_two row b w N) by (try assumption; try reflexivity; repeat (apply Forall_cons; [unfold PARTITION_VERT; lia|]); apply Forall_nil).
  unfold release_split_outcome. change (map Z.to_nat [PARTITION_VERT; PARTITION_VERT; PARTITION_VERT; PARTITION_VERT; PARTITION_VERT]) with [2; 2; 2; 2; 2]%nat.
  destruct ((w =? 32) || (w =? 64)); [reflexivity|]. cbv zeta. cbn [bind].
  destruct (BuildModel.encode_symbol Release c s out _) as [[[? ?] ?]| |]; reflexivity.
Qed.
Lemma r_split_or_vert t c out b w above left s : parts valid_cdf t -> square b w ->
  exists row, nth_error (flat t) (used_index w above left) = Some row /\
    BuildEncModel.code_split_or_vert Release c t out b above left s = release_split_outcome w row [2; 3; 4; 6; 7]%nat c out s.
Proof.
  intros H Q. destruct (row_of _ t w above left H) as (N & row & _ & HR & V & EN). exists row. split; [exact HR|].
  destruct (size_log2 b w Q) as (bsl & B). unfold BuildEncModel.code_split_or_vert. rewrite B. cbn [bind]. rewrite (table_row t b w above left bsl row Q B H HR). cbn [bind].
  rewrite (r_split_two row b w N) by (try assumption; try reflexivity; repeat (apply Forall_cons; [unfold PARTITION_VERT, PARTITION_SPLIT, PARTITION_HORZ_A, PARTITION_VERT_A, PARTITION_VERT_B; lia|]); apply Forall_nil).
  unfold release_split_outcome. change (map Z.to_nat _) with [2; 3; 4; 6; 7]%nat.
  destruct ((w =? 32) || (w =? 64)); [reflexivity|]. cbv zeta. cbn [bind].
  destruct (BuildModel.encode_symbol Release c s out _) as [[[? ?] ?]| |]; reflexivity.
Qed.
