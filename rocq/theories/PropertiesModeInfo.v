(** Properties C61 to C66: the mode info of a block. *)
From Coq Require Import String ZArith List Bool Lia.
From Verif Require Import Base TableLemmas SessionModel BlockTables CdfTables GeomModel SeqSpec ContextModel ContextSpec ContextProofs MvStackModel MvStackExamples PropertiesContext
  ModeInfoModel ModeInfoSpec ModeInfoProofs ModeIndexProofs MvAssignProofs ModeWholeProofs ModeTableProofs SegFeatureProofs.
Import ListNotations.
Open Scope string_scope.
Open Scope list_scope.
Open Scope Z_scope.

(** ** C61: reference frames *)

(** A single reference is read back by the syntax of the specification. *)
Theorem C61_one_reference : forall f r0 c0 r c b (select : bool) comp ty ref0 ref1 es, frame_ok f r c -> inner r0 c0 r c -> 0 <= b < 22 ->
  1 <= ref0 <= 7 -> (comp = 0 \/ select && large_enough b = false) ->
  exists ds, ref_frames f r c b select comp ty ref0 ref1 es = Ok (es ++ ds, 0, ref0, NONE) /\
    reads_as ds (av1_ref_frames (above_of f r0 r c) (left_of f c0 r c) b select) (ref0, NONE).
Proof. exact one_reference_ok. Qed.
Print Assumptions C61_one_reference.
Example C61_one_case : frame_ok ex_frame 1 1 /\ inner 0 0 1 1 /\ large_enough 6 = true /\ large_enough 2 = false /\
  ref_frames ex_frame 1 1 6 true 0 0 6 0 [] =
  Ok ([ESym "comp_mode" [2] 0; ESym "single_ref" [2; 0] 1; ESym "single_ref" [2; 1] 0; ESym "single_ref" [2; 5] 1], 0, 6, -1).
Proof. split; [exact ex_frame_ok|]. split; [split; left; reflexivity|]. vm_compute. repeat split. Qed.

(** Two references are read back exactly for four of the sixteen pairs, and only if the
    context of the type is right (C57). *)
Theorem C61_two_references_exactly : forall f r0 c0 r c b select ty ref0 ref1 es, frame_ok f r c -> inner r0 c0 r c -> 0 <= b < 22 ->
  select && large_enough b = true -> (ty = 0 /\ unidir_pair ref0 ref1 \/ ty = 1 /\ bidir_pair ref0 ref1) ->
  let u := above_of f r0 r c in let l := left_of f c0 r c in
  exists ds, ref_frames f r c b select 1 ty ref0 ref1 es = Ok (es ++ ds, 1, ref0, ref1) /\
    (readable_pair ty ref0 ref1 /\ ~ both_uni_above u l -> reads_as ds (av1_ref_frames u l b select) (ref0, ref1)) /\
    (~ (readable_pair ty ref0 ref1 /\ ~ both_uni_above u l) -> never_reads_as ds (av1_ref_frames u l b select) (ref0, ref1)).
Proof. exact two_references_exactly. Qed.
Print Assumptions C61_two_references_exactly.

(** LAST and BWDREF: written, but not read back. *)
Theorem C61_two_references_refuted : exists f r c b ref0 ref1 ds, frame_ok f r c /\ bidir_pair ref0 ref1 /\
  ref_frames f r c b true 1 1 ref0 ref1 [] = Ok (ds, 1, ref0, ref1) /\
  never_reads_as ds (av1_ref_frames (above_of f 0 r c) (left_of f 0 r c) b true) (ref0, ref1).
Proof.
  destruct (two_references_exactly ex_frame 0 0 1 1 6 true 1 1 5 [] ex_frame_ok ltac:(split; left; reflexivity) ltac:(lia) eq_refl) as (ds & E & _ & N).
  - right. unfold bidir_pair. lia.
  - exists ex_frame, 1, 1, 6, 1, 5, ds. split; [exact ex_frame_ok|]. split; [unfold bidir_pair; lia|]. split; [exact E|]. apply N.
    intros [R _]. unfold readable_pair in R. cbn [In] in R. decompose [and or] R; try congruence.
Qed.
Print Assumptions C61_two_references_refuted.
Example C61_two_case : ~ both_uni_above (above_of ex_frame 0 1 1) (left_of ex_frame 0 1 1) /\ readable_pair 1 3 7 /\ readable_pair 0 1 2 /\
  bidir_pair 3 7 /\ unidir_pair 1 2 /\ (exists ds, ref_frames ex_frame 1 1 6 true 1 1 3 7 [] = Ok (ds, 1, 3, 7) /\ List.length ds = 5%nat).
Proof.
  split; [intros H; unfold both_uni_above in H; vm_compute in H; decompose [and] H; discriminate|].
  split; [right; split; [reflexivity|left; reflexivity]|]. split; [left; split; [reflexivity|left; reflexivity]|].
  split; [unfold bidir_pair; lia|]. split; [left; reflexivity|]. eexists. split; [vm_compute; reflexivity|reflexivity].
Qed.

(** ** C62: prediction mode and index *)

(** With one reference the mode and the index are read back exactly if the contexts of
    the symbols written ([x]) are those of the specification ([y]). *)
Theorem C62_one_mode_exactly : forall pm (new_mv zero_mv ref_mv : bool) (x y : mode_ctx) stale num drl es,
  (3 <= List.length drl)%nat -> (3 <= List.length (c_drl x))%nat ->
  let m := mode_of_flags new_mv zero_mv ref_mv in
  exists es1 ds i, inter_mode false pm new_mv zero_mv ref_mv (c_ref x) (c_new x) (c_zero x) stale es = Ok (es1, single_mode m) /\
    mv_index (single_mode m) num drl (c_drl x) es1 = Ok (es ++ ds, i) /\
    (mode_contexts m num drl y x -> reads_as ds (av1_mode_index false y num) (single_mode m, i)) /\
    (~ mode_contexts m num drl y x -> never_reads_as ds (av1_mode_index false y num) (single_mode m, i)).
Proof. exact one_mode_exactly. Qed.
Print Assumptions C62_one_mode_exactly.
Example C62_one_case : mode_of_flags true true true = Near /\
  (let x := mkModeCtx 2 1 3 [0; 1; 2] in mode_contexts Near 4 [0; 1; 0] x x) /\
  mv_index 15 4 [0; 1; 0] [0; 1; 2] [] = Ok ([ESym "drl_mode" [1] 1; ESym "drl_mode" [2] 0], 2).
Proof. split; [reflexivity|]. split; [repeat split|]. vm_compute. reflexivity. Qed.

(** With two references the mode is written, but the index depends on the mode of the
    last block with one reference ([stale]), which is still stored. *)
Theorem C62_two_modes_exactly : forall mode (new_mv zero_mv ref_mv : bool) (x : mode_ctx) stale num drl es,
  18 <= mode <= 25 -> 0 <= c_ref x < 6 -> 0 <= c_new x < 6 -> (3 <= List.length drl)%nat -> (3 <= List.length (c_drl x))%nat ->
  exists es1 ds i, inter_mode true mode new_mv zero_mv ref_mv (c_ref x) (c_new x) (c_zero x) stale es = Ok (es1, stale) /\
    mv_index stale num drl (c_drl x) es1 = Ok (es ++ ds, i) /\
    (stale_ok stale mode num -> reads_as ds (av1_mode_index true x num) (mode, i)) /\
    (~ stale_ok stale mode num -> never_reads_as ds (av1_mode_index true x num) (mode, i)).
Proof. exact two_modes_exactly. Qed.
Print Assumptions C62_two_modes_exactly.
Theorem C62_two_modes_refuted : exists mode x stale num drl es1 ds i, 18 <= mode <= 25 /\
  inter_mode true mode true true true (c_ref x) (c_new x) (c_zero x) stale [] = Ok (es1, stale) /\
  mv_index stale num drl (c_drl x) es1 = Ok (ds, i) /\ never_reads_as ds (av1_mode_index true x num) (mode, i).
Proof.
  destruct (two_modes_exactly 25 true true true (mkModeCtx 0 0 0 [0; 0; 0]) 14 3 [1; 0; 0] []) as (es1 & ds & i & A & B & _ & N); try (cbn; lia).
  exists 25, (mkModeCtx 0 0 0 [0; 0; 0]), 14, 3, [1; 0; 0], es1, ds, i. split; [lia|]. split; [exact A|]. split; [exact B|]. apply N.
  unfold stale_ok. vm_compute. intros [H|(H & _)]; [discriminate|apply H; reflexivity].
Qed.
Print Assumptions C62_two_modes_refuted.
Example C62_two_case : stale_ok 17 25 3 /\ ~ stale_ok 14 25 3.
Proof. split; [left; reflexivity|]. unfold stale_ok. vm_compute. intros [H|(H & _)]; [discriminate|apply H; reflexivity]. Qed.

(** The contexts used for new_mv, ref_mv and the index are never computed: coding a
    block leaves them as they were. *)
Theorem C62_contexts_never_computed : forall x b t es es' b' t', encode_mode_info x b t es = Ok (es', b', t') ->
  t_ref_ctx t' = t_ref_ctx t /\ t_new_ctx t' = t_new_ctx t /\ t_drl_ctx t' = t_drl_ctx t.
Proof. exact contexts_kept. Qed.
Print Assumptions C62_contexts_never_computed.

(** ** C63: motion vectors *)

(** The vector is assigned as the specification says, but of a new vector only the kind
    of the difference is written: it is read back exactly if there is no difference. *)
Theorem C63_one_vector_exactly : forall x mvs pred mode es m0 m1 int hp, n_intrabc x = false -> mv_in_ok x ->
  modes_of (n_y_mode x) = Some (m0, m1) -> vec_small (fst mvs) ->
  let p0 := pred_of x 0 m0 in
  exists ds mvs', assign_mv false x mvs pred mode es = Ok (es ++ ds, mvs', (p0, snd pred), single_mode m0) /\
    mvs' = (if is_new m0 then fst mvs else p0, snd mvs) /\
    ((is_new m0 = true -> fst mvs = p0) -> reads_as ds (av1_list_mv m0 0 int hp p0) (fst mvs')) /\
    (~ (is_new m0 = true -> fst mvs = p0) -> never_reads_as ds (av1_list_mv m0 0 int hp p0) (fst mvs')).
Proof. exact one_mv_exactly. Qed.
Print Assumptions C63_one_vector_exactly.

(** Two references; the mode stored for the block is replaced by the part of list 1. *)
Theorem C63_two_vectors_exactly : forall x mvs pred mode es m0 m1 int hp, n_intrabc x = false -> mv_in_ok x ->
  modes_of (n_y_mode x) = Some (m0, m1) -> vec_small (fst mvs) ->
  let p0 := pred_of x 0 m0 in let p1 := pred_of x 1 m1 in
  exists ds mvs', assign_mv true x mvs pred mode es = Ok (es ++ ds, mvs', (p0, p1), single_mode m1) /\
    mvs' = (if is_new m0 then fst mvs else p0, if is_new m1 then snd mvs else p1) /\
    (both_equal m0 m1 mvs p0 p1 -> reads_as ds (av1_assign_mv m0 m1 p0 p1 int hp) mvs') /\
    (~ both_equal m0 m1 mvs p0 p1 -> never_reads_as ds (av1_assign_mv m0 m1 p0 p1 int hp) mvs').
Proof. exact two_mvs_exactly. Qed.
Print Assumptions C63_two_vectors_exactly.

(** Intra block copy: panics in the first row of superblocks without candidates. *)
Theorem C63_intrabc_exactly : forall x mvs pred mode es int hp, n_intrabc x = true -> mv_in_ok x -> vec_small (fst mvs) -> 0 <= n_row x < 2 ^ 32 ->
  let c0 := fst (nth 0 (n_list x) ((0, 0), (0, 0))) in let c1 := fst (nth 1 (n_list x) ((0, 0), (0, 0))) in
  let p := av1_intrabc_pred c0 c1 (n_row x) (n_row_start x) (sb4 x) in
  (c0 = (0, 0) /\ c1 = (0, 0) /\ n_row x < sb4 x -> assign_mv false x mvs pred mode es = Panic) /\
  (~ (c0 = (0, 0) /\ c1 = (0, 0) /\ n_row x < sb4 x) ->
    exists ds, assign_mv false x mvs pred mode es = Ok (es ++ ds, mvs, (p, snd pred), 17) /\
      (fst mvs = p -> reads_as ds (av1_mv 1 int hp p) (fst mvs)) /\
      (fst mvs <> p -> never_reads_as ds (av1_mv 1 int hp p) (fst mvs))).
Proof. exact intrabc_exactly. Qed.
Print Assumptions C63_intrabc_exactly.

Definition ex_mv_in (y : Z) (bc : bool) : mv_in :=
  mkMvIn y bc 2 1 [((8, -16), (4, 4)); ((2, 6), (0, 12)); ((0, 0), (0, 0))] ((6, 0), (0, 6)) 20 0 false.
Lemma ex_mv_in_ok : forall y bc, mv_in_ok (ex_mv_in y bc).
Proof.
  intros y bc. split; cbn [ex_mv_in n_list n_idx n_globals].
  - repeat (apply Forall_cons; [unfold vec_small; cbn [fst snd]; lia|]). apply Forall_nil.
  - vm_compute. discriminate.
  - vm_compute. split; [discriminate|reflexivity].
  - unfold vec_small. cbn [fst snd]. lia.
Qed.
Theorem C63_new_vector_refuted : exists x mvs pred mode ds mvs' r m0 m1, n_intrabc x = false /\ mv_in_ok x /\ modes_of (n_y_mode x) = Some (m0, m1) /\
  assign_mv false x mvs pred mode [] = Ok (ds, mvs', r, mode) /\
  never_reads_as ds (av1_list_mv m0 0 false false (pred_of x 0 m0)) (fst mvs').
Proof.
  destruct (one_mv_exactly (ex_mv_in 17 false) ((2, 8), (0, 0)) ((0, 0), (0, 0)) 17 [] New Global false false eq_refl (ex_mv_in_ok _ _) eq_refl)
    as (ds & mvs' & A & B & _ & N); [unfold vec_small; cbn [fst snd]; lia|].
  exists (ex_mv_in 17 false), ((2, 8), (0, 0)), ((0, 0), (0, 0)), 17. exists ds, mvs'. eexists. exists New, Global.
  split; [reflexivity|]. split; [apply ex_mv_in_ok|]. split; [reflexivity|]. split; [exact A|]. apply N. intros H. specialize (H eq_refl). vm_compute in H. discriminate.
Qed.
Print Assumptions C63_new_vector_refuted.
Example C63_case : pred_of (ex_mv_in 17 false) 0 New = (2, 6) /\ modes_of 22 = Some (Near, New) /\ pred_of (ex_mv_in 22 false) 1 New = (0, 12) /\
  assign_mv true (ex_mv_in 22 false) ((5, 5), (0, 12)) ((0, 0), (0, 0)) 22 [] = Ok ([ESym "mv_joint" [0] 0], ((2, 6), (0, 12)), ((2, 6), (0, 12)), 17) /\
  assign_mv false (ex_mv_in 0 true) ((8, -16), (0, 0)) ((0, 0), (0, 0)) 0 [] = Ok ([ESym "mv_joint" [1] 0], ((8, -16), (0, 0)), ((8, -16), (0, 0)), 17).
Proof. vm_compute. repeat split. Qed.

(** ** C64: the mode info of a block as a whole *)

(** What is written for a block of an intra frame is never a mode info of an intra
    frame: neither use_intrabc nor a prediction mode is ever written. [d] is anything the
    decoder may know, [v] any mode info. *)
Theorem C64_intra_frame_unreadable : forall x b t es es' b' t' d v, encode_mode_info x b t es = Ok (es', b', t') ->
  exists ds, es' = es ++ ds /\ never_reads_as ds (av1_intra_frame d) v.
Proof. exact intra_unreadable. Qed.
Print Assumptions C64_intra_frame_unreadable.

(** In other frames nothing is written at all, so not even the skip flag is there. *)
Theorem C64_inter_frame_unreadable : forall x b t es u l v, x_intra x = false ->
  encode_mode_info x b t es = Ok (es ++ [], b, t) /\ never_reads_as [] (av1_inter_skip u l) v.
Proof. exact inter_unreadable. Qed.
Print Assumptions C64_inter_frame_unreadable.

(** An intra block without segmentation and deltas: skip flag, cdef index and is_inter
    are written. The first two are read back unless the block is skipped and an index is
    written, which the decoder then does not read. *)
Theorem C64_skip_cdef_exactly : forall x b t es r0 c0, x_intra x = true -> x_seg_on x = false -> t_read_deltas t = false -> p_inter b = false ->
  frame_ok (x_frame x) (x_row x) (x_col x) -> inner r0 c0 (x_row x) (x_col x) -> (exists l, idx (x_lossless x) 0 = Ok l) ->
  (cdef_coded x = true -> cdef_ready x (p_bsize b) (t_cdef t)) -> 0 <= p_cdef b < 2 ^ 64 ->
  let u := above_of (x_frame x) r0 (x_row x) (x_col x) in let l := left_of (x_frame x) c0 (x_row x) (x_col x) in
  exists pre b' t', encode_mode_info x b t es = Ok (es ++ pre ++ [ESym "is_inter" [spec_is_inter u l] 0], b', t') /\
    (reads_as pre (av1_skip_cdef u l (cdef_coded x) (x_cdef_bits x)) (b2z (p_skip b), if cdef_coded x then Some (p_cdef b) else None) <->
     ~ (p_skip b = true /\ cdef_coded x = true)) /\
    (p_skip b = true -> cdef_coded x = true -> forall k, av1_skip_cdef u l true (x_cdef_bits x) (pre ++ k) = Some ((1, None), ELit (x_cdef_bits x) (p_cdef b) :: k)).
Proof. exact skip_cdef_exactly. Qed.
Print Assumptions C64_skip_cdef_exactly.

Definition ex_full (m : mi) (seg : Z) : full_mi := mkFull m 14 (0, 0) (0, 0) seg.
Definition ex_mode_env (r c : Z) (seg_on : bool) : mode_env :=
  mkModeEnv ex_tile r c true true [[Some (ex_full ex_above 2); Some (ex_full ex_above 0)]; [Some (ex_full ex_left 0); Some (ex_full ex_here 0)]] true true
    true false seg_on (repeat [None; None; None; None; None; Some 0; None] 8) (repeat false 8)
    false true false 3 false 1 true false 2 3 false false false (repeat 0 8) ex_params (ex_field (0, 0)).
Definition ex_blk (bsize : Z) (skip : bool) : blk :=
  mkBlk bsize 0 skip 5 40 [0; 0; 0; 0] false 1 (-1) 0 0 0 true true true [0; 0; 0] false ((0, 0), (0, 0)).
Definition ex_mode_state (m : list (list Z)) : mode_state :=
  mkModeState false ex_start 0 0 0 [0; 0; 0; 0; 0; 0; 0; 0] 0 ((0, 0), (0, 0)) 40 [0; 0; 0; 0] false m.
Definition ex_cdef : list (list Z) := repeat (repeat (-1) 17) 17.

Example C64_case : frame_ok (x_frame (ex_mode_env 1 1 false)) 1 1 /\ inner 0 0 1 1 /\ cdef_coded (ex_mode_env 1 1 false) = true /\
  cdef_ready (ex_mode_env 1 1 false) 3 ex_cdef /\
  match encode_mode_info (ex_mode_env 1 1 false) (ex_blk 3 true) (ex_mode_state ex_cdef) [] with
  | Ok (es, _, _) => es = [ESym "skip" [1] 1; ELit 3 5; ESym "is_inter" [0] 0]
  | _ => False
  end.
Proof.
  split.
  { exists 2, 2. split; [reflexivity|]. split; [intros row [<-|[<-|[]]]; reflexivity|]. split; [lia|]. split; [lia|].
    intros i j m H. destruct ex_frame_ok as (R & C & _ & _ & _ & _ & OK).
    unfold cell in H. cbn in H. destruct (Z.to_nat i) as [|[|n]]; cbn [nth_error] in H; try (destruct n; discriminate);
      destruct (Z.to_nat j) as [|[|k]]; cbn in H; try (destruct k; discriminate); injection H as <-;
      first [exact (OK 0 1 _ eq_refl)|exact (OK 1 0 _ eq_refl)|exact (OK 1 1 _ eq_refl)]. }
  split; [split; left; reflexivity|]. split; [reflexivity|]. split; [|vm_compute; reflexivity].
  exists 17, 17, 2, 2. split; [split; [reflexivity|]; intros row H; apply repeat_spec in H; subst row; reflexivity|]. cbn [ex_mode_env x_row x_col].
  split; [lia|]. split; [lia|]. split; [reflexivity|]. split; [reflexivity|]. split; [reflexivity|].
  split; intros k H; change (unit_of 1) with 0 in H; unfold steps in H; lia.
Qed.

(** ** C65: the table of cdef indices *)

(** The entries set are all those above and to the left of the end of the block. *)
Theorem C65_entries_written : forall x b t es R C w4 h4, cdef_coded x = true -> table (t_cdef t) R C -> 0 <= x_row x -> 0 <= x_col x ->
  entry (t_cdef t) (unit_of (x_row x)) (unit_of (x_col x)) = Some (-1) ->
  idx num_4x4_blocks_wide (p_bsize b) = Ok w4 -> idx num_4x4_blocks_high (p_bsize b) = Ok h4 ->
  (forall k, steps (unit_of (x_row x) + h4) k = true -> k < R) -> (forall k, steps (unit_of (x_col x) + w4) k = true -> k < C) ->
  exists m, code_cdef x b t es = Ok (es ++ [ELit (x_cdef_bits x) (as_u64 (p_cdef b))], with_cdef m t) /\ table m R C /\
    forall i j, entry m i j = if steps (unit_of (x_row x) + h4) i && steps (unit_of (x_col x) + w4) j then Some (p_cdef b) else entry (t_cdef t) i j.
Proof. exact cdef_written. Qed.
Print Assumptions C65_entries_written.

(** That is what the specification sets exactly if the entries of other units that are
    set have the value already. *)
Theorem C65_entries_exactly : forall m m' r c w4 h4 v R C, table m R C -> 0 <= r -> 0 <= c ->
  (forall i j, entry m' i j = if steps (unit_of r + h4) i && steps (unit_of c + w4) j then Some v else entry m i j) ->
  ((forall i j, entry m' i j = if av1_cdef_sets r c w4 h4 i j then Some v else entry m i j) <->
   forall i j, steps (unit_of r + h4) i = true -> steps (unit_of c + w4) j = true -> i < unit_of r \/ j < unit_of c -> entry m i j = Some v).
Proof. exact cdef_sets_iff. Qed.
Print Assumptions C65_entries_exactly.

(** A block in the second row of superblocks overwrites the index of one in the first. *)
Theorem C65_table_refuted : exists x b t es m, cdef_coded x = true /\ code_cdef x b t [] = Ok (es, with_cdef m t) /\
  entry (t_cdef t) 0 0 = Some 2 /\ av1_cdef_sets (x_row x) (x_col x) 2 2 0 0 = false /\ entry m 0 0 = Some (p_cdef b) /\ p_cdef b = 5.
Proof.
  exists (ex_mode_env 16 3 false), (ex_blk 3 false), (ex_mode_state (set_nth 0 (2 :: repeat (-1) 16) ex_cdef)).
  do 2 eexists. split; [reflexivity|]. split; [vm_compute; reflexivity|]. repeat split.
Qed.
Print Assumptions C65_table_refuted.

(** The table the encoder has does not have any entries: every block with an index to
    code panics. *)
Theorem C65_initial_table_panics : forall x b t es, cdef_coded x = true -> t_cdef t = [[]] -> code_cdef x b t es = Panic.
Proof. exact cdef_panics. Qed.
Print Assumptions C65_initial_table_panics.
Example C65_case : cdef_coded (ex_mode_env 3 3 false) = true /\ t_cdef (ex_mode_state [[]]) = [[]] /\
  steps 34 16 = true /\ steps 34 32 = true /\ steps 32 32 = false /\ av1_cdef_sets 20 3 16 16 16 0 = true /\ unit_of 20 = 16.
Proof. repeat split. Qed.

(** ** C66: segment ids *)

(** Neighbours whose ids are [ul], [u], [l]; [max] is the number of segments up to the
    last active one. The encoder takes it to be 1. *)
Theorem C66_segment_id_exactly : forall avail_u avail_l ids r c ul u l seg max es,
  prev_id (avail_u && avail_l) ids (r - 1) (c - 1) ul -> prev_id avail_u ids (r - 1) c u -> prev_id avail_l ids r (c - 1) l ->
  0 <= seg < max -> 2 <= max <= 8 ->
  let pred := av1_seg_pred ul u l in let run := code_segment_id avail_u avail_l ids r c false 0 seg es in
  (pred = 0 -> exists ds, run = Ok (es ++ ds, seg) /\ reads_as ds (av1_segment_id ul u l max) seg) /\
  (pred <> 0 -> seg <> 0 -> run = Panic) /\
  (pred <> 0 -> seg = 0 -> exists ds w, run = Ok (es ++ ds, seg) /\ reads_as ds (av1_segment_id ul u l max) w /\ w <> seg).
Proof. exact segment_exactly. Qed.
Print Assumptions C66_segment_id_exactly.
Theorem C66_segment_id_refuted : exists ids r c seg, prev_id true ids (r - 1) (c - 1) 3 /\ prev_id true ids (r - 1) c 3 /\ prev_id true ids r (c - 1) 1 /\
  0 <= seg < 8 /\ code_segment_id true true ids r c false 0 seg [] = Panic.
Proof.
  exists [[Some 3; Some 3]; [Some 1; None]], 1, 1, 3. cbn [prev_id]. split; [|split; [|split]].
  1-3: split; [lia|]; split; [lia|]; split; [lia|]; eexists; split; reflexivity.
  split; [lia|]. vm_compute. reflexivity.
Qed.
Print Assumptions C66_segment_id_refuted.

(** The table of features lacks the last one: with segmentation a block of an intra
    frame is coded only if its segment fixes the reference, and either to intra or
    together with the skip feature. *)
Theorem C66_features_needed : forall x b t es es' b' t', features_ok x -> x_seg_on x = true -> x_intra x = true ->
  encode_mode_info x b t es = Ok (es', b', t') ->
  exists rf, feature_at x (p_seg b') 5 = Some rf /\ (rf = 0 \/ feature_at x (p_seg b') 6 <> None).
Proof. exact segmentation_needs. Qed.
Print Assumptions C66_features_needed.
Example C66_case : features_ok (ex_mode_env 1 1 true) /\
  match encode_mode_info (ex_mode_env 1 1 true) (ex_blk 3 false) (ex_mode_state ex_cdef) [] with
  | Ok (es, _, _) => es = [ESym "skip" [1] 0; ESym "segment_id" [1] 0; ELit 3 5]
  | _ => False
  end.
Proof. split; [intros row H; apply repeat_spec in H; subst row; reflexivity|]. vm_compute. reflexivity. Qed.

(** C66: a segment that fixes the reference: the reference is taken and nothing is
    written for it, for every value that names a reference; other values panic. If it has
    the skip feature instead, the reference is LAST. *)
Theorem C66_reference_taken : forall x b es v, x_seg_on x = true -> feature x (p_seg b) 5 = Ok (Some v) ->
  (-1 <= v <= 7 -> exists b', code_refs x b es = Ok (es, b') /\ p_ref0 b' = v /\ p_ref1 b' = -1 /\ p_seg b' = p_seg b /\ p_inter b' = p_inter b /\ p_intrabc b' = p_intrabc b) /\
  (~ -1 <= v <= 7 -> code_refs x b es = Panic).
Proof. exact refs_fixed. Qed.
Print Assumptions C66_reference_taken.
Theorem C66_reference_skip : forall x b es, x_seg_on x = true -> feature x (p_seg b) 5 = Ok None -> (exists v, feature x (p_seg b) 6 = Ok (Some v)) ->
  exists b', code_refs x b es = Ok (es, b') /\ p_ref0 b' = 1 /\ p_ref1 b' = -1.
Proof. exact refs_last. Qed.
Print Assumptions C66_reference_skip.

(** C66: so a block that is coded with segmentation is an inter block exactly if its
    segment fixes another reference than the intra one; it then has that reference, the
    global motion mode and the global vector. *)
Theorem C66_features_taken : forall x b t es es' b' t' rf, features_ok x -> x_seg_on x = true -> x_intra x = true ->
  encode_mode_info x b t es = Ok (es', b', t') -> feature_at x (p_seg b') 5 = Some rf ->
  (p_inter b' = true <-> rf <> 0) /\
  (rf <> 0 -> -1 <= rf <= 7 /\ p_ref0 b' = rf /\ p_ref1 b' = -1 /\ t_y_mode t' = 16 /\ t_idx t' = 0 /\
    (p_intrabc b' = false -> fst (p_mvs b') = fst (s_global (t_mv t')) /\ fst (t_pred t') = fst (p_mvs b'))).
Proof. exact features_taken. Qed.
Print Assumptions C66_features_taken.

Definition ex_seg_env : mode_env :=
  mkModeEnv ex_tile 4 4 true true (repeat (repeat (Some (ex_full ex_above 0)) 16) 16) true true
    true false true (repeat [None; None; None; None; None; Some 7; Some 0] 8) (repeat false 8)
    false true false 3 false 1 true false 2 3 false false false (repeat 0 8) ex_params (ex_field (0, 0)).
Example C66_taken_case : features_ok ex_seg_env /\
  match encode_mode_info ex_seg_env (ex_blk 3 false) (ex_mode_state ex_cdef) [] with
  | Ok (es, b, t) => List.length es = 3%nat /\ p_ref0 b = 7 /\ p_inter b = true /\ t_y_mode t = 16
  | _ => False
  end.
Proof. split; [intros row H; apply repeat_spec in H; subst row; reflexivity|]. vm_compute. repeat split. Qed.
