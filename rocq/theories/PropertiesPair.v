(** Property C112: the motion of an inter block with two references. *)
From Coq Require Import String ZArith List Bool Lia ZifyBool.
From Verif Require Import Base TableLemmas BlockTables GeomModel SeqSpec ContextModel ContextSpec ContextProofs MvStackModel MvStackSpec MvStackProofs MvStackExamples MvFindProofs PropertiesContext
  ModeInfoModel ModeInfoSpec ModeInfoProofs ModeIndexProofs MvAssignProofs MotionSpec PropertiesModeInfo PairSpec PairProofs.
Import ListNotations.
Open Scope string_scope.
Open Scope list_scope.
Open Scope Z_scope.

(** Coding never fails, keeps the references, and leaves as first vector [v] what the mode
    of the last block with one reference ([old]) asks for, as second vector always the
    global motion of the second reference; the mode stored is GLOBALMV. A decoder with the
    same contexts and a list of candidates of the same length reads references, mode, index
    and both vectors back exactly if the pair of references is one of the four readable
    ones, both sides use the same context for the type, the mode goes with the old one, and
    both vectors are those the decoder finds. Otherwise it never does, whatever follows. *)
Theorem C112_pair_exactly : forall x b t es r0 c0 (int hp : bool) lists,
  let ra := p_ref0 b in let rb := p_ref1 b in let e := pair_env x (p_bsize b) ra rb in
  let ga := av1_global_mv e ra in let gb := av1_global_mv e rb in let cs := pair_candidates e ra rb in let num := len cs in
  let y := mkModeCtx (t_new_ctx t) (zero_context e true (ga, gb)) (t_ref_ctx t) (t_drl_ctx t) in
  let old := t_y_mode t in let i := chosen (old_mode old) num (p_drl b) in let p := av1_pred (old_mode old) i num (map fst cs) ga in
  x_seg_on x = false -> p_intrabc b = false -> frame_ok (x_frame x) (x_row x) (x_col x) -> inner r0 c0 (x_row x) (x_col x) -> 0 <= p_bsize b < 22 ->
  p_comp_mode b = 1 -> x_ref_select x && large_enough (p_bsize b) = true ->
  (p_comp_ref_type b = 0 /\ unidir_pair ra rb \/ p_comp_ref_type b = 1 /\ bidir_pair ra rb) ->
  env_ok e true -> around_ok e -> tables_right e -> arrays_ok (t_mv t) -> x_hp x = false -> 0 <= gm_type_of e ra <= 1 -> 0 <= gm_type_of e rb <= 1 ->
  (3 <= List.length (p_drl b))%nat -> (3 <= List.length (t_drl_ctx t))%nat -> 0 <= t_ref_ctx t < 6 -> 0 <= t_new_ctx t < 6 ->
  18 <= p_mode b <= 25 -> In old [0; 14; 15; 16; 17] -> 2 <= num -> len (lists (ra, rb)) = num ->
  (old = 17 -> vec_small (fst (p_mvs b)) /\ vec_small p) ->
  let v := if old =? 17 then fst (p_mvs b) else p in
  let want := fun m (second : bool) => av1_pred m i num (map (if second then snd else fst) (lists (ra, rb))) (if second then gb else ga) in
  let u := above_of (x_frame x) r0 (x_row x) (x_col x) in let l := left_of (x_frame x) c0 (x_row x) (x_col x) in
  let good := readable_pair (p_comp_ref_type b) ra rb /\ ~ both_uni_above u l /\ kind_ok old (p_mode b) /\
    exists m0 m1, modes_of (p_mode b) = Some (m0, m1) /\ v = want m0 false /\ gb = want m1 true in
  exists ds b' t', code_inter x b t es = Ok (es ++ ds, b', t') /\
    p_ref0 b' = ra /\ p_ref1 b' = rb /\ p_mvs b' = (v, gb) /\ p_mode b' = 16 /\ t_y_mode t' = old /\ t_idx t' = i /\
    let reader := av1_pair_motion u l (p_bsize b) (x_ref_select x) (pair_env x (p_bsize b)) lists y int hp in
    (good -> reads_as ds reader ((ra, rb), (p_mode b, i), (v, gb))) /\ (~ good -> never_reads_as ds reader ((ra, rb), (p_mode b, i), (v, gb))).
Proof. exact pair_read. Qed.
Print Assumptions C112_pair_exactly.

(** The old mode is always one of those above: it starts as 0 and only blocks with one
    reference (or a segment with global motion) change it. *)
Theorem C112_old_mode : forall x b t es es' b' t', encode_mode_info x b t es = Ok (es', b', t') ->
  In (t_y_mode t') [14; 15; 16; 17] \/ t_y_mode t' = t_y_mode t.
Proof. exact old_kept. Qed.
Print Assumptions C112_old_mode.

(** Row 3 has 4x4 blocks, elsewhere there are 8x8 blocks; all use GOLDEN and ALTREF. The
    block of 8x8 samples is at (4, 4). *)
Definition ex_pair_nbr (size : Z) (m0 m1 : mv) : full_mi :=
  mkFull (mkMi size 0 0 true false false false 0 0 4 7 [0; 0] [0; 0; 0] [0; 0; 0] [0; 0; 0] 0 0) 18 m0 m1 0.
Definition ex_pair_mis : list (list (option full_mi)) :=
  repeat (repeat (Some (ex_pair_nbr 3 (-8, 2) (4, 4))) 16) 3 ++ [repeat (Some (ex_pair_nbr 0 (2, 4) (2, 0))) 16] ++
  repeat (repeat (Some (ex_pair_nbr 3 (-8, 2) (4, 4))) 16) 12.
Definition ex_pair_env : mode_env :=
  mkModeEnv ex_tile 4 4 true true ex_pair_mis true true
    true false false (repeat [None; None; None; None; None; None; None] 8) (repeat false 8)
    false true false 3 false 1 true false 2 3 true false false (repeat 1 8) ex_params (ex_field (20, 4)).
Definition ex_pair_blk (mode : Z) : blk := mkBlk 3 0 false 5 40 [0; 0; 0; 0] true 4 7 1 1 mode false false false [1; 1; 0] false ((7, 3), (1, 1)).
Definition ex_pair_state (old : Z) : mode_state :=
  mkModeState false ex_start old 0 0 [0; 0; 0; 0; 0; 0; 0; 0] 0 ((0, 0), (0, 0)) 40 [0; 0; 0; 0] false [].
Definition ex_pair_list : list (mv * mv) := pair_candidates (pair_env ex_pair_env 3 4 7) 4 7.

Lemma ex_pair_nbrs : forall r c b, nb_at (pair_env ex_pair_env 3 4 7) r c = Some b -> nbr_ok b /\ table_right (b_size b).
Proof.
  apply nb_at_all. intros row o I1 I2.
  assert (F : forallb (fun o => match o with Some b => ((b_size b =? 0) || (b_size b =? 3)) && (Z.abs (fst (b_mv0 b)) <=? 100) && (Z.abs (snd (b_mv0 b)) <=? 100) &&
                (Z.abs (fst (b_mv1 b)) <=? 100) && (Z.abs (snd (b_mv1 b)) <=? 100) | None => true end) (concat (v_mis (pair_env ex_pair_env 3 4 7))) = true) by reflexivity.
  rewrite forallb_forall in F. specialize (F o (proj2 (in_concat _ _) (ex_intro _ row (conj I1 I2)))).
  destruct o as [b|]; [|exact I]. unfold nbr_ok, mv_ok, table_right. lia.
Qed.
Lemma ex_pair_frame : frame_ok (x_frame ex_pair_env) 4 4.
Proof.
  exists 16, 16. split; [reflexivity|]. split.
  { assert (F : forallb (fun row => len row =? 16) (f_mis (x_frame ex_pair_env)) = true) by reflexivity.
    rewrite forallb_forall in F. intros row H. specialize (F row H). lia. }
  split; [lia|]. split; [lia|]. intros i j m H. unfold cell in H.
  destruct (nth_error (f_mis (x_frame ex_pair_env)) (Z.to_nat i)) as [row|] eqn:R; [|discriminate].
  destruct (nth_error row (Z.to_nat j)) as [o|] eqn:O; [|discriminate]. subst o.
  apply nth_error_In in R, O.
  assert (F : forall c, In c (concat (f_mis (x_frame ex_pair_env))) -> c = Some (i_mi (ex_pair_nbr 3 (0, 0) (0, 0))) \/ c = Some (i_mi (ex_pair_nbr 0 (0, 0) (0, 0)))).
  { intros c. vm_compute. intros C. repeat (destruct C as [<-|C]; [first [left; reflexivity|right; reflexivity]|]). destruct C. }
  destruct (F (Some m)) as [Q|Q]; [apply in_concat; exists row; split; assumption| |]; injection Q as ->; cbn [ex_pair_nbr i_mi]; block_ok.
Qed.
Lemma ex_pair_env_ok : env_ok (pair_env ex_pair_env 3 4 7) true.
Proof.
  constructor; cbn [pair_env ex_pair_env v_size v_ref0 v_ref1 v_gm_type v_gm_params v_tile v_row v_col v_field x_tile x_row x_col x_gm_type x_gm_params x_field ex_tile
    e_row_start e_row_end e_col_start e_col_end e_mi_rows e_mi_cols]; try lia.
  - reflexivity.
  - unfold ex_params. small_params.
  - intros r c b H. exact (proj1 (ex_pair_nbrs _ _ _ H)).
  - split; [reflexivity|]. intros f H. apply repeat_spec in H. subst f. split; [vm_compute; discriminate|].
    intros r H. apply repeat_spec in H. subst r. split; [vm_compute; discriminate|]. apply Forall_forall. intros m' H. apply repeat_spec in H. subst m'.
    unfold mv_ok. cbn [fst snd]. lia.
Qed.
Lemma ex_pair_around : around_ok (pair_env ex_pair_env 3 4 7).
Proof.
  constructor.
  - change (bw4 (pair_env ex_pair_env 3 4 7)) with 2. intros i H _. assert (i = 0 \/ i = 1) as [-> | ->] by lia; eexists; reflexivity.
  - change (bh4 (pair_env ex_pair_env 3 4 7)) with 2. intros i H _. assert (i = 0 \/ i = 1) as [-> | ->] by lia; eexists; reflexivity.
  - intros _. split; [cbn; lia|]. eexists. split; [reflexivity|]. cbn. lia.
Qed.
Lemma ex_pair_tables : tables_right (pair_env ex_pair_env 3 4 7).
Proof. split; [unfold table_right; cbn; lia|]. intros r c b H. exact (proj2 (ex_pair_nbrs _ _ _ H)). Qed.

(** All hypotheses at once. *)
Definition ex_pair_good (old mode : Z) : Prop :=
  let v := if old =? 17 then (7, 3) else av1_pred (old_mode old) (chosen (old_mode old) 3 [1; 1; 0]) 3 (map fst ex_pair_list) (2, 0) in
  let want m (second : bool) := av1_pred m (chosen (old_mode old) 3 [1; 1; 0]) 3 (map (if second then snd else fst) ex_pair_list) (2, 0) in
  kind_ok old mode /\ exists m0 m1, modes_of mode = Some (m0, m1) /\ v = want m0 false /\ (2, 0) = want m1 true.
Definition ex_pair_reader : list ev -> option (((Z * Z) * (Z * Z) * (mv * mv)) * list ev) :=
  av1_pair_motion (above_of (x_frame ex_pair_env) 0 4 4) (left_of (x_frame ex_pair_env) 0 4 4) 3 true (pair_env ex_pair_env 3) (fun _ => ex_pair_list)
    (mkModeCtx 0 (zero_context (pair_env ex_pair_env 3 4 7) true ((2, 0), (2, 0))) 0 [0; 0; 0; 0; 0; 0; 0; 0]) false false.
Lemma ex_pair_holds : forall old mode, In old [0; 14; 15; 16; 17] -> 18 <= mode <= 25 ->
  exists ds b' t', code_inter ex_pair_env (ex_pair_blk mode) (ex_pair_state old) [] = Ok (ds, b', t') /\ snd (p_mvs b') = (2, 0) /\
    let i := chosen (old_mode old) 3 [1; 1; 0] in
    (ex_pair_good old mode -> reads_as ds ex_pair_reader ((4, 7), (mode, i), p_mvs b')) /\
    (~ ex_pair_good old mode -> never_reads_as ds ex_pair_reader ((4, 7), (mode, i), p_mvs b')).
Proof.
  intros old mode O M.
  assert (G : forall r, r = 4 \/ r = 7 -> av1_global_mv (pair_env ex_pair_env 3 4 7) r = (2, 0)) by (intros r [-> | ->]; vm_compute; reflexivity).
  assert (N : len ex_pair_list = 3) by (vm_compute; reflexivity).
  destruct (C112_pair_exactly ex_pair_env (ex_pair_blk mode) (ex_pair_state old) [] 0 0 false false (fun _ => ex_pair_list)) as (ds & b' & t' & E & _ & _ & V & _ & _ & _ & RG & RB).
  - reflexivity.
  - reflexivity.
  - exact ex_pair_frame.
  - split; left; reflexivity.
  - cbn; lia.
  - reflexivity.
  - reflexivity.
  - right. split; [reflexivity|]. unfold bidir_pair. cbn. lia.
  - exact ex_pair_env_ok.
  - exact ex_pair_around.
  - exact ex_pair_tables.
  - exact ex_arrays.
  - reflexivity.
  - vm_compute. split; discriminate.
  - vm_compute. split; discriminate.
  - cbn; lia.
  - cbn; lia.
  - cbn; lia.
  - cbn; lia.
  - exact M.
  - exact O.
  - change (2 <= len ex_pair_list). rewrite N. lia.
  - reflexivity.
  - intros X. change (old = 17) in X. subst old. split; [unfold vec_small; cbn; lia|]. vm_compute. repeat split.
  - change (p_ref0 (ex_pair_blk mode)) with 4 in *. change (p_ref1 (ex_pair_blk mode)) with 7 in *. change (p_bsize (ex_pair_blk mode)) with 3 in *.
    change (t_y_mode (ex_pair_state old)) with old in *. change (p_drl (ex_pair_blk mode)) with [1; 1; 0] in *. change (p_mode (ex_pair_blk mode)) with mode in *.
    fold ex_pair_list in V, RG, RB. rewrite ?G in V, RG, RB by tauto. rewrite ?N in V, RG, RB.
    exists ds, b', t'. split; [exact E|]. rewrite V. split; [reflexivity|]. cbv zeta. cbn [p_mvs ex_pair_blk fst snd] in *.
    split; intros Q; [apply RG|apply RB].
    + destruct Q as [Q1 Q2]. split; [right; split; [reflexivity|right; left; reflexivity]|]. split; [intros B; vm_compute in B; decompose [and] B; discriminate|]. split; [exact Q1|exact Q2].
    + intros (_ & _ & Q1 & Q2). apply Q. split; [exact Q1|exact Q2].
Qed.

(** Global motion for both references after a block with global motion is read back; the
    nearest pair after a block without a mode is, too, because the second vector of the
    candidate is the global motion. *)
Example C112_case : ex_pair_list = [((2, 4), (2, 0)); ((-8, 2), (4, 4)); ((20, 4), (20, 4))] /\ ex_pair_good 16 24 /\ ex_pair_good 0 18 /\
  match code_inter ex_pair_env (ex_pair_blk 24) (ex_pair_state 16) [] with
  | Ok (ds, b, _) => List.length ds = 6%nat /\ p_mvs b = ((2, 0), (2, 0)) /\ forall q, ex_pair_reader (ds ++ q) = Some (((4, 7), (24, 0), ((2, 0), (2, 0))), q)
  | _ => False
  end.
Proof.
  assert (G : ex_pair_good 16 24).
  { split; [unfold kind_ok; lia|]. do 2 eexists. split; [reflexivity|]. split; reflexivity. }
  split; [vm_compute; reflexivity|]. split; [exact G|]. split.
  { split; [unfold kind_ok; lia|]. do 2 eexists. split; [reflexivity|]. split; vm_compute; reflexivity. }
  destruct (ex_pair_holds 16 24) as (ds & b & t & E & _ & R & _); [cbn; tauto|lia|]. rewrite E. vm_compute in E. injection E as <- <- _.
  split; [reflexivity|]. split; [reflexivity|]. exact (R G).
Qed.

(** No mode with a new vector is ever read back: here after a block with a new vector. *)
Theorem C112_refuted : exists x t, forall mode, 20 <= mode <= 25 -> mode <> 24 -> exists b ds b' t', p_mode b = mode /\ code_inter x b t [] = Ok (ds, b', t') /\
  never_reads_as ds ex_pair_reader ((p_ref0 b, p_ref1 b), (mode, t_idx t'), p_mvs b').
Proof.
  exists ex_pair_env, (ex_pair_state 17). intros mode M N.
  destruct (ex_pair_holds 17 mode) as (ds & b' & t' & E & _ & _ & R); [cbn; tauto|lia|].
  exists (ex_pair_blk mode), ds, b', t'. split; [reflexivity|]. split; [exact E|].
  replace (t_idx t') with (chosen (old_mode 17) 3 [1; 1; 0]).
  - apply R. intros [K _]. unfold kind_ok in K. lia.
  - assert (C : In mode [20; 21; 22; 23; 25]) by (cbn; lia). cbn in C. decompose [or] C; try contradiction; subst mode; vm_compute in E; injection E as _ _ <-; reflexivity.
Qed.
Print Assumptions C112_refuted.
