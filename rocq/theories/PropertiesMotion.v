(** Property C104: the motion of an inter block, coded and read as a whole. *)
From Coq Require Import String ZArith List Bool Lia.
From Verif Require Import Base TableLemmas BlockTables GeomModel SeqSpec ContextModel ContextSpec ContextProofs MvStackModel MvStackSpec MvStackExamples MvFindProofs PropertiesContext
  ModeInfoModel ModeInfoSpec ModeInfoProofs ModeIndexProofs MvAssignProofs MotionSpec MotionProofs PropertiesModeInfo.
Import ListNotations.
Open Scope string_scope.
Open Scope list_scope.
Open Scope Z_scope.

(** A block with one reference: coding never fails, keeps the reference, leaves the vector
    [v] of its mode (the one to code for NEWMV, else the prediction [p]), and a decoder
    with the same contexts [y] and with lists of candidates [lists] reads the references,
    mode, index and vector back if the vector is both predictions; otherwise it never does,
    whatever follows. So nothing but the prediction can be coded as a new vector. *)
Theorem C104_motion_exactly : forall x b t es r0 c0 y (int hp : bool) (lists : Z -> list (Z * Z)),
  let rf := p_ref0 b in let e := motion_env x (p_bsize b) rf in let m := mode_of_flags (p_new_mv b) (p_zero_mv b) (p_ref_mv b) in
  let num := len (candidates e rf) in let g := av1_global_mv e rf in
  let own := mkModeCtx (t_new_ctx t) (zero_context e false (g, (0, 0))) (t_ref_ctx t) (t_drl_ctx t) in
  let i := chosen m num (p_drl b) in let p := av1_pred m i num (candidates e rf) g in
  x_seg_on x = false -> p_intrabc b = false -> frame_ok (x_frame x) (x_row x) (x_col x) -> inner r0 c0 (x_row x) (x_col x) -> 0 <= p_bsize b < 22 ->
  1 <= rf <= 7 -> (p_comp_mode b = 0 \/ x_ref_select x && large_enough (p_bsize b) = false) ->
  env_ok e false -> around_ok e -> tables_right e -> arrays_ok (t_mv t) -> x_hp x = false -> 0 <= gm_type_of e rf <= 1 ->
  (3 <= List.length (p_drl b))%nat -> (3 <= List.length (t_drl_ctx t))%nat ->
  mode_contexts m num (p_drl b) y own -> listed m num -> let v := if is_new m then fst (p_mvs b) else p in (m = New -> vec_small (fst (p_mvs b)) /\ vec_small p) ->
  (m = Near \/ m = New -> len (lists rf) = num) -> let p' := av1_pred m i (len (lists rf)) (lists rf) g in
  exists ds b' t', code_inter x b t es = Ok ((es ++ ds)%list, b', t') /\
    p_ref0 b' = rf /\ p_ref1 b' = -1 /\ fst (p_mvs b') = v /\ t_y_mode t' = single_mode m /\ t_idx t' = i /\
    let reader := av1_motion (above_of (x_frame x) r0 (x_row x) (x_col x)) (left_of (x_frame x) c0 (x_row x) (x_col x)) (p_bsize b) (x_ref_select x)
                    (motion_env x (p_bsize b)) lists y int hp in
    (v = p /\ v = p' -> reads_as ds reader ((rf, -1), (single_mode m, i), v)) /\
    (~ (v = p /\ v = p') -> never_reads_as ds reader ((rf, -1), (single_mode m, i), v)).
Proof. exact motion_read. Qed.
Print Assumptions C104_motion_exactly.

(** The frame of MvStackExamples: 16 x 16 units, the block of 8x8 samples at (4, 4). *)
Definition ex_nbr_full (size mode : Z) (m : mv) : full_mi :=
  mkFull (mkMi size 0 0 true false false true 0 0 1 (-1) [0; 0] [0; 0; 0] [0; 0; 0] [0; 0; 0] 0 0) mode m (0, 0) 0.
Definition ex_motion_mis : list (list (option full_mi)) :=
  repeat (repeat (Some (ex_nbr_full 3 17 (-8, 2))) 16) 3 ++
  [repeat (Some (ex_nbr_full 0 13 (2, 4))) 4 ++ [Some (ex_nbr_full 0 13 (6, 0))] ++ repeat (Some (ex_nbr_full 0 13 (2, 4))) 11] ++
  repeat (repeat (Some (ex_nbr_full 3 17 (-8, 2))) 16) 12.
Definition ex_motion_env : mode_env :=
  mkModeEnv ex_tile 4 4 true true ex_motion_mis true true
    true false false (repeat [None; None; None; None; None; None; None] 8) (repeat false 8)
    false true false 3 false 1 true false 2 3 false false false (repeat 1 8) ex_params (ex_field (20, 4)).
Definition ex_motion_blk (new zero ref : bool) (drl : list Z) (v : mv) : blk :=
  mkBlk 3 0 false 5 40 [0; 0; 0; 0] true 1 (-1) 0 0 0 new zero ref drl false (v, (0, 0)).
Definition ex_own : mode_ctx := mkModeCtx 0 1 0 [0; 0; 0; 0; 0; 0; 0; 0].

Lemma ex_motion_same : v_mis (motion_env ex_motion_env 3 1) = ex_mis.
Proof. reflexivity. Qed.
Lemma ex_motion_frame : frame_ok (x_frame ex_motion_env) 4 4.
Proof.
  exists 16, 16. split; [reflexivity|]. split.
  { assert (F : forallb (fun row => len row =? 16) (f_mis (x_frame ex_motion_env)) = true) by reflexivity.
    rewrite forallb_forall in F. intros row H. specialize (F row H). lia. }
  split; [lia|]. split; [lia|]. intros i j m H. unfold cell in H.
  destruct (nth_error (f_mis (x_frame ex_motion_env)) (Z.to_nat i)) as [row|] eqn:R; [|discriminate].
  destruct (nth_error row (Z.to_nat j)) as [o|] eqn:O; [|discriminate]. subst o.
  apply nth_error_In in R, O.
  assert (F : forall c, In c (concat (f_mis (x_frame ex_motion_env))) -> c = Some (i_mi (ex_nbr_full 3 17 (0, 0))) \/ c = Some (i_mi (ex_nbr_full 0 13 (0, 0)))).
  { intros c. vm_compute. intros C. repeat (destruct C as [<-|C]; [first [left; reflexivity|right; reflexivity]|]). destruct C. }
  destruct (F (Some m)) as [Q|Q]; [apply in_concat; exists row; split; assumption| |]; injection Q as ->; cbn [ex_nbr_full i_mi]; block_ok.
Qed.
Lemma ex_motion_env_ok : env_ok (motion_env ex_motion_env 3 1) false.
Proof.
  constructor; cbn [motion_env ex_motion_env v_size v_ref0 v_ref1 v_gm_type v_gm_params v_tile v_row v_col v_field x_tile x_row x_col x_gm_type x_gm_params x_field ex_tile
    e_row_start e_row_end e_col_start e_col_end e_mi_rows e_mi_cols]; try lia.
  - reflexivity.
  - unfold ex_params. small_params.
  - intros r c b H. exact (proj1 (ex_nbrs _ _ _ _ H ex_motion_same)).
  - split; [reflexivity|]. intros f H. apply repeat_spec in H. subst f. split; [vm_compute; discriminate|].
    intros r H. apply repeat_spec in H. subst r. split; [vm_compute; discriminate|]. apply Forall_forall. intros m' H. apply repeat_spec in H. subst m'.
    unfold mv_ok. cbn [fst snd]. lia.
Qed.
Lemma ex_motion_around : around_ok (motion_env ex_motion_env 3 1).
Proof.
  constructor.
  - change (bw4 (motion_env ex_motion_env 3 1)) with 2. intros i H _. assert (i = 0 \/ i = 1) as [-> | ->] by lia; eexists; reflexivity.
  - change (bh4 (motion_env ex_motion_env 3 1)) with 2. intros i H _. assert (i = 0 \/ i = 1) as [-> | ->] by lia; eexists; reflexivity.
  - intros _. split; [cbn; lia|]. eexists. split; [reflexivity|]. cbn. lia.
Qed.
Lemma ex_motion_tables : tables_right (motion_env ex_motion_env 3 1).
Proof. intros. split; [unfold table_right; cbn; lia|]. intros r c b H. exact (proj2 (ex_nbrs _ _ _ _ H ex_motion_same)). Qed.

(** All hypotheses at once, for any flags, list of drl flags and vector. *)
Definition ex_t : mode_state := ex_mode_state ex_cdef.
Lemma ex_motion_holds : forall new zero ref d v lists, d = [0; 1; 0] \/ d = [1; 0; 0] -> vec_small v ->
  let m := mode_of_flags new zero ref in (m = Near \/ m = New -> len (lists 1) = 4) ->
  let cs := [(6, 0); (2, 4); (-8, 2); (20, 4)] in let i := chosen m 4 d in let p := av1_pred m i 4 cs (2, 0) in let w := if is_new m then v else p in
  let p' := av1_pred m i (len (lists 1)) (lists 1) (2, 0) in
  exists ds b' t', code_inter ex_motion_env (ex_motion_blk new zero ref d v) ex_t [] = Ok (ds, b', t') /\ fst (p_mvs b') = w /\
    let reader := av1_motion (above_of (x_frame ex_motion_env) 0 4 4) (left_of (x_frame ex_motion_env) 0 4 4) 3 false (motion_env ex_motion_env 3) lists ex_own false false in
    (w = p /\ w = p' -> reads_as ds reader ((1, -1), (single_mode m, i), w)) /\
    (~ (w = p /\ w = p') -> never_reads_as ds reader ((1, -1), (single_mode m, i), w)).
Proof.
  intros new zero ref d v lists D V m NL cs i p w p'.
  assert (C : candidates (motion_env ex_motion_env 3 1) 1 = cs) by (vm_compute; reflexivity).
  assert (G : av1_global_mv (motion_env ex_motion_env 3 1) 1 = (2, 0)) by (vm_compute; reflexivity).
  assert (Z0 : zero_context (motion_env ex_motion_env 3 1) false ((2, 0), (0, 0)) = 1) by (vm_compute; reflexivity).
  assert (T : 0 <= gm_type_of (motion_env ex_motion_env 3 1) 1 <= 1) by (vm_compute; split; discriminate).
  assert (VP : vec_small p).
  { unfold p, i, cs. clearbody m. destruct D as [-> | ->]; destruct m; vm_compute; repeat split. }
  pose proof (C104_motion_exactly ex_motion_env (ex_motion_blk new zero ref d v) ex_t [] 0 0 ex_own false false lists) as H.
  cbv zeta in H. cbn [ex_motion_blk p_ref0 p_bsize p_new_mv p_zero_mv p_ref_mv p_drl p_mvs p_intrabc p_comp_mode fst] in H. rewrite C, G in H.
  match type of H with context [zero_context ?a ?b ?c] => replace (zero_context a b c) with 1 in H by (symmetry; exact Z0) end.
  destruct H as (ds & b' & t' & E & _ & _ & F & _ & _ & R1 & R2).
  - reflexivity.
  - reflexivity.
  - exact ex_motion_frame.
  - split; left; reflexivity.
  - lia.
  - lia.
  - left; reflexivity.
  - exact ex_motion_env_ok.
  - exact ex_motion_around.
  - exact ex_motion_tables.
  - exact ex_arrays.
  - reflexivity.
  - exact T.
  - destruct D as [-> | ->]; cbn; lia.
  - cbn; lia.
  - repeat split.
  - change (listed m 4). destruct m; cbn; lia.
  - intros _. split; [exact V|exact VP].
  - exact NL.
  - exists ds, b', t'. split; [exact E|]. split; [exact F|]. split; [exact R1|exact R2].
Qed.

Example C104_case : forall q,
  let decoder := av1_motion (above_of (x_frame ex_motion_env) 0 4 4) (left_of (x_frame ex_motion_env) 0 4 4) 3 false (motion_env ex_motion_env 3)
                   (fun _ => [(6, 0); (2, 4); (-8, 2); (20, 4)]) ex_own false false in
  match code_inter ex_motion_env (ex_motion_blk true true true [0; 1; 0] (4, 4)) ex_t [] with
  | Ok (ds, b, _) => ds = [ESym "single_ref" [2; 0] 0; ESym "single_ref" [2; 2] 0; ESym "single_ref" [2; 3] 0; ESym "new_mv" [0] 1; ESym "zero_mv" [1] 1;
                           ESym "ref_mv" [0] 1; ESym "drl_mode" [0] 1; ESym "drl_mode" [0] 0] /\
      fst (p_mvs b) = (-8, 2) /\ decoder (ds ++ q)%list = Some (((1, -1), (15, 2), (-8, 2)), q)
  | _ => False
  end.
Proof.
  intros q decoder. destruct (ex_motion_holds true true true [0; 1; 0] (4, 4) (fun _ => [(6, 0); (2, 4); (-8, 2); (20, 4)]) (or_introl eq_refl)) as (ds & b & t & E & F & R & _).
  { unfold vec_small. cbn. lia. }
  { intros _. reflexivity. }
  rewrite E. split; [vm_compute in E; injection E as <- _ _; reflexivity|]. split; [exact F|]. exact (R (conj eq_refl eq_refl) q).
Qed.

(** So a vector that is not predicted cannot be coded: the block of the example with the
    new vector (7, 3), whatever list the decoder has, as long as it is as long. *)
Theorem C104_new_vector_refuted : exists x b t ds b' t', code_inter x b t [] = Ok (ds, b', t') /\ fst (p_mvs b') = (7, 3) /\
  forall lists : Z -> list (Z * Z), len (lists 1) = 4 ->
    never_reads_as ds (av1_motion (above_of (x_frame x) 0 4 4) (left_of (x_frame x) 0 4 4) 3 false (motion_env x 3) lists ex_own false false) ((1, -1), (17, 1), (7, 3)).
Proof.
  assert (V : vec_small (7, 3)) by (unfold vec_small; cbn; lia).
  destruct (code_inter ex_motion_env (ex_motion_blk false true true [1; 0; 0] (7, 3)) ex_t []) as [[[ds b'] t']| |] eqn:E; [|vm_compute in E; discriminate|vm_compute in E; discriminate].
  exists ex_motion_env, (ex_motion_blk false true true [1; 0; 0] (7, 3)), ex_t, ds, b', t'. split; [exact E|]. split; [vm_compute in E; injection E as _ <- _; reflexivity|].
  intros lists L. destruct (ex_motion_holds false true true [1; 0; 0] (7, 3) lists (or_intror eq_refl) V (fun _ => L)) as (ds' & b2 & t2 & E' & _ & _ & N).
  rewrite E in E'. injection E' as <- _ _. apply N. intros [Q _]. discriminate Q.
Qed.
Print Assumptions C104_new_vector_refuted.
