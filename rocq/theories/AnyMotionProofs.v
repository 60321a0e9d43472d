(** Proofs about the motion of an inter block for any kind of global motion (C104). *)
From Coq Require Import String ZArith List Bool Lia.
From Verif Require Import Base BaseProofs SeqSpec BlockTables GeomModel ContextModel ContextSpec ContextProofs MvStackModel MvStackSpec MvFindProofs ModeInfoModel ModeInfoSpec
  ModeInfoProofs ModeIndexProofs MvAssignProofs ModeWholeProofs SegFeatureProofs MotionSpec MotionProofs AnyMotionSpec.
Import ListNotations.
Open Scope Z_scope.

Lemma entry_of_list s (cs : list (Z * Z)) i : arrays_ok s -> map fst (entries false s) = cs -> s_num s = len (entries false s) -> 0 <= i < len cs ->
  exists t, idx (s_stack s) i = Ok t /\ fst t = nth (Z.to_nat i) cs (0, 0).
Proof.
  intros [A _] C N I. assert (L : len cs = s_num s) by (rewrite <- C, N; unfold len; rewrite map_length; reflexivity).
  assert (K : (Z.to_nat i < List.length (s_stack s))%nat).
  { assert (Q : len (entries false s) <= len (s_stack s)) by (unfold len, entries; rewrite map_length, firstn_length; lia). unfold len in *. lia. }
  rewrite (nth_idx _ (s_stack s) i ((0, 0), (0, 0))) by (unfold len in *; lia). eexists. split; [reflexivity|].
  rewrite <- C. unfold entries. rewrite map_map.
  transitivity (fst (entry false (nth (Z.to_nat i) (firstn (Z.to_nat (s_num s)) (s_stack s)) ((0, 0), (0, 0))))).
  - cbn [entry fst]. rewrite <- (firstn_skipn (Z.to_nat (s_num s)) (s_stack s)) at 1. rewrite app_nth1; [reflexivity|]. rewrite firstn_length. lia.
  - symmetry. exact (map_nth (fun x => fst (entry false x)) _ ((0, 0), (0, 0)) _).
Qed.

(** One list: read back exactly if the vector to code is the prediction or no vector is coded. *)
Lemma assign_read_of s (cs : list (Z * Z)) (g : Z * Z) y row start sb i m mvs pred mode es int hp : arrays_ok s -> map fst (entries false s) = cs -> s_num s = len (entries false s) ->
  fst (s_global s) = g -> y = single_mode m -> (m = Near \/ m = New -> 0 <= i < s_num s) -> listed m (s_num s) ->
  let p := av1_pred m i (s_num s) cs g in let v := if is_new m then fst mvs else p in
  (m = New -> vec_small (fst mvs) /\ vec_small p) ->
  exists ds, assign_mv false (mkMvIn y false (s_num s) i (s_stack s) (s_global s) row start sb) mvs pred mode es =
    Ok ((es ++ ds)%list, (v, snd mvs), (p, snd pred), single_mode m) /\
    forall p', (v = p /\ v = p' -> reads_as ds (av1_list_mv m 0 int hp p') v) /\
      (~ (v = p /\ v = p') -> never_reads_as ds (av1_list_mv m 0 int hp p') v).
Proof.
  intros A C N G Y I L p v E. unfold assign_mv. cbn [assign_mv_loop n_intrabc n_y_mode]. rewrite Y.
  assert (M : get_mode (single_mode m) 0 = single_mode m) by (destruct m; reflexivity). rewrite M.
  assert (P : pred_mvs (mkMvIn (single_mode m) false (s_num s) i (s_stack s) (s_global s) row start sb) 0 (single_mode m) pred = Ok (p, snd pred)).
  { unfold pred_mvs. cbn [n_intrabc n_num n_idx n_list n_globals].
    assert (LL : len cs = s_num s) by (rewrite <- C, N; unfold len; rewrite map_length; reflexivity).
    destruct m; unfold single_mode, GLOBALMV, NEWMV, NEARESTMV; cbn [Z.eqb Pos.eqb andb]; cbn [listed] in L; try (specialize (I (or_introl eq_refl))); try (specialize (I (or_intror eq_refl))).
    - destruct (entry_of_list s cs 0 A C N) as (t & T & F); [lia|]. rewrite T. cbn [bind set_at at_list Z.eqb]. rewrite F. reflexivity.
    - destruct (entry_of_list s cs i A C N) as (t & T & F); [lia|]. rewrite T. cbn [bind set_at at_list Z.eqb]. rewrite F. reflexivity.
    - cbn [set_at at_list Z.eqb]. rewrite G. reflexivity.
    - unfold p. cbn [av1_pred]. destruct (Z.leb_spec (s_num s) 1).
      + destruct (entry_of_list s cs 0 A C N) as (t & T & F); [lia|]. rewrite T. cbn [bind set_at at_list Z.eqb]. rewrite F. reflexivity.
      + destruct (entry_of_list s cs i A C N) as (t & T & F); [lia|]. rewrite T. cbn [bind set_at at_list Z.eqb]. rewrite F. reflexivity. }
  rewrite P. cbn [bind]. rewrite single_new. clearbody p. destruct mvs as [w0 w1]. cbn [fst snd] in *. unfold reads_as, never_reads_as. destruct m; cbn [is_new] in *; subst v.
  1-3: exists []; rewrite app_nil_r; split; [reflexivity|]; intros p'; split; [intros [_ <-] k; reflexivity|intros H k Q; apply H; split; [reflexivity|cbn in Q; congruence]].
  destruct (E eq_refl) as [[S1 S2] [P1 P2]]. rewrite (diff_ok _ _ S1 P1). cbn [bind]. rewrite (diff_ok _ _ S2 P2). cbn [bind].
  unfold encode_mv_joint, emit. cbn [bind]. fold (joint 0 (fst w0 - fst p, snd w0 - snd p)). eexists. split; [reflexivity|]. cbn [av1_list_mv app].
  intros p'. split.
  - intros [H1 H2] k. rewrite (proj2 (mv_diff w0 p) H1), joint_zero. rewrite H2. reflexivity.
  - intros H k Q. destruct (Z.eq_dec (fst w0 - fst p) 0) as [X|X], (Z.eq_dec (snd w0 - snd p) 0) as [Y1|Y1].
    1: { rewrite X, Y1, joint_zero in Q. apply H. split; [|congruence]. apply mv_diff. congruence. }
    all: apply joint_short in Q; [lia|]; intros D; injection D; intros; contradiction.
Qed.

Lemma motion_any x b t es r0 c0 y (int hp : bool) (lists : Z -> list (Z * Z)) :
  let rf := p_ref0 b in let e := motion_env x (p_bsize b) rf in let m := mode_of_flags (p_new_mv b) (p_zero_mv b) (p_ref_mv b) in
  let g := code_global e rf in let cs := own_candidates e g in let num := len cs in
  let own := mkModeCtx (t_new_ctx t) (zero_context (plain e) false (g, (0, 0))) (t_ref_ctx t) (t_drl_ctx t) in
  let i := chosen m num (p_drl b) in let p := av1_pred m i num cs g in
  x_seg_on x = false -> p_intrabc b = false -> frame_ok (x_frame x) (x_row x) (x_col x) -> inner r0 c0 (x_row x) (x_col x) -> 0 <= p_bsize b < 22 ->
  1 <= rf <= 7 -> (p_comp_mode b = 0 \/ x_ref_select x && large_enough (p_bsize b) = false) ->
  env_ok e false -> around_ok e -> tables_right e -> arrays_ok (t_mv t) ->
  (3 <= List.length (p_drl b))%nat -> (3 <= List.length (t_drl_ctx t))%nat ->
  mode_contexts m num (p_drl b) y own -> listed m num -> let v := if is_new m then fst (p_mvs b) else p in (m = New -> vec_small (fst (p_mvs b)) /\ vec_small p) ->
  (m = Near \/ m = New -> len (lists rf) = num) -> let p' := av1_pred m i (len (lists rf)) (lists rf) (av1_global_mv e rf) in
  exists ds b' t', code_inter x b t es = Ok ((es ++ ds)%list, b', t') /\
    p_ref0 b' = rf /\ p_ref1 b' = -1 /\ fst (p_mvs b') = v /\ t_y_mode t' = single_mode m /\ t_idx t' = i /\
    let reader := av1_motion (above_of (x_frame x) r0 (x_row x) (x_col x)) (left_of (x_frame x) c0 (x_row x) (x_col x)) (p_bsize b) (x_ref_select x)
                    (motion_env x (p_bsize b)) lists y int hp in
    (v = p /\ v = p' -> reads_as ds reader ((rf, -1), (single_mode m, i), v)) /\
    (~ (v = p /\ v = p') -> never_reads_as ds reader ((rf, -1), (single_mode m, i), v)).
Proof.
  intros rf e m g cs num own i p SEG BC FO INN BS RF CM EO AO TR AR D1 D2 MC L v NV NL p'.
  destruct (one_reference_ok (x_frame x) r0 c0 (x_row x) (x_col x) (p_bsize b) (x_ref_select x) (p_comp_mode b) (p_comp_ref_type b) rf (p_ref1 b) es FO INN BS RF CM) as (d1 & E1 & R1).
  destruct (find_exact e false (t_mv t) EO AO TR AR) as (s & ES & G0 & _ & P1 & _ & P3 & P4 & _ & _ & P7).
  change (v_ref0 e) with rf in G0. fold g in G0.
  assert (CS : map fst (entries false s) = cs).
  { unfold cs, own_candidates. cbv zeta in P1. rewrite P1. destruct (s_global s) as [s0 s1]. cbn [fst] in G0. subst s0. reflexivity. }
  assert (NS : s_num s = num) by (unfold num; rewrite <- CS, P3; unfold len; rewrite map_length; reflexivity).
  assert (ZC : s_zero_ctx s = zero_context (plain e) false (g, (0, 0))).
  { rewrite P7. destruct (s_global s) as [s0 s1]. cbn [fst] in G0. subst s0. reflexivity. }
  set (num' := len (lists rf)) in *.
  assert (CL : class_of (single_mode m) = 0 \/ num' = num).
  { destruct m; [left; reflexivity|right; apply NL; left; reflexivity|left; reflexivity|right; apply NL; right; reflexivity]. }
  destruct (one_mode_exactly (p_mode b) (p_new_mv b) (p_zero_mv b) (p_ref_mv b) own y (t_y_mode t) num' (p_drl b) (es ++ d1)%list D1 D2) as (es1 & d2 & i' & EM & EI & RI & _).
  fold m in EM, EI, RI. assert (MC' : mode_contexts m num' (p_drl b) y own).
  { destruct CL as [CL| ->]; [|exact MC]. destruct MC as (A & B & C & _). split; [exact A|]. split; [exact B|]. split; [exact C|]. intros j J. exfalso.
    destruct m; try discriminate CL; exact J. }
  specialize (RI MC'). unfold own in EM, EI. cbn [c_ref c_new c_zero c_drl] in EM, EI.
  assert (EI' : mv_index (single_mode m) num (p_drl b) (t_drl_ctx t) es1 = Ok (((es ++ d1) ++ d2)%list, i')).
  { destruct CL as [CL|CL]; [|rewrite <- CL; exact EI]. destruct m; try discriminate CL; exact EI. }
  clear EI. rename EI' into EI.
  assert (i' = i) as ->.
  { rewrite mv_index_ok in EI by assumption. injection EI as _ <-. apply chosen_index. }
  destruct (assign_read_of s cs g (single_mode m) (x_row x) (e_row_start (x_tile x)) (x_sb128 x) i m (p_mvs b) (t_pred t) (p_mode b) (((es ++ d1) ++ d2)%list) int hp P4 CS P3 G0 eq_refl)
    as (d3 & EA & R3).
  { rewrite NS. exact (chosen_listed m num (p_drl b) L). }
  { rewrite NS. exact L. }
  { rewrite NS. exact NV. }
  rewrite NS in EA, R3. fold p in EA, R3. fold v in EA, R3. destruct (R3 p') as [R4 N4].
  exists (d1 ++ d2 ++ d3)%list. eexists. eexists. split; [|].
  - unfold code_inter, code_refs, feature_on. rewrite SEG. cbn [bind]. fold rf. rewrite E1. cbn [bind p_ref1 with_refs p_seg p_mode p_new_mv p_zero_mv p_ref_mv p_drl p_mvs p_intrabc].
    change (0 <? NONE) with false. unfold NONE. rewrite env_same. fold e. rewrite ES. cbn [bind]. rewrite ZC, EM. cbn [bind]. rewrite NS, EI. cbn [bind]. rewrite BC, EA. cbn [bind].
    rewrite <- !app_assoc. reflexivity.
  - cbn [p_ref0 p_ref1 with_mvs with_refs p_mvs fst t_y_mode t_idx with_motion]. do 5 (split; [reflexivity|]).
    assert (RD : forall k, av1_motion (above_of (x_frame x) r0 (x_row x) (x_col x)) (left_of (x_frame x) c0 (x_row x) (x_col x)) (p_bsize b) (x_ref_select x)
                    (motion_env x (p_bsize b)) lists y int hp ((d1 ++ d2 ++ d3) ++ k)%list =
                  LET (v, q) := av1_list_mv m 0 int hp p' (d3 ++ k)%list IN Some (((rf, -1), (single_mode m, i), v), q)).
    { intros k. unfold av1_motion. rewrite <- !app_assoc, R1. cbn [obind fst]. fold e. fold num'. rewrite RI. cbn [obind fst snd].
      replace (modes_of (single_mode m)) with (Some (m, Global)) by (destruct m; reflexivity). fold p'. reflexivity. }
    cbv zeta. split.
    + intros H k. rewrite RD, (R4 H). reflexivity.
    + intros H k. rewrite RD. specialize (N4 H k). destruct (av1_list_mv m 0 int hp p' (d3 ++ k)%list) as [[v' q]|]; cbn [obind]; [|discriminate].
      intros Q. apply N4. injection Q as -> ->. reflexivity.
Qed.

(** A block with the mode GLOBALMV and a warp. *)
Lemma warp_global : forall e rf, v_hp e = false -> 0 < rf -> 1 < gm_type_of e rf -> code_global e rf = (Z.abs (snd (av1_global_mv e rf)), Z.abs (fst (av1_global_mv e rf))).
Proof.
  intros e rf H R T. unfold code_global, av1_global_mv. rewrite plain_same by exact H.
  replace ((rf =? 0) || (gm_type_of e rf =? 0) || (gm_type_of e rf =? 1)) with false by lia. reflexivity.
Qed.
Lemma global_warp_read x b t es r0 c0 (int hp : bool) (lists : Z -> list (Z * Z)) :
  let rf := p_ref0 b in let e := motion_env x (p_bsize b) rf in let g := av1_global_mv e rf in let v := (Z.abs (snd g), Z.abs (fst g)) in
  let y := mkModeCtx (t_new_ctx t) (zero_context e false (v, (0, 0))) (t_ref_ctx t) (t_drl_ctx t) in
  x_seg_on x = false -> p_intrabc b = false -> frame_ok (x_frame x) (x_row x) (x_col x) -> inner r0 c0 (x_row x) (x_col x) -> 0 <= p_bsize b < 22 ->
  1 <= rf <= 7 -> (p_comp_mode b = 0 \/ x_ref_select x && large_enough (p_bsize b) = false) ->
  env_ok e false -> around_ok e -> tables_right e -> arrays_ok (t_mv t) -> (3 <= List.length (p_drl b))%nat -> (3 <= List.length (t_drl_ctx t))%nat ->
  p_new_mv b = true -> p_zero_mv b = false -> x_hp x = false -> 1 < gm_type_of e rf ->
  exists ds b' t', code_inter x b t es = Ok ((es ++ ds)%list, b', t') /\ fst (p_mvs b') = v /\
    let reader := av1_motion (above_of (x_frame x) r0 (x_row x) (x_col x)) (left_of (x_frame x) c0 (x_row x) (x_col x)) (p_bsize b) (x_ref_select x)
                    (motion_env x (p_bsize b)) lists y int hp in
    (0 <= fst g -> snd g = fst g -> reads_as ds reader ((rf, -1), (16, 0), v)) /\ (~ (0 <= fst g /\ snd g = fst g) -> never_reads_as ds reader ((rf, -1), (16, 0), v)).
Proof.
  intros rf e g v y SEG BC FO INN BS RF CM EO AO TR AR D1 D2 F1 F2 HP GT.
  assert (CG : code_global e rf = v) by (apply warp_global; [exact HP|lia|exact GT]).
  pose proof (motion_any x b t es r0 c0 y int hp lists) as H. cbv zeta in H. fold rf in H. fold e in H. rewrite F1, F2 in H. rewrite CG in H.
  change (mode_of_flags true false (p_ref_mv b)) with Global in H. rewrite (plain_same e HP) in H. fold y in H. fold g in H.
  destruct H as (ds & b' & t' & E & _ & _ & V & _ & _ & R & N); try assumption.
  - repeat split.
  - exact I.
  - discriminate.
  - intros [?|?]; discriminate.
  - exists ds, b', t'. split; [exact E|]. split; [exact V|]. cbv zeta. cbn [av1_pred is_new chosen single_mode] in R, N. split.
    + intros A B. apply R. split; [reflexivity|]. unfold v. transitivity (fst g, snd g); [f_equal; lia|symmetry; apply surjective_pairing].
    + intros A. apply N. intros [_ B]. apply A. pose proof (f_equal fst B) as B1. pose proof (f_equal snd B) as B2. unfold v in B1, B2. cbn [fst snd] in B1, B2. lia.
Qed.

(** With segmentation: coded exactly with the skip feature, and then nothing is written. *)
Lemma segment_motion_panics x b t es r : features_ok x -> x_seg_on x = true -> feature x (p_seg b) SEG_LVL_SKIP = Ok None -> code_inter x b t es <> Ok r.
Proof.
  intros F S K H. unfold code_inter in H. bi H. destruct a as [e1 b1].
  assert (SG : p_seg b1 = p_seg b).
  { unfold code_refs in E. bi E. destruct a; [bi E; bi E; destruct (_ && _) in E; [|discriminate]; injection E as _ <-; reflexivity|].
    bi E. bi E. destruct a0; [injection E as _ <-; reflexivity|]. bi E. destruct a0 as [[[? ?] ?] ?]. injection E as _ <-. reflexivity. }
  bi H. apply bind_inv in H. destruct H as (sk & Esk & H). apply bind_inv in H. destruct H as (gl & Egl & H).
  rewrite SG in *. unfold feature_on at 1 in Esk. rewrite S, K in Esk. cbn [bind] in Esk. injection Esk as <-. exact (global_panics x _ _ F S Egl).
Qed.
Lemma segment_motion_read x b t es fixed w u l size select y (int hp : bool) lists :
  let rf := match fixed with Some v => v | None => 1 end in let e := motion_env x (p_bsize b) rf in let v := code_global e rf in
  x_seg_on x = true -> feature x (p_seg b) SEG_LVL_REF_FRAME = Ok fixed -> feature x (p_seg b) SEG_LVL_SKIP = Ok (Some w) ->
  p_intrabc b = false -> 1 <= rf <= 7 -> env_ok e false -> around_ok e -> tables_right e -> arrays_ok (t_mv t) ->
  exists b' t', code_inter x b t es = Ok (es, b', t') /\ p_ref0 b' = rf /\ p_ref1 b' = -1 /\ fst (p_mvs b') = v /\ t_y_mode t' = 16 /\ t_idx t' = 0 /\
    let reader := av1_motion_segment fixed true u l size select (motion_env x (p_bsize b)) lists y int hp in
    (v = av1_global_mv e rf -> reads_as [] reader ((rf, -1), (16, 0), v)) /\ (v <> av1_global_mv e rf -> never_reads_as [] reader ((rf, -1), (16, 0), v)).
Proof.
  intros rf e v S FR FS BC RF EO AO TR AR.
  destruct (find_exact e false (t_mv t) EO AO TR AR) as (s & ES & G0 & _). change (v_ref0 e) with rf in G0. fold v in G0.
  assert (CR : code_refs x b es = Ok (es, with_refs (p_comp_mode b) rf (-1) b)).
  { unfold code_refs, feature_on. rewrite S, FR. cbn [bind]. destruct fixed as [k|]; cbn [unwrap bind].
    - change k with rf. replace ((-1 <=? rf) && (rf <=? 7)) with true by (symmetry; apply andb_true_intro; split; apply Z.leb_le; lia). reflexivity.
    - rewrite FS. reflexivity. }
  eexists. eexists. split.
  { unfold code_inter. rewrite CR. cbn [bind p_ref1 with_refs p_seg p_mode p_new_mv p_zero_mv p_ref_mv p_drl p_mvs p_intrabc]. change (0 <? -1) with false.
    rewrite env_same. fold e. rewrite ES. cbn [bind]. unfold feature_on at 1. rewrite S, FS. cbn [bind].
    unfold mv_index. change ((GLOBALMV =? NEWMV) || (GLOBALMV =? NEW_NEWMV)) with false. change (has_nearmv GLOBALMV) with false. cbn [bind].
    unfold assign_mv. cbn [assign_mv_loop n_intrabc n_y_mode]. rewrite BC. change (get_mode GLOBALMV 0) with GLOBALMV. unfold pred_mvs. cbn [n_intrabc n_globals].
    change (GLOBALMV =? GLOBALMV) with true. cbn [bind set_at at_list Z.eqb fst snd]. change (GLOBALMV =? NEWMV) with false. cbn [bind]. reflexivity. }
  cbn [p_ref0 p_ref1 with_mvs with_refs p_mvs fst t_y_mode t_idx with_motion set_at Z.eqb]. split; [reflexivity|]. split; [reflexivity|]. split; [exact G0|]. split; [reflexivity|]. split; [reflexivity|].
  cbv zeta.
  assert (RD : forall k, av1_motion_segment fixed true u l size select (motion_env x (p_bsize b)) lists y int hp ([] ++ k)%list = Some (((rf, -1), (16, 0), av1_global_mv e rf), k)).
  { intros k. unfold av1_motion_segment. destruct fixed; reflexivity. }
  split.
  - intros Q k. rewrite RD, Q. reflexivity.
  - intros Q k. rewrite RD. intros R. injection R as R. exact (Q (eq_sym R)).
Qed.
