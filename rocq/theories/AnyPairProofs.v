(** Proofs about the motion of an inter block with two references for any kind of global
    motion (C112). *)
From Coq Require Import String ZArith List Bool Lia ZifyBool.
From Verif Require Import Base BaseProofs SeqSpec SessionModel BlockTables GeomModel ContextModel ContextSpec ContextProofs MvStackModel MvStackSpec MvFindProofs ModeInfoModel ModeInfoSpec
  ModeInfoProofs ModeIndexProofs MvAssignProofs ModeWholeProofs MotionSpec MotionProofs PairSpec PairProofs AnyMotionSpec.
Import ListNotations.
Open Scope string_scope.
Open Scope list_scope.
Open Scope Z_scope.

Lemma pair_any x b t es r0 c0 (int hp : bool) lists :
  let ra := p_ref0 b in let rb := p_ref1 b in let e := pair_env x (p_bsize b) ra rb in
  let ga := code_global e ra in let gb := code_global e rb in let cs := own_pairs e (ga, gb) in let num := len cs in
  let y := mkModeCtx (t_new_ctx t) (zero_context (plain e) true (ga, gb)) (t_ref_ctx t) (t_drl_ctx t) in
  let old := t_y_mode t in let i := chosen (old_mode old) num (p_drl b) in let p := av1_pred (old_mode old) i num (map fst cs) ga in
  x_seg_on x = false -> p_intrabc b = false -> frame_ok (x_frame x) (x_row x) (x_col x) -> inner r0 c0 (x_row x) (x_col x) -> 0 <= p_bsize b < 22 ->
  p_comp_mode b = 1 -> x_ref_select x && large_enough (p_bsize b) = true ->
  (p_comp_ref_type b = 0 /\ unidir_pair ra rb \/ p_comp_ref_type b = 1 /\ bidir_pair ra rb) ->
  env_ok e true -> around_ok e -> tables_right e -> arrays_ok (t_mv t) ->
  (3 <= List.length (p_drl b))%nat -> (3 <= List.length (t_drl_ctx t))%nat -> 0 <= t_ref_ctx t < 6 -> 0 <= t_new_ctx t < 6 ->
  18 <= p_mode b <= 25 -> In old [0; 14; 15; 16; 17] -> 2 <= num -> len (lists (ra, rb)) = num ->
  (old = 17 -> vec_small (fst (p_mvs b)) /\ vec_small p) ->
  let da := av1_global_mv e ra in let db := av1_global_mv e rb in
  let v := if old =? 17 then fst (p_mvs b) else p in
  let want := fun m (second : bool) => av1_pred m i num (map (if second then snd else fst) (lists (ra, rb))) (if second then db else da) in
  let u := above_of (x_frame x) r0 (x_row x) (x_col x) in let l := left_of (x_frame x) c0 (x_row x) (x_col x) in
  let good := readable_pair (p_comp_ref_type b) ra rb /\ ~ both_uni_above u l /\ kind_ok old (p_mode b) /\
    exists m0 m1, modes_of (p_mode b) = Some (m0, m1) /\ v = want m0 false /\ gb = want m1 true in
  exists ds b' t', code_inter x b t es = Ok (es ++ ds, b', t') /\
    p_ref0 b' = ra /\ p_ref1 b' = rb /\ p_mvs b' = (v, gb) /\ p_mode b' = 16 /\ t_y_mode t' = old /\ t_idx t' = i /\
    let reader := av1_pair_motion u l (p_bsize b) (x_ref_select x) (pair_env x (p_bsize b)) lists y int hp in
    (good -> reads_as ds reader ((ra, rb), (p_mode b, i), (v, gb))) /\ (~ good -> never_reads_as ds reader ((ra, rb), (p_mode b, i), (v, gb))).
Proof.
  intros ra rb e ga gb cs num y old i p SEG BC FO INN BS CM SEL TY EO AO TR AR D1 D2 RC NC MO OLD N2 NL VS da db v want u l good.
  destruct (pair_refs (x_frame x) r0 c0 (x_row x) (x_col x) (p_bsize b) (x_ref_select x) (p_comp_ref_type b) ra rb es FO INN BS SEL TY) as (d1 & E1 & R1 & X1).
  fold u l in R1, X1.
  destruct (find_exact e true (t_mv t) EO AO TR AR) as (s & ES & G0 & G1 & P1 & _ & P3 & P4 & _ & _ & P7).
  change (v_ref0 e) with ra in G0. change (v_ref1 e) with rb in G1. specialize (G1 eq_refl).
  fold ga in G0. fold gb in G1.
  assert (G : s_global s = (ga, gb)) by (destruct (s_global s); cbn in *; congruence).
  cbv zeta in P1. rewrite G in P1, P7. change (entries true s = cs) in P1. rewrite P1 in P3. change (s_num s = num) in P3.
  assert (OI := old_index old num (p_drl b) OLD). fold i in OI.
  assert (II : 0 <= i < num).
  { rewrite <- OI. unfold index_i. pose proof (drl_i_low 0 num (p_drl b)). pose proof (drl_i_low 1 num (p_drl b)).
    cbn in OLD. decompose [or] OLD; try contradiction; match goal with H : _ = old |- _ => rewrite <- H end; cbn; try lia;
      unfold drl_i in *; repeat match goal with |- context [if ?c then _ else _] => destruct c eqn:? end; lia. }
  assert (I0 : old = 0 -> i = 0) by (intros O; rewrite <- OI, O; reflexivity).
  pose proof (pair_assign s cs ga gb old i (p_mvs b) (t_pred t) (p_mode b) ((es ++ d1) ++ ESym "compound_mode" [spec_compound_mode (t_ref_ctx t) (t_new_ctx t)] (p_mode b - 18) ::
    index_ds (class_of old) num (p_drl b) (t_drl_ctx t)) (x_row x) (e_row_start (x_tile x)) (x_sb128 x) P4 P1 P3 G OLD N2 II I0 VS) as EA.
  fold p in EA. change (len cs) with num in EA.
  match type of EA with context [len ?z] => change (len z) with num in EA | _ => idtac end.
  set (dv := (fst (fst (p_mvs b)) - fst p, snd (fst (p_mvs b)) - snd p)) in *. fold v in EA.
  exists (d1 ++ ESym "compound_mode" [spec_compound_mode (t_ref_ctx t) (t_new_ctx t)] (p_mode b - 18) :: index_ds (class_of old) num (p_drl b) (t_drl_ctx t) ++ vec_ds old dv).
  eexists. eexists. split.
  { unfold code_inter, code_refs, feature_on. rewrite SEG. cbn [bind]. fold ra rb. rewrite CM, E1. cbn [bind p_ref1 with_refs p_seg p_mode p_new_mv p_zero_mv p_ref_mv p_drl p_mvs p_intrabc].
    replace (0 <? rb) with true by (destruct TY as [[_ T]|[_ T]]; [unfold unidir_pair in T; cbn in T; decompose [or] T; try contradiction; match goal with H : (_, _) = (_, _) |- _ => injection H as ? ? end; lia|unfold bidir_pair in T; lia]).
    rewrite pair_env_same. fold e. rewrite ES. cbn [bind]. unfold inter_mode, NEAREST_NEARESTMV. rewrite chk_u64_ok by lia. cbn [bind].
    rewrite (emit_ok _ _ _ _ _ (compound_ctx _ _ RC NC _)). cbn [bind]. fold old. rewrite P3, mv_index_ok by assumption. cbn [bind]. rewrite OI, BC.
    rewrite <- (app_assoc (es ++ d1)). cbn [app]. rewrite EA. cbn [bind]. rewrite <- !app_assoc. cbn [app]. reflexivity. }
  cbn [p_ref0 p_ref1 with_mvs with_refs p_mvs p_mode fst snd t_y_mode t_idx with_motion]. do 6 (split; [reflexivity|]). cbv zeta.
  set (w := fun m (second : bool) j => av1_pred m j num (map (if second then snd else fst) (lists (ra, rb))) (if second then db else da)).
  assert (RD : readable_pair (p_comp_ref_type b) ra rb /\ ~ both_uni_above u l -> forall k,
    av1_pair_motion u l (p_bsize b) (x_ref_select x) (pair_env x (p_bsize b)) lists y int hp
      ((d1 ++ ESym "compound_mode" [spec_compound_mode (t_ref_ctx t) (t_new_ctx t)] (p_mode b - 18) :: index_ds (class_of old) num (p_drl b) (t_drl_ctx t) ++ vec_ds old dv) ++ k) =
    LET (iv, q) := rest (p_mode b) num (t_drl_ctx t) w int hp (index_ds (class_of old) num (p_drl b) (t_drl_ctx t) ++ vec_ds old dv ++ k) IN
    Some (((ra, rb), (p_mode b, fst iv), snd iv), q)).
  { intros RP k. unfold av1_pair_motion. rewrite <- !app_assoc. cbn [app]. rewrite <- !app_assoc. rewrite (R1 RP). cbn [obind fst snd]. rewrite NL. unfold av1_mode_index, av1_mode. cbn [c_ref c_new y].
    rewrite sym_hit. cbn [obind]. replace (18 + (p_mode b - 18)) with (p_mode b) by lia. unfold rest. cbn [c_drl].
    destruct (av1_index _ _ _ _) as [[j q]|]; cbn [obind fst snd]; [|reflexivity]. destruct (modes_of (p_mode b)) as [[m0 m1]|]; [|reflexivity].
    fold e. fold da db. unfold w. destruct (av1_assign_mv m0 m1 _ _ int hp q) as [[v' q']|]; reflexivity. }
  assert (KD : kind_ok old (p_mode b) \/ ~ kind_ok old (p_mode b)) by (unfold kind_ok; lia).
  split.
  - intros (RP & NU & KK & m0 & m1 & MM & V0 & V1) k. rewrite RD by (split; assumption).
    destruct (rest_ok old (p_mode b) num (p_drl b) (t_drl_ctx t) w int hp dv KK) as (m0' & m1' & MM' & RR). rewrite MM in MM'. injection MM' as <- <-.
    rewrite RR, OI. cbn [obind fst snd]. unfold want in V0, V1. unfold w. rewrite <- V0, <- V1. reflexivity.
  - intros NG k H.
    destruct (refs_dec (p_comp_ref_type b) ra rb u l) as [RP|RP].
    + rewrite (RD RP) in H. destruct KD as [KK|KK].
      * destruct (rest_ok old (p_mode b) num (p_drl b) (t_drl_ctx t) w int hp dv KK) as (m0 & m1 & MM & RR).
        rewrite RR, OI in H. cbn [obind fst snd] in H. injection H as H1 H2. apply NG. destruct RP as [RP NU].
        split; [exact RP|]. split; [exact NU|]. split; [exact KK|]. exists m0, m1. split; [exact MM|]. unfold want. unfold w in H1, H2. split; congruence.
      * destruct (rest _ _ _ _ _ _ _) as [[[j v'] q]|] eqn:E; [|discriminate]. cbn [obind fst snd] in H. injection H as -> -> ->.
        rewrite <- OI in E. exact (rest_wrong old (p_mode b) num (p_drl b) (t_drl_ctx t) w int hp dv k _ OLD MO N2 KK E).
    + specialize (X1 RP [spec_compound_mode (t_ref_ctx t) (t_new_ctx t)] (p_mode b - 18) ((index_ds (class_of old) num (p_drl b) (t_drl_ctx t) ++ vec_ds old dv) ++ k)
        [spec_compound_mode (t_ref_ctx t) (t_new_ctx t)]).
      rewrite <- app_assoc in H. cbn [app] in H. unfold av1_pair_motion in H. destruct (av1_ref_frames u l _ _ _) as [[refs q]|]; cbn [obind snd] in *; [|discriminate].
      unfold av1_mode_index, av1_mode in H. cbn [c_ref c_new y] in H. rewrite X1 in H. cbn [obind] in H. discriminate.
Qed.

