(** Proofs about an inter block with two references and fewer than two candidates (C112). *)
From Coq Require Import String ZArith List Bool Lia ZifyBool.
From Verif Require Import Base BaseProofs SeqSpec SessionModel BlockTables GeomModel ContextModel ContextSpec ContextProofs MvStackModel MvStackSpec MvFindProofs ModeInfoModel ModeInfoSpec
  ModeInfoProofs ModeIndexProofs MvAssignProofs ModeWholeProofs MotionSpec MotionProofs PairSpec PairProofs LeftoverSpec LeftoverProofs AnyMotionSpec.
Import ListNotations.
Open Scope string_scope.
Open Scope list_scope.
Open Scope Z_scope.

(** The list after the candidates were collected. *)
Lemma stack_after : forall e s0 s cs, arrays_ok s0 -> arrays_ok s -> find_mv_stack e true s0 = Ok s -> entries true s = cs -> s_num s = len cs ->
  s_stack s = cs ++ skipn (length cs) (s_stack s0).
Proof.
  intros e s0 s cs [A0 _] [A _] F C N. destruct (find_keeps _ _ _ _ F) as (_ & LN & K).
  assert (E : cs = firstn (Z.to_nat (s_num s)) (s_stack s)).
  { rewrite <- C. unfold entries. rewrite <- (map_id (firstn _ _)) at 2. apply map_ext. intros [a b]. reflexivity. }
  rewrite <- (firstn_skipn (Z.to_nat (s_num s)) (s_stack s)) at 1. rewrite <- E. f_equal. rewrite N. unfold len. rewrite Nat2Z.id.
  set (n := length cs). assert (K' : forall k, (n <= k)%nat -> nth_error (s_stack s) k = nth_error (s_stack s0) k) by (intros k H; apply K; rewrite N; unfold len, n in *; lia).
  clear - K' LN. revert K' LN. generalize (s_stack s) (s_stack s0). induction n as [|n IH]; intros a b K L.
  - cbn [skipn]. revert b K L. induction a as [|x a IH]; intros [|y b] K L; try discriminate; [reflexivity|].
    pose proof (K 0%nat (le_n _)) as Q. cbn in Q. injection Q as ->. f_equal. apply IH; [intros k H; exact (K (S k) ltac:(lia))|now injection L].
  - destruct a as [|x a], b as [|y b]; try discriminate; [reflexivity|]. cbn [skipn]. apply IH; [intros k H; exact (K (S k) ltac:(lia))|now injection L].
Qed.

Definition few_index (old : Z) : Z := if old =? 15 then 1 else 0.
Lemma few_index_ok : forall old n drl ctx, In old [0; 14; 15; 16; 17] -> n <= 1 -> index_ds (class_of old) n drl ctx = [] /\ index_i (class_of old) n drl = few_index old.
Proof.
  intros old n drl ctx O N. cbn in O. unfold index_ds, index_i, drl_ds, drl_i.
  replace (Z.of_nat 0 + 1 <? n) with false by lia. replace (Z.of_nat 1 + 1 <? n) with false by lia.
  decompose [or] O; try contradiction; subst old; split; reflexivity.
Qed.

Lemma some_both : forall (A B : Type) (a c : A) (b d : B), Some (a, b) = Some (c, d) -> a = c /\ b = d.
Proof. intros A B a c b d H. now injection H. Qed.
Lemma new_zero : forall int hp p d k v, av1_mv 0 int hp p (joint 0 d :: k) = Some (v, k) -> d = (0, 0).
Proof.
  intros int hp p [x y] k v H. destruct (Z.eq_dec x 0) as [->|X]; [destruct (Z.eq_dec y 0) as [->|Y]; [reflexivity|]|]; exfalso;
    (apply joint_short in H; [lia|intros Q; injection Q; intros; contradiction]).
Qed.
Lemma rest_few : forall old mode ctx w int hp d k v, In old [0; 14; 15; 16; 17] -> 18 <= mode <= 25 ->
  (rest mode 2 ctx w int hp (vec_ds old d ++ k) = Some ((few_index old, v), k) <->
   (kind_ok old mode \/ (mode = 20 \/ mode = 21) /\ old = 17 /\ d = (0, 0)) /\
   exists m0 m1, modes_of mode = Some (m0, m1) /\ v = (w m0 false (few_index old), w m1 true (few_index old))).
Proof.
  intros old mode ctx w int hp d k v O M. split.
  - intros H. apply mode_cases in M. unfold rest in H. destruct (av1_index _ _ _ _) as [[i q]|] eqn:E; [|discriminate]. cbn [obind] in H.
    assert (A : i = few_index old /\ exists m0 m1, modes_of mode = Some (m0, m1) /\ av1_assign_mv m0 m1 (w m0 false i) (w m1 true i) int hp q = Some (v, k)).
    { destruct (modes_of mode) as [[m0 m1]|]; [|discriminate]. destruct (av1_assign_mv m0 m1 _ _ int hp q) as [[v' q']|] eqn:E'; [|discriminate]. cbn [obind] in H.
      injection H as <- <- <-. split; [reflexivity|]. exists m0, m1. split; [reflexivity|exact E']. }
    clear H. destruct A as (-> & m0 & m1 & MM & A).
    assert (LQ : (if (if is_new m0 then true else false) && is_new m1 then S (List.length k) < List.length q
      else if (if is_new m0 then true else is_new m1) then List.length k < List.length q else k = q)%nat).
    { destruct m0, m1; cbn [is_new andb]; unfold av1_assign_mv in A; cbn [av1_list_mv obind] in A;
      try (injection A as _ A; symmetry; exact A);
      try (exact (two_new_len _ _ _ _ _ _ _ A));
      match type of A with context [av1_mv 0 int hp ?p q] => destruct (av1_mv 0 int hp p q) as [[a q1]|] eqn:Em; [|discriminate A] end;
      cbn [obind] in A; injection A as _ <-; apply mv_len in Em; exact Em. }
    assert (GO : (kind_ok old mode \/ (mode = 20 \/ mode = 21) /\ old = 17 /\ d = (0, 0)) /\ v = (w m0 false (few_index old), w m1 true (few_index old))).
    2: { destruct GO as [G V]. split; [exact G|]. exists m0, m1. split; [exact MM|exact V]. }
    assert (NL : forall x : ev, k <> x :: k) by (intros x X; apply (f_equal (@List.length ev)) in X; cbn [List.length] in X; lia).
    unfold few_index, av1_index in *. cbn in M, O. decompose [or] O; try contradiction; subst old; clear O; cbn [vec_ds app Z.eqb Pos.eqb] in *;
      decompose [or] M; try contradiction; subst mode; clear M; cbn in MM; injection MM as <- <-; cbn [is_new andb] in LQ;
      cbn [both_new has_near single_mode existsb Z.eqb Pos.eqb orb] in E;
      try (apply drl_cost in E; exfalso; cbn [List.length] in *; lia);
      try (cbn in E; apply some_both in E; destruct E as [Ei Eq]; first [discriminate Ei|subst q; clear Ei]);
      try (exfalso; cbn [List.length] in LQ; lia);
      try (exfalso; exact (NL _ LQ)).
    all: try (split; [left; unfold kind_ok; tauto|unfold av1_assign_mv in A; cbn [av1_list_mv obind] in A; injection A as <-; reflexivity]).
    all: unfold av1_assign_mv in A; cbn [av1_list_mv obind] in A;
      match type of A with context [av1_mv 0 ?ii ?hh ?p ?jk] => destruct (av1_mv 0 ii hh p jk) as [[a q1]|] eqn:Em; [|discriminate A] end;
      cbn [obind] in A; apply some_both in A; destruct A as [<- ->]; pose proof (new_zero _ _ _ _ _ _ Em) as ->; rewrite joint_zero in Em; apply some_both in Em; destruct Em as [<- _];
      (split; [right; tauto|reflexivity]).
  - intros (K & m0 & m1 & MM & ->). unfold rest, av1_index. destruct K as [[[M1 O1]|[-> ->]]|(M1 & -> & ->)].
    + destruct M1 as [-> | ->]; cbn in MM; injection MM as <- <-; decompose [or] O1; subst old; reflexivity.
    + cbn in MM. injection MM as <- <-. reflexivity.
    + destruct M1 as [-> | ->]; cbn in MM; injection MM as <- <-; cbn -[av1_mv joint]; change (nth_error compound_modes (Pos.to_nat 2)) with (Some (Nearest, New)); change (nth_error compound_modes (Pos.to_nat 3)) with (Some (New, Nearest)); cbv iota beta; unfold av1_assign_mv; cbn [av1_list_mv obind];
        rewrite joint_zero; reflexivity.
Qed.

Lemma few_assign s st g0 g1 old num mvs pred mode es row start sb : s_stack s = st -> len st = 8 -> s_global s = (g0, g1) -> num <= 1 ->
  In old [0; 14; 15; 16; 17] ->
  let p := match old_mode old with Global => g0 | m => fst (nth (first_entry m) st ((0, 0), (0, 0))) end in (old = 17 -> vec_small (fst mvs) /\ vec_small p) ->
  assign_mv true (mkMvIn old false num (few_index old) (s_stack s) (s_global s) row start sb) mvs pred mode es =
  Ok (es ++ vec_ds old (fst (fst mvs) - fst p, snd (fst mvs) - snd p), (if old =? 17 then fst mvs else p, g1), (p, g1), 16).
Proof.
  intros S L G N O p V.
  assert (PE : forall j, (j < 8)%nat -> idx (s_stack s) (Z.of_nat j) = Ok (nth j st ((0, 0), (0, 0)))).
  { intros j J. rewrite S, (nth_idx _ st (Z.of_nat j) ((0, 0), (0, 0))) by lia. rewrite Nat2Z.id. reflexivity. }
  assert (PE0 := PE 0%nat ltac:(lia)). assert (PE1 := PE 1%nat ltac:(lia)). change (Z.of_nat 0) with 0 in PE0. change (Z.of_nat 1) with 1 in PE1.
  assert (P0 : pred_mvs (mkMvIn old false num (few_index old) (s_stack s) (s_global s) row start sb) 0 (get_mode old 0) pred = Ok (p, snd pred)).
  { unfold pred_mvs. cbn [n_intrabc n_num n_idx n_list n_globals]. cbn in O.
    decompose [or] O; try contradiction; subst old; unfold p, few_index; cbn [get_mode old_mode first_entry Z.ltb Z.compare NEAREST_NEARESTMV Z.eqb Pos.eqb GLOBALMV NEWMV NEARESTMV andb Pos.compare Pos.compare_cont].
    - rewrite PE0. reflexivity.
    - rewrite PE0. reflexivity.
    - rewrite PE1. reflexivity.
    - rewrite G. reflexivity.
    - replace (num <=? 1) with true by lia. rewrite PE0. reflexivity. }
  assert (G1 : get_mode old 1 = 16) by (cbn in O; decompose [or] O; try contradiction; subst old; reflexivity).
  assert (G0 : (get_mode old 0 =? NEWMV) = (old =? 17)) by (cbn in O; decompose [or] O; try contradiction; subst old; reflexivity).
  unfold assign_mv. cbn [assign_mv_loop n_intrabc n_y_mode]. rewrite P0, G0, G1. cbn [bind]. unfold vec_ds.
  destruct (Z.eqb_spec old 17) as [->|NO].
  - destruct (V eq_refl) as [[S1 S2] [T1 T2]]. cbn [fst snd]. rewrite (diff_ok _ _ S1 T1). cbn [bind]. rewrite (diff_ok _ _ S2 T2). cbn [bind].
    unfold encode_mv_joint, emit. cbn [bind]. unfold pred_mvs. cbn [n_intrabc n_globals]. rewrite G. destruct mvs. reflexivity.
  - cbn [set_at at_list Z.eqb fst snd]. unfold pred_mvs. cbn [n_intrabc n_globals]. rewrite G. cbn. rewrite app_nil_r. reflexivity.
Qed.

Lemma pair_few x b t es r0 c0 (int hp : bool) lists :
  let ra := p_ref0 b in let rb := p_ref1 b in let e := pair_env x (p_bsize b) ra rb in
  let ga := code_global e ra in let gb := code_global e rb in let cs := own_pairs e (ga, gb) in
  let y := mkModeCtx (t_new_ctx t) (zero_context (plain e) true (ga, gb)) (t_ref_ctx t) (t_drl_ctx t) in
  let old := t_y_mode t in let i := if old =? 15 then 1 else 0 in
  let held := cs ++ skipn (length cs) (s_stack (t_mv t)) in
  let p := match old_mode old with Global => ga | m => fst (nth (first_entry m) held ((0, 0), (0, 0))) end in
  x_seg_on x = false -> p_intrabc b = false -> frame_ok (x_frame x) (x_row x) (x_col x) -> inner r0 c0 (x_row x) (x_col x) -> 0 <= p_bsize b < 22 ->
  p_comp_mode b = 1 -> x_ref_select x && large_enough (p_bsize b) = true ->
  (p_comp_ref_type b = 0 /\ unidir_pair ra rb \/ p_comp_ref_type b = 1 /\ bidir_pair ra rb) ->
  env_ok e true -> around_ok e -> tables_right e -> arrays_ok (t_mv t) ->
  (3 <= List.length (p_drl b))%nat -> (3 <= List.length (t_drl_ctx t))%nat -> 0 <= t_ref_ctx t < 6 -> 0 <= t_new_ctx t < 6 ->
  18 <= p_mode b <= 25 -> In old [0; 14; 15; 16; 17] -> len cs <= 1 -> len (lists (ra, rb)) = 2 ->
  (old = 17 -> vec_small (fst (p_mvs b)) /\ vec_small p) ->
  let da := av1_global_mv e ra in let db := av1_global_mv e rb in
  let v := if old =? 17 then fst (p_mvs b) else p in
  let want := fun m (second : bool) => av1_pred m i 2 (map (if second then snd else fst) (lists (ra, rb))) (if second then db else da) in
  let u := above_of (x_frame x) r0 (x_row x) (x_col x) in let l := left_of (x_frame x) c0 (x_row x) (x_col x) in
  let good := readable_pair (p_comp_ref_type b) ra rb /\ ~ both_uni_above u l /\ (kind_ok old (p_mode b) \/ (p_mode b = 20 \/ p_mode b = 21) /\ old = 17 /\ v = p) /\
    exists m0 m1, modes_of (p_mode b) = Some (m0, m1) /\ v = want m0 false /\ gb = want m1 true in
  exists ds b' t', code_inter x b t es = Ok (es ++ ds, b', t') /\
    p_ref0 b' = ra /\ p_ref1 b' = rb /\ p_mvs b' = (v, gb) /\ p_mode b' = 16 /\ t_y_mode t' = old /\ t_idx t' = i /\
    let reader := av1_pair_motion u l (p_bsize b) (x_ref_select x) (pair_env x (p_bsize b)) lists y int hp in
    (good -> reads_as ds reader ((ra, rb), (p_mode b, i), (v, gb))) /\ (~ good -> never_reads_as ds reader ((ra, rb), (p_mode b, i), (v, gb))).
Proof.
  intros ra rb e ga gb cs y old i held p SEG BC FO INN BS CM SEL TY EO AO TR AR D1 D2 RC NC MO OLD N1 NL VS da db v want u l good.
  destruct (pair_refs (x_frame x) r0 c0 (x_row x) (x_col x) (p_bsize b) (x_ref_select x) (p_comp_ref_type b) ra rb es FO INN BS SEL TY) as (d1 & E1 & R1 & X1).
  fold u l in R1, X1.
  destruct (find_exact e true (t_mv t) EO AO TR AR) as (s & ES & G0 & G1 & P1 & _ & P3 & P4 & _ & _ & P7).
  change (v_ref0 e) with ra in G0. change (v_ref1 e) with rb in G1. specialize (G1 eq_refl).
  fold ga in G0. fold gb in G1.
  assert (G : s_global s = (ga, gb)) by (destruct (s_global s); cbn in *; congruence).
  cbv zeta in P1. rewrite G in P1, P7. change (entries true s = cs) in P1. rewrite P1 in P3. change (s_num s = len cs) in P3. set (num := len cs) in *.
  pose proof (stack_after e (t_mv t) s cs AR P4 ES P1 P3) as ST. fold held in ST.
  assert (L8 : len held = 8) by (pose proof (proj1 P4) as Q8; rewrite ST in Q8; exact Q8).
  destruct (few_index_ok old num (p_drl b) (t_drl_ctx t) OLD N1) as [DS IX]. change (few_index old) with i in IX.
  pose proof (few_assign s held ga gb old num (p_mvs b) (t_pred t) (p_mode b) ((es ++ d1) ++ [ESym "compound_mode" [spec_compound_mode (t_ref_ctx t) (t_new_ctx t)] (p_mode b - 18)])
    (x_row x) (e_row_start (x_tile x)) (x_sb128 x) ST L8 G N1 OLD VS) as EA. fold p in EA. change (few_index old) with i in EA. 
  set (dv := (fst (fst (p_mvs b)) - fst p, snd (fst (p_mvs b)) - snd p)) in *. fold v in EA.
  exists (d1 ++ ESym "compound_mode" [spec_compound_mode (t_ref_ctx t) (t_new_ctx t)] (p_mode b - 18) :: vec_ds old dv).
  eexists. eexists. split.
  { unfold code_inter, code_refs, feature_on. rewrite SEG. cbn [bind]. fold ra rb. rewrite CM, E1. cbn [bind p_ref1 with_refs p_seg p_mode p_new_mv p_zero_mv p_ref_mv p_drl p_mvs p_intrabc].
    replace (0 <? rb) with true by (destruct TY as [[_ T]|[_ T]]; [unfold unidir_pair in T; cbn in T; decompose [or] T; try contradiction; match goal with H : (_, _) = (_, _) |- _ => injection H as ? ? end; lia|unfold bidir_pair in T; lia]).
    rewrite pair_env_same. fold e. rewrite ES. cbn [bind]. unfold inter_mode, NEAREST_NEARESTMV. rewrite chk_u64_ok by lia. cbn [bind].
    rewrite (emit_ok _ _ _ _ _ (compound_ctx _ _ RC NC _)). cbn [bind]. fold old. rewrite P3, mv_index_ok by assumption. cbn [bind]. rewrite DS, IX, app_nil_r, BC.
    rewrite EA. cbn [bind]. rewrite <- !app_assoc. cbn [app]. reflexivity. }
  cbn [p_ref0 p_ref1 with_mvs with_refs p_mvs p_mode fst snd t_y_mode t_idx with_motion]. do 6 (split; [reflexivity|]). cbv zeta.
  set (w := fun m (second : bool) j => av1_pred m j 2 (map (if second then snd else fst) (lists (ra, rb))) (if second then db else da)).
  assert (RD : readable_pair (p_comp_ref_type b) ra rb /\ ~ both_uni_above u l -> forall k,
    av1_pair_motion u l (p_bsize b) (x_ref_select x) (pair_env x (p_bsize b)) lists y int hp
      ((d1 ++ ESym "compound_mode" [spec_compound_mode (t_ref_ctx t) (t_new_ctx t)] (p_mode b - 18) :: vec_ds old dv) ++ k) =
    LET (iv, q) := rest (p_mode b) 2 (t_drl_ctx t) w int hp (vec_ds old dv ++ k) IN
    Some (((ra, rb), (p_mode b, fst iv), snd iv), q)).
  { intros RP k. unfold av1_pair_motion. rewrite <- !app_assoc. cbn [app]. rewrite (R1 RP). cbn [obind fst snd]. rewrite NL. unfold av1_mode_index, av1_mode. cbn [c_ref c_new y].
    rewrite sym_hit. cbn [obind]. replace (18 + (p_mode b - 18)) with (p_mode b) by lia. unfold rest. cbn [c_drl].
    destruct (av1_index _ _ _ _) as [[j q]|]; cbn [obind fst snd]; [|reflexivity]. destruct (modes_of (p_mode b)) as [[m0 m1]|]; [|reflexivity].
    fold e. fold da db. unfold w. destruct (av1_assign_mv m0 m1 _ _ int hp q) as [[v' q']|]; reflexivity. }
  assert (DV : old = 17 -> (dv = (0, 0) <-> v = p)).
  { intros O. unfold v. rewrite O. cbn [Z.eqb Pos.eqb]. apply mv_diff. }
  split.
  - intros (RP & NU & KK & m0 & m1 & MM & V0 & V1) k. rewrite RD by (split; assumption).
    assert (RR : rest (p_mode b) 2 (t_drl_ctx t) w int hp (vec_ds old dv ++ k) = Some ((few_index old, (v, gb)), k)).
    { apply rest_few; [exact OLD|exact MO|]. split; [|exists m0, m1; split; [exact MM|unfold want in V0, V1; unfold w; change (few_index old) with i; congruence]].
      destruct KK as [KK|(KM & KO & KV)]; [left; exact KK|right]. split; [exact KM|]. split; [exact KO|]. apply (DV KO). exact KV. }
    rewrite RR. reflexivity.
  - intros NG k H.
    destruct (refs_dec (p_comp_ref_type b) ra rb u l) as [RP|RP].
    + rewrite (RD RP) in H. destruct (rest _ _ _ _ _ _ _) as [[[j v'] q]|] eqn:E; [|discriminate]. cbn [obind fst snd] in H. injection H as -> -> ->.
      change i with (few_index old) in E. apply rest_few in E; [|exact OLD|exact MO]. destruct E as (KK & m0 & m1 & MM & V). apply NG. destruct RP as [RP NU].
      split; [exact RP|]. split; [exact NU|]. split.
      * destruct KK as [KK|(KM & KO & KV)]; [left; exact KK|right]. split; [exact KM|]. split; [exact KO|]. apply (DV KO). exact KV.
      * exists m0, m1. split; [exact MM|]. unfold w in V. change (few_index old) with i in V. unfold want. split; congruence.
    + specialize (X1 RP [spec_compound_mode (t_ref_ctx t) (t_new_ctx t)] (p_mode b - 18) (vec_ds old dv ++ k)
        [spec_compound_mode (t_ref_ctx t) (t_new_ctx t)]).
      rewrite <- app_assoc in H. cbn [app] in H. unfold av1_pair_motion in H. destruct (av1_ref_frames u l _ _ _) as [[refs q]|]; cbn [obind snd] in *; [|discriminate].
      unfold av1_mode_index, av1_mode in H. cbn [c_ref c_new y] in H. rewrite X1 in H. cbn [obind] in H. discriminate.
Qed.
