(** Proofs about the motion of an inter block with two references (C112). *)
From Coq Require Import String ZArith List Bool Lia ZifyBool.
From Verif Require Import Base BaseProofs SeqSpec BlockTables GeomModel ContextModel ContextSpec ContextProofs MvStackModel MvStackSpec MvFindProofs ModeInfoModel ModeInfoSpec
  ModeInfoProofs ModeIndexProofs MvAssignProofs ModeWholeProofs MotionSpec MotionProofs PairSpec.
Import ListNotations.
Open Scope string_scope.
Open Scope list_scope.
Open Scope Z_scope.

(** ** References, with the symbol of the mode behind them *)

Ltac branch := try match goal with |- if ?c then _ else _ => let v := eval vm_compute in c in change c with v; cbv iota end.
Ltac lost := try reflexivity; repeat (rewrite sym_name by discriminate; cbn [obind]); try reflexivity.
Lemma pair_unidir f r0 c0 r c ref0 ref1 es : frame_ok f r c -> inner r0 c0 r c -> unidir_pair ref0 ref1 ->
  exists ds, unidir_refs f r c ref0 ref1 es = Ok (es ++ ds) /\
    if ref1 =? 2 * ref0 - (if ref0 =? 1 then 0 else 3)
    then forall k, av1_unidir (above_of f r0 r c) (left_of f c0 r c) (ds ++ k) = Some (ref0, ref1, k)
    else forall p v k p', obind (av1_unidir (above_of f r0 r c) (left_of f c0 r c) (ds ++ ESym "compound_mode" p v :: k)) (fun t => sym "compound_mode" p' (snd t)) = None.
Proof.
  intros F I R. ref_writers F I. unfold unidir_pair in R. cbn in R. unfold unidir_refs, av1_unidir.
  decompose [or] R; try contradiction; match goal with H : (_, _) = (_, _) |- _ => injection H as <- <- end; clear R;
    cbn [is_one_of existsb Z.eqb Pos.eqb orb andb b2z negb ALTREF2_FRAME BWDREF_FRAME ALTREF_FRAME GOLDEN_FRAME LAST3_FRAME LAST2_FRAME LAST_FRAME];
    wr; cbn [bind]; wr; flat; (eexists; split; [reflexivity|]); cbn [Z.eqb Z.mul Z.sub Z.add Z.opp Pos.mul Pos.eqb Z.pos_sub Pos.pred_double];
    branch; intros; cbn [app]; hit; cbn [snd]; lost.
Qed.
Lemma pair_bidir f r0 c0 r c ref0 ref1 es : frame_ok f r c -> inner r0 c0 r c -> bidir_pair ref0 ref1 ->
  exists ds, bidir_refs f r c ref0 ref1 es = Ok (es ++ ds) /\
    if (3 <=? ref0) && (ref1 =? 7)
    then forall k, av1_bidir (above_of f r0 r c) (left_of f c0 r c) (ds ++ k) = Some (ref0, ref1, k)
    else forall p v k p', obind (av1_bidir (above_of f r0 r c) (left_of f c0 r c) (ds ++ ESym "compound_mode" p v :: k)) (fun t => sym "compound_mode" p' (snd t)) = None.
Proof.
  intros F I [R0 R1]. ref_writers F I. unfold bidir_refs, av1_bidir.
  assert (C0 : In ref0 [1; 2; 3; 4]) by (cbn; lia). assert (C1 : In ref1 [5; 6; 7]) by (cbn; lia). cbn in C0, C1. clear R0 R1.
  decompose [or] C0; decompose [or] C1; try contradiction; subst ref0 ref1; clear C0 C1;
    cbn [is_one_of existsb Z.eqb Pos.eqb orb andb b2z negb ALTREF2_FRAME BWDREF_FRAME ALTREF_FRAME GOLDEN_FRAME LAST3_FRAME LAST2_FRAME LAST_FRAME];
    wr; cbn [bind]; wr; cbn [bind]; wr; cbn [bind]; wr; flat; (eexists; split; [reflexivity|]); cbn [Z.leb Z.compare Pos.compare Pos.compare_cont andb];
    branch; intros; cbn [app]; hit; cbn [snd]; lost.
Qed.

Lemma pair_refs f r0 c0 r c b select ty ref0 ref1 es : frame_ok f r c -> inner r0 c0 r c -> 0 <= b < 22 ->
  select && large_enough b = true -> (ty = 0 /\ unidir_pair ref0 ref1 \/ ty = 1 /\ bidir_pair ref0 ref1) ->
  let u := above_of f r0 r c in let l := left_of f c0 r c in
  exists ds, ref_frames f r c b select 1 ty ref0 ref1 es = Ok (es ++ ds, 1, ref0, ref1) /\
    (readable_pair ty ref0 ref1 /\ ~ both_uni_above u l -> reads_as ds (av1_ref_frames u l b select) (ref0, ref1)) /\
    (~ (readable_pair ty ref0 ref1 /\ ~ both_uni_above u l) ->
      forall p v k p', obind (av1_ref_frames u l b select (ds ++ ESym "compound_mode" p v :: k)) (fun t => sym "compound_mode" p' (snd t)) = None).
Proof.
  intros F I B C T u l. destruct (min_size b B) as (w & h & Ew & Eh & M).
  unfold ref_frames, av1_ref_frames, reads_as. rewrite Ew, Eh. cbn [bind]. rewrite M. unfold large_enough in C. rewrite C.
  rewrite (emit_ok _ _ _ _ es (comp_mode_ok f r0 c0 r c 1 F I)). cbn [bind].
  cbn [Z.eqb COMPOUND_REFERENCE Pos.eqb]. fold u l.
  destruct (nbrs f r0 c0 r c F I) as (u' & l' & Eu & El & Au & Al & Nu & Nl).
  assert (CT := comp_ref_type_total f r c ty u' l' Au Al). rewrite (emit_ok _ _ _ _ _ CT). cbn [bind].
  destruct (comp_ref_type_ctx_ok u' l' Nu Nl) as [Good Bad]. fold u in Eu. fold l in El. rewrite <- Eu, <- El in Good, Bad. rewrite <- Eu, <- El.
  assert (W : exists ds, (if ty =? UNIDIR_COMP_REFERENCE then unidir_refs f r c ref0 ref1 else bidir_refs f r c ref0 ref1)
      ((es ++ [ESym "comp_mode" [spec_comp_mode u l] 1]) ++ [ESym "comp_ref_type" [comp_ref_type_ctx u l] ty]) =
      Ok (es ++ ESym "comp_mode" [spec_comp_mode u l] 1 :: ESym "comp_ref_type" [comp_ref_type_ctx u l] ty :: ds) /\
      (readable_pair ty ref0 ref1 -> forall k, (if ty =? 0 then av1_unidir u l (ds ++ k) else av1_bidir u l (ds ++ k)) = Some (ref0, ref1, k)) /\
      (~ readable_pair ty ref0 ref1 -> forall p v k p', obind (if ty =? 0 then av1_unidir u l (ds ++ ESym "compound_mode" p v :: k) else av1_bidir u l (ds ++ ESym "compound_mode" p v :: k))
        (fun t => sym "compound_mode" p' (snd t)) = None)).
  { destruct T as [[-> P]|[-> P]]; unfold UNIDIR_COMP_REFERENCE; cbn [Z.eqb].
    - destruct (pair_unidir f r0 c0 r c ref0 ref1 ((es ++ [ESym "comp_mode" [spec_comp_mode u l] 1]) ++ [ESym "comp_ref_type" [comp_ref_type_ctx u l] 0]) F I P)
        as (ds & E & K). exists ds. rewrite E. rewrite <- !app_assoc. cbn [app]. split; [reflexivity|].
      fold u l in K. unfold unidir_pair in P. cbn in P.
      decompose [or] P; try contradiction; match goal with H : (_, _) = (_, _) |- _ => injection H as <- <- end; (try match type of K with if ?c then _ else _ => let v := eval vm_compute in c in change c with v in K end); cbv iota in K;
        (split; intros Q; first [exact K | exfalso; apply Q; left; split; [reflexivity|cbn; tauto] | exfalso; destruct Q as [[_ Q]|[Q _]]; [cbn in Q; intuition congruence|discriminate]]).
    - destruct (pair_bidir f r0 c0 r c ref0 ref1 ((es ++ [ESym "comp_mode" [spec_comp_mode u l] 1]) ++ [ESym "comp_ref_type" [comp_ref_type_ctx u l] 1]) F I P)
        as (ds & E & K). exists ds. rewrite E. rewrite <- !app_assoc. cbn [app]. split; [reflexivity|].
      fold u l in K. destruct P as [P0 P1].
      assert (C0 : In ref0 [1; 2; 3; 4]) by (cbn; lia). assert (C1 : In ref1 [5; 6; 7]) by (cbn; lia). cbn in C0, C1. clear P0 P1.
      decompose [or] C0; decompose [or] C1; try contradiction; subst ref0 ref1; (try match type of K with if ?c then _ else _ => let v := eval vm_compute in c in change c with v in K end); cbv iota in K;
        (split; intros Q; first [exact K | exfalso; apply Q; right; split; [reflexivity|cbn; tauto] | exfalso; destruct Q as [[Q _]|[_ Q]]; [discriminate|cbn in Q; intuition congruence]]). }
  destruct W as (ds & E & Rd & Nr). destruct (ty =? UNIDIR_COMP_REFERENCE) eqn:Ety; rewrite E; cbn [bind]; (eexists; split; [reflexivity|]).
  all: split; [intros [P NB] k|intros NP p v k p']; cbn [app]; rewrite sym_hit; cbn [obind Z.eqb Pos.eqb].
  all: try (rewrite (Good NB), sym_hit; cbn [obind]; specialize (Rd P k); unfold UNIDIR_COMP_REFERENCE in Ety; rewrite Ety in *; rewrite Rd; reflexivity).
  all: destruct (Z.eq_dec (comp_ref_type_ctx u l) (spec_comp_ref_type u l)) as [Q|Q];
    [|rewrite sym_path by congruence; reflexivity].
  all: rewrite Q, sym_hit; cbn [obind]; unfold UNIDIR_COMP_REFERENCE in Ety; rewrite Ety in *.
  all: assert (NR : ~ readable_pair ty ref0 ref1) by (intros P; apply NP; split; [exact P|intros X; exact (Bad X Q)]).
  all: specialize (Nr NR p v k p'); match type of Nr with obind ?x _ = _ => destruct x as [[[a b'] q]|] eqn:Ex end; cbn [obind snd] in *; [exact Nr|reflexivity].
Qed.

(** ** Index and vectors *)

Lemma mv_len ctx int hp p q v r : av1_mv ctx int hp p q = Some (v, r) -> (List.length r < List.length q)%nat.
Proof.
  unfold av1_mv. destruct (sym _ _ q) as [[j q0]|] eqn:E; [|discriminate]. cbn [obind]. apply sym_len in E.
  assert (O : forall (c : bool) comp q v r, (if c then av1_component ctx comp int hp q else Some (0, q)) = Some (v, r) -> (List.length r <= List.length q)%nat).
  { intros [] comp q' v' r' H; [apply component_len in H; lia|injection H as _ <-; lia]. }
  destruct (if (j =? 2) || (j =? 3) then _ else _) as [[d0 q1]|] eqn:E0; [|discriminate]. cbn [obind]. apply O in E0.
  destruct (if (j =? 1) || (j =? 3) then _ else _) as [[d1 q2]|] eqn:E1; [|discriminate]. cbn [obind]. apply O in E1.
  intros H. injection H as _ <-. lia.
Qed.
Lemma drl_cost : forall n i num ctx q v r, av1_drl n i num ctx q = Some (v, r) -> i <= v /\ Z.of_nat (List.length r) + (v - i) <= Z.of_nat (List.length q).
Proof.
  induction n as [|n IH]; intros i num ctx q v r; cbn [av1_drl].
  - intros H. injection H as <- <-. lia.
  - destruct (i + 1 <? num); [|intros H; injection H as <- <-; lia].
    destruct (sym _ _ q) as [[d q']|] eqn:E; [|discriminate]. cbn [obind]. apply sym_len in E.
    destruct (d =? 0); [intros H; injection H as <- <-; lia|]. intros H. apply IH in H. lia.
Qed.
Lemma two_new_len p0 p1 int hp q v r : av1_assign_mv New New p0 p1 int hp q = Some (v, r) -> (S (List.length r) < List.length q)%nat.
Proof.
  unfold av1_assign_mv. cbn [av1_list_mv]. destruct (av1_mv _ _ _ p0 q) as [[a q1]|] eqn:E; [|discriminate]. cbn [obind].
  destruct (av1_mv _ _ _ p1 q1) as [[b q2]|] eqn:E1; [|discriminate]. cbn [obind]. apply mv_len in E, E1. intros H. injection H as _ <-. lia.
Qed.

(** Everything behind the mode. *)
Definition rest (mode num : Z) (ctx : list Z) (w : imode -> bool -> Z -> mv) (int hp : bool) (q : list ev) : option ((Z * (mv * mv)) * list ev) :=
  LET (i, q) := av1_index mode num ctx q IN
  match modes_of mode with
  | Some (m0, m1) => LET (v, q) := av1_assign_mv m0 m1 (w m0 false i) (w m1 true i) int hp q IN Some ((i, v), q)
  | None => None
  end.
Definition vec_ds (old : Z) (d : mv) : list ev := if old =? 17 then [joint 0 d] else [].

Lemma mode_cases mode : 18 <= mode <= 25 -> In mode [18; 19; 20; 21; 22; 23; 24; 25].
Proof. intros H. cbn. lia. Qed.
Lemma rest_ok old mode num drl ctx w int hp d : kind_ok old mode ->
  exists m0 m1, modes_of mode = Some (m0, m1) /\ forall k,
    rest mode num ctx w int hp (index_ds (class_of old) num drl ctx ++ vec_ds old d ++ k) =
    Some ((index_i (class_of old) num drl, (w m0 false (index_i (class_of old) num drl), w m1 true (index_i (class_of old) num drl))), k).
Proof.
  intros K.
  assert (C : class_of old = class_of mode /\ vec_ds old d = [] /\ exists m0 m1, modes_of mode = Some (m0, m1) /\ is_new m0 = false /\ is_new m1 = false).
  { destruct K as [[M O]|[-> ->]]; [|split; [reflexivity|split; [reflexivity|do 2 eexists; repeat split; reflexivity]]].
    destruct M as [-> | ->]; decompose [or] O; subst old; (split; [reflexivity|split; [reflexivity|do 2 eexists; repeat split; reflexivity]]). }
  destruct C as (C & -> & m0 & m1 & M & N0 & N1). exists m0, m1. split; [exact M|]. intros k. unfold rest. cbn [app].
  rewrite C, (proj1 (index_read mode num drl ctx ctx k)) by reflexivity. cbn [obind]. rewrite M. unfold av1_assign_mv.
  destruct m0, m1; try discriminate; reflexivity.
Qed.

Lemma drl_ds_len from num drl ctx : (List.length (drl_ds from num drl ctx) <= 2)%nat.
Proof. unfold drl_ds. destruct (_ <? _); [|cbn; lia]. destruct (_ || _); cbn; lia. Qed.
Lemma drl_i_low from num drl : Z.of_nat from <= drl_i from num drl.
Proof. unfold drl_i. repeat match goal with |- context [if ?c then _ else _] => destruct c end; lia. Qed.
Lemma joint_head n p v int hp p0 q : n <> "mv_joint" -> av1_mv 0 int hp p0 (ESym n p v :: q) = None.
Proof. intros H. unfold av1_mv. rewrite sym_name by congruence. reflexivity. Qed.

Lemma still_drl num drl ctx k i q : 2 <= num -> i = drl_i 0 num drl ->
  Some (0, drl_ds 0 num drl ctx ++ k) = Some (i, q) \/ av1_drl 2 1 num ctx (drl_ds 0 num drl ctx ++ k) = Some (i, q) ->
  exists p v a, q = ESym "drl_mode" p v :: a ++ k.
Proof.
  intros N -> E. unfold drl_ds, drl_i in E. change (Z.of_nat 0) with 0 in E. destruct (Z.ltb_spec (0 + 1) num); [|lia]. destruct E as [E|E].
  - injection E as _ <-. cbn [app]. do 3 eexists. reflexivity.
  - cbn [av1_drl] in E. destruct (Z.ltb_spec (1 + 1) num).
    + cbn [app] in E. revert E. change (Z.to_nat 1) with 1%nat. ask_one. cbn [obind]. destruct (nth 0 drl 0 =? 0) eqn:D; [intros X; injection X as X _; lia|].
      cbn [orb]. destruct (Z.leb_spec num (0 + 2)); [lia|]. destruct (Z.ltb_spec (1 + 1 + 1) num).
      * cbn [app]. change (Z.to_nat (1 + 1)) with 2%nat. ask_one. cbn [obind]. destruct (nth 1 drl 0 =? 0); intros X; injection X as X _; lia.
      * intros X. injection X as _ <-. cbn [app]. do 3 eexists. instantiate (1 := []). reflexivity.
    + injection E as _ <-. cbn [app]. do 3 eexists. reflexivity.
Qed.
Lemma longer_joint x a e (k : list ev) : k = x :: a ++ e :: k -> False.
Proof. intros H. apply (f_equal (@List.length ev)) in H. cbn [List.length] in H. rewrite app_length in H. cbn [List.length] in H. lia. Qed.

Lemma rest_wrong old mode num drl ctx w int hp d k v : In old [0; 14; 15; 16; 17] -> 18 <= mode <= 25 -> 2 <= num -> ~ kind_ok old mode ->
  rest mode num ctx w int hp (index_ds (class_of old) num drl ctx ++ vec_ds old d ++ k) <> Some ((index_i (class_of old) num drl, v), k).
Proof.
  intros O M N K H. apply mode_cases in M. unfold rest in H. destruct (av1_index _ _ _ _) as [[i q]|] eqn:E; [|discriminate]. cbn [obind] in H.
  assert (A : i = index_i (class_of old) num drl /\ exists m0 m1, modes_of mode = Some (m0, m1) /\ av1_assign_mv m0 m1 (w m0 false i) (w m1 true i) int hp q = Some (v, k)).
  { destruct (modes_of mode) as [[m0 m1]|]; [|discriminate]. destruct (av1_assign_mv m0 m1 _ _ int hp q) as [[v' q']|] eqn:E'; [|discriminate]. cbn [obind] in H.
    injection H as <- <- <-. split; [reflexivity|]. exists m0, m1. split; [reflexivity|exact E']. }
  clear H. destruct A as (-> & m0 & m1 & MM & A). set (i := index_i (class_of old) num drl) in *.
  assert (D : i = index_i (class_of old) num drl) by reflexivity. clearbody i.
  assert (LQ : (if (if is_new m0 then true else false) && is_new m1 then S (List.length k) < List.length q
      else if (if is_new m0 then true else is_new m1) then List.length k < List.length q else k = q)%nat).
  { destruct m0, m1; cbn [is_new andb]; unfold av1_assign_mv in A; cbn [av1_list_mv obind] in A;
      try (injection A as _ A; symmetry; exact A);
      try (exact (two_new_len _ _ _ _ _ _ _ A));
      match type of A with context [av1_mv 0 int hp ?p q] => destruct (av1_mv 0 int hp p q) as [[a q1]|] eqn:Em; [|discriminate A] end;
      cbn [obind] in A; injection A as _ <-; apply mv_len in Em; exact Em. }
  cbn in M, O. decompose [or] O; try contradiction; subst old; clear O; cbn [class_of both_new has_near single_mode existsb Z.eqb Pos.eqb orb vec_ds app] in *;
    change (class_of 0) with 0 in *; change (class_of 14) with 0 in *; change (class_of 15) with 1 in *; change (class_of 16) with 0 in *; change (class_of 17) with 2 in *.
  all: unfold index_ds, index_i in *; cbn [Z.eqb Pos.eqb app] in *.
  all: decompose [or] M; try contradiction; subst mode; clear M; try (exfalso; apply K; unfold kind_ok; tauto); cbn in MM; injection MM as <- <-; cbn [is_new andb] in LQ.
  all: unfold av1_index in E; cbn [both_new has_near single_mode existsb Z.eqb Pos.eqb orb] in E.
  all: pose proof (drl_i_low 1 num drl) as I1; change (Z.of_nat 1) with 1 in I1; pose proof (drl_ds_len 1 num drl ctx) as L1.
  all: try (injection E as Ei <-; exfalso; subst; cbn [List.length] in *; lia).
  all: try (apply drl_cost in E; exfalso; rewrite ?app_length in *; subst; lia).
  all: pose proof (proj1 (drl_read 1 num drl ctx ctx k ltac:(lia)) (fun _ _ => eq_refl)) as R1; change (Z.of_nat 1) with 1 in R1.
  all: pose proof (proj1 (drl_read 0 num drl ctx ctx (joint 0 d :: k) ltac:(lia)) (fun _ _ => eq_refl)) as R2; change (Z.of_nat 0) with 0 in R2.
  all: try (rewrite R1 in E; injection E as _ <-; lia).
  all: try (rewrite R2 in E; injection E as _ <-; cbn [List.length] in LQ; lia).
  all: clear R1 R2.
  all: destruct (still_drl num drl ctx (joint 0 d :: k) i q N D ltac:(first [left; exact E|right; exact E])) as (p & x & a & ->).
  all: try (exact (longer_joint _ _ _ _ LQ)).
  all: unfold av1_assign_mv in A; cbn [av1_list_mv obind] in A; rewrite joint_head in A by discriminate; discriminate A.
Qed.

(** ** Writing *)

Lemma pair_entry s cs j : arrays_ok s -> entries true s = cs -> s_num s = len cs -> 0 <= j < len cs ->
  idx (s_stack s) j = Ok (nth (Z.to_nat j) cs ((0, 0), (0, 0))).
Proof.
  intros [A _] C N J.
  assert (E : cs = firstn (Z.to_nat (s_num s)) (s_stack s)).
  { rewrite <- C. unfold entries. rewrite <- (map_id (firstn _ _)) at 2. apply map_ext. intros [a b]. reflexivity. }
  assert (K : (List.length cs <= List.length (s_stack s))%nat) by (rewrite E, firstn_length; lia).
  rewrite (nth_idx _ (s_stack s) j ((0, 0), (0, 0))) by (unfold len in *; lia). f_equal.
  rewrite <- (firstn_skipn (Z.to_nat (s_num s)) (s_stack s)) at 1. rewrite <- E. rewrite app_nth1; [reflexivity|]. unfold len in J. lia.
Qed.
Lemma old_index old num drl : In old [0; 14; 15; 16; 17] -> index_i (class_of old) num drl = chosen (old_mode old) num drl.
Proof.
  intros O. cbn in O. decompose [or] O; try contradiction; subst old; try reflexivity.
  - exact (chosen_index Near num drl).
  - exact (chosen_index New num drl).
Qed.
Lemma pair_assign s cs g0 g1 old i mvs pred mode es row start sb : arrays_ok s -> entries true s = cs -> s_num s = len cs -> s_global s = (g0, g1) ->
  In old [0; 14; 15; 16; 17] -> 2 <= len cs -> 0 <= i < len cs -> (old = 0 -> i = 0) ->
  let p := av1_pred (old_mode old) i (len cs) (map fst cs) g0 in (old = 17 -> vec_small (fst mvs) /\ vec_small p) ->
  assign_mv true (mkMvIn old false (len cs) i (s_stack s) (s_global s) row start sb) mvs pred mode es =
  Ok (es ++ vec_ds old (fst (fst mvs) - fst p, snd (fst mvs) - snd p), (if old =? 17 then fst mvs else p, g1), (p, g1), 16).
Proof.
  intros A C N G O L I Z0 p V.
  assert (PE : forall j, 0 <= j < len cs -> idx (s_stack s) j = Ok (nth (Z.to_nat j) cs ((0, 0), (0, 0)))) by (intros j J; exact (pair_entry s cs j A C N J)).
  assert (MF : forall j, fst (nth j cs ((0, 0), (0, 0))) = nth j (map fst cs) (0, 0)) by (intros j; symmetry; exact (map_nth fst cs ((0, 0), (0, 0)) j)).
  assert (P0 : pred_mvs (mkMvIn old false (len cs) i (s_stack s) (s_global s) row start sb) 0 (get_mode old 0) pred = Ok (p, snd pred)).
  { unfold pred_mvs. cbn [n_intrabc n_num n_idx n_list n_globals]. cbn in O.
    decompose [or] O; try contradiction; subst old; unfold p; cbn [get_mode old_mode av1_pred Z.ltb Z.compare NEAREST_NEARESTMV Z.eqb Pos.eqb GLOBALMV NEWMV NEARESTMV andb Pos.compare Pos.compare_cont].
    - rewrite PE by lia. cbn [bind set_at at_list Z.eqb]. rewrite MF, (Z0 eq_refl). reflexivity.
    - rewrite PE by lia. cbn [bind set_at at_list Z.eqb]. rewrite MF. reflexivity.
    - rewrite PE by lia. cbn [bind set_at at_list Z.eqb]. rewrite MF. reflexivity.
    - rewrite G. reflexivity.
    - destruct (Z.leb_spec (len cs) 1); [lia|]. rewrite PE by lia. cbn [bind set_at at_list Z.eqb]. rewrite MF. reflexivity. }
  assert (G1 : get_mode old 1 = 16) by (cbn in O; decompose [or] O; try contradiction; subst old; reflexivity).
  assert (G0 : (get_mode old 0 =? NEWMV) = (old =? 17)) by (cbn in O; decompose [or] O; try contradiction; subst old; reflexivity).
  unfold assign_mv. cbn [assign_mv_loop n_intrabc n_y_mode]. rewrite P0, G0, G1. cbn [bind]. unfold vec_ds.
  destruct (Z.eqb_spec old 17) as [->|NO].
  - destruct (V eq_refl) as [[S1 S2] [T1 T2]]. cbn [fst snd]. rewrite (diff_ok _ _ S1 T1). cbn [bind]. rewrite (diff_ok _ _ S2 T2). cbn [bind].
    unfold encode_mv_joint, emit. cbn [bind]. unfold pred_mvs. cbn [n_intrabc n_globals]. rewrite G. destruct mvs. reflexivity.
  - cbn [set_at at_list Z.eqb fst snd]. unfold pred_mvs. cbn [n_intrabc n_globals]. rewrite G. cbn. rewrite app_nil_r. reflexivity.
Qed.

Lemma refs_dec ty ra rb u l : (readable_pair ty ra rb /\ ~ both_uni_above u l) \/ ~ (readable_pair ty ra rb /\ ~ both_uni_above u l).
Proof.
  assert (A : readable_pair ty ra rb \/ ~ readable_pair ty ra rb).
  { unfold readable_pair. cbn. destruct (Z.eq_dec ty 0), (Z.eq_dec ty 1), (Z.eq_dec ra 1), (Z.eq_dec ra 5), (Z.eq_dec ra 3), (Z.eq_dec ra 4), (Z.eq_dec rb 2), (Z.eq_dec rb 7);
      first [left; left; split; [assumption|]; first [left; f_equal; congruence|right; left; f_equal; congruence]
            |left; right; split; [assumption|]; first [left; f_equal; congruence|right; left; f_equal; congruence]
            |right; intros H; intuition congruence]. }
  assert (B : both_uni_above u l \/ ~ both_uni_above u l).
  { unfold both_uni_above. destruct (Avail u), (Avail l), (Intra u), (Intra l), (Single u), (Single l), (same_dir (Ref0 u) (Ref1 u)); first [left; tauto|right; intros H; decompose [and] H; discriminate]. }
  tauto.
Qed.
Lemma pair_env_same x b comp ra rb : x_mv_env x (with_refs comp ra rb b) = pair_env x (p_bsize b) ra rb.
Proof. reflexivity. Qed.

Lemma pair_read x b t es r0 c0 (int hp : bool) lists :
  let ra := p_ref0 b in let rb := p_ref1 b in let e := pair_env x (p_bsize b) ra rb in
  let ga := av1_global_mv e ra in let gb := av1_global_mv e rb in let cs := pair_candidates e ra rb in let num := len cs in
  let y := mkModeCtx (t_new_ctx t) (zero_context e true (ga, gb)) (t_ref_ctx t) (t_drl_ctx t) in
  let old := t_y_mode t in let i := chosen (old_mode old) num (p_drl b) in let p := av1_pred (old_mode old) i num (map fst cs) ga in
  x_seg_on x = false -> p_intrabc b = false -> frame_ok (x_frame x) (x_row x) (x_col x) -> inner r0 c0 (x_row x) (x_col x) -> 0 <= p_bsize b < 22 ->
  p_comp_mode b = 1 -> x_ref_select x && large_enough (p_bsize b) = true ->
  (p_comp_ref_type b = 0 /\ unidir_pair ra rb \/ p_comp_ref_type b = 1 /\ bidir_pair ra rb) ->
  env_ok e true -> around_ok e -> tables_right e -> arrays_ok (t_mv t) -> x_hp x = false -> 0 <= gm_type_of e ra <= 1 -> 0 <= gm_type_of e rb <= 1 ->
  (3 <= List.length (p_drl b))%nat -> (3 <= List.length (t_drl_ctx t))%nat -> 0 <= t_ref_ctx t < 6 -> 0 <= t_new_ctx t < 6 ->
  18 <= p_mode b <= 25 -> In old [0; 14; 15; 16; 17] -> 2 <= num -> len (lists (ra, rb)) = num ->
  (old = 17 -> vec_small (fst (p_mvs b)) /\ vec_small p) ->
  let v := if old =? 17 then fst (p_mvs b) else p in
  let want := fun m (second : bool) => av1_pred m i num (map (if second then snd else fst) (lists (ra, rb))) (if second then gb else ga) in
  let u := above_of (x_frame x) r0 (x_row x) (x_col x) in let l := left_of (x_frame x) c0 (x_row x) (x_col x) in
  let good := readable_pair (p_comp_ref_type b) ra rb /\ ~ both_uni_above u l /\ kind_ok old (p_mode b) /\
    exists m0 m1, modes_of (p_mode b) = Some (m0, m1) /\ v = want m0 false /\ gb = want m1 true in
  exists ds b' t', code_inter x b t es = Ok (es ++ ds, b', t') /\
    p_ref0 b' = ra /\ p_ref1 b' = rb /\ p_mvs b' = (v, gb) /\ p_mode b' = 16 /\ t_y_mode t' = old /\ t_idx t' = i /\
    let reader := av1_pair_motion u l (p_bsize b) (x_ref_select x) (pair_env x (p_bsize b)) lists y int hp in
    (good -> reads_as ds reader ((ra, rb), (p_mode b, i), (v, gb))) /\ (~ good -> never_reads_as ds reader ((ra, rb), (p_mode b, i), (v, gb))).
Proof.
  intros ra rb e ga gb cs num y old i p SEG BC FO INN BS CM SEL TY EO AO TR AR HP GA GB D1 D2 RC NC MO OLD N2 NL VS v want u l good.
  destruct (pair_refs (x_frame x) r0 c0 (x_row x) (x_col x) (p_bsize b) (x_ref_select x) (p_comp_ref_type b) ra rb es FO INN BS SEL TY) as (d1 & E1 & R1 & X1).
  fold u l in R1, X1.
  destruct (find_exact e true (t_mv t) EO AO TR AR) as (s & ES & G0 & G1 & P1 & _ & P3 & P4 & _ & _ & P7).
  rewrite (plain_same e HP) in *. change (v_ref0 e) with ra in G0. change (v_ref1 e) with rb in G1. specialize (G1 eq_refl).
  rewrite code_global_translation in G0 by (assumption || lia). rewrite code_global_translation in G1 by (assumption || lia). fold ga in G0. fold gb in G1.
  assert (G : s_global s = (ga, gb)) by (destruct (s_global s); cbn in *; congruence).
  cbv zeta in P1. rewrite G in P1, P7. change (entries true s = cs) in P1. rewrite P1 in P3. change (s_num s = num) in P3.
  assert (OI := old_index old num (p_drl b) OLD). fold i in OI.
  assert (II : 0 <= i < num).
  { rewrite <- OI. unfold index_i. pose proof (drl_i_low 0 num (p_drl b)). pose proof (drl_i_low 1 num (p_drl b)).
    cbn in OLD. decompose [or] OLD; try contradiction; match goal with H : _ = old |- _ => rewrite <- H end; cbn; try lia;
      unfold drl_i in *; repeat match goal with |- context [if ?c then _ else _] => destruct c eqn:? end; lia. }
  assert (I0 : old = 0 -> i = 0) by (intros O; rewrite <- OI, O; reflexivity).
  pose proof (pair_assign s cs ga gb old i (p_mvs b) (t_pred t) (p_mode b) ((es ++ d1) ++ ESym "compound_mode" [spec_compound_mode (t_ref_ctx t) (t_new_ctx t)] (p_mode b - 18) ::
    index_ds (class_of old) num (p_drl b) (t_drl_ctx t)) (x_row x) (e_row_start (x_tile x)) (x_sb128 x) P4 P1 P3 G OLD N2 II I0 VS) as EA.
  fold p in EA. change (len cs) with num in EA.
  match type of EA with context [len ?z] => change (len z) with num in EA | _ => idtac end.
  set (dv := (fst (fst (p_mvs b)) - fst p, snd (fst (p_mvs b)) - snd p)) in *. fold v in EA.
  exists (d1 ++ ESym "compound_mode" [spec_compound_mode (t_ref_ctx t) (t_new_ctx t)] (p_mode b - 18) :: index_ds (class_of old) num (p_drl b) (t_drl_ctx t) ++ vec_ds old dv).
  eexists. eexists. split.
  { unfold code_inter, code_refs, feature_on. rewrite SEG. cbn [bind]. fold ra rb. rewrite CM, E1. cbn [bind p_ref1 with_refs p_seg p_mode p_new_mv p_zero_mv p_ref_mv p_drl p_mvs p_intrabc].
    replace (0 <? rb) with true by (destruct TY as [[_ T]|[_ T]]; [unfold unidir_pair in T; cbn in T; decompose [or] T; try contradiction; match goal with H : (_, _) = (_, _) |- _ => injection H as ? ? end; lia|unfold bidir_pair in T; lia]).
    rewrite pair_env_same. fold e. rewrite ES. cbn [bind]. unfold inter_mode, NEAREST_NEARESTMV. rewrite chk_u64_ok by lia. cbn [bind].
    rewrite (emit_ok _ _ _ _ _ (compound_ctx _ _ RC NC _)). cbn [bind]. fold old. rewrite P3, mv_index_ok by assumption. cbn [bind]. rewrite OI, BC.
    rewrite <- (app_assoc (es ++ d1)). cbn [app]. rewrite EA. cbn [bind]. rewrite <- !app_assoc. cbn [app]. reflexivity. }
  cbn [p_ref0 p_ref1 with_mvs with_refs p_mvs p_mode fst snd t_y_mode t_idx with_motion]. do 6 (split; [reflexivity|]). cbv zeta.
  set (w := fun m (second : bool) j => av1_pred m j num (map (if second then snd else fst) (lists (ra, rb))) (if second then gb else ga)).
  assert (RD : readable_pair (p_comp_ref_type b) ra rb /\ ~ both_uni_above u l -> forall k,
    av1_pair_motion u l (p_bsize b) (x_ref_select x) (pair_env x (p_bsize b)) lists y int hp
      ((d1 ++ ESym "compound_mode" [spec_compound_mode (t_ref_ctx t) (t_new_ctx t)] (p_mode b - 18) :: index_ds (class_of old) num (p_drl b) (t_drl_ctx t) ++ vec_ds old dv) ++ k) =
    LET (iv, q) := rest (p_mode b) num (t_drl_ctx t) w int hp (index_ds (class_of old) num (p_drl b) (t_drl_ctx t) ++ vec_ds old dv ++ k) IN
    Some (((ra, rb), (p_mode b, fst iv), snd iv), q)).
  { intros RP k. unfold av1_pair_motion. rewrite <- !app_assoc. cbn [app]. rewrite <- !app_assoc. rewrite (R1 RP). cbn [obind fst snd]. rewrite NL. unfold av1_mode_index, av1_mode. cbn [c_ref c_new y].
    rewrite sym_hit. cbn [obind]. replace (18 + (p_mode b - 18)) with (p_mode b) by lia. unfold rest. cbn [c_drl].
    destruct (av1_index _ _ _ _) as [[j q]|]; cbn [obind fst snd]; [|reflexivity]. destruct (modes_of (p_mode b)) as [[m0 m1]|]; [|reflexivity].
    fold e. fold ga gb. unfold w. destruct (av1_assign_mv m0 m1 _ _ int hp q) as [[v' q']|]; reflexivity. }
  assert (KD : kind_ok old (p_mode b) \/ ~ kind_ok old (p_mode b)) by (unfold kind_ok; lia).
  split.
  - intros (RP & NU & KK & m0 & m1 & MM & V0 & V1) k. rewrite RD by (split; assumption).
    destruct (rest_ok old (p_mode b) num (p_drl b) (t_drl_ctx t) w int hp dv KK) as (m0' & m1' & MM' & RR). rewrite MM in MM'. injection MM' as <- <-.
    rewrite RR, OI. cbn [obind fst snd]. unfold want in V0, V1. unfold w. rewrite <- V0, <- V1. reflexivity.
  - intros NG k H.
    destruct (refs_dec (p_comp_ref_type b) ra rb u l) as [RP|RP].
    + rewrite (RD RP) in H. destruct KD as [KK|KK].
      * destruct (rest_ok old (p_mode b) num (p_drl b) (t_drl_ctx t) w int hp dv KK) as (m0 & m1 & MM & RR).
        rewrite RR, OI in H. cbn [obind fst snd] in H. injection H as H1 H2. apply NG. destruct RP as [RP NU].
        split; [exact RP|]. split; [exact NU|]. split; [exact KK|]. exists m0, m1. split; [exact MM|]. unfold want. unfold w in H1, H2. split; congruence.
      * destruct (rest _ _ _ _ _ _ _) as [[[j v'] q]|] eqn:E; [|discriminate]. cbn [obind fst snd] in H. injection H as -> -> ->.
        rewrite <- OI in E. exact (rest_wrong old (p_mode b) num (p_drl b) (t_drl_ctx t) w int hp dv k _ OLD MO N2 KK E).
    + specialize (X1 RP [spec_compound_mode (t_ref_ctx t) (t_new_ctx t)] (p_mode b - 18) ((index_ds (class_of old) num (p_drl b) (t_drl_ctx t) ++ vec_ds old dv) ++ k)
        [spec_compound_mode (t_ref_ctx t) (t_new_ctx t)]).
      rewrite <- app_assoc in H. cbn [app] in H. unfold av1_pair_motion in H. destruct (av1_ref_frames u l _ _ _) as [[refs q]|]; cbn [obind snd] in *; [|discriminate].
      unfold av1_mode_index, av1_mode in H. cbn [c_ref c_new y] in H. rewrite X1 in H. cbn [obind] in H. discriminate.
Qed.

(** ** The old mode *)

Lemma old_kept x b t es es' b' t' : encode_mode_info x b t es = Ok (es', b', t') ->
  In (t_y_mode t') [14; 15; 16; 17] \/ t_y_mode t' = t_y_mode t.
Proof.
  intros H. unfold encode_mode_info in H. destruct (x_intra x); [|injection H as _ _ <-; tauto].
  assert (KS : forall b t es es' b' t', intra_segment_id x b t es = Ok (es', b', t') -> t_y_mode t' = t_y_mode t).
  { intros b0 t0 e0 e1 b1 t1 Hs. unfold intra_segment_id in Hs. bi Hs. destruct a. bi Hs. injection Hs as _ _ <-. reflexivity. }
  bi H. destruct a as [[e b1] t1]. assert (K1 : t_y_mode t1 = t_y_mode t) by (destruct (x_pre_skip x) in E; [eapply KS; exact E|injection E as _ _ <-; reflexivity]). clear E.
  bi H. clear E. bi H. clear E. destruct a0 as [e2 b2].
  bi H. destruct a0 as [[e3 b3] t3]. assert (K3 : t_y_mode t3 = t_y_mode t1) by (destruct (negb _) in E; [eapply KS; exact E|injection E as _ _ <-; reflexivity]). clear E.
  bi H. destruct a0 as [e4 t4]. assert (K4 : t_y_mode t4 = t_y_mode t3).
  { unfold code_cdef in E. destruct (negb _) in E; [|injection E as _ <-; reflexivity]. bi E. bi E. destruct (_ =? -1) in E; [|injection E as _ <-; reflexivity].
    bi E. bi E. bi E. injection E as _ <-. reflexivity. }
  clear E. bi H. destruct a0 as [e5 t5]. assert (K5 : t_y_mode t5 = t_y_mode t4).
  { unfold code_deltas in E. bi E. destruct a0. bi E. destruct a0. injection E as _ <-. reflexivity. }
  clear E. bi H. clear E. destruct a0 as [e6 b6]. destruct (p_inter b6); [|injection H as _ _ <-; right; congruence].
  unfold code_inter in H. bi H. destruct a0 as [e7 b7]. bi H. bi H. bi H. bi H. destruct a3 as [e8 y]. bi H. destruct a3. bi H. destruct a3 as [[[? ?] ?] ?].
  injection H as _ _ <-. cbn [t_y_mode with_motion].
  assert (Y : In y [14; 15; 16; 17] \/ y = t_y_mode t5).
  { clear - E3. destruct a2; [injection E3 as _ <-; left; cbn; tauto|]. unfold inter_mode in E3. destruct (0 <? p_ref1 b7).
    - bi E3. bi E3. injection E3 as _ <-. right. reflexivity.
    - left. bi E3. destruct (negb _) in E3; [injection E3 as _ <-; cbn; tauto|]. bi E3. destruct (negb _) in E3; [injection E3 as _ <-; cbn; tauto|]. bi E3.
      destruct (negb _) in E3; injection E3 as _ <-; cbn; tauto. }
  destruct Y as [Y| ->]; [left; exact Y|right; congruence].
Qed.
