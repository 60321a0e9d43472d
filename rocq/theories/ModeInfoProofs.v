(** Proofs about reference frames, modes and motion vectors (ModeInfoModel). *)
From Coq Require Import String ZArith List Bool Lia ZifyBool.
From Verif Require Import Base BaseProofs BlockTables SeqSpec ElementModel ElementSpec ContextModel ContextSpec ContextProofs MvStackModel
  ModeInfoModel ModeInfoSpec.
Import ListNotations.
Open Scope string_scope.
Open Scope list_scope.
Open Scope Z_scope.
Ltac Zify.zify_post_hook ::= Z.div_mod_to_equations.

(** ** Readers *)

Lemma sym_hit : forall n p s q, sym n p (ESym n p s :: q) = Some (s, q).
Proof. intros. unfold sym. rewrite String.eqb_refl. destruct (list_eq_dec Z.eq_dec p p); [reflexivity|congruence]. Qed.
Lemma sym_len : forall n p q s r, sym n p q = Some (s, r) -> List.length q = S (List.length r).
Proof.
  intros n p [|[n' p' s'|m v] q] s r H; try discriminate. unfold sym in H.
  destruct (_ && _); [|discriminate]. injection H as <- <-. reflexivity.
Qed.
Lemma sym_path : forall n p p' s q, p <> p' -> sym n p (ESym n p' s :: q) = None.
Proof. intros. unfold sym. destruct (list_eq_dec Z.eq_dec p' p); [congruence|]. rewrite andb_false_r. reflexivity. Qed.
Lemma sym_name : forall n n' p p' s q, n <> n' -> sym n p (ESym n' p' s :: q) = None.
Proof. intros. unfold sym. destruct (String.eqb_spec n' n); [congruence|]. reflexivity. Qed.
Lemma emit_ok : forall w n p s es, w = Ok (n, p, s) -> emit w es = Ok (es ++ [ESym n p s]).
Proof. intros. subst. reflexivity. Qed.

(** An equation between a list and itself with more in front. *)
Lemma longer : forall (A : Type) (a k : list A) x, x :: a ++ k <> k.
Proof. intros A a k x H. apply (f_equal (@List.length A)) in H. cbn [List.length] in H. rewrite app_length in H. lia. Qed.

Ltac hit := repeat (rewrite ?sym_hit; cbn [obind Z.eqb pick app Pos.eqb]).

(** ** Reference frames *)

Lemma ref_writers : forall f r0 c0 r c, frame_ok f r c -> inner r0 c0 r c ->
  let ctx g0 g1 := spec_counts g0 g1 (above_of f r0 r c) (left_of f c0 r c) in
  (forall s, encode_comp_ref s f r c = Ok ("comp_ref", [ctx [1; 2] [3; 4]; 0], s)) /\
  (forall s, encode_comp_ref_p1 s f r c = Ok ("comp_ref", [ctx [1] [2]; 1], s)) /\
  (forall s, encode_comp_ref_p2 s f r c = Ok ("comp_ref", [ctx [3] [4]; 2], s)) /\
  (forall s, encode_comp_bwdref s f r c = Ok ("comp_bwd_ref", [ctx [5; 6] [7]; 0], s)) /\
  (forall s, encode_single_ref_p1 s f r c = Ok ("single_ref", [ctx [1; 2; 3; 4] [5; 6; 7]; 0], s)) /\
  (forall s, encode_single_ref_p2 s f r c = Ok ("single_ref", [ctx [5; 6] [7]; 1], s)) /\
  (forall s, encode_single_ref_p3 s f r c = Ok ("single_ref", [ctx [1; 2] [3; 4]; 2], s)) /\
  (forall s, encode_single_ref_p4 s f r c = Ok ("single_ref", [ctx [1] [2]; 3], s)) /\
  (forall s, encode_single_ref_p5 s f r c = Ok ("single_ref", [ctx [3] [4]; 4], s)) /\
  (forall s, encode_single_ref_p6 s f r c = Ok ("single_ref", [ctx [5] [6]; 5], s)) /\
  (forall s, encode_uni_comp_ref s f r c = Ok ("uni_comp_ref", [ctx [1; 2; 3; 4] [5; 6; 7]; 0], s)) /\
  (forall s, encode_uni_comp_ref_p1 s f r c = Ok ("uni_comp_ref", [ctx [2] [3; 4]; 1], s)).
Proof.
  intros f r0 c0 r c F I ctx. unfold ctx.
  repeat match goal with |- _ /\ _ => split end; intros s;
    (apply count_ctx_ok; [exact F|exact I|repeat constructor; cbn; intuition lia|repeat constructor; cbn; intuition lia]).
Qed.
Ltac ref_writers F I :=
  let H := fresh "RW" in pose proof (ref_writers _ _ _ _ _ F I) as H; cbv zeta in H;
  destruct H as (Wcr & Wcr1 & Wcr2 & Wbw & Ws1 & Ws2 & Ws3 & Ws4 & Ws5 & Ws6 & Wu & Wu1).
Ltac wr := repeat match goal with W : forall s, ?e s ?f ?r ?c = _ |- context [emit (?e ?x ?f ?r ?c) _] => rewrite (emit_ok _ _ _ _ _ (W x)) end.
Ltac flat := rewrite <- ?app_assoc; cbn [app].

Lemma single_refs_ok : forall f r0 c0 r c ref0 es, frame_ok f r c -> inner r0 c0 r c -> 1 <= ref0 <= 7 ->
  exists ds, single_refs f r c ref0 es = Ok (es ++ ds) /\
    reads_as ds (av1_single_ref (above_of f r0 r c) (left_of f c0 r c)) ref0.
Proof.
  intros f r0 c0 r c ref0 es F I R. ref_writers F I.
  assert (C : In ref0 [1; 2; 3; 4; 5; 6; 7]) by (cbn; lia). unfold single_refs, reads_as, av1_single_ref. cbn in C.
  decompose [or] C; try contradiction; subst ref0; clear C R;
    cbn [is_one_of existsb Z.eqb Pos.eqb orb b2z negb ALTREF2_FRAME BWDREF_FRAME ALTREF_FRAME GOLDEN_FRAME LAST3_FRAME LAST2_FRAME];
    wr; cbn [bind]; wr; cbn [bind]; wr; flat; (eexists; split; [reflexivity|]); intros k; cbn [app]; hit; reflexivity.
Qed.

Lemma unidir_refs_ok : forall f r0 c0 r c ref0 ref1 es, frame_ok f r c -> inner r0 c0 r c -> unidir_pair ref0 ref1 ->
  exists ds, unidir_refs f r c ref0 ref1 es = Ok (es ++ ds) /\
    if ref1 =? 2 * ref0 - (if ref0 =? 1 then 0 else 3)
    then forall k, av1_unidir (above_of f r0 r c) (left_of f c0 r c) (ds ++ k) = Some (ref0, ref1, k)
    else forall k a b, av1_unidir (above_of f r0 r c) (left_of f c0 r c) (ds ++ k) <> Some (a, b, k).
Proof.
  intros f r0 c0 r c ref0 ref1 es F I R. ref_writers F I. unfold unidir_pair in R. cbn in R. unfold unidir_refs, av1_unidir.
  decompose [or] R; try contradiction; match goal with H : (_, _) = (_, _) |- _ => injection H as <- <- end; clear R;
    cbn [is_one_of existsb Z.eqb Pos.eqb orb andb b2z negb ALTREF2_FRAME BWDREF_FRAME ALTREF_FRAME GOLDEN_FRAME LAST3_FRAME LAST2_FRAME LAST_FRAME];
    wr; cbn [bind]; wr; flat; (eexists; split; [reflexivity|]); cbn [Z.eqb Z.mul Z.sub Z.add Z.opp Pos.mul Pos.eqb Z.pos_sub Pos.pred_double];
    intros k; cbn [app]; hit; try reflexivity;
    (intros a b; destruct (sym _ _ k) as [[v q]|] eqn:E; cbn [obind]; [|discriminate];
     intros X; injection X as _ _ X; subst q; apply sym_len in E; lia).
Qed.

Lemma bidir_refs_ok : forall f r0 c0 r c ref0 ref1 es, frame_ok f r c -> inner r0 c0 r c -> bidir_pair ref0 ref1 ->
  exists ds, bidir_refs f r c ref0 ref1 es = Ok (es ++ ds) /\
    if (3 <=? ref0) && (ref1 =? 7)
    then forall k, av1_bidir (above_of f r0 r c) (left_of f c0 r c) (ds ++ k) = Some (ref0, ref1, k)
    else forall k a b, av1_bidir (above_of f r0 r c) (left_of f c0 r c) (ds ++ k) <> Some (a, b, k).
Proof.
  intros f r0 c0 r c ref0 ref1 es F I [R0 R1]. ref_writers F I. unfold bidir_refs, av1_bidir.
  assert (C0 : In ref0 [1; 2; 3; 4]) by (cbn; lia). assert (C1 : In ref1 [5; 6; 7]) by (cbn; lia). cbn in C0, C1. clear R0 R1.
  decompose [or] C0; decompose [or] C1; try contradiction; subst ref0 ref1; clear C0 C1;
    cbn [is_one_of existsb Z.eqb Pos.eqb orb andb b2z negb ALTREF2_FRAME BWDREF_FRAME ALTREF_FRAME GOLDEN_FRAME LAST3_FRAME LAST2_FRAME LAST_FRAME];
    wr; cbn [bind]; wr; cbn [bind]; wr; cbn [bind]; wr; flat; (eexists; split; [reflexivity|]); cbn [Z.leb Z.compare Pos.compare Pos.compare_cont andb];
    intros k; cbn [app]; hit; try reflexivity; intros a b; try discriminate;
    try (intros X; injection X as _ _ X; exact (longer _ [] _ _ X));
    (destruct (sym _ _ k) as [[v q]|] eqn:E; cbn [obind]; [|discriminate];
     intros X; injection X as _ _ X; subst q; apply sym_len in E; lia).
Qed.

Lemma min_size : forall b, 0 <= b < 22 -> exists w h, idx num_4x4_blocks_wide b = Ok w /\ idx num_4x4_blocks_high b = Ok h /\
  (2 <=? Z.min w h) = (8 <=? Z.min (Block_Width b) (Block_Height b)).
Proof.
  intros b Hb.
  assert (G : forallb (fun b => match idx num_4x4_blocks_wide b, idx num_4x4_blocks_high b with
    | Ok w, Ok h => Bool.eqb (2 <=? Z.min w h) (8 <=? Z.min (Block_Width b) (Block_Height b)) | _, _ => false end)
    (map Z.of_nat (seq 0 22)) = true) by reflexivity.
  apply (forall_below 22 _ G) in Hb.
  destruct (idx num_4x4_blocks_wide b) as [w| |], (idx num_4x4_blocks_high b) as [h| |]; try discriminate.
  exists w, h. split; [reflexivity|]. split; [reflexivity|]. apply Bool.eqb_prop. exact Hb.
Qed.

(** Blocks with one reference. *)
Definition large_enough (b : Z) : bool := 8 <=? Z.min (Block_Width b) (Block_Height b).
Lemma one_reference_ok : forall f r0 c0 r c b (select : bool) comp ty ref0 ref1 es, frame_ok f r c -> inner r0 c0 r c -> 0 <= b < 22 ->
  1 <= ref0 <= 7 -> (comp = 0 \/ select && large_enough b = false) ->
  exists ds, ref_frames f r c b select comp ty ref0 ref1 es = Ok (es ++ ds, 0, ref0, NONE) /\
    reads_as ds (av1_ref_frames (above_of f r0 r c) (left_of f c0 r c) b select) (ref0, NONE).
Proof.
  intros f r0 c0 r c b select comp ty ref0 ref1 es F I B R C. destruct (min_size b B) as (w & h & Ew & Eh & M).
  unfold ref_frames, av1_ref_frames. unfold reads_as. rewrite Ew, Eh. cbn [bind]. rewrite M. unfold large_enough in C.
  destruct (select && (8 <=? Z.min (Block_Width b) (Block_Height b))).
  - destruct C as [->|C]; [|discriminate]. rewrite (emit_ok _ _ _ _ es (comp_mode_ok f r0 c0 r c 0 F I)). cbn [bind].
    destruct (single_refs_ok f r0 c0 r c ref0 (es ++ [ESym "comp_mode" [spec_comp_mode (above_of f r0 r c) (left_of f c0 r c)] 0]) F I R) as (ds & E & Rd).
    cbn [Z.eqb COMPOUND_REFERENCE]. rewrite E. cbn [bind]. rewrite <- app_assoc. eexists. split; [reflexivity|].
    intros k. cbn [app]. rewrite sym_hit. cbn [obind Z.eqb]. rewrite (Rd k). reflexivity.
  - cbn [bind]. destruct (single_refs_ok f r0 c0 r c ref0 es F I R) as (ds & E & Rd).
    cbn [Z.eqb COMPOUND_REFERENCE SINGLE_REFERENCE]. rewrite E. cbn [bind]. eexists. split; [reflexivity|].
    intros k. cbn [obind Z.eqb]. rewrite (Rd k). reflexivity.
Qed.

(** Blocks with two references: exactly four pairs can be read, and only if the
    context of comp_ref_type is right (C57). *)
Definition readable_pair (ty ref0 ref1 : Z) : Prop :=
  ty = 0 /\ In (ref0, ref1) [(1, 2); (5, 7)] \/ ty = 1 /\ In (ref0, ref1) [(3, 7); (4, 7)].
Lemma comp_ref_type_total : forall f r c s u l, get_above_mi f r c = Ok u -> get_left_mi f r c = Ok l ->
  encode_comp_ref_type s f r c = Ok ("comp_ref_type", [comp_ref_type_ctx u l], s).
Proof. intros f r c s u l A L. unfold encode_comp_ref_type. rewrite A, L. reflexivity. Qed.

Lemma two_references_exactly : forall f r0 c0 r c b select ty ref0 ref1 es, frame_ok f r c -> inner r0 c0 r c -> 0 <= b < 22 ->
  select && large_enough b = true -> (ty = 0 /\ unidir_pair ref0 ref1 \/ ty = 1 /\ bidir_pair ref0 ref1) ->
  let u := above_of f r0 r c in let l := left_of f c0 r c in
  exists ds, ref_frames f r c b select 1 ty ref0 ref1 es = Ok (es ++ ds, 1, ref0, ref1) /\
    (readable_pair ty ref0 ref1 /\ ~ both_uni_above u l -> reads_as ds (av1_ref_frames u l b select) (ref0, ref1)) /\
    (~ (readable_pair ty ref0 ref1 /\ ~ both_uni_above u l) -> never_reads_as ds (av1_ref_frames u l b select) (ref0, ref1)).
Proof.
  intros f r0 c0 r c b select ty ref0 ref1 es F I B C T u l. destruct (min_size b B) as (w & h & Ew & Eh & M).
  unfold ref_frames, av1_ref_frames, reads_as, never_reads_as. rewrite Ew, Eh. cbn [bind]. rewrite M. unfold large_enough in C. rewrite C.
  rewrite (emit_ok _ _ _ _ es (comp_mode_ok f r0 c0 r c 1 F I)). cbn [bind].
  cbn [Z.eqb COMPOUND_REFERENCE Pos.eqb]. fold u l.
  destruct (nbrs f r0 c0 r c F I) as (u' & l' & Eu & El & Au & Al & Nu & Nl).
  assert (CT := comp_ref_type_total f r c ty u' l' Au Al). rewrite (emit_ok _ _ _ _ _ CT). cbn [bind].
  destruct (comp_ref_type_ctx_ok u' l' Nu Nl) as [Good Bad]. fold u in Eu. fold l in El. rewrite <- Eu, <- El in Good, Bad. rewrite <- Eu, <- El.
  assert (W : exists ds, (if ty =? UNIDIR_COMP_REFERENCE then unidir_refs f r c ref0 ref1 else bidir_refs f r c ref0 ref1)
      ((es ++ [ESym "comp_mode" [spec_comp_mode u l] 1]) ++ [ESym "comp_ref_type" [comp_ref_type_ctx u l] ty]) =
      Ok (es ++ ESym "comp_mode" [spec_comp_mode u l] 1 :: ESym "comp_ref_type" [comp_ref_type_ctx u l] ty :: ds) /\
      (readable_pair ty ref0 ref1 -> forall k, (if ty =? 0 then av1_unidir u l (ds ++ k) else av1_bidir u l (ds ++ k)) = Some (ref0, ref1, k)) /\
      (~ readable_pair ty ref0 ref1 -> forall k a b, (if ty =? 0 then av1_unidir u l (ds ++ k) else av1_bidir u l (ds ++ k)) <> Some (a, b, k))).
  { destruct T as [[-> P]|[-> P]]; unfold UNIDIR_COMP_REFERENCE; cbn [Z.eqb].
    - destruct (unidir_refs_ok f r0 c0 r c ref0 ref1 ((es ++ [ESym "comp_mode" [spec_comp_mode u l] 1]) ++ [ESym "comp_ref_type" [comp_ref_type_ctx u l] 0]) F I P)
        as (ds & E & K). exists ds. rewrite E. rewrite <- !app_assoc. cbn [app]. split; [reflexivity|].
      fold u l in K. unfold unidir_pair in P. cbn in P.
      decompose [or] P; try contradiction; match goal with H : (_, _) = (_, _) |- _ => injection H as <- <- end; cbn in K;
        (split; intros Q; first [exact K | exfalso; apply Q; left; split; [reflexivity|cbn; tauto] | exfalso; destruct Q as [[_ Q]|[Q _]]; [cbn in Q; intuition congruence|discriminate]]).
    - destruct (bidir_refs_ok f r0 c0 r c ref0 ref1 ((es ++ [ESym "comp_mode" [spec_comp_mode u l] 1]) ++ [ESym "comp_ref_type" [comp_ref_type_ctx u l] 1]) F I P)
        as (ds & E & K). exists ds. rewrite E. rewrite <- !app_assoc. cbn [app]. split; [reflexivity|].
      fold u l in K. destruct P as [P0 P1].
      assert (C0 : In ref0 [1; 2; 3; 4]) by (cbn; lia). assert (C1 : In ref1 [5; 6; 7]) by (cbn; lia). cbn in C0, C1. clear P0 P1.
      decompose [or] C0; decompose [or] C1; try contradiction; subst ref0 ref1; cbn in K;
        (split; intros Q; first [exact K | exfalso; apply Q; right; split; [reflexivity|cbn; tauto] | exfalso; destruct Q as [[Q _]|[_ Q]]; [discriminate|cbn in Q; intuition congruence]]). }
  destruct W as (ds & E & Rd & Nr). destruct (ty =? UNIDIR_COMP_REFERENCE) eqn:Ety; rewrite E; cbn [bind]; (eexists; split; [reflexivity|]).
  all: split; [intros [P NB] k|intros NP k]; cbn [app]; rewrite sym_hit; cbn [obind Z.eqb Pos.eqb].
  all: try (rewrite (Good NB), sym_hit; cbn [obind]; specialize (Rd P k); unfold UNIDIR_COMP_REFERENCE in Ety; rewrite Ety in *; rewrite Rd; reflexivity).
  all: destruct (Z.eq_dec (comp_ref_type_ctx u l) (spec_comp_ref_type u l)) as [Q|Q];
    [|rewrite sym_path by congruence; discriminate].
  all: rewrite Q, sym_hit; cbn [obind]; unfold UNIDIR_COMP_REFERENCE in Ety; rewrite Ety in *.
  all: assert (NR : ~ readable_pair ty ref0 ref1) by (intros P; apply NP; split; [exact P|intros X; exact (Bad X Q)]).
  all: specialize (Nr NR k); match goal with |- context [obind ?x _] => destruct x as [[[a b'] q]|] eqn:Ex end; cbn [obind]; [|discriminate];
    intros X; injection X as -> -> ->; exact (Nr _ _ eq_refl).
Qed.
