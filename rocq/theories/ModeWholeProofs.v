(** Proofs about the mode info of a whole block (ModeInfoModel). *)
From Coq Require Import String ZArith List Bool Lia ZifyBool.
From Verif Require Import Base BaseProofs SessionModel BlockTables CdfTables GeomModel SeqSpec ElementModel ElementSpec ContextModel ContextSpec ContextProofs MvStackModel
  ModeInfoModel ModeInfoSpec ModeInfoProofs.
Import ListNotations.
Open Scope string_scope.
Open Scope list_scope.
Open Scope Z_scope.
Ltac Zify.zify_post_hook ::= Z.div_mod_to_equations.

(** ** Which elements can be written at all *)

Definition known : list string :=
  ["skip"; "segment_id"; "delta_q"; "delta_lf"; "delta_lf_multi"; "is_inter"; "comp_mode"; "comp_ref_type"; "single_ref"; "uni_comp_ref";
   "comp_ref"; "comp_bwd_ref"; "new_mv"; "zero_mv"; "ref_mv"; "compound_mode"; "drl_mode"; "mv_joint"].
Definition named (e : ev) : Prop := match e with ESym n _ _ => In n known | ELit _ _ => True end.
Definition grows (es es' : list ev) : Prop := exists ds, es' = es ++ ds /\ Forall named ds.
Lemma grows_refl : forall es, grows es es.
Proof. intros es. exists []. split; [symmetry; apply app_nil_r|constructor]. Qed.
Lemma grows_trans : forall a b c, grows a b -> grows b c -> grows a c.
Proof.
  intros a b c (d1 & -> & F1) (d2 & -> & F2). exists (d1 ++ d2). split; [symmetry; apply app_assoc|]. apply Forall_app. split; assumption.
Qed.

Definition names_of (w : wr) (n : string) : Prop := forall n' p s, w = Ok (n', p, s) -> n' = n.
Lemma emit_grows : forall w n es es', names_of w n -> In n known -> emit w es = Ok es' -> grows es es'.
Proof.
  intros w n es es' N K H. unfold emit in H. apply bind_inv in H. destruct H as ([[n' p] s] & E & H). injection H as <-.
  eexists. split; [reflexivity|]. constructor; [|constructor]. cbn [named]. rewrite (N _ _ _ E). exact K.
Qed.
Ltac name_of := intros ? ? ? H; repeat (apply bind_inv in H; destruct H as (? & _ & H)); injection H as <- _ _; reflexivity.
Lemma count_name : forall g0 g1 n i s f r c, names_of (count_ctx g0 g1 n i s f r c) n.
Proof. intros. unfold names_of, count_ctx. name_of. Qed.
Lemma comp_mode_name : forall s f r c, names_of (encode_comp_mode s f r c) "comp_mode".
Proof. intros. unfold names_of, encode_comp_mode. name_of. Qed.
Lemma comp_ref_type_name : forall s f r c, names_of (encode_comp_ref_type s f r c) "comp_ref_type".
Proof. intros. unfold names_of, encode_comp_ref_type. name_of. Qed.
Lemma is_inter_name : forall s f r c, names_of (encode_is_inter s f r c) "is_inter".
Proof. intros. unfold names_of, encode_is_inter. name_of. Qed.
Lemma skip_name : forall s f r c, names_of (encode_skip s f r c) "skip".
Proof. intros. unfold names_of, encode_skip. name_of. Qed.
Lemma drl_name : forall s i c, names_of (encode_drl_mode s i c) "drl_mode".
Proof. intros. unfold names_of, encode_drl_mode. name_of. Qed.
Lemma compound_mode_name : forall s a b, names_of (encode_compound_mode s a b) "compound_mode".
Proof. intros. unfold names_of, encode_compound_mode. name_of. Qed.
Lemma plain_name : forall n p s, names_of (Ok (n, p, s)) n.
Proof. intros n p s n' p' s' H. injection H as <- _ _. reflexivity. Qed.

Ltac bi H := let a := fresh "a" in let E := fresh "E" in apply bind_inv in H; destruct H as (a & E & H).
Ltac known_in := first [left; reflexivity | right; known_in].
Ltac eg := first [eapply emit_grows; [apply count_name| |eassumption]; known_in
  | eapply emit_grows; [apply comp_mode_name| |eassumption]; known_in
  | eapply emit_grows; [apply comp_ref_type_name| |eassumption]; known_in
  | eapply emit_grows; [apply is_inter_name| |eassumption]; known_in
  | eapply emit_grows; [apply skip_name| |eassumption]; known_in
  | eapply emit_grows; [apply drl_name| |eassumption]; known_in
  | eapply emit_grows; [apply compound_mode_name| |eassumption]; known_in
  | eapply emit_grows; [apply plain_name| |eassumption]; known_in ].
Ltac okeq H := injection H as <-; apply grows_refl.

Lemma single_grows : forall f r c ref0 es es', single_refs f r c ref0 es = Ok es' -> grows es es'.
Proof.
  intros f r c ref0 es es' H. unfold single_refs in H. bi H. eapply grows_trans; [eg|]. clear E.
  destruct (is_one_of ref0 _) in H; bi H; (eapply grows_trans; [eg|]); clear E.
  - destruct (negb _) in H; [eg|okeq H].
  - destruct (is_one_of ref0 _) in H; eg.
Qed.
Lemma unidir_grows : forall f r c ref0 ref1 es es', unidir_refs f r c ref0 ref1 es = Ok es' -> grows es es'.
Proof.
  intros f r c ref0 ref1 es es' H. unfold unidir_refs in H. bi H. eapply grows_trans; [eg|]. clear E.
  destruct (negb _) in H; [eg|okeq H].
Qed.
Lemma bidir_grows : forall f r c ref0 ref1 es es', bidir_refs f r c ref0 ref1 es = Ok es' -> grows es es'.
Proof.
  intros f r c ref0 ref1 es es' H. unfold bidir_refs in H. bi H. eapply grows_trans; [eg|]. clear E.
  bi H. eapply grows_trans; [destruct (negb _) in E; eg|]. clear E.
  bi H. eapply grows_trans; [eg|]. clear E. destruct (negb _) in H; [eg|okeq H].
Qed.
Lemma refs_grows : forall f r c b sel comp ty ref0 ref1 es es' c' r0 r1,
  ref_frames f r c b sel comp ty ref0 ref1 es = Ok (es', c', r0, r1) -> grows es es'.
Proof.
  intros f r c b sel comp ty ref0 ref1 es es' c' r0 r1 H. unfold ref_frames in H. bi H. clear E. bi H. clear E. bi H.
  eapply grows_trans; [destruct (_ && _) in E; [eg|okeq E]|]. clear E.
  match type of H with (if ?b then _ else _) = _ => destruct b end.
  - bi H. eapply grows_trans; [eg|]. clear E. bi H. injection H as <- _ _ _.
    destruct (ty =? _) in E; [eapply unidir_grows|eapply bidir_grows]; exact E.
  - bi H. injection H as <- _ _ _. eapply single_grows; exact E.
Qed.
Lemma mode_grows : forall ic m a b c d e f g es es' y, inter_mode ic m a b c d e f g es = Ok (es', y) -> grows es es'.
Proof.
  intros ic m a b c d e f g es es' y H. unfold inter_mode in H. destruct ic.
  - bi H. clear E. bi H. injection H as <- _. eg.
  - bi H. eapply grows_trans; [eg|]. clear E. destruct (negb a) in H; [injection H as <- _; apply grows_refl|].
    bi H. eapply grows_trans; [eg|]. clear E. destruct (negb b) in H; [injection H as <- _; apply grows_refl|].
    bi H. injection H as <- _. eg.
Qed.
Lemma drl_grows : forall ids num drl ctx i es es' j, drl_loop ids num drl ctx i es = Ok (es', j) -> grows es es'.
Proof.
  induction ids as [|k ids IH]; intros num drl ctx i es es' j; cbn [drl_loop].
  - intros H. injection H as <- _. apply grows_refl.
  - destruct (k + 1 <? num); [|apply IH]. intros H. bi H. clear E. bi H. eapply grows_trans; [eg|]. clear E.
    destruct (_ =? 0) in H; [injection H as <- _; apply grows_refl|]. eapply IH. exact H.
Qed.
Lemma index_grows : forall y num drl ctx es es' j, mv_index y num drl ctx es = Ok (es', j) -> grows es es'.
Proof.
  intros y num drl ctx es es' j. unfold mv_index. destruct (_ || _); [apply drl_grows|]. destruct (has_nearmv y); [apply drl_grows|].
  intros H. injection H as <- _. apply grows_refl.
Qed.
Lemma assign_grows : forall is x mvs pred m es es' mvs' pred' m', assign_mv_loop is x mvs pred m es = Ok (es', mvs', pred', m') -> grows es es'.
Proof.
  induction is as [|i is IH]; intros x mvs pred m es es' mvs' pred' m'; cbn [assign_mv_loop].
  - intros H. injection H as <- _ _ _. apply grows_refl.
  - intros H. bi H. clear E. destruct (_ =? _) in H; [|eapply IH; exact H].
    bi H. clear E. bi H. clear E. bi H. eapply grows_trans; [eg|]. clear E. eapply IH. exact H.
Qed.
Lemma segment_grows : forall a b ids r c s l seg es es' v, code_segment_id a b ids r c s l seg es = Ok (es', v) -> grows es es'.
Proof.
  intros a b ids r c s l seg es es' v H. unfold code_segment_id in H. bi H. clear E. bi H. clear E. bi H. clear E.
  destruct s; [injection H as <- _; apply grows_refl|]. bi H. clear E. bi H. injection H as <- _. eg.
Qed.
Lemma lits : forall n v, Forall named [ELit n v].
Proof. intros. constructor; [exact I|constructor]. Qed.
Lemma op_named : forall name path o, In name known -> named (ev_of_op name path o).
Proof. intros name path [| | |] K; cbn; [exact K|exact I|exact I|exact I]. Qed.
Lemma ops_named : forall name path ops, In name known -> Forall named (map (ev_of_op name path) ops).
Proof. intros name path ops K. apply Forall_map. apply Forall_forall. intros o _. apply op_named. exact K. Qed.
Lemma lf_grows : forall n i x lf cur es es' cur', code_delta_lf n i x lf cur es = Ok (es', cur') -> grows es es'.
Proof.
  induction n as [|n IH]; intros i x lf cur es es' cur'; cbn [code_delta_lf].
  - intros H. injection H as <- _. apply grows_refl.
  - intros H. bi H. clear E. bi H. clear E. bi H. clear E. destruct a1 as [ops p]. bi H. destruct a1 as [[name path] s].
    eapply grows_trans; [|eapply IH; exact H]. eexists. split; [reflexivity|]. apply ops_named. unfold encode_delta_lf_abs in E.
    destruct (_ =? 0) in E; injection E as <- _ _; known_in.
Qed.
Lemma segid_grows : forall x b t es es' b' t', intra_segment_id x b t es = Ok (es', b', t') -> grows es es'.
Proof.
  intros x b t es es' b' t' H. unfold intra_segment_id in H. bi H. destruct a as [e s]. bi H. injection H as <- _ _.
  destruct (x_seg_on x); [eapply segment_grows; exact E|injection E as <- _; apply grows_refl].
Qed.
Lemma cdef_grows : forall x b t es es' t', code_cdef x b t es = Ok (es', t') -> grows es es'.
Proof.
  intros x b t es es' t' H. unfold code_cdef in H. destruct (negb _) in H; [|injection H as <- _; apply grows_refl].
  bi H. clear E. bi H. clear E. destruct (_ =? -1) in H; [|injection H as <- _; apply grows_refl].
  bi H. clear E. bi H. clear E. bi H. injection H as <- _. eexists. split; [reflexivity|]. apply lits.
Qed.
Lemma deltas_grows : forall x b t es es' t', code_deltas x b t es = Ok (es', t') -> grows es es'.
Proof.
  intros x b t es es' t' H. unfold code_deltas in H. bi H. destruct a as [e q]. eapply grows_trans.
  - destruct (_ && _) in E; [|injection E as <- _; apply grows_refl]. bi E. destruct a as [ops q']. injection E as <- _.
    eexists. split; [reflexivity|]. apply ops_named. known_in.
  - clear E. bi H. destruct a as [e' lf]. injection H as <- _. destruct (_ && _) in E; [eapply lf_grows; exact E|injection E as <- _; apply grows_refl].
Qed.
Lemma is_inter_grows : forall x b es es' b', code_is_inter x b es = Ok (es', b') -> grows es es'.
Proof.
  intros x b es es' b' H. unfold code_is_inter in H. bi H. clear E. destruct a.
  - bi H. clear E. bi H. clear E. injection H as <- _. apply grows_refl.
  - bi H. clear E. destruct a; [injection H as <- _; apply grows_refl|]. bi H. injection H as <- _. eg.
Qed.
Lemma code_refs_grows : forall x b es es' b', code_refs x b es = Ok (es', b') -> grows es es'.
Proof.
  intros x b es es' b' H. unfold code_refs in H. bi H. clear E. destruct a.
  - bi H. clear E. bi H. clear E. destruct (_ && _) in H; [|discriminate]. injection H as <- _. apply grows_refl.
  - bi H. clear E. bi H. clear E. destruct a0; [injection H as <- _; apply grows_refl|].
    bi H. destruct a0 as [[[e c] r0] r1]. injection H as <- _. eapply refs_grows. exact E.
Qed.
Lemma code_inter_grows : forall x b t es es' b' t', code_inter x b t es = Ok (es', b', t') -> grows es es'.
Proof.
  intros x b t es es' b' t' H. unfold code_inter in H. bi H. destruct a as [e b1]. eapply grows_trans; [eapply code_refs_grows; exact E|]. clear E.
  bi H. clear E. bi H. clear E. bi H. clear E. bi H. destruct a2 as [e2 y].
  eapply grows_trans; [destruct a1; [injection E as <- _; apply grows_refl|eapply mode_grows; exact E]|]. clear E.
  bi H. destruct a2 as [e3 i]. eapply grows_trans; [eapply index_grows; exact E|]. clear E.
  bi H. destruct a2 as [[[e4 m] p] md]. injection H as <- _ _. eapply assign_grows. exact E.
Qed.
Lemma mode_info_grows : forall x b t es es' b' t', encode_mode_info x b t es = Ok (es', b', t') -> grows es es'.
Proof.
  intros x b t es es' b' t' H. unfold encode_mode_info in H. destruct (x_intra x); [|injection H as <- _ _; apply grows_refl].
  bi H. destruct a as [[e b1] t1]. eapply grows_trans; [destruct (x_pre_skip x) in E; [eapply segid_grows; exact E|injection E as <- _ _; apply grows_refl]|]. clear E.
  bi H. clear E. bi H. destruct a0 as [e2 b2].
  eapply grows_trans; [destruct a; [injection E as <- _; apply grows_refl|bi E; injection E as <- _; eg]|]. clear E.
  bi H. destruct a0 as [[e3 b3] t3]. eapply grows_trans; [destruct (negb _) in E; [eapply segid_grows; exact E|injection E as <- _ _; apply grows_refl]|]. clear E.
  bi H. destruct a0 as [e4 t4]. eapply grows_trans; [eapply cdef_grows; exact E|]. clear E.
  bi H. destruct a0 as [e5 t5]. eapply grows_trans; [eapply deltas_grows; exact E|]. clear E.
  bi H. destruct a0 as [e6 b6]. eapply grows_trans; [eapply is_inter_grows; exact E|]. clear E.
  destruct (p_inter b6) in H; [eapply code_inter_grows; exact H|injection H as <- _ _; apply grows_refl].
Qed.

(** ** What a decoder of an intra frame needs *)

Definition sfx (q r : list ev) : Prop := exists pre, q = pre ++ r.
Lemma sfx_refl : forall q, sfx q q.
Proof. intros q. exists []. reflexivity. Qed.
Lemma sfx_trans : forall a b c, sfx a b -> sfx b c -> sfx a c.
Proof. intros a b c [p ->] [p' ->]. exists (p ++ p'). apply app_assoc. Qed.
Lemma sym_cons : forall n p q s r, sym n p q = Some (s, r) -> q = ESym n p s :: r.
Proof.
  intros n p [|[n' p' s'|m v] q] s r H; try discriminate. unfold sym in H.
  destruct (String.eqb_spec n' n); [|discriminate]. destruct (list_eq_dec Z.eq_dec p' p); [|discriminate]. injection H as <- <-. subst. reflexivity.
Qed.
Lemma sym_sfx : forall n p q s r, sym n p q = Some (s, r) -> sfx q r.
Proof. intros n p q s r H. apply sym_cons in H. subst q. exists [ESym n p s]. reflexivity. Qed.
Lemma lit_sfx : forall n q v r, lit n q = Some (v, r) -> sfx q r.
Proof.
  intros n [|[n' p' s'|m v'] q] v r H; try discriminate. unfold lit in H. destruct (m =? n); [|discriminate]. injection H as <- <-.
  exists [ELit m v']. reflexivity.
Qed.
Lemma obind_inv : forall (A B : Type) (x : option A) (f : A -> option B) b, obind x f = Some b -> exists a, x = Some a /\ f a = Some b.
Proof. intros A B [a|] f b H; [exists a; split; [reflexivity|exact H]|discriminate]. Qed.
Ltac oi H := let a := fresh "a" in let q := fresh "q" in let E := fresh "E" in apply obind_inv in H; destruct H as ([a q] & E & H).
Ltac sm H := injection H as <- <-; apply sfx_refl.

Lemma delta_sfx : forall n p q v r, av1_read_delta n p q = Some (v, r) -> sfx q r.
Proof.
  intros n p q v r H. unfold av1_read_delta in H. oi H. eapply sfx_trans; [eapply sym_sfx; exact E|]. clear E.
  oi H. eapply sfx_trans.
  - destruct (a =? 3); [|injection E as <- <-; apply sfx_refl]. oi E. eapply sfx_trans; [eapply lit_sfx; exact E0|]. oi E.
    eapply sfx_trans; [eapply lit_sfx; exact E1|]. sm E.
  - clear E. destruct (a0 =? 0); [sm H|]. oi H. eapply sfx_trans; [eapply lit_sfx; exact E|]. sm H.
Qed.
Lemma lfs_sfx : forall x n i q v r, av1_read_lfs x n i q = Some (v, r) -> sfx q r.
Proof.
  induction n as [|n IH]; intros i q v r; cbn [av1_read_lfs]; intros H; [sm H|].
  oi H. eapply sfx_trans; [destruct (d_lf_multi x); eapply delta_sfx; exact E|]. clear E. oi H. eapply sfx_trans; [eapply IH; exact E|]. sm H.
Qed.
Lemma segment_sfx : forall x s q v r, av1_intra_segment_id x s q = Some (v, r) -> sfx q r.
Proof.
  intros x s q v r H. unfold av1_intra_segment_id in H. destruct (negb _) in H; [sm H|]. destruct (negb _) in H; [sm H|].
  unfold av1_segment_id in H. oi H. eapply sfx_trans; [eapply sym_sfx; exact E|]. sm H.
Qed.
Lemma skip_sfx : forall x s q v r, av1_read_skip x s q = Some (v, r) -> sfx q r.
Proof. intros x s q v r H. unfold av1_read_skip in H. destruct (_ && _) in H; [sm H|]. eapply sym_sfx. exact H. Qed.

Lemma intra_needs : forall x q v r, av1_intra_frame x q = Some (v, r) ->
  exists pre n p s mid, q = pre ++ ESym n p s :: mid /\ (n = "intrabc" \/ n = "intra_frame_y_mode") /\ sfx mid r.
Proof.
  intros x q v r H. unfold av1_intra_frame in H. cbv zeta in H.
  assert (G : exists q1, sfx q q1 /\ exists a b c d e,
    (LET (bc, q) := (if d_intrabc x then sym "intrabc" [] q1 else Some (0, q1)) IN
     LET (m, q) := (if bc =? 0 then LET (m, q) := sym "intra_frame_y_mode" (d_mode_ctx x) q IN Some (Some m, q) else Some (None, q)) IN
     Some (mkIntraOut a b c d e m, q)) = Some (v, r)).
  { oi H. assert (S1 : sfx q q0) by (destruct (d_pre_skip x); [eapply segment_sfx; exact E|injection E as <- <-; apply sfx_refl]). clear E.
    oi H. assert (S2 : sfx q0 q1) by (eapply skip_sfx; exact E). clear E.
    oi H. assert (S3 : sfx q1 q2) by (destruct (d_pre_skip x); [injection E as <- <-; apply sfx_refl|eapply segment_sfx; exact E]). clear E.
    oi H. assert (S4 : sfx q2 q3).
    { destruct (_ && _) in E; [|injection E as <- <-; apply sfx_refl]. oi E. eapply sfx_trans; [eapply lit_sfx; exact E0|]. sm E. } clear E.
    oi H. assert (S5 : sfx q3 q4) by (destruct (_ && _) in E; [eapply delta_sfx; exact E|injection E as <- <-; apply sfx_refl]). clear E.
    oi H. assert (S6 : sfx q4 q5) by (destruct (_ && _ && _) in E; [eapply lfs_sfx; exact E|injection E as <- <-; apply sfx_refl]). clear E.
    exists q5. split; [|exists a1, a0, a2, a3, a4; exact H].
    eapply sfx_trans; [exact S1|]. eapply sfx_trans; [exact S2|]. eapply sfx_trans; [exact S3|]. eapply sfx_trans; [exact S4|].
    eapply sfx_trans; [exact S5|]. exact S6. }
  clear H. destruct G as (q1 & [pre ->] & a & b & c & d & e & H). oi H. rename a0 into bc. destruct (d_intrabc x).
  - apply sym_cons in E. subst q1. exists pre, "intrabc", [], bc, q. split; [reflexivity|]. split; [left; reflexivity|].
    oi H. destruct (bc =? 0).
    + oi E. apply sym_sfx in E0. injection E as <- <-. injection H as _ <-. exact E0.
    + injection E as <- <-. injection H as _ <-. apply sfx_refl.
  - injection E as <- <-. cbn [Z.eqb] in H. oi H. oi E. apply sym_cons in E0. subst q1.
    exists pre, "intra_frame_y_mode", (d_mode_ctx x), a1, q0. split; [reflexivity|]. split; [right; reflexivity|].
    injection E as <- <-. injection H as _ <-. apply sfx_refl.
Qed.

(** No block of an intra frame is readable. *)
Lemma intra_unreadable : forall x b t es es' b' t' d v, encode_mode_info x b t es = Ok (es', b', t') ->
  exists ds, es' = es ++ ds /\ never_reads_as ds (av1_intra_frame d) v.
Proof.
  intros x b t es es' b' t' d v H. destruct (mode_info_grows _ _ _ _ _ _ _ H) as (ds & E & F). exists ds. split; [exact E|].
  intros k R. destruct (intra_needs _ _ _ _ R) as (pre & n & p & s & mid & Eq & N & [pre' Em]). subst mid.
  assert (L : ds ++ k = (pre ++ ESym n p s :: pre') ++ k) by (rewrite Eq, <- app_assoc; reflexivity).
  apply app_inv_tail in L. subst ds. apply Forall_app in F. destruct F as [_ F]. apply Forall_inv in F. cbn [named known In] in F.
  destruct N as [-> | ->]; decompose [or] F; try discriminate; contradiction.
Qed.

(** In other frames nothing is written, so not even the skip flag can be read. *)
Lemma inter_unreadable : forall x b t es u l v, x_intra x = false ->
  encode_mode_info x b t es = Ok (es ++ [], b, t) /\ never_reads_as [] (av1_inter_skip u l) v.
Proof.
  intros x b t es u l v I. unfold encode_mode_info. rewrite I. split; [rewrite app_nil_r; reflexivity|].
  intros k H. unfold av1_inter_skip in H. cbn [app] in H. apply sym_len in H. lia.
Qed.

(** ** Contexts that are never computed *)
Lemma contexts_kept : forall x b t es es' b' t', encode_mode_info x b t es = Ok (es', b', t') ->
  t_ref_ctx t' = t_ref_ctx t /\ t_new_ctx t' = t_new_ctx t /\ t_drl_ctx t' = t_drl_ctx t.
Proof.
  intros x b t es es' b' t' H. unfold encode_mode_info in H. destruct (x_intra x); [|injection H as _ _ <-; tauto].
  set (K := fun t1 t2 => t_ref_ctx t2 = t_ref_ctx t1 /\ t_new_ctx t2 = t_new_ctx t1 /\ t_drl_ctx t2 = t_drl_ctx t1).
  change (K t t').
  assert (KR : forall u, K u u) by (unfold K; tauto).
  assert (KT : forall u v w, K u v -> K v w -> K u w) by (unfold K; intros u v w (-> & -> & ->) (-> & -> & ->); tauto).
  assert (KS : forall b t es es' b' t', intra_segment_id x b t es = Ok (es', b', t') -> K t t').
  { intros b0 t0 e0 e1 b1 t1 Hs. unfold intra_segment_id in Hs. bi Hs. destruct a. bi Hs. injection Hs as _ _ <-. unfold K. cbn. tauto. }
  bi H. destruct a as [[e b1] t1]. eapply KT; [destruct (x_pre_skip x) in E; [eapply KS; exact E|injection E as _ _ <-; apply KR]|]. clear E.
  bi H. clear E. bi H. clear E. destruct a0 as [e2 b2].
  bi H. destruct a0 as [[e3 b3] t3]. eapply KT; [destruct (negb _) in E; [eapply KS; exact E|injection E as _ _ <-; apply KR]|]. clear E.
  bi H. destruct a0 as [e4 t4]. apply (KT _ t4).
  { unfold code_cdef in E. destruct (negb _) in E; [|injection E as _ <-; apply KR]. bi E. bi E. destruct (_ =? -1) in E; [|injection E as _ <-; apply KR].
    bi E. bi E. bi E. injection E as _ <-. unfold K. cbn. tauto. }
  clear E. bi H. destruct a0 as [e5 t5]. apply (KT _ t5).
  { unfold code_deltas in E. bi E. destruct a0. bi E. destruct a0. injection E as _ <-. unfold K. cbn. tauto. }
  clear E. bi H. clear E. destruct a0 as [e6 b6]. destruct (p_inter b6); [|injection H as _ _ <-; apply KR].
  unfold code_inter in H. bi H. destruct a0. bi H. bi H. bi H. bi H. destruct a3. bi H. destruct a3. bi H. destruct a3 as [[[? ?] ?] ?].
  injection H as _ _ <-. unfold K. cbn. tauto.
Qed.

(** ** Segment features *)
Definition features_ok (x : mode_env) : Prop := forall row, In row (x_features x) -> len row = 7.
Lemma idx_in : forall (A : Type) (l : list A) i a, idx l i = Ok a -> In a l /\ 0 <= i < len l.
Proof.
  intros A l i a H. unfold idx in H. destruct (Z.ltb_spec i 0); [discriminate|].
  destruct (nth_error l (Z.to_nat i)) eqn:E; [|discriminate]. injection H as <-. split; [eapply nth_error_In; exact E|].
  assert (G : nth_error l (Z.to_nat i) <> None) by congruence. apply nth_error_Some in G. unfold len. lia.
Qed.
Lemma global_panics : forall x seg b, features_ok x -> x_seg_on x = true -> feature_on x seg SEG_LVL_GLOBALMV <> Ok b.
Proof.
  intros x seg b F S H. unfold feature_on in H. rewrite S in H. unfold feature, SEG_LVL_GLOBALMV in H. bi H. bi E.
  apply idx_in in E0. apply idx_in in E. specialize (F _ (proj1 E0)). lia.
Qed.
(** With segmentation a block of an intra frame is coded only if its segment fixes the
    reference, to the intra reference or together with the skip feature. *)
Definition feature_at (x : mode_env) (seg lvl : Z) : option Z :=
  match feature x seg lvl with Ok o => o | _ => None end.
Lemma segmentation_needs : forall x b t es es' b' t', features_ok x -> x_seg_on x = true -> x_intra x = true ->
  encode_mode_info x b t es = Ok (es', b', t') ->
  exists rf, feature_at x (p_seg b') SEG_LVL_REF_FRAME = Some rf /\ (rf = 0 \/ feature_at x (p_seg b') SEG_LVL_SKIP <> None).
Proof.
  intros x b t es es' b' t' F S I H. unfold encode_mode_info in H. rewrite I in H.
  bi H. destruct a as [[e b1] t1]. clear E. bi H. clear E. bi H. clear E. destruct a0 as [e2 b2].
  bi H. destruct a0 as [[e3 b3] t3]. clear E. bi H. destruct a0 as [e4 t4]. clear E.
  bi H. destruct a0 as [e5 t5]. clear E. bi H. destruct a0 as [e6 b6].
  unfold code_is_inter in E. bi E. destruct a0; [|bi E; exfalso; exact (global_panics x _ _ F S E1)].
  bi E. bi E. injection E as _ <-. destruct a0 as [rf|]; [|discriminate]. cbn [unwrap] in E2. injection E2 as <-. cbn [p_inter with_inter p_seg] in H.
  exists rf. destruct (negb (rf =? 0)) eqn:N.
  - unfold code_inter in H. bi H. destruct a0 as [e7 b7]. assert (SG : p_seg b7 = p_seg b3).
    { unfold code_refs in E. bi E. destruct a0; [bi E; bi E; destruct (_ && _) in E; [|discriminate]; injection E as _ <-; reflexivity|].
      bi E. bi E. destruct a1; [injection E as _ <-; reflexivity|]. bi E. destruct a1 as [[[? ?] ?] ?]. injection E as _ <-. reflexivity. }
    clear E. bi H. clear E. apply bind_inv in H. destruct H as (sk & Esk & H). apply bind_inv in H. destruct H as (gl & Egl & H).
    destruct sk; [|exfalso; exact (global_panics x _ _ F S Egl)].
    bi H. destruct a1. bi H. destruct a1. bi H. destruct a1 as [[[? ?] ?] ?]. injection H as _ <- _. cbn [p_seg with_mvs]. rewrite SG in *.
    split; [unfold feature_at; rewrite E1; reflexivity|]. right. unfold feature_on in Esk. rewrite S in Esk.
    apply bind_inv in Esk. destruct Esk as (o & Eo & Esk). destruct o; [|discriminate]. unfold feature_at. rewrite Eo. discriminate.
  - injection H as _ <- _. cbn [p_seg with_inter]. split; [unfold feature_at; rewrite E1; reflexivity|]. left.
    destruct (Z.eqb_spec rf 0); [assumption|discriminate].
Qed.
