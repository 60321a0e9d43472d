(** Everything [code_inter] writes can be coded: existing CDFs, symbols of their alphabets. *)
From Coq Require Import String ZArith List Bool Lia ZifyBool ZifyNat.
From Verif Require Import BitsSpec Base BaseProofs TableLemmas SeqSpec BlockTables GeomModel RangeCoderModel CdfTables CdfTableSpec ContextModel ContextSpec ContextCallSpec ContextProofs ContextWriterProofs
  MvStackModel MvStackSpec MvStackProofs ModeInfoModel ModeInfoSpec ModeInfoProofs ModeWholeProofs MotionSpec LeftoverSpec AnyMotionSpec BridgeSpec BridgeProofs.
Import ListNotations.
Open Scope string_scope.
Open Scope list_scope.
Open Scope Z_scope.

Definition adds (n : Z) (es es' : list ev) : Prop := exists ds, es' = es ++ ds /\ Forall codable_element ds /\ symbols_of ds <= n.
Lemma symbols_app : forall a b, symbols_of (a ++ b) = symbols_of a + symbols_of b.
Proof.
  induction a as [|e a IH]; intros b; [reflexivity|]. cbn [app].
  change (symbols_of (e :: a ++ b)) with (match e with ESym _ _ _ => 1 | ELit n _ => n end + symbols_of (a ++ b)).
  change (symbols_of (e :: a)) with (match e with ESym _ _ _ => 1 | ELit n _ => n end + symbols_of a). rewrite IH. lia.
Qed.
Lemma adds_0 : forall n es, 0 <= n -> adds n es es.
Proof. intros n es N. exists []. split; [symmetry; apply app_nil_r|]. split; [constructor|exact N]. Qed.
Lemma adds_trans : forall n m a b c, adds n a b -> adds m b c -> adds (n + m) a c.
Proof.
  intros n m a b c (d1 & -> & F1 & S1) (d2 & -> & F2 & S2). exists (d1 ++ d2). split; [symmetry; apply app_assoc|].
  split; [apply Forall_app; split; assumption|]. rewrite symbols_app. lia.
Qed.
Lemma adds_le : forall n m a b, n <= m -> adds n a b -> adds m a b.
Proof. intros n m a b L (d & E & F & S). exists d. repeat split; try assumption. lia. Qed.
Lemma emit_adds : forall w es es', legal w -> emit w es = Ok es' -> adds 1 es es'.
Proof.
  intros w es es' L E. destruct (legal_sound w L) as ([[n p] v] & -> & R). unfold emit in E. cbn [bind] in E. injection E as <-.
  exists [ESym n p v]. split; [reflexivity|]. split; [constructor; [exact R|constructor]|reflexivity].
Qed.
Lemma bit_b2z : forall b, bit (b2z b).
Proof. intros b. unfold bit. destruct b; cbn; lia. Qed.

(** ** The contexts *)
Lemma stack_add_zero : forall c m w s s', stack_add c m w s = Ok s' -> s_zero_ctx s' = s_zero_ctx s.
Proof.
  intros c m w s s' H. unfold stack_add in H.
  repeat match type of H with
  | bind _ _ = _ => let a := fresh in let E := fresh in apply bind_inv in H; destruct H as (a & E & H); cbv zeta beta in H
  | (match ?x with _ => _ end) = _ => destruct x
  end; try discriminate; injection H as <-; reflexivity.
Qed.
Lemma sample_zero : forall e c dr dc s s', bit (s_zero_ctx s) -> temporal_sample e c dr dc s = Ok s' -> bit (s_zero_ctx s').
Proof.
  intros e c dr dc s s' B H. unfold temporal_sample in H. cbv zeta in H. destruct (is_inside _ _ _) in H; [|injection H as <-; exact B].
  set (s0 := if (dr =? 0) && (dc =? 0) then set_zero 1 s else s) in *.
  assert (B0 : bit (s_zero_ctx s0)) by (subst s0; destruct ((dr =? 0) && (dc =? 0)); [unfold bit; cbn; lia|exact B]). clearbody s0.
  destruct c; cbn [negb] in H.
  - bi H. clear E. bi H. clear E. destruct (_ || _) in H; [injection H as <-; exact B0|]. bi H. clear E. bi H. clear E. bi H.
    apply stack_add_zero in H. rewrite H. destruct (_ && _) in E; [|injection E as <-; exact B0]. bi E. clear E0. bi E. clear E0. injection E as <-. apply bit_b2z.
  - bi H. clear E. destruct (_ =? _) in H; [injection H as <-; exact B0|]. bi H. clear E. bi H. apply stack_add_zero in H. rewrite H.
    destruct (_ && _) in E; [|injection E as <-; exact B0]. bi E. clear E0. injection E as <-. apply bit_b2z.
Qed.
Lemma cols_zero : forall fuel e c dr step lim dc s s', bit (s_zero_ctx s) -> temporal_cols fuel e c dr step lim dc s = Ok s' -> bit (s_zero_ctx s').
Proof.
  induction fuel as [|fuel IH]; intros e c dr step lim dc s s' B H; cbn [temporal_cols] in H; destruct (dc <? lim); try discriminate; try (injection H as <-; exact B).
  bi H. eapply IH; [|exact H]. eapply sample_zero; [exact B|exact E].
Qed.
Lemma rows_zero : forall fuel e c a b d f dr s s', bit (s_zero_ctx s) -> temporal_rows fuel e c a b d f dr s = Ok s' -> bit (s_zero_ctx s').
Proof.
  induction fuel as [|fuel IH]; intros e c a b d f dr s s' B H; cbn [temporal_rows] in H; destruct (dr <? b); try discriminate; try (injection H as <-; exact B).
  bi H. eapply IH; [|exact H]. eapply cols_zero; [exact B|exact E].
Qed.
Lemma find_zero : forall e c s s', find_mv_stack e c s = Ok s' -> bit (s_zero_ctx s').
Proof.
  intros e c s s' H. unfold find_mv_stack in H. do 7 (bi H; cbv zeta in H). eapply rows_zero; [|exact H]. unfold bit. cbn. lia.
Qed.

(** ** The parts of [code_inter] *)
Lemma ref_legal : forall w s f r c, bit s -> frame_ok f r c ->
  In w [encode_comp_ref; encode_comp_ref_p1; encode_comp_ref_p2; encode_comp_bwdref; encode_comp_bwdref_p1;
        encode_single_ref_p1; encode_single_ref_p2; encode_single_ref_p3; encode_single_ref_p4; encode_single_ref_p5;
        encode_single_ref_p6; encode_uni_comp_ref; encode_uni_comp_ref_p1; encode_uni_comp_ref_p2] -> legal (w s f r c).
Proof. intros w s f r c B F I. exact (L_ref w s f r c B F I). Qed.
Ltac rf F := match goal with X : emit (?w ?v ?f ?r ?c) _ = Ok _ |- _ => eapply emit_adds; [|exact X]; apply (ref_legal w v f r c); [apply bit_b2z|exact F|known_in] end.

Lemma single_adds : forall f r c ref0 es es', frame_ok f r c -> single_refs f r c ref0 es = Ok es' -> adds 3 es es'.
Proof.
  intros f r c ref0 es es' F H. unfold single_refs in H. bi H. change 3 with (1 + (1 + 1)). eapply adds_trans; [rf F|]. clear E.
  destruct (is_one_of ref0 _) in H; bi H; (eapply adds_trans; [rf F|]); clear E.
  - destruct (negb _) in H; [rf F|injection H as <-; apply adds_0; lia].
  - destruct (is_one_of ref0 _) in H; rf F.
Qed.
Lemma unidir_adds : forall f r c ref0 ref1 es es', frame_ok f r c -> unidir_refs f r c ref0 ref1 es = Ok es' -> adds 2 es es'.
Proof.
  intros f r c ref0 ref1 es es' F H. unfold unidir_refs in H. bi H. change 2 with (1 + 1). eapply adds_trans; [rf F|]. clear E.
  destruct (negb _) in H; [rf F|injection H as <-; apply adds_0; lia].
Qed.
Lemma bidir_adds : forall f r c ref0 ref1 es es', frame_ok f r c -> bidir_refs f r c ref0 ref1 es = Ok es' -> adds 4 es es'.
Proof.
  intros f r c ref0 ref1 es es' F H. unfold bidir_refs in H. bi H. change 4 with (1 + (1 + (1 + 1))). eapply adds_trans; [rf F|]. clear E.
  bi H. eapply adds_trans; [destruct (negb _) in E; rf F|]. clear E.
  bi H. eapply adds_trans; [rf F|]. clear E. destruct (negb _) in H; [rf F|injection H as <-; apply adds_0; lia].
Qed.
Lemma refs_adds : forall f r c b sel comp ty ref0 ref1 es es' c' r0 r1, frame_ok f r c -> bit comp -> bit ty ->
  ref_frames f r c b sel comp ty ref0 ref1 es = Ok (es', c', r0, r1) -> adds 6 es es'.
Proof.
  intros f r c b sel comp ty ref0 ref1 es es' c' r0 r1 F C T H. unfold ref_frames in H. bi H. clear E. bi H. clear E. bi H.
  change 6 with (1 + 5). eapply adds_trans.
  { destruct (_ && _) in E; [eapply emit_adds; [apply L_comp_mode; [exact C|exact F]|exact E]|injection E as <-; apply adds_0; lia]. }
  clear E. match type of H with (if ?b then _ else _) = _ => destruct b end.
  - bi H. change 5 with (1 + 4). eapply adds_trans; [eapply emit_adds; [apply L_comp_ref_type; [exact T|exact F]|exact E]|]. clear E. bi H. injection H as <- _ _ _.
    destruct (ty =? _) in E; [eapply adds_le; [|eapply unidir_adds; [exact F|exact E]]; lia|eapply bidir_adds; [exact F|exact E]].
  - bi H. injection H as <- _ _ _. eapply adds_le; [|eapply single_adds; [exact F|exact E]]. lia.
Qed.
Lemma mode_adds : forall ic m nm zm rm rctx nctx zctx y0 es es' y, 0 <= rctx < 6 -> 0 <= nctx < 6 -> bit zctx -> (ic = true -> 18 <= m <= 25) ->
  inter_mode ic m nm zm rm rctx nctx zctx y0 es = Ok (es', y) -> adds 3 es es'.
Proof.
  intros ic m nm zm rm rctx nctx zctx y0 es es' y R N Z M H. unfold inter_mode in H. destruct ic.
  - bi H. specialize (M eq_refl). assert (A : a = m - 18).
    { unfold chk_u64, NEAREST_NEARESTMV, chk in E. destruct (_ && _) in E; [injection E as <-; reflexivity|discriminate E]. }
    subst a. clear E. bi H. injection H as <- _. eapply adds_le; [|eapply emit_adds; [apply L_compound_mode|exact E]]; lia.
  - bi H. change 3 with (1 + (1 + 1)). eapply adds_trans; [eapply emit_adds; [apply L_new_mv; [apply bit_b2z|exact N]|exact E]|]. clear E.
    destruct (negb nm) in H; [injection H as <- _; apply adds_0; lia|].
    bi H. eapply adds_trans; [eapply emit_adds; [apply L_zero_mv; [apply bit_b2z|exact Z]|exact E]|]. clear E.
    destruct (negb zm) in H; [injection H as <- _; apply adds_0; lia|].
    bi H. injection H as <- _. eapply emit_adds; [apply L_ref_mv; [apply bit_b2z|exact R]|exact E].
Qed.
Lemma drl_adds : forall ids num drl ctx i es es' j, Forall bit drl -> Forall (fun x => 0 <= x < 3) ctx -> Forall (fun k => 0 <= k < len ctx) ids ->
  drl_loop ids num drl ctx i es = Ok (es', j) -> adds (len ids) es es'.
Proof.
  induction ids as [|k ids IH]; intros num drl ctx i es es' j D C I; cbn [drl_loop].
  - intros H. injection H as <- _. apply adds_0. reflexivity.
  - inversion I as [|? ? Ik Is]; subst. assert (L : len (k :: ids) = 1 + len ids) by (unfold len; cbn [List.length]; lia). rewrite L.
    destruct (k + 1 <? num); [|intros H; eapply adds_le; [|eapply IH; eassumption]; lia].
    intros H. bi H. apply idx_inv in E. destruct E as (_ & E). apply nth_error_In in E. rewrite Forall_forall in D. pose proof (D _ E) as Da. clear E.
    bi H. eapply adds_trans; [eapply emit_adds; [apply L_drl_mode; [exact Da|exact Ik|exact C]|exact E]|]. clear E.
    destruct (_ =? 0) in H; [injection H as <- _; apply adds_0; unfold len; lia|]. eapply IH; try eassumption. apply Forall_forall. exact D.
Qed.
Lemma index_adds : forall y num drl ctx es es' j, Forall bit drl -> Forall (fun x => 0 <= x < 3) ctx -> (3 <= List.length ctx)%nat ->
  mv_index y num drl ctx es = Ok (es', j) -> adds 2 es es'.
Proof.
  intros y num drl ctx es es' j D C L. unfold mv_index.
  assert (I01 : Forall (fun k => 0 <= k < len ctx) [0; 1]) by (unfold len; repeat constructor; lia).
  assert (I12 : Forall (fun k => 0 <= k < len ctx) [1; 2]) by (unfold len; repeat constructor; lia).
  destruct (_ || _); [intros H; exact (drl_adds _ _ _ _ _ _ _ _ D C I01 H)|]. destruct (has_nearmv y); [intros H; exact (drl_adds _ _ _ _ _ _ _ _ D C I12 H)|].
  intros H. injection H as <- _. apply adds_0. lia.
Qed.
Lemma joint_range : forall d, 0 <= mv_joint d < 4.
Proof. intros d. unfold mv_joint. destruct (_ =? 0), (_ =? 0); lia. Qed.
Lemma assign_adds : forall is x mvs pred m es es' mvs' pred' m', assign_mv_loop is x mvs pred m es = Ok (es', mvs', pred', m') -> adds (len is) es es'.
Proof.
  induction is as [|i is IH]; intros x mvs pred m es es' mvs' pred' m'; cbn [assign_mv_loop].
  - intros H. injection H as <- _ _ _. apply adds_0. reflexivity.
  - assert (L : len (i :: is) = 1 + len is) by (unfold len; cbn [List.length]; lia). rewrite L.
    intros H. bi H. clear E. destruct (_ =? _) in H; [|eapply adds_le; [|eapply IH; exact H]; lia].
    bi H. clear E. bi H. clear E. bi H.
    eapply adds_trans; [eapply emit_adds; [|exact E]; apply L_mv_joint; [apply joint_range|unfold bit; destruct (n_intrabc x); lia]|]. clear E. eapply IH. exact H.
Qed.

Lemma code_refs_adds : forall x b es es' b', frame_ok (x_frame x) (x_row x) (x_col x) -> bit (p_comp_mode b) -> bit (p_comp_ref_type b) -> code_refs x b es = Ok (es', b') ->
  adds 6 es es' /\ p_mode b' = p_mode b /\ p_drl b' = p_drl b /\ (0 <? p_ref1 b' = true -> p_comp_mode b = 1).
Proof.
  intros x b es es' b' F C T E. unfold code_refs in E. apply bind_inv in E. destruct E as (on & _ & E). destruct on.
  { bi E. clear E0. bi E. clear E0. destruct (_ && _) in E; [|discriminate E]. injection E as <- <-. split; [apply adds_0; lia|]. cbn. repeat split. discriminate. }
  apply bind_inv in E. destruct E as (sk & _ & E). apply bind_inv in E. destruct E as (gl & _ & E). destruct gl.
  { injection E as <- <-. split; [apply adds_0; lia|]. cbn. repeat split. discriminate. }
  bi E. destruct a as (((es0, comp), r0), r1). injection E as <- <-. split; [exact (refs_adds _ _ _ _ _ _ _ _ _ _ _ _ _ _ F C T E0)|]. split; [reflexivity|]. split; [reflexivity|].
  intros P. cbn [p_ref1 with_refs] in P. unfold ref_frames in E0. bi E0. clear E. bi E0. clear E. bi E0. clear E.
  (* two references are only kept if they were coded *)
  match type of E0 with (if ?k then _ else _) = _ => destruct k eqn:K end.
  - destruct (_ && _) in K; unfold COMPOUND_REFERENCE, SINGLE_REFERENCE in K; lia.
  - bi E0. injection E0 as _ _ _ <-. cbn in P. discriminate P.
Qed.
Lemma code_inter_adds : forall x b t es es' b' t', motion_ranges x b t -> code_inter x b t es = Ok (es', b', t') -> adds 13 es es'.
Proof.
  intros x b t es es' b' t' [F C T M D DC DL R N] H. unfold code_inter in H.
  bi H. destruct a as (es1, b1). destruct (code_refs_adds _ _ _ _ _ F C T E) as (A6 & B1 & B2 & B3). cbv zeta in H.
  change 13 with (6 + (3 + (2 + 2))). eapply adds_trans; [exact A6|]. clear E.
  bi H. pose proof (find_zero _ _ _ _ E) as Zc. clear E. apply bind_inv in H. destruct H as (sk & _ & H). apply bind_inv in H. destruct H as (gl & _ & H).
  bi H. destruct a0 as (es2, y).
  eapply adds_trans.
  { destruct gl; [injection E as <- _; apply adds_0; lia|]. eapply mode_adds; [exact R|exact N|exact Zc| |exact E]. intros P. rewrite B1. exact (M (B3 P)). }
  clear E. rewrite B2 in H. bi H. destruct a0 as (es3, i). eapply adds_trans; [exact (index_adds _ _ _ _ _ _ _ D DC DL E)|]. clear E.
  bi H. destruct a0 as (((es4, mvs), pred), md). injection H as <- _ _. unfold assign_mv in E.
  eapply adds_le; [|eapply assign_adds; exact E]. destruct (0 <? _); cbn; lia.
Qed.

(** The readers for few candidates and with segmentation. *)
Definition prog_filled u l size select env lists y int hp : isprog (av1_motion_filled u l size select env lists y int hp).
Proof. unfold av1_motion_filled. pr; first [apply prog_refs|apply prog_mode_index|apply prog_list_mv]. Defined.
Definition prog_segment_motion fixed still u l size select env lists y int hp : isprog (av1_motion_segment fixed still u l size select env lists y int hp).
Proof. unfold av1_motion_segment. destruct fixed, still; pr; first [apply prog_refs|apply prog_mode_index|apply prog_list_mv]. Defined.

(** With a reader that reads the elements back: on bits. *)
Lemma inter_bits : forall (A : Type) (rd : list ev -> option (A * list ev)) x b t es ds b' t' v,
  bitwise rd -> motion_ranges x b t -> code_inter x b t es = Ok (es ++ ds, b', t') -> reads_as ds rd v ->
  exists p, (forall q, rd q = on_elements p q) /\
  forall s c d out sz tail, state_ok s -> 0 <= bit_count c < 2 ^ 62 -> 0 <= sz < 2 ^ 28 -> is_bits tail ->
  exists c' s' D d' rest, element_session c s out ds = Ok (c', s', out ++ D) /\ is_bits D /\
    decode_bits p d s (D ++ tail) sz = Ok (v, d', s', rest ++ tail).
Proof.
  intros A rd x b t es ds b' t' v B MR H R. destruct (code_inter_adds _ _ _ _ _ _ _ MR H) as (ds' & E & F & L).
  apply app_inv_head in E. subst ds'. destruct (bridge_reader A rd ds v B R) as (p & P & Q). exists p. split; [exact P|].
  intros s c d out sz tail S Hc Hs Ht. apply Q; try assumption. eapply Z.le_trans; [exact L|]. discriminate.
Qed.
