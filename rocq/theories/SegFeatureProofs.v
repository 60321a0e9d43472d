(** Proofs about what the features of a segment fix for a block (C66). *)
From Coq Require Import String ZArith List Bool Lia.
From Verif Require Import Base BaseProofs ContextModel MvStackModel ModeInfoModel ModeInfoSpec ModeWholeProofs.
Import ListNotations.
Open Scope Z_scope.

Lemma refs_fixed x b es v : x_seg_on x = true -> feature x (p_seg b) SEG_LVL_REF_FRAME = Ok (Some v) ->
  (-1 <= v <= 7 -> exists b', code_refs x b es = Ok (es, b') /\ p_ref0 b' = v /\ p_ref1 b' = -1 /\ p_seg b' = p_seg b /\ p_inter b' = p_inter b /\ p_intrabc b' = p_intrabc b) /\
  (~ -1 <= v <= 7 -> code_refs x b es = Panic).
Proof.
  intros S F. unfold code_refs, feature_on. rewrite S, F. cbn [bind unwrap]. split; intros V.
  - replace ((-1 <=? v) && (v <=? 7)) with true by (symmetry; apply andb_true_intro; split; apply Z.leb_le; lia). eexists. split; [reflexivity|]. repeat split.
  - replace ((-1 <=? v) && (v <=? 7)) with false; [reflexivity|]. symmetry. apply andb_false_iff. destruct (Z_lt_ge_dec v (-1)); [left|right]; apply Z.leb_gt; lia.
Qed.
Lemma refs_last x b es : x_seg_on x = true -> feature x (p_seg b) SEG_LVL_REF_FRAME = Ok None -> (exists v, feature x (p_seg b) SEG_LVL_SKIP = Ok (Some v)) ->
  exists b', code_refs x b es = Ok (es, b') /\ p_ref0 b' = 1 /\ p_ref1 b' = -1.
Proof.
  intros S F (v & K). unfold code_refs, feature_on. rewrite S, F. cbn [bind]. rewrite K. cbn [bind]. eexists. split; [reflexivity|]. split; reflexivity.
Qed.
Lemma is_inter_fixed x b es v : x_seg_on x = true -> feature x (p_seg b) SEG_LVL_REF_FRAME = Ok (Some v) ->
  exists b', code_is_inter x b es = Ok (es, b') /\ (p_inter b' = true <-> v <> 0).
Proof.
  intros S F. unfold code_is_inter, feature_on. rewrite S, F. cbn [bind unwrap]. eexists. split; [reflexivity|]. cbn [p_inter with_inter].
  destruct (Z.eqb_spec v 0); cbn [negb]; split; intros; congruence.
Qed.

(** The same for the whole block. *)
Lemma features_taken x b t es es' b' t' rf : features_ok x -> x_seg_on x = true -> x_intra x = true ->
  encode_mode_info x b t es = Ok (es', b', t') -> feature_at x (p_seg b') SEG_LVL_REF_FRAME = Some rf ->
  (p_inter b' = true <-> rf <> 0) /\
  (rf <> 0 -> -1 <= rf <= 7 /\ p_ref0 b' = rf /\ p_ref1 b' = -1 /\ t_y_mode t' = GLOBALMV /\ t_idx t' = 0 /\
    (p_intrabc b' = false -> fst (p_mvs b') = fst (s_global (t_mv t')) /\ fst (t_pred t') = fst (p_mvs b'))).
Proof.
  intros F S I H G. unfold encode_mode_info in H. rewrite I in H.
  bi H. destruct a as [[e b1] t1]. clear E. bi H. clear E. bi H. clear E. destruct a0 as [e2 b2].
  bi H. destruct a0 as [[e3 b3] t3]. clear E. bi H. destruct a0 as [e4 t4]. clear E.
  bi H. destruct a0 as [e5 t5]. clear E. bi H. destruct a0 as [e6 b6].
  unfold code_is_inter in E. bi E. destruct a0; [|bi E; exfalso; exact (global_panics x _ _ F S E1)].
  bi E. bi E. injection E as _ <-. destruct a0 as [r|]; [|discriminate]. cbn [unwrap] in E2. injection E2 as <-. cbn [p_inter with_inter p_seg] in H.
  destruct (negb (r =? 0)) eqn:N.
  - unfold code_inter in H. bi H. destruct a0 as [e7 b7].
    destruct (refs_fixed x (with_inter true b3) e6 r S E1) as [R1 R2].
    destruct (Z_le_gt_dec (-1) r) as [L|L]; [|rewrite R2 in E by lia; discriminate E].
    destruct (Z_le_gt_dec r 7) as [U|U]; [|rewrite R2 in E by lia; discriminate E].
    destruct (R1 (conj L U)) as (bb & EB & B0 & B1 & BS & BI & _). rewrite EB in E. injection E as <- <-. rename bb into b7.
    cbn [p_seg with_inter] in BS. cbn [p_inter with_inter] in BI.
    bi H. rename a0 into s. apply bind_inv in H. destruct H as (sk & Esk & H). apply bind_inv in H. destruct H as (gl & Egl & H).
    destruct sk; [|exfalso; exact (global_panics x _ _ F S Egl)]. injection Egl as <-. cbn [bind] in H. unfold mv_index in H.
    change ((GLOBALMV =? NEWMV) || (GLOBALMV =? NEW_NEWMV)) with false in H. change (has_nearmv GLOBALMV) with false in H. cbn [bind] in H.
    rewrite B1 in H. change (0 <? -1) with false in H. unfold assign_mv in H. cbn [assign_mv_loop n_intrabc n_y_mode] in H.
    bi H. destruct a0 as [[[ee mm] pp] md]. injection H as _ <- <-. cbn [p_seg with_mvs p_inter p_ref0 p_ref1 t_y_mode with_motion t_idx p_intrabc p_mvs t_mv t_pred] in *.
    assert (r = rf) as -> by (unfold feature_at in G; rewrite BS, E1 in G; congruence).
    split; [rewrite BI; split; [intros _|reflexivity]; intros ->; discriminate N|]. intros _. do 5 (split; [assumption || reflexivity || lia|]).
    intros IB. rewrite IB in E2. change (get_mode GLOBALMV 0) with GLOBALMV in E2. unfold pred_mvs in E2. cbn [n_intrabc n_globals] in E2. rewrite ?IB in E2.
    change (GLOBALMV =? GLOBALMV) with true in E2. cbn [bind set_at at_list Z.eqb fst snd] in E2. change (GLOBALMV =? NEWMV) with false in E2. cbn iota in E2.
    injection E2 as _ <- <- _. split; reflexivity.
  - injection H as _ <- _. cbn [p_seg with_inter p_inter] in *.
    assert (r = rf) as -> by (unfold feature_at in G; rewrite E1 in G; congruence).
    assert (rf = 0) as -> by (destruct (Z.eqb_spec rf 0); [assumption|discriminate N]). split; [split; congruence|congruence].
Qed.
