(** Proofs about whole streams (StreamModel). *)
From Coq Require Import ZArith List Bool Lia ZifyBool ZifyNat.
From Verif Require Import Base BaseProofs UtilModel UtilSpec BitsSpec BitsProofs RangeCoderModel BitCodecModel BitCodecProofs WriterModel WriterSpec WriterProofs
  SeqModel SeqSpec SeqProofs SeqProofs2 SeqProofs3 ObuModel ObuSpec ObuProofs TileModel TileProofs FrameParamModel FrameModel FrameSpec FrameProofs FrameProofs4
  FrameProofs6 FrameProofs7 FrameProofs8 FrameProofs9 StreamModel StreamSpec.
Import ListNotations.
Open Scope Z_scope.

(** ** What a frame header leaves alone, whatever the frame *)
Lemma push_snoc (out : list Z) b : push out b <> [].
Proof. unfold push. intros C. symmetry in C. apply app_cons_not_nil in C. exact C. Qed.
Lemma push_size_nonnil out v n r : 1 <= n -> push_bits_with_size out v n = Ok r -> r <> [].
Proof.
  intros N H. unfold push_bits_with_size in H. destruct (Z.to_nat n) as [|k] eqn:E; [lia|]. cbn [push_range] in H. apply bind_inv in H. destruct H as (_ & _ & H).
  destruct (push_range_app _ _ _ _ _ _ H) as (c & ->). intros C. apply app_eq_nil in C. destruct C as (C & _). revert C. apply push_snoc.
Qed.
Lemma grain_some out fg refs show showable inter mono ss out' fg' :
  enc_grain out fg refs show showable inter mono ss = Ok (out', fg') -> is_some fg' = true /\ out' <> [].
Proof.
  unfold enc_grain. intros H. apply bind_inv in H. destruct H as (st & _ & H).
  match type of H with context [fg_apply ?x] => set (g := x) in H; clearbody g end.
  destruct (fg_apply g); cbn [negb] in H.
  2: { injection H as <- <-. split; [reflexivity|apply push_snoc]. }
  apply bind_inv in H. destruct H as (o1 & _ & H).
  destruct (if inter then _ else _) as [o2 g2]. destruct (fg_update g2); cbn [negb] in H.
  - apply bind_inv in H. destruct H as ([o3 g3] & E & H). injection H as <- <-. split; [reflexivity|].
    unfold enc_grain_params in E.
    repeat (first [apply bind_inv in E; destruct E as (? & _ & E) | match type of E with context [let '(_, _) := ?x in _] => destruct x end]).
    injection E as <- _. apply push_snoc.
  - apply bind_inv in H. destruct H as (o3 & E & H). injection H as <- <-. split; [reflexivity|]. apply (push_size_nonnil _ _ 3 _ ltac:(lia) E).
Qed.

(** What [enc_of] and the flag machine see of the context. *)
Record same_seq (c c' : ctx) : Prop := {
  sq_reduced : c_reduced c' = c_reduced c; sq_sb128 : c_sb128 c' = c_sb128 c; sq_warped : c_warped c' = c_warped c;
  sq_hint : c_enable_hint c' = c_enable_hint c; sq_mvs : c_ref_mvs c' = c_ref_mvs c; sq_sct : c_sct c' = c_sct c; sq_imv : c_imv c' = c_imv c;
  sq_obu : c_obu_bits c' = c_obu_bits c; sq_sup : c_superres c' = c_superres c; sq_rest : c_restoration c' = c_restoration c;
  sq_mono : c_mono c' = c_mono c; sq_ssx : c_ssx c' = c_ssx c; sq_ssy : c_ssy c' = c_ssy c; sq_sep : c_sep c' = c_sep c;
  sq_timing : c_timing c' = c_timing c; sq_opm : c_opm c' = c_opm c; sq_planes : c_planes c' = c_planes c }.
Lemma same_refl c : same_seq c c.
Proof. constructor; reflexivity. Qed.
Lemma same_set_seen c b : same_seq c (set_seen c b).
Proof. constructor; reflexivity. Qed.

Lemma point_app out c f r : enc_point out c f = Ok r -> exists p, r = out ++ p.
Proof.
  unfold enc_point. intros H. repeat match type of H with context [match ?x with _ => _ end] => destruct x end; try discriminate;
    try (injection H as <-; exists []; rewrite app_nil_r; reflexivity); apply push_size_app in H; exact H.
Qed.
Lemma header_any out c f out' c' f' : encode_frame_header out c f = Ok (out', c', f') ->
  (c_seen c = true /\ out' = out /\ c' = c) \/
  (c_seen c = false /\ c_seen c' = true /\ same_seq c c' /\ out' <> [] /\
   c_existing c' = negb (c_reduced c) && c_existing c /\
   is_some (c_grain c') = is_some (c_grain c) || negb (c_existing c')).
Proof.
  unfold encode_frame_header. intros H. destruct (c_seen c) eqn:SEEN.
  { left. injection H as <- <- _. auto. }
  right. split; [reflexivity|]. cbv zeta in H. apply bind_inv in H. destruct H as (l & _ & H).
  destruct (negb (c_reduced c) && c_existing c) eqn:X.
  - apply bind_inv in H. destruct H as ([[o r] t] & E & H). injection H as <- <- _.
    split; [reflexivity|]. split; [constructor; reflexivity|]. split; [|cbn; rewrite orb_false_r; auto].
    unfold enc_existing in E. apply bind_inv in E. destruct E as (o1 & E1 & E). apply push_size_nonnil in E1; [|lia].
    apply bind_inv in E. destruct E as (o2 & E2 & E). destruct (point_app _ _ _ _ E2) as (p & ->).
    apply bind_inv in E. destruct E as (o3 & E3 & E). apply bind_inv in E. destruct E as (ty & _ & E). injection E as <- _ _.
    destruct (c_ids c).
    + destruct (f_display_id f); [|discriminate]. destruct (push_size_app _ _ _ _ E3) as (q & ->). intros C. apply app_eq_nil in C. destruct C as (C & _).
      apply app_eq_nil in C. tauto.
    + injection E3 as <-. intros C. apply app_eq_nil in C. tauto.
  - apply bind_inv in H. destruct H as ([o1 t] & _ & H). apply bind_inv in H. destruct H as ([[va hi] hs] & _ & H).
    destruct (enc_tools2 _ c f (t_intra t)) as [[o2 sct] imv].
    apply bind_inv in H. destruct H as ([[[o3 prev] cur] v1] & _ & H). destruct (enc_override o3 c t) as [o4 ov].
    apply bind_inv in H. destruct H as (o5 & _ & H). apply bind_inv in H. destruct H as ([o6 pr] & _ & H). apply bind_inv in H. destruct H as (o7 & _ & H).
    apply bind_inv in H. destruct H as ([o8 rf] & _ & H). apply bind_inv in H. destruct H as (v2 & _ & H). apply bind_inv in H. destruct H as ([o9 m] & _ & H).
    apply bind_inv in H. destruct H as ([h2 bias] & _ & H). destruct (if c_reduced c || c_no_update c then _ else _) as [o10 ne].
    apply bind_inv in H. destruct H as ([[o11 cs] rs] & _ & H). apply bind_inv in H. destruct H as (cl & _ & H). apply bind_inv in H. destruct H as (rl & _ & H).
    apply bind_inv in H. destruct H as ([[o12 q] dq] & _ & H). apply bind_inv in H. destruct H as ([[[o13 sg] pre] last] & _ & H).
    apply bind_inv in H. destruct H as ([o14 dl] & _ & H). apply bind_inv in H. destruct H as ([[coded arr] qm] & _ & H).
    apply bind_inv in H. destruct H as ([o15 lf] & _ & H). apply bind_inv in H. destruct H as ([o16 cd] & _ & H).
    apply bind_inv in H. destruct H as ([[o17 lp] lc] & _ & H). destruct (if coded then _ else _) as [o18 tx].
    destruct (if t_intra t then _ else _) as [o19 sel]. apply bind_inv in H. destruct H as (skip & _ & H).
    destruct (if is_some skip then _ else _) as [o20 sp]. destruct (if t_intra t || t_err t || negb (c_warped c) then _ else _) as [o21 wa].
    apply bind_inv in H. destruct H as ([[o22 gt] gp] & _ & H). apply bind_inv in H. destruct H as ([o23 fg] & EG & H).
    apply grain_some in EG. destruct EG as (G & N). injection H as <- <- _. split; [reflexivity|]. split; [constructor; reflexivity|]. split; [exact N|].
    split; [reflexivity|]. cbn [c_grain c_existing negb]. rewrite G, orb_true_r. reflexivity.
Qed.

(** ** The sequence header's effect on the state *)
Record seq_run (e : enc) (h : seqhdr) (e' : enc) : Prop := {
  sr_reduced : e_reduced e' = e_reduced e; sr_sb : e_sb128 e' = e_sb128 e; sr_sup : e_superres e' = e_superres e;
  sr_cdef : e_cdef e' = e_cdef e; sr_rest : e_restoration e' = e_restoration e; sr_opm : e_opm e' = e_opm e; sr_grain : e_grain e' = e_grain e;
  sr_hint : e_order_hint e' = negb (e_reduced e) && e_order_hint e;
  sr_bits : e_order_hint_bits e' = if e_order_hint e' then e_order_hint_bits e else 0;
  sr_need : e_order_hint e' = true -> 1 <= e_order_hint_bits e;
  sr_high : e_high e' = e_high e; sr_twelve : e_twelve e' = e_twelve e;
  sr_timing : e_timing e' = if e_reduced e then None else e_timing e;
  sr_sct : e_force_sct e' = if e_reduced e then 2 else pt_sct (tools_view e h);
  sr_imv : e_force_imv e' = if e_reduced e then 2 else pt_imv (tools_view e h) }.

Lemma seq_runs out e h out' e' h' : enc_seq out e h = Ok (out', e', h') -> seq_run e h e'.
Proof.
  intros E. unfold enc_seq in E.
  apply bind_inv in E. destruct E as (o1 & _ & E). apply bind_inv in E. destruct E as (o2 & _ & E). apply bind_inv in E. destruct E as (o3 & _ & E).
  apply bind_inv in E. destruct E as (o4 & _ & E). apply bind_inv in E. destruct E as ([o5 t] & ET & E). apply bind_inv in E. destruct E as ([o6 c] & EC & E).
  apply bind_inv in E. destruct E as ([[o7 ti] dm] & EI & E). apply bind_inv in E. destruct E as (o8 & _ & E). injection E as _ <- _.
  assert (HC : SeqModel.c_high c = e_high e /\ SeqModel.c_twelve c = e_twelve e).
  { clear -EC. unfold enc_color in EC. destruct (if (sh_profile h =? 2) && e_high e then _ else _) as [oa de]. destruct (if sh_profile h =? 1 then _ else _) as [ob mo].
    apply bind_inv in EC. destruct EC as ([oc cd] & _ & EC). apply bind_inv in EC. destruct EC as ([od [[[[ra x] y] cs] se]] & _ & EC). injection EC as _ <-. split; reflexivity. }
  destruct HC as (HC1 & HC2).
  assert (TI : ti = if e_reduced e then None else e_timing e).
  { unfold enc_timing in EI. cbv zeta in EI. destruct (if e_reduced e then None else e_timing e).
    - repeat (apply bind_inv in EI; destruct EI as (? & _ & EI)). injection EI as _ <- _. reflexivity.
    - injection EI as _ <- _. reflexivity. }
  assert (TT : t_order_hint t = negb (e_reduced e) && e_order_hint e /\ t_ohb t = (if t_order_hint t then e_order_hint_bits e else 0) /\
    (t_order_hint t = true -> 1 <= e_order_hint_bits e) /\
    t_sct t = (if e_reduced e then 2 else pt_sct (tools_view e h)) /\ t_imv t = (if e_reduced e then 2 else pt_imv (tools_view e h))).
  { clear -ET. unfold enc_tools in ET. destruct (e_reduced e). { injection ET as _ <-. cbn. repeat split; discriminate. }
    unfold tools_view. cbn [negb andb pt_sct pt_imv]. cbv zeta.
    set (oa := pbit (pbit _ _) (e_order_hint e)) in ET. clearbody oa.
    destruct (if e_order_hint e then (_, sh_jnt h, e_ref_mvs e) else _) as [[ob jnt] mvs]. 
    assert (F : forall (a : Z) (x : list Z), exists y, (if sh_choose_sct h then (x, 2) else (push x (as_u8 (e_force_sct e)), e_force_sct e)) =
      (y, if sh_choose_sct h then 2 else e_force_sct e)) by (intros; destruct (sh_choose_sct h); eexists; reflexivity).
    destruct (F 0 (pbit ob (sh_choose_sct h))) as (oc & F1). rewrite F1 in ET. clear F F1. set (sct := if sh_choose_sct h then 2 else e_force_sct e) in *. clearbody sct.
    destruct (if 0 <? sct then _ else (oc, 2)) as [od imv] eqn:EM.
    assert (IMV : imv = if 0 <? sct then if sh_choose_imv h then 2 else e_force_imv e else 2) by (destruct (0 <? sct); [destruct (sh_choose_imv h)|]; injection EM as _ <-; reflexivity).
    clear EM. apply bind_inv in ET. destruct ET as ([oe ohb] & EB & ET). injection ET as _ <-. cbn [t_order_hint t_ohb t_sct t_imv].
    destruct (e_order_hint e).
    - apply bind_inv in EB. destruct EB as (b & EC & EB). apply bind_inv in EB. destruct EB as (ox & _ & EB). injection EB as _ <-.
      apply chk_inv in EC. split; [reflexivity|]. split; [reflexivity|]. split; [intros _; lia|]. split; [reflexivity|exact IMV].
    - injection EB as _ <-. split; [reflexivity|]. split; [reflexivity|]. split; [discriminate|]. split; [reflexivity|exact IMV]. }
  destruct TT as (T1 & T2 & T3 & T4 & T5).
  constructor; cbn [e_reduced e_sb128 e_warped e_order_hint e_ref_mvs e_force_sct e_force_imv e_order_hint_bits e_superres e_cdef e_restoration e_high e_twelve e_timing e_opm e_grain];
    try reflexivity; assumption.
Qed.

(** ** Order hints *)
Lemma enc_store x e : e_reduced e = c_reduced (z_ctx x) -> e_sb128 e = c_sb128 (z_ctx x) -> e_superres e = c_superres (z_ctx x) -> e_cdef e = z_cdef x ->
  e_restoration e = c_restoration (z_ctx x) -> e_high e = z_high x -> e_twelve e = z_twelve x -> e_opm e = c_opm (z_ctx x) -> e_grain e = is_some (c_grain (z_ctx x)) ->
  enc_of (store_enc x e) = e.
Proof. destruct e; cbn. intros; subst. reflexivity. Qed.

Section Stream.
Variable T : Type.
Variable superblock : T -> list (list Z) -> Z -> Z -> Z -> list Z -> res (T * list (list Z) * list Z).

Lemma unit_payload w x o w' x' : stream_unit superblock w x o = Ok (w', x') -> exists p, payload superblock x o = Ok (p, x').
Proof.
  unfold stream_unit, stream_obu. intros H. apply bind_inv in H. destruct H as ([[w1 x1] ob] & E & H).
  apply bind_inv in E. destruct E as (o1 & _ & E). apply bind_inv in E. destruct E as ([p x2] & EP & E).
  apply bind_inv in E. destruct E as (w2 & _ & E). apply bind_inv in E. destruct E as (w3 & _ & E). injection E as _ <- _.
  apply bind_inv in H. destruct H as (fu & _ & H). cbv zeta in H. apply bind_inv in H. destruct H as (tu & _ & H). apply bind_inv in H. destruct H as (sz & _ & H).
  apply bind_inv in H. destruct H as (w4 & _ & H). apply bind_inv in H. destruct H as (w5 & _ & H). injection H as _ <-. exists p. exact EP.
Qed.
Lemma run_payloads : forall l w x w' x', run_stream superblock w x l = Ok (w', x') -> exists ps, payloads superblock x l = Ok (ps, x').
Proof.
  induction l as [|[o|g] l IH]; intros w x w' x' H; cbn [run_stream payloads] in *.
  - injection H as _ <-. eexists. reflexivity.
  - apply bind_inv in H. destruct H as ([w1 x1] & E & H). destruct (unit_payload _ _ _ _ _ E) as (p & ->). cbn [bind].
    destruct (IH _ _ _ _ H) as (ps & ->). cbn [bind]. eexists. reflexivity.
  - apply (IH _ _ _ _ H).
Qed.

(** What one call does to the state. *)
Lemma tile_group_run x f groups st cdef p x' : tile_group superblock x f groups st cdef = Ok (p, x') ->
  exists s e n b, x' = mkStrm (set_seen (z_ctx x) b) (z_cdef x) (z_high x) (z_twelve x) (z_cd x) (z_range x) (z_csp x) (z_depth x) (z_planes x) s e n /\
    b = c_seen (z_ctx x) && negb (e =? f_tile_cols f * f_tile_rows f - 1).
Proof.
  unfold tile_group. cbv zeta. destruct (if (f_tile_cols f * f_tile_rows f =? 1) || (groups =? 0) then _ else _) as [s e].
  intros H. apply bind_inv in H. destruct H as (a & _ & H). apply bind_inv in H. destruct H as ([[t c] o] & _ & H). apply bind_inv in H. destruct H as (la & EL & H).
  apply chk_inv in EL. destruct EL as (-> & _). injection H as <- <-. exists s, e. do 2 eexists. split; [|reflexivity].
  destruct (e =? _); cbn [negb]; [rewrite andb_false_r; reflexivity|]. rewrite andb_true_r. destruct (z_ctx x); reflexivity.
Qed.

Lemma payload_obu x o p x' : payload superblock x o = Ok (p, x') ->
  c_obu_bits (z_ctx x') = 0 \/ c_obu_bits (z_ctx x') = c_obu_bits (z_ctx x).
Proof.
  destruct o as [h| |f| |f groups st cdef|m|f|n]; cbn [payload]; intros H.
  - apply bind_inv in H. destruct H as ([[o e] h'] & E & H). injection H as _ <-. apply seq_runs in E. cbn. rewrite (sr_bits _ _ _ E). destruct (e_order_hint e); auto.
  - injection H as _ <-. auto.
  - apply bind_inv in H. destruct H as ([[o c] f'] & E & H). injection H as _ <-. apply header_any in E. destruct E as [(_ & _ & ->)|(_ & _ & S & _)]; [auto|].
    cbn. right. apply (sq_obu _ _ S).
  - injection H as _ <-. auto.
  - apply tile_group_run in H. destruct H as (s & e & n & b & -> & _). auto.
  - apply bind_inv in H. destruct H as (o & _ & H). injection H as _ <-. auto.
  - injection H as _ <-. auto.
  - apply bind_inv in H. destruct H as (o & _ & H). injection H as _ <-. auto.
Qed.
Lemma no_hint_bits : forall l x ps x', payloads superblock x l = Ok (ps, x') -> c_obu_bits (z_ctx x) = 0 -> c_obu_bits (z_ctx x') = 0.
Proof.
  induction l as [|[o|g] l IH]; intros x ps x' H Z0; cbn [payloads] in H.
  - injection H as _ <-. exact Z0.
  - apply bind_inv in H. destruct H as ([p x1] & E & H). apply bind_inv in H. destruct H as ([qs x2] & E2 & H). injection H as _ <-.
    apply (IH _ _ _ E2). destruct (payload_obu _ _ _ _ E); congruence.
  - apply (IH _ _ _ H). exact Z0.
Qed.
Lemma hints_never : forall l w w' x, run_stream superblock w strm_new l = Ok (w', x) -> c_obu_bits (z_ctx x) = 0 /\
  (forall h r, c_reduced (z_ctx x) = false -> c_enable_hint (z_ctx x) = true -> stream_unit superblock w' x (SSequence h) <> Ok r) /\
  (forall h w2 x2, stream_unit superblock w' x (SSequence h) = Ok (w2, x2) -> c_enable_hint (z_ctx x2) = false).
Proof.
  intros l w w' x H. destruct (run_payloads _ _ _ _ _ H) as (ps & HP). pose proof (no_hint_bits _ _ _ _ HP eq_refl) as Z0. split; [exact Z0|].
  assert (G : forall h w2 x2, stream_unit superblock w' x (SSequence h) = Ok (w2, x2) -> c_enable_hint (z_ctx x2) = false /\ (c_reduced (z_ctx x) = false -> c_enable_hint (z_ctx x) = false)).
  { intros h w2 x2 E. destruct (unit_payload _ _ _ _ _ E) as (p & EP). cbn [payload] in EP. apply bind_inv in EP. destruct EP as ([[o e] h'] & EQ & EP).
    injection EP as _ <-. apply seq_runs in EQ. pose proof (sr_need _ _ _ EQ) as N. pose proof (sr_hint _ _ _ EQ) as Q. cbn [enc_of e_order_hint_bits e_order_hint e_reduced] in N, Q.
    rewrite Z0 in N. cbn [store_enc z_ctx c_enable_hint]. destruct (e_order_hint e); [exfalso; specialize (N eq_refl); lia|]. split; [reflexivity|].
    intros R. rewrite R in Q. cbn [negb andb] in Q. congruence. }
  split.
  - intros h [w2 x2] R D E. destruct (G _ _ _ E) as (_ & Q). specialize (Q R). congruence.
  - intros h w2 x2 E. apply (G _ _ _ E).
Qed.

(** ** Frame headers and the flag *)
Definition told_of (x : strm) (o : sobu T) : told :=
  match o with
  | SDelimiter => ADelimiter
  | SHeader _ => AHeader false
  | STiles f _ _ _ => ATiles (z_tg_end x =? f_tile_cols f * f_tile_rows f - 1)
  | _ => AOther
  end.
Lemma tile_group_last x f groups st cdef p x' : 0 <= f_tile_cols f -> 0 <= f_tile_rows f -> tile_group superblock x f groups st cdef = Ok (p, x') ->
  x' = set_ctx (mkStrm (z_ctx x) (z_cdef x) (z_high x) (z_twelve x) (z_cd x) (z_range x) (z_csp x) (z_depth x) (z_planes x) (z_tg_start x) (z_tg_end x) (z_tile_num x))
         (set_seen (z_ctx x) (c_seen (z_ctx x) && negb (z_tg_end x =? f_tile_cols f * f_tile_rows f - 1))).
Proof.
  intros A B H. unfold tile_group in H. cbv zeta in H. 
  destruct (if (f_tile_cols f * f_tile_rows f =? 1) || (groups =? 0) then _ else _) as [s e] eqn:SE.
  apply bind_inv in H. destruct H as (a & _ & H). apply bind_inv in H. destruct H as ([[t c] o] & EG & H). apply tile_group_never in EG; [|assumption..].
  destruct EG as (N1 & N2 & N3). replace ((f_tile_cols f * f_tile_rows f =? 1) || (groups =? 0)) with false in SE by lia. injection SE as <- <-.
  apply bind_inv in H. destruct H as (la & EL & H). apply chk_inv in EL. destruct EL as (-> & _). injection H as <- <-.
  replace (z_tg_start x <=? z_tg_end x) with false by lia. unfold set_ctx. cbn [z_cdef z_high z_twelve z_cd z_range z_csp z_depth z_planes z_tg_start z_tg_end z_tile_num]. f_equal.
  destruct (z_tg_end x =? _); cbn [negb]; [rewrite andb_false_r; reflexivity|]. rewrite andb_true_r. destruct (z_ctx x); reflexivity.
Qed.

Definition sane (o : sobu T) : Prop := match o with STiles f _ _ _ => 0 <= f_tile_cols f /\ 0 <= f_tile_rows f | _ => True end.
Lemma payload_flag x o p x' : sane o -> c_reduced (z_ctx x) = true \/ c_existing (z_ctx x) = false -> payload superblock x o = Ok (p, x') ->
  c_seen (z_ctx x') = seen_after (c_seen (z_ctx x)) (told_of x o) /\ z_tg_end x' = z_tg_end x /\
  (c_reduced (z_ctx x') = true \/ c_existing (z_ctx x') = false) /\
  match o with SHeader _ => p = [] <-> c_seen (z_ctx x) = true | _ => True end.
Proof.
  destruct o as [h| |f| |f groups st cdef|m|f|n]; cbn [payload told_of seen_after sane]; intros SA EX H.
  - apply bind_inv in H. destruct H as ([[o e] h'] & E & H). injection H as _ <-. apply seq_runs in E. cbn. auto.
  - injection H as _ <-. cbn. auto.
  - apply bind_inv in H. destruct H as ([[o c] f'] & E & H). injection H as <- <-. apply header_any in E. cbn [set_ctx z_ctx z_tg_end negb].
    destruct E as [(S & -> & ->)|(S & S' & Q & N & X & G)].
    + rewrite S. cbn. tauto.
    + rewrite S, S'. rewrite (sq_reduced _ _ Q), X. repeat split; try (destruct EX as [->| ->]; [now left|right; apply andb_false_r]); intros; [contradiction|discriminate].
  - injection H as _ <-. auto.
  - apply tile_group_last in H; [|tauto..]. subst x'. cbn. auto.
  - apply bind_inv in H. destruct H as (o & _ & H). injection H as _ <-. auto.
  - injection H as _ <-. auto.
  - apply bind_inv in H. destruct H as (o & _ & H). injection H as _ <-. auto.
Qed.
Lemma told_end x x' o : z_tg_end x' = z_tg_end x -> told_of x' o = told_of x o.
Proof. intros E. unfold told_of. rewrite E. reflexivity. Qed.

Lemma flags_in_step : forall os x ps x', Forall sane os -> c_reduced (z_ctx x) = true \/ c_existing (z_ctx x) = false ->
  payloads superblock x (map Call os) = Ok (ps, x') ->
  c_seen (z_ctx x') = flag_after (c_seen (z_ctx x)) (map (told_of x) os) /\
  (forall i f p b, nth_error os i = Some (SHeader f) -> nth_error ps i = Some p -> nth_error (flags (c_seen (z_ctx x)) (map (told_of x) os)) i = Some b -> (p = [] <-> b = true)).
Proof.
  induction os as [|o os IH]; intros x ps x' SA EX H; cbn [map payloads] in H.
  - injection H as <- <-. split; [reflexivity|]. intros [|i]; discriminate.
  - apply bind_inv in H. destruct H as ([p x1] & E & H). apply bind_inv in H. destruct H as ([qs x2] & E2 & H). injection H as <- <-. inversion SA as [|? ? S1 S2]; subst.
    destruct (payload_flag _ _ _ _ S1 EX E) as (F & TG & EX1 & HD). destruct (IH _ _ _ S2 EX1 E2) as (F2 & HD2).
    assert (M : map (told_of x1) os = map (told_of x) os) by (apply map_ext; intros a; apply told_end; exact TG).
    rewrite M in *. rewrite F in *. split; [exact F2|]. intros [|i] f q b; cbn [nth_error map flags].
    + intros [= ->] [= ->] [= <-]. exact HD.
    + apply HD2.
Qed.

(** ** The bytes *)
Definition stype (o : sobu T) : Z :=
  match o with SSequence _ => 1 | SDelimiter => 2 | SHeader _ => 3 | STiles _ _ _ _ => 4 | SMeta _ => 5 | SFrame _ => 6 | SRedundant => 7 | SPadding _ => 15 end.
Lemma unit_bytes w x o p x' : aligned w -> payload superblock x o = Ok (p, x') -> is_bits p -> exists w' pb,
  stream_unit superblock w x o = Ok (w', x') /\ aligned w' /\ packs p pb /\ w_bytes w' = w_bytes w ++ pb ++ [24; 16; 8; 8 * stype o].
Proof.
  intros A HP HB.
  assert (EP : exists e, encode_payload (enc_of x) (variant superblock x o) = Ok (p, e)).
  { destruct o as [h| |f| |f groups st cdef|m|f|n]; cbn [variant encode_payload]; try (rewrite HP; cbn [bind]; eexists; reflexivity); cbn [payload] in HP.
    - apply bind_inv in HP. destruct HP as ([[o e] h'] & E & HP). injection HP as -> _. rewrite E. cbn [bind]. eexists. reflexivity.
    - injection HP as <- _. eexists. reflexivity.
    - injection HP as <- _. eexists. reflexivity.
    - apply bind_inv in HP. destruct HP as (o & E & HP). injection HP as -> _. rewrite E. cbn [bind]. eexists. reflexivity.
    - injection HP as <- _. eexists. reflexivity.
    - apply bind_inv in HP. destruct HP as (o & E & HP). injection HP as -> _. rewrite E. cbn [bind]. eexists. reflexivity. }
  destruct EP as (e & EP). destruct (unit_ok w _ _ _ _ A EP HB) as (w' & pb & E & A' & K & B). exists w', pb.
  assert (TY : frame_bytes (variant superblock x o) = [24; 16; 8; 8 * stype o]) by (destruct o; reflexivity).
  rewrite TY in B. split; [|auto]. clear -E EP HP.
  unfold encode_temporal_unit, encode_obu in E. unfold stream_unit, stream_obu. rewrite EP in E. rewrite HP. cbn [bind] in *.
  apply bind_inv in E. destruct E as ([[w1 e1] ob] & E1 & E). apply bind_inv in E1. destruct E1 as (o1 & EH & E1). rewrite EH. cbn [bind].
  apply bind_inv in E1. destruct E1 as (w2 & E2 & E1). rewrite E2. cbn [bind]. apply bind_inv in E1. destruct E1 as (w3 & E3 & E1). rewrite E3. cbn [bind].
  injection E1 as -> -> ->.
  apply bind_inv in E. destruct E as (fu & E4 & E). rewrite E4. cbn [bind]. cbv zeta in *. apply bind_inv in E. destruct E as (tu & E5 & E). rewrite E5. cbn [bind].
  apply bind_inv in E. destruct E as (sz & E6 & E). rewrite E6. cbn [bind]. apply bind_inv in E. destruct E as (w4 & E7 & E). rewrite E7. cbn [bind].
  apply bind_inv in E. destruct E as (w5 & E8 & E). rewrite E8. cbn [bind]. injection E as ->. reflexivity.
Qed.

(** The calls of a program. *)
Definition calls (l : list (action T)) : list (sobu T) := flat_map (fun a => match a with Call o => [o] | Change _ => [] end) l.
(** [bs]: for each payload its bits, padded to bytes, then the four bytes of the header. *)
Inductive framed : list Z -> list (list Z) -> list Z -> Prop :=
| framed_nil : framed [] [] []
| framed_cons : forall t ts p ps pb bs, packs p pb -> framed ts ps bs -> framed (t :: ts) (p :: ps) (pb ++ [24; 16; 8; 8 * t] ++ bs).
Lemma stream_bytes : forall l w x ps x', aligned w -> payloads superblock x l = Ok (ps, x') -> Forall is_bits ps ->
  exists w' bs, run_stream superblock w x l = Ok (w', x') /\ aligned w' /\ w_bytes w' = w_bytes w ++ bs /\ framed (map stype (calls l)) ps bs.
Proof.
  induction l as [|[o|g] l IH]; intros w x ps x' A H B; cbn [payloads run_stream] in *.
  - injection H as <- <-. exists w, []. rewrite app_nil_r. repeat split; try apply A. constructor.
  - apply bind_inv in H. destruct H as ([p x1] & E & H). apply bind_inv in H. destruct H as ([qs x2] & E2 & H). injection H as <- <-. inversion B as [|? ? B1 B2]; subst.
    destruct (unit_bytes _ _ _ _ _ A E B1) as (w1 & pb & U & A1 & K & W). destruct (IH _ _ _ _ A1 E2 B2) as (w2 & bs & R & A2 & W2 & F).
    exists w2. eexists. rewrite U. cbn [bind]. split; [exact R|]. split; [exact A2|]. split; [rewrite W2, W, <- !app_assoc; reflexivity|].
    cbn [calls flat_map app map]. apply (framed_cons (stype o) _ p qs pb bs K F).
  - apply (IH _ _ _ _ A H B).
Qed.

(** Frames handed over as OBU_FRAME leave no trace. *)
Definition alike (a b : action T) : Prop :=
  match a, b with
  | Call (SFrame _), Call (SFrame _) => True
  | _, _ => a = b
  end.
Lemma frames_lost : forall l l' w x, Forall2 alike l l' -> run_stream superblock w x l = run_stream superblock w x l'.
Proof.
  intros l l' w x H. revert w x. induction H as [|a b l l' AB _ IH]; intros w x; [reflexivity|].
  assert (C : a = b \/ exists f g, a = Call (SFrame f) /\ b = Call (SFrame g)).
  { destruct a as [[]|], b as [[]|]; cbn [alike] in AB; try (left; exact AB); right; eauto. }
  destruct C as [->|(f & g & -> & ->)]; cbn [run_stream].
  - destruct b as [o|c]; [|apply IH]. destruct (stream_unit superblock w x o) as [[w1 x1]| |]; cbn [bind]; try reflexivity; apply IH.
  - change (stream_unit superblock w x (SFrame f)) with (stream_unit superblock w x (SFrame g)).
    destruct (stream_unit superblock w x (SFrame g)) as [[w1 x1]| |]; cbn [bind]; try reflexivity; apply IH.
Qed.
End Stream.
