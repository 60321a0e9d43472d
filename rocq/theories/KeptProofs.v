(** What a coded unit or block leaves behind (C119). *)
From Coq Require Import String ZArith List Bool Lia ZifyBool ZifyNat.
From Verif Require Import Base SeqModel BaseProofs ContextModel MvStackModel ModeInfoModel UtilModel RangeCoderModel BitCodecModel SessionModel BlockTables GeomModel TileModel ElementModel FrameParamModel BitsSpec
  SeqSpec SyntaxSpec ElementSpec TileSpec LrModel LrSpec LrProofs LrProofs2 LrProofs3 KeptSpec.
Import ListNotations.
Open Scope Z_scope.

Definition upd3 {A : Type} (l : list (list (list A))) (p r c : Z) (f : A -> res A) : res (list (list (list A))) :=
  upd l p (fun l => upd l r (fun l => upd l c f)).
Lemma put3_upd3 (A : Type) (l : list (list (list A))) p r c x : put3 l p r c x = upd3 l p r c (fun _ => Ok x).
Proof. reflexivity. Qed.

Lemma upd_nth (A : Type) (l : list A) i f l' d : upd l i f = Ok l' ->
  0 <= i /\ f (nth (Z.to_nat i) l d) = Ok (nth (Z.to_nat i) l' d) /\ forall j, 0 <= j -> j <> i -> nth (Z.to_nat j) l' d = nth (Z.to_nat j) l d.
Proof.
  intros H. apply upd_inv in H as (x & y & E & F & ->). apply (idx_bound _ _ _ _ d) in E as [B E]. unfold len in B. split; [lia|].
  split; [rewrite E, set_nth_same by lia; exact F|]. intros j Hj N. apply set_nth_other. lia.
Qed.
Lemma upd3_cell (A : Type) (l : list (list (list A))) p r c f l' d : upd3 l p r c f = Ok l' ->
  (0 <= p /\ 0 <= r /\ 0 <= c) /\ f (cell l p r c d) = Ok (cell l' p r c d) /\
  forall p' r' c', 0 <= p' -> 0 <= r' -> 0 <= c' -> (p', r', c') <> (p, r, c) -> cell l' p' r' c' d = cell l p' r' c' d.
Proof.
  unfold upd3, cell. intros H. apply (upd_nth _ _ _ _ _ []) in H as (P & H & OP). apply (upd_nth _ _ _ _ _ []) in H as (R & H & OR).
  apply (upd_nth _ _ _ _ _ d) in H as (C & H & OC). split; [auto|]. split; [exact H|].
  intros p' r' c' P' R' C' N. destruct (Z.eq_dec p' p) as [-> |Np]; [|rewrite (OP p') by assumption; reflexivity].
  destruct (Z.eq_dec r' r) as [-> |Nr]; [|rewrite (OR r') by assumption; reflexivity].
  apply OC; [exact C'|]. congruence.
Qed.

(** Tables that agree outside of one place. *)
Definition elsewhere {A : Type} (l l' : list (list (list A))) (p r c : Z) (d : A) : Prop :=
  forall p' r' c', 0 <= p' -> 0 <= r' -> 0 <= c' -> (p', r', c') <> (p, r, c) -> cell l' p' r' c' d = cell l p' r' c' d.

Lemma one_weight i is plane row col u s es v : i = 0 \/ i = 1 -> sgr_weights (i :: is) plane row col u s es = Ok v ->
  exists ref xqd es', sgr_weights is plane row col u (set_xqd ref xqd s) es' = Ok v /\ elsewhere (t_xqd s) xqd plane row col [] /\
    (has_weight (u_set u) i = true -> nth (Z.to_nat i) (cell xqd plane row col []) 0 = nth (Z.to_nat i) (u_xqd u) 0) /\
    (forall j, 0 <= j -> j <> i -> nth (Z.to_nat j) (cell xqd plane row col []) 0 = nth (Z.to_nat j) (cell (t_xqd s) plane row col []) 0).
Proof.
  intros Hi H. cbn [sgr_weights] in H. apply bind_inv in H as (p & Ep & H). pose proof (set_range _ _ Ep) as Rs.
  destruct (params_ok _ i Rs Hi) as (p' & r' & Ep' & Er' & W). rewrite Ep in Ep'. injection Ep' as <-. rewrite Er' in H. cbn [bind] in H.
  apply bind_inv in H as (mn & _ & H). apply bind_inv in H as (mx & _ & H). apply bind_inv in H as (refs & Er & H). rewrite W in H.
  apply bind_inv in H as ([w es'] & Ew & H). apply bind_inv in H as (xqd & X & H). apply bind_inv in H as (ref & Eu & H).
  exists ref, xqd, es'. split; [exact H|]. change (upd3 (t_xqd s) plane row col (fun l => put l i w) = Ok xqd) in X.
  apply (upd3_cell _ _ _ _ _ _ _ []) in X as (_ & X & O). split; [exact O|].
  change (upd (cell (t_xqd s) plane row col []) i (fun _ => Ok w) = Ok (cell xqd plane row col [])) in X.
  apply (upd_nth _ _ _ _ _ 0) in X as (_ & X & O2). split; [|exact O2]. intros HW. rewrite HW in Ew. cbv beta iota in Ew.
  apply bind_inv in Ew as (y & Ey & Ew). apply bind_inv in Ew as (? & _ & Ew). apply bind_inv in Ew as (? & _ & Ew). injection Ew as <- _.
  injection X as <-. exact (eq_sym (proj2 (idx_bound _ _ _ _ 0 Ey))).
Qed.

(** What coding a unit leaves: [k] is its type. *)
Definition kept_unit (k p r c : Z) (u : lrunit) (s s' : lrstate) : Prop :=
  (cell (t_type s') p r c 0 = k /\ elsewhere (t_type s) (t_type s') p r c 0) /\
  (cell (t_set s') p r c 0 = (if k =? 2 then u_set u else cell (t_set s) p r c 0) /\ elsewhere (t_set s) (t_set s') p r c 0) /\
  ((k = 2 -> forall i, i = 0 \/ i = 1 -> has_weight (u_set u) i = true -> nth (Z.to_nat i) (cell (t_xqd s') p r c []) 0 = nth (Z.to_nat i) (u_xqd u) 0) /\
   (k <> 2 -> t_xqd s' = t_xqd s) /\ elsewhere (t_xqd s) (t_xqd s') p r c []) /\
  t_taps s' = t_taps s /\ t_ref_taps s' = t_ref_taps s.

Lemma unit_kept typ p r c u s es s' es' : 0 <= typ <= 3 -> lr_unit typ p r c u s es = Ok (s', es') ->
  (0 <= p /\ 0 <= r /\ 0 <= c) /\ kept_unit (unit_type typ u) p r c u s s' /\ unit_type typ u <> 1.
Proof.
  intros T H.
  assert (NW : unit_type typ u <> 1).
  { intros W. apply (wiener_unit_never typ p r c u s es (s', es')); [|exact H]. unfold unit_type in W.
    assert (typ = 0 \/ typ = 1 \/ typ = 2 \/ typ = 3) as [-> | [-> | [-> | ->]]] by lia; cbn in W; [discriminate| | |right; split; [reflexivity|exact W]].
    - left. split; [reflexivity|]. destruct (u_wiener u); [reflexivity|discriminate].
    - destruct (u_sgrproj u); discriminate. }
  unfold lr_unit in H.
  set (X := if typ =? RESTORE_NONE then (RESTORE_NONE, es) else _) in H.
  assert (TX : fst X = unit_type typ u).
  { subst X. unfold RESTORE_NONE, RESTORE_WIENER, RESTORE_SGRPROJ. assert (typ = 0 \/ typ = 1 \/ typ = 2 \/ typ = 3) as [-> | [-> | [-> | ->]]] by lia; reflexivity. }
  destruct X as [k es1]. cbn [fst] in TX. rewrite TX in H. apply bind_inv in H as (ty & E & H). rewrite put3_upd3 in E.
  apply (upd3_cell _ _ _ _ _ _ _ 0) in E as (B & E & O). injection E as E. split; [exact B|]. split; [|exact NW].
  set (k' := unit_type typ u) in *. unfold RESTORE_WIENER, RESTORE_SGRPROJ in H. replace (k' =? 1) with false in H by lia.
  destruct (Z.eqb_spec k' 2) as [K|K].
  - unfold sgr_unit in H. cbv zeta in H. apply bind_inv in H as (sets & ES & H). rewrite put3_upd3 in ES.
    apply (upd3_cell _ _ _ _ _ _ _ 0) in ES as (_ & ES & OS). injection ES as ES. cbn [t_set set_type] in OS.
    apply one_weight in H as (ref0 & xq0 & es0 & H & O0 & W0 & N0); [|auto]. apply one_weight in H as (ref1 & xq1 & es2 & H & O1 & W1 & N1); [|auto].
    cbn [sgr_weights] in H. injection H as <- _. cbn [t_xqd t_type t_set t_taps t_ref_taps set_xqd set_set set_type] in *.
    unfold kept_unit. cbn [t_xqd t_type t_set t_taps t_ref_taps set_xqd set_set set_type]. rewrite K. cbn [Z.eqb Pos.eqb].
    split; [split; [rewrite <- K; symmetry; exact E|exact O]|]. split; [split; [symmetry; exact ES|exact OS]|]. split; [|split; reflexivity].
    split; [|split; [intros N; now elim N|]].
    + intros _ i [-> | ->] HW; [rewrite (N1 0) by lia; apply W0; exact HW|apply W1; exact HW].
    + intros p' r' c' P R C N. rewrite O1, O0 by assumption. reflexivity.
  - injection H as <- _. unfold kept_unit. cbn [t_xqd t_type t_set t_taps t_ref_taps set_type]. replace (k' =? 2) with false by lia.
    split; [split; [symmetry; exact E|exact O]|]. split; [split; [reflexivity|intros ? ? ? _ _ _ _; reflexivity]|].
    split; [split; [intros N; now elim K|split; [reflexivity|intros ? ? ? _ _ _ _; reflexivity]]|split; reflexivity].
Qed.

(** All units of a list. *)
Lemma units_kept (find : Z -> Z -> Z -> res lrunit) (types : list Z) l : Forall (fun t => 0 <= t <= 3) types -> NoDup l -> forall s es s' es',
  for_units (fun '(p, row, col) '(s, es) => u <- find p row col ;; lr_unit (nth (Z.to_nat p) types 0) p row col u s es) l (s, es) = Ok (s', es') ->
  (forall p row col, 0 <= p -> 0 <= row -> 0 <= col -> ~ In (p, row, col) l ->
     cell (t_type s') p row col 0 = cell (t_type s) p row col 0 /\ cell (t_set s') p row col 0 = cell (t_set s) p row col 0 /\ cell (t_xqd s') p row col [] = cell (t_xqd s) p row col []) /\
  (forall p row col, In (p, row, col) l -> exists u, find p row col = Ok u /\ (0 <= p /\ 0 <= row /\ 0 <= col) /\
     let k := unit_type (nth (Z.to_nat p) types 0) u in k <> 1 /\ cell (t_type s') p row col 0 = k /\
     (k = 2 -> cell (t_set s') p row col 0 = u_set u /\ forall i, i = 0 \/ i = 1 -> has_weight (u_set u) i = true -> nth (Z.to_nat i) (cell (t_xqd s') p row col []) 0 = nth (Z.to_nat i) (u_xqd u) 0) /\
     (k <> 2 -> cell (t_set s') p row col 0 = cell (t_set s) p row col 0 /\ cell (t_xqd s') p row col [] = cell (t_xqd s) p row col [])) /\
  t_taps s' = t_taps s /\ t_ref_taps s' = t_ref_taps s.
Proof.
  intros FT. induction l as [|[[p0 r0] c0] l IH]; intros ND s es s' es' H.
  - cbn [for_units] in H. injection H as <- _. repeat split; try reflexivity. intros p row col [].
  - cbn [for_units] in H. apply bind_inv in H as ([s1 es1] & H1 & H). apply bind_inv in H1 as (u & F & H1).
    apply NoDup_cons_iff in ND as [NI ND]. apply unit_kept in H1 as (B & K & NW).
    2:{ destruct (nth_in_or_default (Z.to_nat p0) types 0) as [I|D]; [rewrite Forall_forall in FT; apply FT; exact I|rewrite D; lia]. }
    set (k := unit_type _ u) in *. destruct K as ((K1 & K2) & (K3 & K4) & (K5 & K6 & K7) & K8 & K9).
    destruct (IH ND _ _ _ _ H) as (I1 & I2 & I3 & I4). split; [|split; [|split; congruence]].
    + intros p row col P R C N. assert (NE : (p, row, col) <> (p0, r0, c0)) by (intros E; apply N; left; symmetry; exact E).
      destruct (I1 p row col P R C) as (J1 & J2 & J3); [intros I; apply N; right; exact I|].
      rewrite J1, J2, J3, K2, K4, K7 by assumption. auto.
    + intros p row col [E|I].
      * injection E as <- <- <-. exists u. split; [exact F|]. split; [exact B|]. fold k. cbv zeta. destruct B as (B1 & B2 & B3).
        destruct (I1 p0 r0 c0 B1 B2 B3 NI) as (J1 & J2 & J3). rewrite J1, J2, J3. split; [exact NW|]. split; [exact K1|]. split.
        -- intros E. rewrite K3. replace (k =? 2) with true by lia. split; [reflexivity|]. exact (K5 E).
        -- intros E. rewrite K3, (K6 E). replace (k =? 2) with false by lia. auto.
      * destruct (I2 p row col I) as (u' & F' & B' & J). exists u'. split; [exact F'|]. split; [exact B'|]. cbv zeta in *.
        destruct J as (J1 & J2 & J3 & J4). split; [exact J1|]. split; [exact J2|]. split; [exact J3|]. intros E. destruct (J4 E) as [L1 L2]. rewrite L1, L2.
        assert (NE : (p, row, col) <> (p0, r0, c0)) by (intros E'; apply NI; rewrite <- E'; exact I). destruct B' as (? & ? & ?).
        rewrite K4, K7 by assumption. auto.
Qed.

(** A superblock. *)
Lemma superblock_kept x sbs row units r c s es s' es' :
  lr_sizes_ok x -> Forall (fun t => 0 <= t <= 3) (v_types x) -> 0 <= r <= 2 ^ 50 -> 0 <= c <= 2 ^ 50 ->
  idx sbs (r / sb_of (v_use128 x)) = Ok row -> idx row (c / sb_of (v_use128 x)) = Ok units ->
  encode_lr x sbs r c (if v_use128 x then BLOCK_128X128 else BLOCK_64X64) s es = Ok (s', es') ->
  let coded := if v_intrabc x then [] else av1_read_lr (frame_of x) r c (sb_of (v_use128 x)) in
  (forall p i j, 0 <= p -> 0 <= i -> 0 <= j -> ~ In (p, i, j) coded ->
     cell (t_type s') p i j 0 = cell (t_type s) p i j 0 /\ cell (t_set s') p i j 0 = cell (t_set s) p i j 0 /\ cell (t_xqd s') p i j [] = cell (t_xqd s) p i j []) /\
  (forall p i j, In (p, i, j) coded ->
     exists u, unit_at units p (i - av1_row_start (frame_of x) p r) (j - av1_col_start (frame_of x) p c) = Ok u /\ (0 <= p /\ 0 <= i /\ 0 <= j) /\
     let k := unit_type (nth (Z.to_nat p) (v_types x) 0) u in k <> 1 /\ cell (t_type s') p i j 0 = k /\
     (k = 2 -> cell (t_set s') p i j 0 = u_set u /\ forall n, n = 0 \/ n = 1 -> has_weight (u_set u) n = true -> nth (Z.to_nat n) (cell (t_xqd s') p i j []) 0 = nth (Z.to_nat n) (u_xqd u) 0) /\
     (k <> 2 -> cell (t_set s') p i j 0 = cell (t_set s) p i j 0 /\ cell (t_xqd s') p i j [] = cell (t_xqd s) p i j [])) /\
  t_taps s' = t_taps s /\ t_ref_taps s' = t_ref_taps s.
Proof.
  intros S T R C E1 E2 H coded. rewrite (encode_lr_units x sbs row units r c s es S R C E1 E2) in H. fold coded in H.
  assert (ND : NoDup coded) by (subst coded; destruct (v_intrabc x); [constructor|apply read_lr_nodup]).
  exact (units_kept (fun p i j => unit_at units p (i - av1_row_start (frame_of x) p r) (j - av1_col_start (frame_of x) p c)) (v_types x) coded T ND _ _ _ _ H).
Qed.

(** Film grain. *)
Lemma grain_reset out fg refs show showable inter mono ss out' g' :
  fg = None \/ (show = false /\ showable = false) \/ (exists g, fg = Some g /\ fg_apply g = false) ->
  enc_grain out fg refs show showable inter mono ss = Ok (out', g') -> exists g, g' = Some g /\ no_grain g.
Proof.
  intros C H. unfold enc_grain in H. set (g := match fg with Some _ => _ | None => _ end) in H.
  assert (A : fg_apply g = false).
  { subst g. destruct C as [-> | [[-> ->] | (g & -> & A)]]; [reflexivity|destruct fg; reflexivity|]. destruct (negb show && negb showable); [reflexivity|exact A]. }
  apply bind_inv in H as (st & _ & H). cbv zeta in H. rewrite A in H. cbn [negb] in H. injection H as _ <-. eexists. split; [reflexivity|]. repeat split.
Qed.

Lemma grain_params_kept out mono ss g out' g' : fg_update g = true -> enc_grain_params out mono ss g = Ok (out', g') -> grain_as_read mono ss g g'.
Proof.
  intros U H. unfold enc_grain_params in H. apply bind_inv in H as (o1 & _ & H). apply bind_inv in H as (o2 & _ & H).
  set (pr := if mono then (o2, false) else (pbit o2 (fg_cfl g), fg_cfl g)) in H. assert (C : snd pr = negb mono && fg_cfl g) by (subst pr; destruct mono; reflexivity).
  destruct pr as [o3 cfl]. cbn [snd] in C. subst cfl. apply bind_inv in H as ([o4 g1] & G & H).
  assert (K : grain_as_read mono ss g g1).
  { unfold grain_as_read. destruct (mono || _ || _) eqn:N.
    - injection G as _ <-. repeat split; exact U.
    - apply bind_inv in G as (a1 & _ & G). apply bind_inv in G as (a2 & _ & G). apply bind_inv in G as (a3 & _ & G). apply bind_inv in G as (a4 & _ & G). injection G as _ <-. repeat split; exact U. }
  repeat match type of H with (_ <- _ ;; _) = _ => apply bind_inv in H as (? & _ & H) end.
  repeat match goal with p : (_ * _)%type |- _ => destruct p end.
  repeat match type of H with (_ <- _ ;; _) = _ => apply bind_inv in H as (? & _ & H) end.
  injection H as _ <-. exact K.
Qed.
Lemma grain_updated out g refs show showable inter mono ss out' g' : show = true \/ showable = true -> fg_apply g = true -> inter = false \/ fg_update g = true ->
  enc_grain out (Some g) refs show showable inter mono ss = Ok (out', g') -> exists k, g' = Some k /\ grain_as_read mono ss g k.
Proof.
  intros V A U H. unfold enc_grain in H. assert (N : negb show && negb showable = false) by (destruct V as [-> | ->]; [reflexivity|apply andb_false_r]).
  rewrite N in H. apply bind_inv in H as (st & _ & H). cbv zeta in H. rewrite A in H. cbn [negb] in H. apply bind_inv in H as (o1 & _ & H).
  set (pr := if inter then (pbit o1 (fg_update g), g) else (o1, set_update g)) in H.
  assert (C : fg_update (snd pr) = true /\ forall k, grain_as_read mono ss (snd pr) k -> grain_as_read mono ss g k).
  { subst pr. destruct inter; cbn [snd]; [destruct U as [U|U]; [discriminate|]; auto|]. split; [reflexivity|]. intros k K. exact K. }
  destruct pr as [o2 g1]. cbn [snd] in C. destruct C as [C1 C2]. rewrite C1 in H. cbn [negb] in H.
  apply bind_inv in H as ([o3 g2] & G & H). injection H as _ <-. exists g2. split; [reflexivity|]. apply C2. eapply grain_params_kept; eassumption.
Qed.

Lemma segment_keeps x b t es es' b' t' : intra_segment_id x b t es = Ok (es', b', t') ->
  same_choices b b' /\ same_motion b b' /\ p_skip b' = p_skip b /\ p_inter b' = p_inter b.
Proof. intros H. unfold intra_segment_id in H. apply bind_inv in H as ([e seg] & _ & H). apply bind_inv in H as (l & _ & H). injection H as _ <- _. repeat split. Qed.
Lemma is_inter_keeps x b es es' b' : code_is_inter x b es = Ok (es', b') ->
  same_choices b b' /\ same_motion b b' /\ p_skip b' = p_skip b /\ p_seg b' = p_seg b.
Proof.
  intros H. unfold code_is_inter in H. apply bind_inv in H as (on & _ & H). destruct on.
  - apply bind_inv in H as (o & _ & H). apply bind_inv in H as (v & _ & H). injection H as _ <-. repeat split.
  - apply bind_inv in H as (g & _ & H). destruct g; [injection H as _ <-; repeat split|]. apply bind_inv in H as (e & _ & H). injection H as _ <-. repeat split.
Qed.
Lemma refs_keep x b es es' b' : code_refs x b es = Ok (es', b') ->
  same_choices b b' /\ p_mode b' = p_mode b /\ p_mvs b' = p_mvs b /\ p_skip b' = p_skip b /\ p_seg b' = p_seg b /\ p_inter b' = p_inter b.
Proof.
  intros H. unfold code_refs in H. apply bind_inv in H as (on & _ & H). destruct on.
  - apply bind_inv in H as (o & _ & H). apply bind_inv in H as (v & _ & H). destruct (_ && _); [|discriminate]. injection H as _ <-. repeat split.
  - apply bind_inv in H as (sk & _ & H). apply bind_inv in H as (gl & _ & H). destruct gl; [injection H as _ <-; repeat split|].
    apply bind_inv in H as ([[[e c] r0] r1] & _ & H). injection H as _ <-. repeat split.
Qed.
Lemma inter_keeps x b t es es' b' t' : code_inter x b t es = Ok (es', b', t') ->
  same_choices b b' /\ p_skip b' = p_skip b /\ p_seg b' = p_seg b /\ p_inter b' = p_inter b.
Proof.
  intros H. unfold code_inter in H. apply bind_inv in H as ([e b1] & R & H). apply refs_keep in R as (K & _ & _ & K2 & K3 & K4).
  apply bind_inv in H as (s & _ & H). apply bind_inv in H as (sk & _ & H). apply bind_inv in H as (gl & _ & H). apply bind_inv in H as ([e1 y] & _ & H).
  apply bind_inv in H as ([e2 i] & _ & H). apply bind_inv in H as ([[[e3 mvs] pred] mode] & _ & H). injection H as _ <- _.
  unfold same_choices in *. cbn [p_bsize p_cdef p_q p_lf p_comp_ref_type p_new_mv p_zero_mv p_ref_mv p_drl p_intrabc p_skip p_seg p_inter with_mvs]. auto.
Qed.
Lemma choices_trans a b c : same_choices a b -> same_choices b c -> same_choices a c.
Proof. unfold same_choices. intuition congruence. Qed.
Lemma motion_trans a b c : same_motion a b -> same_motion b c -> same_motion a c.
Proof. unfold same_motion. intuition congruence. Qed.

Lemma mode_info_keeps x b t es es' b' t' : encode_mode_info x b t es = Ok (es', b', t') ->
  same_choices b b' /\ (p_inter b' = false -> same_motion b b') /\ (p_skip b' = p_skip b \/ x_intra x = true /\ x_pre_skip x = true /\ x_seg_on x = true /\ p_skip b' = true).
Proof.
  assert (R1 : forall b, same_choices b b) by (intros; repeat split). assert (R2 : forall b, same_motion b b) by (intros; repeat split).
  intros H. unfold encode_mode_info in H. destruct (x_intra x); [|injection H as _ <- _; auto].
  apply bind_inv in H as ([[e1 b1] t1] & H1 & H). apply bind_inv in H as (sk & SK & H). apply bind_inv in H as ([e2 b2] & H2 & H).
  apply bind_inv in H as ([[e3 b3] t3] & H3 & H). apply bind_inv in H as ([e4 t4] & _ & H). apply bind_inv in H as ([e5 t5] & _ & H).
  apply bind_inv in H as ([e6 b6] & H6 & H).
  assert (A1 : same_choices b b1 /\ same_motion b b1 /\ p_skip b1 = p_skip b).
  { destruct (x_pre_skip x); [apply segment_keeps in H1; tauto|injection H1 as _ <- _; auto]. }
  assert (A2 : same_choices b1 b2 /\ same_motion b1 b2 /\ (p_skip b2 = p_skip b1 \/ true = true /\ x_pre_skip x = true /\ x_seg_on x = true /\ p_skip b2 = true)).
  { destruct sk.
    - injection H2 as _ <-. split; [repeat split|]. split; [repeat split|]. right. destruct (x_pre_skip x); [|discriminate]. unfold feature_on in SK. destruct (x_seg_on x); [auto|discriminate].
    - apply bind_inv in H2 as (e & _ & H2). injection H2 as _ <-. auto. }
  assert (A3 : same_choices b2 b3 /\ same_motion b2 b3 /\ p_skip b3 = p_skip b2).
  { destruct (x_pre_skip x); cbn [negb] in H3; [injection H3 as _ <- _; auto|apply segment_keeps in H3; tauto]. }
  apply is_inter_keeps in H6 as (A6 & B6 & C6 & _).
  assert (K : same_choices b b6) by (eapply choices_trans; [apply A1|]; eapply choices_trans; [apply A2|]; eapply choices_trans; [apply A3|exact A6]).
  assert (M : same_motion b b6) by (eapply motion_trans; [apply A1|]; eapply motion_trans; [apply A2|]; eapply motion_trans; [apply A3|exact B6]).
  assert (SS : p_skip b6 = p_skip b \/ true = true /\ x_pre_skip x = true /\ x_seg_on x = true /\ p_skip b6 = true).
  { destruct A1 as (_ & _ & E1), A2 as (_ & _ & E2), A3 as (_ & _ & E3). rewrite C6, E3. rewrite E1 in E2. exact E2. }
  destruct (p_inter b6) eqn:I.
  - apply inter_keeps in H as (K2 & S2 & _ & I2). split; [eapply choices_trans; eassumption|]. split; [intros N; congruence|]. rewrite S2. exact SS.
  - injection H as _ <- _. auto.
Qed.

Lemma grain_loaded out g refs show showable mono ss out' g' : show = true \/ showable = true -> fg_apply g = true -> fg_update g = false ->
  enc_grain out (Some g) refs show showable true mono ss = Ok (out', g') ->
  exists st k, idx refs (fg_ref g) = Ok st /\ g' = Some k /\ same_but_seed st k /\ fg_seed k = fg_seed g.
Proof.
  intros SH A U H. unfold enc_grain in H. replace (negb show && negb showable) with false in H by (destruct SH as [-> | ->]; [reflexivity|destruct show; reflexivity]).
  apply bind_inv in H as (st & E & H). cbv zeta in H. rewrite A in H. cbn [negb] in H. apply bind_inv in H as (o & _ & H). rewrite U in H. cbn [negb] in H.
  repeat first [apply bind_inv in H as (? & _ & H)]. injection H as _ <-. exists st. eexists. split; [exact E|]. split; [reflexivity|]. repeat split.
Qed.
