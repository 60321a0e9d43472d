(** The weights kept for the next unit, and what is lost. *)
From Coq Require Import ZArith List Bool Lia ZifyBool ZifyNat.
From Verif Require Import Base BaseProofs UtilModel RangeCoderModel BitCodecModel SessionModel BlockTables GeomModel TileModel ElementModel FrameParamModel BitsSpec BitsProofs UtilProofs
  SeqSpec SyntaxSpec ElementSpec TileSpec LrModel LrSpec LrProofs LrProofs2.
Import ListNotations.
Open Scope Z_scope.
Ltac Zify.zify_post_hook ::= Z.div_mod_to_equations.

Lemma set_nth_same (A : Type) (l : list A) i x d : (i < length l)%nat -> nth i (set_nth i x l) d = x.
Proof. revert i. induction l as [|y l IH]; intros i H; cbn in H; [lia|]. destruct i; cbn; [reflexivity|apply IH; lia]. Qed.
Lemma set_nth_other (A : Type) (l : list A) i j x d : i <> j -> nth j (set_nth i x l) d = nth j l d.
Proof. revert i j. induction l as [|y l IH]; intros i j H; [destruct i; reflexivity|]. destruct i, j; cbn; try reflexivity; [lia|apply IH; lia]. Qed.
Lemma set_nth_len (A : Type) (l : list A) i x : length (set_nth i x l) = length l.
Proof. revert i. induction l as [|y l IH]; intros i; destruct i; cbn; auto. Qed.

Lemma idx_bound (A : Type) (l : list A) i x d : idx l i = Ok x -> 0 <= i < len l /\ nth (Z.to_nat i) l d = x.
Proof.
  unfold idx, len. destruct (i <? 0) eqn:E; [discriminate|]. destruct (nth_error l (Z.to_nat i)) eqn:N; [|discriminate].
  intros H. injection H as <-. split; [|apply nth_error_nth; exact N].
  assert ((Z.to_nat i < length l)%nat) by (apply nth_error_Some; congruence). lia.
Qed.

Lemma upd_inv (A : Type) (l : list A) i f l' : upd l i f = Ok l' -> exists x y, idx l i = Ok x /\ f x = Ok y /\ l' = set_nth (Z.to_nat i) y l.
Proof. unfold upd. intros H. apply bind_inv in H as (x & E & H). apply bind_inv in H as (y & E2 & H). injection H as <-. eauto. Qed.
Lemma put_inv (A : Type) (l : list A) i x l' : put l i x = Ok l' -> 0 <= i < len l /\ l' = set_nth (Z.to_nat i) x l.
Proof. unfold put. intros H. apply bind_inv in H as (y & E & H). injection H as <-. split; [|reflexivity]. exact (proj1 (idx_bound _ _ _ _ y E)). Qed.

(** The weight of one pass, as the model has it. *)
Definition sgr_value (set i : Z) (xqd refs : list Z) : Z :=
  if has_weight set i then nth (Z.to_nat i) xqd 0
  else if i =? 1 then clip3 (xqd_min 1) (xqd_max 1) (16 - nth 0 refs 0) else 0.

Lemma params_table : forallb (fun set => forallb (fun i =>
    match (p <- idx sgr_params set ;; idx p (i * 2)) with Ok r => Bool.eqb (0 <? r) (has_weight set i) | _ => false end) [0; 1]) (up_to 0 16) = true.
Proof. vm_compute. reflexivity. Qed.
Lemma params_ok set i : 0 <= set < 16 -> i = 0 \/ i = 1 -> exists p r, idx sgr_params set = Ok p /\ idx p (i * 2) = Ok r /\ (0 <? r) = has_weight set i.
Proof.
  intros Hs Hi. pose proof params_table as T. rewrite forallb_forall in T. specialize (T set ltac:(apply up_to_in; lia)). cbv beta in T.
  rewrite forallb_forall in T. specialize (T i ltac:(destruct Hi as [-> | ->]; cbn; auto)). cbv beta in T.
  destruct (idx sgr_params set) as [p| |]; cbn [bind] in T; try discriminate. destruct (idx p (i * 2)) as [r| |] eqn:E; try discriminate T.
  exists p, r. repeat split; [exact E|]. apply Bool.eqb_prop. exact T.
Qed.
Lemma set_range set p : idx sgr_params set = Ok p -> 0 <= set < 16.
Proof. intros H. apply (idx_bound _ _ _ _ []) in H. exact (proj1 H). Qed.

(** One pass. *)
Lemma sgr_step i is plane row col u s es v : i = 0 \/ i = 1 -> sgr_weights (i :: is) plane row col u s es = Ok v ->
  exists refs xqd es', idx (t_ref_xqd s) plane = Ok refs /\ 0 <= i < len refs /\
    (has_weight (u_set u) i = true -> 0 <= i < len (u_xqd u) /\
       encode_signed_subexp_bool es (nth (Z.to_nat i) (u_xqd u) 0) (xqd_min i) (xqd_max i + 1) SGRPROJ_PRJ_SUBEXP_K (nth (Z.to_nat i) refs 0) = Ok es') /\
    (has_weight (u_set u) i = false -> es' = es) /\
    sgr_weights is plane row col u (set_xqd (set_nth (Z.to_nat plane) (set_nth (Z.to_nat i) (sgr_value (u_set u) i (u_xqd u) refs) refs) (t_ref_xqd s)) xqd s) es' = Ok v.
Proof.
  intros Hi H. cbn [sgr_weights] in H. apply bind_inv in H as (p & Ep & H). pose proof (set_range _ _ Ep) as Rs.
  destruct (params_ok _ i Rs Hi) as (p' & r' & Ep' & Er' & W). rewrite Ep in Ep'. injection Ep' as <-. rewrite Er' in H. cbn [bind] in H.
  assert (Mn : idx sgrproj_xqd_min i = Ok (xqd_min i)) by (destruct Hi as [-> | ->]; reflexivity).
  assert (Mx : idx sgrproj_xqd_max i = Ok (xqd_max i)) by (destruct Hi as [-> | ->]; reflexivity).
  rewrite Mn, Mx in H. cbn [bind] in H. apply bind_inv in H as (refs & Er & H). rewrite W in H.
  apply bind_inv in H as ([w es'] & Ew & H). apply bind_inv in H as (xqd & _ & H). apply bind_inv in H as (ref & Eu & H).
  apply upd_inv in Eu as (refs' & y & Eu1 & Eu2 & ->). rewrite Er in Eu1. injection Eu1 as <-. apply put_inv in Eu2 as (Bi & ->).
  assert (V : w = sgr_value (u_set u) i (u_xqd u) refs /\
    (has_weight (u_set u) i = true -> 0 <= i < len (u_xqd u) /\
       encode_signed_subexp_bool es (nth (Z.to_nat i) (u_xqd u) 0) (xqd_min i) (xqd_max i + 1) SGRPROJ_PRJ_SUBEXP_K (nth (Z.to_nat i) refs 0) = Ok es') /\
    (has_weight (u_set u) i = false -> es' = es)).
  { unfold sgr_value. destruct (has_weight (u_set u) i).
    - apply bind_inv in Ew as (v0 & E0 & Ew). apply bind_inv in Ew as (r0 & E1 & Ew). apply bind_inv in Ew as (es1 & E2 & Ew). injection Ew as <- <-.
      apply (idx_bound _ _ _ _ 0) in E0 as [B0 E0]. apply (idx_bound _ _ _ _ 0) in E1 as [B1 E1]. rewrite E0, E1. repeat split; (congruence || lia || idtac). all: intros; discriminate.
    - destruct Hi as [-> | ->]; [change (0 =? 1) with false in *|change (1 =? 1) with true in *]; cbv iota in *.
      + injection Ew as <- <-. repeat split; intros; (discriminate || reflexivity).
      + apply bind_inv in Ew as (r0 & E1 & Ew). apply bind_inv in Ew as (d & E2 & Ew). injection Ew as <- <-.
        apply (idx_bound _ _ _ _ 0) in E1 as [B1 E1]. apply chk_inv in E2 as [-> _]. change (Z.to_nat 0) with 0%nat in E1. rewrite E1.
        repeat split; intros; (discriminate || reflexivity). }
  destruct V as (-> & V1 & V2). exists refs, xqd, es'. repeat (split; [assumption|]). exact H.
Qed.

(** A unit filtered by the self-guided filter, from one set of references to the
    next. *)
Lemma sgr_unit_refs plane row col u s es s' es' : sgr_unit plane row col u s es = Ok (s', es') ->
  len (nth (Z.to_nat plane) (t_ref_xqd s) []) = 2 ->
  let v0 := sgr_value (u_set u) 0 (u_xqd u) (nth (Z.to_nat plane) (t_ref_xqd s) []) in
  0 <= u_set u < 16 /\ 0 <= plane < len (t_ref_xqd s) /\
  nth (Z.to_nat plane) (t_ref_xqd s') [] = [v0; sgr_value (u_set u) 1 (u_xqd u) [v0; 0]] /\
  (forall p, p <> Z.to_nat plane -> nth p (t_ref_xqd s') [] = nth p (t_ref_xqd s) []).
Proof.
  intros H L. unfold sgr_unit in H. apply bind_inv in H as (sets & _ & H).
  assert (Rs : 0 <= u_set u < 16) by (cbn [sgr_weights] in H; apply bind_inv in H as (p & Ep & _); exact (set_range _ _ Ep)).
  apply sgr_step in H; [|auto]. destruct H as (refs & xqd & es1 & Er & _ & _ & _ & H).
  apply sgr_step in H; [|auto]. destruct H as (refs1 & xqd1 & es2 & Er1 & _ & _ & _ & H). cbn [sgr_weights] in H. injection H as <- _.
  cbn [t_ref_xqd set_xqd set_set] in *. apply (idx_bound _ _ _ _ []) in Er as [Bp Er]. rewrite Er in *.
  apply (idx_bound _ _ _ _ []) in Er1 as [Bp1 Er1]. unfold len in Bp.
  rewrite set_nth_same in Er1 by lia. subst refs1. cbv zeta.
  destruct refs as [|r0 [|r1 [|? ?]]]; try discriminate L; [|unfold len in L; cbn in L; lia].
  split; [exact Rs|]. split; [exact Bp|]. split.
  - rewrite set_nth_same by (rewrite set_nth_len; lia). cbn [Z.to_nat set_nth]. change (Z.to_nat 1) with 1%nat. reflexivity.
  - intros p Hp. rewrite !set_nth_other by congruence. reflexivity.
Qed.

Lemma sgr_refs_iff plane row col u s es s' es' x0 x1 : sgr_unit plane row col u s es = Ok (s', es') ->
  len (nth (Z.to_nat plane) (t_ref_xqd s) []) = 2 -> u_xqd u = [x0; x1] -> -96 <= x0 <= 31 -> -32 <= x1 <= 95 ->
  (nth (Z.to_nat plane) (t_ref_xqd s') [] = av1_weights (u_set u) x0 x1 <-> u_set u < 14 \/ x0 <= -79) /\
  (forall p, p <> Z.to_nat plane -> nth p (t_ref_xqd s') [] = nth p (t_ref_xqd s) []).
Proof.
  intros H L X H0 H1. destruct (sgr_unit_refs _ _ _ _ _ _ _ _ H L) as (Rs & _ & E & O). split; [|exact O]. rewrite E, X. clear - Rs H0 H1.
  unfold av1_weights, sgr_value, has_weight, xqd_min, xqd_max, clip3. cbn [Z.eqb Z.to_nat nth]. change (Z.to_nat 1) with 1%nat. cbn [nth Pos.eqb].
  destruct (u_set u <=? 13) eqn:E13.
  - split; [intros; left; lia|]. intros _. destruct ((10 <=? u_set u) && true); reflexivity.
  - rewrite andb_false_r. cbn [negb]. split.
    + intros E. apply (f_equal (fun l => nth 1 l 0)) in E. cbn [nth] in E. right. destruct (16 - x0 <? -32) eqn:A; [lia|]. destruct (95 <? 16 - x0) eqn:B; lia.
    + intros [A|A]; [lia|]. f_equal. f_equal. destruct (16 - x0 <? -32) eqn:C; [lia|]. destruct (95 <? 16 - x0) eqn:D; lia.
Qed.

(** A reference at its largest value. *)
Lemma sgr_stuck plane row col u s es v r0 r1 x0 x1 : nth (Z.to_nat plane) (t_ref_xqd s) [] = [r0; r1] ->
  u_xqd u = [x0; x1] -> -96 <= x0 <= 31 -> -32 <= x1 <= 95 ->
  (has_weight (u_set u) 0 = true /\ r0 = 31) \/ (has_weight (u_set u) 1 = true /\ r1 = 95) ->
  sgr_unit plane row col u s es <> Ok v.
Proof.
  intros R X H0 H1 C H. unfold sgr_unit in H. apply bind_inv in H as (sets & _ & H).
  apply sgr_step in H; [|auto]. destruct H as (refs & xqd & es1 & Er & _ & W0 & _ & H). cbn [t_ref_xqd set_set] in Er.
  apply (idx_bound _ _ _ _ []) in Er as [Bp Er]. rewrite R in Er. subst refs.
  destruct C as [[C ->]|[C ->]].
  - specialize (W0 C). rewrite X in W0. cbn [Z.to_nat nth] in W0. destruct W0 as [_ W0].
    rewrite (weight_panics _ 0 x0) in W0; [discriminate|auto|exact H0].
  - apply sgr_step in H; [|auto]. destruct H as (refs1 & xqd1 & es2 & Er1 & _ & W1 & _ & _). specialize (W1 C). destruct W1 as [_ W1].
    cbn [t_ref_xqd set_xqd set_set] in Er1. apply (idx_bound _ _ _ _ []) in Er1 as [_ Er1]. unfold len in Bp. rewrite set_nth_same in Er1 by lia. subst refs1.
    rewrite X in W1. cbn [Z.to_nat set_nth] in W1. change (Z.to_nat 1) with 1%nat in W1. cbn [nth] in W1.
    rewrite (weight_panics _ 1 x1) in W1; [discriminate|auto|exact H1].
Qed.

(** After a unit of set 14 or 15 the reference of the second weight is either not the
    decoder's, or one that no weight can be written with. *)
Lemma sgr_after plane row col u s es s' es' x0 x1 : sgr_unit plane row col u s es = Ok (s', es') ->
  len (nth (Z.to_nat plane) (t_ref_xqd s) []) = 2 -> u_xqd u = [x0; x1] -> -96 <= x0 <= 31 -> -32 <= x1 <= 95 ->
  14 <= u_set u -> nth (Z.to_nat plane) (t_ref_xqd s') [] = av1_weights (u_set u) x0 x1 ->
  forall row2 col2 u2 y0 y1 es2 v, u_xqd u2 = [y0; y1] -> -96 <= y0 <= 31 -> -32 <= y1 <= 95 -> u_set u2 < 14 ->
  sgr_unit plane row2 col2 u2 s' es2 <> Ok v.
Proof.
  intros H L X H0 H1 S E row2 col2 u2 y0 y1 es2 v Y Y0 Y1 S2. eapply sgr_stuck.
  - rewrite E. unfold av1_weights. reflexivity.
  - exact Y.
  - exact Y0.
  - exact Y1.
  - right. split; [unfold has_weight; cbn [Z.eqb]; lia|].
    destruct (sgr_unit_refs _ _ _ _ _ _ _ _ H L) as (Rs & _). unfold has_weight, xqd_min, xqd_max. cbn [Z.eqb].
    destruct (u_set u <=? 13) eqn:A; [lia|]. rewrite andb_false_r. cbn [negb]. lia.
Qed.

(** A new frame has no superblocks. *)
Lemma fresh_frame x r c bsize s es : v_intrabc x = false -> encode_lr x initial_superblocks r c bsize s es = Panic.
Proof.
  intros I. unfold encode_lr. rewrite I.
  assert (P : forall (A : Type) (l : list A) i, (exists a, idx l i = Ok a) \/ idx l i = Panic).
  { intros A l i. unfold idx. destruct (i <? 0); [auto|]. destruct (nth_error l (Z.to_nat i)); eauto. }
  destruct (P _ num_4x4_blocks_wide bsize) as [[w ->]| ->]; cbn [bind]; [|reflexivity].
  destruct (P _ num_4x4_blocks_high bsize) as [[h ->]| ->]; cbn [bind]; [|reflexivity].
  destruct (P _ num_4x4_blocks_wide (if v_use128 x then BLOCK_128X128 else BLOCK_64X64)) as [[k ->]| ->]; cbn [bind]; [|reflexivity].
  destruct (idx initial_superblocks (r / k)) as [row| |] eqn:E; cbn [bind]; [|reflexivity|].
  - apply (idx_bound _ _ _ _ []) in E as [B E]. change (len initial_superblocks) with 1 in B.
    replace (r / k) with 0 in E by lia. cbn in E. subst row. unfold idx. destruct (c / k <? 0); [reflexivity|].
    destruct (Z.to_nat (c / k)); reflexivity.
  - destruct (P _ initial_superblocks (r / k)) as [[? E2]|E2]; congruence.
Qed.

(** The calls made for a unit with the self-guided filter. *)
Lemma literal_bits n : forall v, 0 <= v < 2 ^ Z.of_nat n -> exists bits, literal n v = map Half bits /\ length bits = n /\ bits_val bits = v.
Proof.
  assert (G : forall n v, exists bits, literal n v = map Half bits /\ length bits = n /\ bits_val bits = v mod 2 ^ Z.of_nat n).
  { induction n0 as [|m IH]; intros v; [exists []; repeat split; cbn; rewrite Z.mod_1_r; reflexivity|].
    destruct (IH v) as (bits & E & L & V). exists ((v / 2 ^ Z.of_nat m) mod 2 :: bits). split; [|split; [cbn; congruence|]].
    - cbn [literal map]. rewrite E. f_equal. f_equal. rewrite shiftr_div by lia. rewrite land_1. unfold as_u8. apply Z.mod_small. pose proof (Z.mod_pos_bound (v / 2 ^ Z.of_nat m) 2). lia.
    - rewrite bits_val_cons, L, V. rewrite Nat2Z.inj_succ, Z.pow_succ_r by lia.
      rewrite (Z.mul_comm 2), Z.rem_mul_r by (try apply Z.pow_nonzero; lia). ring. }
  intros v Hv. destruct (G n v) as (bits & E & L & V). exists bits. rewrite Z.mod_small in V by lia. auto.
Qed.

Lemma sgr_unit_events typ plane row col u s es s' es' r0 r1 x0 x1 :
  lr_unit typ plane row col u s es = Ok (s', es') ->
  (typ = RESTORE_SGRPROJ /\ u_sgrproj u = true) \/ (typ = RESTORE_SWITCHABLE /\ u_type u = RESTORE_SGRPROJ) ->
  nth (Z.to_nat plane) (t_ref_xqd s) [] = [r0; r1] -> u_xqd u = [x0; x1] ->
  exists bits d0 d1,
    es' = es ++ (if typ =? RESTORE_SWITCHABLE then [] else [Raw 1]) ++ map Half bits ++ d0 ++ d1 /\
    (forall k, rd 4 (bits ++ k) = Some (u_set u, k)) /\
    (if has_weight (u_set u) 0 then encode_signed_subexp_bool [] x0 (-96) 32 4 r0 = Ok d0 else d0 = []) /\
    (if has_weight (u_set u) 1 then encode_signed_subexp_bool [] x1 (-32) 96 4 r1 = Ok d1 else d1 = []).
Proof.
  intros H T R X.
  assert (H' : exists s0, t_ref_xqd s0 = t_ref_xqd s /\ sgr_unit plane row col u s0 (es ++ (if typ =? RESTORE_SWITCHABLE then [] else [Raw 1])) = Ok (s', es')).
  { unfold lr_unit in H. destruct T as [[-> T]|[-> T]]; rewrite T in H; cbn in H; apply bind_inv in H as (types & _ & H);
      eexists; (split; [|exact H || (cbn; rewrite app_nil_r; exact H)]); reflexivity. }
  destruct H' as (s0 & Es & H'). clear H T. rewrite <- Es in R. clear Es s. rename s0 into s.
  set (es0 := es ++ (if typ =? RESTORE_SWITCHABLE then [] else [Raw 1])) in *.
  unfold sgr_unit in H'. apply bind_inv in H' as (sets & _ & H).
  assert (Rs : 0 <= u_set u < 16) by (cbn [sgr_weights] in H; apply bind_inv in H as (p & Ep & _); exact (set_range _ _ Ep)).
  apply sgr_step in H; [|auto]. destruct H as (refs & xqd & es1 & Er & _ & W0 & N0 & H).
  apply sgr_step in H; [|auto]. destruct H as (refs1 & xqd1 & es2 & Er1 & _ & W1 & N1 & H). cbn [sgr_weights] in H. injection H as _ <-.
  cbn [t_ref_xqd set_xqd set_set] in *. apply (idx_bound _ _ _ _ []) in Er as [Bp Er]. rewrite R in Er. subst refs.
  apply (idx_bound _ _ _ _ []) in Er1 as [_ Er1]. unfold len in Bp. rewrite set_nth_same in Er1 by lia. subst refs1.
  rewrite X in *. cbn [Z.to_nat set_nth nth] in *. change (Z.to_nat 1) with 1%nat in *. cbn [nth] in *.
  change (Pos.to_nat 4) with 4%nat in *. change (Z.to_nat SGRPROJ_PARAMS_BITS) with 4%nat in *.
  destruct (literal_bits 4 (u_set u) ltac:(change (2 ^ Z.of_nat 4) with 16; lia)) as (bits & Eb & Lb & Vb). rewrite Eb in *.
  change (xqd_min 0) with (-96) in W0. change (xqd_max 0 + 1) with 32 in W0. change SGRPROJ_PRJ_SUBEXP_K with 4 in W0.
  change (xqd_min 1) with (-32) in W1. change (xqd_max 1 + 1) with 96 in W1. change SGRPROJ_PRJ_SUBEXP_K with 4 in W1.
  assert (A0 : exists d0, es1 = (es0 ++ map Half bits) ++ d0 /\ (if has_weight (u_set u) 0 then encode_signed_subexp_bool [] x0 (-96) 32 4 r0 = Ok d0 else d0 = [])).
  { destruct (has_weight (u_set u) 0).
    - destruct (W0 eq_refl) as [_ E]. rewrite weight_frame in E. apply bind_inv in E as (d & E & F). injection F as <-. eauto.
    - exists []. rewrite app_nil_r. auto. }
  destruct A0 as (d0 & -> & D0).
  assert (A1 : exists d1, es2 = ((es0 ++ map Half bits) ++ d0) ++ d1 /\ (if has_weight (u_set u) 1 then encode_signed_subexp_bool [] x1 (-32) 96 4 r1 = Ok d1 else d1 = [])).
  { destruct (has_weight (u_set u) 1).
    - destruct (W1 eq_refl) as [_ E]. rewrite weight_frame in E. apply bind_inv in E as (d & E & F). injection F as <-. eauto.
    - exists []. rewrite app_nil_r. auto. }
  destruct A1 as (d1 & -> & D1). exists bits, d0, d1. split; [unfold es0; rewrite <- !app_assoc; reflexivity|]. split; [|split; assumption].
  intros k. unfold rd. rewrite app_length, Lb. cbn [Nat.leb Nat.add]. rewrite <- Lb, firstn_app, skipn_app, firstn_all, skipn_all, Nat.sub_diag. cbn [firstn skipn app].
  rewrite app_nil_r, Vb. reflexivity.
Qed.
