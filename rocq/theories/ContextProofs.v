From Coq Require Import String ZArith List Lia Bool.
From Coq Require Import ZifyBool ZifyNat.
From Verif Require Import Base BaseProofs UtilModel RangeCoderModel SessionModel BlockTables CdfTables CdfTableSpec GeomModel
  ElementModel ContextModel ContextSpec ContextRunProofs.
Import ListNotations.
Open Scope string_scope.
Open Scope list_scope.
Open Scope Z_scope.
Ltac Zify.zify_post_hook ::= Z.div_mod_to_equations.

(** ** Tools *)

Lemma shape_in : forall name dims N,
  find (fun sh : string * list nat * nat => String.eqb (fst (fst sh)) name) cdf_shapes = Some (name, dims, N) ->
  In (name, dims, N) cdf_shapes.
Proof. intros name dims N H. apply find_some in H. apply H. Qed.

Lemma sound_intro : forall w name path s dims N, w = Ok (name, path, s) ->
  find (fun sh : string * list nat * nat => String.eqb (fst (fst sh)) name) cdf_shapes = Some (name, dims, N) ->
  Forall2 (fun i d => 0 <= i < Z.of_nat d) path dims -> 0 <= s < Z.of_nat N -> sound w.
Proof.
  intros w name path s dims N E F P S. exists (name, path, s). split; [exact E|]. exists dims, N.
  split; [apply shape_in; exact F|]. split; assumption.
Qed.
Ltac path := repeat (apply Forall2_cons; [lia|]); apply Forall2_nil.
Ltac sound := eapply sound_intro; [reflexivity|vm_compute; reflexivity|path|lia].

Lemma sound_elim : forall w name path s dims N, sound w -> w = Ok (name, path, s) ->
  find (fun sh : string * list nat * nat => String.eqb (fst (fst sh)) name) cdf_shapes = Some (name, dims, N) ->
  Forall2 (fun i d => 0 <= i < Z.of_nat d) path dims /\ 0 <= s < Z.of_nat N.
Proof.
  intros w name path s dims N (e & E & R) W F. rewrite W in E. injection E as <-. destruct R as (dims' & N' & I & P & S).
  apply shape_in in F.
  assert (X : (dims', N') = (dims, N)).
  { pose proof shapes_nodup as D. clear - I F D. induction cdf_shapes as [|sh l IH]; [destruct I|]. cbn [map] in D. inversion D; subst.
    assert (G : forall d k, In (name, d, k) l -> In name (map (fun sh : string * list nat * nat => fst (fst sh)) l)).
    { intros d k Y. change name with (fst (fst (name, d, k))). apply in_map with (f := fun sh : string * list nat * nat => fst (fst sh)). exact Y. }
    destruct I as [->|I], F as [Y|F].
    - congruence.
    - exfalso. match goal with H : ~ In _ _ |- _ => apply H end. eapply G; exact F.
    - exfalso. match goal with H : ~ In _ _ |- _ => apply H end. subst sh. eapply G; exact I.
    - apply IH; assumption. }
  injection X as -> ->. split; assumption.
Qed.

(** Numbers below a bound, one by one. *)
Lemma below : forall n i, 0 <= i < Z.of_nat n -> In i (map Z.of_nat (seq 0 n)).
Proof. intros n i H. apply in_map_iff. exists (Z.to_nat i). split; [lia|]. apply in_seq. lia. Qed.
Lemma forall_below : forall n (P : Z -> bool), forallb P (map Z.of_nat (seq 0 n)) = true -> forall i, 0 <= i < Z.of_nat n -> P i = true.
Proof. intros n P H i Hi. rewrite forallb_forall in H. apply H. apply below. exact Hi. Qed.

Definition ok_in (r : res Z) (lo hi : Z) : bool := match r with Ok v => (lo <=? v) && (v <? hi) | _ => false end.
Lemma ok_in_ok : forall r lo hi, ok_in r lo hi = true -> exists v, r = Ok v /\ lo <= v < hi.
Proof. intros [v| |] lo hi H; cbn in H; try discriminate. exists v. split; [reflexivity|lia]. Qed.
Ltac table n H i Hi lo hi := destruct (ok_in_ok _ _ _ (forall_below n (fun i => ok_in H lo hi) eq_refl i Hi)) as (? & ? & ?).

Lemma size_group_ok : forall b, 0 <= b < 22 -> exists g, idx size_group b = Ok g /\ 0 <= g < 4.
Proof. intros b H. apply ok_in_ok. apply (forall_below 22 (fun b => ok_in (idx size_group b) 0 4)); [reflexivity|exact H]. Qed.
Lemma block_width_ok : forall b, 0 <= b < 22 -> idx block_width b = Ok (Block_Width b) /\ 4 <= Block_Width b <= 128.
Proof.
  intros b H.
  assert (X : (match idx block_width b with Ok v => (v =? Block_Width b) && (4 <=? v) && (v <=? 128) | _ => false end) = true).
  { apply (forall_below 22 (fun b => match idx block_width b with Ok v => (v =? Block_Width b) && (4 <=? v) && (v <=? 128) | _ => false end)); [reflexivity|exact H]. }
  destruct (idx block_width b); try discriminate. split; [f_equal|]; lia.
Qed.
Lemma block_height_ok : forall b, 0 <= b < 22 -> idx block_height b = Ok (Block_Height b) /\ 4 <= Block_Height b <= 128.
Proof.
  intros b H.
  assert (X : (match idx block_height b with Ok v => (v =? Block_Height b) && (4 <=? v) && (v <=? 128) | _ => false end) = true).
  { apply (forall_below 22 (fun b => match idx block_height b with Ok v => (v =? Block_Height b) && (4 <=? v) && (v <=? 128) | _ => false end)); [reflexivity|exact H]. }
  destruct (idx block_height b); try discriminate. split; [f_equal|]; lia.
Qed.
Lemma tx_width_ok : forall b, 0 <= b < 19 -> idx tx_width b = Ok (Tx_Width b) /\ 4 <= Tx_Width b <= 64.
Proof.
  intros b H.
  assert (X : (match idx tx_width b with Ok v => (v =? Tx_Width b) && (4 <=? v) && (v <=? 64) | _ => false end) = true).
  { apply (forall_below 19 (fun b => match idx tx_width b with Ok v => (v =? Tx_Width b) && (4 <=? v) && (v <=? 64) | _ => false end)); [reflexivity|exact H]. }
  destruct (idx tx_width b); try discriminate. split; [f_equal|]; lia.
Qed.
Lemma tx_height_ok : forall b, 0 <= b < 19 -> idx tx_height b = Ok (Tx_Height b) /\ 4 <= Tx_Height b <= 64.
Proof.
  intros b H.
  assert (X : (match idx tx_height b with Ok v => (v =? Tx_Height b) && (4 <=? v) && (v <=? 64) | _ => false end) = true).
  { apply (forall_below 19 (fun b => match idx tx_height b with Ok v => (v =? Tx_Height b) && (4 <=? v) && (v <=? 64) | _ => false end)); [reflexivity|exact H]. }
  destruct (idx tx_height b); try discriminate. split; [f_equal|]; lia.
Qed.

(** ** Looking up neighbours *)

Lemma get_cell : forall f r c i j, frame_ok f r c -> 0 <= i <= r -> 0 <= j <= c -> get_mi f i j = Ok (cell f i j).
Proof.
  intros f r c i j (R & C & HR & HC & Hr & Hc & _) Hi Hj. unfold get_mi, cell, idx.
  destruct (Z.ltb_spec i 0); [lia|].
  destruct (nth_error (f_mis f) (Z.to_nat i)) as [row|] eqn:E.
  2:{ apply nth_error_None in E. unfold len in HR. lia. }
  cbn [bind]. destruct (Z.ltb_spec j 0); [lia|]. pose proof (HC row (nth_error_In _ _ E)) as L.
  destruct (nth_error row (Z.to_nat j)) eqn:E2; [reflexivity|]. apply nth_error_None in E2. unfold len in L. lia.
Qed.
Lemma get_above : forall f r c, frame_ok f r c -> get_above_mi f r c = Ok (above_of f 0 r c).
Proof.
  intros f r c H. unfold get_above_mi, above_of. destruct H as (R & C & HR & HC & Hr & Hc & HM) eqn:EH.
  destruct (Z.eqb_spec r 0); [subst; reflexivity|]. destruct (Z.ltb_spec 0 r); [|lia].
  apply (get_cell f r c); [exact H|lia|lia].
Qed.
Lemma get_left : forall f r c, frame_ok f r c -> get_left_mi f r c = Ok (left_of f 0 r c).
Proof.
  intros f r c H. unfold get_left_mi, left_of. destruct H as (R & C & HR & HC & Hr & Hc & HM) eqn:EH.
  destruct (Z.eqb_spec c 0); [subst; reflexivity|]. destruct (Z.ltb_spec 0 c); [|lia].
  apply (get_cell f r c); [exact H|lia|lia].
Qed.
Lemma above_mi_ok : forall f r0 r c m, frame_ok f r c -> above_of f r0 r c = Some m -> mi_ok m.
Proof.
  intros f r0 r c m (R & C & _ & _ & _ & _ & HM) E. unfold above_of in E. destruct (r0 <? r); [|discriminate]. eapply HM; exact E.
Qed.
Lemma left_mi_ok : forall f c0 r c m, frame_ok f r c -> left_of f c0 r c = Some m -> mi_ok m.
Proof.
  intros f c0 r c m (R & C & _ & _ & _ & _ & HM) E. unfold left_of in E. destruct (c0 <? c); [|discriminate]. eapply HM; exact E.
Qed.

(** A position whose neighbours inside the frame are inside its tile. *)
Definition inner (r0 c0 r c : Z) : Prop := (r0 = 0 \/ 0 <= r0 < r) /\ (c0 = 0 \/ 0 <= c0 < c).
Lemma inner_nbrs : forall f r0 c0 r c, inner r0 c0 r c -> frame_ok f r c ->
  above_of f r0 r c = above_of f 0 r c /\ left_of f c0 r c = left_of f 0 r c.
Proof.
  intros f r0 c0 r c [A B] _. unfold above_of, left_of. split.
  - destruct A as [->|A]; [reflexivity|]. destruct (Z.ltb_spec r0 r), (Z.ltb_spec 0 r); try lia; reflexivity.
  - destruct B as [->|B]; [reflexivity|]. destruct (Z.ltb_spec c0 c), (Z.ltb_spec 0 c); try lia; reflexivity.
Qed.

(** Both neighbours of a position. *)
Definition nb_ok (n : option mi) : Prop := match n with Some m => mi_ok m | None => True end.
Lemma nbrs : forall f r0 c0 r c, frame_ok f r c -> inner r0 c0 r c ->
  exists u l, above_of f r0 r c = u /\ left_of f c0 r c = l /\
    get_above_mi f r c = Ok u /\ get_left_mi f r c = Ok l /\ nb_ok u /\ nb_ok l.
Proof.
  intros f r0 c0 r c F I. destruct (inner_nbrs f r0 c0 r c I F) as [A B]. exists (above_of f 0 r c), (left_of f 0 r c).
  split; [exact A|]. split; [exact B|]. split; [apply get_above; exact F|]. split; [apply get_left; exact F|].
  split; [destruct (above_of f 0 r c) eqn:E; [|constructor]|destruct (left_of f 0 r c) eqn:E; [|constructor]].
  - eapply above_mi_ok; eassumption.
  - eapply left_mi_ok; eassumption.
Qed.
Ltac look F I := let u := fresh "u" in let l := fresh "l" in
  destruct (nbrs _ _ _ _ _ F I) as (u & l & -> & -> & Eu & El & Nu & Nl); rewrite ?Eu, ?El; cbn [bind].

(** ** Contexts from neighbours *)

Lemma intra_eq : forall m, mi_ok m -> m_intra m = Intra (Some m).
Proof. intros m H. exact (ok_intra m H). Qed.
Lemma single_eq : forall m, mi_ok m -> m_single m = Single (Some m).
Proof. intros m H. exact (ok_single m H). Qed.

Lemma is_inter_ok : forall f r0 c0 r c s, frame_ok f r c -> inner r0 c0 r c ->
  encode_is_inter s f r c = Ok ("is_inter", [spec_is_inter (above_of f r0 r c) (left_of f c0 r c)], b2z s).
Proof.
  intros f r0 c0 r c s F I. unfold encode_is_inter. look F I. unfold spec_is_inter.
  destruct u as [mu|], l as [ml|]; cbn [Avail andb nb_ok] in *; rewrite ?(intra_eq mu Nu), ?(intra_eq ml Nl); reflexivity.
Qed.

Lemma backward_eq : forall rf, check_backward rf = backward rf.
Proof. intros rf. unfold check_backward, backward, BWDREF_FRAME, ALTREF_FRAME. cbn [existsb]. lia. Qed.

Lemma comp_mode_ok : forall f r0 c0 r c s, frame_ok f r c -> inner r0 c0 r c ->
  encode_comp_mode s f r c = Ok ("comp_mode", [spec_comp_mode (above_of f r0 r c) (left_of f c0 r c)], s).
Proof.
  intros f r0 c0 r c s F I. unfold encode_comp_mode. look F I. do 3 f_equal. f_equal. unfold comp_mode_ctx, spec_comp_mode.
  destruct u as [mu|], l as [ml|]; cbn [Avail nb_ok Ref0] in *; rewrite ?(intra_eq mu Nu), ?(intra_eq ml Nl), ?(single_eq mu Nu), ?(single_eq ml Nl), ?backward_eq;
    repeat match goal with |- context [Single ?x] => destruct (Single x) end; cbn [andb]; try reflexivity;
    repeat match goal with |- context [backward ?x] => destruct (backward x) end; cbn [xorb orb Bool.eqb]; try reflexivity;
    repeat match goal with |- context [Intra ?x] => destruct (Intra x) end; reflexivity.
Qed.

Lemma count_refs_ok : forall f r c u l rf, get_above_mi f r c = Ok u -> get_left_mi f r c = Ok l ->
  count_refs rf f r c = Ok (refs_of u rf + refs_of l rf).
Proof. intros f r c u l rf Eu El. unfold count_refs. rewrite Eu, El. reflexivity. Qed.

Lemma len_filter_app : forall (p : Z -> bool) a b, len (filter p (a ++ b)) = len (filter p a) + len (filter p b).
Proof. intros p a b. unfold len. rewrite filter_app, app_length. lia. Qed.

Lemma uses_cons : forall rf g u l, ~ In rf g -> uses_of (rf :: g) u l = refs_of u rf + refs_of l rf + uses_of g u l.
Proof.
  intros rf g u l H. unfold uses_of, nb_refs. rewrite !len_filter_app.
  assert (X : forall n : option mi, len (filter (fun x => existsb (Z.eqb x) (rf :: g)) (if Avail n then [Ref0 n; Ref1 n] else [])) =
     refs_of n rf + len (filter (fun x => existsb (Z.eqb x) g) (if Avail n then [Ref0 n; Ref1 n] else []))).
  { intros [m|]; cbn [Avail refs_of Ref0 Ref1]; [|reflexivity].
    assert (Y : forall x, x = rf -> existsb (Z.eqb x) g = false).
    { intros x ->. apply not_true_is_false. intros E. apply existsb_exists in E. destruct E as (y & I & E). apply H.
      apply Z.eqb_eq in E. subst. exact I. }
    cbn [filter existsb]. unfold len.
    destruct (Z.eqb_spec (m_ref0 m) rf) as [A|A], (Z.eqb_spec (m_ref1 m) rf) as [B|B];
      try rewrite (Y _ A); try rewrite (Y _ B); cbn [orb b2z];
      repeat match goal with |- context [existsb ?f ?x] => destruct (existsb f x) end; cbn [List.length]; lia. }
  rewrite !X. lia.
Qed.
Lemma uses_nil : forall u l, uses_of [] u l = 0.
Proof. intros u l. unfold uses_of. induction (nb_refs u l) as [|x q IH]; [reflexivity|exact IH]. Qed.

Lemma count_all_ok : forall g f r c u l, get_above_mi f r c = Ok u -> get_left_mi f r c = Ok l -> NoDup g ->
  count_all g f r c = Ok (uses_of g u l).
Proof.
  induction g as [|rf g IH]; intros f r c u l Eu El D; [cbn [count_all]; rewrite uses_nil; reflexivity|].
  inversion D; subst. cbn [count_all]. rewrite (count_refs_ok _ _ _ _ _ _ Eu El). cbn [bind]. rewrite (IH _ _ _ _ _ Eu El) by assumption.
  cbn [bind]. rewrite uses_cons by assumption. reflexivity.
Qed.

Lemma count_ctx_ok : forall g0 g1 name i f r0 c0 r c s, frame_ok f r c -> inner r0 c0 r c -> NoDup g0 -> NoDup g1 ->
  count_ctx g0 g1 name i s f r c = Ok (name, [spec_counts g0 g1 (above_of f r0 r c) (left_of f c0 r c); i], s).
Proof.
  intros g0 g1 name i f r0 c0 r c s F I D0 D1. unfold count_ctx. look F I.
  rewrite (count_all_ok g0 _ _ _ _ _ Eu El D0), (count_all_ok g1 _ _ _ _ _ Eu El D1). cbn [bind]. do 4 f_equal.
  unfold ref_count_ctx, spec_counts. destruct (Z.compare_spec (uses_of g0 u l) (uses_of g1 u l));
    destruct (Z.ltb_spec (uses_of g0 u l) (uses_of g1 u l)), (Z.eqb_spec (uses_of g0 u l) (uses_of g1 u l)); try lia; reflexivity.
Qed.

Lemma samedir_eq : forall a b, is_samedir_ref_pair a b = same_dir a b.
Proof.
  intros a b. unfold is_samedir_ref_pair, same_dir, BWDREF_FRAME.
  destruct (Z.leb_spec a 0), (Z.leb_spec b 0), (Z.ltb_spec 0 a), (Z.ltb_spec 0 b); try lia; reflexivity.
Qed.

(** Both neighbours compound, the one above with both references in one direction. *)
Definition both_uni_above (u l : option mi) : Prop :=
  Avail u = true /\ Avail l = true /\ Intra u = false /\ Intra l = false /\ Single u = false /\ Single l = false /\
  same_dir (Ref0 u) (Ref1 u) = true.

Lemma comp_ref_type_ctx_ok : forall u l, nb_ok u -> nb_ok l ->
  (~ both_uni_above u l -> comp_ref_type_ctx u l = spec_comp_ref_type u l) /\
  (both_uni_above u l -> comp_ref_type_ctx u l <> spec_comp_ref_type u l).
Proof.
  intros u l Nu Nl. unfold comp_ref_type_ctx, spec_comp_ref_type, both_uni_above. cbv zeta.
  destruct u as [mu|], l as [ml|]; cbn [Avail nb_ok Ref0 Ref1] in *; rewrite ?samedir_eq, ?(intra_eq mu Nu), ?(intra_eq ml Nl), ?(single_eq mu Nu), ?(single_eq ml Nl);
   unfold BWDREF_FRAME;
   repeat match goal with |- context [Intra ?x] => destruct (Intra x) end; cbn [negb andb orb b2z];
   repeat match goal with |- context [Single ?x] => destruct (Single x) end; cbn [negb andb orb b2z];
   repeat match goal with |- context [same_dir ?x ?y] => destruct (same_dir x y) end; cbn [negb andb orb b2z];
   repeat match goal with |- context [?x =? 5] => destruct (x =? 5) end; cbn [Bool.eqb b2z negb andb orb];
   (split; [intros X; first [lia | exfalso; apply X; repeat split; reflexivity]|intros (X1 & X2 & X3 & X4 & X5 & X6 & X7); first [discriminate|lia]]).
Qed.

Lemma comp_ref_type_ok : forall f r0 c0 r c s, frame_ok f r c -> inner r0 c0 r c ->
  ~ both_uni_above (above_of f r0 r c) (left_of f c0 r c) ->
  encode_comp_ref_type s f r c = Ok ("comp_ref_type", [spec_comp_ref_type (above_of f r0 r c) (left_of f c0 r c)], s).
Proof.
  intros f r0 c0 r c s F I. unfold encode_comp_ref_type. look F I. intros H.
  rewrite (proj1 (comp_ref_type_ctx_ok u l Nu Nl) H). reflexivity.
Qed.
Lemma comp_ref_type_wrong : forall f r0 c0 r c s, frame_ok f r c -> inner r0 c0 r c ->
  both_uni_above (above_of f r0 r c) (left_of f c0 r c) ->
  encode_comp_ref_type s f r c <> Ok ("comp_ref_type", [spec_comp_ref_type (above_of f r0 r c) (left_of f c0 r c)], s).
Proof.
  intros f r0 c0 r c s F I. unfold encode_comp_ref_type. look F I. intros H E.
  apply (proj2 (comp_ref_type_ctx_ok u l Nu Nl) H). congruence.
Qed.

Lemma nb_sum_ok : forall g f r0 c0 r c, frame_ok f r c -> inner r0 c0 r c ->
  nb_sum g f r c = Ok (at_nb g 0 (above_of f r0 r c) + at_nb g 0 (left_of f c0 r c)).
Proof. intros g f r0 c0 r c F I. unfold nb_sum. look F I. reflexivity. Qed.

Lemma seg_id_predicted_ok : forall f r0 c0 r c s, frame_ok f r c -> inner r0 c0 r c ->
  encode_seg_id_predicted s f r c =
  Ok ("segment_id_predicted", [at_nb m_seg_id_predicted 0 (above_of f r0 r c) + at_nb m_seg_id_predicted 0 (left_of f c0 r c)], s).
Proof. intros f r0 c0 r c s F I. unfold encode_seg_id_predicted. rewrite (nb_sum_ok _ _ r0 c0) by assumption. reflexivity. Qed.
Lemma skip_mode_ok : forall f r0 c0 r c s, frame_ok f r c -> inner r0 c0 r c ->
  encode_skip_mode s f r c =
  Ok ("skip_mode", [at_nb m_skip_mode 0 (above_of f r0 r c) + at_nb m_skip_mode 0 (left_of f c0 r c)], s).
Proof. intros f r0 c0 r c s F I. unfold encode_skip_mode. rewrite (nb_sum_ok _ _ r0 c0) by assumption. reflexivity. Qed.
Lemma skip_ok : forall f r0 c0 r c s, frame_ok f r c -> inner r0 c0 r c ->
  encode_skip s f r c =
  Ok ("skip", [b2z (at_nb m_skip false (above_of f r0 r c)) + b2z (at_nb m_skip false (left_of f c0 r c))], s).
Proof.
  intros f r0 c0 r c s F I. unfold encode_skip. rewrite (nb_sum_ok _ _ r0 c0) by assumption. cbn [bind].
  destruct (above_of f r0 r c), (left_of f c0 r c); reflexivity.
Qed.

Lemma comp_group_idx_ok : forall f r0 c0 r c s, frame_ok f r c -> inner r0 c0 r c ->
  encode_comp_group_idx s f r c =
  Ok ("comp_group_idx", [spec_comp_group_idx (above_of f r0 r c) (left_of f c0 r c)], s).
Proof.
  intros f r0 c0 r c s F I. unfold encode_comp_group_idx. rewrite (nb_sum_ok _ _ r0 c0) by assumption. cbn [bind]. look F I.
  do 4 f_equal. unfold spec_comp_group_idx. f_equal. f_equal.
  - destruct u as [m|]; [|reflexivity]. cbn [at_nb nb_ok] in *. rewrite (single_eq m Nu). reflexivity.
  - destruct l as [m|]; [|reflexivity]. cbn [at_nb nb_ok] in *. rewrite (single_eq m Nl). reflexivity.
Qed.

Lemma abs_i64_ok : forall v, - 2 ^ 63 < v < 2 ^ 63 -> abs_i64 v = Ok (Z.abs v).
Proof.
  intros v H. unfold abs_i64. destruct (Z.leb_spec 0 v); [rewrite Z.abs_eq by lia; reflexivity|].
  rewrite Z.abs_neq by lia. unfold chk_i64. rewrite chk_ok; [reflexivity|lia].
Qed.

Lemma compound_idx_ok : forall f r0 c0 r c s hints cur ref0 ref1 h0 h1 fwd bwd (enable : bool) bits,
  frame_ok f r c -> inner r0 c0 r c ->
  idx hints ref0 = Ok h0 -> idx hints ref1 = Ok h1 ->
  get_relative_dist h0 cur enable bits = Ok fwd -> get_relative_dist h1 cur enable bits = Ok bwd ->
  - 2 ^ 63 < fwd < 2 ^ 63 -> - 2 ^ 63 < bwd < 2 ^ 63 ->
  encode_compound_idx s hints cur ref0 ref1 f r c enable bits =
  Ok ("compound_idx", [spec_compound_idx fwd bwd (above_of f r0 r c) (left_of f c0 r c)], s).
Proof.
  intros f r0 c0 r c s hints cur ref0 ref1 h0 h1 fwd bwd enable bits F I E0 E1 D0 D1 B0 B1. unfold encode_compound_idx.
  rewrite E0. cbn [bind]. rewrite D0. cbn [bind]. rewrite (abs_i64_ok _ B0). cbn [bind].
  rewrite E1. cbn [bind]. rewrite D1. cbn [bind]. rewrite (abs_i64_ok _ B1). cbn [bind].
  rewrite (nb_sum_ok _ _ r0 c0) by assumption. cbn [bind]. look F I.
  do 4 f_equal. unfold spec_compound_idx. rewrite <- Z.add_assoc. f_equal. f_equal.
  - destruct u as [m|]; [|reflexivity]. cbn [at_nb nb_ok] in *. rewrite (single_eq m Nu). reflexivity.
  - destruct l as [m|]; [|reflexivity]. cbn [at_nb nb_ok] in *. rewrite (single_eq m Nl). reflexivity.
Qed.

Lemma segment_id_ok : forall s u l ul, (0 <= ul -> 0 <= u /\ 0 <= l) ->
  encode_segment_id s u l ul = Ok ("segment_id", [spec_segment_id ul u l], s).
Proof.
  intros s u l ul H. unfold encode_segment_id, spec_segment_id. do 4 f_equal.
  destruct (Z.ltb_spec ul 0); [reflexivity|]. destruct H as [A B]; [lia|].
  destruct (Z.ltb_spec u 0), (Z.ltb_spec l 0); try lia. cbn [orb].
  destruct (Z.eqb_spec ul u), (Z.eqb_spec ul l), (Z.eqb_spec u l); try lia; reflexivity.
Qed.

(** Palette. *)
Lemma has_palette_y_ok : forall f r0 c0 r c s b, frame_ok f r c -> inner r0 c0 r c ->
  encode_has_palette_y s f r c b =
  Ok ("palette_y_mode", [b; b2z (0 <? at_nb (fun m => nth 0 (m_palette m) 0) 0 (above_of f r0 r c)) +
                            b2z (0 <? at_nb (fun m => nth 0 (m_palette m) 0) 0 (left_of f c0 r c))], s).
Proof.
  intros f r0 c0 r c s b F I. unfold encode_has_palette_y. look F I.
  assert (X : forall n, nb_ok n -> palette_on n = Ok (b2z (0 <? at_nb (fun m => nth 0 (m_palette m) 0) 0 n))).
  { intros [m|] H; [|reflexivity]. destruct (ok_palette m H) as (x & y & z & E & _). unfold palette_on, at_nb. rewrite E. reflexivity. }
  rewrite (X u Nu). cbn [bind]. rewrite ?El. cbn [bind]. rewrite (X l Nl). reflexivity.
Qed.

(** Transform depth. *)
Lemma depth_above_ok : forall n, nb_ok n ->
  depth_above n = Ok (at_nb (fun m => if m_is_inter m then Block_Width (m_size m) else Tx_Width (m_tx_size m)) 0 n).
Proof.
  intros [m|] H; [|reflexivity]. cbn [depth_above at_nb]. cbn [nb_ok] in H. destruct (m_is_inter m).
  - apply block_width_ok. exact (ok_size m H).
  - apply tx_width_ok. exact (ok_tx_size m H).
Qed.
Lemma depth_left_ok : forall n, nb_ok n ->
  depth_left n = Ok (at_nb (fun m => if m_is_inter m then Block_Width (m_size m) else Tx_Height (m_tx_size m)) 0 n).
Proof.
  intros [m|] H; [|reflexivity]. cbn [depth_left at_nb]. cbn [nb_ok] in H. destruct (m_is_inter m).
  - apply block_width_ok. exact (ok_size m H).
  - apply tx_height_ok. exact (ok_tx_size m H).
Qed.
Definition depth_table (d : Z) : string :=
  if d =? 4 then "tx_64x64" else if d =? 3 then "tx_32x32" else if d =? 2 then "tx_16x16" else "tx_8x8".
Lemma tx_depth_val : forall f r0 c0 r c s t d, frame_ok f r c -> inner r0 c0 r c -> 0 <= t < 19 ->
  encode_tx_depth s t d f r c =
  Ok (depth_table d,
      [b2z (Tx_Width t <=? at_nb (fun m => if m_is_inter m then Block_Width (m_size m) else Tx_Width (m_tx_size m)) 0 (above_of f r0 r c)) +
       b2z (Tx_Height t <=? at_nb (fun m => if m_is_inter m then Block_Width (m_size m) else Tx_Height (m_tx_size m)) 0 (left_of f c0 r c))], s).
Proof.
  intros f r0 c0 r c s t d F I T. unfold encode_tx_depth. rewrite (proj1 (tx_width_ok t T)), (proj1 (tx_height_ok t T)). cbn [bind].
  look F I. rewrite (depth_above_ok u Nu). cbn [bind]. rewrite ?El. cbn [bind]. rewrite (depth_left_ok l Nl). reflexivity.
Qed.
(** The neighbour to the left is inter coded, and its width and its height compare
    differently to the transform height. *)
Definition left_height_matters (t : Z) (l : option mi) : Prop :=
  match l with
  | Some m => m_is_inter m = true /\ (Tx_Height t <=? Block_Width (m_size m)) <> (Tx_Height t <=? Block_Height (m_size m))
  | None => False
  end.
Lemma tx_depth_iff : forall f r0 c0 r c s t d, frame_ok f r c -> inner r0 c0 r c -> 0 <= t < 19 ->
  (encode_tx_depth s t d f r c =
   Ok (depth_table d, [spec_tx_depth t (above_of f r0 r c) (left_of f c0 r c)], s)) <->
  ~ left_height_matters t (left_of f c0 r c).
Proof.
  intros f r0 c0 r c s t d F I T. rewrite (tx_depth_val f r0 c0) by assumption. unfold spec_tx_depth, left_height_matters.
  set (a := b2z _). destruct (left_of f c0 r c) as [m|]; cbn [at_nb]; [|split; [auto|reflexivity]].
  destruct (m_is_inter m).
  - split.
    + intros E [_ X]. apply X. assert (Y : b2z (Tx_Height t <=? Block_Width (m_size m)) = b2z (Tx_Height t <=? Block_Height (m_size m))) by (injection E; lia).
      destruct (Tx_Height t <=? Block_Width (m_size m)), (Tx_Height t <=? Block_Height (m_size m)); try reflexivity; discriminate.
    + intros H. do 4 f_equal. f_equal.
      destruct (Tx_Height t <=? Block_Width (m_size m)), (Tx_Height t <=? Block_Height (m_size m)); try reflexivity; exfalso; apply H; (split; [reflexivity|discriminate]).
  - split; [intros _ [X _]; discriminate|reflexivity].
Qed.

(** Transform split: a transform block at the edge of its block. *)
Lemma split_size_val : forall n, nb_ok n -> exists v, split_size n = Ok v /\ 4 <= v /\ (n = None -> v = 64).
Proof.
  intros [m|] H; [|exists 64; split; [reflexivity|split; [lia|reflexivity]]]. cbn [split_size]. cbn [nb_ok] in H.
  destruct (m_skip m && m_is_inter m).
  - destruct (block_width_ok (m_size m) (ok_size m H)) as [E B]. eexists. split; [exact E|]. split; [lia|discriminate].
  - destruct (tx_width_ok (m_tx_size m) (ok_tx_size m H)) as [E B]. eexists. split; [exact E|]. split; [lia|discriminate].
Qed.
Definition square_tx (b : Z) : Z := Z.log2 (Z.min 64 (Z.max (Block_Width b) (Block_Height b))) - 2.
Lemma square_tx_ok : forall b, 0 <= b < 22 ->
  find_tx_size (Z.min 64 (Z.max (Block_Width b) (Block_Height b))) (Z.min 64 (Z.max (Block_Width b) (Block_Height b))) = Ok (square_tx b) /\
  0 <= square_tx b <= 4.
Proof.
  intros b H.
  assert (X : (match find_tx_size (Z.min 64 (Z.max (Block_Width b) (Block_Height b))) (Z.min 64 (Z.max (Block_Width b) (Block_Height b))) with
               Ok v => (v =? square_tx b) && (0 <=? v) && (v <=? 4) | _ => false end) = true).
  { apply (forall_below 22 (fun b => match find_tx_size (Z.min 64 (Z.max (Block_Width b) (Block_Height b))) (Z.min 64 (Z.max (Block_Width b) (Block_Height b))) with
               Ok v => (v =? square_tx b) && (0 <=? v) && (v <=? 4) | _ => false end)); [vm_compute; reflexivity|exact H]. }
  destruct (find_tx_size _ _); try discriminate. split; [f_equal|]; lia.
Qed.
Lemma sqr_up_ok : forall t, 0 <= t < 19 ->
  idx tx_size_sqr_up t = Ok (Z.log2 (Z.max (Tx_Width t) (Tx_Height t)) - 2).
Proof.
  intros t H.
  assert (X : (match idx tx_size_sqr_up t with Ok v => v =? Z.log2 (Z.max (Tx_Width t) (Tx_Height t)) - 2 | _ => false end) = true).
  { apply (forall_below 19 (fun t => match idx tx_size_sqr_up t with Ok v => v =? Z.log2 (Z.max (Tx_Width t) (Tx_Height t)) - 2 | _ => false end)); [vm_compute; reflexivity|exact H]. }
  destruct (idx tx_size_sqr_up t); try discriminate. f_equal. lia.
Qed.
Lemma sqr_ok : forall t, 0 <= t < 19 ->
  idx tx_size_sqr t = Ok (Z.log2 (Z.min (Tx_Width t) (Tx_Height t)) - 2) /\ 0 <= Z.log2 (Z.min (Tx_Width t) (Tx_Height t)) - 2 <= 4.
Proof.
  intros t H.
  assert (X : (match idx tx_size_sqr t with Ok v => (v =? Z.log2 (Z.min (Tx_Width t) (Tx_Height t)) - 2) && (0 <=? v) && (v <=? 4) | _ => false end) = true).
  { apply (forall_below 19 (fun t => match idx tx_size_sqr t with Ok v => (v =? Z.log2 (Z.min (Tx_Width t) (Tx_Height t)) - 2) && (0 <=? v) && (v <=? 4) | _ => false end)); [vm_compute; reflexivity|exact H]. }
  destruct (idx tx_size_sqr t); try discriminate. split; [f_equal|]; lia.
Qed.

Lemma txfm_split_val : forall f r0 c0 r c s t b, frame_ok f r c -> inner r0 c0 r c -> 0 <= t < 19 -> 0 <= b < 22 ->
  exists ctx, encode_txfm_split s r c r c f t b = Ok ("txfm_split", [ctx], s) /\
    ctx > spec_txfm_split t b (above_of f r0 r c) (left_of f c0 r c) + 3 /\
    (above_of f r0 r c = None \/ left_of f c0 r c = None -> 68 <= ctx).
Proof.
  intros f r0 c0 r c s t b F I T B. unfold encode_txfm_split. rewrite !Z.eqb_refl. look F I.
  destruct (split_size_val u Nu) as (vu & Su & Bu & Zu). destruct (split_size_val l Nl) as (vl & Sl & Bl & Zl).
  rewrite Su. cbn [bind]. rewrite ?El. cbn [bind]. rewrite Sl. cbn [bind].
  rewrite (proj1 (block_width_ok b B)), (proj1 (block_height_ok b B)). cbn [bind].
  destruct (square_tx_ok b B) as [Q1 Q2]. rewrite Q1. cbn [bind]. rewrite (sqr_up_ok t T). cbn [bind].
  unfold chk_u64. rewrite chk_ok by (unfold TX_SIZES; lia). cbn [bind].
  eexists. split; [reflexivity|]. unfold spec_txfm_split, TX_SIZES, TX_8X8. fold (square_tx b). cbv zeta.
  set (up := Z.log2 (Z.max (Tx_Width t) (Tx_Height t)) - 2).
  set (aw := at_nb _ _ u). set (lh := at_nb _ _ l).
  assert (P : b2z (negb (up =? square_tx b) && (1 <? square_tx b)) * 3 = if (up =? square_tx b) || (square_tx b <=? 1) then 0 else 3).
  { destruct (Z.eqb_spec up (square_tx b)), (Z.ltb_spec 1 (square_tx b)), (Z.leb_spec (square_tx b) 1); try lia; reflexivity. }
  rewrite P. clear P.
  assert (G : forall x : bool, 0 <= b2z x <= 1) by (intros []; cbn; lia).
  pose proof (G (aw <? Tx_Width t)). pose proof (G (lh <? Tx_Height t)).
  destruct ((up =? square_tx b) || (square_tx b <=? 1)); (split; [lia|intros [X|X]; [specialize (Zu X)|specialize (Zl X)]; lia]).
Qed.

(** Interpolation filter. *)
Lemma filter_type_ok : forall n r0 r1 dir, nb_ok n -> 0 <= dir <= 1 ->
  filter_type n r0 r1 dir =
  Ok (if Avail n && ((Ref0 n =? r0) || (Ref1 n =? r1)) then nth (Z.to_nat dir) (at_nb m_filter [] n) 3 else 3) /\
  0 <= (if Avail n && ((Ref0 n =? r0) || (Ref1 n =? r1)) then nth (Z.to_nat dir) (at_nb m_filter [] n) 3 else 3) <= 3.
Proof.
  intros [m|] r0 r1 dir H D; cbn [filter_type Avail andb Ref0 Ref1 at_nb]; [|split; [reflexivity|lia]].
  cbn [nb_ok] in H. destruct (ok_filter m H) as (a & b & E & Ha & Hb). rewrite E.
  destruct ((m_ref0 m =? r0) || (m_ref1 m =? r1)); [|split; [reflexivity|lia]].
  assert (dir = 0 \/ dir = 1) as [->| ->] by lia; (split; [reflexivity|]).
  - change (0 <= a <= 3). exact Ha.
  - change (0 <= b <= 3). exact Hb.
Qed.
Lemma interp_filter_val : forall f r0 c0 r c s dir m, frame_ok f r c -> inner r0 c0 r c -> cell f r c = Some m -> 0 <= dir <= 1 ->
  let kind n := if Avail n && ((Ref0 n =? m_ref0 m) || (Ref1 n =? m_ref1 m)) then nth (Z.to_nat dir) (at_nb m_filter [] n) 3 else 3 in
  let kl := kind (left_of f c0 r c) in let ku := kind (above_of f r0 r c) in
  encode_interp_filter s f r c dir =
  Ok ("interp_filter", [(dir mod 2 * 2 + b2z (0 <? m_ref1 m)) * 4 + (if kl =? ku then kl else if kl =? 3 then ku else if ku =? 3 then kl else 3)], s) /\
  0 <= kl <= 3 /\ 0 <= ku <= 3.
Proof.
  intros f r0 c0 r c s dir m F I Hm D kind kl ku. unfold encode_interp_filter.
  assert (G : get_mi f r c = Ok (cell f r c)).
  { clear - F. apply (get_cell f r c); [exact F| |]; destruct F as (R & C & ? & ? & ? & ? & ?); lia. }
  rewrite G. cbn [bind]. rewrite Hm. cbn [unwrap bind].
  destruct (nbrs _ _ _ _ _ F I) as (u & l & Au & Al & Eu & El & Nu & Nl). unfold kl, ku, kind. rewrite Au, Al, El. cbn [bind].
  destruct (filter_type_ok l (m_ref0 m) (m_ref1 m) dir Nl D) as [Fl Bl]. destruct (filter_type_ok u (m_ref0 m) (m_ref1 m) dir Nu D) as [Fu Bu].
  rewrite Fl. cbn [bind]. rewrite Eu. cbn [bind]. rewrite Fu. cbn [bind]. split; [|split; assumption].
  rewrite land_1. reflexivity.
Qed.
Lemma interp_filter_ok : forall f r0 c0 r c s dir m, frame_ok f r c -> inner r0 c0 r c -> cell f r c = Some m -> 0 <= dir <= 1 ->
  (forall n, n = above_of f r0 r c \/ n = left_of f c0 r c -> Ref0 n <> m_ref0 m -> (Ref1 n = m_ref1 m <-> Ref1 n = m_ref0 m)) ->
  encode_interp_filter s f r c dir =
  Ok ("interp_filter", [spec_interp_filter dir (m_ref0 m) (m_ref1 m) (above_of f r0 r c) (left_of f c0 r c)], s).
Proof.
  intros f r0 c0 r c s dir m F I Hm D H. rewrite (proj1 (interp_filter_val f r0 c0 r c s dir m F I Hm D)).
  assert (X : forall n, n = above_of f r0 r c \/ n = left_of f c0 r c ->
    (Ref0 n =? m_ref0 m) || (Ref1 n =? m_ref1 m) = (Ref0 n =? m_ref0 m) || (Ref1 n =? m_ref0 m)).
  { intros n Hn. specialize (H n Hn). destruct (Z.eqb_spec (Ref0 n) (m_ref0 m)); [reflexivity|]. cbn [orb]. specialize (H n0).
    destruct (Z.eqb_spec (Ref1 n) (m_ref1 m)), (Z.eqb_spec (Ref1 n) (m_ref0 m)); try reflexivity; exfalso; tauto. }
  unfold spec_interp_filter, INTRA_FRAME. rewrite (X _ (or_introl eq_refl)), (X _ (or_intror eq_refl)). reflexivity.
Qed.
