(** The candidate list: the first eight distinct candidates with their total weights. *)
From Coq Require Import ZArith List Bool Lia.
From Verif Require Import Base BaseProofs SessionModel BlockTables GeomModel ElementSpec ElementProofs MvStackModel MvStackSpec.
Import ListNotations.
Open Scope Z_scope.

Lemma first_seen_in : forall l k, In k (first_seen l) <-> In k l.
Proof.
  induction l as [|a l IH]; intros k; cbn [first_seen In]; [tauto|].
  rewrite filter_In, IH. destruct (vec_dec a k) as [->|N]; [tauto|]. split; [tauto|]. intros [H|H]; tauto.
Qed.
Lemma first_seen_nodup : forall l, NoDup (first_seen l).
Proof.
  induction l as [|a l IH]; cbn [first_seen]; [constructor|]. constructor.
  - rewrite filter_In. destruct (vec_dec a a); [|tauto]. intros [_ H]. discriminate.
  - apply NoDup_filter, IH.
Qed.
Lemma first_seen_snoc : forall l k,
  first_seen (l ++ [k]) = first_seen l ++ (if in_dec vec_dec k l then [] else [k]).
Proof.
  induction l as [|a l IH]; intros k.
  - cbn. reflexivity.
  - cbn [app first_seen]. rewrite IH, filter_app. cbn [app]. f_equal. f_equal.
    destruct (in_dec vec_dec k l) as [I|N]; destruct (in_dec vec_dec k (a :: l)) as [I2|N2].
    + reflexivity.
    + exfalso. apply N2. right. exact I.
    + destruct I2 as [->|I2]; [|contradiction]. cbn [filter]. destruct (vec_dec k k); [reflexivity|contradiction].
    + cbn [filter]. destruct (vec_dec a k) as [->|]; [|reflexivity]. exfalso. apply N2. left. reflexivity.
Qed.

Lemma kept_length : forall cs, (length (kept cs) <= 8)%nat.
Proof. intros. unfold kept. rewrite firstn_length. lia. Qed.
Lemma NoDup_firstn : forall (A : Type) n (l : list A), NoDup l -> NoDup (firstn n l).
Proof.
  intros A n l H. rewrite <- (firstn_skipn n l) in H. revert H. generalize (firstn n l) (skipn n l). intros a b.
  induction a as [|x a IH]; intros H; [constructor|]. cbn [app] in H. inversion H as [|? ? N D]; subst. constructor.
  - intros I. apply N. apply in_or_app. left. exact I.
  - exact (IH D).
Qed.
Lemma kept_nodup : forall cs, NoDup (kept cs).
Proof. intros. apply NoDup_firstn, first_seen_nodup. Qed.
Lemma in_firstn : forall (A : Type) n (l : list A) x, In x (firstn n l) -> In x l.
Proof. intros A n l x H. rewrite <- (firstn_skipn n l). apply in_or_app. left. exact H. Qed.
Lemma kept_seen : forall cs k, In k (kept cs) -> In k (map fst cs).
Proof. intros cs k H. apply first_seen_in. exact (in_firstn _ _ _ _ H). Qed.

Lemma kept_snoc : forall cs k w,
  kept (cs ++ [(k, w)]) =
    if in_dec vec_dec k (kept cs) then kept cs
    else if (length (kept cs) <? 8)%nat then kept cs ++ [k] else kept cs.
Proof.
  intros cs k w. unfold kept. rewrite map_app. cbn [map fst]. rewrite first_seen_snoc.
  set (F := first_seen (map fst cs)).
  assert (E : In k (map fst cs) <-> In k F) by (unfold F; rewrite first_seen_in; tauto).
  rewrite firstn_app. rewrite firstn_length.
  destruct (in_dec vec_dec k (firstn 8 F)) as [I|N].
  - destruct (in_dec vec_dec k (map fst cs)) as [I2|N2].
    + rewrite firstn_nil, app_nil_r. reflexivity.
    + exfalso. apply N2, E. exact (in_firstn _ _ _ _ I).
  - destruct (Nat.ltb_spec (Nat.min 8 (length F)) 8) as [L|L].
    + assert (G : firstn 8 F = F) by (apply firstn_all2; lia). rewrite G in *.
      destruct (in_dec vec_dec k (map fst cs)) as [I2|N2]; [exfalso; apply N, E, I2|].
      rewrite (firstn_all2 (n := 8 - length F) [k]) by (change (length [k]) with 1%nat; lia). reflexivity.
    + replace (8 - length F)%nat with 0%nat by lia. cbn [firstn]. rewrite app_nil_r. reflexivity.
Qed.

Lemma kept_mono : forall cs ds k, In k (kept cs) -> In k (kept (cs ++ ds)).
Proof.
  intros cs ds. revert cs. induction ds as [|[a w] ds IH]; intros cs k H; [rewrite app_nil_r; exact H|].
  replace (cs ++ (a, w) :: ds) with ((cs ++ [(a, w)]) ++ ds) by (rewrite <- app_assoc; reflexivity).
  apply IH. rewrite kept_snoc. destruct (in_dec _ _ _); [exact H|]. destruct (_ <? _)%nat; [|exact H].
  apply in_or_app. left. exact H.
Qed.

Lemma total_app : forall cs ds k, total k (cs ++ ds) = total k cs + total k ds.
Proof. induction cs as [|[a w] cs IH]; intros ds k; cbn [app total]; [lia|]. rewrite IH. lia. Qed.
Lemma total_notin : forall cs k, ~ In k (map fst cs) -> total k cs = 0.
Proof.
  induction cs as [|[a w] cs IH]; intros k H; cbn [total]; [reflexivity|]. cbn [map fst In] in H.
  destruct (vec_dec k a) as [->|]; [tauto|]. rewrite IH by tauto. lia.
Qed.
Lemma all_weights_app : forall cs ds, all_weights (cs ++ ds) = all_weights cs + all_weights ds.
Proof. induction cs as [|[a w] cs IH]; intros ds; cbn [app all_weights]; [lia|]. rewrite IH. lia. Qed.
Lemma total_le : forall cs k, Forall (fun c => 0 <= snd c) cs -> 0 <= total k cs <= all_weights cs.
Proof.
  induction cs as [|[a w] cs IH]; intros k H; cbn [total all_weights]; [lia|]. inversion H as [|? ? W R]; subst. cbn [snd] in W.
  specialize (IH k R). destruct (vec_dec k a); lia.
Qed.

(** ** The search *)

Fixpoint fidx (p : vec -> bool) (l : list vec) : nat :=
  match l with [] => 0 | t :: r => if p t then 0 else S (fidx p r) end%nat.
Lemma search_ok : forall p E P R, search p (P ++ E ++ R) (length E) (len P) = Ok (len P + Z.of_nat (fidx p E)).
Proof.
  induction E as [|t E IH]; intros P R; cbn [length search fidx app].
  - f_equal. lia.
  - assert (I : idx (P ++ t :: E ++ R) (len P) = Ok t).
    { unfold idx, len. destruct (Z.ltb_spec (Z.of_nat (length P)) 0); [lia|]. rewrite Nat2Z.id, nth_error_app2 by lia.
      rewrite Nat.sub_diag. reflexivity. }
    rewrite I. cbn [bind]. destruct (p t); [f_equal; lia|].
    specialize (IH (P ++ [t]) R). rewrite <- app_assoc in IH. cbn [app] in IH.
    replace (len (P ++ [t])) with (len P + 1) in IH by (rewrite len_app; reflexivity). rewrite IH. f_equal. lia.
Qed.

Lemma mv_eqb_eq : forall a b, mv_eqb a b = true <-> a = b.
Proof.
  intros [a1 a2] [b1 b2]. unfold mv_eqb. cbn [fst snd]. rewrite andb_true_iff, !Z.eqb_eq.
  split; [intros [-> ->]; reflexivity|intros H; inversion H; tauto].
Qed.
Definition same (c : bool) (m t : vec) : bool := mv_eqb (fst m) (fst t) && (negb c || mv_eqb (snd m) (snd t)).
Lemma same_entry : forall c m t, same c m t = true <-> entry c m = entry c t.
Proof.
  intros c [m0 m1] [t0 t1]. unfold same, entry. cbn [fst snd]. rewrite andb_true_iff, orb_true_iff, negb_true_iff, !mv_eqb_eq.
  destruct c; split; intros H.
  - destruct H as [-> [H| ->]]; [discriminate|reflexivity].
  - inversion H; subst. tauto.
  - destruct H as [-> _]. reflexivity.
  - inversion H; subst. tauto.
Qed.

Lemma fidx_in : forall c m E, In (entry c m) (map (entry c) E) ->
  (fidx (same c m) E < length E)%nat /\ nth_error (map (entry c) E) (fidx (same c m) E) = Some (entry c m).
Proof.
  intros c m. induction E as [|t E IH]; intros H; [destruct H|]. cbn [fidx map length].
  destruct (same c m t) eqn:S.
  - split; [lia|]. cbn [nth_error]. f_equal. symmetry. apply same_entry. exact S.
  - destruct H as [H|H]; [exfalso; symmetry in H; apply same_entry in H; congruence|].
    destruct (IH H) as [A B]. split; [lia|exact B].
Qed.
Lemma fidx_notin : forall c m E, ~ In (entry c m) (map (entry c) E) -> fidx (same c m) E = length E.
Proof.
  intros c m. induction E as [|t E IH]; intros H; [reflexivity|]. cbn [fidx map length In] in *.
  destruct (same c m t) eqn:S.
  - exfalso. apply H. left. symmetry. apply same_entry. exact S.
  - f_equal. apply IH. tauto.
Qed.

Lemma set_nth_app_l : forall (A : Type) j (x : A) a b, (j < length a)%nat -> set_nth j x (a ++ b) = set_nth j x a ++ b.
Proof.
  induction j as [|j IH]; intros x [|y a] b H; cbn [length] in H; try lia; cbn [app set_nth]; [reflexivity|].
  f_equal. apply IH. lia.
Qed.
Lemma set_nth_app_r : forall (A : Type) (x y : A) a b, set_nth (length a) x (a ++ y :: b) = a ++ x :: b.
Proof. induction a as [|z a IH]; intros b; cbn [length app set_nth]; [reflexivity|]. f_equal. apply IH. Qed.
Lemma set_nth_map : forall (f g : vec -> Z) K j k, NoDup K -> nth_error K j = Some k ->
  (forall k', k' <> k -> g k' = f k') -> set_nth j (g k) (map f K) = map g K.
Proof.
  intros f g. induction K as [|a K IH]; intros j k D N H; [destruct j; discriminate|].
  inversion D as [|? ? NI D']; subst. destruct j as [|j]; cbn [nth_error map set_nth] in *.
  - injection N as ->. f_equal. apply map_ext_in. intros k' I. symmetry. apply H. intros ->. contradiction.
  - f_equal.
    + symmetry. apply H. intros ->. apply NI. exact (nth_error_In _ _ N).
    + apply (IH j k D' N H).
Qed.

(** ** States that represent a list of candidates *)

Definition repr (c : bool) (bonus : vec -> Z) (cs : list (vec * Z)) (s : mv_state) : Prop :=
  exists E rE rW, s_num s = len E /\ s_stack s = E ++ rE /\ (length E + length rE = 8)%nat /\
    s_weights s = map (fun k => total k cs + bonus k) (kept cs) ++ rW /\ (length E + length rW = 8)%nat /\
    map (entry c) E = kept cs.

Definition same_rest (s s' : mv_state) : Prop :=
  s_new s' = s_new s /\ s_found s' = s_found s /\ s_global s' = s_global s /\ s_close s' = s_close s /\
  s_zero_ctx s' = s_zero_ctx s.

Lemma stack_add_ok : forall c bonus cs s m w B, repr c bonus cs s ->
  (forall k, ~ In k (kept cs) -> bonus k = 0) -> (forall k, 0 <= bonus k <= B) ->
  Forall (fun c => 0 <= snd c) cs -> 0 <= w -> all_weights cs + w + B < 2 ^ 64 ->
  exists s', stack_add c m w s = Ok s' /\ repr c bonus (cs ++ [(entry c m, w)]) s' /\ same_rest s s'.
Proof.
  intros c bonus cs s m w B (E & rE & rW & HN & HS & HL & HW & HL2 & HE) HB0 HB HC Hw HT.
  pose proof (map_length (entry c) E) as LE. rewrite HE in LE.
  unfold stack_add. cbv zeta. change (fun t => mv_eqb (fst m) (fst t) && (negb c || mv_eqb (snd m) (snd t))) with (same c m).
  rewrite HN. unfold len at 1. rewrite Nat2Z.id. rewrite HS.
  assert (SO : search (same c m) (E ++ rE) (length E) 0 = Ok (Z.of_nat (fidx (same c m) E)))
    by exact (search_ok (same c m) E [] rE).
  rewrite SO. cbn [bind]. clear SO. unfold len.
  pose proof (total_le cs (entry c m) HC) as TL. pose proof (HB (entry c m)) as TB.
  set (k := entry c m) in *.
  destruct (in_dec vec_dec k (kept cs)) as [I|N].
  - pose proof I as I2. rewrite <- HE in I2. destruct (fidx_in c m E I2) as [J1 J2]. rewrite HE in J2.
    set (j := fidx (same c m) E) in *.
    destruct (Z.ltb_spec (Z.of_nat j) (Z.of_nat (length E))); [|lia].
    assert (X : idx (s_weights s) (Z.of_nat j) = Ok (total k cs + bonus k)).
    { unfold idx. destruct (Z.ltb_spec (Z.of_nat j) 0); [lia|]. rewrite Nat2Z.id, HW.
      rewrite nth_error_app1 by (rewrite map_length; lia).
      rewrite (map_nth_error _ _ _ J2). reflexivity. }
    rewrite X. cbn [bind]. unfold chk_u64. rewrite chk_ok by lia. cbn [bind]. eexists. split; [reflexivity|].
    split; [|repeat split].
    exists E, rE, rW. cbn [s_num s_stack s_weights set_list]. rewrite Nat2Z.id.
    rewrite kept_snoc. destruct (in_dec vec_dec k (kept cs)); [|contradiction].
    repeat split; try assumption.
    rewrite HW. rewrite set_nth_app_l by (rewrite map_length; lia). f_equal.
    replace (total k cs + bonus k + w) with ((fun k' => total k' (cs ++ [(k, w)]) + bonus k') k).
    + apply (set_nth_map (fun k' => total k' cs + bonus k') (fun k' => total k' (cs ++ [(k, w)]) + bonus k') (kept cs) j k);
        [apply kept_nodup|exact J2|]. intros k' N. cbn beta. rewrite total_app. cbn [total].
      destruct (vec_dec k' k); [contradiction|lia].
    + cbn beta. rewrite total_app. cbn [total]. destruct (vec_dec k k); [lia|contradiction].
  - pose proof N as N2. rewrite <- HE in N2. rewrite (fidx_notin c m E N2).
    destruct (Z.ltb_spec (Z.of_nat (length E)) (Z.of_nat (length E))); [lia|].
    unfold MAX_REF_MV_STACK_SIZE. destruct (Z.ltb_spec (Z.of_nat (length E)) 8) as [L|L].
    + destruct rE as [|t rE]; [cbn [length] in HL; lia|]. destruct rW as [|y rW]; [cbn [length] in HL2; lia|].
      cbn [length] in HL, HL2.
      assert (X1 : idx (E ++ t :: rE) (Z.of_nat (length E)) = Ok t).
      { unfold idx. destruct (Z.ltb_spec (Z.of_nat (length E)) 0); [lia|]. rewrite Nat2Z.id, nth_error_app2, Nat.sub_diag by lia.
        reflexivity. }
      assert (X2 : idx (s_weights s) (Z.of_nat (length E)) = Ok y).
      { unfold idx. destruct (Z.ltb_spec (Z.of_nat (length E)) 0); [lia|]. rewrite Nat2Z.id, HW.
        rewrite nth_error_app2 by (rewrite map_length; lia). rewrite map_length, LE, Nat.sub_diag. reflexivity. }
      rewrite X1. cbn [bind]. rewrite X2. cbn [bind]. eexists. split; [reflexivity|]. split; [|repeat split].
      assert (NS : ~ In k (map fst cs)).
      { intros I. apply N. unfold kept. apply first_seen_in in I. rewrite firstn_all2; [exact I|].
        unfold kept in LE. rewrite firstn_length in LE. lia. }
      exists (E ++ [(fst m, if c then snd m else snd t)]), rE, rW. cbn [s_num s_stack s_weights set_list].
      rewrite Nat2Z.id, kept_snoc. destruct (in_dec vec_dec k (kept cs)); [contradiction|].
      destruct (Nat.ltb_spec (length (kept cs)) 8); [|lia].
      repeat split.
      * rewrite len_app. reflexivity.
      * rewrite set_nth_app_r, <- app_assoc. reflexivity.
      * rewrite app_length. cbn [length]. lia.
      * rewrite HW. replace (length E) with (length (map (fun k0 => total k0 cs + bonus k0) (kept cs))) by (rewrite map_length; lia).
        rewrite set_nth_app_r, map_app, <- app_assoc. cbn [map app]. f_equal.
        -- apply map_ext_in. intros k' I. rewrite total_app. cbn [total]. destruct (vec_dec k' k) as [->|]; [contradiction|lia].
        -- f_equal. rewrite total_app. cbn [total]. destruct (vec_dec k k); [|contradiction].
           rewrite total_notin by exact NS. rewrite HB0 by exact N. lia.
      * rewrite app_length. cbn [length]. lia.
      * rewrite map_app, HE. cbn [map]. f_equal. unfold k, entry. cbn [fst snd]. destruct c; reflexivity.
    + eexists. split; [reflexivity|]. split; [|repeat split].
      exists E, rE, rW. rewrite kept_snoc. destruct (in_dec vec_dec k (kept cs)); [contradiction|].
      destruct (Nat.ltb_spec (length (kept cs)) 8); [lia|]. repeat split; try assumption.
      rewrite HW. f_equal. apply map_ext_in. intros k' I. rewrite total_app. cbn [total].
      destruct (vec_dec k' k) as [->|]; [contradiction|lia].
Qed.

(** What a representing state looks like from outside. *)
Lemma repr_spec : forall c bonus cs s, repr c bonus cs s ->
  s_num s = len (kept cs) /\ entries c s = kept cs /\ weights s = map (fun k => total k cs + bonus k) (kept cs) /\
  arrays_ok s.
Proof.
  intros c bonus cs s (E & rE & rW & HN & HS & HL & HW & HL2 & HE).
  pose proof (map_length (entry c) E) as LE. rewrite HE in LE.
  unfold entries, weights, arrays_ok. rewrite HN, HS, HW. unfold len. rewrite !Nat2Z.id. repeat split.
  - lia.
  - rewrite firstn_app, Nat.sub_diag, firstn_all. cbn [firstn]. rewrite app_nil_r. exact HE.
  - rewrite firstn_app, map_length, LE, Nat.sub_diag. cbn [firstn]. rewrite app_nil_r. rewrite <- LE.
    rewrite firstn_all2 by (rewrite map_length; lia). reflexivity.
  - rewrite app_length. lia.
  - rewrite app_length, map_length. lia.
Qed.

Lemma repr_start : forall c s, s_num s = 0 -> arrays_ok s -> repr c (fun _ => 0) [] s.
Proof.
  intros c s H [A1 A2]. exists [], (s_stack s), (s_weights s). unfold len in *. cbn. repeat split; try lia; reflexivity.
Qed.
