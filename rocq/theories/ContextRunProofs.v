(** Writers on nested CDF arrays behave like coding calls on one table of CDFs. *)
From Coq Require Import String ZArith List Lia Bool.
From Verif Require Import Base BaseProofs BitsSpec RangeCoderModel RangeCoderSpec CdfProofs SessionModel SessionSpec SessionProofs
  SegmentProofs CdfTables CdfTableSpec CdfTableProofs ContextModel ContextSpec.
Import ListNotations.
Open Scope list_scope.
Open Scope Z_scope.

Definition tab_ind2 (P : tab -> Prop) (HR : forall r, P (Row r)) (HT : forall l, Forall P l -> P (Tab l)) : forall t, P t :=
  fix F t := match t with
             | Row r => HR r
             | Tab l => HT l ((fix G l : Forall P l := match l with [] => Forall_nil P | t :: r => Forall_cons t (F t) (G r) end) l)
             end.

(** Arrays with the contents left out. *)
Fixpoint erase (t : tab) : tab := match t with Row _ => Row [] | Tab l => Tab (map erase l) end.

Lemma erase_len : forall t, List.length (tab_rows (erase t)) = List.length (tab_rows t).
Proof.
  induction t as [r|l IH] using tab_ind2; [reflexivity|]. cbn [erase tab_rows].
  induction IH as [|t l Ht _ IHl]; [reflexivity|]. cbn [map flat_map]. rewrite !app_length, Ht, IHl. reflexivity.
Qed.

Lemma erase_inj : forall t1 t2, erase t1 = erase t2 -> tab_rows t1 = tab_rows t2 -> t1 = t2.
Proof.
  induction t1 as [r|l IH] using tab_ind2; intros [r2|l2] E R; cbn [erase tab_rows] in *; try discriminate; [congruence|].
  f_equal. assert (E' : map erase l = map erase l2) by congruence. clear E. revert l2 E' R.
  induction IH as [|t l Ht _ IHl]; intros [|t2 l2] E R; cbn [map flat_map] in *; try discriminate; [reflexivity|].
  assert (Et : erase t = erase t2) by congruence. assert (El : map erase l = map erase l2) by congruence.
  assert (L : List.length (tab_rows t) = List.length (tab_rows t2)) by (rewrite <- (erase_len t), <- (erase_len t2), Et; reflexivity).
  assert (X : tab_rows t = tab_rows t2 /\ flat_map tab_rows l = flat_map tab_rows l2).
  { clear - R L. revert R L. generalize (tab_rows t), (tab_rows t2), (flat_map tab_rows l), (flat_map tab_rows l2).
    induction l0 as [|a l0 IH]; intros [|b l1] m n R L; cbn in *; try discriminate; [split; [reflexivity|exact R]|].
    injection R as -> R. injection L as L. destruct (IH _ _ _ R L) as [-> ->]. split; reflexivity. }
  destruct X as [X1 X2]. rewrite (Ht _ Et X1), (IHl _ El X2). reflexivity.
Qed.

(** Place of an entry among the rows. *)
Fixpoint slot (t : tab) (path : list Z) {struct path} : nat :=
  match t, path with
  | Tab l, i :: p =>
      (List.length (flat_map tab_rows (firstn (Z.to_nat i) l)) +
       match nth_error l (Z.to_nat i) with Some t' => slot t' p | None => 0 end)%nat
  | _, _ => 0%nat
  end.

Lemma flat_erase_len : forall l, List.length (flat_map tab_rows (map erase l)) = List.length (flat_map tab_rows l).
Proof. induction l; [reflexivity|]. cbn [map flat_map]. rewrite !app_length, erase_len, IHl. reflexivity. Qed.

Lemma slot_erase : forall p t, slot t p = slot (erase t) p.
Proof.
  induction p as [|i p IH]; intros [r|l]; try reflexivity. cbn [slot erase].
  rewrite firstn_map, flat_erase_len, nth_error_map. destruct (nth_error l (Z.to_nat i)); cbn [option_map]; [rewrite IH|]; reflexivity.
Qed.

Definition reach (t : tab) (p : list Z) : Prop := exists row, tab_get t p = Ok row.
Lemma reach_erase : forall p t, reach t p <-> reach (erase t) p.
Proof.
  induction p as [|i p IH]; intros [r|l]; unfold reach; cbn [tab_get erase].
  - split; intros _; eexists; reflexivity.
  - tauto.
  - tauto.
  - unfold idx. destruct (i <? 0); [tauto|]. rewrite nth_error_map.
    destruct (nth_error l (Z.to_nat i)) as [t|]; cbn [option_map bind]; [apply IH|tauto].
Qed.

Lemma map_set_nth : forall (A B : Type) (f : A -> B) i x y l, nth_error l i = Some y -> f x = f y -> map f (set_nth i x l) = map f l.
Proof.
  induction i; intros x y [|z l] H E; cbn in *; try discriminate; [injection H as ->; rewrite E; reflexivity|].
  rewrite (IHi x y l H E). reflexivity.
Qed.

Lemma erase_set : forall p t row, erase (tab_set t p row) = erase t.
Proof.
  induction p as [|i p IH]; intros [r|l] row; try reflexivity. cbn [tab_set].
  destruct (nth_error l (Z.to_nat i)) as [t|] eqn:E; [|reflexivity]. cbn [erase].
  rewrite (map_set_nth _ _ erase _ _ t l E); [reflexivity|apply IH].
Qed.

Lemma set_nth_app : forall (A : Type) k x (a b : list A), set_nth (List.length a + k) x (a ++ b) = a ++ set_nth k x b.
Proof. induction a; intros b; [reflexivity|]. cbn. rewrite IHa. reflexivity. Qed.
Lemma set_nth_app1 : forall (A : Type) k x (a b : list A), (k < List.length a)%nat -> set_nth k x (a ++ b) = set_nth k x a ++ b.
Proof.
  induction k; intros x [|y a] b H; cbn in *; try lia; [reflexivity|]. rewrite IHk by lia. reflexivity.
Qed.

Lemma flat_map_set : forall (A B : Type) (f : A -> list B) i (l : list A) y x k v,
  nth_error l i = Some y -> (k < List.length (f y))%nat -> f x = set_nth k v (f y) ->
  flat_map f (set_nth i x l) = set_nth (List.length (flat_map f (firstn i l)) + k) v (flat_map f l).
Proof.
  induction i; intros [|z l] y x k v H Hk E; cbn in *; try discriminate.
  - injection H as ->. rewrite E, set_nth_app1 by exact Hk. reflexivity.
  - rewrite app_length, <- Nat.add_assoc, set_nth_app. rewrite (IHi _ _ _ _ _ H Hk E). reflexivity.
Qed.
Lemma flat_map_nth : forall (A B : Type) (f : A -> list B) i (l : list A) y k b,
  nth_error l i = Some y -> nth_error (f y) k = Some b ->
  nth_error (flat_map f l) (List.length (flat_map f (firstn i l)) + k) = Some b.
Proof.
  induction i; intros [|z l] y k b H Hk; cbn in *; try discriminate.
  - injection H as ->. rewrite nth_error_app1; [exact Hk|]. apply nth_error_Some. congruence.
  - rewrite app_length, <- Nat.add_assoc. rewrite nth_error_app2 by lia. rewrite Nat.add_comm, Nat.add_sub.
    exact (IHi _ _ _ _ H Hk).
Qed.

Lemma tab_slot : forall p t row, tab_get t p = Ok row ->
  nth_error (tab_rows t) (slot t p) = Some row /\
  forall r', tab_rows (tab_set t p r') = set_nth (slot t p) r' (tab_rows t).
Proof.
  induction p as [|i p IH]; intros [r|l] row H; cbn [tab_get] in H; try discriminate.
  - injection H as ->. split; reflexivity.
  - apply bind_inv in H. destruct H as (t & I & H). apply idx_inv in I. destruct I as [_ I].
    destruct (IH _ _ H) as [A B]. cbn [slot tab_rows tab_set]. rewrite I. cbn [tab_rows]. split.
    + apply (flat_map_nth _ _ tab_rows _ _ t); assumption.
    + intros r'. apply (flat_map_set _ _ tab_rows _ _ t); [exact I| |apply B]. apply nth_error_Some. congruence.
Qed.

(** The same for all fields. *)
Definition flat (s : cdfs) : cdf_table := flat_map (fun p => tab_rows (snd p)) s.
Definition erase_all (s : cdfs) : cdfs := map (fun e => (fst e, erase (snd e))) s.
Fixpoint fslot (s : cdfs) (name : string) (path : list Z) : nat :=
  match s with
  | [] => 0%nat
  | (n, t) :: r => if String.eqb n name then slot t path else (List.length (tab_rows t) + fslot r name path)%nat
  end.
Definition freach (s : cdfs) (name : string) (path : list Z) : Prop := exists t, field s name = Ok t /\ reach t path.

Lemma fslot_erase : forall s n p, fslot s n p = fslot (erase_all s) n p.
Proof.
  induction s as [|[m t] s IH]; intros n p; [reflexivity|]. cbn. rewrite erase_len, <- slot_erase, <- IH. reflexivity.
Qed.
Lemma freach_erase : forall s n p, freach s n p <-> freach (erase_all s) n p.
Proof.
  induction s as [|[m t] s IH]; intros n p; unfold freach in *; cbn; [split; intros (? & ? & _); discriminate|].
  destruct (String.eqb m n); [|apply IH]. split; intros (t' & E & R); injection E as <-; eexists; (split; [reflexivity|]); [apply -> reach_erase; exact R|apply <- reach_erase; exact R].
Qed.

Lemma field_slot : forall s n p t row, field s n = Ok t -> tab_get t p = Ok row ->
  nth_error (flat s) (fslot s n p) = Some row /\
  (forall r', flat (set_field s n (tab_set t p r')) = set_nth (fslot s n p) r' (flat s)) /\
  (forall r', erase_all (set_field s n (tab_set t p r')) = erase_all s).
Proof.
  induction s as [|[m u] s IH]; intros n p t row F G; cbn [field] in F; [discriminate|].
  unfold flat, erase_all in *. cbn [flat_map fslot set_field map fst snd]. destruct (String.eqb m n).
  - injection F as ->. destruct (tab_slot p t row G) as [A B].
    assert (L : (slot t p < List.length (tab_rows t))%nat) by (apply nth_error_Some; congruence).
    split; [rewrite nth_error_app1 by exact L; exact A|]. cbn [flat_map map fst snd]. split; intros r'.
    + rewrite B, set_nth_app1 by exact L. reflexivity.
    + rewrite erase_set. reflexivity.
  - destruct (IH _ _ _ _ F G) as (A & B & C). split; [|split].
    + rewrite nth_error_app2 by lia. rewrite Nat.add_comm, Nat.add_sub. exact A.
    + intros r'. cbn [flat_map snd]. rewrite set_nth_app, B. reflexivity.
    + intros r'. cbn [map fst snd]. rewrite C. reflexivity.
Qed.

Lemma erase_all_inj : forall s1 s2, erase_all s1 = erase_all s2 -> flat s1 = flat s2 -> s1 = s2.
Proof.
  unfold erase_all, flat. induction s1 as [|[n t] s1 IH]; intros [|[m u] s2] E F; cbn in *; try discriminate; [reflexivity|].
  injection E as En Et Es. subst m.
  assert (L : List.length (tab_rows t) = List.length (tab_rows u)) by (rewrite <- (erase_len t), <- (erase_len u), Et; reflexivity).
  assert (X : tab_rows t = tab_rows u /\ flat_map (fun p => tab_rows (snd p)) s1 = flat_map (fun p => tab_rows (snd p)) s2).
  { clear - F L. revert F L. generalize (tab_rows t), (tab_rows u), (flat_map (fun p : string * tab => tab_rows (snd p)) s1), (flat_map (fun p : string * tab => tab_rows (snd p)) s2).
    induction l as [|a l0 IH]; intros [|b l1] m n R L; cbn in *; try discriminate; [split; [reflexivity|exact R]|].
    injection R as -> R. injection L as L. destruct (IH _ _ _ R L) as [-> ->]. split; reflexivity. }
  destruct X as [X1 X2]. rewrite (erase_inj _ _ Et X1), (IH _ Es X2). reflexivity.
Qed.

Lemma idx_of_nat : forall (A : Type) (l : list A) k a, nth_error l k = Some a -> idx l (Z.of_nat k) = Ok a.
Proof. intros A l k a H. unfold idx. destruct (Z.ltb_spec (Z.of_nat k) 0); [lia|]. rewrite Nat2Z.id, H. reflexivity. Qed.

(** Coding calls for elements; positions taken in [s]. *)
Definition op_of (s : cdfs) (e : element) : op := let '(n, p, v) := e in OSym (fslot s n p) (Z.to_nat v).
Definition codable (s : cdfs) (e : element) : Prop := let '(n, p, v) := e in freach s n p /\ 0 <= v.

Lemma op_of_erase : forall s s' e, erase_all s = erase_all s' -> op_of s e = op_of s' e.
Proof. intros s s' [[n p] v] E. unfold op_of. rewrite (fslot_erase s), (fslot_erase s'), E. reflexivity. Qed.
Lemma codable_erase : forall s s' e, erase_all s = erase_all s' -> codable s e -> codable s' e.
Proof.
  intros s s' [[n p] v] E [R V]. split; [|exact V]. apply <- freach_erase. rewrite <- E. apply -> freach_erase. exact R.
Qed.

Lemma writer_step : forall c s out e c' t' out', codable s e -> encode_op c (flat s) out (op_of s e) = Ok (c', t', out') ->
  exists s', run_writer c s out (Ok e) = Ok (c', s', out') /\ flat s' = t' /\ erase_all s' = erase_all s.
Proof.
  intros c s out [[n p] v] c' t' out' [(t & F & row & G) V] E. destruct (field_slot _ _ _ _ _ F G) as (A & B & C).
  cbn [op_of encode_op] in E. rewrite (idx_of_nat _ _ _ _ A) in E. cbn [bind] in E. rewrite Z2Nat.id in E by exact V.
  apply bind_inv in E. destruct E as ([[c1 o1] row1] & E & H). injection H as <- <- <-.
  exists (set_field s n (tab_set t p row1)). unfold run_writer. cbn [bind]. rewrite F. cbn [bind]. rewrite G. cbn [bind].
  rewrite E. cbn [bind]. split; [reflexivity|]. split; [apply B|apply C].
Qed.

Lemma writers_run : forall es c s out c' t' out', Forall (codable s) es ->
  encode_ops c (flat s) out (map (op_of s) es) = Ok (c', t', out') ->
  exists s', run_writers c s out (map (@Ok element) es) = Ok (c', s', out') /\ flat s' = t' /\ erase_all s' = erase_all s.
Proof.
  induction es as [|e es IH]; intros c s out c' t' out' H E; cbn [map encode_ops] in E.
  - injection E as <- <- <-. exists s. split; [reflexivity|split; reflexivity].
  - inversion H as [|? ? He Hes]; subst. apply bind_inv in E. destruct E as ([[c1 t1] o1] & E1 & E2).
    destruct (writer_step _ _ _ _ _ _ _ He E1) as (s1 & W & Fl & Er). subst t1.
    replace (map (op_of s) es) with (map (op_of s1) es) in E2 by (apply map_ext; intros e'; apply op_of_erase; exact Er).
    destruct (IH _ _ _ _ _ _ (Forall_impl _ (fun e' X => codable_erase s s1 e' (eq_sym Er) X) Hes) E2) as (s2 & W2 & Fl2 & Er2).
    exists s2. cbn [map run_writers]. rewrite W. cbn [bind]. rewrite W2. split; [reflexivity|]. split; [exact Fl2|congruence].
Qed.

Lemma readers_run : forall es d s q os d' t' q', Forall (codable s) es ->
  decode_ops d (flat s) q (map shape_of (map (op_of s) es)) = Ok (os, d', t', q') -> os = map (op_of s) es ->
  (forall c q' cdf v c' q'' cdf', decode_symbol c q' cdf = Ok (v, c', q'', cdf') -> 0 <= v) ->
  exists s', read_elements d s q (map fst es) = Ok (map snd es, d', s', q') /\ flat s' = t' /\ erase_all s' = erase_all s.
Proof.
  induction es as [|e es IH]; intros d s q os d' t' q' H E Eo NN; cbn [map decode_ops] in E.
  - injection E as _ <- <- <-. exists s. split; [reflexivity|split; reflexivity].
  - inversion H as [|? ? He Hes]; subst os. destruct e as [[n p] v]. destruct He as [(t & F & row & G) V].
    destruct (field_slot _ _ _ _ _ F G) as (A & B & C).
    apply bind_inv in E. destruct E as ([[[o1 d1] t1] q1] & E1 & E2).
    apply bind_inv in E2. destruct E2 as ([[[os2 d2] t2] q2] & E2 & E3). injection E3 as X1 X2 X3 X4 X5. subst o1 d2 t2 q2.
    cbn [op_of shape_of decode_op] in E1. rewrite (idx_of_nat _ _ _ _ A) in E1. cbn [bind] in E1.
    apply bind_inv in E1. destruct E1 as ([[[v1 d3] q3] row3] & E1 & E4). injection E4 as Y1 Y2 Y3 Y4. subst d3 q3 t1.
    assert (Hv : v1 = v). { pose proof (NN _ _ _ _ _ _ _ E1). lia. } subst v1.
    set (s1 := set_field s n (tab_set t p row3)). pose proof (C row3) as Er. fold s1 in Er.
    rewrite <- (B row3) in E2. fold s1 in E2.
    replace (map (op_of s) es) with (map (op_of s1) es) in E2 by (apply map_ext; intros e'; apply op_of_erase; exact Er).
    replace (map (op_of s) es) with (map (op_of s1) es) in X2 by (apply map_ext; intros e'; apply op_of_erase; exact Er).
    destruct (IH _ _ _ _ _ _ _ (Forall_impl _ (fun e' X => codable_erase s s1 e' (eq_sym Er) X) Hes) E2 X2 NN) as (s2 & W2 & Fl2 & Er2).
    exists s2. cbn [map read_elements fst snd]. rewrite F. cbn [bind]. rewrite G. cbn [bind]. rewrite E1. cbn [bind]. fold s1.
    rewrite W2. cbn [bind]. split; [reflexivity|]. split; [exact Fl2|congruence].
Qed.

(** ** From shapes and validity to sessions *)

Lemma tab_get_at : forall p t, Forall (fun i => 0 <= i) p ->
  tab_get t p = match tab_at t (map Z.to_nat p) with Some row => Ok row | None => Panic end.
Proof.
  induction p as [|i p IH]; intros [r|l] H; try reflexivity. cbn [tab_get tab_at map]. inversion H; subst. unfold idx.
  destruct (Z.ltb_spec i 0); [lia|]. destruct (nth_error l (Z.to_nat i)); [cbn [bind]; apply IH; assumption|reflexivity].
Qed.
Lemma path_nat : forall path dims, Forall2 (fun i d => 0 <= i < Z.of_nat d) path dims ->
  Forall (fun i => 0 <= i) path /\ Forall2 lt (map Z.to_nat path) dims.
Proof.
  induction 1 as [|i d p ds Hi _ [IH1 IH2]]; [split; constructor|]. cbn [map]. split; constructor; try assumption; lia.
Qed.
Lemma path_z : forall path dims, Forall (fun i => 0 <= i) path -> Forall2 lt (map Z.to_nat path) dims ->
  Forall2 (fun i d => 0 <= i < Z.of_nat d) path dims.
Proof.
  induction path as [|i p IH]; intros dims F H; cbn [map] in H; inversion H; subst; constructor; inversion F; subst; [lia|].
  apply IH; assumption.
Qed.

Lemma shapes_nodup : NoDup (map (fun sh : string * list nat * nat => fst (fst sh)) cdf_shapes).
Proof. destruct default_names as [E N]. rewrite <- E. exact N. Qed.

Lemma state_field : forall shapes s name dims N, NoDup (map (fun sh : string * list nat * nat => fst (fst sh)) shapes) ->
  Forall2 (fun (e : string * tab) sh => fst e = fst (fst sh) /\ table_ok (snd e) (snd (fst sh)) (snd sh)) s shapes ->
  In (name, dims, N) shapes -> exists t, field s name = Ok t /\ table_ok t dims N.
Proof.
  intros shapes s name dims N D H. induction H as [|[n t] sh s shapes [E T] _ IH]; intros I; [destruct I|].
  cbn [map fst snd] in *. inversion D as [|? ? D1 D2]; subst. cbn [field]. destruct I as [->|I].
  - cbn [fst snd] in *. rewrite String.eqb_refl. exists t. split; [reflexivity|exact T].
  - destruct (String.eqb_spec (fst (fst sh)) name) as [X|X]; [|apply IH; assumption].
    exfalso. apply D1. rewrite X. change name with (fst (fst (name, dims, N))). apply in_map with (f := fun sh : string * list nat * nat => fst (fst sh)). exact I.
Qed.

Lemma element_reach : forall s name path v dims N, state_ok s -> In (name, dims, N) cdf_shapes ->
  Forall2 (fun i d => 0 <= i < Z.of_nat d) path dims -> 0 <= v < Z.of_nat N ->
  exists t row, field s name = Ok t /\ table_ok t dims N /\ tab_get t path = Ok row /\ valid_cdf N row.
Proof.
  intros s name path v dims N S I P V. destruct (state_field _ _ _ _ _ shapes_nodup S I) as (t & F & T).
  destruct (path_nat _ _ P) as [P1 P2]. destruct T as [T1 T2]. destruct (T1 _ P2) as (row & A & C).
  exists t, row. split; [exact F|]. split; [split; assumption|]. rewrite (tab_get_at _ _ P1), A. split; [reflexivity|exact C].
Qed.

Lemma rows_at : forall t row, In row (tab_rows t) -> exists path, tab_at t path = Some row.
Proof.
  induction t as [r|l IH] using tab_ind2; intros row H; cbn [tab_rows] in H.
  - destruct H as [->|[]]. exists []. reflexivity.
  - apply in_flat_map in H. destruct H as (t & It & Ir). rewrite Forall_forall in IH. destruct (IH t It row Ir) as (p & Hp).
    destruct (In_nth_error _ _ It) as (i & Hi). exists (i :: p). cbn. rewrite Hi. exact Hp.
Qed.

Definition sizes_of (s : cdfs) : list nat := map (fun r => List.length r - 1)%nat (flat s).
Lemma valid_cdf_size : forall N row, valid_cdf N row -> (List.length row - 1)%nat = N.
Proof. intros N row (c & n & -> & L & _). rewrite app_length. cbn. lia. Qed.

Lemma state_valid : forall s, state_ok s -> valid_table (sizes_of s) (flat s).
Proof.
  intros s H. assert (A : forall row, In row (flat s) -> valid_cdf (List.length row - 1) row).
  { intros row I. unfold flat in I. apply in_flat_map in I. destruct I as ([n t] & I1 & I2). cbn [snd] in I2.
    unfold state_ok in H. revert I1. generalize cdf_shapes, H. clear H. intros shapes H.
    induction H as [|[n' t'] sh s' shs [E T] _ IH]; intros I1; [destruct I1|]. destruct I1 as [X|X]; [|apply IH; exact X].
    injection X as <- <-. cbn [snd fst] in T. destruct (rows_at _ _ I2) as (p & Hp). destruct T as [T1 T2].
    destruct (T1 p (T2 _ _ Hp)) as (row' & Hp' & C). rewrite Hp in Hp'. injection Hp' as <-.
    rewrite (valid_cdf_size _ _ C). exact C. }
  unfold valid_table, sizes_of. revert A. generalize (flat s). induction c as [|r l IH]; intros A; [constructor|].
  cbn [map]. constructor; [apply A; left; reflexivity|]. apply IH. intros row I. apply A. right. exact I.
Qed.

Lemma in_range_op : forall s e, state_ok s -> in_range e -> codable s e /\ valid_op (sizes_of s) (op_of s e).
Proof.
  intros s [[n p] v] S (dims & N & I & P & V). destruct (element_reach _ _ _ _ _ _ S I P V) as (t & row & F & T & G & C).
  split; [split; [exists t; split; [exact F|exists row; exact G]|lia]|]. cbn [op_of valid_op]. exists N.
  destruct (field_slot _ _ _ _ _ F G) as (A & _). split; [|lia]. unfold sizes_of. rewrite nth_error_map, A. cbn [option_map].
  f_equal. exact (valid_cdf_size _ _ C).
Qed.

Lemma find_symbol_nonneg : forall k r v cdf s p s' a b, 0 <= s -> find_symbol k r v cdf s p = Ok (s', a, b) -> 0 <= s'.
Proof.
  induction k; intros r v cdf s p s' a b H E; cbn [find_symbol] in E; [discriminate|].
  apply bind_inv in E. destruct E as (x & _ & E). apply bind_inv in E. destruct E as (y & _ & E).
  apply bind_inv in E. destruct E as (z & _ & E). cbv zeta in E.
  destruct (v <? Z.shiftr z 7); [eapply IHk; [|exact E]; lia|]. injection E as -> _ _. exact H.
Qed.
Lemma decode_symbol_nonneg : forall c q cdf v c' q' cdf', decode_symbol c q cdf = Ok (v, c', q', cdf') -> 0 <= v.
Proof.
  intros c q cdf v c' q' cdf' E. unfold decode_symbol in E. apply bind_inv in E. destruct E as (n1 & _ & E).
  apply bind_inv in E. destruct E as ([[sy pr] cu] & F & E). apply find_symbol_nonneg in F; [|lia].
  repeat (apply bind_inv in E; destruct E as (? & ? & E)). cbv zeta in E.
  repeat match type of E with
  | bind _ _ = _ => apply bind_inv in E; destruct E as (? & ? & E); cbv zeta beta in E
  | (let '(_, _) := ?x in _) = _ => destruct x
  end.
  congruence.
Qed.

Lemma session_syms : forall (s : cdfs) (es : list element), session_symbols (map (op_of s) es) = List.length es.
Proof. induction es as [|[[n p] v] es IH]; [reflexivity|]. cbn [List.length]. rewrite <- IH. reflexivity. Qed.

Lemma writers_round_trip : forall s (es : list element) c d out sz tail,
  state_ok s -> Forall in_range es -> Z.of_nat (List.length es) <= 2 ^ 26 ->
  0 <= bit_count c < 2 ^ 62 -> 0 <= sz < 2 ^ 28 -> is_bits tail ->
  exists c' s' D d' rest,
    write_session c s out (map (@Ok element) es) = Ok (c', s', out ++ D) /\ is_bits D /\
    read_session d s (D ++ tail) sz (map fst es) = Ok (map snd es, d', s', rest ++ tail).
Proof.
  intros s es c d out sz tail S R L Hc Hs Ht.
  assert (Cd : Forall (codable s) es) by (eapply Forall_impl; [|exact R]; intros e He; apply (in_range_op s e S He)).
  assert (Vo : Forall (valid_op (sizes_of s)) (map (op_of s) es)).
  { apply Forall_map. eapply Forall_impl; [|exact R]. intros e He. apply (in_range_op s e S He). }
  assert (Fi : fits (map (op_of s) es)) by (unfold fits; pose proof (session_syms s es) as X; unfold element in *; rewrite X; exact L).
  destruct (session_round_trip (sizes_of s) (flat s) (map (op_of s) es) c d out sz tail (state_valid s S) Vo Fi Hc Hs Ht)
    as (c' & t' & D & d' & used & rest & E & _ & HD & F).
  unfold encode_session in E. apply bind_inv in E. destruct E as ([[c1 t1] o1] & E1 & E2).
  apply bind_inv in E2. destruct E2 as ([c2 o2] & E2 & E3). injection E3 as -> -> ->.
  destruct (writers_run _ _ _ _ _ _ _ Cd E1) as (s1 & W & Fl1 & Er1).
  unfold decode_session in F. apply bind_inv in F. destruct F as ([d0 q0] & F0 & F1).
  destruct (readers_run _ _ _ _ _ _ _ _ Cd F1 eq_refl decode_symbol_nonneg) as (s2 & R2 & Fl2 & Er2).
  assert (s1 = s2) by (apply erase_all_inj; congruence). subst s2.
  exists c', s1, D, d', rest. unfold write_session. rewrite W. cbn [bind]. rewrite E2. cbn [bind].
  split; [reflexivity|]. split; [exact HD|]. unfold read_session. rewrite F0. cbn [bind]. exact R2.
Qed.

Lemma default_state_ok : state_ok default_cdf.
Proof.
  unfold state_ok. destruct default_names as [E N].
  assert (X : forall s shs, map fst s = map (fun sh : string * list nat * nat => fst (fst sh)) shs ->
    (forall n t, In (n, t) s -> In (n, t) default_cdf) -> (forall sh, In sh shs -> In sh cdf_shapes) ->
    Forall2 (fun (e : string * tab) sh => fst e = fst (fst sh) /\ table_ok (snd e) (snd (fst sh)) (snd sh)) s shs).
  { induction s as [|[n t] s IH]; intros [|[[m dims] k] shs] Em A B; cbn [map fst] in Em; try discriminate; [constructor|].
    injection Em as En Em. subst m. constructor.
    - cbn [fst snd]. split; [reflexivity|]. destruct (default_tables_ok n dims k (B _ (or_introl eq_refl))) as (t' & I' & T).
      assert (t' = t); [|subst; exact T].
      specialize (A n t (or_introl eq_refl)). clear - N A I'. revert N A I'. generalize default_cdf.
      induction l as [|[m u] l IH]; intros N A I; [destruct A|]. cbn [map fst] in N. inversion N as [|? ? N1 N2]; subst.
      destruct A as [A|A], I as [I|I].
      + congruence.
      + exfalso. apply N1. injection A as -> ->. change n with (fst (n, t')). apply in_map. exact I.
      + exfalso. apply N1. injection I as -> ->. change n with (fst (n, t)). apply in_map. exact A.
      + apply IH; assumption.
    - apply IH; [exact Em|intros; apply A; right; assumption|intros; apply B; right; assumption]. }
  apply X; [exact E|auto|auto].
Qed.

(** Indices out of the bounds: every call panics. *)
Lemma out_of_range_panics : forall s name path v dims N c out, state_ok s -> In (name, dims, N) cdf_shapes ->
  ~ Forall2 (fun i d => 0 <= i < Z.of_nat d) path dims ->
  run_writer c s out (Ok (name, path, v)) = Panic.
Proof.
  intros s name path v dims N c out S I H. destruct (state_field _ _ _ _ _ shapes_nodup S I) as (t & F & T1 & T2).
  unfold run_writer. cbn [bind]. rewrite F. cbn [bind].
  assert (G : tab_get t path = Panic); [|rewrite G; reflexivity].
  destruct (Forall_dec (fun i => 0 <= i) (fun i => Z_le_dec 0 i) path) as [P|P].
  - rewrite (tab_get_at _ _ P). destruct (tab_at t (map Z.to_nat path)) as [row|] eqn:E; [|reflexivity].
    exfalso. apply H. apply path_z; [exact P|]. exact (T2 _ _ E).
  - clear -P. revert t P. induction path as [|i p IH]; intros t P; [exfalso; apply P; constructor|].
    destruct t as [r|l]; [reflexivity|]. cbn [tab_get]. unfold idx. destruct (Z.ltb_spec i 0); [reflexivity|].
    destruct (nth_error l (Z.to_nat i)); [|reflexivity]. cbn [bind]. apply IH. intros X. apply P. constructor; assumption.
Qed.

(** The arrays stay valid. *)
Lemma tab_at_set : forall p t row q, Forall (fun i => 0 <= i) p -> reach t p ->
  tab_at (tab_set t p row) q = if list_eq_dec Nat.eq_dec (map Z.to_nat p) q then Some row else tab_at t q.
Proof.
  induction p as [|i p IH]; intros t row q H [x G]; destruct t as [r|l]; cbn [tab_get] in G; try discriminate.
  - cbn [map tab_set]. destruct q; cbn; reflexivity.
  - inversion H as [|? ? Hi Hp]; subst. apply bind_inv in G. destruct G as (t & I & G). apply idx_inv in I. destruct I as [_ I].
    cbn [tab_set map]. rewrite I. destruct q as [|j q]; [reflexivity|]. cbn [tab_at].
    assert (X : forall (l : list tab) k y j, nth_error (set_nth k y l) j =
      if Nat.eqb k j then (match nth_error l j with Some _ => Some y | None => None end) else nth_error l j).
    { clear. induction l as [|a l IH]; intros [|k] y [|j]; cbn [set_nth nth_error Nat.eqb]; try reflexivity; [|apply IH].
      destruct (Nat.eqb k j); reflexivity. }
    rewrite X. destruct (Nat.eqb_spec (Z.to_nat i) j) as [<-|Nj].
    + rewrite I. rewrite (IH t row q Hp (ex_intro _ x G)).
      destruct (list_eq_dec Nat.eq_dec (map Z.to_nat p) q) as [->|Nq];
        destruct (list_eq_dec Nat.eq_dec (Z.to_nat i :: _) (Z.to_nat i :: q)) as [E|E]; try reflexivity; congruence.
    + destruct (list_eq_dec Nat.eq_dec (Z.to_nat i :: map Z.to_nat p) (j :: q)) as [E|E]; [congruence|reflexivity].
Qed.

Lemma table_ok_set : forall t dims N path row, table_ok t dims N -> Forall2 (fun i d => 0 <= i < Z.of_nat d) path dims ->
  reach t path -> valid_cdf N row -> table_ok (tab_set t path row) dims N.
Proof.
  intros t dims N path row [T1 T2] P R V. destruct (path_nat _ _ P) as [P1 P2]. split.
  - intros q Hq. rewrite (tab_at_set _ _ _ _ P1 R). destruct (list_eq_dec _ _ _); [|apply T1; exact Hq].
    exists row. split; [reflexivity|exact V].
  - intros q r. rewrite (tab_at_set _ _ _ _ P1 R). destruct (list_eq_dec _ _ _) as [<-|_]; [intros _; exact P2|apply T2].
Qed.

Lemma state_set : forall shapes s name t dims N, NoDup (map (fun sh : string * list nat * nat => fst (fst sh)) shapes) ->
  Forall2 (fun (e : string * tab) sh => fst e = fst (fst sh) /\ table_ok (snd e) (snd (fst sh)) (snd sh)) s shapes ->
  In (name, dims, N) shapes -> table_ok t dims N ->
  Forall2 (fun (e : string * tab) sh => fst e = fst (fst sh) /\ table_ok (snd e) (snd (fst sh)) (snd sh)) (set_field s name t) shapes.
Proof.
  intros shapes s name t dims N D H. induction H as [|[n u] sh s shapes [E T] H IH]; intros I V; [destruct I|].
  cbn [map fst snd] in *. inversion D as [|? ? D1 D2]; subst. cbn [set_field]. destruct I as [->|I].
  - cbn [fst snd] in *. rewrite String.eqb_refl. constructor; [split; [reflexivity|exact V]|exact H].
  - destruct (String.eqb_spec (fst (fst sh)) name) as [X|X].
    + exfalso. apply D1. rewrite X. change name with (fst (fst (name, dims, N))). apply in_map with (f := fun sh : string * list nat * nat => fst (fst sh)). exact I.
    + constructor; [split; [reflexivity|exact T]|apply IH; assumption].
Qed.

Lemma writer_keeps_state : forall s e c out c' s' out', state_ok s -> in_range e ->
  run_writer c s out (Ok e) = Ok (c', s', out') -> state_ok s'.
Proof.
  intros s [[n p] v] c out c' s' out' S (dims & N & I & P & V) E.
  destruct (element_reach _ _ _ _ _ _ S I P V) as (t & row & F & T & G & C).
  unfold run_writer in E. cbn [bind] in E. rewrite F in E. cbn [bind] in E. rewrite G in E. cbn [bind] in E.
  apply bind_inv in E. destruct E as ([[c1 o1] row1] & E & X). injection X as <- <- <-.
  apply (state_set _ _ _ _ dims N shapes_nodup S I). apply table_ok_set; [exact T|exact P|exists row; exact G|].
  exact (encode_keeps_valid N row v c out c1 o1 row1 C E).
Qed.
