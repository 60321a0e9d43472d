From Coq Require Import ZArith List String Lia Sorted Bool.
From Verif Require Import Base RangeCoderSpec SessionModel SessionSpec CdfTables CdfTableSpec.
Import ListNotations.
Open Scope Z_scope.

(** Checkers, run by computation. *)
Fixpoint increasing (prev : Z) (l : list Z) : bool :=
  match l with
  | [] => true
  | x :: r => (prev <? x) && increasing x r
  end.
Definition row_okb (N : nat) (row : list Z) : bool :=
  (Nat.eqb (List.length row) (S N)) && (2 <=? N)%nat && (N <=? 1024)%nat &&
  increasing 0 (firstn N row) && (last (firstn N row) 0 =? 32768) && (last row 0 =? 0).

Lemma increasing_ok : forall l p, increasing p l = true -> Sorted Z.lt (p :: l).
Proof.
  induction l as [|x l IH]; intros p H; [repeat constructor|]. cbn in H. apply andb_prop in H. destruct H as [A B].
  constructor; [apply IH; exact B|]. constructor. apply Z.ltb_lt. exact A.
Qed.

Lemma row_okb_ok : forall N row, row_okb N row = true -> valid_cdf N row.
Proof.
  intros N row H. unfold row_okb in H. repeat (apply andb_prop in H; destruct H as [H ?]).
  apply Nat.eqb_eq in H. apply Nat.leb_le in H3, H4. apply Z.eqb_eq in H0, H1.
  exists (firstn N row), (last row 0). repeat split; try assumption; try lia.
  - destruct (@exists_last _ row) as (a & x & ->); [intros ->; discriminate|].
    rewrite app_length in H. cbn in H. rewrite last_last. f_equal.
    rewrite firstn_app. replace (N - List.length a)%nat with 0%nat by lia. rewrite firstn_O, app_nil_r.
    symmetry. apply firstn_all2. lia.
  - rewrite firstn_length. lia.
  - apply increasing_ok. exact H2.
Qed.

Fixpoint tab_okb (t : tab) (dims : list nat) (N : nat) {struct dims} : bool :=
  match dims, t with
  | [], Row r => row_okb N r
  | d :: ds, Tab l => Nat.eqb (List.length l) d && forallb (fun t' => tab_okb t' ds N) l
  | _, _ => false
  end.

Lemma tab_okb_ok : forall dims t N, tab_okb t dims N = true -> table_ok t dims N.
Proof.
  induction dims as [|d ds IH]; intros t N H; destruct t as [r|l]; cbn in H; try discriminate.
  - apply row_okb_ok in H. split.
    + intros path F. inversion F; subst. exists r. split; [reflexivity|exact H].
    + intros path row E. destruct path; [constructor|discriminate].
  - apply andb_prop in H. destruct H as [L A]. apply Nat.eqb_eq in L. rewrite forallb_forall in A. split.
    + intros path F. inversion F as [|i ? p ? Hi Hp]; subst. cbn.
      destruct (nth_error l i) as [t'|] eqn:E; [|apply nth_error_None in E; lia].
      apply (IH t' N); [apply A; eapply nth_error_In; exact E|exact Hp].
    + intros path row E. destruct path as [|i p]; [discriminate|]. cbn in E.
      destruct (nth_error l i) as [t'|] eqn:E2; [|discriminate]. constructor.
      * subst d. apply nth_error_Some. congruence.
      * apply (IH t' N) with (row := row); [apply A; eapply nth_error_In; exact E2|exact E].
Qed.

Definition find_tab (name : string) : option tab :=
  option_map snd (find (fun p => String.eqb (fst p) name) default_cdf).

Definition all_okb : bool :=
  forallb (fun s => match find_tab (fst (fst s)) with Some t => tab_okb t (snd (fst s)) (snd s) | None => false end) cdf_shapes.
Lemma all_okb_true : all_okb = true.
Proof. vm_compute. reflexivity. Qed.

Lemma default_tables_ok : forall name dims N, In (name, dims, N) cdf_shapes ->
  exists t, In (name, t) default_cdf /\ table_ok t dims N.
Proof.
  intros name dims N H. pose proof all_okb_true as A. unfold all_okb in A. rewrite forallb_forall in A.
  specialize (A _ H). cbn [fst snd] in A. unfold find_tab in A.
  destruct (find _ default_cdf) as [[n t]|] eqn:F; [|discriminate]. cbn [option_map snd] in A.
  apply find_some in F. destruct F as [I E]. apply String.eqb_eq in E. cbn in E. subst n.
  exists t. split; [exact I|]. apply tab_okb_ok. exact A.
Qed.

Lemma default_names : map fst default_cdf = map (fun s => fst (fst s)) cdf_shapes /\ NoDup (map fst default_cdf).
Proof.
  split; [vm_compute; reflexivity|].
  assert (X : forall l : list string, (fix nd l := match l with [] => true | x :: r => negb (existsb (String.eqb x) r) && nd r end) l = true -> NoDup l).
  { induction l as [|x l IH]; intros H; [constructor|]. apply andb_prop in H. destruct H as [A B]. constructor; [|apply IH; exact B].
    intros I. apply negb_true_iff in A. assert (existsb (String.eqb x) l = true); [|congruence].
    apply existsb_exists. exists x. split; [exact I|apply String.eqb_refl]. }
  apply X. vm_compute. reflexivity.
Qed.

Lemma default_table_valid : valid_table default_sizes default_table.
Proof.
  assert (A : forallb (fun r => row_okb (List.length r - 1) r) default_table = true) by (vm_compute; reflexivity).
  unfold valid_table, default_sizes. revert A. generalize default_table as l. induction l as [|r l IH]; intros A; [constructor|].
  cbn [forallb] in A. apply andb_prop in A. destruct A as [A B]. cbn [map]. constructor; [apply row_okb_ok; exact A|apply IH; exact B].
Qed.
