(** The order of the options (C121). *)
From Coq Require Import ZArith List Bool Lia Permutation.
From Verif Require Import Base OptionModel OptionSpec OptionProofs MainModel OrderSpec.
Import ListNotations.
Open Scope Z_scope.

Lemma latest_cons {A} (get : item -> option A) i its old : latest get (i :: its) old = latest get its (match get i with Some a => Some a | None => old end).
Proof. reflexivity. Qed.
Lemma latest_perm {A} (get : item -> option A) k its1 its2 : (forall i, get i <> None -> setting i = k) -> Permutation its1 its2 ->
  NoDup (map setting its1) -> forall old, latest get its1 old = latest get its2 old.
Proof.
  intros G P. induction P as [|i l l' P IH|i j l|l1 l2 l3 P1 IH1 P2 IH2]; intros D old; [reflexivity| | |].
  - rewrite !latest_cons. cbn [map] in D. inversion D; subst. apply IH. assumption.
  - rewrite !latest_cons. cbn [map] in D. inversion D as [|? ? D1 D2]; subst.
    destruct (get i) eqn:Ei, (get j) eqn:Ej; try reflexivity. exfalso. apply D1. left. rewrite (G i), (G j) by congruence. reflexivity.
  - rewrite IH1 by exact D. apply IH2. eapply Permutation_NoDup; [apply Permutation_map, P1|exact D].
Qed.

Definition result (its : list item) (c : config) : config :=
  mkConfig (latest (fun i => match i with IInput s => Some s | _ => None end) its (cf_input c))
    (latest (fun i => match i with IOutput s => Some s | _ => None end) its (cf_output c))
    (latest (fun i => match i with ISize w _ => Some w | _ => None end) its (cf_width c))
    (latest (fun i => match i with ISize _ h => Some h | _ => None end) its (cf_height c))
    (latest (fun i => match i with IRate n => Some (n, 1) | IFrac n d => Some (n / Z.gcd n d, d / Z.gcd n d) | _ => None end) its (cf_rate c))
    (latest (fun i => match i with IFrames n => Some n | _ => None end) its (cf_frames c)).
Lemma result_means its c : meaning its c (result its c).
Proof. repeat split. Qed.
Lemma result_perm its1 its2 c : Permutation its1 its2 -> NoDup (map setting its1) -> result its1 c = result its2 c.
Proof.
  intros P D. unfold result. f_equal.
  - apply (latest_perm _ 0); [intros []; cbn; congruence|exact P|exact D].
  - apply (latest_perm _ 1); [intros []; cbn; congruence|exact P|exact D].
  - apply (latest_perm _ 3); [intros []; cbn; congruence|exact P|exact D].
  - apply (latest_perm _ 3); [intros []; cbn; congruence|exact P|exact D].
  - apply (latest_perm _ 4); [intros []; cbn; congruence|exact P|exact D].
  - apply (latest_perm _ 2); [intros []; cbn; congruence|exact P|exact D].
Qed.

Lemma parse_result its fin args c : Forall (fun i => is_frac i = false) its -> fin = [] \/ (exists n d, fin = [IFrac n d] /\ d <> 0) ->
  cmdline (its ++ fin) args -> parse args c = Ok (result (its ++ fin) c, POk []).
Proof.
  intros F E L. apply parse_success. split; [reflexivity|]. destruct E as [-> |(n & d & -> & D)].
  - left. exists its. rewrite app_nil_r in *. split; [exact F|]. split; [exact L|apply result_means].
  - right. exists its, n, d, args, []. rewrite app_nil_r. split; [exact F|]. split; [exact D|]. split; [exact L|]. split; [reflexivity|apply result_means].
Qed.
Lemma order_irrelevant its1 its2 fin a1 a2 c : Permutation its1 its2 -> NoDup (map setting (its1 ++ fin)) ->
  Forall (fun i => is_frac i = false) its1 -> fin = [] \/ (exists n d, fin = [IFrac n d] /\ d <> 0) ->
  cmdline (its1 ++ fin) a1 -> cmdline (its2 ++ fin) a2 ->
  exists c', parse a1 c = Ok (c', POk []) /\ parse a2 c = Ok (c', POk []).
Proof.
  intros P D F E L1 L2. exists (result (its1 ++ fin) c). split; [apply parse_result; assumption|].
  rewrite (result_perm _ (its2 ++ fin) c); [|apply Permutation_app_tail, P|exact D]. apply parse_result; [|exact E|exact L2].
  eapply Permutation_Forall; eassumption.
Qed.
Lemma order_program its1 its2 fin a1 a2 rep video : Permutation its1 its2 -> NoDup (map setting (its1 ++ fin)) ->
  Forall (fun i => is_frac i = false) its1 -> fin = [] \/ (exists n d, fin = [IFrac n d] /\ d <> 0) ->
  cmdline (its1 ++ fin) a1 -> cmdline (its2 ++ fin) a2 -> main a1 rep video = main a2 rep video.
Proof.
  intros P D F E L1 L2.
  assert (N : a1 = [] <-> a2 = []).
  { assert (PF := Permutation_app_tail fin P). revert PF L1 L2. generalize (its1 ++ fin) (its2 ++ fin). intros l1 l2 PF L1 L2. destruct L1, L2.
    - tauto.
    - apply Permutation_nil in PF. discriminate.
    - apply Permutation_sym, Permutation_nil in PF. discriminate.
    - split; discriminate. }
  unfold main. destruct a1 as [|x a1].
  - rewrite (proj1 N eq_refl). reflexivity.
  - destruct a2 as [|y a2]; [discriminate (proj2 N eq_refl)|].
    destruct (init_config config_default) as [c| |]; [|reflexivity|reflexivity]. cbn [bind].
    destruct (order_irrelevant its1 its2 fin _ _ c P D F E L1 L2) as (c' & -> & ->). reflexivity.
Qed.
(** Settings given once more: what counts is the last of them. *)
Lemma repeated_last its fin args c i : Forall (fun i => is_frac i = false) its -> fin = [] \/ (exists n d, fin = [IFrac n d] /\ d <> 0) ->
  cmdline (i :: its ++ fin) args -> is_frac i = false -> In (setting i) (map setting (its ++ fin)) ->
  exists f v rest, args = f :: v :: rest /\ parse args c = parse rest c.
Proof.
  intros F E L N K. inversion L as [|f v it its' rest Hd L' E1 E2]; subst. exists f, v, rest. split; [reflexivity|].
  rewrite (parse_result its fin rest c F E L'). change (i :: its ++ fin) with ((i :: its) ++ fin) in L. rewrite (parse_result (i :: its) fin _ c (Forall_cons _ N F) E L).
  f_equal. f_equal. cbn [app]. assert (X : forall (A : Type) (get : item -> option A) k, (forall j, setting j = k -> get j <> None) -> (forall j, get j <> None -> setting j = k) -> forall old,
    latest get (i :: its ++ fin) old = latest get (its ++ fin) old).
  { intros A get k G1 G2 old. rewrite latest_cons. destruct (get i) as [a|] eqn:Gi; [|reflexivity]. assert (Ki : setting i = k) by (apply G2; congruence). rewrite Ki in K.
    revert K. generalize (its ++ fin) (Some a). intros l. revert old. induction l as [|j l IH]; intros old a' K; [destruct K|]. rewrite !latest_cons.
    destruct (get j) as [b|] eqn:Gj; [reflexivity|]. apply IH. destruct K as [K|K]; [|exact K]. exfalso. exact (G1 j K Gj). }
  unfold result. f_equal.
  - apply (X _ _ 0); intros []; cbn; congruence.
  - apply (X _ _ 1); intros []; cbn; congruence.
  - apply (X _ _ 3); intros []; cbn; congruence.
  - apply (X _ _ 3); intros []; cbn; congruence.
  - apply (X _ _ 4); intros []; cbn; congruence.
  - apply (X _ _ 2); intros []; cbn; congruence.
Qed.
