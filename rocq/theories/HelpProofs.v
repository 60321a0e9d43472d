(** The flags in the help text are those of the program (C126). *)
From Coq Require Import List Ascii String Bool ZArith Lia.
From Verif Require Import Base OptionModel OptionSpec OptionProofs HelpModel HelpSpec.
Import ListNotations.
Open Scope list_scope.

Definition listed : list str := List.concat (map flags_of_line help_text).
Lemma listed_eq : listed = map lit ["--help"; "-h"; "--input"; "-i"; "--output"; "-o"; "--frames"; "-fr"; "--size"; "-s"; "--framerate"; "-r"]%string.
Proof. vm_compute. reflexivity. Qed.

Lemma listed_iff f : (exists l, In l help_text /\ In f (flags_of_line l)) <-> In f listed.
Proof.
  unfold listed. rewrite in_concat. split.
  - intros (l & A & B). exists (flags_of_line l). split; [apply in_map; exact A|exact B].
  - intros (x & A & B). apply in_map_iff in A. destruct A as (l & <- & A). exists l. auto.
Qed.

Lemma usable_listed f : usable f -> In f listed.
Proof.
  intros (args & c & c' & p & E & N). unfold parse in E. rewrite parse_fuel_cons in E. rewrite listed_eq. cbn [map In].
  destruct (dispatch_flag f args c) as [H|[H|[H|[H|[H|[H|[H|H]]]]]]].
  { rewrite dispatch_unsliceable in E by exact H. discriminate E. }
  1-6: destruct H as [->| ->]; tauto.
  rewrite H in E. cbn [bind] in E. congruence.
Qed.
(** A value that each flag accepts. *)
Definition accepts (f : str) (args : list str) : bool :=
  match parse (f :: args) config_default with Ok (_, POk _) | Ok (_, PExit) => true | _ => false end.
Lemma accepts_usable f args : accepts f args = true -> usable f.
Proof.
  unfold accepts, usable. destruct (parse (f :: args) config_default) as [[c' p]| |] eqn:E; try discriminate.
  intros H. exists args, config_default, c', p. split; [exact E|]. destruct p; congruence.
Qed.
Lemma listed_usable f : In f listed -> usable f.
Proof.
  assert (X : forallb (fun f => accepts f [lit "1"] || accepts f [lit "1x1"]) listed = true) by (vm_compute; reflexivity).
  rewrite forallb_forall in X. intros H. specialize (X f H). apply orb_true_iff in X. destruct X as [X|X]; exact (accepts_usable _ _ X).
Qed.
Lemma help_flags f : usable f <-> exists l, In l help_text /\ In f (flags_of_line l).
Proof. rewrite listed_iff. split; [apply usable_listed|apply listed_usable]. Qed.

Lemma fl_eq : map flags_of_line help_text = map (map lit) [["--help"; "-h"]; ["--input"; "-i"]; ["--output"; "-o"]; ["--frames"; "-fr"]; ["--size"; "-s"]; ["--framerate"; "-r"]]%string.
Proof. vm_compute. reflexivity. Qed.
Lemma dispatch_same l f g : In l help_text -> In f (flags_of_line l) -> In g (flags_of_line l) ->
  forall args c, dispatch f args c = dispatch g args c.
Proof.
  intros L F G args c.
  assert (X : Forall (fun l => In (flags_of_line l) (map (map lit) [["--help"; "-h"]; ["--input"; "-i"]; ["--output"; "-o"]; ["--frames"; "-fr"]; ["--size"; "-s"]; ["--framerate"; "-r"]]%string)) help_text).
  { apply Forall_forall. intros x Hx. rewrite <- fl_eq. apply in_map. exact Hx. }
  rewrite Forall_forall in X. specialize (X l L). remember (flags_of_line l) as fl eqn:Q. clear Q. cbn [map In] in X.
  repeat (destruct X as [<-|X]; [cbn [In] in F, G; destruct F as [<-|[<-|[]]], G as [<-|[<-|[]]]; reflexivity|]). destruct X.
Qed.
Lemma help_same l f g : In l help_text -> In f (flags_of_line l) -> In g (flags_of_line l) ->
  forall args c, parse (f :: args) c = parse (g :: args) c.
Proof.
  intros L F G args c. unfold parse. cbn [List.length]. rewrite !parse_fuel_cons, (dispatch_same l f g L F G args c). reflexivity.
Qed.
