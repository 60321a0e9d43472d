(** Property C126: the help text and the command line agree. *)
From Coq Require Import List Ascii String.
From Verif Require Import Base OptionModel HelpModel HelpSpec HelpProofs.
Import ListNotations.
Open Scope list_scope.

(** A flag can be used exactly if the help text lists it. *)
Theorem C126_listed : forall f, usable f <-> exists l, In l help_text /\ In f (flags_of_line l).
Proof. exact help_flags. Qed.
Print Assumptions C126_listed.

(** The two flags of a line do the same, whatever follows them. *)
Theorem C126_same : forall l f g, In l help_text -> In f (flags_of_line l) -> In g (flags_of_line l) ->
  forall args c, parse (f :: args) c = parse (g :: args) c.
Proof. exact help_same. Qed.
Print Assumptions C126_same.

(** The line of the frame rate, and a flag that no line has. *)
Example C126_case : In (lit "--framerate (-r): video frame rate (N/D, or N for N/1)") help_text /\
  flags_of_line (lit "--framerate (-r): video frame rate (N/D, or N for N/1)") = [lit "--framerate"; lit "-r"] /\
  ~ usable (lit "--bitrate").
Proof.
  split; [vm_compute; tauto|]. split; [vm_compute; reflexivity|]. rewrite C126_listed. intros (l & A & B).
  assert (X : In (lit "--bitrate") listed) by (apply listed_iff; exists l; split; assumption).
  vm_compute in X. repeat (destruct X as [X|X]; [discriminate X|]). destruct X.
Qed.
