(** Vocabulary for the properties of the reader and of [main]. *)
From Coq Require Import ZArith List Bool.
From Verif Require Import Base OptionModel MainModel.
Import ListNotations.
Open Scope list_scope.
Open Scope Z_scope.

(** A regular file: the operating system returns all it is asked for. *)
Definition full (n : nat) : reply := Got n.

(** No read fails; any may be short. *)
Definition no_failure (rep : nat -> reply) : Prop := forall i, rep i <> Fail.

(** The planes of a 4:2:0 frame of the given size. *)
Definition shape (w h : Z) (p : planes) : Prop :=
  len (p_y p) = w * h /\ len (p_u p) = w * h / 4 /\ len (p_v p) = w * h / 4.

(** A 176x144 frame with every sample zero. *)
Definition zero_planes : planes :=
  mkPlanes (repeat 0 (Z.to_nat 25344)) (repeat 0 (Z.to_nat 6336)) (repeat 0 (Z.to_nat 6336)).

(** The arguments are accepted with a configuration. *)
Definition accepted (args : list str) (c : config) : Prop :=
  exists c0 r, init_config config_default = Ok c0 /\ parse args c0 = Ok (c, POk r) /\ validate_config c = true.

(** The stream a run produced, if it ended normally. *)
Definition bytes_of (r : res run) : option (list Z) :=
  match r with Ok (Ran b _ _) => Some b | _ => None end.
