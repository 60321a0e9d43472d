(** Property C121: the order of the options. *)
From Coq Require Import ZArith List Bool Ascii String Lia Permutation.
From Verif Require Import Base OptionModel OptionSpec OptionProofs MainModel OrderSpec OrderProofs.
Import ListNotations.
Open Scope list_scope.
Open Scope Z_scope.

(** C121 is false: with a frame rate N/D before it, an option is lost. *)
Theorem C121_order_refuted : exists its1 its2 a1 a2 c1 c2, Permutation its1 its2 /\ NoDup (map setting its1) /\
  cmdline its1 a1 /\ cmdline its2 a2 /\
  parse a1 config_default = Ok (c1, POk []) /\ parse a2 config_default = Ok (c2, POk []) /\ cf_frames c1 = Some 7 /\ cf_frames c2 = None.
Proof.
  exists [IFrames 7; IFrac 50 2], [IFrac 50 2; IFrames 7], (map lit ["-fr"; "7"; "-r"; "50/2"]%string), (map lit ["-r"; "50/2"; "-fr"; "7"]%string),
    (mkConfig None None None None (Some (25, 1)) (Some 7)), (mkConfig None None None None (Some (25, 1)) None).
  split; [apply perm_swap|]. split; [repeat constructor; cbn; intuition discriminate|].
  assert (F : denotes (lit "-fr") (lit "7") (IFrames 7)) by (apply d_frames; [right; reflexivity|apply from_str_ok; reflexivity]).
  assert (R : denotes (lit "-r") (lit "50" ++ "/"%char :: lit "2") (IFrac 50 2)) by (apply d_frac; [right; reflexivity| |]; apply from_str_ok; reflexivity).
  split; [exact (cl_cons _ _ _ _ _ F (cl_cons _ _ _ _ _ R cl_nil))|]. split; [exact (cl_cons _ _ _ _ _ R (cl_cons _ _ _ _ _ F cl_nil))|].
  repeat split; vm_compute; reflexivity.
Qed.
Print Assumptions C121_order_refuted.

(** That is the only case: options for different settings, written in any of their
    forms and in any order, with a frame rate N/D only at the end, are accepted with
    the same result. *)
Theorem C121_order : forall its1 its2 fin a1 a2 c, Permutation its1 its2 -> NoDup (map setting (its1 ++ fin)) ->
  Forall (fun i => is_frac i = false) its1 -> fin = [] \/ (exists n d, fin = [IFrac n d] /\ d <> 0) ->
  cmdline (its1 ++ fin) a1 -> cmdline (its2 ++ fin) a2 ->
  exists c', parse a1 c = Ok (c', POk []) /\ parse a2 c = Ok (c', POk []).
Proof. exact order_irrelevant. Qed.
Print Assumptions C121_order.

(** So the whole program does the same, whatever the video and however it is read. *)
Theorem C121_program : forall its1 its2 fin a1 a2 rep video, Permutation its1 its2 -> NoDup (map setting (its1 ++ fin)) ->
  Forall (fun i => is_frac i = false) its1 -> fin = [] \/ (exists n d, fin = [IFrac n d] /\ d <> 0) ->
  cmdline (its1 ++ fin) a1 -> cmdline (its2 ++ fin) a2 -> main a1 rep video = main a2 rep video.
Proof. exact order_program. Qed.
Print Assumptions C121_program.

(** An option whose setting is given again later makes no difference. *)
Theorem C121_repeated : forall its fin args c i, Forall (fun i => is_frac i = false) its -> fin = [] \/ (exists n d, fin = [IFrac n d] /\ d <> 0) ->
  cmdline (i :: its ++ fin) args -> is_frac i = false -> In (setting i) (map setting (its ++ fin)) ->
  exists f v rest, args = f :: v :: rest /\ parse args c = parse rest c.
Proof. exact repeated_last. Qed.
Print Assumptions C121_repeated.

(** Four options in two orders, long and short. *)
Example C121_case : exists c', parse (map lit ["-i"; "a"; "--size"; "352x288"; "-fr"; "9"; "-r"; "50/2"]%string) config_default = Ok (c', POk []) /\
  parse (map lit ["--frames"; "9"; "-s"; "+352x0288"; "--input"; "a"; "--framerate"; "50/2"]%string) config_default = Ok (c', POk []).
Proof.
  apply (C121_order [IInput (lit "a"); ISize 352 288; IFrames 9] [IFrames 9; ISize 352 288; IInput (lit "a")] [IFrac 50 2]).
  - apply (Permutation_rev [IInput (lit "a"); ISize 352 288; IFrames 9]).
  - repeat constructor; cbn; intuition discriminate.
  - repeat constructor.
  - right. exists 50, 2. split; [reflexivity|lia].
  - apply (cl_cons (lit "-i") (lit "a")); [apply d_input; right; reflexivity|].
    apply (cl_cons (lit "--size") (lit "352" ++ "x"%char :: lit "288")); [apply d_size; [left; reflexivity| |]; apply from_str_ok; reflexivity|].
    apply (cl_cons (lit "-fr") (lit "9")); [apply d_frames; [right; reflexivity|apply from_str_ok; reflexivity]|].
    apply (cl_cons (lit "-r") (lit "50" ++ "/"%char :: lit "2")); [apply d_frac; [right; reflexivity| |]; apply from_str_ok; reflexivity|constructor].
  - apply (cl_cons (lit "--frames") (lit "9")); [apply d_frames; [left; reflexivity|apply from_str_ok; reflexivity]|].
    apply (cl_cons (lit "-s") (lit "+352" ++ "x"%char :: lit "0288")); [apply d_size; [right; reflexivity| |]; apply from_str_ok; reflexivity|].
    apply (cl_cons (lit "--input") (lit "a")); [apply d_input; left; reflexivity|].
    apply (cl_cons (lit "--framerate") (lit "50" ++ "/"%char :: lit "2")); [apply d_frac; [left; reflexivity| |]; apply from_str_ok; reflexivity|constructor].
Qed.
(** A size given twice. *)
Example C121_case_repeated : exists f v rest, map lit ["-s"; "1x1"; "-s"; "352x288"]%string = f :: v :: rest /\
  parse (map lit ["-s"; "1x1"; "-s"; "352x288"]%string) config_default = parse rest config_default.
Proof.
  apply (C121_repeated [ISize 352 288] [] _ _ (ISize 1 1)).
  - repeat constructor.
  - left. reflexivity.
  - apply (cl_cons (lit "-s") (lit "1" ++ "x"%char :: lit "1")); [apply d_size; [right; reflexivity| |]; apply from_str_ok; reflexivity|].
    apply (cl_cons (lit "-s") (lit "352" ++ "x"%char :: lit "288")); [apply d_size; [right; reflexivity| |]; apply from_str_ok; reflexivity|constructor].
  - reflexivity.
  - left. reflexivity.
Qed.
