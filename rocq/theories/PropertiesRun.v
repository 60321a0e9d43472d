(** Property C123: how a run of the program can end. *)
From Coq Require Import ZArith List Bool String Lia.
From Verif Require Import Base OptionModel OptionSpec OptionProofs MainModel MainSpec MainProofs FileProofs.
Import ListNotations.
Open Scope list_scope.
Open Scope Z_scope.

(** C123 is false: frames of two columns are accepted, and crash the program. *)
Theorem C123_accepted_runs_refuted : exists args c, accepted args c /\ forall rep video, no_failure rep -> main args rep video = Panic.
Proof.
  exists (map lit ["-i"; "a"; "-o"; "b"; "-s"; "2x288"]%string), (mkConfig (Some (lit "a")) (Some (lit "b")) (Some 2) (Some 288) (Some (30, 1)) (Some 4294967295)).
  assert (A : accepted (map lit ["-i"; "a"; "-o"; "b"; "-s"; "2x288"]%string) (mkConfig (Some (lit "a")) (Some (lit "b")) (Some 2) (Some 288) (Some (30, 1)) (Some 4294967295)))
    by (exists initial, []; split; [exact init_config_ok|]; split; vm_compute; reflexivity).
  split; [exact A|]. intros rep video NF. apply crash_iff. right. eexists _, 2, 288, 4294967295. split; [exact A|]. repeat split; try apply NF; lia.
Qed.
Print Assumptions C123_accepted_runs_refuted.

(** Exactly these runs crash: with arguments that cannot be sliced or a frame rate of
    denominator zero (C32), or with a width or height below 3, once the first frame has
    been read. *)
Theorem C123_crash_iff : forall args rep video, main args rep video = Panic <->
  (exists its a1 tail, Forall (fun i => is_frac i = false) its /\ cmdline its a1 /\ args = a1 ++ tail /\
    ((exists s junk, tail = s :: junk /\ unsliceable s) \/ (exists f v n junk, tail = f :: v :: junk /\ denotes f v (IFrac n 0)))) \/
  (exists c w h n, accepted args c /\ cf_width c = Some w /\ cf_height c = Some h /\ cf_frames c = Some n /\ 1 <= n /\ (w < 3 \/ h < 3) /\
    rep 0%nat <> Fail /\ rep 1%nat <> Fail /\ rep 2%nat <> Fail).
Proof. exact crash_iff. Qed.
Print Assumptions C123_crash_iff.

(** All others end, whatever is read: refused if the arguments are not accepted,
    otherwise by encoding. *)
Theorem C123_ends : forall args rep video, main args rep video = Panic \/
  (main args rep video = Ok Refused /\ forall c, ~ accepted args c) \/
  (exists c b fs ex, main args rep video = Ok (Ran b fs ex) /\ accepted args c).
Proof.
  intros args rep video. destruct (main_cases args rep video) as [[_ M]|[[c A]|(N & _ & M)]]; [left; exact M| |right; left; split; assumption].
  destruct (main_accepted_cases args c rep video A) as (w & h & n & _ & _ & _ & [(M & _)|((b & fs & ex & M) & _)]); [left; exact M|right; right; exists c, b, fs, ex; split; assumption].
Qed.
Print Assumptions C123_ends.

(** One run of each kind. *)
Example C123_case : forall rep video, main (map lit ["-i"; "a"]%string) rep video = Ok Refused /\ main [[]] rep video = Panic /\
  main (map lit ["-i"; "a"; "-o"; "b"; "-s"; "3x3"; "-fr"; "0"]%string) rep video = Ok (Ran [] [] false).
Proof. intros rep video. repeat split; vm_compute; reflexivity. Qed.
