(** Property C122: the output file. *)
From Coq Require Import ZArith List Bool String Lia.
From Verif Require Import Base SeqModel ObuSpec OptionModel OptionProofs MainModel MainSpec MainProofs FileModel FileSpec FileProofs.
Import ListNotations.
Open Scope list_scope.
Open Scope Z_scope.

(** C122 is false: after a read error in the second frame nothing of the first is in
    the file, although its bytes were written. *)
Theorem C122_kept_refuted : exists args rep video b fs, main args rep video = Ok (Ran b fs true) /\ len fs = 1 /\ len b = 11 /\
  output_file (main args rep video) = Some [].
Proof.
  exists (map lit ["-i"; "a"; "-o"; "b"; "-fr"; "2"; "-s"; "176x144"]%string), (fun i => if Nat.eqb i 3 then Fail else Got 0), [].
  eexists [0; 25; 151; 143; 64; 0; 32; 24; 16; 8; 8], [zero_planes]. split; [vm_compute; reflexivity|]. repeat split; vm_compute; reflexivity.
Qed.
Print Assumptions C122_kept_refuted.

(** Exactly: the file has the whole stream if none of the reads fails, three for each
    frame asked for, and is empty if one does. *)
Theorem C122_file_iff : forall args c rep video w h n, accepted args c ->
  cf_width c = Some w -> cf_height c = Some h -> cf_frames c = Some n -> 3 <= w -> 3 <= h -> 1 <= n ->
  exists f code pb e' h', output_file (main args rep video) = Some f /\ enc_seq [] enc_new (seq_new w h) = Ok (code, e', h') /\ packs code pb /\
    (f = pb ++ [24; 16; 8; 8] /\ (forall j, Z.of_nat j < 3 * n -> rep j <> Fail) \/ f = [] /\ exists j, Z.of_nat j < 3 * n /\ rep j = Fail).
Proof. exact file_iff. Qed.
Print Assumptions C122_file_iff.

(** What such a run had done: the frames before the error were read, and with the first
    of them the stream was written. *)
Theorem C122_stops_at_error : forall args c rep video w h n k, accepted args c -> first_failure rep k -> Z.of_nat k < 3 * n ->
  cf_width c = Some w -> cf_height c = Some h -> cf_frames c = Some n -> 3 <= w -> 3 <= h ->
  exists code pb fs e' h', main args rep video = Ok (Ran (if Nat.ltb k 3 then [] else pb ++ [24; 16; 8; 8]) fs true) /\
    enc_seq [] enc_new (seq_new w h) = Ok (code, e', h') /\ packs code pb /\ len fs = Z.of_nat k / 3.
Proof. exact main_fail. Qed.
Print Assumptions C122_stops_at_error.

(** For a stream of any length: without the end of [main] the file has whole blocks of
    8192 bytes only, and the last block, full or not, is missing; with it, all bytes. *)
Theorem C122_held_back : forall bytes,
  bw_file (bw_bytes (mkBw [] []) bytes) = firstn (Z.to_nat (8192 * ((len bytes - 1) / 8192))) bytes /\
  bw_file (bw_drop (bw_bytes (mkBw [] []) bytes)) = bytes.
Proof. intros bytes. split; [apply bw_unflushed|apply bw_flushed]. Qed.
Print Assumptions C122_held_back.

Example C122_case : exists c, accepted (map lit ["-i"; "a"; "-o"; "b"; "-fr"; "2"; "-s"; "176x144"]%string) c /\
  cf_width c = Some 176 /\ cf_height c = Some 144 /\ cf_frames c = Some 2.
Proof.
  exists (mkConfig (Some (lit "a")) (Some (lit "b")) (Some 176) (Some 144) (Some (30, 1)) (Some 2)). split; [|repeat split].
  exists initial, []. split; [exact init_config_ok|]. split; vm_compute; reflexivity.
Qed.
Example C122_case_failure : first_failure (fun i => if Nat.eqb i 3 then Fail else Got 0) 3.
Proof. split; [reflexivity|]. intros j H. destruct (Nat.eqb_spec j 3); [lia|discriminate]. Qed.
