(** Properties C30-C34, C50, C51: command line, reader and [main]. *)
From Coq Require Import ZArith List Bool Ascii String Lia.
From Verif Require Import Base WriterModel UtilSpec SeqModel SeqSpec ObuModel ObuSpec OptionModel OptionSpec OptionProofs MainModel MainSpec MainProofs.
Import ListNotations.
Open Scope list_scope.
Open Scope Z_scope.

(** C30. *)
Theorem C30_accepted_is_usable : forall args c0 c r, init_config config_default = Ok c0 -> parse args c0 = Ok (c, POk r) ->
  validate_config c = true ->
  exists i o w h n d f, c = mkConfig (Some i) (Some o) (Some w) (Some h) (Some (n, d)) (Some f) /\
    0 < w < 8192 /\ 0 < h < 8192 /\ 0 < n /\ 0 < d /\ Z.gcd n d = 1 /\ 0 <= f < 2 ^ 64.
Proof. exact accepted_usable. Qed.
Print Assumptions C30_accepted_is_usable.
Definition C30_args : list str := map lit ["-i"; "in.yuv"; "--output"; "out.obu"; "-s"; "352x+288"; "--framerate"; "50/2"]%string.
Example C30_case : accepted C30_args
  (mkConfig (Some (lit "in.yuv")) (Some (lit "out.obu")) (Some 352) (Some 288) (Some (25, 1)) (Some 4294967295)).
Proof. exists (mkConfig None None None None (Some (30, 1)) (Some 4294967295)), []. repeat split; vm_compute; reflexivity. Qed.

(** C31 is false: a frame rate N/D drops every argument after it. *)
Theorem C31_honoured_refuted : exists c0 c r, init_config config_default = Ok c0 /\
  parse (map lit ["-r"; "25/1"; "-i"; "in.yuv"; "nonsense"]%string) c0 = Ok (c, POk r) /\ cf_input c = None.
Proof.
  exists (mkConfig None None None None (Some (30, 1)) (Some 4294967295)), (mkConfig None None None None (Some (25, 1)) (Some 4294967295)), [].
  split; [vm_compute; reflexivity|]. split; [vm_compute; reflexivity|]. reflexivity.
Qed.
Print Assumptions C31_honoured_refuted.
(** Exactly then: success means a well formed command line whose last settings are
    in force, or one cut off after the first N/D frame rate. *)
Theorem C31_success_iff : forall args c c' r, parse args c = Ok (c', POk r) <->
  r = [] /\
  ((exists its, Forall (fun i => is_frac i = false) its /\ cmdline its args /\ meaning its c c') \/
   (exists its n d a1 junk, Forall (fun i => is_frac i = false) its /\ d <> 0 /\ cmdline (its ++ [IFrac n d]) a1 /\
      args = a1 ++ junk /\ meaning (its ++ [IFrac n d]) c c')).
Proof. exact parse_success. Qed.
Print Assumptions C31_success_iff.
Example C31_case : cmdline [ISize 352 288; IFrac 50 2] (map lit ["-s"; "352x+288"; "--framerate"; "50/2"]%string).
Proof.
  apply (cl_cons (lit "-s") (lit "352" ++ "x"%char :: lit "+288")).
  - apply d_size; [right; reflexivity| |]; apply from_str_ok; reflexivity.
  - apply (cl_cons (lit "--framerate") (lit "50" ++ "/"%char :: lit "2")); [|constructor].
    apply d_frac; [left; reflexivity| |]; apply from_str_ok; reflexivity.
Qed.

(** C32 is false. *)
Theorem C32_never_panics_refuted : forall c,
  parse [[]] c = Panic /\ parse [lit "-"] c = Panic /\ parse (map lit ["-r"; "30/0"]%string) c = Panic.
Proof. intros c. repeat split; vm_compute; reflexivity. Qed.
Print Assumptions C32_never_panics_refuted.
(** Exactly these panic: after well formed options, an argument that cannot be
    sliced or a zero denominator. *)
Theorem C32_panics_iff : forall args c, parse args c = Panic <->
  exists its a1 tail, Forall (fun i => is_frac i = false) its /\ cmdline its a1 /\ args = a1 ++ tail /\
   ((exists s junk, tail = s :: junk /\ unsliceable s) \/
    (exists f v n junk, tail = f :: v :: junk /\ denotes f v (IFrac n 0))).
Proof. exact parse_panics. Qed.
Print Assumptions C32_panics_iff.
Theorem C32_exits_iff : forall args c c', parse args c = Ok (c', PExit) <->
  exists its a1 s junk, Forall (fun i => is_frac i = false) its /\ cmdline its a1 /\ args = a1 ++ s :: junk /\
    flag s "--help" "-h" /\ meaning its c c'.
Proof. exact parse_exits. Qed.
Print Assumptions C32_exits_iff.
Theorem C32_always_returns : forall args c, parse args c <> Hang.
Proof. exact parse_never_hangs. Qed.
Print Assumptions C32_always_returns.

(** C33 holds when every read returns all it is asked for. *)
Theorem C33_full_reads : forall reps ns input, List.length reps = List.length ns ->
  Forall2 (fun r n => exists k, r = Got k /\ (n <= k)%nat) reps ns -> (list_sum ns <= List.length input)%nat ->
  exists vs, read_vecs reps ns input = Some (vs, skipn (list_sum ns) input) /\
    map fst vs = map Z.of_nat ns /\ map (fun v => List.length (snd v)) vs = ns /\
    List.concat (map snd vs) = firstn (list_sum ns) input.
Proof. exact read_vecs_full. Qed.
Print Assumptions C33_full_reads.
(** Any schedule: consecutive bytes are delivered, the rest of each vector is zero,
    and the count returned is the only sign of it. *)
Theorem C33_any_schedule : forall reps ns input, List.length reps = List.length ns -> ~ In Fail reps ->
  exists gots left, read_vecs reps ns input =
    Some (map (fun p => (len (fst p), fst p ++ repeat 0 (snd p - List.length (fst p)))) (combine gots ns), left) /\
    List.length gots = List.length ns /\ List.concat gots ++ left = input /\ Forall2 (fun g n => (List.length g <= n)%nat) gots ns.
Proof. exact read_vecs_any. Qed.
Print Assumptions C33_any_schedule.
Example C33_case : read_vecs [Got 9; Got 1] [2%nat; 3%nat] [7; 8; 9; 10; 11; 12] = Some ([(2, [7; 8]); (1, [9; 0; 0])], [10; 11; 12]).
Proof. reflexivity. Qed.
(** It is false of a regular file read through the buffered reader: of the third
    plane of the first frame only 1856 bytes are read. *)
Theorem C33_regular_file_refuted : forall file, 38016 <= len file ->
  exists y u v b1 b2 b3,
    buf_read_to_vec full (plane_y 176 144) (mkBuf [] file) = Some (25344, y, b1) /\
    buf_read_to_vec full (plane_uv 176 144) b1 = Some (6336, u, b2) /\
    buf_read_to_vec full (plane_uv 176 144) b2 = Some (1856, v, b3) /\
    y = firstn (Z.to_nat 25344) file /\
    u = firstn (Z.to_nat 6336) (skipn (Z.to_nat 25344) file) /\
    v = firstn (Z.to_nat 1856) (skipn (Z.to_nat 31680) file) ++ repeat 0 (Z.to_nat 4480).
Proof. exact first_frame_file. Qed.
Print Assumptions C33_regular_file_refuted.
Theorem C33_end_of_file_refuted : forall k n, read_to_vec (Got k) n [] = Some (0, repeat 0 n, []).
Proof. intros k n. destruct (read_ok (Got k) n [] ltac:(discriminate)) as (a & b & c & E & _ & H). destruct (H eq_refl) as (-> & -> & ->). exact E. Qed.
Print Assumptions C33_end_of_file_refuted.

(** C34 is false: the stream never depends on the video. *)
Theorem C34_output_ignores_video_refuted : forall args rep rep' video video', no_failure rep -> no_failure rep' ->
  bytes_of (main args rep video) = bytes_of (main args rep' video').
Proof. exact main_blind. Qed.
Print Assumptions C34_output_ignores_video_refuted.
(** What it is: the sequence header for the size given, then four bytes. *)
Theorem C34_output_exact : forall args c rep input w h n, accepted args c -> no_failure rep ->
  cf_width c = Some w -> cf_height c = Some h -> cf_frames c = Some n -> 3 <= w -> 3 <= h -> 1 <= n ->
  exists code pb fs e' h', main args rep input = Ok (Ran (pb ++ [24; 16; 8; 8]) fs false) /\
    enc_seq [] enc_new (seq_new w h) = Ok (code, e', h') /\ packs code pb /\ len fs = n /\ Forall (shape 176 144) fs /\
    (input = [] -> Forall (fun p => p = zero_planes) fs).
Proof. exact main_exact. Qed.
Print Assumptions C34_output_exact.
(** What a parser finds in it (the number of operating points read as it is written,
    C27): no tools but 128x128 superblocks, 8 bits, 4:2:0, colocated chroma, and the size
    without its leading bit. *)
Theorem C34_header_read : forall w h, 3 <= w <= 65535 -> 3 <= h <= 65535 ->
  (forall k, is_floor_log2 (w - 1) k <-> is_floor_log2 w k) -> (forall k, is_floor_log2 (h - 1) k <-> is_floor_log2 h k) ->
  exists code e' h' w1 h1, enc_seq [] enc_new (seq_new w h) = Ok (code, e', h') /\
    (forall k, is_floor_log2 w k -> w1 = (w - 1) mod 2 ^ k) /\ (forall k, is_floor_log2 h k -> h1 = (h - 1) mod 2 ^ k) /\
    forall r, rd_seq false (code ++ r) = Some (P_SEQ 0 false [] w1 h1 None
      (P_TOOLS true false false false false false false false false false 0 2 0 false false false)
      (P_COLOR 8 false 2 2 2 false true true (Some 2) false) None [] false, r).
Proof. exact default_header_read. Qed.
Print Assumptions C34_header_read.
Example C34_header_case : (forall k, is_floor_log2 (176 - 1) k <-> is_floor_log2 176 k) /\ (forall k, is_floor_log2 (144 - 1) k <-> is_floor_log2 144 k).
Proof.
  split; intros k; unfold is_floor_log2; split; intros [A B]; (assert (k = 7) as -> by (destruct (Z_lt_le_dec k 7); [assert (2 ^ (k + 1) <= 2 ^ 7) by (apply Z.pow_le_mono_r; lia); lia|destruct (Z_lt_le_dec 7 k); [assert (2 ^ 8 <= 2 ^ k) by (apply Z.pow_le_mono_r; lia); lia|lia]])); lia.
Qed.
Example C34_case : forall video, bytes_of (main (map lit ["-i"; "a"; "-o"; "b"; "-fr"; "1"; "-s"; "176x144"]%string) (fun _ => Got 1) video) =
  Some [0; 25; 151; 143; 64; 0; 32; 24; 16; 8; 8].
Proof. intros video. rewrite (main_blind _ _ (fun _ => Got 0) _ []) by (intros i; discriminate). vm_compute. reflexivity. Qed.

(** C50 is false: without read errors exactly the configured number of frames is
    processed however short the video is, by default 4294967295. *)
Theorem C50_stops_at_end_refuted : exists args, forall rep, no_failure rep -> exists b fs,
  main args rep [] = Ok (Ran b fs false) /\ len fs = 4294967295 /\ Forall (fun p => p = zero_planes) fs.
Proof.
  exists (map lit ["-i"; "a"; "-o"; "b"; "-s"; "176x144"]%string). intros rep NF.
  destruct (main_exact (map lit ["-i"; "a"; "-o"; "b"; "-s"; "176x144"]%string)
    (mkConfig (Some (lit "a")) (Some (lit "b")) (Some 176) (Some 144) (Some (30, 1)) (Some 4294967295)) rep [] 176 144 4294967295)
    as (code & pb & fs & e' & h' & M & _ & _ & L & _ & Zr); try assumption; try reflexivity; try lia.
  - exists initial, []. split; [exact init_config_ok|]. split; vm_compute; reflexivity.
  - exists (pb ++ [24; 16; 8; 8]), fs. split; [exact M|]. split; [exact L|]. apply Zr. reflexivity.
Qed.
Print Assumptions C50_stops_at_end_refuted.
Theorem C50_frames_processed : forall args c rep video w h n, accepted args c -> no_failure rep ->
  cf_width c = Some w -> cf_height c = Some h -> cf_frames c = Some n -> 3 <= w -> 3 <= h -> 1 <= n ->
  exists b fs, main args rep video = Ok (Ran b fs false) /\ len fs = n.
Proof.
  intros args c rep video w h n A NF Ew Eh En Hw Hh Hn.
  destruct (main_exact args c rep video w h n A NF Ew Eh En Hw Hh Hn) as (code & pb & fs & e' & h' & M & _ & _ & L & _). eauto.
Qed.
Print Assumptions C50_frames_processed.

(** C51 is false: the planes have the configured size only for 25344 samples. *)
Theorem C51_plane_size_iff : forall args c rep video w h n, accepted args c -> no_failure rep ->
  cf_width c = Some w -> cf_height c = Some h -> cf_frames c = Some n -> 3 <= w -> 3 <= h -> 1 <= n ->
  exists b fs, main args rep video = Ok (Ran b fs false) /\ (Forall (shape w h) fs <-> w * h = 176 * 144).
Proof. exact planes_not_configured. Qed.
Print Assumptions C51_plane_size_iff.
Theorem C51_plane_size_refuted : exists args c, accepted args c /\ cf_width c = Some 352 /\ cf_height c = Some 288 /\
  forall rep video, no_failure rep -> exists b fs, main args rep video = Ok (Ran b fs false) /\ ~ Forall (shape 352 288) fs.
Proof.
  exists C30_args. eexists. split; [exact C30_case|]. split; [reflexivity|]. split; [reflexivity|]. intros rep video NF.
  destruct (planes_not_configured C30_args _ rep video 352 288 4294967295 C30_case NF) as (b & fs & M & I); try reflexivity; try lia.
  exists b, fs. split; [exact M|]. intros F. apply I in F. lia.
Qed.
Print Assumptions C51_plane_size_refuted.
