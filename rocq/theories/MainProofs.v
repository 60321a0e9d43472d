(** Proofs about the reader and [main]. *)
From Coq Require Import ZArith List Bool Lia.
From Verif Require Import Base BitsSpec BitsProofs RangeCoderModel BitCodecModel BitCodecProofs WriterModel WriterSpec WriterProofs UtilSpec SeqModel SeqSpec SeqProofs2 SeqProofs3
  ObuModel ObuSpec ObuProofs OptionModel OptionSpec OptionProofs MainModel MainSpec.
Import ListNotations.
Open Scope list_scope.
Open Scope Z_scope.

(** The default sequence header consists of bits. *)
Lemma push_range_bits : forall width v lo k out r, push_range width out v lo k = Ok r -> is_bits out -> is_bits r.
Proof.
  induction k as [|k IH]; intros out r E B; cbn [push_range] in E; [injection E as <-; assumption|].
  destruct (shift_ok width (lo + Z.of_nat k)); try discriminate E. cbn [bind] in E. apply IH in E; [assumption|].
  unfold push. apply is_bits_app. split; [assumption|]. constructor; [|constructor]. unfold bit_at.
  change 1 with (Z.ones 1) at 1. rewrite Z.land_ones by lia. unfold is_bit. pose proof (Z.mod_pos_bound (Z.shiftr v (lo + Z.of_nat k)) 2 ltac:(lia)).
  change (2 ^ 1) with 2. lia.
Qed.
Ltac unbind H := match type of H with bind ?x _ = Ok _ => destruct x eqn:?; [|discriminate H|discriminate H]; cbn [bind] in H end.
Lemma enc_size_bits : forall out h r, enc_size out h = Ok r -> is_bits out -> is_bits r.
Proof.
  intros out h r E B. unfold enc_size, push_bits_with_size in E. repeat unbind E.
  repeat match goal with H : push_range _ _ _ _ _ = Ok _ |- _ => apply push_range_bits in H; [|assumption] end. assumption.
Qed.
Lemma seq_new_bits : forall w h code e' h', enc_seq [] enc_new (seq_new w h) = Ok (code, e', h') -> is_bits code.
Proof.
  intros w h code e' h' E. lazy -[enc_size app] in E.
  match type of E with context [enc_size ?a ?b] => destruct (enc_size a b) as [o| |] eqn:S end; [|discriminate E..].
  apply enc_size_bits in S; [|repeat constructor; ((left; reflexivity) || (right; reflexivity))].
  lazy -[app] in E.
  apply (f_equal (fun r : res (list Z * enc * seqhdr) => match r with Ok (c, _, _) => c | _ => [] end)) in E. cbv beta iota in E. rewrite <- E. repeat (apply is_bits_app; split; [|constructor; [((left; reflexivity) || (right; reflexivity))|constructor]]).
  assumption.
Qed.

Lemma skipn_skipn : forall (A : Type) (n m : nat) (l : list A), skipn n (skipn m l) = skipn (n + m) l.
Proof.
  intros A n m. induction m as [|m IH]; intros l; [rewrite Nat.add_0_r; reflexivity|]. rewrite Nat.add_succ_r.
  destruct l; [rewrite !skipn_nil; reflexivity|]. cbn [skipn]. apply IH.
Qed.

(** Any schedule: the parts delivered are consecutive, the rest of each vector is
    zero and the count says how much was delivered. *)
Lemma read_vecs_any : forall reps ns input, length reps = length ns -> ~ In Fail reps ->
  exists gots left, read_vecs reps ns input =
    Some (map (fun p => (len (fst p), fst p ++ repeat 0 (snd p - length (fst p)))) (combine gots ns), left) /\
    length gots = length ns /\ concat gots ++ left = input /\ Forall2 (fun g n => (length g <= n)%nat) gots ns.
Proof.
  induction reps as [|r reps IH]; intros [|n ns] input L NF; try discriminate L.
  - exists [], input. repeat split. constructor.
  - destruct r as [|k]; [exfalso; apply NF; left; reflexivity|]. cbn [read_vecs read_to_vec read].
    injection L as L. destruct (IH ns (skipn (Nat.min k n) input) L ltac:(intros I; apply NF; right; assumption)) as (gots & left & E & E1 & E2 & F).
    unfold read_to_vec. cbn [read]. rewrite E. exists (firstn (Nat.min k n) input :: gots), left. split; [reflexivity|].
    split; [cbn; lia|]. split; [cbn [concat]; rewrite <- app_assoc, E2; apply firstn_skipn|].
    constructor; [rewrite firstn_length; lia|assumption].
Qed.

(** Reads that return everything asked for. *)
Lemma read_vecs_full : forall reps ns input, length reps = length ns ->
  Forall2 (fun r n => exists k, r = Got k /\ (n <= k)%nat) reps ns -> (list_sum ns <= length input)%nat ->
  exists vs, read_vecs reps ns input = Some (vs, skipn (list_sum ns) input) /\
    map fst vs = map Z.of_nat ns /\ map (fun v => length (snd v)) vs = ns /\
    concat (map snd vs) = firstn (list_sum ns) input.
Proof.
  induction reps as [|r reps IH]; intros [|n ns] input L F S; try discriminate L.
  - exists []. repeat split.
  - inversion F; subst. destruct H2 as (k & -> & K). injection L as L. cbn [list_sum fold_right] in S. fold (list_sum ns) in S.
    cbn [read_vecs]. unfold read_to_vec. cbn [read]. rewrite Nat.min_r by lia.
    destruct (IH ns (skipn n input) L H4 ltac:(rewrite skipn_length; lia)) as (vs & E & E1 & E2 & E3). rewrite E.
    eexists. split; [cbn [list_sum fold_right]; fold (list_sum ns); rewrite skipn_skipn; do 3 f_equal; lia|].
    cbn [map fst snd concat list_sum fold_right]. fold (list_sum ns). unfold len. rewrite app_length, repeat_length, firstn_length, E1, E2, E3.
    rewrite Nat.min_l by lia. split; [reflexivity|]. split; [f_equal; lia|].
    rewrite Nat.sub_diag, app_nil_r. cbn [repeat].
    replace (n + list_sum ns)%nat with (n + (list_sum ns))%nat by lia. clear. revert input. generalize (list_sum ns) as m.
    induction n as [|n IHn]; intros m input; cbn [firstn skipn app Nat.add]; [reflexivity|].
    destruct input as [|x input]; cbn [firstn skipn app]; [rewrite firstn_nil; reflexivity|]. f_equal. apply IHn.
Qed.

(** A regular file read through [BufReader]: the third plane of the first frame. *)
Lemma buf_direct : forall n f, (capacity <= n)%nat -> buf_read full n (mkBuf [] f) = Some (firstn n f, mkBuf [] (skipn n f)).
Proof.
  intros n f H. unfold buf_read. cbn [br_buf br_file]. rewrite (proj2 (Nat.leb_le _ _)) by assumption.
  unfold full, read. rewrite Nat.min_id. reflexivity.
Qed.
Lemma buf_fill : forall n f, (n < capacity)%nat -> buf_read full n (mkBuf [] f) =
  Some (firstn n (firstn capacity f), mkBuf (skipn n (firstn capacity f)) (skipn capacity f)).
Proof.
  intros n f H. unfold buf_read. cbn [br_buf br_file]. replace (Nat.leb capacity n) with false by (symmetry; apply Nat.leb_gt; assumption).
  unfold full, read. rewrite Nat.min_id. reflexivity.
Qed.
Lemma buf_held : forall n b f, b <> [] -> buf_read full n (mkBuf b f) = Some (firstn n b, mkBuf (skipn n b) f).
Proof. intros n [|x b] f H; [contradiction|]. reflexivity. Qed.

Lemma first_frame_file : forall file, 38016 <= len file ->
  exists y u v b1 b2 b3,
    buf_read_to_vec full (plane_y 176 144) (mkBuf [] file) = Some (25344, y, b1) /\
    buf_read_to_vec full (plane_uv 176 144) b1 = Some (6336, u, b2) /\
    buf_read_to_vec full (plane_uv 176 144) b2 = Some (1856, v, b3) /\
    y = firstn (Z.to_nat 25344) file /\
    u = firstn (Z.to_nat 6336) (skipn (Z.to_nat 25344) file) /\
    v = firstn (Z.to_nat 1856) (skipn (Z.to_nat 31680) file) ++ repeat 0 (Z.to_nat 4480).
Proof.
  intros file L. unfold len in L. unfold plane_y, plane_uv. change (176 * 144) with 25344. change (25344 / 4) with 6336.
  assert (exists N M C B T K, N = Z.to_nat 25344 /\ M = Z.to_nat 6336 /\ C = Z.to_nat 8192 /\ B = Z.to_nat 1856 /\ T = Z.to_nat 31680 /\ K = Z.to_nat 4480)
    as (N & M & C & B & T & K & HN & HM & HC & HB & HT & HK) by (do 6 eexists; repeat split).
  assert (capacity = C) as Hcap by (rewrite HC; reflexivity).
  rewrite <- HN, <- HM, <- HB, <- HT, <- HK.
  exists (firstn N file), (firstn M (skipn N file)), (firstn B (skipn T file) ++ repeat 0 K),
    (mkBuf [] (skipn N file)), (mkBuf (firstn B (skipn T file)) (skipn C (skipn N file))), (mkBuf [] (skipn C (skipn N file))).
  assert (length (skipn N file) = length file - N)%nat as LR by apply skipn_length.
  assert (length (firstn B (skipn T file)) = B) as LB by (rewrite firstn_length, skipn_length; lia).
  unfold buf_read_to_vec. rewrite buf_direct by lia. rewrite buf_fill by lia. rewrite Hcap.
  rewrite firstn_firstn, Nat.min_l by lia.
  rewrite skipn_firstn_comm, skipn_skipn. replace (C - M)%nat with B by lia. replace (M + N)%nat with T by lia.
  rewrite buf_held by (intros Q; rewrite Q in LB; cbn in LB; lia). unfold len.
  rewrite (firstn_all2 (n := M) (firstn B (skipn T file))) by lia.
  rewrite (skipn_all2 (n := M) (firstn B (skipn T file))) by lia. rewrite LB.
  rewrite !firstn_length, LR. rewrite (Nat.min_l N) by lia. rewrite (Nat.min_l M) by lia. rewrite !Nat.sub_diag, !app_nil_r.
  replace (Z.of_nat N) with 25344 by lia. replace (Z.of_nat M) with 6336 by lia. replace (Z.of_nat B) with 1856 by lia.
  replace (M - B)%nat with K by lia. repeat split.
Qed.

(** ** [main] *)
Lemma read_ok : forall r n input, r <> Fail -> exists k v input', read_to_vec r n input = Some (k, v, input') /\ length v = n /\
  (input = [] -> k = 0 /\ v = repeat 0 n /\ input' = []).
Proof.
  intros [|k] n input H; [contradiction|]. unfold read_to_vec. cbn [read]. do 3 eexists. split; [reflexivity|]. split.
  - rewrite app_length, repeat_length, firstn_length. lia.
  - intros ->. rewrite firstn_nil, skipn_nil. cbn [length app len Z.of_nat]. rewrite Nat.sub_0_r. repeat split.
Qed.

Lemma loop_rest : forall n fr rep input cw ch w e acc, no_failure rep -> (0 < fr)%nat ->
  exists fs, main_loop n fr rep input cw ch w e acc = Ok (w, acc ++ fs, false) /\ length fs = n /\ Forall (shape 176 144) fs /\
  (input = [] -> Forall (fun p => p = zero_planes) fs).
Proof.
  induction n as [|n IH]; intros fr rep input cw ch w e acc NF Hfr.
  - exists []. cbn [main_loop]. rewrite app_nil_r. repeat split; constructor.
  - cbn [main_loop].
    destruct (read_ok (rep 0%nat) (plane_y 176 144) input (NF _)) as (k1 & v1 & i1 & -> & L1 & Z1).
    destruct (read_ok (rep 1%nat) (plane_uv 176 144) i1 (NF _)) as (k2 & v2 & i2 & -> & L2 & Z2).
    destruct (read_ok (rep 2%nat) (plane_uv 176 144) i2 (NF _)) as (k3 & v3 & i3 & -> & L3 & Z3).
    destruct fr as [|fr]; [lia|]. cbn [Nat.eqb bind].
    destruct (IH (S (S fr)) (fun i => rep (3 + i)%nat) i3 cw ch w e (acc ++ [mkPlanes v1 v2 v3]) ltac:(intros i; apply NF) ltac:(lia))
      as (fs & -> & L & F & Z).
    exists (mkPlanes v1 v2 v3 :: fs). rewrite <- app_assoc. split; [reflexivity|]. split; [cbn; lia|]. split.
    + constructor; [|assumption]. unfold shape, len. cbn [p_y p_u p_v]. rewrite L1, L2, L3. unfold plane_y, plane_uv. lia.
    + intros ->. destruct (Z1 eq_refl) as (_ & -> & ->). destruct (Z2 eq_refl) as (_ & -> & ->). destruct (Z3 eq_refl) as (_ & -> & ->).
      constructor; [reflexivity|]. apply Z. reflexivity.
Qed.

Lemma loop_start : forall n rep input cw ch, no_failure rep -> 3 <= cw <= 65535 -> 3 <= ch <= 65535 -> (0 < n)%nat ->
  exists code pb w fs e' h', main_loop n 0 rep input cw ch new_writer enc_new [] = Ok (w, fs, false) /\
    enc_seq [] enc_new (seq_new cw ch) = Ok (code, e', h') /\ packs code pb /\ w_bytes w = pb ++ [24; 16; 8; 8] /\
    length fs = n /\ Forall (shape 176 144) fs /\ (input = [] -> Forall (fun p => p = zero_planes) fs).
Proof.
  intros [|n] rep input cw ch NF Hw Hh Hn; [lia|]. cbn [main_loop].
  destruct (read_ok (rep 0%nat) (plane_y 176 144) input (NF _)) as (k1 & v1 & i1 & -> & L1 & Z1).
  destruct (read_ok (rep 1%nat) (plane_uv 176 144) i1 (NF _)) as (k2 & v2 & i2 & -> & L2 & Z2).
  destruct (read_ok (rep 2%nat) (plane_uv 176 144) i2 (NF _)) as (k3 & v3 & i3 & -> & L3 & Z3).
  destruct (seq_width_lost cw ch Hw Hh) as (code & e' & h' & w1 & h1 & rest & E & R & _).
  specialize (E []). cbn [app] in E. cbn [Nat.eqb].
  assert (is_bits code) as B by (apply (seq_new_bits cw ch code e' h'); assumption).
  destruct (unit_ok new_writer enc_new (SequenceHeader (seq_new cw ch)) code e' aligned_new) as (w & pb & U & _ & K & Wb); [cbn [encode_payload]; rewrite E; reflexivity|assumption|].
  rewrite U. cbn [bind].
  destruct (loop_rest n 1 (fun i => rep (3 + i)%nat) i3 cw ch w e' ([] ++ [mkPlanes v1 v2 v3]) ltac:(intros i; apply NF) ltac:(lia))
    as (fs & -> & L & F & Z).
  exists code, pb, w, (mkPlanes v1 v2 v3 :: fs), e', h'. split; [reflexivity|]. split; [exact E|]. split; [assumption|].
  split; [exact Wb|]. split; [cbn; lia|]. split.
  - constructor; [|assumption]. unfold shape, len. cbn [p_y p_u p_v]. rewrite L1, L2, L3. unfold plane_y, plane_uv. lia.
  - intros ->. destruct (Z1 eq_refl) as (_ & -> & ->). destruct (Z2 eq_refl) as (_ & -> & ->). destruct (Z3 eq_refl) as (_ & -> & ->).
    constructor; [reflexivity|]. apply Z. reflexivity.
Qed.

Lemma loop_panics : forall n rep input cw ch, no_failure rep -> 1 <= cw <= 65535 -> 1 <= ch <= 65535 -> ~ (3 <= cw /\ 3 <= ch) -> (0 < n)%nat ->
  main_loop n 0 rep input cw ch new_writer enc_new [] = Panic.
Proof.
  intros [|n] rep input cw ch NF Hw Hh N Hn; [lia|]. cbn [main_loop].
  destruct (read_ok (rep 0%nat) (plane_y 176 144) input (NF _)) as (k1 & v1 & i1 & -> & _).
  destruct (read_ok (rep 1%nat) (plane_uv 176 144) i1 (NF _)) as (k2 & v2 & i2 & -> & _).
  destruct (read_ok (rep 2%nat) (plane_uv 176 144) i2 (NF _)) as (k3 & v3 & i3 & -> & _). cbn [Nat.eqb].
  unfold encode_temporal_unit, encode_obu. rewrite encode_obu_header_ok. cbn [bind encode_payload].
  destruct (seq_new_total cw ch [] Hw Hh) as [_ P]. rewrite (P N). reflexivity.
Qed.

Lemma main_accepted : forall args c rep input, accepted args c ->
  exists w h n, cf_width c = Some w /\ cf_height c = Some h /\ cf_frames c = Some n /\ 0 < w < 8192 /\ 0 < h < 8192 /\ 0 <= n < 2 ^ 64 /\
    main args rep input =
      '(wr, fs, ex) <- main_loop (Z.to_nat n) 0 rep input w h new_writer enc_new [] ;; Ok (Ran (w_bytes wr) fs ex).
Proof.
  intros args c rep input (c0 & r & I & P & V).
  destruct (accepted_usable args c0 c r I P V) as (i & o & w & h & nn & d & f & -> & Hw & Hh & _ & _ & _ & Hf).
  exists w, h, f. cbn [cf_width cf_height cf_frames]. repeat (split; [reflexivity||assumption|]).
  unfold main. destruct args as [|a args]; [rewrite init_config_ok in I; injection I as <-; vm_compute in P; discriminate P|].
  rewrite I. cbn [bind]. rewrite P. cbn [bind]. rewrite V. reflexivity.
Qed.

Lemma main_exact : forall args c rep input w h n, accepted args c -> no_failure rep ->
  cf_width c = Some w -> cf_height c = Some h -> cf_frames c = Some n -> 3 <= w -> 3 <= h -> 1 <= n ->
  exists code pb fs e' h', main args rep input = Ok (Ran (pb ++ [24; 16; 8; 8]) fs false) /\
    enc_seq [] enc_new (seq_new w h) = Ok (code, e', h') /\ packs code pb /\ len fs = n /\ Forall (shape 176 144) fs /\
    (input = [] -> Forall (fun p => p = zero_planes) fs).
Proof.
  intros args c rep input w h n A NF Ew Eh En Hw Hh Hn.
  destruct (main_accepted args c rep input A) as (w' & h' & n' & Ew' & Eh' & En' & Bw & Bh & Bn & M).
  rewrite Ew in Ew'. rewrite Eh in Eh'. rewrite En in En'. injection Ew' as <-. injection Eh' as <-. injection En' as <-.
  destruct (loop_start (Z.to_nat n) rep input w h NF ltac:(lia) ltac:(lia) ltac:(lia))
    as (code & pb & wr & fs & e' & hh & L & E & K & B & Ln & F & Zr).
  rewrite L in M. cbn [bind] in M. rewrite B in M. exists code, pb, fs, e', hh. repeat (split; [assumption|]).
  split; [unfold len; lia|]. split; assumption.
Qed.

Lemma parse_cases : forall args c, match parse args c with Hang => False | _ => True end.
Proof. intros args c. pose proof (parse_never_hangs args c). destruct (parse args c); auto. Qed.

Lemma packs_fun : forall P a b, packs P a -> packs P b -> a = b.
Proof. intros P a b [H1 H2] [H3 H4]. apply unpack_inj; congruence. Qed.

Lemma main_blind : forall args rep rep' input input', no_failure rep -> no_failure rep' ->
  bytes_of (main args rep input) = bytes_of (main args rep' input').
Proof.
  intros args rep rep' input input' NF NF'.
  destruct (parse args initial) as [[c p]| |] eqn:P.
  - destruct p as [r| |].
    + destruct (validate_config c) eqn:V.
      * assert (accepted args c) as A by (exists initial, r; split; [exact init_config_ok|]; split; assumption).
        destruct (main_accepted args c rep input A) as (w & h & n & Ew & Eh & En & Bw & Bh & Bn & M).
        destruct (main_accepted args c rep' input' A) as (w' & h' & n' & Ew' & Eh' & En' & _ & _ & _ & M').
        rewrite Ew in Ew'. rewrite Eh in Eh'. rewrite En in En'. injection Ew' as <-. injection Eh' as <-. injection En' as <-.
        destruct (Z.eq_dec n 0) as [->|Nz]; [rewrite M, M'; reflexivity|].
        assert ((3 <= w /\ 3 <= h) \/ ~ (3 <= w /\ 3 <= h)) as [[H1 H2]|N] by lia.
        -- destruct (main_exact args c rep input w h n A NF Ew Eh En H1 H2 ltac:(lia)) as (code & pb & fs & e1 & h1 & -> & E & K & _).
           destruct (main_exact args c rep' input' w h n A NF' Ew Eh En H1 H2 ltac:(lia)) as (code' & pb' & fs' & e1' & h1' & -> & E' & K' & _).
           rewrite E in E'. assert (code = code') as <- by congruence. rewrite (packs_fun _ _ _ K K'). reflexivity.
        -- rewrite M, M'. rewrite !loop_panics by (try assumption; lia). reflexivity.
      * unfold main. destruct args; [reflexivity|]. rewrite init_config_ok. cbn [bind]. rewrite P. cbn [bind]. rewrite V. reflexivity.
    + unfold main. destruct args; [reflexivity|]. rewrite init_config_ok. cbn [bind]. rewrite P. reflexivity.
    + unfold main. destruct args; [reflexivity|]. rewrite init_config_ok. cbn [bind]. rewrite P. reflexivity.
  - unfold main. destruct args; [reflexivity|]. rewrite init_config_ok. cbn [bind]. rewrite P. reflexivity.
  - unfold main. destruct args; [reflexivity|]. rewrite init_config_ok. cbn [bind]. rewrite P. reflexivity.
Qed.

Lemma planes_not_configured : forall args c rep input w h n, accepted args c -> no_failure rep ->
  cf_width c = Some w -> cf_height c = Some h -> cf_frames c = Some n -> 3 <= w -> 3 <= h -> 1 <= n ->
  exists b fs, main args rep input = Ok (Ran b fs false) /\ (Forall (shape w h) fs <-> w * h = 176 * 144).
Proof.
  intros args c rep input w h n A NF Ew Eh En Hw Hh Hn.
  destruct (main_exact args c rep input w h n A NF Ew Eh En Hw Hh Hn) as (code & pb & fs & e' & h' & M & _ & _ & L & F & _).
  exists (pb ++ [24; 16; 8; 8]), fs. split; [assumption|]. split.
  - intros G. destruct fs as [|p fs]; [cbn in L; lia|]. inversion F; subst. inversion G; subst. unfold shape in *. lia.
  - intros E. eapply Forall_impl; [|exact F]. intros p. unfold shape. rewrite E. auto.
Qed.

(** What a parser finds in the header of the program. *)
Lemma default_header_read : forall w h, 3 <= w <= 65535 -> 3 <= h <= 65535 ->
  (forall k, is_floor_log2 (w - 1) k <-> is_floor_log2 w k) -> (forall k, is_floor_log2 (h - 1) k <-> is_floor_log2 h k) ->
  exists code e' h' w1 h1, enc_seq [] enc_new (seq_new w h) = Ok (code, e', h') /\
    (forall k, is_floor_log2 w k -> w1 = (w - 1) mod 2 ^ k) /\ (forall k, is_floor_log2 h k -> h1 = (h - 1) mod 2 ^ k) /\
    forall r, rd_seq false (code ++ r) = Some (P_SEQ 0 false [] w1 h1 None
      (P_TOOLS true false false false false false false false false false 0 2 0 false false false)
      (P_COLOR 8 false 2 2 2 false true true (Some 2) false) None [] false, r).
Proof.
  intros w h W H FW FH.
  assert (SO : seq_ok enc_new (seq_new w h)).
  { unfold seq_ok, tools_ok, color_ok. cbn. repeat split; try lia; try discriminate; try constructor; auto; lia. }
  assert (SZ : sizes_ok (seq_new w h)) by (unfold sizes_ok; cbn; lia).
  destruct (seq_parse_back_spec enc_new (seq_new w h) SO SZ FW FH) as (code & e' & h' & w1 & h1 & E & R & K1 & K2).
  exists code, e', h', w1, h1. split; [exact (E [])|]. split; [exact K1|]. split; [exact K2|]. intros r. rewrite R. reflexivity.
Qed.
