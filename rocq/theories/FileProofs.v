(** The output file and read errors (C122). *)
From Coq Require Import ZArith List Bool Lia ZifyBool ZifyNat.
From Verif Require Import Base BitsSpec BitsProofs RangeCoderModel BitCodecModel BitCodecProofs WriterModel WriterSpec WriterProofs UtilSpec SeqModel SeqSpec SeqProofs2 SeqProofs3
  ObuModel ObuSpec ObuProofs OptionModel OptionSpec OptionProofs MainModel MainSpec MainProofs FileModel FileSpec.
Import ListNotations.
Open Scope list_scope.
Open Scope Z_scope.

(** ** [BufWriter] *)
Lemma len_pos (l : list Z) : 0 <= len l.
Proof. unfold len. lia. Qed.
Lemma bw_snoc b bytes x : bw_bytes b (bytes ++ [x]) = bw_write (bw_bytes b bytes) [x].
Proof. unfold bw_bytes. rewrite fold_left_app. reflexivity. Qed.
Lemma bw_state bytes : let b := bw_bytes (mkBw [] []) bytes in
  bw_file b ++ bw_held b = bytes /\ len (bw_file b) = 8192 * Z.max 0 ((len bytes - 1) / 8192).
Proof.
  induction bytes as [|x bytes [A L]] using rev_ind; [split; reflexivity|]. cbv zeta. rewrite bw_snoc.
  set (b := bw_bytes (mkBw [] []) bytes) in *. clearbody b. unfold bw_write.
  change (8192 <=? len [x]) with false. change (len [x]) with 1. cbv iota.
  assert (LB : len bytes = len (bw_file b) + len (bw_held b)) by (rewrite <- A; unfold len; rewrite app_length; lia).
  assert (LX : len (bytes ++ [x]) = len bytes + 1) by (unfold len; rewrite app_length; cbn [length]; lia). rewrite LX.
  replace (len bytes + 1 - 1) with (len bytes) by lia. pose proof (len_pos (bw_held b)) as P1. pose proof (len_pos bytes) as P2.
  pose proof (Z.div_mod (len bytes - 1) 8192 ltac:(lia)) as D. pose proof (Z.mod_pos_bound (len bytes - 1) 8192 ltac:(lia)) as M.
  assert (H8 : len (bw_held b) <= 8192) by (destruct (Z.eq_dec (len bytes) 0) as [E|E]; lia).
  destruct (8192 <? len (bw_held b) + 1) eqn:T; cbn [bw_held bw_file].
  - split; [rewrite app_nil_l, A; reflexivity|]. unfold len in *. rewrite app_length. 
    assert (Z.of_nat (length bytes) / 8192 = (Z.of_nat (length bytes) - 1) / 8192 + 1) by (Z.div_mod_to_equations; lia).
    Z.div_mod_to_equations; lia.
  - split; [rewrite app_assoc, A; reflexivity|]. rewrite L. destruct (Z.eq_dec (len bytes) 0) as [->|E]; [reflexivity|].
    f_equal. f_equal. Z.div_mod_to_equations; lia.
Qed.
Lemma bw_unflushed bytes : bw_file (bw_bytes (mkBw [] []) bytes) = firstn (Z.to_nat (8192 * ((len bytes - 1) / 8192))) bytes.
Proof.
  destruct (bw_state bytes) as [A L]. set (b := bw_bytes _ bytes) in *. clearbody b.
  replace (Z.to_nat (8192 * ((len bytes - 1) / 8192))) with (length (bw_file b) + 0)%nat by (unfold len in *; lia).
  rewrite <- A. rewrite firstn_app_2, firstn_O, app_nil_r. reflexivity.
Qed.
Lemma bw_flushed bytes : bw_file (bw_drop (bw_bytes (mkBw [] []) bytes)) = bytes.
Proof. apply bw_state. Qed.

(** ** The sequence header is short *)
Lemma push_range_len width v lo k out r : 0 <= lo -> 0 <= width -> push_range width out v lo k = Ok r -> len r <= len out + width.
Proof.
  intros H0 Hw. assert (X : forall k out, push_range width out v lo k = Ok r -> len r = len out + Z.of_nat k /\ (Z.of_nat k <= width)).
  { clear k out. induction k as [|k IH]; intros out E; cbn [push_range] in E; [injection E as <-; lia|].
    destruct (shift_ok width (lo + Z.of_nat k)) as [u| |] eqn:S; try discriminate E. cbn [bind] in E. apply IH in E. destruct E as [-> K].
    unfold shift_ok in S. destruct ((0 <=? lo + Z.of_nat k) && (lo + Z.of_nat k <? width)) eqn:T; [|discriminate S]. unfold push, len in *. rewrite app_length. cbn [length]. lia. }
  intros E. apply X in E. lia.
Qed.
Lemma enc_size_len out h r : enc_size out h = Ok r -> len r <= len out + 128.
Proof.
  intros E. unfold enc_size, push_bits_with_size in E. repeat unbind E.
  repeat match goal with H : push_range _ _ _ _ _ = Ok _ |- _ => apply push_range_len in H; [|lia|lia] end. lia.
Qed.
Lemma seq_new_len w h code e' h' : enc_seq [] enc_new (seq_new w h) = Ok (code, e', h') -> len code <= 400.
Proof.
  intros E. lazy -[enc_size app] in E.
  match type of E with context [enc_size ?a ?b] => destruct (enc_size a b) as [o| |] eqn:S end; [|discriminate E..].
  apply enc_size_len in S. lazy -[app] in E.
  apply (f_equal (fun r : res (list Z * enc * seqhdr) => match r with Ok (c, _, _) => c | _ => [] end)) in E. cbv beta iota in E. rewrite <- E.
  unfold len in *. rewrite ?app_length in *. cbn [length] in *. lia.
Qed.
Lemma packs_len code pb : packs code pb -> 8 * len pb <= len code + 7.
Proof.
  intros [_ E]. apply (f_equal (@length Z)) in E. rewrite unpack_length, app_length, repeat_length in E. rewrite pad8_eq in E. unfold len in *. lia.
Qed.

(** ** The loop with a failing read *)
Lemma read_got r n input : r <> Fail -> exists v input', (exists k, read_to_vec r n input = Some (k, v, input')).
Proof. intros H. destruct (read_ok r n input H) as (k & v & i & E & _). eauto. Qed.
Lemma loop_fail : forall n fr rep k input cw ch w e acc, first_failure rep k -> (k < 3 * n)%nat -> (0 < fr)%nat ->
  exists fs, main_loop n fr rep input cw ch w e acc = Ok (w, acc ++ fs, true) /\ length fs = (k / 3)%nat.
Proof.
  induction n as [|n IH]; intros fr rep k input cw ch w e acc [F B] Hk Hfr; [lia|]. cbn [main_loop].
  destruct (Nat.eq_dec k 0) as [->|N0]; [rewrite F; exists []; rewrite app_nil_r; split; reflexivity|].
  destruct (read_got (rep 0%nat) (plane_y 176 144) input (B 0%nat ltac:(lia))) as (v1 & i1 & k1 & ->).
  destruct (Nat.eq_dec k 1) as [->|N1]; [rewrite F; exists []; rewrite app_nil_r; split; reflexivity|].
  destruct (read_got (rep 1%nat) (plane_uv 176 144) i1 (B 1%nat ltac:(lia))) as (v2 & i2 & k2 & ->).
  destruct (Nat.eq_dec k 2) as [->|N2]; [rewrite F; exists []; rewrite app_nil_r; split; reflexivity|].
  destruct (read_got (rep 2%nat) (plane_uv 176 144) i2 (B 2%nat ltac:(lia))) as (v3 & i3 & k3 & ->).
  destruct fr as [|fr]; [lia|]. cbn [Nat.eqb bind].
  destruct (IH (S (S fr)) (fun i => rep (3 + i)%nat) (k - 3)%nat i3 cw ch w e (acc ++ [mkPlanes v1 v2 v3])) as (fs & -> & L); [|lia|lia|].
  { split; [replace (3 + (k - 3))%nat with k by lia; exact F|]. intros j Hj. apply B. lia. }
  exists (mkPlanes v1 v2 v3 :: fs). rewrite <- app_assoc. split; [reflexivity|]. cbn [length]. rewrite L.
  replace k with (1 * 3 + (k - 3))%nat at 2 by lia. rewrite Nat.div_add_l by lia. lia.
Qed.

Lemma loop_fail_start n rep k input cw ch : first_failure rep k -> (k < 3 * n)%nat -> 3 <= cw <= 65535 -> 3 <= ch <= 65535 ->
  exists code pb w fs e' h', main_loop n 0 rep input cw ch new_writer enc_new [] = Ok (w, fs, true) /\
    enc_seq [] enc_new (seq_new cw ch) = Ok (code, e', h') /\ packs code pb /\ length fs = (k / 3)%nat /\
    w_bytes w = if Nat.ltb k 3 then [] else pb ++ [24; 16; 8; 8].
Proof.
  intros [F B] Hk Hw Hh. destruct n as [|n]; [lia|]. cbn [main_loop].
  destruct (seq_width_lost cw ch Hw Hh) as (code & e' & h' & w1 & h1 & rest & E & R & _).
  specialize (E []). cbn [app] in E. cbn [Nat.eqb].
  assert (is_bits code) as BB by (apply (seq_new_bits cw ch code e' h'); assumption).
  destruct (unit_ok new_writer enc_new (SequenceHeader (seq_new cw ch)) code e' aligned_new) as (w & pb & U & _ & K & Wb); [cbn [encode_payload]; rewrite E; reflexivity|assumption|].
  destruct (Nat.eq_dec k 0) as [->|N0]; [rewrite F; exists code, pb, new_writer, [], e', h'; repeat (split; [reflexivity||assumption|]); reflexivity|].
  destruct (read_got (rep 0%nat) (plane_y 176 144) input (B 0%nat ltac:(lia))) as (v1 & i1 & k1 & ->).
  destruct (Nat.eq_dec k 1) as [->|N1]; [rewrite F; exists code, pb, new_writer, [], e', h'; repeat (split; [reflexivity||assumption|]); reflexivity|].
  destruct (read_got (rep 1%nat) (plane_uv 176 144) i1 (B 1%nat ltac:(lia))) as (v2 & i2 & k2 & ->).
  destruct (Nat.eq_dec k 2) as [->|N2]; [rewrite F; exists code, pb, new_writer, [], e', h'; repeat (split; [reflexivity||assumption|]); reflexivity|].
  destruct (read_got (rep 2%nat) (plane_uv 176 144) i2 (B 2%nat ltac:(lia))) as (v3 & i3 & k3 & ->).
  rewrite U. cbn [bind].
  destruct (loop_fail n 1 (fun i => rep (3 + i)%nat) (k - 3)%nat i3 cw ch w e' ([] ++ [mkPlanes v1 v2 v3])) as (fs & -> & L); [|lia|lia|].
  { split; [replace (3 + (k - 3))%nat with k by lia; exact F|]. intros j Hj. apply B. lia. }
  exists code, pb, w, (mkPlanes v1 v2 v3 :: fs), e', h'. split; [reflexivity|]. split; [exact E|]. split; [exact K|]. split.
  - cbn [length]. rewrite L. replace k with (1 * 3 + (k - 3))%nat at 2 by lia. rewrite Nat.div_add_l by lia. lia.
  - replace (Nat.ltb k 3) with false by (symmetry; apply Nat.ltb_ge; lia). exact Wb.
Qed.

Lemma main_fail args c rep video w h n k : accepted args c -> first_failure rep k -> Z.of_nat k < 3 * n ->
  cf_width c = Some w -> cf_height c = Some h -> cf_frames c = Some n -> 3 <= w -> 3 <= h ->
  exists code pb fs e' h', main args rep video = Ok (Ran (if Nat.ltb k 3 then [] else pb ++ [24; 16; 8; 8]) fs true) /\
    enc_seq [] enc_new (seq_new w h) = Ok (code, e', h') /\ packs code pb /\ len fs = Z.of_nat k / 3.
Proof.
  intros A FF Hk Ew Eh En Hw Hh.
  destruct (main_accepted args c rep video A) as (w' & h' & n' & Ew' & Eh' & En' & Bw & Bh & Bn & M).
  rewrite Ew in Ew'. rewrite Eh in Eh'. rewrite En in En'. injection Ew' as <-. injection Eh' as <-. injection En' as <-.
  destruct (loop_fail_start (Z.to_nat n) rep k video w h FF ltac:(lia) ltac:(lia) ltac:(lia)) as (code & pb & wr & fs & e' & hh & L & E & K & Ln & B).
  rewrite L in M. cbn [bind] in M. rewrite B in M. exists code, pb, fs, e', hh. split; [exact M|]. split; [exact E|]. split; [exact K|].
  unfold len. rewrite Ln. rewrite Nat2Z.inj_div. reflexivity.
Qed.

Lemma file_lost args c rep video w h n k : accepted args c -> first_failure rep k -> Z.of_nat k < 3 * n ->
  cf_width c = Some w -> cf_height c = Some h -> cf_frames c = Some n -> 3 <= w -> 3 <= h ->
  output_file (main args rep video) = Some [].
Proof.
  intros A FF Hk Ew Eh En Hw Hh. destruct (main_fail args c rep video w h n k A FF Hk Ew Eh En Hw Hh) as (code & pb & fs & e' & h' & -> & E & K & _).
  unfold output_file. cbv zeta iota. rewrite bw_unflushed. apply seq_new_len in E. apply packs_len in K. f_equal.
  assert (L : 0 <= len (if Nat.ltb k 3 then [] else pb ++ [24; 16; 8; 8]) <= 8192).
  { pose proof (len_pos pb). destruct (Nat.ltb k 3); unfold len in *; [cbn; lia|]. rewrite app_length. cbn [length]. lia. }
  replace (Z.to_nat _) with 0%nat; [reflexivity|]. set (x := len _) in *. Z.div_mod_to_equations; lia.
Qed.
(** ** Reads that are never asked for make no difference *)
Lemma loop_ext : forall n fr rep rep' input cw ch w e acc, (forall j, (j < 3 * n)%nat -> rep j = rep' j) ->
  main_loop n fr rep input cw ch w e acc = main_loop n fr rep' input cw ch w e acc.
Proof.
  induction n as [|n IH]; intros fr rep rep' input cw ch w e acc H; [reflexivity|]. cbn [main_loop].
  rewrite <- (H 0%nat), <- (H 1%nat), <- (H 2%nat) by lia.
  destruct (read_to_vec (rep 0%nat) _ input) as [[[? ?] i1]|]; [|reflexivity].
  destruct (read_to_vec (rep 1%nat) _ i1) as [[[? ?] i2]|]; [|reflexivity].
  destruct (read_to_vec (rep 2%nat) _ i2) as [[[? ?] i3]|]; [|reflexivity].
  destruct (if Nat.eqb fr 0 then _ else _) as [[w' e']| |]; [|reflexivity|reflexivity]. cbn [bind].
  apply IH. intros j Hj. apply H. lia.
Qed.
Lemma failure_dec rep : forall n, (forall j, (j < n)%nat -> rep j <> Fail) \/ exists k, (k < n)%nat /\ first_failure rep k.
Proof.
  induction n as [|n [N|(k & L & F)]]; [left; intros; lia| |right; exists k; split; [lia|exact F]].
  destruct (rep n) as [|g] eqn:E.
  - right. exists n. split; [lia|]. split; assumption.
  - left. intros j Hj. destruct (Nat.eq_dec j n) as [->|]; [congruence|apply N; lia].
Qed.
Lemma file_complete args c rep video w h n : accepted args c -> (forall j, Z.of_nat j < 3 * n -> rep j <> Fail) ->
  cf_width c = Some w -> cf_height c = Some h -> cf_frames c = Some n -> 3 <= w -> 3 <= h -> 1 <= n ->
  exists code pb e' h', output_file (main args rep video) = Some (pb ++ [24; 16; 8; 8]) /\
    enc_seq [] enc_new (seq_new w h) = Ok (code, e', h') /\ packs code pb.
Proof.
  intros A NF Ew Eh En Hw Hh Hn.
  set (rep' := fun j => if Z.of_nat j <? 3 * n then rep j else Got 0).
  assert (NF' : no_failure rep') by (intros j; unfold rep'; destruct (Z.of_nat j <? 3 * n) eqn:T; [apply NF; lia|discriminate]).
  assert (Q : main args rep video = main args rep' video).
  { destruct (main_accepted args c rep video A) as (w1 & h1 & n1 & W1 & H1 & E1 & _ & _ & _ & M1).
    destruct (main_accepted args c rep' video A) as (w2 & h2 & n2 & W2 & H2 & E2 & _ & _ & _ & M2).
    rewrite W1 in W2. rewrite H1 in H2. rewrite E1 in E2. injection W2 as <-. injection H2 as <-. injection E2 as <-. assert (n1 = n) as -> by congruence.
    rewrite M1, M2. rewrite (loop_ext _ _ rep rep'); [reflexivity|]. intros j Hj. unfold rep'. replace (Z.of_nat j <? 3 * n) with true by lia. reflexivity. }
  rewrite Q. destruct (main_exact args c rep' video w h n A NF' Ew Eh En Hw Hh Hn) as (code & pb & fs & e' & h' & -> & E & K & _).
  exists code, pb, e', h'. unfold output_file. cbv zeta iota. rewrite bw_flushed. auto.
Qed.
Lemma file_iff args c rep video w h n : accepted args c ->
  cf_width c = Some w -> cf_height c = Some h -> cf_frames c = Some n -> 3 <= w -> 3 <= h -> 1 <= n ->
  exists f code pb e' h', output_file (main args rep video) = Some f /\ enc_seq [] enc_new (seq_new w h) = Ok (code, e', h') /\ packs code pb /\
    (f = pb ++ [24; 16; 8; 8] /\ (forall j, Z.of_nat j < 3 * n -> rep j <> Fail) \/ f = [] /\ exists j, Z.of_nat j < 3 * n /\ rep j = Fail).
Proof.
  intros A Ew Eh En Hw Hh Hn. destruct (failure_dec rep (Z.to_nat (3 * n))) as [N|(k & L & F)].
  - destruct (file_complete args c rep video w h n A ltac:(intros j Hj; apply N; lia) Ew Eh En Hw Hh Hn) as (code & pb & e' & h' & O & E & K).
    exists (pb ++ [24; 16; 8; 8]), code, pb, e', h'. split; [exact O|]. split; [exact E|]. split; [exact K|]. left. split; [reflexivity|]. intros j Hj. apply N. lia.
  - destruct (main_fail args c rep video w h n k A F ltac:(lia) Ew Eh En Hw Hh) as (code & pb & fs & e' & h' & _ & E & K & _).
    exists [], code, pb, e', h'. split; [exact (file_lost args c rep video w h n k A F ltac:(lia) Ew Eh En Hw Hh)|]. split; [exact E|]. split; [exact K|].
    right. split; [reflexivity|]. exists k. split; [lia|apply F].
Qed.

(** ** Crashes *)
Lemma loop_small n rep input cw ch : 1 <= cw <= 65535 -> 1 <= ch <= 65535 -> ~ (3 <= cw /\ 3 <= ch) -> (0 < n)%nat ->
  rep 0%nat <> Fail -> rep 1%nat <> Fail -> rep 2%nat <> Fail -> main_loop n 0 rep input cw ch new_writer enc_new [] = Panic.
Proof.
  intros Hw Hh N Hn R0 R1 R2. destruct n as [|n]; [lia|]. cbn [main_loop].
  destruct (read_got (rep 0%nat) (plane_y 176 144) input R0) as (v1 & i1 & k1 & ->).
  destruct (read_got (rep 1%nat) (plane_uv 176 144) i1 R1) as (v2 & i2 & k2 & ->).
  destruct (read_got (rep 2%nat) (plane_uv 176 144) i2 R2) as (v3 & i3 & k3 & ->). cbn [Nat.eqb].
  unfold encode_temporal_unit, encode_obu. rewrite encode_obu_header_ok. cbn [bind encode_payload].
  destruct (seq_new_total cw ch [] Hw Hh) as [_ P]. rewrite (P N). reflexivity.
Qed.
Lemma loop_none n rep input cw ch : rep 0%nat = Fail \/ rep 1%nat = Fail \/ rep 2%nat = Fail ->
  exists r, main_loop n 0 rep input cw ch new_writer enc_new [] = Ok r.
Proof.
  intros H. destruct n as [|n]; [eexists; reflexivity|]. cbn [main_loop].
  destruct (rep 0%nat) as [|g0]; [eexists; reflexivity|]. destruct (read_got (Got g0) (plane_y 176 144) input ltac:(discriminate)) as (v1 & i1 & k1 & ->).
  destruct (rep 1%nat) as [|g1]; [eexists; reflexivity|]. destruct (read_got (Got g1) (plane_uv 176 144) i1 ltac:(discriminate)) as (v2 & i2 & k2 & ->).
  destruct (rep 2%nat) as [|g2]; [eexists; reflexivity|]. exfalso. intuition discriminate.
Qed.
Lemma loop_total n rep input cw ch : 3 <= cw <= 65535 -> 3 <= ch <= 65535 -> exists r, main_loop n 0 rep input cw ch new_writer enc_new [] = Ok r.
Proof.
  intros Hw Hh. destruct n as [|n]; [eexists; reflexivity|]. destruct (failure_dec rep (3 * S n)) as [N|(k & L & F)].
  - set (rep' := fun j => if Nat.ltb j (3 * S n) then rep j else Got 0).
    assert (X : forall j, (j < 3 * S n)%nat -> rep j = rep' j) by (intros j Hj; unfold rep'; rewrite (proj2 (Nat.ltb_lt _ _) Hj); reflexivity).
    rewrite (loop_ext _ _ rep rep') by exact X.
    assert (NF : no_failure rep') by (intros j; unfold rep'; destruct (Nat.ltb j (3 * S n)) eqn:T; [apply N, Nat.ltb_lt, T|discriminate]).
    destruct (loop_start (S n) rep' input cw ch NF Hw Hh ltac:(lia)) as (? & ? & ? & ? & ? & ? & -> & _). eexists. reflexivity.
  - destruct (loop_fail_start (S n) rep k input cw ch F L Hw Hh) as (? & ? & ? & ? & ? & ? & -> & _). eexists. reflexivity.
Qed.
Lemma main_cases args rep video :
  (parse args initial = Panic /\ main args rep video = Panic) \/
  (exists c, accepted args c) \/
  ((forall c, ~ accepted args c) /\ parse args initial <> Panic /\ main args rep video = Ok Refused).
Proof.
  destruct (parse args initial) as [[c p]| |] eqn:P.
  - destruct p as [r| |].
    + destruct (validate_config c) eqn:V; [right; left; exists c, initial, r; split; [exact init_config_ok|split; assumption]|].
      right. right. split; [intros c1 (c0 & r1 & I & P1 & V1); rewrite init_config_ok in I; injection I as <-; rewrite P in P1; injection P1 as <- _; congruence|].
      split; [discriminate|]. unfold main. destruct args; [reflexivity|]. rewrite init_config_ok. cbn [bind]. rewrite P. cbn [bind]. rewrite V. reflexivity.
    + right. right. split; [intros c1 (c0 & r1 & I & P1 & V1); rewrite init_config_ok in I; injection I as <-; congruence|].
      split; [discriminate|]. unfold main. destruct args; [reflexivity|]. rewrite init_config_ok. cbn [bind]. rewrite P. reflexivity.
    + right. right. split; [intros c1 (c0 & r1 & I & P1 & V1); rewrite init_config_ok in I; injection I as <-; congruence|].
      split; [discriminate|]. unfold main. destruct args; [reflexivity|]. rewrite init_config_ok. cbn [bind]. rewrite P. reflexivity.
  - left. split; [reflexivity|]. unfold main. destruct args as [|a args]; [discriminate P|]. rewrite init_config_ok. cbn [bind]. rewrite P. reflexivity.
  - pose proof (parse_never_hangs args initial). contradiction.
Qed.
Lemma accepted_parses args c : accepted args c -> parse args initial <> Panic.
Proof. intros (c0 & r & I & P & _) E. rewrite init_config_ok in I. injection I as <-. congruence. Qed.
Lemma main_accepted_cases args c rep video : accepted args c -> exists w h n, cf_width c = Some w /\ cf_height c = Some h /\ cf_frames c = Some n /\
  ((main args rep video = Panic /\ 1 <= n /\ (w < 3 \/ h < 3) /\ rep 0%nat <> Fail /\ rep 1%nat <> Fail /\ rep 2%nat <> Fail) \/
   ((exists b fs ex, main args rep video = Ok (Ran b fs ex)) /\ (n <= 0 \/ (3 <= w /\ 3 <= h) \/ rep 0%nat = Fail \/ rep 1%nat = Fail \/ rep 2%nat = Fail))).
Proof.
  intros A. destruct (main_accepted args c rep video A) as (w & h & n & Ew & Eh & En & Bw & Bh & Bn & M).
  exists w, h, n. split; [exact Ew|]. split; [exact Eh|]. split; [exact En|].
  assert (K : forall r, main_loop (Z.to_nat n) 0 rep video w h new_writer enc_new [] = Ok r -> exists b fs ex, main args rep video = Ok (Ran b fs ex)).
  { intros [[wr fs] ex] E. rewrite M, E. cbn [bind]. eauto. }
  destruct (Z.eq_dec n 0) as [->|Nz]; [right; split; [apply (K (new_writer, [], false)); reflexivity|lia]|].
  assert (S : (3 <= w /\ 3 <= h) \/ ~ (3 <= w /\ 3 <= h)) by lia. destruct S as [S|S].
  - right. split; [|tauto]. destruct (loop_total (Z.to_nat n) rep video w h ltac:(lia) ltac:(lia)) as [r E]. exact (K r E).
  - assert (D : forall x : reply, x = Fail \/ x <> Fail) by (intros [|g]; [left; reflexivity|right; discriminate]).
    destruct (D (rep 0%nat)) as [F|R0]; [right; split; [destruct (loop_none (Z.to_nat n) rep video w h ltac:(tauto)) as [r E]; exact (K r E)|tauto]|].
    destruct (D (rep 1%nat)) as [F|R1]; [right; split; [destruct (loop_none (Z.to_nat n) rep video w h ltac:(tauto)) as [r E]; exact (K r E)|tauto]|].
    destruct (D (rep 2%nat)) as [F|R2]; [right; split; [destruct (loop_none (Z.to_nat n) rep video w h ltac:(tauto)) as [r E]; exact (K r E)|tauto]|].
    left. split; [rewrite M, loop_small by (assumption || lia); reflexivity|]. repeat split; try assumption; lia.
Qed.
Lemma crash_iff args rep video : main args rep video = Panic <->
  (exists its a1 tail, Forall (fun i => is_frac i = false) its /\ cmdline its a1 /\ args = a1 ++ tail /\
    ((exists s junk, tail = s :: junk /\ unsliceable s) \/ (exists f v n junk, tail = f :: v :: junk /\ denotes f v (IFrac n 0)))) \/
  (exists c w h n, accepted args c /\ cf_width c = Some w /\ cf_height c = Some h /\ cf_frames c = Some n /\ 1 <= n /\ (w < 3 \/ h < 3) /\
    rep 0%nat <> Fail /\ rep 1%nat <> Fail /\ rep 2%nat <> Fail).
Proof.
  rewrite <- (parse_panics args initial). split.
  - intros E. destruct (main_cases args rep video) as [[P _]|[[c A]|(_ & _ & R)]]; [left; exact P| |congruence].
    right. destruct (main_accepted_cases args c rep video A) as (w & h & n & Ew & Eh & En & [(_ & H)|((b & fs & ex & R) & _)]); [|congruence].
    exists c, w, h, n. tauto.
  - intros [P|(c & w & h & n & A & Ew & Eh & En & H)].
    + destruct (main_cases args rep video) as [[_ M]|[[c A]|(_ & N & _)]]; [exact M| |contradiction]. destruct (accepted_parses args c A P).
    + destruct (main_accepted_cases args c rep video A) as (w' & h' & n' & Ew' & Eh' & En' & [(M & _)|(_ & N)]); [exact M|].
      exfalso. assert (w' = w) by congruence. assert (h' = h) by congruence. assert (n' = n) by congruence. subst.
      destruct H as (H1 & H2 & R0 & R1 & R2). destruct N as [N|[N|[N|[N|N]]]]; (contradiction || lia).
Qed.
Lemma main_ends args rep video : main args rep video <> Hang.
Proof.
  intros E. destruct (main_cases args rep video) as [[_ M]|[[c A]|(_ & _ & M)]]; try congruence.
  destruct (main_accepted_cases args c rep video A) as (w & h & n & _ & _ & _ & [(M & _)|((b & fs & ex & M) & _)]); congruence.
Qed.
Lemma refused_iff args rep video : main args rep video = Ok Refused <-> (forall c, ~ accepted args c) /\ parse args initial <> Panic.
Proof.
  split.
  - intros E. destruct (main_cases args rep video) as [[_ M]|[[c A]|(N & P & _)]]; [congruence| |split; assumption].
    destruct (main_accepted_cases args c rep video A) as (w & h & n & _ & _ & _ & [(M & _)|((b & fs & ex & M) & _)]); congruence.
  - intros [N P]. destruct (main_cases args rep video) as [[Q _]|[[c A]|(_ & _ & M)]]; [contradiction|destruct (N c A)|exact M].
Qed.
