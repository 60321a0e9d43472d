(** The program in a release build. *)
From Coq Require Import ZArith List Bool Lia.
From Verif Require Import Base BaseProofs BitsSpec BitsProofs UtilModel UtilProofs RangeCoderModel BitCodecModel BitCodecProofs WriterModel WriterSpec
  WriterProofs UtilSpec SeqModel SeqSpec SeqProofs2 SeqProofs3 ObuModel ObuSpec ObuProofs LebProofs FieldProofs OptionModel OptionSpec OptionProofs MainModel MainSpec MainProofs
  BuildSpec BuildProofs BuildProofs2 BuildEncProofs.
From Verif Require BuildModel BuildEncModel.
Import ListNotations.
Open Scope list_scope.
Open Scope Z_scope.

(** ** Frame sizes *)
Lemma rel_pbs : forall out v n, 0 <= n <= 32 ->
  BuildModel.push_bits_with_size Release out v n = Ok (out ++ to_bits (Z.to_nat n) v).
Proof. intros. eapply le_ok; [apply le_push_bits_with_size|]. change (push_bits_with_size out v n = Ok (out ++ to_bits (Z.to_nat n) v)). apply push_bits_with_size_ok; assumption. Qed.
Lemma rel_msb16 : forall n, 0 <= n < 65536 -> BuildModel.msb16 Release n = Ok (Z.log2 n).
Proof. intros. eapply le_ok; [apply le_msb16|]. change (msb16 n = Ok (Z.log2 n)). apply msb16_log2; assumption. Qed.

Lemma to_bits_mod : forall n v m, Z.of_nat n <= m -> to_bits n (v mod 2 ^ m) = to_bits n v.
Proof.
  induction n as [|n IH]; intros v m H; cbn [to_bits]; [reflexivity|]. f_equal; [|apply IH; lia].
  rewrite (Zdiv.Zmod_eq_full v (2 ^ m)) by (apply Z.pow_nonzero; lia).
  set (a := v / 2 ^ m). set (q := 2 ^ (m - Z.of_nat n - 1)).
  assert (Q : 2 ^ m = 2 ^ Z.of_nat n * (2 * q)).
  { unfold q. change 2 with (2 ^ 1) at 3. rewrite <- !Z.pow_add_r by lia. f_equal; lia. }
  replace (v - a * 2 ^ m) with (v + (- a * q * 2) * 2 ^ Z.of_nat n) by (rewrite Q; ring).
  rewrite Z.div_add by (apply Z.pow_nonzero; lia). rewrite Z.mod_add by lia. reflexivity.
Qed.

Lemma log2_16' : forall n, 0 <= n < 65536 -> 0 <= Z.log2 n <= 15.
Proof. intros n H. split; [apply Z.log2_nonneg|]. destruct (Z.eq_dec n 0) as [->|]; [cbn; lia|]. assert (Z.log2 n < 16) by (apply Z.log2_lt_pow2; lia). lia. Qed.

(** Whatever the size, the code is that of the formula, with the width of a field
    taken modulo 16. *)
Lemma rel_enc_size : forall h out, 1 <= sh_w h <= 65536 -> 1 <= sh_h h <= 65536 -> 1 <= sh_max_w h <= 65535 -> 1 <= sh_max_h h <= 65535 ->
  BuildEncModel.enc_size Release out h = Ok (out ++ size_code (sh_w h) (sh_h h) (sh_max_w h) (sh_max_h h)).
Proof.
  intros h out Hw Hh Hmw Hmh. unfold BuildEncModel.enc_size, size_code.
  pose proof (log2_16' (sh_w h - 1) ltac:(lia)). pose proof (log2_16' (sh_h h - 1) ltac:(lia)).
  pose proof (log2_16' (sh_max_w h) ltac:(lia)). pose proof (log2_16' (sh_max_h h) ltac:(lia)).
  cbn [BuildModel.chk_u64 BuildModel.chk_u8 bind].
  rewrite !(as_u64_id (_ - 1)) by (unfold fits; lia). rewrite !as_u16_id by lia.
  rewrite !rel_msb16 by lia. cbn [bind].
  assert (W8 : forall x, 0 <= x <= 15 -> as_u8 (as_u8 (x - 1) + 1) = x).
  { intros x X. unfold as_u8. rewrite Zplus_mod_idemp_l. replace (x - 1 + 1) with x by lia. apply Z.mod_small. lia. }
  rewrite !W8 by lia.
  assert (M4 : forall x, to_bits 4 (as_u8 x) = to_bits 4 x).
  { intros x. unfold as_u8. apply (to_bits_mod 4 x 8). lia. }
  do 3 (rewrite !rel_pbs by lia; cbn [bind]). rewrite rel_pbs by lia.
  assert (M32 : forall n x, (n <= 32)%nat -> to_bits n (as_u32 x) = to_bits n x).
  { intros n x L. unfold as_u32. apply (to_bits_mod n x 32). lia. }
  change (Z.to_nat 4) with 4%nat. rewrite !M4, !M32 by lia. rewrite <- !app_assoc. reflexivity.
Qed.

(** The fields after the size in the header of the program. *)
Definition default_tail : list Z :=
  Eval vm_compute in match SeqModel.enc_seq [] enc_new (seq_new 3 3) with Ok (c, _, _) => skipn 20 c | _ => [] end.

Lemma rel_seq : forall w h, 1 <= w <= 65535 -> 1 <= h <= 65535 -> exists e' h',
  BuildEncModel.enc_seq Release [] enc_new (seq_new w h) = Ok (repeat 0 10 ++ size_code w h w h ++ default_tail, e', h').
Proof.
  intros w h W H. do 2 eexists. lazy -[BuildEncModel.enc_size app size_code]. rewrite rel_enc_size by (cbn; lia).
  cbn [sh_w sh_h sh_max_w sh_max_h]. cbn [app]. rewrite <- ?app_assoc. cbn [app]. reflexivity.
Qed.

(** ** One unit *)
Lemma rel_unit : forall w e o P e', aligned w -> BuildEncModel.encode_payload Release e o = Ok (P, e') -> is_bits P -> exists w' pb,
  BuildEncModel.encode_temporal_unit Release w e o = Ok (w', e') /\ aligned w' /\ packs P pb /\ w_bytes w' = w_bytes w ++ pb ++ frame_bytes o.
Proof.
  intros w e o P e' A HP HB.
  destruct A as [Hw Hi].
  unfold BuildEncModel.encode_temporal_unit, BuildEncModel.encode_obu.
  rewrite (le_ok _ _ _ (le_encode_obu_header o []) (encode_obu_header_ok o [])). cbn [bind app]. rewrite HP. cbn [bind].
  destruct (write_bits_ok P w _ Hw HB) as (w1 & E1 & H1). rewrite (le_ok _ _ _ (le_write_bits w P) E1). cbn [bind].
  destruct (byte_align_ok w1 _ H1) as (w2 & E2 & H2 & I2). rewrite (le_ok _ _ _ (le_byte_align w1) E2). cbn [bind].
  assert (L1 : len (to_bits 8 (header_byte o)) = 8) by (unfold len; rewrite to_bits_length; reflexivity).
  assert (LB : forall v, 0 <= v < 128 -> BuildModel.encode_leb128 Release [] v = Ok (to_bits 8 v)).
  { intros v V. eapply le_ok; [apply le_encode_leb128|]. change (encode_leb128 [] v = Ok (to_bits 8 v)). rewrite encode_leb128_ok by lia. rewrite leb_small by lia. reflexivity. }
  rewrite L1. rewrite LB by lia. cbn [bind]. rewrite push_bits_ok.
  assert (L2 : len (to_bits 8 8 ++ to_bits 8 (header_byte o)) = 16) by (rewrite len_app, L1; reflexivity).
  rewrite L2, LB by lia. cbn [bind]. rewrite push_bits_ok.
  assert (L3 : len (to_bits 8 16 ++ to_bits 8 8 ++ to_bits 8 (header_byte o)) = 24) by (rewrite len_app, L2; reflexivity).
  rewrite L3, LB by lia. cbn [bind].
  destruct (write_bits_ok (to_bits 8 24) w2 _ H2 (to_bits_bits 8 24)) as (w3 & E3 & H3). rewrite (le_ok _ _ _ (le_write_bits w2 (to_bits 8 24)) E3). cbn [bind].
  destruct (write_bits_ok (to_bits 8 16 ++ to_bits 8 8 ++ to_bits 8 (header_byte o)) w3 _ H3) as (w4 & E4 & H4).
  { apply is_bits_app; split; [apply to_bits_bits|]. apply is_bits_app; split; apply to_bits_bits. }
  rewrite (le_ok _ _ _ (le_write_bits w3 (to_bits 8 16 ++ to_bits 8 8 ++ to_bits 8 (header_byte o))) E4). cbn [bind]. destruct (packs_exists P HB) as (pb & Hpb & Epb).
  exists w4, pb. split; [reflexivity|].
  destruct (holds_aligned w2 _ H2 I2) as [S2 _].
  assert (I4 : w_index w4 = 0).
  { destruct (holds_length _ _ H4) as [M _]. rewrite <- M. rewrite S2. rewrite !app_length, !unpack_length, !to_bits_length. lia. }
  destruct (holds_aligned w4 _ H4 I4) as [S4 A4]. split; [assumption|]. split; [split; assumption|].
  pose proof H4 as (h4 & _ & _ & _ & _ & _ & F4). pose proof Hw as (h0 & _ & _ & _ & _ & _ & F0).
  apply unpack_inj; [assumption| |].
  - apply Forall_app. split; [assumption|]. apply Forall_app. split; [assumption|]. unfold frame_bytes, header_byte, is_byte.
    pose proof (obu_type_range o). repeat (constructor; [lia|]). constructor.
  - rewrite <- S4. rewrite !unpack_app, Epb.
    assert (P8 : pad8 (length (unpack (w_bytes w) ++ P)) = pad8 (length P)).
    { rewrite !pad8_eq, app_length, unpack_length. f_equal. lia. }
    rewrite P8. rewrite <- !app_assoc. reflexivity.
Qed.

(** ** [main] *)
Lemma size_code_bits : forall w h a b, is_bits (size_code w h a b).
Proof. intros. unfold size_code. repeat (apply is_bits_app; split); apply to_bits_bits. Qed.

Lemma default_tail_bits : is_bits default_tail.
Proof. unfold is_bits, default_tail. repeat (apply Forall_cons; [unfold is_bit; lia|]). apply Forall_nil. Qed.

Lemma default_code_bits : forall w h, is_bits (repeat 0 10 ++ size_code w h w h ++ default_tail).
Proof.
  intros. apply is_bits_app. split; [cbn [repeat]; repeat (apply Forall_cons; [unfold is_bit; lia|]); apply Forall_nil|].
  apply is_bits_app. split; [apply size_code_bits|apply default_tail_bits].
Qed.

Lemma rel_loop : forall n rep input cw ch, no_failure rep -> 1 <= cw <= 65535 -> 1 <= ch <= 65535 -> (0 < n)%nat ->
  exists pb w fs, BuildEncModel.main_loop Release n 0 rep input cw ch new_writer enc_new [] = Ok (w, fs, false) /\
    packs (repeat 0 10 ++ size_code cw ch cw ch ++ default_tail) pb /\ w_bytes w = pb ++ [24; 16; 8; 8] /\
    length fs = n /\ Forall (shape 176 144) fs.
Proof.
  intros [|n] rep input cw ch NF Hw Hh Hn; [lia|]. cbn [BuildEncModel.main_loop].
  destruct (read_ok (rep 0%nat) (plane_y 176 144) input (NF _)) as (k1 & v1 & i1 & -> & L1 & Z1).
  destruct (read_ok (rep 1%nat) (plane_uv 176 144) i1 (NF _)) as (k2 & v2 & i2 & -> & L2 & Z2).
  destruct (read_ok (rep 2%nat) (plane_uv 176 144) i2 (NF _)) as (k3 & v3 & i3 & -> & L3 & Z3).
  destruct (rel_seq cw ch Hw Hh) as (e' & h' & E). cbn [Nat.eqb].
  destruct (rel_unit new_writer enc_new (SequenceHeader (seq_new cw ch)) _ e' aligned_new
    ltac:(cbn [BuildEncModel.encode_payload]; rewrite E; reflexivity) (default_code_bits cw ch)) as (w & pb & U & _ & K & Wb).
  rewrite U. cbn [bind].
  destruct (loop_rest n 1 (fun i => rep (3 + i)%nat) i3 cw ch w e' ([] ++ [mkPlanes v1 v2 v3]) ltac:(intros i; apply NF) ltac:(lia))
    as (fs & Q & L & F & _).
  rewrite <- debug_main_loop in Q. rewrite (le_ok _ _ _ (le_main_loop _ _ _ _ _ _ _ _ _) Q).
  exists pb, w, (mkPlanes v1 v2 v3 :: fs). split; [reflexivity|]. split; [assumption|]. split; [exact Wb|]. split; [cbn; lia|].
  constructor; [|assumption]. unfold shape, len. cbn [p_y p_u p_v]. rewrite L1, L2, L3. unfold plane_y, plane_uv. lia.
Qed.

Lemma rel_main_accepted : forall args c rep input w h n, accepted args c ->
  cf_width c = Some w -> cf_height c = Some h -> cf_frames c = Some n ->
  BuildEncModel.main Release args rep input =
    '(wr, fs, ex) <- BuildEncModel.main_loop Release (Z.to_nat n) 0 rep input w h new_writer enc_new [] ;; Ok (Ran (w_bytes wr) fs ex).
Proof.
  intros args c rep input w h n (c0 & r & I & P & V) Ew Eh En.
  destruct (accepted_usable args c0 c r I P V) as (i & o & w' & h' & nn & d & f & -> & _).
  cbn [cf_width cf_height cf_frames] in Ew, Eh, En. injection Ew as ->. injection Eh as ->. injection En as ->.
  unfold BuildEncModel.main. destruct args as [|a args]; [rewrite init_config_ok in I; injection I as <-; vm_compute in P; discriminate P|].
  rewrite I. cbn [bind]. rewrite P. cbn [bind]. rewrite V. reflexivity.
Qed.

Lemma rel_main : forall args c rep input w h n, accepted args c -> no_failure rep ->
  cf_width c = Some w -> cf_height c = Some h -> cf_frames c = Some n -> 1 <= n ->
  exists pb fs, BuildEncModel.main Release args rep input = Ok (Ran (pb ++ [24; 16; 8; 8]) fs false) /\
    packs (repeat 0 10 ++ size_code w h w h ++ default_tail) pb /\ len fs = n /\ Forall (shape 176 144) fs.
Proof.
  intros args c rep input w h n A NF Ew Eh En Hn. rewrite (rel_main_accepted args c rep input w h n A Ew Eh En).
  destruct (main_accepted args c rep input A) as (w' & h' & n' & Ew' & Eh' & En' & Bw & Bh & Bn & _).
  rewrite Ew in Ew'. rewrite Eh in Eh'. rewrite En in En'. injection Ew' as <-. injection Eh' as <-. injection En' as <-.
  destruct (rel_loop (Z.to_nat n) rep input w h NF ltac:(lia) ltac:(lia) ltac:(lia)) as (pb & wr & fs & L & K & B & Ln & F).
  rewrite L. cbn [bind]. rewrite B. exists pb, fs. repeat (split; [first [reflexivity|assumption]|]). split; [unfold len; lia|assumption].
Qed.

Lemma main_differs : forall args rep input, no_failure rep ->
  (BuildEncModel.main Release args rep input <> main args rep input <->
   exists c w h n, accepted args c /\ cf_width c = Some w /\ cf_height c = Some h /\ cf_frames c = Some n /\ 1 <= n /\ (w < 3 \/ h < 3)).
Proof.
  intros args rep input NF. split.
  - intros D.
    assert (main args rep input = Panic) as MP.
    { destruct (le_main args rep input) as [H|H]; [rewrite debug_main in H; exact H|]. rewrite debug_main in H. contradiction. }
    destruct (parse args initial) as [[c p]| |] eqn:P.
    + destruct p as [r| |].
      * destruct (validate_config c) eqn:V.
        -- assert (accepted args c) as A by (exists initial, r; split; [exact init_config_ok|]; split; assumption).
           destruct (main_accepted args c rep input A) as (w & h & n & Ew & Eh & En & Bw & Bh & Bn & M).
           exists c, w, h, n. repeat (split; [assumption|]).
           assert (n <> 0) by (intros ->; rewrite M in MP; discriminate MP).
           split; [lia|].
           assert ((3 <= w /\ 3 <= h) \/ (w < 3 \/ h < 3)) as [[H1 H2]|N] by lia; [|exact N].
           destruct (main_exact args c rep input w h n A NF Ew Eh En H1 H2 ltac:(lia)) as (code & pb & fs & e1 & h1 & E & _).
           rewrite E in MP. discriminate MP.
        -- exfalso. apply D. unfold BuildEncModel.main, main. destruct args; [reflexivity|]. rewrite init_config_ok. cbn [bind]. rewrite P. cbn [bind]. rewrite V. reflexivity.
      * exfalso. apply D. unfold BuildEncModel.main, main. destruct args; [reflexivity|]. rewrite init_config_ok. cbn [bind]. rewrite P. reflexivity.
      * exfalso. apply D. unfold BuildEncModel.main, main. destruct args; [reflexivity|]. rewrite init_config_ok. cbn [bind]. rewrite P. reflexivity.
    + exfalso. apply D. unfold BuildEncModel.main, main. destruct args; [reflexivity|]. rewrite init_config_ok. cbn [bind]. rewrite P. reflexivity.
    + exfalso. apply D. unfold BuildEncModel.main, main. destruct args; [reflexivity|]. rewrite init_config_ok. cbn [bind]. rewrite P. reflexivity.
  - intros (c & w & h & n & A & Ew & Eh & En & Hn & S).
    destruct (rel_main args c rep input w h n A NF Ew Eh En Hn) as (pb & fs & R & _).
    destruct (main_accepted args c rep input A) as (w' & h' & n' & Ew' & Eh' & En' & Bw & Bh & Bn & M).
    rewrite Ew in Ew'. rewrite Eh in Eh'. rewrite En in En'. injection Ew' as <-. injection Eh' as <-. injection En' as <-.
    rewrite loop_panics in M by (try assumption; lia). rewrite M, R. discriminate.
Qed.

(** ** What a parser makes of it *)
Lemma bits_cut : forall n l, is_bits l -> is_bits (firstn n l) /\ is_bits (skipn n l).
Proof. intros n l H. apply is_bits_app. rewrite firstn_skipn. exact H. Qed.

Lemma rd_ge2 : forall n pre post v q, is_bits pre -> is_bits post -> rd n (pre ++ 1 :: post) = Some (v, q) ->
  (length pre + 1 < n)%nat -> 2 <= v.
Proof.
  intros n pre post v q B1 B2 R L. unfold rd in R. destruct (n <=? _)%nat eqn:E; [|discriminate R]. injection R as <- _.
  apply Nat.leb_le in E. rewrite app_length in E. cbn [length] in E.
  rewrite firstn_app. rewrite (firstn_all2 pre) by lia.
  replace (n - length pre)%nat with (S (n - length pre - 1)) by lia. cbn [firstn]. rewrite bits_val_app, bits_val_cons.
  pose proof (bits_val_bound pre B1). assert (is_bits (firstn (n - length pre - 1) post)) as BF by (apply bits_cut; exact B2).
  pose proof (bits_val_bound _ BF) as Bd. rewrite firstn_length in *. cbn [length]. rewrite firstn_length.
  set (k := Nat.min (n - length pre - 1) (length post)) in *. assert (1 <= Z.of_nat k) by lia.
  assert (2 ^ 1 <= 2 ^ Z.of_nat k) by (apply Z.pow_le_mono_r; lia).
  assert (0 <= bits_val pre * 2 ^ Z.of_nat (S k)) by (apply Z.mul_nonneg_nonneg; [lia|apply Z.pow_nonneg; lia]). change (2 ^ 1) with 2 in *. lia.
Qed.

Lemma rd_some : forall n q v r, rd n q = Some (v, r) -> q = firstn n q ++ r /\ r = skipn n q /\ (n <= length q)%nat.
Proof.
  intros n q v r R. unfold rd in R. destruct (n <=? _)%nat eqn:E; [|discriminate R]. injection R as _ <-. apply Nat.leb_le in E.
  split; [symmetry; apply firstn_skipn|]. split; [reflexivity|assumption].
Qed.
Lemma rd4 : forall v q, rd 4 (to_bits 4 v ++ q) = Some (v mod 16, q).
Proof.
  intros v q. unfold rd. rewrite app_length, to_bits_length. cbn [Nat.leb Nat.add].
  rewrite firstn_app, to_bits_length, Nat.sub_diag. rewrite (firstn_all2 (to_bits 4 v)) by (rewrite to_bits_length; lia). cbn [firstn]. rewrite app_nil_r, bits_val_to_bits.
  rewrite skipn_app, to_bits_length, Nat.sub_diag. rewrite (skipn_all2 (to_bits 4 v)) by (rewrite to_bits_length; lia). reflexivity.
Qed.

Lemma small_unread : forall w h r p q, 1 <= w < 8192 -> 1 <= h < 8192 -> (w < 3 \/ h < 3) -> is_bits r ->
  rd_seq false ((repeat 0 10 ++ size_code w h w h ++ default_tail) ++ r) = Some (p, q) ->
  (w < 3 -> 2 <= ps_width_minus_1 p) /\ (3 <= w -> 2 <= ps_height_minus_1 p).
Proof.
  intros w h r p q W H S B R. unfold rd_seq in R.
  destruct (rd_head false ((repeat 0 10 ++ size_code w h w h ++ default_tail) ++ r)) as [[[[[[[a b] c] d] x] y] q']|] eqn:E; [|discriminate R].
  cbn [obind] in R. assert (ps_width_minus_1 p = x /\ ps_height_minus_1 p = y) as [-> ->].
  { clear E. destruct c; [discriminate R|].
    repeat match type of R with obind ?e _ = Some _ => destruct e as [[? ?]|]; [cbn [obind] in R|discriminate R] end.
    injection R as <- _. split; reflexivity. }
  clear R. unfold rd_head in E.
  rewrite <- !app_assoc in E. unfold size_code in E. rewrite <- !app_assoc in E.
  change (repeat 0 10) with ([0;0;0] ++ 0 :: 0 :: [0;0;0;0;0]) in E. rewrite <- app_assoc in E.
  change (rd 3 ([0;0;0] ++ ?z)) with (Some (0, z)) in E.
  cbn [app tl obind rd1] in E. change (0 =? 1) with false in E. cbn iota in E.
  match type of E with context [rd 5 ?z] => replace (rd 5 z) with (Some (0, tl (tl (tl (tl (tl z)))))) in E by reflexivity end.
  cbn [app tl obind rd1] in E. change (Z.to_nat 0) with 0%nat in E. cbn [rd_ops obind] in E.
  rewrite rd4 in E. cbn [obind] in E. rewrite rd4 in E. cbn [obind] in E.
  set (A := to_bits (Z.to_nat (Z.log2 w)) (w - 1)) in *. set (C := to_bits (Z.to_nat (Z.log2 h)) (h - 1)) in *.
  assert (LA : length A = Z.to_nat (Z.log2 w)) by apply to_bits_length. assert (LC : length C = Z.to_nat (Z.log2 h)) by apply to_bits_length.
  assert (BA : is_bits A) by apply to_bits_bits. assert (BC : is_bits C) by apply to_bits_bits.
  assert (LW : 0 <= Z.log2 w <= 12) by (split; [apply Z.log2_nonneg|]; assert (Z.log2 w < 13) by (apply Z.log2_lt_pow2; lia); lia).
  assert (LH : 0 <= Z.log2 h <= 12) by (split; [apply Z.log2_nonneg|]; assert (Z.log2 h < 13) by (apply Z.log2_lt_pow2; lia); lia).
  destruct (rd (Z.to_nat ((Z.log2 (w - 1) - 1) mod 16 + 1)) (A ++ C ++ default_tail ++ r)) as [[x' q1]|] eqn:EX; [|discriminate E]. cbn [obind] in E.
  destruct (rd (Z.to_nat ((Z.log2 (h - 1) - 1) mod 16 + 1)) q1) as [[y' q2]|] eqn:EY; [|discriminate E]. cbn [obind] in E.
  injection E as _ _ _ _ <- <- _.
  assert (exists t, default_tail = 0 :: 1 :: t /\ is_bits t) as (t & T & BT).
  { pose proof default_tail_bits as D. eexists. split; [reflexivity|]. inversion D as [|? ? _ D1]. inversion D1. assumption. }
  rewrite T in *. split; intros Hs.
  - assert ((Z.log2 (w - 1) - 1) mod 16 = 15) as Q by (assert (w = 1 \/ w = 2) as [-> | ->] by lia; reflexivity).
    rewrite Q in EX. change (Z.to_nat (15 + 1)) with 16%nat in EX.
    replace (A ++ C ++ (0 :: 1 :: t) ++ r) with ((A ++ C ++ [0]) ++ 1 :: t ++ r) in EX by (rewrite <- !app_assoc; reflexivity).
    assert (Z.log2 w <= 1) by (assert (w = 1 \/ w = 2) as [-> | ->] by lia; cbn; lia).
    eapply rd_ge2; [| |exact EX|].
    + apply is_bits_app. split; [assumption|]. apply is_bits_app. split; [assumption|]. apply Forall_cons; [unfold is_bit; lia|apply Forall_nil].
    + apply is_bits_app. split; assumption.
    + rewrite !app_length, LA, LC. cbn [length]. lia.
  - assert (h < 3) as Hh by lia.
    assert ((Z.log2 (h - 1) - 1) mod 16 = 15) as Q by (assert (h = 1 \/ h = 2) as [-> | ->] by lia; reflexivity).
    rewrite Q in EY. change (Z.to_nat (15 + 1)) with 16%nat in EY.
    assert (1 <= Z.log2 (w - 1) <= Z.log2 w) by (split; [apply Z.log2_le_pow2; lia|apply Z.log2_le_mono; lia]).
    rewrite (Z.mod_small (Z.log2 (w - 1) - 1) 16) in EX by lia. replace (Z.log2 (w - 1) - 1 + 1) with (Z.log2 (w - 1)) in EX by lia.
    destruct (rd_some _ _ _ _ EX) as (_ & Q1 & _). rewrite skipn_app in Q1.
    replace (Z.to_nat (Z.log2 (w - 1)) - length A)%nat with 0%nat in Q1 by lia. cbn [skipn] in Q1.
    rewrite Q1 in EY. set (A' := skipn _ A) in *.
    assert (LA' : (length A' <= 1)%nat).
    { unfold A'. rewrite skipn_length, LA. assert (Z.log2 w <= Z.log2 (w - 1) + 1); [|lia].
      change (Z.log2 w <= Z.succ (Z.log2 (w - 1))). rewrite <- Z.log2_double by lia. apply Z.log2_le_mono. lia. }
    assert (BA' : is_bits A') by (apply bits_cut; exact BA).
    replace (A' ++ C ++ (0 :: 1 :: t) ++ r) with ((A' ++ C ++ [0]) ++ 1 :: t ++ r) in EY by (rewrite <- !app_assoc; reflexivity).
    assert (Z.log2 h <= 1) by (assert (h = 1 \/ h = 2) as [-> | ->] by lia; cbn; lia).
    eapply rd_ge2; [| |exact EY|].
    + apply is_bits_app. split; [assumption|]. apply is_bits_app. split; [assumption|]. apply Forall_cons; [unfold is_bit; lia|apply Forall_nil].
    + apply is_bits_app. split; assumption.
    + rewrite !app_length, LC. cbn [length]. lia.
Qed.
