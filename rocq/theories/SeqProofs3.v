(** Consequences for the header the program writes, and for a second header. *)
From Coq Require Import ZArith List Bool Lia ZifyBool ZifyNat.
From Verif Require Import Base BaseProofs UtilModel UtilSpec UtilProofs BitsSpec BitsProofs
  RangeCoderModel BitCodecModel BitCodecProofs SeqModel SeqSpec SeqProofs SeqProofs2.
Import ListNotations.
Open Scope Z_scope.
Ltac Zify.zify_post_hook ::= Z.div_mod_to_equations.

Lemma seq_new_ok : forall w h, seq_ok enc_new (seq_new w h).
Proof.
  intros. unfold seq_ok, tools_ok, color_ok. cbn. repeat split; try lia; try constructor; try lia; auto.
Qed.

Lemma rd_app_more : forall n c r x c', rd n c = Some (x, c') -> rd n (c ++ r) = Some (x, c' ++ r).
Proof.
  intros n c r x c'. unfold rd. destruct (Nat.leb_spec n (length c)); [|discriminate]. intros E. injection E as <- <-.
  rewrite app_length. destruct (Nat.leb_spec n (length c + length r)); [|lia].
  rewrite firstn_app, skipn_app. replace (n - length c)%nat with O by lia. rewrite firstn_O, app_nil_r. reflexivity.
Qed.

Lemma log2_pred : forall w, 3 <= w -> Z.log2 (w - 1) = Z.log2 w \/ (w = 2 ^ Z.log2 w /\ Z.log2 (w - 1) = Z.log2 w - 1).
Proof.
  intros w H. destruct (Z.log2_spec w ltac:(lia)) as [A B]. set (k := Z.log2 w) in *.
  assert (1 <= k) by (apply Z.log2_le_pow2; lia).
  rewrite Z.pow_succ_r in B by lia. destruct (Z.eq_dec w (2 ^ k)).
  - right. split; [assumption|]. apply Z.log2_unique; [lia|]. replace (Z.succ (k - 1)) with k by lia.
    assert (2 ^ k = 2 * 2 ^ (k - 1)) by (rewrite <- Z.pow_succ_r by lia; f_equal; lia).
    assert (1 <= 2 ^ (k - 1)) by (pose proof (pow2_pos (k - 1) ltac:(lia)); lia). lia.
  - left. apply Z.log2_unique; [lia|]. rewrite Z.pow_succ_r by lia. lia.
Qed.

(** Reading log2(w-1) bits where log2 w bits of w-1 were written. *)
Lemma rd_width : forall w q, 3 <= w -> exists pre,
  rd (Z.to_nat (Z.log2 (w - 1))) (to_bits (Z.to_nat (Z.log2 w)) (w - 1) ++ q) = Some (w - 1 - 2 ^ Z.log2 (w - 1), pre ++ q) /\
  (Z.log2 (w - 1) = Z.log2 w -> pre = []).
Proof.
  intros w q H. destruct (Z.log2_spec (w - 1) ltac:(lia)) as [A B].
  assert (K1 : 1 <= Z.log2 (w - 1)) by (apply Z.log2_le_pow2; lia). rewrite Z.pow_succ_r in B by lia.
  destruct (log2_pred w H) as [E|[E1 E2]].
  - exists []. split; [|reflexivity]. rewrite <- E. set (k := Z.log2 (w - 1)) in *. rewrite rd_len by apply to_bits_length. do 2 f_equal.
    rewrite bits_val_to_bits, Z2Nat.id by lia.
    replace (w - 1) with ((w - 1 - 2 ^ k) + 1 * 2 ^ k) at 1 by lia. rewrite Z.mod_add by lia. apply Z.mod_small. lia.
  - assert (EL : Z.log2 w = Z.log2 (w - 1) + 1) by lia. rewrite EL in *. set (k := Z.log2 (w - 1)) in *.
    exists [(w - 1) mod 2]. split; [|lia].
    replace (Z.to_nat (k + 1)) with (S (Z.to_nat k)) by lia. rewrite to_bits_snoc, <- app_assoc.
    rewrite rd_len by apply to_bits_length. do 2 f_equal. rewrite bits_val_to_bits, Z2Nat.id by lia.
    rewrite Z.pow_add_r in E1 by lia. change (2 ^ 1) with 2 in E1. clearbody k. set (p := 2 ^ k) in *. clearbody p.
    rewrite E1. replace ((p * 2 - 1) / 2) with (p - 1) by lia. rewrite Z.mod_small by lia. lia.
Qed.

Lemma seq_width : forall w h, 3 <= w <= 65535 -> 3 <= h <= 65535 -> exists code e' h',
  (forall out, enc_seq out enc_new (seq_new w h) = Ok (out ++ code, e', h')) /\
  (exists h1 rest, rd_head false code = Some (0, false, false, [], w - 1 - 2 ^ Z.log2 (w - 1), h1, rest) /\
     (Z.log2 (w - 1) = Z.log2 w -> h1 = h - 1 - 2 ^ Z.log2 (h - 1))) .
Proof.
  intros w h Hw Hh. destruct (seq_ok_parts enc_new (seq_new w h) (seq_new_ok w h)) as (cops & ctail & e' & h' & E & Rops & R & _).
  { unfold sizes_ok. cbn. lia. }
  eexists. exists e', h'. split; [exact E|].
  pose proof (log2_16 (w - 1) ltac:(lia)). pose proof (log2_16 (h - 1) ltac:(lia)).
  pose proof (log2_16 w ltac:(lia)). pose proof (log2_16 h ltac:(lia)).
  cbn [seq_new sh_profile sh_still sh_ops sh_w sh_h sh_max_w sh_max_h length map] in *.
  unfold size_code. rewrite <- !app_assoc. rewrite (rd_head_false _ _ _ _ []) by (try assumption; lia). rewrite !Z.sub_add.
  destruct (rd_width w (to_bits (Z.to_nat (Z.log2 h)) (h - 1) ++ ctail) ltac:(lia)) as (pre & -> & Hq). cbn [obind].
  destruct (log2_pred w ltac:(lia)) as [L|[L1 L2]].
  - rewrite (Hq L). cbn [app]. destruct (rd_width h ctail ltac:(lia)) as (q2 & -> & _). cbn [obind]. eexists. eexists. split; [reflexivity|]. reflexivity.
  - assert (exists h1 rest, rd (Z.to_nat (Z.log2 (h - 1))) (pre ++ to_bits (Z.to_nat (Z.log2 h)) (h - 1) ++ ctail) = Some (h1, rest)) as (h1 & rest & ->).
    { unfold rd. rewrite !app_length, to_bits_length. pose proof (log2_pred h ltac:(lia)).
      destruct (Nat.leb_spec (Z.to_nat (Z.log2 (h - 1))) (length pre + (Z.to_nat (Z.log2 h) + length ctail))); [eexists; eexists; reflexivity|lia]. }
    cbn [obind]. eexists. eexists. split; [reflexivity|]. lia.
Qed.

Lemma seq_width_lost : forall w h, 3 <= w <= 65535 -> 3 <= h <= 65535 -> exists code e' h' w1 h1 rest,
  (forall out, enc_seq out enc_new (seq_new w h) = Ok (out ++ code, e', h')) /\
  rd_head false code = Some (0, false, false, [], w1, h1, rest) /\
  (forall k, is_floor_log2 (w - 1) k -> w1 = w - 1 - 2 ^ k) /\
  (forall k, is_floor_log2 (h - 1) k -> (forall j, w <> 2 ^ j) -> h1 = h - 1 - 2 ^ k) /\
  w1 <> w - 1.
Proof.
  intros w h Hw Hh. destruct (seq_width w h Hw Hh) as (code & e' & h' & E & h1 & rest & R & Q).
  exists code, e', h', (w - 1 - 2 ^ Z.log2 (w - 1)), h1, rest. split; [exact E|]. split; [exact R|].
  assert (LU : forall n k, is_floor_log2 n k -> 0 < n -> k = Z.log2 n).
  { intros n k (K0 & K1) Hn. symmetry. apply Z.log2_unique; [assumption|]. replace (Z.succ k) with (k + 1) by lia. assumption. }
  split; [intros k Hk; rewrite (LU _ _ Hk ltac:(lia)); reflexivity|]. split.
  - intros k Hk Hp. rewrite (LU _ _ Hk ltac:(lia)). apply Q. destruct (log2_pred w ltac:(lia)) as [L|[L _]]; [assumption|].
    exfalso. apply (Hp (Z.log2 w)). assumption.
  - pose proof (pow2_pos (Z.log2 (w - 1)) (Z.log2_nonneg _)). lia.
Qed.

Lemma seq_new_total : forall w h out, 1 <= w <= 65535 -> 1 <= h <= 65535 ->
  ((exists r, enc_seq out enc_new (seq_new w h) = Ok r) <-> 3 <= w /\ 3 <= h) /\
  (~ (3 <= w /\ 3 <= h) -> enc_seq out enc_new (seq_new w h) = Panic).
Proof.
  intros w h out Hw Hh.
  assert (P : ~ (3 <= w /\ 3 <= h) -> enc_seq out enc_new (seq_new w h) = Panic).
  { intros HN. unfold enc_seq. cbn [seq_new sh_profile sh_ops enc_new e_reduced enc_ops length].
    rewrite push_bits_with_size_ok by lia. cbn [bind]. rewrite push_bits_with_size_ok by lia. cbn [bind].
    rewrite enc_size_small; [reflexivity|cbn; lia..]. }
  split; [split|exact P].
  - intros [r E]. destruct (Z_le_dec 3 w); destruct (Z_le_dec 3 h); try lia; rewrite P in E by lia; discriminate.
  - intros [H1 H2]. destruct (seq_width w h ltac:(lia) ltac:(lia)) as (code & e' & h' & E & _). eexists. apply E.
Qed.

(** ** A second sequence header *)
Lemma seq_again : forall e h, seq_ok e h -> sizes_ok h ->
  Z.log2 (sh_w h - 1) = Z.log2 (sh_max_w h) -> Z.log2 (sh_h h - 1) = Z.log2 (sh_max_h h) ->
  exists code1 code2 v e' h' e'' h'',
    (forall out, enc_seq out e h = Ok (out ++ code1, e', h')) /\
    (forall out, enc_seq out e' h' = Ok (out ++ code2, e'', h'')) /\
    (forall r, rd_seq false (code1 ++ r) = Some (v, r)) /\ (forall r, rd_seq false (code2 ++ r) = Some (v, r)).
Proof.
  intros e h Ho Hs Lw Lh.
  destruct (seq_parse_back e h Ho Hs Lw Lh) as (c1 & e' & h' & E1 & R1 & K1 & (W1 & W2 & W3 & W4) & V).
  destruct (seq_parse_back e' h') as (c2 & e'' & h'' & E2 & R2 & _); [assumption| | | |].
  { unfold sizes_ok in *. rewrite W1, W2, W3, W4. assumption. }
  { rewrite W1, W3. assumption. }
  { rewrite W2, W4. assumption. }
  eexists c1, c2, _, e', h', e'', h''. split; [exact E1|]. split; [exact E2|]. split; [exact R1|].
  intros r. rewrite R2, V, W3, W4. reflexivity.
Qed.

(** The same two results with the logarithm spelled out. *)
Lemma floor_log2_iff : forall n k, 0 < n -> is_floor_log2 n k <-> k = Z.log2 n.
Proof.
  intros n k Hn. split.
  - intros (K0 & K1). symmetry. apply Z.log2_unique; [assumption|]. replace (Z.succ k) with (k + 1) by lia. assumption.
  - intros ->. split; [apply Z.log2_nonneg|]. apply (Z.log2_spec n Hn).
Qed.
Lemma floor_log2_eq : forall a b, 0 < a -> 0 < b -> (forall k, is_floor_log2 a k <-> is_floor_log2 b k) -> Z.log2 a = Z.log2 b.
Proof. intros a b Ha Hb H. apply (floor_log2_iff b); [assumption|]. apply H. apply floor_log2_iff; auto. Qed.

Lemma seq_parse_back_spec : forall e h, seq_ok e h -> sizes_ok h ->
  (forall k, is_floor_log2 (sh_w h - 1) k <-> is_floor_log2 (sh_max_w h) k) ->
  (forall k, is_floor_log2 (sh_h h - 1) k <-> is_floor_log2 (sh_max_h h) k) ->
  exists code e' h' w1 h1, (forall out, enc_seq out e h = Ok (out ++ code, e', h')) /\
    (forall r, rd_seq false (code ++ r) = Some (seq_view e h w1 h1, r)) /\
    (forall k, is_floor_log2 (sh_max_w h) k -> w1 = (sh_max_w h - 1) mod 2 ^ k) /\
    (forall k, is_floor_log2 (sh_max_h h) k -> h1 = (sh_max_h h - 1) mod 2 ^ k).
Proof.
  intros e h Ho Hs Lw Lh. pose proof Hs as (W1 & W2 & W3 & W4).
  destruct (seq_parse_back e h Ho Hs) as (code & e' & h' & E & R & _); [apply floor_log2_eq; try assumption; lia..|].
  eexists code, e', h', _, _. split; [exact E|]. split; [exact R|].
  split; intros k Hk; apply floor_log2_iff in Hk; try lia; rewrite Hk; reflexivity.
Qed.

Lemma seq_again_spec : forall e h, seq_ok e h -> sizes_ok h ->
  (forall k, is_floor_log2 (sh_w h - 1) k <-> is_floor_log2 (sh_max_w h) k) ->
  (forall k, is_floor_log2 (sh_h h - 1) k <-> is_floor_log2 (sh_max_h h) k) ->
  exists code1 code2 v e' h' e'' h'',
    (forall out, enc_seq out e h = Ok (out ++ code1, e', h')) /\
    (forall out, enc_seq out e' h' = Ok (out ++ code2, e'', h'')) /\
    (forall r, rd_seq false (code1 ++ r) = Some (v, r)) /\ (forall r, rd_seq false (code2 ++ r) = Some (v, r)).
Proof.
  intros e h Ho Hs Lw Lh. pose proof Hs as (W1 & W2 & W3 & W4).
  apply seq_again; [assumption|assumption|apply floor_log2_eq; try assumption; lia..].
Qed.

(** The picture format left in the encoder is the one the header announces. *)
Lemma color_state : forall out e profile out' c, 0 <= profile <= 2 -> enc_color out e profile = Ok (out', c) ->
  c_depth c = (if e_high e then (if (profile =? 2) && e_twelve e then 12 else 10) else 8) /\
  c_mono c = negb (profile =? 1) && e_mono e /\ c_planes c = (if c_mono c then 1 else 3) /\
  (if c_mono c then c_ssx c = true /\ c_ssy c = true
   else c_ssx c = pc_ssx (color_view e profile) /\ c_ssy c = pc_ssy (color_view e profile) /\
        c_range c = pc_range (color_view e profile) /\ c_sep c = pc_sep (color_view e profile)).
Proof.
  intros out e profile out' c Hp E. unfold enc_color in E. unfold color_view.
  assert (P : profile = 0 \/ profile = 1 \/ profile = 2) by lia.
  destruct (e_cd e) as [[[p t] m]|]; [destruct ((p =? 1) && (t =? 13) && (m =? 0)) eqn:Es|];
  destruct P as [->|[->| ->]]; destruct (e_high e); destruct (e_twelve e); destruct (e_ssx e); destruct (e_ssy e); destruct (e_mono e);
    cbn [Z.eqb Pos.eqb andb orb negb Z.leb Z.compare Pos.compare Pos.compare_cont bind] in E;
    repeat (match type of E with
            | bind _ _ = Ok _ => apply bind_inv in E; let y := fresh "y" in let Y := fresh "Y" in destruct E as (y & Y & E); try destruct y as [? [? ?]];
                repeat (match type of Y with
                        | bind _ _ = Ok _ => apply bind_inv in Y; let z := fresh "z" in let Z := fresh "Z" in destruct Y as (z & Z & Y)
                        end);
                try (injection Y; intros; subst; clear Y)
            end; cbn [cd_eqb] in E; rewrite ?Es in E; cbn [Z.eqb Pos.eqb andb orb negb Z.leb Z.compare Pos.compare Pos.compare_cont bind] in E);
    injection E as _ <-; cbn [c_depth c_mono c_planes c_ssx c_ssy c_range c_sep pc_ssx pc_ssy pc_range pc_sep andb negb orb Z.eqb Pos.eqb];
    repeat split; reflexivity.
Qed.

Lemma seq_state : forall out e h out' e' h', 0 <= sh_profile h <= 2 -> enc_seq out e h = Ok (out', e', h') ->
  e_bit_depth e' = (if e_high e then (if (sh_profile h =? 2) && e_twelve e then 12 else 10) else 8) /\
  e_mono e' = negb (sh_profile h =? 1) && e_mono e /\ e_num_planes e' = (if e_mono e' then 1 else 3) /\
  (if e_mono e' then e_ssx e' = true /\ e_ssy e' = true
   else e_ssx e' = pc_ssx (color_view e (sh_profile h)) /\ e_ssy e' = pc_ssy (color_view e (sh_profile h)) /\
        e_range e' = pc_range (color_view e (sh_profile h)) /\ e_sep_uv e' = pc_sep (color_view e (sh_profile h))).
Proof.
  intros out e h out' e' h' Hp E. unfold enc_seq in E.
  apply bind_inv in E. destruct E as (o1 & _ & E). apply bind_inv in E. destruct E as (o2 & _ & E). apply bind_inv in E. destruct E as (o3 & _ & E).
  apply bind_inv in E. destruct E as (o4 & _ & E). apply bind_inv in E. destruct E as ([o5 t] & _ & E). apply bind_inv in E. destruct E as ([o6 c] & C & E).
  apply bind_inv in E. destruct E as ([[o7 ti] dm] & _ & E). apply bind_inv in E. destruct E as (o8 & _ & E). injection E as _ <- _.
  cbn [e_bit_depth e_mono e_num_planes e_ssx e_ssy e_range e_sep_uv]. exact (color_state _ _ _ _ _ Hp C).
Qed.
