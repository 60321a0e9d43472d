(** Frame size, frame identifiers and order of the fields of the frame header. *)
From Coq Require Import ZArith List Bool Lia ZifyBool ZifyNat.
From Verif Require Import Base BaseProofs TableLemmas UtilModel UtilSpec UtilProofs BitsSpec BitsProofs RangeCoderModel BitCodecModel BitCodecProofs
  SessionModel SeqModel SeqSpec SeqProofs TileModel TileSpec TileProofs FrameParamModel FrameModel FrameSpec FrameBits FrameProofs FrameProofs2 FrameProofs3 FrameProofs4 FrameProofs5.
Import ListNotations.
Open Scope Z_scope.
Ltac Zify.zify_post_hook ::= Z.div_mod_to_equations.
#[local] Opaque to_bits.

(** ** Frame size, super-resolution, render size *)
Definition size_typed (d : dims) : Prop := 1 <= m_w d <= 65536 /\ 1 <= m_h d <= 65536 /\ 1 <= m_rw d <= 65536 /\ 1 <= m_rh d <= 65536 /\ 0 <= m_denom d < 2 ^ 64.
(** Super-resolution in effect: allowed by the sequence and used by the frame. *)
Definition scaled (enable : bool) (d : dims) : bool := enable && m_use d.
Definition denom_of (enable : bool) (d : dims) : Z := if scaled enable d then m_denom d else 8.
(** The width that is coded, the size that is to be shown. *)
Definition coded_w (enable : bool) (d : dims) : Z := (m_w d * 8 + denom_of enable d / 2) / denom_of enable d.
Definition size_of (enable : bool) (d : dims) : av1_size :=
  mkAZ (coded_w enable d) (m_h d) (m_w d) (denom_of enable d) (m_rw d) (m_rh d).
Definition size_kept (d : dims) : av1_size := mkAZ (m_w d) (m_h d) (m_up d) (m_denom d) (m_rw d) (m_rh d).
(** The render size equals the downscaled size although there is an upscaled one. *)
Definition render_lost (enable : bool) (d : dims) : bool := (m_rw d =? coded_w enable d) && (m_rh d =? m_h d) && negb (m_rw d =? m_w d).

Definition superres_code (enable : bool) (d : dims) : list Z := if_code enable [b2z (m_use d)] ++ if_code (scaled enable d) (to_bits 3 (m_denom d - 9)).
Definition same_size (enable : bool) (d : dims) : bool := (m_rw d =? coded_w enable d) && (m_rh d =? m_h d).
Definition render_code (enable : bool) (d : dims) : list Z :=
  b2z (negb (same_size enable d)) :: if_code (negb (same_size enable d)) (to_bits 16 (m_rw d - 1) ++ to_bits 16 (m_rh d - 1)).
Lemma render_code_bits enable d : is_bits (superres_code enable d ++ render_code enable d).
Proof. unfold superres_code, render_code. apply is_bits_app. split; [apply is_bits_app; split; apply if_code_bits; bits|]. apply is_bits_cons. split; [destruct (same_size enable d); cbn; unfold is_bit; lia|apply if_code_bits; bits]. Qed.
Definition kept_dims (enable : bool) (d : dims) : dims :=
  mkDims (coded_w enable d) (m_h d) (if same_size enable d then m_w d else m_rw d) (m_rh d) (scaled enable d) (denom_of enable d) (m_w d).
Lemma enc_superres_render out enable d : size_typed d -> (scaled enable d = true -> 9 <= m_denom d <= 16) ->
  ('(out, d) <- enc_superres out enable d ;; enc_render out d) = Ok (out ++ superres_code enable d ++ render_code enable d, kept_dims enable d).
Proof.
  intros (W & H & RW & RH & DE) S. unfold enc_superres.
  assert (E : (let '(out, use) := if enable then (pbit out (m_use d), m_use d) else (out, false) in (out, use)) = (out ++ if_code enable [b2z (m_use d)], scaled enable d)).
  { unfold scaled. destruct enable; cbn [if_code andb]; [rewrite pbit_app; reflexivity|rewrite app_nil_r; reflexivity]. }
  destruct (if enable then (pbit out (m_use d), m_use d) else (out, false)) as [o u]. injection E as -> ->.
  assert (E : (if scaled enable d then k <- chk_u64 (m_denom d - SUPERRES_DENOM_MIN) ;; o <- push_bits_with_size (out ++ if_code enable [b2z (m_use d)]) (as_u32 k) SUPERRES_DENOM_BITS ;; Ok (o, m_denom d)
     else Ok (out ++ if_code enable [b2z (m_use d)], SUPERRES_NUM)) = Ok (out ++ superres_code enable d, denom_of enable d)).
  { unfold superres_code, denom_of. destruct (scaled enable d); cbn [if_code]; [|rewrite app_nil_r; reflexivity]. specialize (S eq_refl).
    unfold SUPERRES_DENOM_MIN, SUPERRES_DENOM_BITS. rewrite chk_u64_ok by lia. cbn [bind]. unfold as_u32. rewrite Z.mod_small by lia. rewrite push_bits_with_size_ok by lia. cbn [bind]. rewrite <- app_assoc. reflexivity. }
  rewrite E. clear E. cbn [bind]. assert (D : 8 <= denom_of enable d <= 16) by (unfold denom_of; destruct (scaled enable d); [specialize (S eq_refl)|]; lia).
  unfold SUPERRES_NUM. rewrite chk_u64_ok by lia. cbn [bind]. rewrite chk_u64_ok by lia. cbn [bind]. fold (coded_w enable d).
  unfold enc_render. cbn [m_w m_h m_rw m_rh m_use m_denom m_up].
  replace (negb (coded_w enable d =? m_rw d) || negb (m_h d =? m_rh d)) with (negb (same_size enable d)) by (unfold same_size; rewrite negb_andb, (Z.eqb_sym (m_rw d)), (Z.eqb_sym (m_rh d)); reflexivity).
  unfold render_code, kept_dims. rewrite pbit_app. destruct (same_size enable d) eqn:Q; cbn [negb if_code b2z].
  - replace (m_rh d) with (m_h d) by (unfold same_size in Q; lia). rewrite <- !app_assoc. reflexivity.
  - rewrite chk_u64_ok by lia. cbn [bind]. unfold as_u32. rewrite !Z.mod_small by lia. rewrite push_bits_with_size_ok by lia. cbn [bind]. rewrite chk_u64_ok by lia. cbn [bind]. rewrite Z.mod_small by lia.
    rewrite push_bits_with_size_ok by lia. cbn [bind]. rewrite <- !app_assoc. reflexivity.
Qed.
(** The reader of what follows the size. *)
Definition rd_rest (enable : bool) (up h : Z) (q : list Z) : option (av1_size * list Z) :=
  LET (w, denom, q) := rd_superres enable up q IN
  LET (differ, q) := rd1 q IN
  LET ((rw, rh), q) := (if differ then LET (rw, q) := rd 16 q IN LET (rh, q) := rd 16 q IN Some ((rw + 1, rh + 1), q) else Some ((up, h), q)) IN
  Some (mkAZ w h up denom rw rh, q).
Lemma rd_sizes_rest override enable nw nh max q : rd_sizes override enable nw nh max q =
  (LET ((up, h), q) := (if override then LET (w, q) := rd nw q IN LET (h, q) := rd nh q IN Some ((w + 1, h + 1), q) else Some (max, q)) IN rd_rest enable up h q).
Proof. reflexivity. Qed.
Lemma rd_superres_ok enable d k up : (scaled enable d = true -> 9 <= m_denom d <= 16) ->
  rd_superres enable up (superres_code enable d ++ k) = Some ((up * 8 + denom_of enable d / 2) / denom_of enable d, denom_of enable d, k).
Proof.
  intros S. unfold rd_superres, superres_code, scaled, denom_of, rd_if in *. rewrite <- app_assoc. destruct enable; cbn [if_code app andb] in *; [|reflexivity].
  rewrite rd1_ok. cbn [obind]. unfold scaled. cbn [andb]. destruct (m_use d); cbn [if_code app]; [|reflexivity]. rewrite rd_ok by (change (2 ^ Z.of_nat 3) with 8; lia). cbn [obind].
  replace (m_denom d - 9 + 9) with (m_denom d) by lia. reflexivity.
Qed.
Lemma rd_rest_ok enable d k up : size_typed d -> (scaled enable d = true -> 9 <= m_denom d <= 16) ->
  rd_rest enable up (m_h d) (superres_code enable d ++ render_code enable d ++ k) =
  Some (mkAZ ((up * 8 + denom_of enable d / 2) / denom_of enable d) (m_h d) up (denom_of enable d) (if same_size enable d then up else m_rw d) (m_rh d), k).
Proof.
  intros (W & H & RW & RH & DE) S. unfold rd_rest. rewrite rd_superres_ok by exact S. cbn [obind]. unfold render_code. cbn [app]. rewrite rd1_ok. cbn [obind].
  destruct (same_size enable d) eqn:Q; cbn [negb if_code app].
  - replace (m_rh d) with (m_h d) by (unfold same_size in Q; lia). reflexivity.
  - rewrite <- app_assoc. rewrite rd_ok by (change (2 ^ Z.of_nat 16) with 65536; lia). cbn [obind]. rewrite rd_ok by (change (2 ^ Z.of_nat 16) with 65536; lia). cbn [obind].
    rewrite !Z.sub_add. reflexivity.
Qed.
(** Without an override a decoder takes the maximal size of the sequence: exactly if
    the frame has that size does it get the frame's, and then the render size only if
    it is not that of the downscaled frame. *)
Lemma sizes_plain enable nw nh d : size_typed d -> (scaled enable d = true -> 9 <= m_denom d <= 16) -> exists bits d',
  enc_sizes [] false enable d = Ok (bits, d') /\ decodes bits (rd_sizes false enable nw nh (m_w d, m_h d)) (size_kept d') /\
  (size_kept d' = size_of enable d <-> render_lost enable d = false).
Proof.
  intros T S. do 2 eexists. split; [unfold enc_sizes, enc_frame_size; cbn [bind]; apply (enc_superres_render []); assumption|]. split.
  - split; [apply render_code_bits|]. intros k. rewrite rd_sizes_rest. cbn [obind app]. rewrite <- app_assoc. rewrite rd_rest_ok by assumption. reflexivity.
  - unfold size_kept, kept_dims, size_of, render_lost. cbn [m_w m_h m_up m_denom m_rw m_rh]. unfold same_size. split.
    + intros E. injection E as E. destruct ((m_rw d =? coded_w enable d) && (m_rh d =? m_h d)); lia.
    + intros E. f_equal. destruct ((m_rw d =? coded_w enable d) && (m_rh d =? m_h d)); lia.
Qed.
Lemma sizes_other enable nw nh d mw mh : size_typed d -> (scaled enable d = true -> 9 <= m_denom d <= 16) -> (mw, mh) <> (m_w d, m_h d) ->
  exists bits d', enc_sizes [] false enable d = Ok (bits, d') /\
  forall v, az_up v = m_w d -> az_h v = m_h d -> never_decodes bits (rd_sizes false enable nw nh (mw, mh)) v.
Proof.
  intros T S N. do 2 eexists. split; [unfold enc_sizes, enc_frame_size; cbn [bind]; apply (enc_superres_render []); assumption|].
  intros v U H k E. rewrite rd_sizes_rest in E. cbn [obind] in E. unfold rd_rest in E. ob E. ob E. apply obind_inv in E. destruct E as (((rw & rh) & q) & E2 & E). injection E as <- _. cbn in U, H. congruence.
Qed.
(** The least number of bits a decoder takes for a size. *)
Definition rest_size (enable : bool) (v : av1_size) : nat :=
  (if enable then if (az_denom v =? 8)%Z then 1 else 4 else 0) + (if ((az_rw v =? az_up v) && (az_rh v =? az_h v))%Z then 1 else 33).
Lemma rd_rest_length enable up h q v k : rd_rest enable up h q = Some (v, k) -> az_up v = up /\ az_h v = h /\ (rest_size enable v + length k <= length q)%nat /\
  (az_denom v <> 8 -> (rest_size enable v + length k = length q)%nat \/ (rest_size enable v + 32 + length k = length q)%nat).
Proof.
  intros H. unfold rd_rest in H. ob H. ob H. apply obind_inv in H. destruct H as (((rw & rh) & q2) & E2 & H). injection H as <- <-. unfold rest_size. cbn [az_up az_h az_denom az_rw az_rh].
  split; [reflexivity|]. split; [reflexivity|]. apply rd1_length in E0.
  assert (L2 : ((if ((rw =? up) && (rh =? h))%Z then 0 else 32) + length q2 = length l0)%nat \/ ((32 + length q2 = length l0)%nat /\ rw = up /\ rh = h)).
  { match type of E2 with (if ?x then _ else _) = _ => destruct x end; [|injection E2 as <- <- <-; rewrite !Z.eqb_refl; left; cbn; lia]. ob E2. ob E2. apply rd_length in E1, E3. injection E2 as _ _ <-. destruct ((rw =? up) && (rh =? h)) eqn:Q; [right|left]; lia. }
  assert (L1 : ((if enable then if (z =? 8)%Z then 1 else 4 else 0) + length l <= length q)%nat /\ (z <> 8 -> ((if enable then if (z =? 8)%Z then 1 else 4 else 0) + length l = length q)%nat)).
  { unfold rd_superres, rd_if in E. destruct enable; [|cbn [obind] in E; injection E as _ _ <-; cbn; lia]. ob E. apply rd1_length in E1. ob E.
    injection E as _ <- <-. match type of E3 with (if ?x then _ else _) = _ => destruct x end; [|injection E3 as <- <-; cbn; lia].
    ob E3. apply rd_length in E. injection E3 as <- <-. destruct (Z.eqb_spec (v + 9) 8); lia. }
  destruct L1 as [L1 L1'].
  assert (L2' : ((if ((rw =? up) && (rh =? h))%Z then 1 else 33) + length q2 = length l \/ (if ((rw =? up) && (rh =? h))%Z then 1 else 33) + 32 + length q2 = length l)%nat).
  { destruct L2 as [L2|(L2 & -> & ->)]; [left; destruct ((rw =? up) && (rh =? h))|right; rewrite !Z.eqb_refl; cbn [andb]]; lia. }
  clear L2. split; [lia|]. intros N. specialize (L1' N). lia.
Qed.
(** With an override the top bits of the sizes are missing: whatever field lengths the
    sequence header announces, as long as they can hold the frame's size a decoder
    does not get it. *)
Lemma sizes_override enable nw nh max d : size_typed d -> (scaled enable d = true -> 9 <= m_denom d <= 16) ->
  (1 <= nw <= 16)%nat -> (1 <= nh <= 16)%nat -> m_w d - 1 < 2 ^ Z.of_nat nw -> m_h d - 1 < 2 ^ Z.of_nat nh -> exists bits d',
  enc_sizes [] true enable d = Ok (bits, d') /\ never_decodes bits (rd_sizes true enable nw nh max) (size_kept d').
Proof.
  intros T S Nw Nh Fw Fh. pose proof T as (W & H & RW & RH & DE).
  exists (to_bits (Z.to_nat (Z.log2 (m_w d - 1))) (m_w d - 1) ++ to_bits (Z.to_nat (Z.log2 (m_h d - 1))) (m_h d - 1) ++ superres_code enable d ++ render_code enable d), (kept_dims enable d). split.
  - unfold enc_sizes, enc_frame_size. rewrite chk_u64_ok by lia. cbn [bind]. rewrite as_u16_id by lia. rewrite msb16_log2 by lia. cbn [bind].
    rewrite chk_u64_ok by lia. cbn [bind]. rewrite as_u16_id by lia. rewrite msb16_log2 by lia. cbn [bind]. unfold as_u32. rewrite !Z.mod_small by lia.
    assert (LW : 0 <= Z.log2 (m_w d - 1) <= 32). { split; [apply Z.log2_nonneg|]. change 32 with (Z.log2 (2 ^ 32)). apply Z.log2_le_mono. lia. }
    assert (LH : 0 <= Z.log2 (m_h d - 1) <= 32). { split; [apply Z.log2_nonneg|]. change 32 with (Z.log2 (2 ^ 32)). apply Z.log2_le_mono. lia. }
    rewrite push_bits_with_size_ok by lia. cbn [bind]. rewrite push_bits_with_size_ok by lia. cbn [bind]. rewrite enc_superres_render by assumption. rewrite <- !app_assoc. reflexivity.
  - assert (G : forall x (n : nat), 0 <= x -> (1 <= n)%nat -> x < 2 ^ Z.of_nat n -> (Z.to_nat (Z.log2 x) < n)%nat).
    { intros x n X N F. destruct (Z.eq_dec x 0) as [->|X0]; [change (Z.log2 0) with 0; lia|]. pose proof (Z.log2_nonneg x). assert (Z.log2 x < Z.of_nat n) by (apply Z.log2_lt_pow2; lia). lia. }
    pose proof (G (m_w d - 1) nw ltac:(lia) ltac:(lia) Fw) as Gw. pose proof (G (m_h d - 1) nh ltac:(lia) ltac:(lia) Fh) as Gh.
    intros k E. rewrite rd_sizes_rest in E. apply obind_inv in E. destruct E as (((up & h) & q) & E1 & E). ob E1. ob E1. injection E1 as Eu Eh Eq. subst up h q.
    pose proof (rd_rest_length _ _ _ _ _ _ E) as (Vu & _ & L & L'). clear E. pose proof (rd_length _ _ _ _ E0) as L0. apply rd_length in E2. rewrite !app_length, !to_bits_length in L0.
    assert (A : (length (superres_code enable d) <= if enable then if (denom_of enable d =? 8)%Z then 1 else 4 else 0)%nat).
    { unfold superres_code, denom_of, scaled in *. destruct enable; cbn [andb if_code length app] in S |- *; [|apply Nat.le_refl]. destruct (m_use d); cbn [if_code length]; [|apply Nat.le_refl]. rewrite to_bits_length. specialize (S eq_refl). destruct (Z.eqb_spec (m_denom d) 8); lia. }
    unfold rest_size, size_kept, kept_dims in L, L'. cbn [az_denom az_rw az_up az_rh az_h m_w m_h m_rw m_rh m_up m_denom] in L, L'.
    unfold render_code in L0. cbn [length] in L0. destruct (same_size enable d) eqn:Q; cbn [negb if_code length] in L0.
    + destruct ((m_w d =? m_w d) && (m_rh d =? m_h d))%Z, enable; try destruct (denom_of _ d =? 8)%Z; lia.
    + rewrite app_length, !to_bits_length in L0. destruct ((m_rw d =? m_w d) && (m_rh d =? m_h d))%Z eqn:R; [|destruct enable; try destruct (denom_of _ d =? 8)%Z; lia].
      (* The render size is that of the upscaled frame: 32 bits that a decoder might take for the size. *)
      assert (U : scaled enable d = true).
      { unfold same_size, coded_w, denom_of in Q. destruct (scaled enable d); [reflexivity|]. change (8 / 2) with 4 in Q. lia. }
      assert (Z0 : Z.to_nat (Z.log2 (m_w d - 1)) = 0%nat /\ Z.to_nat (Z.log2 (m_h d - 1)) = 0%nat /\ nw = 16%nat).
      { unfold scaled in U. apply andb_true_iff in U. destruct U as [-> U]. assert (N8 : denom_of true d <> 8) by (unfold denom_of, scaled in *; rewrite U in *; cbn [andb] in *; specialize (S eq_refl); lia).
        specialize (L' N8). destruct (Z.eqb_spec (denom_of true d) 8); [contradiction|]. assert (A4 : length (superres_code true d) = 4%nat) by (unfold superres_code, scaled; rewrite U; reflexivity).
        rewrite ?Q, ?R in L'. clear - L' L0 E2 A4 Gw Gh Nw Nh. lia. }
      destruct Z0 as (Z1 & Z2 & ->). rewrite Z1, Z2 in E0.
      assert (X : m_w d - 1 <= 1). { destruct (Z.lt_ge_cases 1 (m_w d - 1)); [|lia]. pose proof (Z.log2_le_mono 2 (m_w d - 1) ltac:(lia)). change (Z.log2 2) with 1 in *. lia. }
      unfold scaled in U. apply andb_true_iff in U. destruct U as [-> U]. cbn [size_kept az_up m_up kept_dims] in Vu.
      unfold superres_code in E0. unfold scaled in E0. rewrite U in E0. cbn [andb if_code app b2z] in E0. assert (T0 : forall x, to_bits 0 x = []) by reflexivity. rewrite !T0 in E0. cbn [app] in E0.
      rewrite <- !app_assoc in E0. unfold render_code in E0. rewrite Q in E0. cbn [negb if_code b2z app] in E0.
      assert (SP : 1 :: to_bits 3 (m_denom d - 9) ++ 1 :: (to_bits 16 (m_rw d - 1) ++ to_bits 16 (m_rh d - 1)) ++ k =
        (1 :: to_bits 3 (m_denom d - 9) ++ 1 :: firstn 11 (to_bits 16 (m_rw d - 1))) ++ skipn 11 (to_bits 16 (m_rw d - 1)) ++ to_bits 16 (m_rh d - 1) ++ k).
      { reflexivity. }
      rewrite SP in E0. rewrite rd_len in E0. 2: { cbn [length]. rewrite app_length. cbn [length]. rewrite firstn_length, !to_bits_length. lia. }
      match type of E0 with Some (?a, ?b) = Some (?c, ?e) => assert (E0' : a = c) by (generalize E0; generalize a b c e; congruence) end. clear E0. rename E0' into E0.
      rewrite bits_val_cons in E0. rewrite app_length in E0. cbn [length] in E0. rewrite firstn_length, !to_bits_length in E0.
      assert (B : 0 <= bits_val (to_bits 3 (m_denom d - 9) ++ 1 :: firstn 11 (to_bits 16 (m_rw d - 1)))).
      { apply bits_val_bound. apply is_bits_app. split; [bits|]. apply is_bits_cons. split; [unfold is_bit; lia|].
        assert (is_bits (firstn 11 (to_bits 16 (m_rw d - 1)) ++ skipn 11 (to_bits 16 (m_rw d - 1)))) as B by (rewrite firstn_skipn; bits). apply is_bits_app in B. tauto. }
      replace (2 ^ Z.of_nat (3 + Datatypes.S (Nat.min 11 16))) with 32768 in E0 by reflexivity. lia.
Qed.
