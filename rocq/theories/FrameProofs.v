(** The parameter groups of the frame header against the AV1 syntax. *)
From Coq Require Import ZArith List Bool Lia ZifyBool ZifyNat.
From Verif Require Import Base BaseProofs TableLemmas UtilModel UtilSpec UtilProofs BitsSpec BitsProofs RangeCoderModel BitCodecModel BitCodecProofs
  SessionModel SeqModel SeqSpec SeqProofs ElementModel TileModel TileSpec TileProofs FrameParamModel FrameSpec FrameBits.
Import ListNotations.
Open Scope Z_scope.
Ltac Zify.zify_post_hook ::= Z.div_mod_to_equations.
#[local] Opaque to_bits.

Definition i64 (v : Z) : Prop := - 2 ^ 63 <= v < 2 ^ 63.
Definition u8 (v : Z) : Prop := 0 <= v < 256.

(** ** Quantization parameters *)
Definition quant_typed (q : quant) (d : dq5) : Prop :=
  u8 (q_base q) /\ u8 (q_y q) /\ u8 (q_u q) /\ u8 (q_v q) /\
  i64 (dq_y_dc d) /\ i64 (dq_u_dc d) /\ i64 (dq_u_ac d) /\ i64 (dq_v_dc d) /\ i64 (dq_v_ac d).
(** The values kept by the writer, as a decoder has them. *)
Definition quant_of (q : quant) (d : dq5) : av1_quant :=
  mkAQ (q_base q) (dq_y_dc d) (dq_u_dc d) (dq_u_ac d) (dq_v_dc d) (dq_v_ac d)
    (if q_using q then Some (q_y q, q_u q, q_v q) else None).
(** Deltas have seven bits, levels four. *)
Definition fits7 (v : Z) : Prop := - 64 <= v <= 63.
Definition quant_fits (planes : Z) (q : quant) (d : dq5) : Prop :=
  fits7 (dq_y_dc d) /\ (1 < planes -> fits7 (dq_u_dc d) /\ fits7 (dq_u_ac d) /\ fits7 (dq_v_dc d) /\ fits7 (dq_v_ac d)) /\
  (q_using q = true -> q_y q < 16 /\ q_u q < 16 /\ q_v q < 16).

Definition delta_code (d : Z) : list Z := if d =? 0 then [0] else 1 :: su_bits 7 d.
Lemma enc_delta_q_ok out d : i64 d -> enc_delta_q out d = Ok (out ++ delta_code d).
Proof.
  intros H. unfold enc_delta_q, delta_code. destruct (d =? 0); cbn [negb]; [reflexivity|].
  rewrite encode_su_any by (try exact H; lia). unfold push. rewrite <- app_assoc. reflexivity.
Qed.
Lemma delta_code_bits d : is_bits (delta_code d).
Proof. unfold delta_code. destruct (d =? 0); bits; apply su_bits_bits. Qed.
Lemma rd_delta_q_ok d k : rd_delta_q (delta_code d ++ k) = Some (su_wrap 7 d, k).
Proof.
  unfold rd_delta_q, delta_code. destruct (d =? 0) eqn:E.
  - replace d with 0 by lia. reflexivity.
  - cbn [app rd1 obind]. change (1 =? 1) with true. cbv iota. apply rd_su_any. lia.
Qed.
Lemma delta_code_length d : length (delta_code d) = if d =? 0 then 1%nat else 8%nat.
Proof. unfold delta_code. destruct (d =? 0); [reflexivity|]. cbn [length]. rewrite su_bits_length by lia. reflexivity. Qed.

(** The bits, and what the writer keeps. *)
Definition quant_code (planes : Z) (sep : bool) (q : quant) (d : dq5) : list Z :=
  to_bits 8 (q_base q) ++ delta_code (dq_y_dc d) ++
  (if 1 <? planes then
     (if sep then [b2z (q_diff q)] else []) ++ delta_code (dq_u_dc d) ++ delta_code (dq_u_ac d) ++
     (if sep && q_diff q then delta_code (dq_v_dc d) ++ delta_code (dq_v_ac d) else [])
   else []) ++ [b2z (q_using q)] ++
  (if q_using q then to_bits 4 (q_y q) ++ to_bits 4 (q_u q) ++ (if sep then to_bits 4 (q_v q) else []) else []).
Definition kept_q (planes : Z) (sep : bool) (q : quant) : quant :=
  mkQ (q_base q) (if 1 <? planes then sep && q_diff q else q_diff q) (q_using q) (q_y q) (q_u q)
    (if q_using q && negb sep then q_u q else q_v q).
Definition kept_d (planes : Z) (sep : bool) (q : quant) (d : dq5) : dq5 :=
  if 1 <? planes then
    if sep && q_diff q then d else mkDQ (dq_y_dc d) (dq_u_dc d) (dq_u_ac d) (dq_u_dc d) (dq_u_ac d)
  else mkDQ (dq_y_dc d) 0 0 0 0.
Definition wrapped_d (d : dq5) : dq5 :=
  mkDQ (su_wrap 7 (dq_y_dc d)) (su_wrap 7 (dq_u_dc d)) (su_wrap 7 (dq_u_ac d)) (su_wrap 7 (dq_v_dc d)) (su_wrap 7 (dq_v_ac d)).
Definition wrapped_q (q : quant) : quant := mkQ (q_base q) (q_diff q) (q_using q) (q_y q mod 16) (q_u q mod 16) (q_v q mod 16).

Lemma enc_quant_ok out planes sep q d : quant_typed q d ->
  enc_quant out planes sep q d = Ok (out ++ quant_code planes sep q d, kept_q planes sep q, kept_d planes sep q d).
Proof.
  intros (B & Y & U & V & D1 & D2 & D3 & D4 & D5). destruct q as [base diff us y u v]. destruct d as [a b c e f].
  unfold enc_quant, quant_code, kept_q, kept_d. cbn [q_base q_diff q_using q_y q_u q_v dq_y_dc dq_u_dc dq_u_ac dq_v_dc dq_v_ac] in *.
  wr. rewrite enc_delta_q_ok by assumption. cbn [bind].
  destruct (1 <? planes); [destruct sep; [destruct diff|]|]; cbn [bind negb andb];
    repeat (rewrite enc_delta_q_ok by assumption; cbn [bind]); destruct us; try destruct sep; cbn [bind negb andb];
    repeat wr; rewrite ?pbit_app, <- ?app_assoc; cbn [app]; rewrite ?app_nil_r; reflexivity.
Qed.
Lemma quant_code_bits planes sep q d : is_bits (quant_code planes sep q d).
Proof.
  unfold quant_code. destruct (1 <? planes), sep, (q_diff q), (q_using q); cbn [andb];
    repeat first [apply delta_code_bits | apply is_bits_app; split | bits].
Qed.
Ltac rdq := repeat (cbn [app]; rewrite <- ?app_assoc; cbn [app];
  first [rewrite rd_delta_q_ok | rewrite rd1_ok | rewrite rd_any | rewrite rd_su_any by lia]; cbn [obind]; cbv iota beta).
Lemma quant_code_read planes sep q d k : quant_typed q d ->
  rd_quant planes sep (quant_code planes sep q d ++ k) = Some (quant_of (wrapped_q (kept_q planes sep q)) (wrapped_d (kept_d planes sep q d)), k).
Proof.
  intros (B & Y & U & V & D1 & D2 & D3 & D4 & D5). destruct q as [base diff us y u v]. destruct d as [a b c e f].
  unfold rd_quant, quant_code, kept_q, kept_d, quant_of, wrapped_q, wrapped_d, rd_if, u8 in *.
  cbn [q_base q_diff q_using q_y q_u q_v dq_y_dc dq_u_dc dq_u_ac dq_v_dc dq_v_ac] in *.
  destruct (1 <? planes), sep, diff, us; cbn [andb negb]; rdq; cbn [q_base q_using q_y q_u q_v dq_y_dc dq_u_dc dq_u_ac dq_v_dc dq_v_ac];
    change (2 ^ Z.of_nat 8) with 256; rewrite (Z.mod_small base) by lia; reflexivity.
Qed.

Lemma mod16 v : u8 v -> (v mod 16 = v <-> v < 16).
Proof. unfold u8. intros. split; [lia|]. intros. apply Z.mod_small. lia. Qed.
Lemma quant_decoded planes sep q d : quant_typed q d -> exists bits q' d',
  enc_quant [] planes sep q d = Ok (bits, q', d') /\
  (decodes bits (rd_quant planes sep) (quant_of q' d') <-> quant_fits planes q' d').
Proof.
  intros T. exists (quant_code planes sep q d), (kept_q planes sep q), (kept_d planes sep q d).
  split; [apply (enc_quant_ok []); exact T|].
  assert (R := quant_code_read planes sep q d). 
  assert (E : decodes (quant_code planes sep q d) (rd_quant planes sep) (quant_of (kept_q planes sep q) (kept_d planes sep q d)) <->
    quant_of (wrapped_q (kept_q planes sep q)) (wrapped_d (kept_d planes sep q d)) = quant_of (kept_q planes sep q) (kept_d planes sep q d)).
  { split; intros H.
    - destruct H as [_ H]. specialize (H []). rewrite R in H by exact T. congruence.
    - split; [apply quant_code_bits|]. intros k. rewrite R by exact T. rewrite H. reflexivity. }
  rewrite E. clear E R. destruct T as (B & Y & U & V & D1 & D2 & D3 & D4 & D5).
  unfold quant_fits, fits7.
  assert (F : forall v, su_wrap 7 v = v <-> -64 <= v <= 63). { intros v. rewrite su_wrap_iff by lia. change (2 ^ Z.of_nat (7 - 1)) with 64. lia. }
  set (q' := kept_q planes sep q). set (d' := kept_d planes sep q d).
  assert (U' : u8 (q_y q') /\ u8 (q_u q') /\ u8 (q_v q')).
  { unfold q', kept_q. cbn [q_y q_u q_v]. destruct (q_using q && negb sep); tauto. }
  assert (Z' : 1 < planes \/ (dq_u_dc d' = 0 /\ dq_u_ac d' = 0 /\ dq_v_dc d' = 0 /\ dq_v_ac d' = 0)).
  { unfold d', kept_d. destruct (1 <? planes) eqn:P; [left; lia|right; cbn; tauto]. }
  clearbody q' d'. clear q d B Y U V D1 D2 D3 D4 D5. destruct q' as [base diff us y u v], d' as [a b c e f].
  unfold quant_of, wrapped_q, wrapped_d. cbn [q_base q_diff q_using q_y q_u q_v dq_y_dc dq_u_dc dq_u_ac dq_v_dc dq_v_ac] in *.
  destruct U' as (U1 & U2 & U3). pose proof (mod16 y U1). pose proof (mod16 u U2). pose proof (mod16 v U3).
  pose proof (F a). pose proof (F b). pose proof (F c). pose proof (F e). pose proof (F f). split.
  - intros H'. destruct us; injection H'; intros; repeat split; try tauto; lia.
  - intros (Fa & Fo & Fm).
    assert (W : su_wrap 7 a = a /\ su_wrap 7 b = b /\ su_wrap 7 c = c /\ su_wrap 7 e = e /\ su_wrap 7 f = f).
    { destruct Z' as [P|(-> & -> & -> & ->)]; [specialize (Fo P); tauto|]. split; [tauto|]. repeat split; reflexivity. }
    destruct W as (-> & -> & -> & -> & ->). destruct us; [|reflexivity].
    specialize (Fm eq_refl). replace (y mod 16) with y by (symmetry; tauto). replace (u mod 16) with u by (symmetry; tauto).
    replace (v mod 16) with v by (symmetry; tauto). reflexivity.
Qed.
(** Kept values in terms of the caller's. *)
Lemma quant_kept planes sep q d bits q' d' : quant_typed q d -> enc_quant [] planes sep q d = Ok (bits, q', d') ->
  q_base q' = q_base q /\ q_using q' = q_using q /\ q_y q' = q_y q /\ q_u q' = q_u q /\
  (q_using q = true -> q_v q' = if sep then q_v q else q_u q) /\
  dq_y_dc d' = dq_y_dc d /\
  (1 < planes -> dq_u_dc d' = dq_u_dc d /\ dq_u_ac d' = dq_u_ac d /\
     dq_v_dc d' = (if sep && q_diff q then dq_v_dc d else dq_u_dc d) /\ dq_v_ac d' = (if sep && q_diff q then dq_v_ac d else dq_u_ac d)) /\
  (planes <= 1 -> dq_u_dc d' = 0 /\ dq_u_ac d' = 0 /\ dq_v_dc d' = 0 /\ dq_v_ac d' = 0).
Proof.
  intros T E. rewrite (enc_quant_ok []) in E by exact T. injection E as _ <- <-. unfold kept_q, kept_d. cbn [q_base q_using q_y q_u q_v].
  repeat split; try reflexivity.
  all: try (intros ->; destruct sep; reflexivity).
  all: destruct (1 <? planes) eqn:P; try lia; try destruct (sep && q_diff q); try reflexivity.
Qed.

(** A monochrome stream: three planes are written, a decoder reads one. *)
Lemma quant_mono q d bits q' d' v : quant_typed q d -> enc_quant [] 3 false q d = Ok (bits, q', d') ->
  never_decodes bits (rd_quant 1 false) v.
Proof.
  intros T E. rewrite (enc_quant_ok []) in E by exact T. injection E as <- _ _.
  intros k H. unfold rd_quant in H. change (1 <? 1) with false in H. cbv iota in H.
  unfold quant_code in H. change (1 <? 3) with true in H. cbv iota in H. cbn [andb app] in H.
  rewrite <- !app_assoc in H. rewrite rd_any in H. cbn [obind] in H. rewrite rd_delta_q_ok in H. cbn [obind] in H.
  unfold delta_code at 1 in H. destruct (dq_u_dc d =? 0).
  - cbn [app rd1 obind] in H. change (0 =? 1) with false in H. cbv iota beta in H. cbn [obind] in H. injection H as _ H.
    apply (f_equal (@length Z)) in H. rewrite !app_length in H. cbn [length] in H.
    rewrite ?app_length in H. clear - H. lia.
  - cbn [app rd1 obind] in H. change (1 =? 1) with true in H. cbv iota beta in H. ob H. injection H as _ H. subst.
    unfold rd_if in E. ob E. ob E. ob E. injection E as _ H. injection E2 as _ H2. subst.
    apply rd_length in E0. apply rd_length in E1. rewrite !app_length, su_bits_length, delta_code_length in E0 by lia.
    cbn [length] in E0. rewrite ?app_length in E0. clear - E0 E1. destruct (dq_u_ac d =? 0); lia.
Qed.

(** ** Segmentation parameters *)
(** The array feature_value: 8 rows of 7, isize. *)
Definition features_typed (m : list (list (option Z))) : Prop :=
  length m = 8%nat /\ forall row, In row m -> length row = 7%nat /\ forall v, In (Some v) row -> i64 v.
Definition wants (m : list (list (option Z))) (i j : nat) : bool :=
  match nth_error (nth i m []) j with Some (Some _) => true | _ => false end.

Definition f_width (j : nat) : nat := nth j [9; 7; 7; 7; 7; 3; 0]%nat 0%nat.
Definition f_max (j : nat) : Z := nth j [255; 63; 63; 63; 63; 7; 0] 0.
Definition f_code (j : nat) (v : option Z) : list Z :=
  match v with Some x => 1 :: su_bits (f_width j) x | None => [0] end.
Definition f_kept (j : nat) (v : option Z) : option Z :=
  Some (match v with Some x => if (j <? 5)%nat then Clip3 (- f_max j) (f_max j) x else Clip3 0 (f_max j) x | None => 0 end).

Lemma enc_feature_ok out j v : (j < 7)%nat -> (forall x, v = Some x -> i64 x) ->
  enc_feature out (Z.of_nat j) v = if (j =? 6)%nat && is_some v then Panic else Ok (out ++ f_code j v, f_kept j v).
Proof.
  intros J T. destruct v as [x|]; cbn [is_some]; [|rewrite andb_false_r; reflexivity].
  specialize (T x eq_refl). unfold enc_feature. cbn [is_some]. rewrite pbit_app. cbn [b2z].
  assert (B : idx feature_bits (Z.of_nat j) = Ok (nth j feature_bits 0)) by (clear - J; do 7 (destruct j as [|j]; [reflexivity|]); lia).
  assert (M : idx feature_max (Z.of_nat j) = Ok (f_max j)) by (clear - J; do 7 (destruct j as [|j]; [reflexivity|]); lia).
  assert (S : idx feature_signed (Z.of_nat j) = Ok (j <? 5)%nat) by (clear - J; do 7 (destruct j as [|j]; [reflexivity|]); lia).
  rewrite B, M, S. cbn [bind]. clear B M S. unfold f_kept, f_code.
  do 6 (destruct j as [|j]; [cbn; rewrite ?encode_su_any by (try exact T; lia); cbn; rewrite <- ?app_assoc; reflexivity|]).
  destruct j as [|j]; [|lia].
  unfold encode_su. destruct (x <? 0); reflexivity.
Qed.
Definition row_code (row : list (option Z)) : list Z :=
  concat (map (fun j => f_code j (nth j row None)) (seq 0 7)).
Definition row_kept (row : list (option Z)) : list (option Z) := map (fun j => f_kept j (nth j row None)) (seq 0 7).

Lemma enc_features_ok out row : length row = 7%nat -> (forall v, In (Some v) row -> i64 v) ->
  enc_features out (upto SEG_LVL_MAX) row =
  if is_some (nth 6 row None) then Panic else Ok (out ++ row_code row, row_kept row).
Proof.
  intros L T. do 8 (destruct row as [|? row]; try discriminate). change (upto SEG_LVL_MAX) with (seq 0 7). cbn [seq].
  cbn [In] in T.
  assert (T0 : forall x, o = Some x -> i64 x) by (intros; apply T; subst; tauto).
  assert (T1 : forall x, o0 = Some x -> i64 x) by (intros; apply T; subst; tauto).
  assert (T2 : forall x, o1 = Some x -> i64 x) by (intros; apply T; subst; tauto).
  assert (T3 : forall x, o2 = Some x -> i64 x) by (intros; apply T; subst; tauto).
  assert (T4 : forall x, o3 = Some x -> i64 x) by (intros; apply T; subst; tauto).
  assert (T5 : forall x, o4 = Some x -> i64 x) by (intros; apply T; subst; tauto).
  assert (T6 : forall x, o5 = Some x -> i64 x) by (intros; apply T; subst; tauto).
  clear T L. cbn [nth]. unfold row_code, row_kept. cbn [seq map nth concat].
  unfold enc_features; fold enc_features.
  do 6 (match goal with |- context [idx ?l ?i] => change (idx l i) with (idx l (Z.of_nat (Z.to_nat i))) end || idtac).
  assert (I : forall (l : list (option Z)) (j : nat) v, nth_error l j = Some v -> idx l (Z.of_nat j) = Ok v).
  { intros l j v E. unfold idx. destruct (Z.ltb_spec (Z.of_nat j) 0); [lia|]. rewrite Nat2Z.id, E. reflexivity. }
  rewrite (I _ 0%nat o) by reflexivity. cbn [bind]. rewrite enc_feature_ok by (try assumption; lia). cbn [Nat.eqb andb bind set_nth].
  rewrite (I _ 1%nat o0) by reflexivity. cbn [bind]. rewrite enc_feature_ok by (try assumption; lia). cbn [Nat.eqb andb bind set_nth].
  rewrite (I _ 2%nat o1) by reflexivity. cbn [bind]. rewrite enc_feature_ok by (try assumption; lia). cbn [Nat.eqb andb bind set_nth].
  rewrite (I _ 3%nat o2) by reflexivity. cbn [bind]. rewrite enc_feature_ok by (try assumption; lia). cbn [Nat.eqb andb bind set_nth].
  rewrite (I _ 4%nat o3) by reflexivity. cbn [bind]. rewrite enc_feature_ok by (try assumption; lia). cbn [Nat.eqb andb bind set_nth].
  rewrite (I _ 5%nat o4) by reflexivity. cbn [bind]. rewrite enc_feature_ok by (try assumption; lia). cbn [Nat.eqb andb bind set_nth].
  rewrite (I _ 6%nat o5) by reflexivity. cbn [bind]. rewrite enc_feature_ok by (try assumption; lia). cbn [Nat.eqb andb bind set_nth].
  destruct (is_some o5); [reflexivity|]. cbn [bind]. rewrite <- !app_assoc. rewrite app_nil_r. reflexivity.
Qed.

Definition wants_skip (m : list (list (option Z))) : bool := existsb (fun row => is_some (nth 6 row None)) m.
Lemma enc_segments_ok out m : features_typed m ->
  enc_segments out (upto MAX_SEGMENTS) m =
  if wants_skip m then Panic else Ok (out ++ concat (map row_code m), map row_kept m).
Proof.
  intros [L T]. assert (T' : forall row, In row m -> forall out, enc_features out (upto SEG_LVL_MAX) row =
    if is_some (nth 6 row None) then Panic else Ok (out ++ row_code row, row_kept row)).
  { intros row H o. destruct (T row H). apply enc_features_ok; assumption. }
  clear T. change (upto MAX_SEGMENTS) with (seq 0 8).
  assert (G : forall post pre out, (forall row, In row post -> forall out, enc_features out (upto SEG_LVL_MAX) row =
      if is_some (nth 6 row None) then Panic else Ok (out ++ row_code row, row_kept row)) ->
    enc_segments out (seq (length pre) (length post)) (pre ++ post) =
    if wants_skip post then Panic else Ok (out ++ concat (map row_code post), pre ++ map row_kept post)).
  { clear. induction post as [|row post IH]; intros pre out H.
    - cbn. rewrite !app_nil_r. reflexivity.
    - cbn [length seq enc_segments].
      assert (E : idx (pre ++ row :: post) (Z.of_nat (length pre)) = Ok row).
      { unfold idx. destruct (Z.ltb_spec (Z.of_nat (length pre)) 0); [lia|]. rewrite Nat2Z.id, nth_error_app2, Nat.sub_diag by lia. reflexivity. }
      rewrite E. cbn [bind]. rewrite (H row) by (left; reflexivity). unfold wants_skip. cbn [existsb]. destruct (is_some (nth 6 row None)); [reflexivity|].
      cbn [bind orb].
      assert (S : set_nth (length pre) (row_kept row) (pre ++ row :: post) = (pre ++ [row_kept row]) ++ post).
      { clear. induction pre; [reflexivity|]. cbn [length app set_nth]. rewrite IHpre. reflexivity. }
      rewrite S. specialize (IH (pre ++ [row_kept row]) (out ++ row_code row)). rewrite app_length in IH. cbn [length] in IH.
      rewrite Nat.add_1_r in IH. rewrite IH by (intros; apply H; right; assumption). unfold wants_skip.
      destruct (existsb _ post); [reflexivity|]. cbn [map concat]. rewrite <- !app_assoc. reflexivity. }
  specialize (G m [] out T'). cbn [length app] in G. rewrite L in G. exact G.
Qed.

(** ** Sizes *)
Fixpoint row_size (fs : list (nat * bool * Z)) (row : list (option Z)) : nat :=
  match fs, row with
  | (b, sg, _) :: fs, x :: row => (1 + (if is_some x then (if (sg : bool) then 1 + b else b) else 0) + row_size fs row)%nat
  | _, _ => 0%nat
  end.
Lemma rd_feature_length f q v k : rd_feature f q = Some (v, k) -> length q = (row_size [f] [v] + length k)%nat.
Proof.
  destruct f as [[b sg] mx]. unfold rd_feature. intros H. ob H. apply rd1_length in E. cbn [row_size].
  destruct v0.
  - destruct sg; ob H; injection H as <- <-; [apply rd_su_length in E0|apply rd_length in E0]; cbn [is_some]; lia.
  - injection H as <- <-. cbn [is_some]. lia.
Qed.
Lemma rd_row_length fs : forall q row k, rd_each fs rd_feature q = Some (row, k) ->
  length row = length fs /\ length q = (row_size fs row + length k)%nat.
Proof.
  induction fs as [|f fs IH]; intros q row k H; cbn [rd_each] in H.
  - injection H as <- <-. split; reflexivity.
  - ob H. ob H. injection H as <- <-. apply rd_feature_length in E. apply IH in E0. destruct E0 as [E1 E0].
    split; [cbn [length]; lia|]. destruct f as [[b sg] mx]. cbn [row_size] in *. lia.
Qed.
Definition table_size (m : list (list (option Z))) : nat := list_sum (map (row_size av1_features) m).
Lemma rd_rows_length n : forall q m k, rd_times n (rd_each av1_features rd_feature) q = Some (m, k) ->
  length m = n /\ (forall row, In row m -> length row = 8%nat) /\ length q = (table_size m + length k)%nat.
Proof.
  induction n; intros q m k H; cbn [rd_times] in H.
  - injection H as <- <-. split; [reflexivity|]. split; [intros ? []|reflexivity].
  - ob H. ob H. injection H as <- <-. apply rd_row_length in E. destruct E as [E1 E2]. apply IHn in E0. destruct E0 as (E5 & E3 & E4).
    split; [cbn [length]; lia|]. split; [intros row [<-|R]; [exact E1|apply E3; exact R]|].
    unfold table_size in *. cbn [map list_sum fold_right]. unfold list_sum in *. lia.
Qed.

Lemma f_code_length j v : (j < 7)%nat -> (j = 6%nat -> v = None) -> length (f_code j v) = (1 + if is_some v then f_width j else 0)%nat.
Proof.
  intros J N. unfold f_code. destruct v; cbn [is_some length]; [|reflexivity].
  rewrite su_bits_length; [reflexivity|].
  do 7 (destruct j as [|j]; [first [cbn; lia | discriminate (N eq_refl)]|]). lia.
Qed.
(** With the same features in its first seven columns, a row of eight takes one bit
    more. *)
Lemma row_length row r8 : length row = 7%nat -> nth 6 row None = None -> length r8 = 8%nat ->
  (forall j, (j < 7)%nat -> is_some (nth j r8 None) = is_some (nth j row None)) ->
  row_size av1_features r8 = (1 + length (row_code row))%nat.
Proof.
  intros L N L8 S. do 8 (destruct row as [|? row]; try discriminate). do 9 (destruct r8 as [|? r8]; try discriminate).
  pose proof (S 0%nat ltac:(lia)) as S0. pose proof (S 1%nat ltac:(lia)) as S1. pose proof (S 2%nat ltac:(lia)) as S2.
  pose proof (S 3%nat ltac:(lia)) as S3. pose proof (S 4%nat ltac:(lia)) as S4. pose proof (S 5%nat ltac:(lia)) as S5. pose proof (S 6%nat ltac:(lia)) as S6.
  cbn [nth] in *. subst. unfold row_code. cbn [seq map nth concat]. rewrite !app_length.
  rewrite !f_code_length by (try lia; reflexivity). cbn [is_some] in *. unfold av1_features. cbn [row_size].
  rewrite S0, S1, S2, S3, S4, S5, S6. cbn [f_width nth length].
  repeat match goal with |- context [is_some ?o] => destruct (is_some o) end; reflexivity.
Qed.
Lemma table_length m : forall m8, length m8 = length m -> wants_skip m = false ->
  (forall row, In row m -> length row = 7%nat) -> (forall row, In row m8 -> length row = 8%nat) ->
  (forall i j, (i < length m)%nat -> (j < 7)%nat -> wants m8 i j = wants m i j) ->
  table_size m8 = (length m + length (concat (map row_code m)))%nat.
Proof.
  induction m as [|row m IH]; intros [|r8 m8] L W R R8 S; try discriminate; [reflexivity|].
  unfold wants_skip in W. cbn [existsb] in W. apply orb_false_iff in W. destruct W as [W1 W2].
  unfold table_size. cbn [map concat]. rewrite app_length. cbn [list_sum fold_right].
  rewrite (row_length row r8).
  - specialize (IH m8). unfold table_size in IH. unfold list_sum in IH. rewrite IH.
    + cbn [length]. lia.
    + cbn [length] in L. lia.
    + exact W2.
    + intros; apply R; right; assumption.
    + intros; apply R8; right; assumption.
    + intros i j I J. apply (S (Datatypes.S i) j); [cbn [length]; lia|exact J].
  - apply R. left. reflexivity.
  - destruct (nth 6 row None); [discriminate|reflexivity].
  - apply R8. left. reflexivity.
  - intros j J. specialize (S 0%nat j ltac:(cbn [length]; lia) J). unfold wants in S. cbn [nth] in S.
    assert (N : forall l : list (option Z), is_some (nth j l None) = match nth_error l j with Some (Some _) => true | _ => false end).
    { intros l. destruct (nth_error l j) as [o|] eqn:E.
      - rewrite (nth_error_nth _ _ _ E). destruct o; reflexivity.
      - apply nth_error_None in E. rewrite nth_overflow by exact E. reflexivity. }
    rewrite !N. exact S.
Qed.

Lemma seg_derive_full m : length m = 8%nat -> seg_derive (map row_kept m) = (true, 7).
Proof. intros L. do 9 (destruct m as [|? m]; try discriminate). reflexivity. Qed.

Definition seg_flags (primary : Z) (s : segp) : list Z :=
  1 :: if primary =? 7 then [] else b2z (g_map s) :: (if g_map s then [b2z (g_temporal s)] else []) ++ [b2z (g_data s)].
Lemma enc_seg_data out primary s : features_typed (g_feat s) -> g_on s = true -> primary = 7 \/ g_data s = true ->
  enc_seg out primary s =
  if wants_skip (g_feat s) then Panic
  else Ok (out ++ seg_flags primary s ++ concat (map row_code (g_feat s)),
           mkSegP true (if primary =? 7 then true else g_map s) (if primary =? 7 then false else g_temporal s) true (map row_kept (g_feat s)), true, 7).
Proof.
  intros T On D. unfold enc_seg, seg_flags. rewrite On. unfold PRIMARY_REF_NONE. destruct (Z.eqb_spec primary 7) as [P|P].
  - cbn [g_data g_feat g_map g_temporal]. rewrite enc_segments_ok by exact T. destruct (wants_skip (g_feat s)); [reflexivity|]. cbn [bind g_feat].
    rewrite seg_derive_full by apply T. rewrite pbit_app. cbn [b2z]. rewrite <- app_assoc. reflexivity.
  - destruct D as [D|D]; [contradiction|]. rewrite D. rewrite enc_segments_ok by exact T. destruct (wants_skip (g_feat s)); [reflexivity|]. cbn [bind].
    cbn [g_feat]. rewrite seg_derive_full by apply T. rewrite !pbit_app. destruct (g_map s); cbn [b2z];
    rewrite ?pbit_app, <- ?app_assoc; cbn [app b2z]; rewrite <- ?app_assoc; reflexivity.
Qed.

Lemma seg_data_never primary s bits s' pre last v m : features_typed (g_feat s) -> g_on s = true -> primary = 7 \/ g_data s = true ->
  enc_seg [] primary s = Ok (bits, s', pre, last) ->
  as_data v = Some m -> (forall i j, (i < 8)%nat -> (j < 7)%nat -> wants m i j = wants (g_feat s) i j) ->
  never_decodes bits (rd_seg (primary =? 7)) (Some v).
Proof.
  intros T On D E V S k H. rewrite enc_seg_data in E by assumption. destruct (wants_skip (g_feat s)) eqn:W; [discriminate|].
  cbn [app] in E. injection E as <- _ _ _. unfold seg_flags in H. unfold rd_seg in H. cbn [app rd1 obind] in H. change (1 =? 1) with true in H. cbv iota in H.
  assert (G : forall q, rd_features q = Some (m, k) -> length q = (8 + length (concat (map row_code (g_feat s))) + length k)%nat).
  { intros q E0. unfold rd_features in E0. apply rd_rows_length in E0.
    destruct E0 as (L & R8 & ->). destruct T as [TL T]. rewrite (table_length (g_feat s) m).
    - rewrite TL. reflexivity.
    - congruence.
    - exact W.
    - intros row R. apply T. exact R.
    - exact R8.
    - rewrite TL. exact S. }
  assert (G' : forall q map temporal, (LET (f, q0) := rd_if true (fun q0 => LET (f, q1) := rd_features q0 IN Some (Some f, q1)) None q
      IN Some (Some (mkAS map temporal f), q0)) = Some (Some v, k) -> length q = (8 + length (concat (List.map row_code (g_feat s))) + length k)%nat).
  { intros q mp tm X. unfold rd_if in X. ob X. ob E. injection E as <- <-. injection X as <- <-. cbn [as_data] in V. injection V as ->.
    apply G. exact E0. }
  destruct (primary =? 7) eqn:P.
  - cbn [app obind] in H. apply G' in H. rewrite app_length in H. lia.
  - destruct D as [D|D]; [lia|]. rewrite D in H. cbn [app] in H. rewrite rd1_ok in H. cbn [obind] in H.
    destruct (g_map s); cbn [rd_if app] in H; rewrite ?rd1_ok in H; cbn [obind app] in H; rewrite ?rd1_ok in H; cbn [obind b2z rd1] in H;
    apply G' in H; rewrite app_length in H; lia.
Qed.

(** Without an update of the features. *)
Lemma seg_off out primary s : g_on s = false ->
  enc_seg out primary s = Ok (out ++ [0], mkSegP false (g_map s) (g_temporal s) (g_data s) no_features, false, 0).
Proof. intros On. unfold enc_seg. rewrite On. reflexivity. Qed.
Lemma seg_off_decoded primary s : g_on s = false -> exists bits s', enc_seg [] primary s = Ok (bits, s', false, 0) /\ g_on s' = false /\
  g_feat s' = repeat (repeat None 7) 8 /\ decodes bits (rd_seg (primary =? 7)) None.
Proof. intros H. rewrite seg_off by exact H. do 2 eexists. split; [reflexivity|]. split; [reflexivity|]. split; [reflexivity|]. split; [apply (is_bits_b2z false)|]. reflexivity. Qed.
Lemma seg_keep primary s : g_on s = true -> primary <> 7 -> g_data s = false ->
  exists bits pre last, enc_seg [] primary s = Ok (bits, s, pre, last) /\ seg_derive (g_feat s) = (pre, last) /\
    decodes bits (rd_seg false) (Some (mkAS (g_map s) (g_map s && g_temporal s) None)).
Proof.
  intros On P D. unfold enc_seg. rewrite On. unfold PRIMARY_REF_NONE. destruct (Z.eqb_spec primary 7); [contradiction|]. rewrite D. cbn [bind].
  destruct (seg_derive (g_feat s)) as [pre last]. eexists _, pre, last. split; [reflexivity|]. split; [reflexivity|].
  split.
  - destruct (g_map s), (g_temporal s); cbn; repeat constructor; unfold is_bit; lia.
  - intros k. destruct (g_map s), (g_temporal s); reflexivity.
Qed.

(** seg_id_pre_skip and last_active_seg_id of a table. *)
Lemma seg_derive_inner m i js : forall acc,
  fold_left (fun acc j => match nth_error (nth i m []) j with
    | Some (Some _) => (fst acc || (SEG_LVL_REF_FRAME <=? Z.of_nat j), Z.of_nat i) | _ => acc end) js acc =
  (fst acc || existsb (fun j => wants m i j && (5 <=? Z.of_nat j)) js, if existsb (wants m i) js then Z.of_nat i else snd acc).
Proof.
  induction js as [|j js IH]; intros [p l]; cbn [fold_left existsb fst snd].
  - rewrite orb_false_r. reflexivity.
  - rewrite IH. unfold wants at 3 5. destruct (nth_error (nth i m []) j) as [[x|]|]; cbn [fst snd andb orb]; unfold SEG_LVL_REF_FRAME.
    + rewrite orb_assoc. destruct (existsb (wants m i) js); reflexivity.
    + reflexivity.
    + reflexivity.
Qed.
Lemma fold_left_ext (A B : Type) (f g : A -> B -> A) l : (forall a b, f a b = g a b) -> forall a, fold_left f l a = fold_left g l a.
Proof. intros E. induction l; intros a0; cbn [fold_left]; [reflexivity|]. rewrite E. apply IHl. Qed.
Lemma seg_derive_outer m js : forall is acc,
  let f := fun acc i => (fst acc || existsb (fun j => wants m i j && (5 <=? Z.of_nat j)) js, if existsb (wants m i) js then Z.of_nat i else snd acc) in
  (fst (fold_left f is acc) = true <-> fst acc = true \/ exists i j, In i is /\ In j js /\ wants m i j = true /\ (5 <= j)%nat) /\
  ((snd (fold_left f is acc) = snd acc /\ (forall i j, In i is -> In j js -> wants m i j = false)) \/
   exists i pre post, is = pre ++ i :: post /\ snd (fold_left f is acc) = Z.of_nat i /\ (exists j, In j js /\ wants m i j = true) /\
     forall i' j, In i' post -> In j js -> wants m i' j = false).
Proof.
  induction is as [|i is IH]; intros acc f.
  - cbn [fold_left]. split.
    + split; [tauto|]. intros [H|(? & ? & [] & _)]. exact H.
    + left. split; [reflexivity|]. intros ? ? [].
  - cbn [fold_left]. specialize (IH (f acc i)). cbv zeta in IH. fold f in IH. destruct IH as [I1 I2]. split.
    + rewrite I1. unfold f at 1. cbn [fst]. rewrite orb_true_iff. rewrite existsb_exists. split.
      * intros [[H|(j & H1 & H2)]|(i' & j & H1 & H2)]; [left; exact H| |].
        -- right. apply andb_true_iff in H2. exists i, j. split; [left; reflexivity|]. split; [exact H1|]. split; [tauto|lia].
        -- right. exists i', j. split; [right; exact H1|exact H2].
      * intros [H|(i' & j & [<-|H1] & H2 & H3 & H4)]; [tauto| |].
        -- left. right. exists j. split; [exact H2|]. rewrite H3. cbn [andb]. lia.
        -- right. exists i', j. tauto.
    + destruct I2 as [[I2 I3]|(i' & pre & post & -> & I2 & I3 & I4)].
      * change (snd (f acc i)) with (if existsb (wants m i) js then Z.of_nat i else snd acc) in I2. destruct (existsb (wants m i) js) eqn:E.
        -- right. exists i, [], is. split; [reflexivity|]. split; [exact I2|]. apply existsb_exists in E. split; [exact E|exact I3].
        -- left. split; [exact I2|]. intros i' j [<-|H] J; [|apply I3; assumption].
           destruct (wants m i j) eqn:W; [|reflexivity]. assert (X : existsb (wants m i) js = true) by (apply existsb_exists; exists j; tauto). congruence.
      * right. exists i', (i :: pre), post. split; [reflexivity|]. tauto.
Qed.
Lemma seg_derive_correct m : features_typed m ->
  (fst (seg_derive m) = true <-> av1_pre_skip m) /\ av1_last_active m (snd (seg_derive m)).
Proof.
  intros [L T]. unfold seg_derive.
  rewrite (fold_left_ext _ _ _ (fun acc i => (fst acc || existsb (fun j => wants m i j && (5 <=? Z.of_nat j)) (upto SEG_LVL_MAX), if existsb (wants m i) (upto SEG_LVL_MAX) then Z.of_nat i else snd acc)))
    by (intros; apply seg_derive_inner).
  assert (O := seg_derive_outer m (upto SEG_LVL_MAX) (upto MAX_SEGMENTS) (false, 0)). cbv zeta in O. destruct O as [O1 O2].
  assert (B : forall i j, wants m i j = true -> In i (upto MAX_SEGMENTS) /\ In j (upto SEG_LVL_MAX)).
  { intros i j W. unfold wants in W. unfold upto. change (Z.to_nat MAX_SEGMENTS) with 8%nat. change (Z.to_nat SEG_LVL_MAX) with 7%nat. rewrite !in_seq.
    destruct (Nat.lt_ge_cases i 8) as [I|I].
    - assert (R : In (nth i m []) m) by (apply nth_In; lia). destruct (T _ R) as [T7 _].
      destruct (Nat.lt_ge_cases j 7) as [J|J]; [lia|]. assert (N : nth_error (nth i m []) j = None) by (apply nth_error_None; lia). rewrite N in W. discriminate.
    - rewrite nth_overflow in W by lia. destruct j; discriminate. }
  assert (Wt : forall i j, wants m i j = true <-> exists v, nth_error (nth i m []) j = Some (Some v)).
  { intros i j. unfold wants. destruct (nth_error (nth i m []) j) as [[x|]|]; split; try discriminate; try (intros [? ?]; discriminate); [eauto|reflexivity]. }
  split.
  - rewrite O1. unfold av1_pre_skip. split.
    + intros [H|(i & j & _ & _ & W & J)]; [discriminate|]. apply Wt in W. destruct W as [v W]. exists i, j, v. tauto.
    + intros (i & j & v & J & W). right. assert (W' : wants m i j = true) by (apply Wt; eauto). destruct (B _ _ W'). exists i, j. tauto.
  - unfold av1_last_active. destruct O2 as [[E N]|(i & pre & post & Es & E & (j & J & W) & N)].
    + cbn [snd] in E. rewrite E. split; [|left; reflexivity]. intros i j v W. exfalso. assert (W' : wants m i j = true) by (apply Wt; eauto).
      destruct (B _ _ W'). rewrite N in W' by assumption. discriminate.
    + rewrite E. split.
      * intros i' j' v W0. assert (W' : wants m i' j' = true) by (apply Wt; eauto). destruct (B _ _ W') as [B1 B2].
        rewrite Es in B1. apply in_app_or in B1.
        assert (Srt : forall a (b : nat), In a pre -> (a < i)%nat).
        { clear - Es. unfold upto in Es. change (Z.to_nat MAX_SEGMENTS) with 8%nat in Es. intros a b A.
          apply in_split in A. destruct A as (x & y & ->).
          assert (P : forall n, nth_error (seq 0 8) n = if (n <? 8)%nat then Some n else None).
          { intros n. destruct (Nat.ltb_spec n 8); [|apply nth_error_None; rewrite seq_length; lia]. do 8 (destruct n; [reflexivity|]). lia. }
          assert (P1 := P (length x)). assert (P2 := P (length (x ++ a :: y))). rewrite Es in P1, P2.
          rewrite nth_error_app2, Nat.sub_diag in P2 by lia. cbn in P2. rewrite <- app_assoc in P1. rewrite nth_error_app2, Nat.sub_diag in P1 by lia. cbn [app nth_error] in P1.
          rewrite app_length in P2. cbn [length] in P2. destruct (_ <? _)%nat in P1; [|discriminate]. destruct (_ <=? _)%nat in P2; [|discriminate].
          injection P1 as ->. injection P2 as ->. lia. }
        destruct B1 as [B1|[<-|B1]]; [specialize (Srt i' 0%nat B1); lia|lia|]. rewrite N in W' by assumption. discriminate.
      * right. rewrite Nat2Z.id. apply Wt in W. destruct W as [v W]. exists j, v. exact W.
Qed.
