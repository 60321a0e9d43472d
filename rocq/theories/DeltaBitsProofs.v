(** The elements of deltas on bits: a literal carries its low bits, so all of them can be coded,
    and what a decoder reads from the bits is what it reads from the elements. *)
From Coq Require Import String ZArith List Bool Lia ZifyBool ZifyNat.
From Verif Require Import BitsSpec Base BaseProofs TableLemmas SeqSpec RangeCoderModel CdfTables CdfTableSpec ContextModel ContextSpec ContextCallSpec ContextProofs ContextWriterProofs
  ModeInfoModel ModeInfoSpec ModeInfoProofs ModeWholeProofs FloorProofs DeltaSpec DeltaProofs BridgeSpec BridgeProofs InterBitsProofs.
From Verif Require ElementProofs.
Import ListNotations.
Open Scope string_scope.
Open Scope list_scope.
Open Scope Z_scope.

(** ** A literal of [n] bits carries [n] bits *)
Definition norm (e : ev) : ev := match e with ESym _ _ _ => e | ELit n v => ELit n (v mod 2 ^ n) end.
Lemma literal_low : forall m n v c out, (n <= m)%nat -> encode_literal c out (v mod 2 ^ Z.of_nat m) n = encode_literal c out v n.
Proof.
  intros m. induction n as [|n IH]; intros v c out L; [reflexivity|]. cbn [encode_literal].
  replace (Z.land (Z.shiftr (v mod 2 ^ Z.of_nat m) (Z.of_nat n)) 1) with (Z.land (Z.shiftr v (Z.of_nat n)) 1).
  - destruct (shift_ok 64 (Z.of_nat n)); [cbn [bind]|reflexivity|reflexivity]. destruct (encode_symbolp _ _ _ _) as [[c' o']| |]; [cbn [bind]|reflexivity|reflexivity].
    apply IH. lia.
  - change 1 with (Z.ones 1). rewrite !Z.land_ones by lia. rewrite <- !Z.bit0_mod, !Z.shiftr_spec, Z.add_0_l by lia. now rewrite Z.mod_pow2_bits_low by lia.
Qed.
Lemma norm_elements : forall es c s out, Forall (fun e => match e with ELit n _ => 0 <= n | _ => True end) es -> write_elements c s out (map norm es) = write_elements c s out es.
Proof.
  induction es as [|e es IH]; intros c s out F; [reflexivity|]. inversion F as [|? ? Fe Fs]; subst. cbn [map write_elements].
  replace (write_element c s out (norm e)) with (write_element c s out e).
  - destruct (write_element c s out e) as [[[c1 s1] o1]| |]; [cbn [bind]|reflexivity|reflexivity]. now apply IH.
  - destruct e as [n p v|n v]; [reflexivity|]. cbn [norm write_element]. rewrite <- (literal_low (Z.to_nat n) (Z.to_nat n) v c out) by lia. now rewrite Z2Nat.id.
Qed.
Lemma norm_session : forall es c s out, Forall (fun e => match e with ELit n _ => 0 <= n | _ => True end) es -> element_session c s out (map norm es) = element_session c s out es.
Proof. intros es c s out F. unfold element_session. now rewrite norm_elements. Qed.
Lemma norm_symbols : forall es, symbols_of (map norm es) = symbols_of es.
Proof. induction es as [|[n p v|n v] es IH]; [reflexivity| |]; unfold symbols_of in *; cbn [map norm fold_right]; now rewrite IH. Qed.
Lemma codable_positive : forall es, Forall codable_element (map norm es) -> Forall (fun e => match e with ELit n _ => 0 <= n | _ => True end) es.
Proof.
  induction es as [|[n p v|n v] es IH]; cbn [map]; intros F; inversion F as [|? ? Fe Fs]; subst; constructor; auto. exact (proj1 (proj1 Fe)).
Qed.

(** ** The reader does not see the difference *)
Definition same_reader {A : Type} (rd : list ev -> option (A * list ev)) : Prop :=
  forall q, rd (map norm q) = match rd q with Some (v, r) => Some (v, map norm r) | None => None end.
Lemma sym_same : forall name path, same_reader (sym name path).
Proof. intros name path [|[n p v|n v] q]; cbn [map norm sym]; try reflexivity. destruct (_ && _); reflexivity. Qed.
Lemma low_same : forall n, same_reader (low n).
Proof.
  intros n [|[m p v|m v] q]; unfold low; cbn [map norm lit]; try reflexivity. destruct (m =? n) eqn:E; cbn [obind]; [|reflexivity].
  replace m with n by lia. now rewrite Zmod_mod.
Qed.
Lemma bind_same : forall (A B : Type) (rd : list ev -> option (A * list ev)) (f : A -> list ev -> option (B * list ev)), same_reader rd -> (forall a, same_reader (f a)) ->
  same_reader (fun q => obind (rd q) (fun '(a, q) => f a q)).
Proof. intros A B rd f R F q. rewrite R. destruct (rd q) as [[a r]|]; cbn [obind]; [apply F|reflexivity]. Qed.
Lemma done_same : forall (A : Type) (a : A), same_reader (fun q => Some (a, q)).
Proof. intros A a q. reflexivity. Qed.
Lemma if_same : forall (A : Type) (b : bool) (x y : list ev -> option (A * list ev)), same_reader x -> same_reader y -> same_reader (fun q => if b then x q else y q).
Proof. intros A b x y X Y. destruct b; assumption. Qed.
Lemma delta_of_same : forall name path, same_reader (av1_delta_of name path).
Proof.
  intros name path. unfold av1_delta_of. apply bind_same; [apply sym_same|]. intros a. apply bind_same.
  - apply if_same; [|apply done_same]. apply bind_same; [apply low_same|]. intros r. apply bind_same; [apply low_same|]. intros v. apply done_same.
  - intros v. apply if_same; [apply done_same|]. apply bind_same; [apply low_same|]. intros g. apply done_same.
Qed.
Lemma lf_deltas_same : forall multi n i, same_reader (av1_lf_deltas multi n i).
Proof.
  intros multi. induction n as [|n IH]; intros i; cbn [av1_lf_deltas]; [apply done_same|].
  apply bind_same; [apply if_same; apply delta_of_same|]. intros d. apply bind_same; [apply IH|]. intros ds. apply done_same.
Qed.
Lemma deltas_same : forall multi n, same_reader (av1_deltas multi n).
Proof.
  intros multi n. unfold av1_deltas. apply bind_same; [apply delta_of_same|]. intros d. apply bind_same; [apply lf_deltas_same|]. intros ds. apply done_same.
Qed.

(** ** All elements can be coded *)
Definition adds_low (n : Z) (es es' : list ev) : Prop := exists ds, es' = es ++ ds /\ Forall codable_element (map norm ds) /\ symbols_of ds <= n.
Lemma low_0 : forall n es, 0 <= n -> adds_low n es es.
Proof. intros n es N. exists []. split; [symmetry; apply app_nil_r|]. split; [constructor|exact N]. Qed.
Lemma low_trans : forall n m a b c, adds_low n a b -> adds_low m b c -> adds_low (n + m) a c.
Proof.
  intros n m a b c (d1 & -> & F1 & S1) (d2 & -> & F2 & S2). exists (d1 ++ d2). split; [symmetry; apply app_assoc|].
  split; [rewrite map_app; apply Forall_app; split; assumption|]. rewrite symbols_app. lia.
Qed.
Lemma low_le : forall n m a b, n <= m -> adds_low n a b -> adds_low m a b.
Proof. intros n m a b L (d & E & F & S). exists d. repeat split; try assumption. lia. Qed.

Lemma events_codable : forall name path extra d, (forall s, 0 <= s < 4 -> in_range (name, path, s)) -> Z.abs d <= 512 ->
  Forall codable_element (map norm (delta_events name path extra d)) /\ symbols_of (delta_events name path extra d) <= 13.
Proof.
  intros name path extra d R H. unfold delta_events. cbv zeta. set (a := Z.abs d) in *. set (rem := Z.log2 (a - 1)).
  assert (Z0 : forall s, 0 <= s < 4 -> codable_element (ESym name path s)) by exact R.
  assert (G : codable_element (norm (ELit 1 (if d <? 0 then 1 else 0)))) by (destruct (d <? 0); cbn; lia).
  destruct (d =? 0) eqn:E0; [split; [constructor; [apply Z0; lia|constructor]|cbn; lia]|].
  destruct (a <? 3) eqn:E; cbn [app map].
  - split; [constructor; [apply Z0; lia|constructor; [exact G|constructor]]|cbn; lia].
  - destruct (ElementProofs.log2_range a ltac:(lia)) as (B & _ & _). fold rem in B. split.
    + constructor; [apply Z0; lia|]. constructor; [cbn [norm codable_element]; rewrite Z.mod_small by (change (2 ^ 3) with 8; lia); change (2 ^ 3) with 8; lia|].
      constructor; [cbn [norm codable_element]; split; [lia|apply Z.mod_pos_bound; apply Z.pow_pos_nonneg; lia]|]. constructor; [exact G|constructor].
    + clearbody rem. unfold symbols_of. cbn [fold_right]. lia.
Qed.
Lemma lf_loop_adds : forall n i x lf cur es es' cur', 0 <= x_lf_res x < 64 -> in_lf lf -> in_lf cur -> (i + n <= length lf)%nat -> (i + n <= length cur)%nat -> (i + n <= 4)%nat ->
  code_delta_lf n (Z.of_nat i) x lf cur es = Ok (es', cur') -> adds_low (13 * Z.of_nat n) es es'.
Proof.
  induction n as [|n IH]; intros i x lf cur es es' cur' R L C Li Ci I4 H; cbn [code_delta_lf] in H.
  - injection H as <- _. apply low_0. reflexivity.
  - rewrite idx_at in H by lia. cbn [bind] in H. rewrite idx_at in H by lia. cbn [bind] in H.
    pose proof (in_lf_nth lf i L) as V. pose proof (in_lf_nth cur i C) as P.
    bi H. destruct a as (ops & p). bi H. destruct a as ((name & path) & s0).
    destruct (lf_events name path (nth i lf 0) (nth i cur 0) (x_lf_res x) V P R) as (ops' & E' & M). rewrite E in E'. injection E' as <- ->.
    rewrite M, Nat2Z.id in H. replace (Z.of_nat i + 1) with (Z.of_nat (S i)) in H by lia.
    replace (13 * Z.of_nat (S n)) with (13 + 13 * Z.of_nat n) by lia. eapply low_trans.
    2:{ eapply (IH (S i)); [exact R|exact L|apply in_lf_set; [exact C|exact V]|lia|rewrite set_nth_len; lia|lia|exact H]. }
    destruct (events_codable name path 1 (in_units (x_lf_res x) (nth i lf 0) (nth i cur 0))) as (F & B).
    { intros s Hs. destruct (legal_sound _ (L_delta_lf_abs s (b2z (x_lf_multi x)) (Z.of_nat i) Hs ltac:(lia))) as (a & A & Ra).
      unfold encode_delta_lf_abs in *. destruct (b2z (x_lf_multi x) =? 0); injection E0 as <- <- _; injection A as <-; exact Ra. }
    { pose proof (units_small 126 (x_lf_res x) (nth i lf 0) (nth i cur 0)). lia. }
    eexists. split; [reflexivity|]. split; assumption.
Qed.
Lemma deltas_adds : forall x b t es es' t', 
  t_read_deltas t = true -> p_bsize b <> (if x_sb128 x then 15 else 12) \/ p_skip b = false ->
  0 <= x_dq_res x < 64 -> 0 <= x_lf_res x < 64 -> 0 <= p_q b <= 255 -> 0 <= t_cur_q t <= 255 ->
  in_lf (p_lf b) -> in_lf (t_cur_lf t) -> (4 <= length (p_lf b))%nat -> (4 <= length (t_cur_lf t))%nat ->
  code_deltas x b t es = Ok (es', t') -> adds_low 65 es es'.
Proof.
  intros x b t es es' t' RD SB K1 K2 Q C L1 L2 N1 N2 H. unfold code_deltas in H. rewrite RD, andb_true_r in H.
  replace (negb ((p_bsize b =? (if x_sb128 x then BLOCK_128X128 else BLOCK_64X64)) && p_skip b)) with true in H.
  2:{ destruct SB as [S|S]; [|rewrite S, andb_false_r; reflexivity].
      destruct (p_bsize b =? _) eqn:E; [|reflexivity]. exfalso. apply S. apply Z.eqb_eq in E. rewrite E. destruct (x_sb128 x); reflexivity. }
  destruct (q_events (p_q b) (t_cur_q t) (x_dq_res x) Q C K1) as (ops & E & M). rewrite E in H. cbn [bind] in H. rewrite M in H. cbn [andb] in H.
  bi H. destruct a as (es1 & lf). injection H as <- _. change 65 with (13 + 52). apply (low_trans 13 52 es (es ++ delta_events "delta_q" [] 0 (in_units (x_dq_res x) (p_q b) (t_cur_q t)))).
  - destruct (events_codable "delta_q" [] 0 (in_units (x_dq_res x) (p_q b) (t_cur_q t))) as (F & B).
    { intros s Hs. destruct (legal_sound _ (L_delta_q_abs s Hs)) as (a & A & Ra). injection A as <-. exact Ra. }
    { pose proof (units_small 255 (x_dq_res x) (p_q b) (t_cur_q t)). lia. }
    eexists. split; [reflexivity|]. split; assumption.
  - destruct (x_lf_present x) eqn:PR; [|injection E0 as <- _; apply low_0; lia].
    set (m := if x_lf_multi x then if 1 <? x_planes x then 4%nat else 2%nat else 1%nat) in *.
    assert (m <= 4)%nat by (unfold m; destruct (x_lf_multi x), (1 <? x_planes x); lia).
    change 0 with (Z.of_nat 0) in E0. eapply low_le; [|eapply lf_loop_adds; [exact K2|exact L1|exact L2| | | |exact E0]]; lia.
Qed.

Lemma some_both : forall (A B : Type) (a c : A) (b d : B), Some (a, b) = Some (c, d) -> a = c /\ b = d.
Proof. intros A B a c b d H. now injection H. Qed.

(** C111 on bits. *)
Lemma deltas_bits : forall x b t es,
  let n := lf_count (x_lf_present x) (x_lf_multi x) (x_planes x <=? 1) in
  let dq := in_units (x_dq_res x) (p_q b) (t_cur_q t) in
  let dlf j := in_units (x_lf_res x) (nth j (p_lf b) 0) (nth j (t_cur_lf t) 0) in
  t_read_deltas t = true -> p_bsize b <> (if x_sb128 x then 15 else 12) \/ p_skip b = false ->
  0 <= x_dq_res x < 64 -> 0 <= x_lf_res x < 64 -> 0 <= p_q b <= 255 -> 0 <= t_cur_q t <= 255 ->
  Forall (fun v => -63 <= v <= 63) (p_lf b) -> Forall (fun v => -63 <= v <= 63) (t_cur_lf t) ->
  (4 <= length (p_lf b))%nat -> (4 <= length (t_cur_lf t))%nat ->
  exists ds t' p got, code_deltas x b t es = Ok (es ++ ds, t') /\ (forall q, av1_deltas (x_lf_multi x) n q = on_elements p q) /\
  (got = (dq, map dlf (seq 0 n)) <-> Z.abs dq <= 2 /\ forall j, (j < n)%nat -> Z.abs (dlf j) <= 4) /\
  forall s c d out sz tail, state_ok s -> 0 <= bit_count c < 2 ^ 62 -> 0 <= sz < 2 ^ 28 -> is_bits tail ->
  exists c' s' D d' rest, element_session c s out ds = Ok (c', s', out ++ D) /\ is_bits D /\
    decode_bits p d s (D ++ tail) sz = Ok (got, d', s', rest ++ tail).
Proof.
  intros x b t es n dq dlf RD SB K1 K2 Q C L1 L2 N1 N2.
  destruct (deltas_exactly x b t es RD SB K1 K2 Q C L1 L2 N1 N2) as (ds & t' & E & R & _). fold n in R.
  destruct (deltas_read_iff x b t es RD SB K1 K2 Q C L1 L2 N1 N2) as (ds2 & t2 & E2 & I & _). rewrite E in E2. injection E2 as E2 _. apply app_inv_head in E2. subst ds2.
  destruct (deltas_adds x b t es _ t' RD SB K1 K2 Q C L1 L2 N1 N2 E) as (ds' & Eq & F & L). apply app_inv_head in Eq. subst ds'.
  set (p := the _ (prog_deltas (x_lf_multi x) n)). pose proof (the_ok _ (prog_deltas (x_lf_multi x) n)) as P. fold p in P.
  match type of R with forall k, _ = Some (?g, k) => set (got := g) in * end.
  exists ds, t', p, got. split; [exact E|]. split; [exact P|]. split.
  - fold n dq in I. change (reads_as ds (av1_deltas (x_lf_multi x) n) (dq, map dlf (seq 0 n)) <-> Z.abs dq <= 2 /\ (forall j, (j < n)%nat -> Z.abs (dlf j) <= 4)) in I. rewrite <- I. split.
    + intros G k. rewrite R. now rewrite G.
    + intros G. specialize (G []). rewrite R in G. exact (proj1 (some_both _ _ _ _ _ _ G)).
  - intros s c d out sz tail S Hc Hs Ht. rewrite <- (norm_session ds c s out (codable_positive ds F)).
    apply (bridge _ p (map norm ds) got s c d out sz tail); try assumption.
    + rewrite norm_symbols. eapply Z.le_trans; [exact L|]. discriminate.
    + rewrite <- P, deltas_same. specialize (R []). rewrite app_nil_r in R. rewrite R. reflexivity.
Qed.
