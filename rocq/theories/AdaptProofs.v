(** Each row follows the symbols coded with it (C120). *)
From Coq Require Import String ZArith List Bool Lia.
From Verif Require Import Base BaseProofs RangeCoderModel RangeCoderSpec SegmentProofs SyntaxSpec SyntaxProofs CdfTables CdfTableSpec ContextModel ContextSpec ContextRunProofs ContextCallSpec ContextWriterProofs AdaptSpec.
Import ListNotations.
Open Scope Z_scope.

Lemma entry_cons n t s name path : entry ((n, t) :: s) name path = if String.eqb n name then tab_at t path else entry s name path.
Proof. unfold entry. cbn [find fst]. destruct (String.eqb n name); reflexivity. Qed.
Lemma entry_field s name t path : field s name = Ok t -> entry s name path = tab_at t path.
Proof.
  induction s as [|[n t'] s IH]; cbn [field]; intros H; [discriminate|]. rewrite entry_cons.
  destruct (String.eqb n name); [injection H as ->; reflexivity|apply IH, H].
Qed.
Lemma entry_set s name t t' m q : field s name = Ok t -> entry (set_field s name t') m q = if String.eqb name m then tab_at t' q else entry s m q.
Proof.
  induction s as [|[n t0] s IH]; cbn [field set_field]; intros H; [discriminate|].
  destruct (String.eqb_spec n name) as [->|N]; rewrite !entry_cons; [destruct (String.eqb name m); reflexivity|].
  rewrite (IH H). destruct (String.eqb_spec n m) as [->|N2]; [|reflexivity]. destruct (String.eqb_spec name m) as [->|]; [congruence|reflexivity].
Qed.

Lemma draft_functional v row a b : draft_adapted (length row - 1) v row a -> draft_adapted (length row - 1) v row b -> a = b.
Proof.
  intros (A1 & A2 & A3 & A4) (B1 & B2 & B3 & B4). apply (nth_ext a b 0 0); [congruence|]. intros n H.
  destruct (Nat.lt_ge_cases n (length row - 1 - 1)) as [C|C]; [rewrite A2, B2 by exact C; reflexivity|].
  assert (n = length row - 1 \/ n = length row - 1 - 1)%nat as [-> | ->] by lia; congruence.
Qed.
Lemma over_functional vs : forall row a b, adapted_over vs row a -> adapted_over vs row b -> a = b.
Proof.
  induction vs as [|v vs IH]; intros row a b A B; inversion A; inversion B; subst; [reflexivity|].
  match goal with H1 : draft_adapted _ _ _ ?x, H2 : draft_adapted _ _ _ ?y |- _ => assert (x = y) as <- by (eapply draft_functional; eassumption) end.
  eapply IH; eassumption.
Qed.

Lemma writer_entry s e c out c' s' out' : state_ok s -> in_range e -> run_writer c s out (Ok e) = Ok (c', s', out') ->
  let '(name, path, v) := e in
  exists row row', entry s name (map Z.to_nat path) = Some row /\ encode_symbol c v out row = Ok (c', out', row') /\
    draft_adapted (length row - 1) v row row' /\
    forall m q, entry s' m q = if String.eqb name m && same_path path q then Some row' else entry s m q.
Proof.
  destruct e as [[name path] v]. intros S (dims & N & I & P & V) H.
  destruct (element_reach _ _ _ _ _ _ S I P V) as (t & row & F & T & G & C).
  unfold run_writer in H. cbn [bind] in H. rewrite F in H. cbn [bind] in H. rewrite G in H. cbn [bind] in H.
  apply bind_inv in H as ([[c1 o1] row1] & E & X). injection X as <- <- <-.
  destruct (path_nat _ _ P) as [P1 _]. exists row, row1.
  split. { rewrite (entry_field _ _ _ _ F). rewrite (tab_get_at _ _ P1) in G. destruct (tab_at t (map Z.to_nat path)); [injection G as ->; reflexivity|discriminate]. }
  split; [exact E|]. split. { rewrite (valid_cdf_size _ _ C). eapply encode_adapts; [exact C|lia|exact E]. }
  intros m q. rewrite (entry_set _ _ _ _ _ _ F). destruct (String.eqb_spec name m) as [<-|NM]; [|reflexivity]. cbn [andb].
  rewrite (tab_at_set _ _ _ _ P1 (ex_intro _ row G)). unfold same_path. destruct (list_eq_dec _ _ _); [reflexivity|]. symmetry. apply entry_field, F.
Qed.

Lemma writers_history es : forall s c out c' s' out', state_ok s -> Forall in_range es -> run_writers c s out (map (@Ok element) es) = Ok (c', s', out') ->
  forall name path, match entry s name path with
  | Some row => exists row', entry s' name path = Some row' /\ adapted_over (symbols_of es name path) row row'
  | None => entry s' name path = None /\ symbols_of es name path = []
  end.
Proof.
  induction es as [|e es IH]; intros s c out c' s' out' S R H name path; cbn [map run_writers] in H.
  - injection H as <- <- <-. destruct (entry s name path) as [row|] eqn:E; [exists row; split; [reflexivity|constructor]|split; reflexivity].
  - inversion R as [|? ? R1 R2]; subst. apply bind_inv in H as ([[c1 s1] o1] & W & H). pose proof (writer_keeps_state _ _ _ _ _ _ _ S R1 W) as S1.
    pose proof (writer_entry _ _ _ _ _ _ _ S R1 W) as X. destruct e as [[n p] v]. destruct X as (row & row1 & E & _ & A & U).
    specialize (IH _ _ _ _ _ _ S1 R2 H name path). rewrite U in IH. unfold symbols_of in *. cbn [filter].
    destruct (String.eqb n name && same_path p path) eqn:Q; cbn [map snd].
    + apply andb_true_iff in Q as [Q1 Q2]. apply String.eqb_eq in Q1. unfold same_path in Q2. destruct (list_eq_dec _ _ _) as [Q3|]; [|discriminate].
      subst name path. rewrite E. destruct IH as (row' & I1 & I2). exists row'. split; [exact I1|]. econstructor; eassumption.
    + exact IH.
Qed.
Lemma session_history es s c out c' s' out' : state_ok s -> Forall in_range es -> write_session c s out (map (@Ok element) es) = Ok (c', s', out') ->
  forall name path, match entry s name path with
  | Some row => exists row', entry s' name path = Some row' /\ adapted_over (symbols_of es name path) row row'
  | None => entry s' name path = None /\ symbols_of es name path = []
  end.
Proof.
  intros S R H. unfold write_session in H. apply bind_inv in H as ([[c1 s1] o1] & W & H). apply bind_inv in H as ([c2 o2] & _ & H). injection H as _ <- _.
  eapply writers_history; eassumption.
Qed.
Lemma session_order es1 es2 s ca cb outa outb c1 s1 out1 c2 s2 out2 : state_ok s -> Forall in_range es1 -> Forall in_range es2 ->
  write_session ca s outa (map (@Ok element) es1) = Ok (c1, s1, out1) -> write_session cb s outb (map (@Ok element) es2) = Ok (c2, s2, out2) ->
  (forall name path, symbols_of es1 name path = symbols_of es2 name path) -> forall name path, entry s1 name path = entry s2 name path.
Proof.
  intros S R1 R2 W1 W2 Q name path. pose proof (session_history _ _ _ _ _ _ _ S R1 W1 name path) as A. pose proof (session_history _ _ _ _ _ _ _ S R2 W2 name path) as B.
  destruct (entry s name path); [|destruct A, B; congruence]. destruct A as (a & A1 & A2), B as (b & B1 & B2). rewrite Q in A2. rewrite A1, B1. f_equal. eapply over_functional; eassumption.
Qed.

Lemma call_own_row w s c out c' s' out' : legal w -> state_ok s -> run_writer c s out w = Ok (c', s', out') ->
  exists name path v row row', w = Ok (name, path, v) /\ entry s name (map Z.to_nat path) = Some row /\
    encode_symbol c v out row = Ok (c', out', row') /\ draft_adapted (length row - 1) v row row' /\
    entry s' name (map Z.to_nat path) = Some row' /\
    forall m q, m <> name \/ q <> map Z.to_nat path -> entry s' m q = entry s m q.
Proof.
  intros L S H. destruct (legal_sound w L) as (e & -> & R). pose proof (writer_entry _ _ _ _ _ _ _ S R H) as X. destruct e as [[name path] v].
  destruct X as (row & row' & E & C & A & U). exists name, path, v, row, row'. split; [reflexivity|]. split; [exact E|]. split; [exact C|]. split; [exact A|]. split.
  - rewrite U, String.eqb_refl. unfold same_path. destruct (list_eq_dec _ _ _); [reflexivity|congruence].
  - intros m q N. rewrite U. destruct (String.eqb_spec name m) as [<-|]; [|reflexivity]. unfold same_path. destruct (list_eq_dec _ _ _); [|reflexivity]. cbn. destruct N; congruence.
Qed.
Lemma legal_elements ws : Forall legal ws -> exists es, ws = map (@Ok element) es /\ Forall in_range es.
Proof.
  induction 1 as [|w ws L _ (es & -> & R)]; [exists []; split; [reflexivity|constructor]|]. destruct (legal_sound w L) as (e & -> & Re).
  exists (e :: es). split; [reflexivity|constructor; assumption].
Qed.
Lemma calls_history ws s c out c' s' out' : Forall legal ws -> state_ok s -> write_session c s out ws = Ok (c', s', out') ->
  exists es, ws = map (@Ok element) es /\ forall name path,
    match entry s name path with
    | Some row => exists row', entry s' name path = Some row' /\ adapted_over (symbols_of es name path) row row'
    | None => entry s' name path = None /\ symbols_of es name path = []
    end.
Proof. intros L S H. destruct (legal_elements _ L) as (es & -> & R). exists es. split; [reflexivity|]. eapply session_history; eassumption. Qed.
Lemma calls_order ws1 ws2 s ca cb outa outb c1 s1 out1 c2 s2 out2 : Forall legal ws1 -> Forall legal ws2 -> state_ok s ->
  write_session ca s outa ws1 = Ok (c1, s1, out1) -> write_session cb s outb ws2 = Ok (c2, s2, out2) ->
  (forall es1 es2, ws1 = map (@Ok element) es1 -> ws2 = map (@Ok element) es2 -> forall name path, symbols_of es1 name path = symbols_of es2 name path) ->
  forall name path, entry s1 name path = entry s2 name path.
Proof.
  intros L1 L2 S W1 W2 Q. destruct (legal_elements _ L1) as (es1 & -> & R1). destruct (legal_elements _ L2) as (es2 & -> & R2).
  exact (session_order es1 es2 s ca cb outa outb c1 s1 out1 c2 s2 out2 S R1 R2 W1 W2 (Q es1 es2 eq_refl eq_refl)).
Qed.

(** The decoder, on any bits. *)
Lemma reader_history es : forall s c q vs c' s' q', state_ok s -> Forall selects es -> read_elements c s q es = Ok (vs, c', s', q') ->
  length vs = length es /\ forall name path, match entry s name path with
  | Some row => exists row', entry s' name path = Some row' /\ adapted_over (symbols_of (combine es vs) name path) row row'
  | None => entry s' name path = None /\ symbols_of (combine es vs) name path = []
  end.
Proof.
  induction es as [|[n p] es IH]; intros s c q vs c' s' q' S R H; cbn [read_elements] in H.
  - injection H as <- <- <- <-. split; [reflexivity|]. intros name path. destruct (entry s name path) as [row|]; [exists row; split; [reflexivity|constructor]|split; reflexivity].
  - inversion R as [|? ? (dims & N & I & P) R2]; subst. cbn [fst snd] in I, P.
    destruct (path_nat _ _ P) as [P1 P2]. destruct (state_field _ _ _ _ _ shapes_nodup S I) as (t & F & T). pose proof T as [T1 _]. destruct (T1 _ P2) as (row & A & C).
    assert (G : tab_get t p = Ok row) by (rewrite (tab_get_at _ _ P1), A; reflexivity).
    rewrite F in H. cbn [bind] in H. rewrite G in H. cbn [bind] in H. apply bind_inv in H as ([[[v c1] q1] row1] & D & H).
    apply bind_inv in H as ([[[vs1 c2] s2] q2] & E & H). injection H as <- <- <- <-.
    assert (S1 : state_ok (set_field s n (tab_set t p row1))).
    { apply (state_set _ _ _ _ dims N shapes_nodup S I). apply table_ok_set; [exact T|exact P|exists row; exact G|]. eapply decode_keeps_valid; eassumption. }
    destruct (IH _ _ _ _ _ _ _ S1 R2 E) as [L IH']. split; [cbn [length]; congruence|]. intros name path. specialize (IH' name path).
    assert (U : entry (set_field s n (tab_set t p row1)) name path = if String.eqb n name && same_path p path then Some row1 else entry s name path).
    { rewrite (entry_set _ _ _ _ _ _ F). destruct (String.eqb_spec n name) as [<-|NM]; [|reflexivity]. cbn [andb].
      rewrite (tab_at_set _ _ _ _ P1 (ex_intro _ row G)). unfold same_path. destruct (list_eq_dec _ _ _); [reflexivity|]. symmetry. apply entry_field, F. }
    rewrite U in IH'. unfold symbols_of in *. cbn [combine filter].
    destruct (String.eqb n name && same_path p path) eqn:Q; cbn [map snd].
    + apply andb_true_iff in Q as [Q1 Q2]. apply String.eqb_eq in Q1. unfold same_path in Q2. destruct (list_eq_dec _ _ _) as [Q3|]; [|discriminate].
      subst name path. rewrite (entry_field _ _ _ _ F), A. destruct IH' as (row' & I1 & I2). exists row'. split; [exact I1|]. econstructor; [|exact I2].
      rewrite (valid_cdf_size _ _ C). eapply decode_adapts; eassumption.
    + exact IH'.
Qed.
Lemma session_reader_history es s c q sz vs c' s' q' : state_ok s -> Forall selects es -> read_session c s q sz es = Ok (vs, c', s', q') ->
  length vs = length es /\ forall name path, match entry s name path with
  | Some row => exists row', entry s' name path = Some row' /\ adapted_over (symbols_of (combine es vs) name path) row row'
  | None => entry s' name path = None /\ symbols_of (combine es vs) name path = []
  end.
Proof. intros S R H. unfold read_session in H. apply bind_inv in H as ([c1 q1] & _ & H). eapply reader_history; eassumption. Qed.
