(** Proofs for BridgeSpec. *)
From Coq Require Import String ZArith List Bool Lia ZifyBool ZifyNat.
From Verif Require Import BitsSpec Base BaseProofs TableLemmas SeqSpec RangeCoderModel RangeCoderSpec CdfProofs SessionModel SessionSpec SessionProofs SegmentProofs CdfTables CdfTableSpec CdfTableProofs
  ContextModel ContextSpec ContextRunProofs MvStackModel MvStackSpec ModeInfoModel ModeInfoSpec DeltaSpec MotionSpec PairSpec BridgeSpec.
Import ListNotations.
Open Scope string_scope.
Open Scope list_scope.
Open Scope Z_scope.

(** ** Elements as coding calls on one table *)
Definition call_of (s : cdfs) (e : ev) : op := match e with ESym n p v => OSym (fslot s n p) (Z.to_nat v) | ELit n v => OLit (Z.to_nat n) v end.
Definition reachable (s : cdfs) (e : ev) : Prop := match e with ESym n p v => freach s n p /\ 0 <= v | ELit _ _ => True end.

Lemma call_of_erase : forall s s' e, erase_all s = erase_all s' -> call_of s e = call_of s' e.
Proof. intros s s' [n p v|n v] E; [|reflexivity]. unfold call_of. now rewrite (fslot_erase s), (fslot_erase s'), E. Qed.
Lemma reachable_erase : forall s s' e, erase_all s = erase_all s' -> reachable s e -> reachable s' e.
Proof. intros s s' [n p v|n v] E R; [exact (codable_erase s s' (n, p, v) E R)|exact I]. Qed.

Lemma elements_run : forall es c s out c' t' out', Forall (reachable s) es ->
  encode_ops c (flat s) out (map (call_of s) es) = Ok (c', t', out') ->
  exists s', write_elements c s out es = Ok (c', s', out') /\ flat s' = t' /\ erase_all s' = erase_all s.
Proof.
  induction es as [|e es IH]; intros c s out c' t' out' H E; cbn [map encode_ops] in E.
  - injection E as <- <- <-. exists s. split; [reflexivity|split; reflexivity].
  - inversion H as [|? ? He Hes]; subst. apply bind_inv in E. destruct E as ([[c1 t1] o1] & E1 & E2).
    assert (X : exists s1, write_element c s out e = Ok (c1, s1, o1) /\ flat s1 = t1 /\ erase_all s1 = erase_all s).
    { destruct e as [n p v|n v]; [exact (writer_step _ _ _ (n, p, v) _ _ _ He E1)|]. cbn [call_of encode_op write_element] in *.
      apply bind_inv in E1. destruct E1 as ([c2 o2] & E1 & E3). injection E3 as <- <- <-. exists s. rewrite E1. split; [reflexivity|]. split; reflexivity. }
    destruct X as (s1 & W & Fl & Er). subst t1.
    replace (map (call_of s) es) with (map (call_of s1) es) in E2 by (apply map_ext; intros e'; apply call_of_erase; exact Er).
    destruct (IH _ _ _ _ _ _ (Forall_impl _ (fun e' X => reachable_erase s s1 e' (eq_sym Er) X) Hes) E2) as (s2 & W2 & Fl2 & Er2).
    exists s2. cbn [write_elements]. rewrite W. cbn [bind]. rewrite W2. split; [reflexivity|]. split; [exact Fl2|congruence].
Qed.

Lemma lit_inv : forall n q v r, lit n q = Some (v, r) -> q = ELit n v :: r.
Proof.
  intros n [|[m p w|m w] q] v r H; cbn [lit] in H; try discriminate. destruct (m =? n) eqn:E; [|discriminate]. injection H as <- <-.
  replace m with n by lia. reflexivity.
Qed.
Lemma sym_inv : forall name path q v r, sym name path q = Some (v, r) -> q = ESym name path v :: r.
Proof.
  intros name path [|[m p w|m w] q] v r H; cbn [sym] in H; try discriminate. destruct (String.eqb_spec m name) as [->|]; [|discriminate].
  destruct (list_eq_dec Z.eq_dec p path) as [->|]; [|discriminate]. cbn in H. injection H as <- <-. reflexivity.
Qed.

(** The program on bits does what it does on elements, and leaves the decoder where the
    rest of the elements can be read. *)
Lemma prog_run : forall (A : Type) (p : prog A) es d s q os d' t' q' v k, Forall (reachable s) es ->
  decode_ops d (flat s) q (map shape_of (map (call_of s) es)) = Ok (os, d', t', q') -> os = map (call_of s) es ->
  on_elements p es = Some (v, k) ->
  exists d1 s1 q1 os1, on_bits p d s q = Ok (v, d1, s1, q1) /\ erase_all s1 = erase_all s /\ Forall (reachable s1) k /\
    decode_ops d1 (flat s1) q1 (map shape_of (map (call_of s1) k)) = Ok (os1, d', t', q') /\ os1 = map (call_of s1) k.
Proof.
  induction p as [a| |name path kk IH|n kk IH]; intros es d s q os d' t' q' v k H E Eo R; cbn [on_elements on_bits] in *.
  - injection R as <- <-. exists d, s, q, os. split; [reflexivity|]. split; [reflexivity|]. split; [exact H|]. split; [exact E|exact Eo].
  - discriminate R.
  - destruct (sym name path es) as [(v1, r)|] eqn:S; cbn [obind] in R; [|discriminate R]. apply sym_inv in S. subst es.
    inversion H as [|? ? He Hes]; subst. destruct He as [(t & F & row & G) V]. destruct (field_slot _ _ _ _ _ F G) as (A1 & B & C).
    cbn [map decode_ops] in E. apply bind_inv in E. destruct E as ([[[o1 d1] t1] q1] & E1 & E2).
    apply bind_inv in E2. destruct E2 as ([[[os2 d2] t2] q2] & E2 & E3). injection E3 as X1 X2 X3 X4 X5. subst o1 d2 t2 q2.
    cbn [call_of shape_of decode_op] in E1. rewrite (idx_of_nat _ _ _ _ A1) in E1. cbn [bind] in E1.
    apply bind_inv in E1. destruct E1 as ([[[v2 d3] q3] row3] & E1 & E4). injection E4 as Y1 Y2 Y3 Y4. subst d3 q3 t1.
    assert (Hv : v2 = v1) by (pose proof (decode_symbol_nonneg _ _ _ _ _ _ _ E1); lia). subst v2.
    rewrite F. cbn [bind]. rewrite G. cbn [bind]. rewrite E1. cbn [bind].
    set (s1 := set_field s name (tab_set t path row3)). pose proof (C row3) as Er. fold s1 in Er. rewrite <- (B row3) in E2. fold s1 in E2.
    replace (map (call_of s) r) with (map (call_of s1) r) in E2 by (apply map_ext; intros e'; apply call_of_erase; exact Er).
    replace (map (call_of s) r) with (map (call_of s1) r) in X2 by (apply map_ext; intros e'; apply call_of_erase; exact Er).
    destruct (IH v1 r _ _ _ _ _ _ _ _ _ (Forall_impl _ (fun e' X => reachable_erase s s1 e' (eq_sym Er) X) Hes) E2 X2 R) as (d4 & s4 & q4 & os4 & U & Er4 & Rk & U2 & U3).
    exists d4, s4, q4, os4. split; [exact U|]. split; [congruence|]. split; [exact Rk|]. split; assumption.
  - destruct (lit n es) as [(v1, r)|] eqn:S; cbn [obind] in R; [|discriminate R]. apply lit_inv in S. subst es.
    inversion H as [|? ? He Hes]; subst.
    cbn [map decode_ops] in E. apply bind_inv in E. destruct E as ([[[o1 d1] t1] q1] & E1 & E2).
    apply bind_inv in E2. destruct E2 as ([[[os2 d2] t2] q2] & E2 & E3). injection E3 as X1 X2 X3 X4 X5. subst o1 d2 t2 q2.
    cbn [call_of shape_of decode_op] in E1.
    apply bind_inv in E1. destruct E1 as ([[v2 d3] q3] & E1 & E4). injection E4 as Y1 Y2 Y3 Y4. subst d3 q3 t1 v2.
    rewrite E1. cbn [bind].
    destruct (IH v1 r _ _ _ _ _ _ _ _ _ Hes E2 X2 R) as (d4 & s4 & q4 & os4 & U & Er4 & Rk & U2 & U3).
    exists d4, s4, q4, os4. split; [exact U|]. split; [congruence|]. split; [exact Rk|]. split; assumption.
Qed.

Lemma codable_op : forall s e, state_ok s -> codable_element e -> reachable s e /\ valid_op (sizes_of s) (call_of s e).
Proof.
  intros s [n p v|n v] S R; [exact (in_range_op s (n, p, v) S R)|]. split; [exact I|]. cbn [call_of valid_op codable_element] in *.
  rewrite Z2Nat.id by lia. lia.
Qed.
Lemma symbols_calls : forall s es, Forall codable_element es -> Z.of_nat (session_symbols (map (call_of s) es)) = symbols_of es.
Proof.
  intros s es H. induction H as [|e es He _ IH]; [reflexivity|].
  change (session_symbols (map (call_of s) (e :: es))) with (op_symbols (call_of s e) + session_symbols (map (call_of s) es))%nat.
  change (symbols_of (e :: es)) with (match e with ESym _ _ _ => 1 | ELit n _ => n end + symbols_of es). rewrite Nat2Z.inj_add, IH.
  destruct e as [n p v|n v]; cbn [call_of op_symbols codable_element] in *; lia.
Qed.

Lemma bridge : forall (A : Type) (p : prog A) es v s c d out sz tail,
  state_ok s -> Forall codable_element es -> symbols_of es <= 2 ^ 26 ->
  0 <= bit_count c < 2 ^ 62 -> 0 <= sz < 2 ^ 28 -> is_bits tail ->
  on_elements p es = Some (v, []) ->
  exists c' s' D d' rest,
    element_session c s out es = Ok (c', s', out ++ D) /\ is_bits D /\
    decode_bits p d s (D ++ tail) sz = Ok (v, d', s', rest ++ tail).
Proof.
  intros A p es v s c d out sz tail S R L Hc Hs Ht P.
  assert (Cd : Forall (reachable s) es) by (eapply Forall_impl; [|exact R]; intros e He; apply (codable_op s e S He)).
  assert (Vo : Forall (valid_op (sizes_of s)) (map (call_of s) es)).
  { apply Forall_map. eapply Forall_impl; [|exact R]. intros e He. apply (codable_op s e S He). }
  assert (Fi : fits (map (call_of s) es)) by (unfold fits; rewrite (symbols_calls s es R); exact L).
  destruct (session_round_trip (sizes_of s) (flat s) (map (call_of s) es) c d out sz tail (state_valid s S) Vo Fi Hc Hs Ht)
    as (c' & t' & D & d' & used & rest & E & _ & HD & F).
  unfold encode_session in E. apply bind_inv in E. destruct E as ([[c1 t1] o1] & E1 & E2).
  apply bind_inv in E2. destruct E2 as ([c2 o2] & E2 & E3). injection E3 as -> -> ->.
  destruct (elements_run _ _ _ _ _ _ _ Cd E1) as (s1 & W & Fl1 & Er1).
  unfold decode_session in F. apply bind_inv in F. destruct F as ([d0 q0] & F0 & F1).
  destruct (prog_run _ _ _ _ _ _ _ _ _ _ _ _ Cd F1 eq_refl P) as (d1 & s2 & q1 & os1 & U & Er2 & _ & U2 & _).
  cbn [map decode_ops] in U2. injection U2 as _ -> Fl2 ->.
  assert (s1 = s2) by (apply erase_all_inj; congruence). subst s2.
  exists c', s1, D, d', rest. unfold element_session. rewrite W. cbn [bind]. rewrite E2. cbn [bind].
  split; [reflexivity|]. split; [exact HD|]. unfold decode_bits. rewrite F0. cbn [bind]. exact U.
Qed.

(** The same for a reader of elements. *)
Lemma bridge_reader : forall (A : Type) (rd : list ev -> option (A * list ev)) es v,
  bitwise rd -> reads_as es rd v -> exists p, (forall q, rd q = on_elements p q) /\
  forall s c d out sz tail, state_ok s -> Forall codable_element es -> symbols_of es <= 2 ^ 26 ->
  0 <= bit_count c < 2 ^ 62 -> 0 <= sz < 2 ^ 28 -> is_bits tail ->
  exists c' s' D d' rest,
    element_session c s out es = Ok (c', s', out ++ D) /\ is_bits D /\
    decode_bits p d s (D ++ tail) sz = Ok (v, d', s', rest ++ tail).
Proof.
  intros A rd es v (p & P) R. exists p. split; [exact P|]. intros s c d out sz tail S C L Hc Hs Ht.
  apply (bridge A p es v s c d out sz tail); try assumption. rewrite <- P. specialize (R []). now rewrite app_nil_r in R.
Qed.

(** ** Which readers look at the elements one by one *)
Fixpoint then_ {A B : Type} (p : prog A) (f : A -> prog B) : prog B :=
  match p with Done a => f a | Fail => Fail | Sym n path k => Sym n path (fun v => then_ (k v) f) | Lit n k => Lit n (fun v => then_ (k v) f) end.
Lemma then_run : forall (A B : Type) (p : prog A) (f : A -> prog B) q,
  on_elements (then_ p f) q = obind (on_elements p q) (fun '(a, q) => on_elements (f a) q).
Proof.
  intros A B p f. induction p as [a| |n path k IH|n k IH]; intros q; cbn [then_ on_elements obind]; try reflexivity.
  - destruct (sym n path q) as [(v, r)|]; cbn [obind]; [apply IH|reflexivity].
  - destruct (lit n q) as [(v, r)|]; cbn [obind]; [apply IH|reflexivity].
Qed.
(** No choice axiom is needed: programs are given, not only their existence. *)
Record isprog {A : Type} (rd : list ev -> option (A * list ev)) : Type := { the : prog A; the_ok : forall q, rd q = on_elements the q }.
Lemma isprog_bitwise : forall (A : Type) (rd : list ev -> option (A * list ev)), isprog rd -> bitwise rd.
Proof. intros A rd [p P]. exists p. exact P. Qed.
Definition prog_done {A : Type} (a : A) : isprog (fun q => Some (a, q)).
Proof. exists (Done a). reflexivity. Defined.
Definition prog_fail {A : Type} : isprog (fun _ => @None (A * list ev)).
Proof. exists Fail. reflexivity. Defined.
Definition prog_sym name path : isprog (sym name path).
Proof. exists (Sym name path Done). intros q. cbn [on_elements]. destruct (sym name path q) as [(v, r)|]; reflexivity. Defined.
Definition prog_lit n : isprog (lit n).
Proof. exists (Lit n Done). intros q. cbn [on_elements]. destruct (lit n q) as [(v, r)|]; reflexivity. Defined.
Definition prog_bind {A B : Type} (rd : list ev -> option (A * list ev)) (f : A -> list ev -> option (B * list ev)) :
  isprog rd -> (forall a, isprog (f a)) -> isprog (fun q => obind (rd q) (fun '(a, q) => f a q)).
Proof.
  intros [p P] F. exists (then_ p (fun a => the _ (F a))). intros q. rewrite then_run, P.
  destruct (on_elements p q) as [(a, r)|]; cbn [obind]; [apply the_ok|reflexivity].
Defined.
Definition prog_ext {A : Type} (rd rd' : list ev -> option (A * list ev)) : (forall q, rd' q = rd q) -> isprog rd -> isprog rd'.
Proof. intros E [p P]. exists p. intros q. rewrite E. apply P. Defined.
Definition prog_if {A : Type} (b : bool) (x y : list ev -> option (A * list ev)) : isprog x -> isprog y -> isprog (fun q => if b then x q else y q).
Proof. intros X Y. destruct b; assumption. Defined.

Ltac pr := intros; cbv zeta; repeat (cbv beta; lazymatch goal with
  | |- isprog (fun q => sym _ _ q) => apply prog_sym
  | |- isprog (sym _ _) => apply prog_sym
  | |- isprog (fun q => lit _ q) => apply prog_lit
  | |- isprog (lit _) => apply prog_lit
  | |- isprog (fun q => Some (_, q)) => apply prog_done
  | |- isprog (fun q => None) => apply prog_fail
  | |- isprog (fun q => obind _ _) => apply prog_bind; intros
  | |- isprog (fun q => if _ then _ else _) => apply prog_if
  | |- isprog (fun q => let '(_, _) := ?a in _) => destruct a
  | |- isprog (fun q => match ?x with Some _ => _ | None => _ end) => destruct x
  end).
Definition prog_single u l : isprog (av1_single_ref u l).
Proof. unfold av1_single_ref. pr. Defined.
Definition prog_unidir u l : isprog (av1_unidir u l).
Proof. unfold av1_unidir. pr. Defined.
Definition prog_bidir u l : isprog (av1_bidir u l).
Proof. unfold av1_bidir. pr. Defined.
Definition prog_refs u l b sel : isprog (av1_ref_frames u l b sel).
Proof. unfold av1_ref_frames. pr; first [apply prog_single|apply prog_unidir|apply prog_bidir]. Defined.
Definition prog_mode ic x : isprog (av1_mode ic x).
Proof. unfold av1_mode. pr. Defined.
Definition prog_drl n : forall i num ctx, isprog (av1_drl n i num ctx).
Proof. induction n as [|n IH]; intros; cbn [av1_drl]; pr. apply IH. Defined.
Definition prog_index y num ctx : isprog (av1_index y num ctx).
Proof. unfold av1_index. pr; apply prog_drl. Defined.
Definition prog_mode_index ic x num : isprog (av1_mode_index ic x num).
Proof. unfold av1_mode_index. pr; [apply prog_mode|apply prog_index]. Defined.
Definition prog_bits ctx comp n : forall i, isprog (av1_bits ctx comp n i).
Proof. induction n as [|n IH]; intros i; cbn [av1_bits]; pr. apply IH. Defined.
Definition prog_component ctx comp int hp : isprog (av1_component ctx comp int hp).
Proof. unfold av1_component. pr; apply prog_bits. Defined.
Definition prog_mv ctx int hp pred : isprog (av1_mv ctx int hp pred).
Proof. unfold av1_mv. pr; apply prog_component. Defined.
Definition prog_list_mv m ctx int hp pred : isprog (av1_list_mv m ctx int hp pred).
Proof. unfold av1_list_mv. destruct m; first [apply prog_mv|apply prog_done]. Defined.
Definition prog_assign m0 m1 a b int hp : isprog (av1_assign_mv m0 m1 a b int hp).
Proof. unfold av1_assign_mv. pr; apply prog_list_mv. Defined.
Definition prog_segment ul u l max : isprog (av1_segment_id ul u l max).
Proof. unfold av1_segment_id. pr. Defined.
Definition prog_skip_cdef u l cdef bits : isprog (av1_skip_cdef u l cdef bits).
Proof. unfold av1_skip_cdef. pr. Defined.
Definition prog_intra_segment x skip : isprog (av1_intra_segment_id x skip).
Proof. unfold av1_intra_segment_id. pr. apply prog_segment. Defined.
Definition prog_read_skip x seg : isprog (av1_read_skip x seg).
Proof. unfold av1_read_skip. pr. Defined.
Definition prog_read_delta name path : isprog (av1_read_delta name path).
Proof. unfold av1_read_delta. pr. Defined.
Definition prog_read_lfs x n : forall i, isprog (av1_read_lfs x n i).
Proof. induction n as [|n IH]; intros i; cbn [av1_read_lfs]; pr; first [apply prog_read_delta|apply IH]. Defined.
Definition prog_intra_frame x : isprog (av1_intra_frame x).
Proof. unfold av1_intra_frame. pr; first [apply prog_intra_segment|apply prog_read_skip|apply prog_read_delta|apply prog_read_lfs]. Defined.
Definition prog_low n : isprog (low n).
Proof. unfold low. pr. Defined.
Definition prog_delta_of name path : isprog (av1_delta_of name path).
Proof. unfold av1_delta_of. pr; apply prog_low. Defined.
Definition prog_lf_deltas multi n : forall i, isprog (av1_lf_deltas multi n i).
Proof. induction n as [|n IH]; intros i; cbn [av1_lf_deltas]; pr; first [apply prog_delta_of|apply IH]. Defined.
Definition prog_deltas multi n : isprog (av1_deltas multi n).
Proof. unfold av1_deltas. pr; first [apply prog_delta_of|apply prog_lf_deltas]. Defined.
Definition prog_motion u l size select env lists y int hp : isprog (av1_motion u l size select env lists y int hp).
Proof. unfold av1_motion. pr; first [apply prog_refs|apply prog_mode_index|apply prog_list_mv]. Defined.
Definition prog_pair u l size select env lists y int hp : isprog (av1_pair_motion u l size select env lists y int hp).
Proof. unfold av1_pair_motion. pr; first [apply prog_refs|apply prog_mode_index|apply prog_assign]. Defined.
