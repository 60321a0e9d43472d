(** Proofs about transform type symbols. *)
From Coq Require Import ZArith List Bool Lia String.
From Verif Require Import Base BaseProofs BitsSpec UtilModel RangeCoderModel RangeCoderSpec SessionModel SessionSpec SegmentProofs BlockTables ContextModel ContextSpec ContextProofs ContextCoefProofs CdfTableSpec TxTypeSpec.
Import ListNotations.
Open Scope Z_scope.

Lemma symbols_set (is_inter : bool) set : 1 <= set <= (if is_inter then 3 else 2) ->
  NoDup (std_symbols is_inter set) /\ forall ty, In ty (std_symbols is_inter set) <-> In ty (spec_set_types is_inter set).
Proof.
  intros H. destruct is_inter.
  - assert (set = 1 \/ set = 2 \/ set = 3) as [->|[->| ->]] by lia; (split; [repeat (constructor; [cbn; lia|]); constructor|intros ty; cbn; lia]).
  - assert (set = 1 \/ set = 2) as [->| ->] by lia; (split; [repeat (constructor; [cbn; lia|]); constructor|intros ty; cbn; lia]).
Qed.

Lemma never_same (is_inter : bool) set ty : 1 <= set <= (if is_inter then 3 else 2) -> In ty (spec_set_types is_inter set) ->
  nth_error (std_symbols is_inter set) (Z.to_nat ty) <> Some ty.
Proof.
  intros H I. destruct is_inter.
  - assert (set = 1 \/ set = 2 \/ set = 3) as [->|[->| ->]] by lia; cbn in I; repeat (destruct I as [I|I]; [subst; vm_compute; congruence|]); destruct I.
  - assert (set = 1 \/ set = 2) as [->| ->] by lia; cbn in I; repeat (destruct I as [I|I]; [subst; vm_compute; congruence|]); destruct I.
Qed.

Lemma set_range t (i : bool) red : spec_tx_set t i red <> 0 -> 1 <= spec_tx_set t i red <= (if i then 3 else 2).
Proof. unfold spec_tx_set. destruct i; intros H; repeat match goal with |- context [if ?b then _ else _] => destruct b end; lia. Qed.

Lemma inter_written t red ty : 0 <= t < 19 -> spec_tx_set t true red <> 0 ->
  exists set name path, get_tx_set t true red = Ok set /\ encode_inter_tx_type ty t set = Ok (name, path, ty) /\
    In (name, [4]%nat, List.length (std_symbols true (spec_tx_set t true red))) cdf_shapes.
Proof.
  intros T. set (P := fun t => forallb (fun red => (spec_tx_set t true red =? 0) ||
    match get_tx_set t true red with Ok set =>
      match encode_inter_tx_type 0 t set with Ok (name, path, s) =>
        existsb (fun p => String.eqb (fst (fst p)) name && (Nat.eqb (nth 0 (snd (fst p)) 0%nat) 4) && (Nat.eqb (List.length (snd (fst p))) 1) && Nat.eqb (snd p) (List.length (std_symbols true (spec_tx_set t true red)))) cdf_shapes
      | _ => false end | _ => false end) [true; false]).
  assert (X : P t = true) by (apply (forall_below 19 P); [vm_compute; reflexivity|exact T]). unfold P in X. rewrite forallb_forall in X.
  specialize (X red ltac:(destruct red; cbn; tauto)). intros N. apply orb_prop in X. destruct X as [X|X]; [lia|].
  destruct (get_tx_set t true red) as [set| |] eqn:G; try discriminate X. unfold encode_inter_tx_type in *. destruct (idx tx_size_sqr t) as [sqr| |]; try discriminate X.
  cbn [bind] in *. exists set. do 2 eexists. split; [reflexivity|]. split; [reflexivity|].
  apply existsb_exists in X. destruct X as (((n, d), k) & I & X). cbn [fst snd] in X. rewrite !andb_true_iff in X. destruct X as (((A & B) & C) & D).
  apply String.eqb_eq in A. apply Nat.eqb_eq in B, C, D. destruct d as [|d0 [|? ?]]; try discriminate C. cbn [nth] in B. subst. exact I.
Qed.
Lemma intra_written t red ty use fm y : 0 <= t < 19 -> spec_tx_set t false red <> 0 -> (use = true -> 0 <= fm < 5) ->
  exists set name path, get_tx_set t false red = Ok set /\ encode_intra_tx_type ty set t use fm y = Ok (name, path, ty) /\
    In (name, [4; 13]%nat, List.length (std_symbols false (spec_tx_set t false red))) cdf_shapes.
Proof.
  intros T. set (P := fun t => forallb (fun red => (spec_tx_set t false red =? 0) ||
    match get_tx_set t false red with Ok set =>
      match encode_intra_tx_type 0 set t false 0 0 with Ok (name, path, s) =>
        existsb (fun p => String.eqb (fst (fst p)) name && (Nat.eqb (nth 0 (snd (fst p)) 0%nat) 4) && (Nat.eqb (nth 1 (snd (fst p)) 0%nat) 13) && (Nat.eqb (List.length (snd (fst p))) 2) && Nat.eqb (snd p) (List.length (std_symbols false (spec_tx_set t false red)))) cdf_shapes
      | _ => false end | _ => false end) [true; false]).
  assert (X : P t = true) by (apply (forall_below 19 P); [vm_compute; reflexivity|exact T]). unfold P in X. rewrite forallb_forall in X.
  specialize (X red ltac:(destruct red; cbn; tauto)). intros N F. apply orb_prop in X. destruct X as [X|X]; [lia|].
  destruct (get_tx_set t false red) as [set| |] eqn:G; try discriminate X. unfold encode_intra_tx_type in *. cbn [bind] in X. destruct (idx tx_size_sqr t) as [sqr| |]; try discriminate X.
  cbn [bind] in X.
  assert (D : exists dir, (if use then idx filter_intra_mode_to_intra_dir fm else Ok y) = Ok dir).
  { destruct use; [|eauto]. specialize (F eq_refl). assert (fm = 0 \/ fm = 1 \/ fm = 2 \/ fm = 3 \/ fm = 4) as [->|[->|[->|[->| ->]]]] by lia; eexists; reflexivity. }
  destruct D as [dir D]. exists set. do 2 eexists. split; [reflexivity|]. split.
  - rewrite D. reflexivity.
  - apply existsb_exists in X. destruct X as (((n, d), k) & I & X). cbn [fst snd] in X. rewrite !andb_true_iff in X. destruct X as ((((A & B) & B2) & C) & D2).
    apply String.eqb_eq in A. apply Nat.eqb_eq in B, B2, C, D2. destruct d as [|d0 [|d1 [|? ?]]]; try discriminate C. cbn [nth] in B, B2. subst. exact I.
Qed.

(** Whatever CDF of the alphabet is used, the type read is another one. *)
Lemma read_other (is_inter : bool) set ty cdf c d out sz tail : 1 <= set <= (if is_inter then 3 else 2) -> In ty (spec_set_types is_inter set) ->
  (Z.to_nat ty < List.length (std_symbols is_inter set))%nat -> valid_cdf (List.length (std_symbols is_inter set)) cdf ->
  0 <= bit_count c < 2 ^ 62 -> 0 <= sz < 2 ^ 28 -> is_bits tail ->
  exists c' t' D s d' t'' rest, encode_session c [cdf] out [OSym 0 (Z.to_nat ty)] = Ok (c', t', (out ++ D)%list) /\
    decode_session d [cdf] (D ++ tail)%list sz [SSym 0] = Ok ([OSym 0 s], d', t'', rest) /\
    exists ty', nth_error (std_symbols is_inter set) s = Some ty' /\ In ty' (spec_set_types is_inter set) /\ ty' <> ty.
Proof.
  intros S I L V C Z T.
  destruct (symbol_round_trip [List.length (std_symbols is_inter set)] [cdf] [(0%nat, Z.to_nat ty)] c d out sz tail) as (c' & t' & D & d' & used & rest & E & _ & _ & R); try assumption.
  - constructor; [exact V|constructor].
  - constructor; [|constructor]. eexists. split; [reflexivity|exact L].
  - cbn. lia.
  - exists c', t', D, (Z.to_nat ty), d', t', (rest ++ tail)%list. split; [exact E|]. split; [exact R|].
    destruct (nth_error (std_symbols is_inter set) (Z.to_nat ty)) as [ty'|] eqn:N; [|apply nth_error_None in N; lia].
    exists ty'. split; [reflexivity|]. split; [apply (proj2 (symbols_set is_inter set S)); eapply nth_error_In; exact N|].
    intros ->. exact (never_same _ _ _ S I N).
Qed.

(** A type beyond the alphabet stops the encoder. *)
Lemma beyond_panics N cdf c out s : valid_cdf N cdf -> (N + 2 <= s <= 1000)%nat -> encode_op c [cdf] out (OSym 0 s) = Panic.
Proof.
  intros (probs & cnt & -> & L & B & _) S. unfold encode_op. change (idx [(probs ++ [cnt])%list] (Z.of_nat 0)) with (Ok (probs ++ [cnt])%list). cbn [bind].
  unfold encode_symbol, encode_symbol_fuel, len. rewrite app_length. cbn [List.length]. rewrite chk_u64_ok by lia. cbn [bind].
  replace (0 <? Z.of_nat s) with true by lia. rewrite chk_i32_ok by lia. cbn [bind]. unfold idx at 1.
  destruct (Z.of_nat s - 1 <? 0) eqn:Q; [lia|]. replace (nth_error (probs ++ [cnt])%list (Z.to_nat (Z.of_nat s - 1))) with (@None Z); [reflexivity|].
  symmetry. apply nth_error_None. rewrite app_length. cbn [List.length]. lia.
Qed.
Lemma none_far (is_inter : bool) set ty : 1 <= set <= (if is_inter then 3 else 2) -> In ty (spec_set_types is_inter set) ->
  (Z.to_nat ty < List.length (std_symbols is_inter set))%nat \/ (List.length (std_symbols is_inter set) + 2 <= Z.to_nat ty <= 1000)%nat.
Proof.
  intros H I. destruct is_inter.
  - assert (set = 1 \/ set = 2 \/ set = 3) as [->|[->| ->]] by lia; cbn in I; repeat (destruct I as [I|I]; [subst; cbn; lia|]); destruct I.
  - assert (set = 1 \/ set = 2) as [->| ->] by lia; cbn in I; repeat (destruct I as [I|I]; [subst; cbn; lia|]); destruct I.
Qed.
Lemma outcome_beyond N cdf c out s : valid_cdf N cdf -> (N + 2 <= s <= 1000)%nat -> encode_session c [cdf] out [OSym 0 s] = Panic.
Proof. intros V S. unfold encode_session, encode_ops. rewrite (beyond_panics N cdf _ _ s V S). reflexivity. Qed.
Lemma identity_panics (is_inter : bool) set cdf c out : 1 <= set <= (if is_inter then 3 else 2) -> ~ (is_inter = true /\ set <= 2) ->
  valid_cdf (List.length (std_symbols is_inter set)) cdf -> In 9 (spec_set_types is_inter set) /\ encode_op c [cdf] out (OSym 0 9) = Panic.
Proof.
  intros S N V. destruct is_inter.
  - assert (set = 3) as -> by lia. split; [cbn; tauto|]. apply (beyond_panics _ _ _ _ _ V). cbn. lia.
  - assert (set = 1 \/ set = 2) as [->| ->] by lia; (split; [cbn; tauto|]; apply (beyond_panics _ _ _ _ _ V); cbn; lia).
Qed.
