(** Proofs about the inter mode and the index in the candidate list (ModeInfoModel). *)
From Coq Require Import String ZArith List Bool Lia ZifyBool.
From Verif Require Import Base BaseProofs BlockTables SeqSpec ElementModel ElementSpec ContextModel ContextSpec ContextProofs MvStackModel
  ModeInfoModel ModeInfoSpec ModeInfoProofs.
Import ListNotations.
Open Scope string_scope.
Open Scope list_scope.
Open Scope Z_scope.
Ltac Zify.zify_post_hook ::= Z.div_mod_to_equations.

(** What the three classes of modes write: [from] is 0 or 1. *)
Definition drl_ds (from : nat) (num : Z) (drl ctx : list Z) : list ev :=
  let e i := ESym "drl_mode" [nth i ctx 0] (nth i drl 0) in
  if Z.of_nat from + 1 <? num then
    e from :: if (nth from drl 0 =? 0) || (num <=? Z.of_nat from + 2) then [] else [e (S from)]
  else [].
Definition drl_i (from : nat) (num : Z) (drl : list Z) : Z :=
  if Z.of_nat from + 1 <? num then
    if nth from drl 0 =? 0 then Z.of_nat from
    else if num <=? Z.of_nat from + 2 then Z.of_nat from + 1
    else if nth (S from) drl 0 =? 0 then Z.of_nat from + 1 else Z.of_nat from + 2
  else Z.of_nat from.

Lemma idx_nth : forall l i, (i < List.length l)%nat -> idx l (Z.of_nat i) = Ok (nth i l 0).
Proof.
  intros l i H. unfold idx. destruct (Z.ltb_spec (Z.of_nat i) 0); [lia|]. rewrite Nat2Z.id.
  destruct (nth_error l i) eqn:E; [|apply nth_error_None in E; lia]. rewrite (nth_error_nth _ _ 0 E). reflexivity.
Qed.

Lemma emit_drl : forall d i ctx es, (i < List.length ctx)%nat ->
  emit (encode_drl_mode d (Z.of_nat i) ctx) es = Ok (es ++ [ESym "drl_mode" [nth i ctx 0] d]).
Proof. intros d i ctx es H. unfold encode_drl_mode. rewrite idx_nth by exact H. reflexivity. Qed.

Lemma drl_loop_ok : forall from num drl ctx es, (from <= 1)%nat -> (3 <= List.length drl)%nat -> (3 <= List.length ctx)%nat ->
  drl_loop [Z.of_nat from; Z.of_nat (S from)] num drl ctx (Z.of_nat from) es = Ok (es ++ drl_ds from num drl ctx, drl_i from num drl).
Proof.
  intros from num drl ctx es H D C. cbn [drl_loop]. unfold drl_ds, drl_i.
  destruct (Z.ltb_spec (Z.of_nat from + 1) num) as [N|N].
  - rewrite idx_nth by lia. cbn [bind]. rewrite emit_drl by lia. cbn [bind].
    destruct (nth from drl 0 =? 0); [reflexivity|]. cbn [orb].
    destruct (Z.ltb_spec (Z.of_nat (S from) + 1) num) as [N2|N2].
    + rewrite idx_nth by lia. cbn [bind]. rewrite emit_drl by lia. cbn [bind].
      destruct (Z.leb_spec num (Z.of_nat from + 2)); [lia|]. rewrite <- app_assoc. cbn [app].
      destruct (nth (S from) drl 0 =? 0); do 2 f_equal; lia.
    + destruct (Z.leb_spec num (Z.of_nat from + 2)); [reflexivity|lia].
  - destruct (Z.ltb_spec (Z.of_nat (S from) + 1) num); [lia|]. rewrite app_nil_r. reflexivity.
Qed.

Definition class_of (y : Z) : Z := if both_new y then 2 else if has_near y then 1 else 0.
Definition index_ds (k num : Z) (drl ctx : list Z) : list ev :=
  if k =? 2 then drl_ds 0 num drl ctx else if k =? 1 then drl_ds 1 num drl ctx else [].
Definition index_i (k num : Z) (drl : list Z) : Z := if k =? 2 then drl_i 0 num drl else if k =? 1 then drl_i 1 num drl else 0.

Lemma class_new : forall y, (y =? NEWMV) || (y =? NEW_NEWMV) = both_new y.
Proof. reflexivity. Qed.
Lemma class_near : forall y, has_nearmv y = has_near y.
Proof. reflexivity. Qed.
Lemma mv_index_ok : forall y num drl ctx es, (3 <= List.length drl)%nat -> (3 <= List.length ctx)%nat ->
  mv_index y num drl ctx es = Ok (es ++ index_ds (class_of y) num drl ctx, index_i (class_of y) num drl).
Proof.
  intros y num drl ctx es D C. unfold mv_index, class_of. rewrite class_new, class_near.
  destruct (both_new y); [apply (drl_loop_ok 0); lia|]. destruct (has_near y); [apply (drl_loop_ok 1); lia|].
  cbn. rewrite app_nil_r. reflexivity.
Qed.

(** Reading with other contexts. The positions used are [index_used]. *)
Definition drl_used (from : nat) (num : Z) (drl : list Z) : list nat :=
  if Z.of_nat from + 1 <? num then from :: if (nth from drl 0 =? 0) || (num <=? Z.of_nat from + 2) then [] else [S from] else [].
Definition index_used (y num : Z) (drl : list Z) : list nat :=
  if both_new y then drl_used 0 num drl else if has_near y then drl_used 1 num drl else [].

Lemma drl_read : forall from num drl ctx ctx' k, (from <= 1)%nat ->
  ((forall i, In i (drl_used from num drl) -> nth i ctx' 0 = nth i ctx 0) ->
    av1_drl 2 (Z.of_nat from) num ctx' (drl_ds from num drl ctx ++ k) = Some (drl_i from num drl, k)) /\
  ((exists i, In i (drl_used from num drl) /\ nth i ctx' 0 <> nth i ctx 0) ->
    av1_drl 2 (Z.of_nat from) num ctx' (drl_ds from num drl ctx ++ k) = None).
Proof.
  intros from num drl ctx ctx' k H. unfold drl_used, drl_ds, drl_i. cbn [av1_drl].
  destruct (Z.ltb_spec (Z.of_nat from + 1) num) as [N|N]; [|split; [reflexivity|intros (i & [] & _)]].
  rewrite Nat2Z.id. replace (Z.to_nat (Z.of_nat from + 1)) with (S from) by lia.
  destruct (nth from drl 0 =? 0) eqn:D.
  - cbn [orb app]. split.
    + intros A. rewrite (A from) by (left; reflexivity). rewrite sym_hit. cbn [obind]. rewrite D. reflexivity.
    + intros (i & [<-|[]] & X). rewrite sym_path by congruence. reflexivity.
  - cbn [orb]. destruct (Z.leb_spec num (Z.of_nat from + 2)) as [L|L]; cbn [app].
    + split.
      * intros A. rewrite (A from) by (left; reflexivity). rewrite sym_hit. cbn [obind]. rewrite D.
        destruct (Z.ltb_spec (Z.of_nat from + 1 + 1) num); [lia|]. reflexivity.
      * intros (i & [<-|[]] & X). rewrite sym_path by congruence. reflexivity.
    + destruct (Z.ltb_spec (Z.of_nat from + 1 + 1) num); [|lia]. split.
      * intros A. rewrite (A from) by (left; reflexivity). rewrite sym_hit. cbn [obind]. rewrite D.
        rewrite (A (S from)) by (right; left; reflexivity). rewrite sym_hit. cbn [obind].
        destruct (nth (S from) drl 0 =? 0); do 2 f_equal; lia.
      * intros (i & [<-|[<-|[]]] & X); [rewrite sym_path by congruence; reflexivity|].
        destruct (Z.eq_dec (nth from ctx' 0) (nth from ctx 0)) as [->|Y]; [|rewrite sym_path by congruence; reflexivity].
        rewrite sym_hit. cbn [obind]. rewrite D. rewrite sym_path by congruence. reflexivity.
Qed.

Lemma index_read : forall y num drl ctx ctx' k,
  ((forall i, In i (index_used y num drl) -> nth i ctx' 0 = nth i ctx 0) ->
    av1_index y num ctx' (index_ds (class_of y) num drl ctx ++ k) = Some (index_i (class_of y) num drl, k)) /\
  ((exists i, In i (index_used y num drl) /\ nth i ctx' 0 <> nth i ctx 0) ->
    av1_index y num ctx' (index_ds (class_of y) num drl ctx ++ k) = None).
Proof.
  intros y num drl ctx ctx' k. unfold index_used, av1_index, class_of, index_ds, index_i.
  destruct (both_new y); [exact (drl_read 0 num drl ctx ctx' k ltac:(lia))|].
  destruct (has_near y); [exact (drl_read 1 num drl ctx ctx' k ltac:(lia))|].
  split; [reflexivity|intros (i & [] & _)].
Qed.

(** ** One reference *)

Definition mode_of_flags (new_mv zero_mv ref_mv : bool) : imode :=
  if negb new_mv then New else if negb zero_mv then Global else if ref_mv then Near else Nearest.
(** The contexts in use are the right ones. *)
Definition mode_contexts (m : imode) (num : Z) (drl : list Z) (x y : mode_ctx) : Prop :=
  c_new x = c_new y /\ (m <> New -> c_zero x = c_zero y) /\ (m = Nearest \/ m = Near -> c_ref x = c_ref y) /\
  (forall i, In i (index_used (single_mode m) num drl) -> nth i (c_drl x) 0 = nth i (c_drl y) 0).

Lemma used_dec : forall l (a b : list Z),
  (forall i, In i l -> nth i a 0 = nth i b 0) \/ (exists i : nat, In i l /\ nth i a 0 <> nth i b 0).
Proof.
  induction l as [|j l IH]; intros a b; [left; intros i []|].
  destruct (Z.eq_dec (nth j a 0) (nth j b 0)) as [E|E].
  - destruct (IH a b) as [H|(i & Hi & X)]; [left; intros i [<-|Hi]; [exact E|exact (H i Hi)]|right; exists i; split; [right; exact Hi|exact X]].
  - right. exists j. split; [left; reflexivity|exact E].
Qed.

Lemma one_mode_exactly : forall pm (new_mv zero_mv ref_mv : bool) (x y : mode_ctx) stale num drl es,
  (3 <= List.length drl)%nat -> (3 <= List.length (c_drl x))%nat ->
  let m := mode_of_flags new_mv zero_mv ref_mv in
  exists es1 ds i, inter_mode false pm new_mv zero_mv ref_mv (c_ref x) (c_new x) (c_zero x) stale es = Ok (es1, single_mode m) /\
    mv_index (single_mode m) num drl (c_drl x) es1 = Ok (es ++ ds, i) /\
    (mode_contexts m num drl y x -> reads_as ds (av1_mode_index false y num) (single_mode m, i)) /\
    (~ mode_contexts m num drl y x -> never_reads_as ds (av1_mode_index false y num) (single_mode m, i)).
Proof.
  intros pm new_mv zero_mv ref_mv x y stale num drl es D C m. unfold reads_as, never_reads_as, av1_mode_index, av1_mode, mode_contexts.
  unfold inter_mode, encode_new_mv, encode_zero_mv, encode_ref_mv, emit. cbn [bind].
  set (M := single_mode m). assert (IR := index_read M num drl (c_drl x) (c_drl y)).
  destruct (used_dec (index_used M num drl) (c_drl y) (c_drl x)) as [U|U].
  2: { destruct new_mv, zero_mv, ref_mv; cbn [negb bind b2z]; subst M m; cbn [mode_of_flags negb] in *;
       (eexists; eexists; eexists; split; [reflexivity|]; split; [rewrite mv_index_ok by assumption; flat; reflexivity|]);
       (split; [intros (_ & _ & _ & Q); exfalso; destruct U as (i & Hi & X); exact (X (Q i Hi))|]); intros _ k; cbn [app];
       repeat (match goal with |- context [sym ?n [?a] (ESym ?n [?b] _ :: _)] =>
          destruct (Z.eq_dec a b) as [->|]; [rewrite sym_hit; cbn [obind Z.eqb Pos.eqb pick]|rewrite sym_path by congruence; discriminate] end);
       (rewrite (proj2 (IR _) U); discriminate). }
  destruct new_mv, zero_mv, ref_mv; cbn [negb bind b2z]; subst M m; cbn [mode_of_flags negb] in *;
    (eexists; eexists; eexists; split; [reflexivity|]; split; [rewrite mv_index_ok by assumption; flat; reflexivity|]);
    (split; [intros (Qn & Qz & Qr & _) k; cbn [app];
       rewrite ?Qn, ?Qz, ?Qr by (first [tauto|discriminate]); hit; rewrite (proj1 (IR _) U); reflexivity|]); intros NQ k; cbn [app];
    repeat (match goal with |- context [sym ?n [?a] (ESym ?n [?b] _ :: _)] =>
      destruct (Z.eq_dec a b); [|rewrite sym_path by congruence; discriminate];
      match goal with E : a = b |- _ => rewrite E at 1 end; rewrite sym_hit; cbn [obind Z.eqb Pos.eqb pick] end);
    exfalso; apply NQ; (split; [assumption|]); (split; [intros; first [assumption|congruence]|]); (split; [intros [|]; first [assumption|discriminate]|exact U]).
Qed.

(** ** Two references *)

(** Blocks with two references: the mode is read, but the index is written for the
    mode of an earlier block, [stale]. *)
Definition stale_ok (stale mode num : Z) : Prop :=
  class_of stale = class_of mode \/ num <= 1 /\ class_of stale <> 1 /\ class_of mode <> 1.
Lemma class_cases : forall y, class_of y = 0 /\ both_new y = false /\ has_near y = false \/
  class_of y = 1 /\ both_new y = false /\ has_near y = true \/ class_of y = 2 /\ both_new y = true.
Proof. intros y. unfold class_of. destruct (both_new y), (has_near y); tauto. Qed.

Lemma compound_ctx : forall r n, 0 <= r < 6 -> 0 <= n < 6 ->
  forall s, encode_compound_mode s r n = Ok ("compound_mode", [spec_compound_mode r n], s).
Proof.
  intros r n R N s.
  assert (Hr : In r (map Z.of_nat (seq 0 6))) by (apply below; exact R).
  assert (Hn : In n (map Z.of_nat (seq 0 6))) by (apply below; exact N).
  cbn in Hr, Hn. decompose [or] Hr; decompose [or] Hn; try contradiction; subst; reflexivity.
Qed.

Ltac asks := repeat (match goal with
  | |- context [sym ?n [?a] (ESym ?n [?b] ?s :: ?q)] =>
      destruct (Z.eq_dec a b) as [->|]; [rewrite (sym_hit n [b] s q)|rewrite (sym_path n [a] [b] s q) by congruence]
  end; cbn [obind]).

Lemma drl_len : forall n i num ctx q v r, av1_drl n i num ctx q = Some (v, r) -> (List.length r <= List.length q)%nat /\ i <= v.
Proof.
  induction n as [|n IH]; intros i num ctx q v r; cbn [av1_drl].
  - intros H. injection H as <- <-. lia.
  - destruct (i + 1 <? num); [|intros H; injection H as <- <-; lia].
    destruct (sym _ _ q) as [[d q']|] eqn:E; [|discriminate]. cbn [obind]. apply sym_len in E.
    destruct (d =? 0); [intros H; injection H as <- <-; lia|]. intros H. apply IH in H. lia.
Qed.

Ltac ask_one := match goal with |- context [sym ?n [?a] (ESym ?n [?b] ?s :: ?q)] =>
  destruct (Z.eq_dec a b) as [E|E];
  [replace (sym n [a] (ESym n [b] s :: q)) with (Some (s, q)) by (rewrite E, sym_hit; reflexivity); clear E
  |rewrite (sym_path n [a] [b] s q) by congruence; discriminate] end.
Ltac fin H := first [discriminate H | injection H; intros; subst; lia].
Lemma stale_wrong : forall stale mode num drl ctx k, ~ stale_ok stale mode num ->
  av1_index mode num ctx (index_ds (class_of stale) num drl ctx ++ k) <> Some (index_i (class_of stale) num drl, k).
Proof.
  intros stale mode num drl ctx k NS H. unfold stale_ok in NS. unfold av1_index in H.
  destruct (class_cases stale) as [(CS & _ & _)|[(CS & _ & _)|(CS & _)]]; rewrite CS in H, NS; clear CS;
  destruct (class_cases mode) as [(CM & B & N)|[(CM & B & N)|(CM & B)]]; rewrite CM in NS; clear CM; try (exfalso; apply NS; left; reflexivity);
  rewrite B in H; try rewrite N in H; unfold index_ds, index_i in H; cbn [Z.eqb Pos.eqb app] in H.
  - apply drl_len in H. lia.
  - cbn [av1_drl] in H. destruct (Z.ltb_spec (0 + 1) num); [|exfalso; apply NS; right; lia].
    destruct (sym _ _ k) as [[d q]|] eqn:E; [|discriminate]. cbn [obind] in H. apply sym_len in E.
    destruct (d =? 0); [fin H|].
    destruct (0 + 1 + 1 <? num); [|fin H].
    destruct (sym _ _ q) as [[d' q']|] eqn:E'; [|discriminate]. cbn [obind] in H. apply sym_len in E'.
    destruct (d' =? 0); fin H.
  - injection H as X _. unfold drl_i in X. destruct (Z.of_nat 1 + 1 <? num), (nth 1 drl 0 =? 0), (num <=? Z.of_nat 1 + 2), (nth 2 drl 0 =? 0); cbn in X; lia.
  - unfold drl_ds, drl_i in H. cbn [av1_drl] in H.
    change (Z.of_nat 1) with 1 in H.
    destruct (Z.ltb_spec (1 + 1) num) as [L|L].
    + destruct (Z.ltb_spec (0 + 1) num); [|lia]. cbn [app] in H. revert H.
      change (Z.to_nat 0) with 0%nat. ask_one.
      cbn [obind]. destruct (nth 1 drl 0 =? 0) eqn:D; [intros X; fin X|].
      destruct (Z.ltb_spec (0 + 1 + 1) num); [|lia]. cbn [orb].
      destruct (Z.leb_spec num (1 + 2)) as [L2|L2]; cbn [app].
      * destruct (sym _ _ k) as [[d q]|] eqn:Es; [|discriminate]. cbn [obind]. apply sym_len in Es.
        destruct (d =? 0); intros X; fin X.
      * change (Z.to_nat (0 + 1)) with 1%nat.
        ask_one.
        cbn [obind]. destruct (nth 2 drl 0 =? 0); intros X; fin X.
    + destruct (Z.ltb_spec (0 + 1) num) as [L1|L1].
      * destruct (sym _ _ ([] ++ k)) as [[d q]|] eqn:E; [|discriminate]. cbn [obind app] in *. apply sym_len in E.
        destruct (d =? 0); [fin H|]. destruct (Z.ltb_spec (0 + 1 + 1) num); [lia|]. fin H.
      * fin H.
  - unfold drl_ds, drl_i in H. change (Z.of_nat 0) with 0 in H.
    destruct (Z.ltb_spec (0 + 1) num) as [L|L]; [|exfalso; apply NS; right; lia]. cbn [app] in H.
    injection H as _ X. symmetry in X. destruct (_ || _) in X; cbn [app] in X.
    + exact (longer _ [] _ _ (eq_sym X)).
    + exact (longer _ [_] _ _ (eq_sym X)).
  - unfold drl_ds, drl_i in H. cbn [av1_drl] in H. change (Z.of_nat 0) with 0 in H.
    destruct (Z.ltb_spec (0 + 1) num) as [L|L].
    + destruct (Z.ltb_spec (1 + 1) num) as [L2|L2]; cbn [app] in H.
      2: { injection H as X Y. exact (longer _ _ _ _ Y). }
      revert H. change (Z.to_nat 1) with 1%nat.
      ask_one.
      cbn [obind]. destruct (nth 0 drl 0 =? 0) eqn:D; [intros X; fin X|]. cbn [orb].
      destruct (Z.leb_spec num (0 + 2)) as [L3|L3]; [lia|]. cbn [app].
      destruct (Z.ltb_spec (1 + 1 + 1) num) as [L4|L4].
      * change (Z.to_nat (1 + 1)) with 2%nat.
        ask_one.
        cbn [obind]. destruct (nth 1 drl 0 =? 0); intros X; fin X.
      * intros X. injection X as X Y. exact (longer _ [] _ _ Y).
    + destruct (Z.ltb_spec (1 + 1) num); [lia|]. fin H.
Qed.

Lemma two_modes_exactly : forall mode (new_mv zero_mv ref_mv : bool) (x : mode_ctx) stale num drl es,
  18 <= mode <= 25 -> 0 <= c_ref x < 6 -> 0 <= c_new x < 6 -> (3 <= List.length drl)%nat -> (3 <= List.length (c_drl x))%nat ->
  exists es1 ds i, inter_mode true mode new_mv zero_mv ref_mv (c_ref x) (c_new x) (c_zero x) stale es = Ok (es1, stale) /\
    mv_index stale num drl (c_drl x) es1 = Ok (es ++ ds, i) /\
    (stale_ok stale mode num -> reads_as ds (av1_mode_index true x num) (mode, i)) /\
    (~ stale_ok stale mode num -> never_reads_as ds (av1_mode_index true x num) (mode, i)).
Proof.
  intros mode new_mv zero_mv ref_mv x stale num drl es M R N D C.
  unfold inter_mode, reads_as, never_reads_as, av1_mode_index, av1_mode, NEAREST_NEARESTMV.
  rewrite chk_u64_ok by lia. cbn [bind]. rewrite (emit_ok _ _ _ _ es (compound_ctx _ _ R N _)). cbn [bind].
  eexists. eexists. eexists. split; [reflexivity|]. split; [rewrite mv_index_ok by assumption; flat; reflexivity|].
  split; intros S k; cbn [app]; rewrite sym_hit; cbn [obind]; replace (18 + (mode - 18)) with mode by lia.
  - destruct S as [S|(S1 & S2 & S3)].
    + rewrite S. rewrite (proj1 (index_read mode num drl (c_drl x) (c_drl x) k)) by reflexivity. reflexivity.
    + assert (E : forall cl, cl <> 1 -> index_ds cl num drl (c_drl x) = [] /\ index_i cl num drl = 0).
      { intros cl Hc. unfold index_ds, index_i, drl_ds, drl_i. cbn [Z.of_nat]. destruct (Z.ltb_spec (0 + 1) num); [lia|].
        destruct (cl =? 2); [split; reflexivity|]. destruct (Z.eqb_spec cl 1); [congruence|split; reflexivity]. }
      destruct (E _ S2) as [-> ->]. cbn [app]. unfold av1_index.
      destruct (class_cases mode) as [(_ & -> & ->)|[(X & _)|(_ & ->)]]; [reflexivity|contradiction|].
      cbn [av1_drl]. destruct (Z.ltb_spec (0 + 1) num); [lia|reflexivity].
  - intros H. destruct (av1_index mode num (c_drl x) _) as [[i q]|] eqn:E in H; [|discriminate]. cbn [obind] in H. injection H as -> ->.
    exact (stale_wrong stale mode num drl (c_drl x) k S E).
Qed.
