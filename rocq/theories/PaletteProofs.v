(** Proofs for the colours of a palette block. *)
From Coq Require Import String ZArith List Bool Lia ZifyBool ZifyNat Permutation.
From Verif Require Import BitsSpec Base TableLemmas RangeCoderModel CdfTableSpec ContextModel ContextSpec ContextCallSpec ContextProofs ContextWriterProofs PropertiesContext PaletteSpec.
Import ListNotations.
Open Scope string_scope.
Open Scope list_scope.
Open Scope Z_scope.

Definition inside (w h : Z) (p : Z * Z) : Prop := 0 <= fst p < h /\ 0 <= snd p < w.

Lemma in_between : forall lo hi x, In x (between lo hi) <-> lo <= x <= hi.
Proof.
  intros lo hi x. unfold between. rewrite in_map_iff. split.
  - intros (k & <- & K). apply in_seq in K. lia.
  - intros H. exists (Z.to_nat (x - lo)). split; [lia|]. apply in_seq. lia.
Qed.
Lemma between_length : forall lo hi, List.length (between lo hi) = Z.to_nat (hi - lo + 1).
Proof. intros. unfold between. now rewrite map_length, seq_length. Qed.
Lemma between_cons : forall lo hi, lo <= hi -> between lo hi = lo :: between (lo + 1) hi.
Proof.
  intros lo hi H. unfold between. replace (Z.to_nat (hi - lo + 1)) with (S (Z.to_nat (hi - (lo + 1) + 1))) by lia.
  cbn [seq map]. f_equal; [lia|]. rewrite <- seq_shift, map_map. apply map_ext. intros a. lia.
Qed.

(** ** The order of the positions *)
Lemma in_diagonal : forall w h i r c, In (r, c) (diagonal w h i) <-> r + c = i /\ 0 <= c < w /\ 0 <= r < h.
Proof.
  intros w h i r c. unfold diagonal. rewrite in_map_iff. split.
  - intros (j & E & J). injection E as <- <-. rewrite <- in_rev, in_between in J. lia.
  - intros (E & C & R). exists c. split; [f_equal; lia|]. rewrite <- in_rev, in_between. lia.
Qed.
Lemma in_wave : forall w h r c, In (r, c) (wave w h) <-> 0 <= r < h /\ 0 <= c < w /\ (r, c) <> (0, 0).
Proof.
  intros w h r c. unfold wave. rewrite in_flat_map. split.
  - intros (i & I & D). rewrite in_between in I. rewrite in_diagonal in D. repeat split; try lia. intros E. injection E as -> ->. lia.
  - intros (R & C & N). exists (r + c). rewrite in_between, in_diagonal.
    assert (r <> 0 \/ c <> 0) by (destruct (Z.eq_dec r 0) as [->|]; [|tauto]; destruct (Z.eq_dec c 0) as [->|]; [congruence|tauto]). lia.
Qed.
Lemma diagonal_length : forall w h i, 1 <= w -> 1 <= h -> Z.of_nat (List.length (diagonal w h i)) <= w.
Proof. intros. unfold diagonal. rewrite map_length, rev_length, between_length. lia. Qed.
Lemma flat_length : forall w h l, 1 <= w -> 1 <= h -> Z.of_nat (List.length (flat_map (diagonal w h) l)) <= w * Z.of_nat (List.length l).
Proof.
  intros w h l W H. induction l as [|i l IH]; [cbn; lia|]. cbn [flat_map List.length]. rewrite app_length.
  pose proof (diagonal_length w h i W H). lia.
Qed.
Lemma wave_length : forall w h, 1 <= w <= 4096 -> 1 <= h <= 4096 -> Z.of_nat (List.length (wave w h)) <= 2 ^ 26.
Proof.
  intros w h W H. unfold wave. pose proof (flat_length w h (between 1 (w + h - 2)) ltac:(lia) ltac:(lia)) as L. rewrite between_length in L.
  change (2 ^ 26) with 67108864. nia.
Qed.

Lemma diagonal_once : forall w h i, NoDup (diagonal w h i).
Proof.
  intros w h i. unfold diagonal. apply FinFun.Injective_map_NoDup.
  - intros a b E. now injection E.
  - apply NoDup_rev. unfold between. apply FinFun.Injective_map_NoDup; [intros a b E; lia|apply seq_NoDup].
Qed.
Lemma nodup_app : forall (A : Type) (a b : list A), NoDup a -> NoDup b -> (forall x, In x a -> ~ In x b) -> NoDup (a ++ b).
Proof.
  intros A a b Ha Hb D. induction Ha as [|x a X Ha IH]; [exact Hb|]. cbn [app]. constructor.
  - rewrite in_app_iff. intros [I|I]; [exact (X I)|]. apply (D x); [left; reflexivity|exact I].
  - apply IH. intros y Y. apply D. right. exact Y.
Qed.
Lemma diagonals_once : forall w h k i, NoDup (flat_map (diagonal w h) (between i (i + Z.of_nat k - 1))).
Proof.
  intros w h. induction k as [|k IH]; intros i.
  - unfold between. replace (Z.to_nat _) with 0%nat by lia. constructor.
  - rewrite between_cons by lia. cbn [flat_map]. apply nodup_app; [apply diagonal_once| |].
    + replace (i + Z.of_nat (S k) - 1) with ((i + 1) + Z.of_nat k - 1) by lia. apply IH.
    + intros (r, c) D F. rewrite in_diagonal in D. apply in_flat_map in F. destruct F as (j & J & F). rewrite in_between in J. rewrite in_diagonal in F. lia.
Qed.
Lemma wave_once : forall w h, 1 <= w -> 1 <= h -> NoDup (wave w h).
Proof.
  intros w h W H. unfold wave. replace (w + h - 2) with (1 + Z.of_nat (Z.to_nat (w + h - 2)) - 1) by lia. apply diagonals_once.
Qed.

(** Positions are visited after their neighbours. *)
Definition needed (p : Z * Z) (x : Z * Z) : Prop :=
  let '(r, c) := p in (0 < c /\ x = (r, c - 1)) \/ (0 < r /\ 0 < c /\ x = (r - 1, c - 1)) \/ (0 < r /\ x = (r - 1, c)).
Fixpoint ready (seen : Z * Z -> Prop) (ps : list (Z * Z)) : Prop :=
  match ps with
  | [] => True
  | p :: ps => (forall x, needed p x -> seen x) /\ ready (fun x => seen x \/ x = p) ps
  end.
Lemma ready_mono : forall ps (s t : Z * Z -> Prop), (forall x, s x -> t x) -> ready s ps -> ready t ps.
Proof.
  induction ps as [|p ps IH]; intros s t I R; [exact Logic.I|]. destruct R as (A & B). split; [intros x X; auto|].
  eapply IH; [|exact B]. intros x [X|X]; auto.
Qed.
Lemma ready_app : forall a b (s : Z * Z -> Prop), (forall p x, In p a -> needed p x -> s x) -> ready (fun x => s x \/ In x a) b -> ready s (a ++ b).
Proof.
  induction a as [|p a IH]; intros b s N R; cbn [app].
  - eapply ready_mono; [|exact R]. intros x [X|X]; [exact X|destruct X].
  - split; [intros x X; apply (N p x); [left; reflexivity|exact X]|]. apply IH.
    + intros p' x P X. left. apply (N p' x); [right; exact P|exact X].
    + eapply ready_mono; [|exact R]. intros x [X|[X|X]]; auto.
Qed.
Lemma ready_diagonals : forall w h k i, 
  ready (fun x => inside w h x /\ fst x + snd x < i) (flat_map (diagonal w h) (between i (i + Z.of_nat k - 1))).
Proof.
  intros w h. induction k as [|k IH]; intros i.
  - unfold between. replace (Z.to_nat _) with 0%nat by lia. exact I.
  - rewrite between_cons by lia. cbn [flat_map]. apply ready_app.
    + intros (r, c) x D N. rewrite in_diagonal in D. cbn [needed] in N. unfold inside.
      destruct N as [(A & ->)|[(A & B & ->)|(A & ->)]]; cbn [fst snd]; lia.
    + replace (i + Z.of_nat (S k) - 1) with ((i + 1) + Z.of_nat k - 1) by lia. eapply ready_mono; [|apply IH].
      intros (r, c) (In_ & L). cbn [fst snd] in *. destruct (Z.eq_dec (r + c) i) as [E|E].
      * right. rewrite in_diagonal. unfold inside in In_. cbn [fst snd] in In_. tauto.
      * left. split; [exact In_|]. lia.
Qed.
Lemma wave_ready : forall w h, 1 <= w -> 1 <= h -> ready (fun x => x = (0, 0)) (wave w h).
Proof.
  intros w h W H. unfold wave. replace (w + h - 2) with (1 + Z.of_nat (Z.to_nat (w + h - 2)) - 1) by lia.
  eapply ready_mono; [|apply ready_diagonals]. intros (r, c) (A & B). unfold inside in A. cbn [fst snd] in *. f_equal; lia.
Qed.

(** ** The order of the colours *)
Lemma best_perm : forall l x b r, best x l = (b, r) -> Permutation (x :: l) (b :: r).
Proof.
  induction l as [|y l IH]; intros x b r E; cbn [best] in E; [injection E as <- <-; reflexivity|].
  destruct (best y l) as (b', r') eqn:B. specialize (IH y b' r' B). destruct (fst x <? fst b').
  - injection E as <- <-. rewrite IH. apply perm_swap.
  - injection E as <- <-. reflexivity.
Qed.
Lemma arranged_perm : forall k l, Permutation l (arranged k l).
Proof.
  induction k as [|k IH]; intros l; [destruct l; reflexivity|]. destruct l as [|x l]; [reflexivity|]. cbn [arranged].
  destruct (best x l) as (b, r) eqn:B. rewrite (best_perm l x b r B). constructor. apply IH.
Qed.
Lemma order_perm : forall n ns, Permutation (between 0 (n - 1)) (colour_order n ns).
Proof.
  intros n ns. unfold colour_order, ranking. rewrite <- (arranged_perm 3). rewrite map_map. cbn [snd]. now rewrite map_id.
Qed.
Lemma place_found : forall k l, In k l -> 0 <= place k l < Z.of_nat (List.length l) /\ nth_error l (Z.to_nat (place k l)) = Some k.
Proof.
  intros k l. induction l as [|x l IH]; intros I; [destruct I|]. cbn [place List.length]. destruct (x =? k) eqn:E.
  - split; [lia|]. replace x with k by lia. reflexivity.
  - destruct I as [I|I]; [lia|]. destruct (IH I) as (A & B). split; [lia|].
    replace (Z.to_nat (1 + place k l)) with (S (Z.to_nat (place k l))) by lia. exact B.
Qed.
Lemma place_ok : forall k n ns, 0 <= k < n -> 0 <= place k (colour_order n ns) < n /\ nth_error (colour_order n ns) (Z.to_nat (place k (colour_order n ns))) = Some k.
Proof.
  intros k n ns K. destruct (place_found k (colour_order n ns)) as (A & B).
  - eapply Permutation_in; [apply order_perm|]. rewrite in_between. lia.
  - rewrite <- (Permutation_length (order_perm n ns)), between_length in A. split; [lia|exact B].
Qed.

(** ** The hashes *)
Definition hash_known (h : Z) : bool := existsb (Z.eqb h) [2; 5; 6; 7; 8].
Lemma hash_table : forallb (fun n => forallb (fun a => hash_known (colour_hash n [(a, 2)]) &&
  forallb (fun u => forallb (fun b => hash_known (colour_hash n [(a, 2); (u, 1); (b, 2)])) (between 0 (n - 1))) (between 0 (n - 1))) (between 0 (n - 1))) (between 2 8) = true.
Proof. vm_compute. reflexivity. Qed.
Lemma hash_in : forall h, hash_known h = true -> In h [2; 5; 6; 7; 8].
Proof. intros h H. apply existsb_exists in H. destruct H as (x & X & E). replace h with x by lia. exact X. Qed.
Lemma hash_ok : forall n w h m r c, 2 <= n <= 8 -> (forall r c, 0 <= r < h -> 0 <= c < w -> 0 <= m r c < n) ->
  0 <= r < h -> 0 <= c < w -> (r, c) <> (0, 0) -> In (colour_hash n (around m r c)) [2; 5; 6; 7; 8].
Proof.
  intros n w h m r c N M R C Z. apply hash_in. pose proof hash_table as T. rewrite forallb_forall in T.
  specialize (T n (proj2 (in_between 2 8 n) N)). rewrite forallb_forall in T.
  assert (B : forall k, 0 <= k < n -> In k (between 0 (n - 1))) by (intros; rewrite in_between; lia).
  unfold around. destruct (0 <? c) eqn:Ec; destruct (0 <? r) eqn:Er; cbn [andb app].
  - specialize (T (m r (c - 1)) (B _ (M r (c - 1) ltac:(lia) ltac:(lia)))). apply andb_true_iff in T. destruct T as (_ & T). rewrite forallb_forall in T.
    specialize (T (m (r - 1) (c - 1)) (B _ (M (r - 1) (c - 1) ltac:(lia) ltac:(lia)))). rewrite forallb_forall in T.
    exact (T (m (r - 1) c) (B _ (M (r - 1) c ltac:(lia) ltac:(lia)))).
  - specialize (T (m r (c - 1)) (B _ (M r (c - 1) ltac:(lia) ltac:(lia)))). apply andb_true_iff in T. exact (proj1 T).
  - specialize (T (m (r - 1) c) (B _ (M (r - 1) c ltac:(lia) ltac:(lia)))). apply andb_true_iff in T. exact (proj1 T).
  - exfalso. apply Z. f_equal; lia.
Qed.

(** ** The calls *)
Lemma call_legal : forall luma n w h m p, 2 <= n <= 8 -> (forall r c, 0 <= r < h -> 0 <= c < w -> 0 <= m r c < n) ->
  In p (wave w h) -> legal (colour_call luma n m p).
Proof.
  intros luma n w h m (r, c) N M P. rewrite in_wave in P. destruct P as (R & C & Z). unfold colour_call. cbn [fst snd].
  pose proof (hash_ok n w h m r c N M R C Z) as H. pose proof (place_ok (m r c) n (around m r c) (M r c R C)) as (K & _).
  destruct luma; constructor; assumption.
Qed.
Lemma call_element : forall luma n m p ctx, 2 <= n <= 8 -> spec_color_context (colour_hash n (around m (fst p) (snd p))) = Some ctx ->
  colour_call luma n m p = Ok (colour_cdf luma n, [ctx], place (m (fst p) (snd p)) (colour_order n (around m (fst p) (snd p)))).
Proof.
  intros luma n m p ctx N H. unfold colour_call, encode_palette_color_idx_y, encode_palette_color_idx_uv.
  assert (C : n = 2 \/ n = 3 \/ n = 4 \/ n = 5 \/ n = 6 \/ n = 7 \/ n = 8) by lia.
  destruct luma; rewrite (color_context_ok _ _ _ _ _ H);
    (repeat (destruct C as [->|C]; [reflexivity|])); subst; reflexivity.
Qed.
Lemma hash_context : forall h, In h [2; 5; 6; 7; 8] -> exists ctx, spec_color_context h = Some ctx.
Proof. intros h H. cbn [In] in H. repeat (destruct H as [<-|H]; [eexists; reflexivity|]). destruct H. Qed.

Lemma around_same : forall (m m' : colours) r c, (forall x, needed (r, c) x -> m' (fst x) (snd x) = m (fst x) (snd x)) -> around m' r c = around m r c.
Proof.
  intros m m' r c H. unfold around. cbn [needed] in H.
  assert (A : 0 < c -> m' r (c - 1) = m r (c - 1)) by (intros; apply (H (r, c - 1)); left; split; [lia|reflexivity]).
  assert (B : 0 < r -> 0 < c -> m' (r - 1) (c - 1) = m (r - 1) (c - 1)) by (intros; apply (H (r - 1, c - 1)); right; left; repeat split; lia).
  assert (D : 0 < r -> m' (r - 1) c = m (r - 1) c) by (intros; apply (H (r - 1, c)); right; right; split; [lia|reflexivity]).
  destruct (0 <? c) eqn:C; destruct (0 <? r) eqn:R; cbn [andb app].
  - rewrite A, B, D by lia. reflexivity.
  - rewrite A by lia. reflexivity.
  - rewrite D by lia. reflexivity.
  - reflexivity.
Qed.

Lemma colours_read : forall luma n w h m, 2 <= n <= 8 -> (forall r c, 0 <= r < h -> 0 <= c < w -> 0 <= m r c < n) ->
  forall ps (seen : Z * Z -> Prop) m0 es c s q vs c' s' q',
  ready seen ps -> (forall p, In p ps -> In p (wave w h)) -> (forall x, seen x -> m0 (fst x) (snd x) = m (fst x) (snd x)) ->
  map (colour_call luma n m) ps = map (@Ok element) es ->
  read_elements c s q (map fst es) = Ok (vs, c', s', q') -> vs = map snd es ->
  exists m', decode_colours luma n ps m0 c s q = Ok (m', c', s', q') /\
    forall x, seen x \/ In x ps -> m' (fst x) (snd x) = m (fst x) (snd x).
Proof.
  intros luma n w h m N M. induction ps as [|(r, col) ps IH]; intros seen m0 es c s q vs c' s' q' R I A E D V.
  - destruct es; [|discriminate E]. cbn [map read_elements] in D. injection D as <- <- <- <-. exists m0. split; [reflexivity|].
    intros x [X|X]; [apply A; exact X|destruct X].
  - destruct es as [|e es]; [discriminate E|]. cbn [map] in E. injection E as E1 E2. destruct R as (R1 & R2).
    pose proof (I _ (or_introl eq_refl)) as W. rewrite in_wave in W. destruct W as (Wr & Wc & Wz).
    pose proof (hash_ok n w h m r col N M Wr Wc Wz) as H. destruct (hash_context _ H) as (ctx & X).
    pose proof (call_element luma n m (r, col) ctx N X) as CE. rewrite CE in E1. injection E1 as <-. cbn [fst snd] in *.
    cbn [map fst snd read_elements] in D. cbn [decode_colours].
    rewrite (around_same m m0 r col) by (intros x Hx; apply A, R1, Hx). rewrite X.
    destruct (field s (colour_cdf luma n)) as [t| |]; cbn [bind] in D |- *; try discriminate D.
    destruct (tab_get t [ctx]) as [row| |]; cbn [bind] in D |- *; try discriminate D.
    destruct (decode_symbol c q row) as [(((v, c1), q1), row1)| |]; cbn [bind] in D |- *; try discriminate D.
    destruct (read_elements c1 (set_field s (colour_cdf luma n) (tab_set t [ctx] row1)) q1 (map fst es)) as [(((vs', c2), s2), q2)| |] eqn:D2;
      cbn [bind] in D; try discriminate D.
    injection D as D <- <- <-. rewrite V in D. cbn [map snd] in D. injection D as Dv Dvs. subst v.
    destruct (place_ok (m r col) n (around m r col) (M r col Wr Wc)) as (_ & P). rewrite P.
    destruct (IH (fun x => seen x \/ x = (r, col)) (set_colour m0 r col (m r col)) es c1 (set_field s (colour_cdf luma n) (tab_set t [ctx] row1)) q1 vs' c2 s2 q2)
      as (m' & Dm & Am); [exact R2|intros p Hp; apply I; right; exact Hp| |exact E2|exact D2|exact Dvs|].
    + intros (r', k') [Sx|Sx]; unfold set_colour; cbn [fst snd].
      * destruct ((r' =? r) && (k' =? col)) eqn:Q; [|apply (A (r', k') Sx)]. replace r' with r by lia. replace k' with col by lia. reflexivity.
      * injection Sx as -> ->. rewrite !Z.eqb_refl. reflexivity.
    + exists m'. split; [exact Dm|]. intros x [Sx|[Sx|Sx]]; apply Am; auto.
Qed.

Lemma block_round_trip : forall luma n w h m s c d out sz tail,
  2 <= n <= 8 -> 1 <= w <= 4096 -> 1 <= h <= 4096 -> (forall r c, 0 <= r < h -> 0 <= c < w -> 0 <= m r c < n) ->
  state_ok s -> 0 <= bit_count c < 2 ^ 62 -> 0 <= sz < 2 ^ 28 -> is_bits tail ->
  exists c' s' D m' d' rest,
    write_session c s out (colour_calls luma n w h m) = Ok (c', s', out ++ D) /\ is_bits D /\
    decode_colour_block luma n w h (m 0 0) d s (D ++ tail) sz = Ok (m', d', s', rest ++ tail) /\
    forall r c, 0 <= r < h -> 0 <= c < w -> m' r c = m r c.
Proof.
  intros luma n w h m s c d out sz tail N W H M S B Sz T.
  destruct (C45_round_trip s (colour_calls luma n w h m) c d out sz tail) as (es & c' & s' & D & d' & rest & E & Wr & Ib & Rd); try assumption.
  - unfold colour_calls. apply Forall_forall. intros x X. apply in_map_iff in X. destruct X as (p & <- & P). exact (call_legal luma n w h m p N M P).
  - unfold colour_calls. rewrite map_length. apply wave_length; assumption.
  - unfold read_session in Rd. destruct (init_decoder d (D ++ tail) sz) as [(d0, q0)| |] eqn:In0; cbn [bind] in Rd; try discriminate Rd.
    destruct (colours_read luma n w h m N M (wave w h) (fun x => x = (0, 0)) (fun _ _ => m 0 0) es d0 s q0 (map snd es) d' s' (rest ++ tail)) as (m' & Dm & Am).
    + apply wave_ready; lia.
    + auto.
    + intros x ->. reflexivity.
    + exact E.
    + exact Rd.
    + reflexivity.
    + exists c', s', D, m', d', rest. repeat split; try assumption.
      * unfold decode_colour_block. rewrite In0. exact Dm.
      * intros r k R K. apply (Am (r, k)). destruct (Z.eq_dec r 0) as [->|Zr]; [destruct (Z.eq_dec k 0) as [->|Zk]|].
        -- left. reflexivity.
        -- right. rewrite in_wave. repeat split; try lia. congruence.
        -- right. rewrite in_wave. repeat split; try lia. congruence.
Qed.
