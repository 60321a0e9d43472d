(** Candidates of neighbours and of the motion field; the walk along the edges. *)
From Coq Require Import ZArith List Bool Lia ZifyBool ZifyNat.
From Verif Require Import Base BaseProofs BitsProofs SessionModel BlockTables GeomModel ElementModel ElementSpec ElementProofs MvStackModel MvStackSpec
  MvStackListProofs.
Import ListNotations.
Open Scope Z_scope.

Lemma lower_mv_ok : forall e m, vec_range m -> lower_mv e m = Ok (lower (plain e) m).
Proof.
  intros e m [A B]. unfold lower_mv, lower. cbn [v_hp v_int plain]. rewrite !lower_mv_std by assumption. reflexivity.
Qed.
Lemma mv_ok_range : forall m, mv_ok m -> vec_range m.
Proof. intros m [A B]. unfold vec_range. lia. Qed.
Lemma av1_lower_bound : forall f v M, 0 <= M -> - M <= v <= M -> - (M + 4) <= av1_lower_mv false f v <= M + 4.
Proof.
  intros f v M HM H. unfold av1_lower_mv. destruct f.
  - assert (0 <= 8 * ((Z.abs v + 3) / 8) <= M + 3). { pose proof (Z.div_mod (Z.abs v + 3) 8). pose proof (Z.mod_pos_bound (Z.abs v + 3) 8). lia. }
    destruct (Z.sgn_spec v) as [[? ->]|[[? ->]|[? ->]]]; lia.
  - destruct (Z.odd v); [|lia]. destruct (Z.sgn_spec v) as [[? ->]|[[? ->]|[? ->]]]; lia.
Qed.

Lemma width_ok : forall b, 0 <= b < 22 -> idx block_width b = Ok (width_of b).
Proof. intros b H. unfold width_of. apply idx_nth. exact H. Qed.
Lemma height_ok : forall b, 0 <= b < 22 -> idx block_height b = Ok (height_of b).
Proof. intros b H. unfold height_of. apply idx_nth. exact H. Qed.
Lemma type_ok : forall e rf, len (v_gm_type e) = 8 -> 0 <= rf < 8 -> idx (v_gm_type e) rf = Ok (gm_type_of e rf).
Proof. intros e rf H R. unfold gm_type_of. apply idx_nth. lia. Qed.

(** ** add_ref_mv_candidate *)

Lemma newmv_same : forall b, has_newmv (b_mode b) = newmv_mode b.
Proof.
  intros b. unfold has_newmv, newmv_mode, NEWMV, NEW_NEWMV, NEAR_NEWMV, NEW_NEARMV, NEAREST_NEWMV, NEW_NEARESTMV. cbn [existsb].
  destruct (b_mode b =? 17), (b_mode b =? 25), (b_mode b =? 22), (b_mode b =? 23), (b_mode b =? 20), (b_mode b =? 21); reflexivity.
Qed.
Lemma count_new_ok : forall b s, 0 <= s_new s < 2 ^ 64 - 1 ->
  count_new (b_mode b) s = Ok (set_new (s_new s + (if newmv_mode b then 1 else 0)) s).
Proof.
  intros b s H. unfold count_new. rewrite newmv_same. destruct (newmv_mode b).
  - unfold chk_u64. rewrite chk_ok by lia. reflexivity.
  - rewrite Z.add_0_r. destruct s. reflexivity.
Qed.
Lemma repr_ext : forall c bonus cs s s', repr c bonus cs s -> s_num s' = s_num s -> s_stack s' = s_stack s ->
  s_weights s' = s_weights s -> repr c bonus cs s'.
Proof.
  intros c bonus cs s s' (E & rE & rW & H) A B C. exists E, rE, rW. rewrite A, B, C. exact H.
Qed.

(** The side conditions under which adding never fails. *)
Definition room (bonus : vec -> Z) (B : Z) (cs : list (vec * Z)) (extra : Z) : Prop :=
  (forall k, ~ In k (kept cs) -> bonus k = 0) /\ (forall k, 0 <= bonus k <= B) /\
  Forall (fun c => 0 <= snd c) cs /\ 0 <= extra /\ all_weights cs + extra + B < 2 ^ 64.
Lemma room_step : forall bonus B cs k w extra, room bonus B cs (w + extra) -> 0 <= w -> 0 <= extra ->
  room bonus B (cs ++ [(k, w)]) extra.
Proof.
  intros bonus B cs k w extra (A1 & A2 & A3 & A4 & A5) Hw He. split; [|split; [exact A2|split; [|split; [exact He|]]]].
  - intros k' N. apply A1. intros I. apply N. apply kept_mono. exact I.
  - apply Forall_app. split; [exact A3|]. constructor; [exact Hw|constructor].
  - rewrite all_weights_app. cbn [all_weights]. lia.
Qed.
Lemma room_less : forall bonus B cs x y, room bonus B cs x -> 0 <= y <= x -> room bonus B cs y.
Proof. intros bonus B cs x y (A1 & A2 & A3 & A4 & A5) H. repeat split; try assumption; try lia; apply A2. Qed.

Definition after (c : bool) (bonus : vec -> Z) (cs : list (vec * Z)) (news : Z) (found : bool) (s s' : mv_state) : Prop :=
  repr c bonus cs s' /\ s_new s' = s_new s + news /\ s_found s' = s_found s || found /\ s_global s' = s_global s /\
  s_close s' = s_close s /\ s_zero_ctx s' = s_zero_ctx s.

Lemma search_stack_ok : forall e b m w s bonus B cs,
  0 <= b_size b < 22 -> len (v_gm_type e) = 8 -> 0 <= v_ref0 e < 8 -> vec_range m -> vec_range (fst (s_global s)) ->
  0 <= s_new s < 2 ^ 64 - 1 -> 0 <= w -> room bonus B cs w -> repr false bonus cs s ->
  exists s', search_stack e b m w s = Ok s' /\
    after false bonus (cs ++ [((cand_mv (plain e) true b (v_ref0 e) (fst (s_global s)) m, (0, 0)), w)])
      (if newmv_mode b then 1 else 0) true s s'.
Proof.
  intros e b m w s bonus B cs HS HT HR Hm Hg Hn Hw (A1 & A2 & A3 & A4 & A5) HC. unfold search_stack.
  rewrite width_ok, height_ok by exact HS. cbn [bind].
  set (large := 8 <=? Z.min (width_of (b_size b)) (height_of (b_size b))).
  assert (E : (if (b_mode b =? GLOBALMV) || (b_mode b =? GLOBAL_GLOBALMV) then
             typ <- idx (v_gm_type e) (v_ref0 e) ;;
             Ok (if (TRANSLATION <? typ) && large then fst (s_global s) else m)
           else Ok m) = Ok (if global_mode true b && (1 <? gm_type_of (plain e) (v_ref0 e)) && (negb true || large)
              then fst (s_global s) else m)).
  { rewrite type_ok by assumption. unfold global_mode, GLOBALMV, GLOBAL_GLOBALMV, TRANSLATION. cbn [bind andb negb orb].
    change (gm_type_of (plain e) (v_ref0 e)) with (gm_type_of e (v_ref0 e)).
    destruct ((b_mode b =? 16) || (b_mode b =? 24)); reflexivity. }
  rewrite E. cbn [bind]. clear E. rewrite lower_mv_ok by (destruct (_ && _ && _); assumption). cbn [bind].
  rewrite count_new_ok by exact Hn. cbn [bind].
  set (k := lower (plain e) _).
  destruct (stack_add_ok false bonus cs (set_found true (set_new (s_new s + (if newmv_mode b then 1 else 0)) s)) (k, (0, 0)) w B)
    as (s' & E & R & S1 & S2 & S3 & S4 & S5); try assumption.
  exists s'. split; [exact E|]. split; [exact R|]. cbn in S1, S2, S3, S4, S5. rewrite S1, S2, S3, S4, S5, orb_true_r. repeat split.
Qed.

Lemma compound_search_stack_ok : forall e b w s bonus B cs,
  len (v_gm_type e) = 8 -> 0 <= v_ref0 e < 8 -> 0 <= v_ref1 e < 8 -> vec_range (b_mv0 b) -> vec_range (b_mv1 b) ->
  vec_range (fst (s_global s)) -> vec_range (snd (s_global s)) ->
  0 <= s_new s < 2 ^ 64 - 1 -> 0 <= w -> room bonus B cs w -> repr true bonus cs s ->
  exists s', compound_search_stack e b w s = Ok s' /\
    after true bonus (cs ++ [((cand_mv (plain e) false b (v_ref0 e) (fst (s_global s)) (b_mv0 b),
                               cand_mv (plain e) false b (v_ref1 e) (snd (s_global s)) (b_mv1 b)), w)])
      (if newmv_mode b then 1 else 0) true s s'.
Proof.
  intros e b w s bonus B cs HT HR0 HR1 Hm0 Hm1 Hg0 Hg1 Hn Hw (A1 & A2 & A3 & A4 & A5) HC. unfold compound_search_stack.
  match goal with |- context [bind (if b_mode b =? GLOBAL_GLOBALMV then ?a else ?d) _] =>
    assert (E : (if b_mode b =? GLOBAL_GLOBALMV then a else d) =
      Ok (if global_mode false b && (1 <? gm_type_of (plain e) (v_ref0 e)) && (negb false || (8 <=? Z.min (width_of (b_size b)) (height_of (b_size b))))
              then fst (s_global s) else b_mv0 b,
          if global_mode false b && (1 <? gm_type_of (plain e) (v_ref1 e)) && (negb false || (8 <=? Z.min (width_of (b_size b)) (height_of (b_size b))))
              then snd (s_global s) else b_mv1 b)) end.
  { rewrite !type_ok by assumption. unfold global_mode, GLOBAL_GLOBALMV, TRANSLATION. cbn [bind andb negb orb].
    change (gm_type_of (plain e)) with (gm_type_of e). rewrite !andb_true_r.
    destruct (b_mode b =? 24); reflexivity. }
  rewrite E. cbn [bind]. clear E.
  rewrite lower_mv_ok by (destruct (_ && _ && _); assumption). cbn [bind].
  rewrite lower_mv_ok by (destruct (_ && _ && _); assumption). cbn [bind].
  set (k0 := lower (plain e) _). set (k1 := lower (plain e) _).
  destruct (stack_add_ok true bonus cs (set_found true s) (k0, k1) w B)
    as (s' & E & R & S1 & S2 & S3 & S4 & S5); try assumption.
  rewrite E. cbn [bind]. cbn in S1, S2, S3, S4, S5. rewrite count_new_ok by (rewrite S1; exact Hn). eexists. split; [reflexivity|].
  split; [eapply repr_ext; [exact R|reflexivity..]|]. cbn. rewrite S1, S2, S3, S4, S5, orb_true_r. repeat split.
Qed.


Lemma after_refl : forall c bonus cs s, repr c bonus cs s -> after c bonus (cs ++ []) 0 false s s.
Proof. intros c bonus cs s H. rewrite app_nil_r. split; [exact H|]. rewrite Z.add_0_r, orb_false_r. repeat split. Qed.
Lemma after_trans : forall c bonus cs1 cs2 n1 n2 f1 f2 s1 s2 s3, after c bonus cs1 n1 f1 s1 s2 -> after c bonus cs2 n2 f2 s2 s3 ->
  after c bonus cs2 (n1 + n2) (f1 || f2) s1 s3.
Proof.
  intros c bonus cs1 cs2 n1 n2 f1 f2 s1 s2 s3 (A & B & C & D & F & G) (A' & B' & C' & D' & F' & G').
  split; [exact A'|]. rewrite B', B, C', C, D', D, F', F, G', G, Z.add_assoc, orb_assoc. repeat split.
Qed.

Lemma add_candidate_ok : forall e c b w s bonus B cs,
  nbr_ok b -> refs_ok e c -> global_ok c (s_global s) ->
  0 <= s_new s < 2 ^ 64 - 2 -> 0 <= w -> room bonus B cs (2 * w) -> repr c bonus cs s ->
  exists s', add_ref_mv_candidate e c w b s = Ok s' /\
    after c bonus (cs ++ cands (plain e) c (s_global s) b w)
      (if newmv_mode b then len (cands (plain e) c (s_global s) b w) else 0) (has_cand (cands (plain e) c (s_global s) b w)) s s'.
Proof.
  intros e c b w s bonus B cs (HS & M0 & M1) (HT & R0 & R1) (G0 & G1) Hn Hw HR HC.
  apply mv_ok_range in M0. apply mv_ok_range in M1.
  unfold add_ref_mv_candidate, cands. cbn [v_ref0 v_ref1 plain]. destruct (b_is_inter b).
  2:{ exists s. split; [reflexivity|]. destruct (newmv_mode b); apply after_refl; exact HC. }
  destruct c; cbn [negb].
  - destruct ((b_ref0 b =? v_ref0 e) && (b_ref1 b =? v_ref1 e)).
    + edestruct (compound_search_stack_ok e b w s bonus B cs) as (s' & E & A); try eassumption; try (first [apply R1|apply G1]; reflexivity); try lia.
      { eapply room_less; [exact HR|lia]. }
      exists s'. split; [exact E|]. exact A.
    + exists s. split; [reflexivity|]. destruct (newmv_mode b); apply after_refl; exact HC.
  - destruct (b_ref0 b =? v_ref0 e).
    + edestruct (search_stack_ok e b (b_mv0 b) w s bonus B cs) as (s1 & E & A); try eassumption; try lia.
      { eapply room_less; [exact HR|lia]. }
      rewrite E. cbn [bind].
      destruct (b_ref1 b =? v_ref0 e).
      * pose proof A as (A1 & A2 & A3 & A4 & A5 & A6).
        edestruct (search_stack_ok e b (b_mv1 b) w s1 bonus B) as (s2 & E2 & A').
        8:{ eapply (room_step _ _ _ _ w w); [|exact Hw|exact Hw]. eapply room_less; [exact HR|lia]. }
        8:{ exact A1. }
        all: try eassumption; try lia.
        { rewrite A4. exact G0. }
        { rewrite A2. destruct (newmv_mode b); lia. }
        exists s2. split; [exact E2|]. pose proof (after_trans _ _ _ _ _ _ _ _ _ _ _ A A') as X.
        rewrite A4 in X. rewrite <- app_assoc in X. cbn [app]. cbn [app] in X. unfold len, has_cand. cbn [length].
        destruct (newmv_mode b); exact X.
      * exists s1. split; [reflexivity|]. cbn [app]. exact A.
    + cbn [bind]. destruct (b_ref1 b =? v_ref0 e).
      * edestruct (search_stack_ok e b (b_mv1 b) w s bonus B cs) as (s1 & E & A); try eassumption; try lia.
        { eapply room_less; [exact HR|lia]. }
        exists s1. split; [exact E|]. cbn [app]. exact A.
      * exists s. split; [reflexivity|]. cbn [app]. destruct (newmv_mode b); apply after_refl; exact HC.
Qed.

(** ** Lists of neighbours *)

Lemma cands_weights : forall e c g b w, 0 <= w -> Forall (fun c => 0 <= snd c) (cands e c g b w) /\
  0 <= all_weights (cands e c g b w) <= 2 * w.
Proof.
  intros. unfold cands. destruct (b_is_inter b); [|split; [constructor|cbn [all_weights]; lia]].
  destruct c; repeat (destruct (_ =? _)); cbn [andb app all_weights]; (split; [repeat (apply Forall_cons; [cbn [snd]; lia|]); apply Forall_nil|lia]).
Qed.
Lemma room_app : forall ds bonus B cs extra, room bonus B cs (all_weights ds + extra) -> Forall (fun c => 0 <= snd c) ds -> 0 <= extra ->
  room bonus B (cs ++ ds) extra.
Proof.
  induction ds as [|[k w] ds IH]; intros bonus B cs extra HR HF HE.
  - rewrite app_nil_r. exact HR.
  - inversion HF as [|? ? W F]; subst. cbn [snd] in W. replace (cs ++ (k, w) :: ds) with ((cs ++ [(k, w)]) ++ ds) by (rewrite <- app_assoc; reflexivity).
    assert (0 <= all_weights ds) by (clear -F; induction ds as [|[? ?] ds IH]; cbn [all_weights]; [lia|]; inversion F as [|? ? W' F']; subst; cbn [snd] in W'; specialize (IH F'); lia).
    apply IH; [|exact F|exact HE]. apply (room_step _ _ _ _ w); [|exact W|lia]. eapply room_less; [exact HR|]. cbn [all_weights]. lia.
Qed.

Lemma has_cand_app : forall a b, has_cand (a ++ b) = has_cand a || has_cand b.
Proof. intros [|? a] b; reflexivity. Qed.

Lemma add_all_ok : forall e c nbs s bonus B cs,
  Forall (fun bw => nbr_ok (fst bw) /\ 0 <= snd bw) nbs -> refs_ok e c -> global_ok c (s_global s) ->
  0 <= s_new s -> s_new s + 2 * len nbs < 2 ^ 64 - 2 -> room bonus B cs (2 * weight_sum nbs) -> repr c bonus cs s ->
  exists s', add_all e c nbs s = Ok s' /\
    after c bonus (cs ++ cands_of (plain e) c (s_global s) nbs) (new_count (plain e) c (s_global s) nbs)
      (has_cand (cands_of (plain e) c (s_global s) nbs)) s s'.
Proof.
  intros e c. induction nbs as [|[b w] nbs IH]; intros s bonus B cs HF HR HG H0 HN HM HC.
  - exists s. split; [reflexivity|]. apply after_refl. exact HC.
  - inversion HF as [|? ? [HB HW] HF']; subst. cbn [fst snd] in HB, HW. cbn [weight_sum] in HM. rewrite len_cons in HN.
    assert (0 <= weight_sum nbs).
    { clear -HF'. induction nbs as [|[? ?] nbs IH]; cbn [weight_sum]; [lia|]. inversion HF' as [|? ? [? W] F]; subst. cbn [snd] in W. specialize (IH F). lia. }
    pose proof (len_nonneg _ nbs) as LN.
    destruct (add_candidate_ok e c b w s bonus B cs) as (s1 & E1 & A1); try assumption; try lia.
    { eapply room_less; [exact HM|lia]. }
    pose proof A1 as (P1 & P2 & P3 & P4 & P5 & P6).
    destruct (cands_weights (plain e) c (s_global s) b w HW) as [CW1 CW2].
    assert (LC : 0 <= (if newmv_mode b then len (cands (plain e) c (s_global s) b w) else 0) <= 2).
    { destruct (newmv_mode b); [|lia]. unfold cands. destruct (b_is_inter b); [|unfold len; cbn; lia].
      destruct c; repeat (destruct (_ =? _)); unfold len; cbn; lia. }
    destruct (IH s1 bonus B (cs ++ cands (plain e) c (s_global s) b w)) as (s2 & E2 & A2); try assumption; try lia.
    { rewrite P4. exact HG. }
    { apply room_app; [|exact CW1|lia]. eapply room_less; [exact HM|lia]. }
    exists s2. cbn [add_all]. rewrite E1. cbn [bind]. split; [exact E2|].
    pose proof (after_trans _ _ _ _ _ _ _ _ _ _ _ A1 A2) as X. rewrite P4 in X.
    unfold cands_of, new_count. cbn [flat_map map fold_right fst snd]. rewrite has_cand_app.
    fold (cands_of (plain e) c (s_global s) nbs). fold (new_count (plain e) c (s_global s) nbs).
    rewrite <- app_assoc in X. exact X.
Qed.

(** ** Scanning the edges *)

Lemma inside_iff : forall e r c, is_inside (v_tile e) r c = true <-> inside e r c.
Proof. intros. unfold is_inside, inside. lia. Qed.
Lemma visible_inside : forall e r c, visible e r c = if is_inside (v_tile e) r c then nb_at e r c else None.
Proof.
  intros. unfold visible. destruct (is_inside (v_tile e) r c) eqn:I.
  - apply inside_iff in I. destruct I. replace (_ && _ && _ && _) with true by lia. reflexivity.
  - unfold is_inside in I. replace (_ && _ && _ && _) with false by lia. reflexivity.
Qed.
Lemma get_nbr_ok : forall e r c b, 0 <= r -> 0 <= c -> nb_at e r c = Some b -> get_nbr e r c = Ok b.
Proof.
  intros e r c b Hr Hc H. unfold get_nbr, nb_at, idx in *. destruct (Z.ltb_spec r 0); [lia|].
  destruct (nth_error (v_mis e) (Z.to_nat r)) as [row|]; [|discriminate]. cbn [bind]. destruct (Z.ltb_spec c 0); [lia|].
  destruct (nth_error row (Z.to_nat c)) as [o|]; [|discriminate]. cbn [bind]. rewrite H. reflexivity.
Qed.

Definition sizes : list Z := [0;1;2;3;4;5;6;7;8;9;10;11;12;13;14;15;16;17;18;19;20;21].
Lemma in_sizes : forall b, 0 <= b < 22 -> In b sizes.
Proof. intros b H. unfold sizes. assert (b = 0 \/ b = 1 \/ b = 2 \/ b = 3 \/ b = 4 \/ b = 5 \/ b = 6 \/ b = 7 \/ b = 8 \/ b = 9 \/ b = 10 \/ b = 11 \/ b = 12 \/ b = 13 \/ b = 14 \/ b = 15 \/ b = 16 \/ b = 17 \/ b = 18 \/ b = 19 \/ b = 20 \/ b = 21) by lia. cbn [In]. intuition. Qed.
Lemma high_table : forall b, 0 <= b < 22 -> idx num_4x4_blocks_high b = Ok (height_of b / 4).
Proof. intros b H. apply in_sizes in H. cbn [In sizes] in H. repeat (destruct H as [<-|H]; [reflexivity|]). destruct H. Qed.
Lemma wide_table : forall b, 0 <= b < 22 -> table_right b -> idx num_4x4_blocks_wide b = Ok (width_of b / 4).
Proof.
  intros b H T. apply in_sizes in H. cbn [In sizes] in H.
  repeat (destruct H as [<-|H]; [first [reflexivity|exfalso; apply T; lia]|]). destruct H.
Qed.
Lemma units : forall b, 0 <= b < 22 -> In (width_of b / 4) [1; 2; 4; 8; 16; 32] /\ In (height_of b / 4) [1; 2; 4; 8; 16; 32].
Proof.
  intros b H. apply in_sizes in H. cbn [In sizes] in H.
  repeat (destruct H as [<-|H]; [split; cbn; tauto|]). destruct H.
Qed.
Lemma units_pos : forall n, In n [1; 2; 4; 8; 16; 32] -> 1 <= n <= 32.
Proof. intros n H. cbn [In] in H. intuition lia. Qed.

Lemma walk_fuel : forall at_ size_of n4 end4, 1 <= n4 -> (forall i b, at_ i = Some b -> 1 <= size_of b) -> forall f1 f2 i,
  end4 - i <= Z.of_nat f1 -> end4 - i <= Z.of_nat f2 -> walk f1 at_ size_of n4 end4 i = walk f2 at_ size_of n4 end4 i.
Proof.
  intros at_ size_of n4 end4 HN HS. induction f1 as [|f1 IH]; intros [|f2] i H1 H2; cbn [walk].
  - reflexivity.
  - destruct (Z.ltb_spec i end4); [lia|reflexivity].
  - destruct (Z.ltb_spec i end4); [lia|reflexivity].
  - destruct (Z.ltb_spec i end4); [|reflexivity]. destruct (at_ i) as [b|] eqn:E; [|reflexivity].
    specialize (HS i b E). f_equal. apply IH; destruct (16 <=? n4); lia.
Qed.
Lemma walk_facts : forall at_ size_of n4 end4, 1 <= n4 <= 32 -> (forall i b, at_ i = Some b -> nbr_ok b) -> forall f i,
  Forall (fun bw => nbr_ok (fst bw) /\ 0 <= snd bw) (walk f at_ size_of n4 end4 i) /\
  weight_sum (walk f at_ size_of n4 end4 i) <= 64 * Z.of_nat f /\ len (walk f at_ size_of n4 end4 i) <= Z.of_nat f.
Proof.
  intros at_ size_of n4 end4 HN HS. induction f as [|f IH]; intros i; cbn [walk].
  - split; [constructor|]. unfold len. cbn. lia.
  - destruct (i <? end4); [|split; [constructor|unfold len; cbn [weight_sum length]; lia]].
    destruct (at_ i) as [b|] eqn:E; [|split; [constructor|unfold len; cbn [weight_sum length]; lia]].
    set (l := Z.max (Z.min n4 (size_of b)) (if 16 <=? n4 then 4 else 1)).
    assert (L : 1 <= l <= 32) by (unfold l; destruct (16 <=? n4); lia).
    destruct (IH (i + l)) as (A & B & C). split; [|split].
    + constructor; [|exact A]. cbn [fst snd]. split; [exact (HS i b E)|lia].
    + cbn [weight_sum]. lia.
    + rewrite len_cons. lia.
Qed.

Lemma scan_row_loop_ok : forall e c n4 end4, 1 <= n4 -> end4 <= n4 -> 0 <= e_row_start (v_tile e) -> 0 <= e_col_start (v_tile e) ->
  (forall i, 0 <= i < n4 -> inside e (v_row e - 1) (v_col e + i) -> exists b, nb_at e (v_row e - 1) (v_col e + i) = Some b /\
     0 <= b_size b < 22 /\ table_right (b_size b)) ->
  forall fuel i s, 0 <= i -> end4 - i <= Z.of_nat fuel ->
  scan_row_loop fuel e c n4 end4 i s =
    add_all e c (walk fuel (fun i => visible e (v_row e - 1) (v_col e + i)) (fun b => width_of (b_size b) / 4) n4 end4 i) s.
Proof.
  intros e c n4 end4 HN HE HR0 HC0 HA. induction fuel as [|fuel IH]; intros i s Hi Hf; cbn [scan_row_loop walk].
  - destruct (Z.ltb_spec i end4); [lia|reflexivity].
  - destruct (Z.ltb_spec i end4); [|reflexivity]. rewrite visible_inside.
    destruct (is_inside (v_tile e) (v_row e - 1) (v_col e + i)) eqn:I; cbn [negb]; [|reflexivity].
    apply inside_iff in I. destruct (HA i ltac:(lia) I) as (b & Hb & S1 & S2). destruct I as [I1 I2].
    rewrite (get_nbr_ok e _ _ b) by (assumption || lia). rewrite Hb. cbn [bind].
    rewrite wide_table by assumption. cbn [bind]. cbn [add_all].
    destruct (units (b_size b) S1) as [U _]. apply units_pos in U.
    assert (L : (if 16 <=? n4 then Z.max 4 (Z.min n4 (width_of (b_size b) / 4)) else Z.min n4 (width_of (b_size b) / 4)) =
                Z.max (Z.min n4 (width_of (b_size b) / 4)) (if 16 <=? n4 then 4 else 1)) by (destruct (16 <=? n4); lia).
    rewrite L. clear L. set (l := Z.max (Z.min n4 (width_of (b_size b) / 4)) (if 16 <=? n4 then 4 else 1)). rewrite (Z.mul_comm l 2).
    destruct (add_ref_mv_candidate e c (2 * l) b s); cbn [bind]; try reflexivity.
    apply IH; unfold l; destruct (16 <=? n4); lia.
Qed.
Lemma scan_col_loop_ok : forall e c n4 end4, 1 <= n4 -> end4 <= n4 -> 0 <= e_row_start (v_tile e) -> 0 <= e_col_start (v_tile e) ->
  (forall i, 0 <= i < n4 -> inside e (v_row e + i) (v_col e - 1) -> exists b, nb_at e (v_row e + i) (v_col e - 1) = Some b /\
     0 <= b_size b < 22) ->
  forall fuel i s, 0 <= i -> end4 - i <= Z.of_nat fuel ->
  scan_col_loop fuel e c n4 end4 i s =
    add_all e c (walk fuel (fun i => visible e (v_row e + i) (v_col e - 1)) (fun b => height_of (b_size b) / 4) n4 end4 i) s.
Proof.
  intros e c n4 end4 HN HE HR0 HC0 HA. induction fuel as [|fuel IH]; intros i s Hi Hf; cbn [scan_col_loop walk].
  - destruct (Z.ltb_spec i end4); [lia|reflexivity].
  - destruct (Z.ltb_spec i end4); [|reflexivity]. rewrite visible_inside.
    destruct (is_inside (v_tile e) (v_row e + i) (v_col e - 1)) eqn:I; cbn [negb]; [|reflexivity].
    apply inside_iff in I. destruct (HA i ltac:(lia) I) as (b & Hb & S1). destruct I as [I1 I2].
    rewrite (get_nbr_ok e _ _ b) by (assumption || lia). rewrite Hb. cbn [bind].
    rewrite high_table by assumption. cbn [bind]. cbn [add_all].
    destruct (units (b_size b) S1) as [_ U]. apply units_pos in U.
    assert (L : (if 16 <=? n4 then Z.max 4 (Z.min n4 (height_of (b_size b) / 4)) else Z.min n4 (height_of (b_size b) / 4)) =
                Z.max (Z.min n4 (height_of (b_size b) / 4)) (if 16 <=? n4 then 4 else 1)) by (destruct (16 <=? n4); lia).
    rewrite L. clear L. set (l := Z.max (Z.min n4 (height_of (b_size b) / 4)) (if 16 <=? n4 then 4 else 1)). rewrite (Z.mul_comm l 2).
    destruct (add_ref_mv_candidate e c (2 * l) b s); cbn [bind]; try reflexivity.
    apply IH; unfold l; destruct (16 <=? n4); lia.
Qed.

(** All blocks of the frame have the right entry in the table. *)
Lemma visible_some : forall e r c b, visible e r c = Some b -> nb_at e r c = Some b.
Proof. intros e r c b H. unfold visible in H. destruct (_ && _); [exact H|discriminate]. Qed.

Lemma scan_row_ok : forall e c s, env_ok e c -> around_ok e -> tables_right e -> scan_row e c s = add_all e c (above_blocks e) s.
Proof.
  intros e c s [ok_bsize0 ok_rf00 ok_rf10 ok_types0 ok_params0 ok_tile0 ok_pos0 ok_mis0 ok_field0] [ok_above0 ok_left0 ok_corner0] [T1 T2]. unfold scan_row. rewrite wide_table by assumption. cbn [bind]. fold (bw4 e).
  destruct ok_pos0 as [P1 P2]. destruct ok_tile0 as (Q1 & Q2 & Q3 & Q4).
  unfold chk_u64. rewrite chk_ok by lia. cbn [bind].
  destruct (units _ ok_bsize0) as [U _]. apply units_pos in U. fold (bw4 e) in U.
  set (end4 := Z.min (Z.min (bw4 e) (e_mi_cols (v_tile e) - v_col e)) 16).
  rewrite scan_row_loop_ok; try lia.
  - unfold above_blocks. fold end4. f_equal. apply walk_fuel; try lia.
    intros i b H. apply visible_some, ok_mis0 in H. destruct H as [H _]. apply units in H. destruct H as [H _]. apply units_pos in H. lia.
  - intros i Hi I. destruct (ok_above0 i Hi I) as (b & Hb). exists b. split; [exact Hb|]. split; [apply (ok_mis0 _ _ _ Hb)|exact (T2 _ _ _ Hb)].
Qed.
Lemma scan_col_ok : forall e c s, env_ok e c -> around_ok e -> scan_col e c s = add_all e c (left_blocks e) s.
Proof.
  intros e c s [ok_bsize0 ok_rf00 ok_rf10 ok_types0 ok_params0 ok_tile0 ok_pos0 ok_mis0 ok_field0] [ok_above0 ok_left0 ok_corner0]. unfold scan_col. rewrite high_table by assumption. cbn [bind]. fold (bh4 e).
  destruct ok_pos0 as [P1 P2]. destruct ok_tile0 as (Q1 & Q2 & Q3 & Q4).
  unfold chk_u64. rewrite chk_ok by lia. cbn [bind].
  destruct (units _ ok_bsize0) as [_ U]. apply units_pos in U. fold (bh4 e) in U.
  set (end4 := Z.min (Z.min (bh4 e) (e_mi_rows (v_tile e) - v_row e)) 16).
  rewrite scan_col_loop_ok; try lia.
  - unfold left_blocks. fold end4. f_equal. apply walk_fuel; try lia.
    intros i b H. apply visible_some, ok_mis0 in H. destruct H as [H _]. apply units in H. destruct H as [_ H]. apply units_pos in H. lia.
  - intros i Hi I. destruct (ok_left0 i Hi I) as (b & Hb). exists b. split; [exact Hb|]. apply (ok_mis0 _ _ _ Hb).
Qed.
Lemma scan_point_ok : forall e c s, env_ok e c -> around_ok e -> Z.max (bw4 e) (bh4 e) <= 16 ->
  scan_point e c (bw4 e) s = add_all e c (corner_blocks e) s.
Proof.
  intros e c s [ok_bsize0 ok_rf00 ok_rf10 ok_types0 ok_params0 ok_tile0 ok_pos0 ok_mis0 ok_field0] [ok_above0 ok_left0 ok_corner0] M. destruct (ok_corner0 M) as (R & b & Hb & NB). destruct ok_pos0 as [P1 P2].
  destruct (units _ ok_bsize0) as [U _]. apply units_pos in U. fold (bw4 e) in U.
  unfold scan_point, corner_blocks. destruct (Z.leb_spec (Z.max (bw4 e) (bh4 e)) 16); [|lia].
  rewrite (get_nbr_ok e _ _ b) by (assumption || lia). cbn [bind]. rewrite visible_inside, Hb.
  destruct (is_inside (v_tile e) (v_row e - 1) (v_col e + bw4 e)); cbn [andb add_all].
  - destruct (Z.eqb_spec (b_ref0 b) (-1)); [contradiction|]. cbn [negb]. destruct (add_ref_mv_candidate e c 4 b s); reflexivity.
  - reflexivity.
Qed.
