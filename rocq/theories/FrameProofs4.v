(** Skip mode frames and global motion parameters of the frame header. *)
From Coq Require Import ZArith List Bool Lia ZifyBool ZifyNat.
From Verif Require Import Base BaseProofs TableLemmas UtilModel UtilSpec UtilProofs BitsSpec BitsProofs RangeCoderModel BitCodecModel BitCodecProofs
  SessionModel SeqModel SeqSpec SeqProofs ElementModel ElementProofs TileModel TileSpec TileProofs SyntaxSpec ElementSpec FrameParamModel FrameSpec FrameBits FrameProofs FrameProofs2 FrameProofs3.
Import ListNotations.
Open Scope Z_scope.
Ltac Zify.zify_post_hook ::= Z.div_mod_to_equations.

(** ** Skip mode *)
Lemma rel_dist_ok a b bits : 0 <= a < 2 ^ 62 -> 0 <= b < 2 ^ 62 -> 1 <= bits <= 63 -> rel_dist a b true bits = Ok (signed_dist bits a b).
Proof.
  intros A B K. destruct (relative_dist_ok a b bits) as (d & E & R & M); try lia.
  assert (E' : rel_dist a b true bits = get_relative_dist a b true bits).
  { unfold rel_dist, get_relative_dist. cbn [negb]. rewrite !as_i64_id by lia. rewrite chk_u8_ok, chk_u64_ok by lia. reflexivity. }
  rewrite E', E. f_equal. unfold signed_dist. replace (2 ^ bits) with (2 * 2 ^ (bits - 1)) in *.
  2: { replace bits with (bits - 1 + 1) at 2 by lia. rewrite Z.pow_add_r by lia. lia. }
  pose proof (pow2_pos (bits - 1) ltac:(lia)) as P. set (p := 2 ^ (bits - 1)) in *. clearbody p.
  apply Z.mod_divide in M; [|lia]. destruct M as [q M].
  replace (a - b + p) with (d + p + (- q) * (2 * p)) by lia. rewrite Z.mod_add by lia. rewrite Z.mod_small by lia. lia.
Qed.
Lemma signed_dist_range bits a b : 1 <= bits -> - 2 ^ (bits - 1) <= signed_dist bits a b < 2 ^ (bits - 1).
Proof.
  intros K. unfold signed_dist. replace (2 ^ bits) with (2 * 2 ^ (bits - 1)).
  2: { replace bits with (bits - 1 + 1) at 2 by lia. rewrite Z.pow_add_r by lia. lia. }
  pose proof (pow2_pos (bits - 1) ltac:(lia)). pose proof (Z.mod_pos_bound (a - b + 2 ^ (bits - 1)) (2 * 2 ^ (bits - 1)) ltac:(lia)). lia.
Qed.
(** Two distances to the same frame on the same side of it can be compared by
    their difference. *)
Lemma signed_dist_diff bits a b c : 1 <= bits ->
  let x := signed_dist bits a c in let y := signed_dist bits b c in
  (x < 0 /\ y < 0) \/ (0 < x /\ 0 < y) -> signed_dist bits a b = x - y.
Proof.
  intros K x y S. pose proof (signed_dist_range bits a c K) as Rx. pose proof (signed_dist_range bits b c K) as Ry. fold x in Rx. fold y in Ry.
  assert (X : exists q, x = a - c + q * 2 ^ bits).
  { exists (- ((a - c + 2 ^ (bits - 1)) / 2 ^ bits)). unfold x, signed_dist. pose proof (pow2_pos bits ltac:(lia)). rewrite Z.mod_eq by lia. lia. }
  assert (Y : exists q, y = b - c + q * 2 ^ bits).
  { exists (- ((b - c + 2 ^ (bits - 1)) / 2 ^ bits)). unfold y, signed_dist. pose proof (pow2_pos bits ltac:(lia)). rewrite Z.mod_eq by lia. lia. }
  destruct X as [q X], Y as [r Y]. unfold signed_dist. clearbody x y.
  replace (a - b + 2 ^ (bits - 1)) with (x - y + 2 ^ (bits - 1) + (r - q) * 2 ^ bits) by lia. pose proof (pow2_pos bits ltac:(lia)). rewrite Z.mod_add by lia.
  replace (2 ^ bits) with (2 * 2 ^ (bits - 1)). 2: { replace bits with (bits - 1 + 1) at 2 by lia. rewrite Z.pow_add_r by lia. lia. }
  rewrite Z.mod_small by lia. lia.
Qed.

Lemma nth_error_snoc A (l : list A) x j y : nth_error (l ++ [x]) j = Some y -> (nth_error l j = Some y /\ (j < length l)%nat) \/ (j = length l /\ y = x).
Proof.
  intros H. destruct (Nat.lt_ge_cases j (length l)).
  - rewrite nth_error_app1 in H by assumption. tauto.
  - right. rewrite nth_error_app2 in H by assumption. destruct (j - length l)%nat eqn:E; [|destruct n; discriminate]. cbn in H. injection H as <-. split; [lia|reflexivity].
Qed.
Lemma snoc_last A (l : list A) x : nth_error (l ++ [x]) (length l) = Some x.
Proof. rewrite nth_error_app2, Nat.sub_diag by lia. reflexivity. Qed.
Lemma snoc_old A (l : list A) x j y : nth_error l j = Some y -> nth_error (l ++ [x]) j = Some y.
Proof. intros H. rewrite nth_error_app1; [exact H|]. apply nth_error_Some. congruence. Qed.

Lemma before_new l x : none_before l -> x < 0 -> nearest_before (l ++ [x]) (length l).
Proof.
  intros N X. exists x. split; [apply snoc_last|]. split; [exact X|]. intros j y H Y. apply nth_error_snoc in H.
  destruct H as [[H L]|[-> ->]]; [apply nth_error_In in H; specialize (N y H); lia|lia].
Qed.
Lemma before_better l f d x : nearest_before l f -> nth_error l f = Some d -> x < 0 -> d < x -> nearest_before (l ++ [x]) (length l).
Proof.
  intros (d' & E & D & H) E' X B. rewrite E' in E. injection E as <-. exists x. split; [apply snoc_last|]. split; [exact X|].
  intros j y J Y. apply nth_error_snoc in J. destruct J as [[J L]|[-> ->]]; [destruct (H j y J Y); lia|lia].
Qed.
Lemma before_keep l f d x : nearest_before l f -> nth_error l f = Some d -> 0 <= x \/ x <= d -> nearest_before (l ++ [x]) f.
Proof.
  intros (d' & E & D & H) E' X. rewrite E' in E. injection E as <-. exists d. split; [apply snoc_old; exact E'|]. split; [exact D|].
  assert (F : (f < length l)%nat) by (apply nth_error_Some; congruence).
  intros j y J Y. apply nth_error_snoc in J. destruct J as [[J L]|[-> ->]]; [destruct (H j y J Y); lia|lia].
Qed.
Lemma before_none l x : none_before l -> 0 <= x -> none_before (l ++ [x]).
Proof. intros N X y Y. apply in_app_or in Y. destruct Y as [Y|[<-|[]]]; [apply N; exact Y|exact X]. Qed.
Lemma after_new l x : none_after l -> 0 < x -> nearest_after (l ++ [x]) (length l).
Proof.
  intros N X. exists x. split; [apply snoc_last|]. split; [exact X|]. intros j y H Y. apply nth_error_snoc in H.
  destruct H as [[H L]|[-> ->]]; [apply nth_error_In in H; specialize (N y H); lia|lia].
Qed.
Lemma after_better l f d x : nearest_after l f -> nth_error l f = Some d -> 0 < x -> x < d -> nearest_after (l ++ [x]) (length l).
Proof.
  intros (d' & E & D & H) E' X B. rewrite E' in E. injection E as <-. exists x. split; [apply snoc_last|]. split; [exact X|].
  intros j y J Y. apply nth_error_snoc in J. destruct J as [[J L]|[-> ->]]; [destruct (H j y J Y); lia|lia].
Qed.
Lemma after_keep l f d x : nearest_after l f -> nth_error l f = Some d -> x <= 0 \/ d <= x -> nearest_after (l ++ [x]) f.
Proof.
  intros (d' & E & D & H) E' X. rewrite E' in E. injection E as <-. exists d. split; [apply snoc_old; exact E'|]. split; [exact D|].
  assert (F : (f < length l)%nat) by (apply nth_error_Some; congruence).
  intros j y J Y. apply nth_error_snoc in J. destruct J as [[J L]|[-> ->]]; [destruct (H j y J Y); lia|lia].
Qed.
Lemma after_none l x : none_after l -> x <= 0 -> none_after (l ++ [x]).
Proof. intros N X y Y. apply in_app_or in Y. destruct Y as [Y|[<-|[]]]; [apply N; exact Y|exact X]. Qed.

(** State of a search: an index or -1, and the hint found there. *)
Definition found (near : list Z -> nat -> Prop) (none : list Z -> Prop) (bits cur : Z) (hs : list Z) (i h : Z) : Prop :=
  let d := map (fun h => signed_dist bits h cur) hs in
  (i = -1 /\ none d) \/ (exists f, i = Z.of_nat f /\ nth_error hs f = Some h /\ near d f).
(** The references of the frame are in range, and so are the order hints. *)
Definition skip_typed (bits : Z) (hints ref_idx : list Z) (cur : Z) : Prop :=
  1 <= bits <= 62 /\ length hints = 8%nat /\ length ref_idx = 7%nat /\ Forall (fun r => 0 <= r < 8) ref_idx /\
  Forall (fun h => 0 <= h < 2 ^ bits) hints /\ 0 <= cur < 2 ^ bits.
Definition ref_hints (hints ref_idx : list Z) : list Z := map (fun r => nth (Z.to_nat r) hints 0) ref_idx.

Lemma skip_read bits hints ref_idx cur a : skip_typed bits hints ref_idx cur -> (a < 7)%nat -> exists r h,
  idx ref_idx (Z.of_nat a) = Ok r /\ idx hints r = Ok h /\ 0 <= h < 2 ^ 62 /\ as_i64 h = h /\
  firstn (S a) (ref_hints hints ref_idx) = firstn a (ref_hints hints ref_idx) ++ [h].
Proof.
  intros (B & L & L7 & R & H & C) A. destruct (idx_lt _ ref_idx a ltac:(lia)) as (r & Er & Nr). exists r.
  rewrite Forall_forall in R, H. pose proof (R r (nth_error_In _ _ Nr)) as Rr.
  destruct (idx_lt _ hints (Z.to_nat r) ltac:(lia)) as (h & Eh & Nh). rewrite Z2Nat.id in Eh by lia. exists h.
  pose proof (H h (nth_error_In _ _ Nh)) as Hh. assert (2 ^ bits <= 2 ^ 62) by (apply pow2_le; lia).
  split; [exact Er|]. split; [exact Eh|]. split; [lia|]. split; [apply as_i64_id; lia|].
  assert (X : nth_error (ref_hints hints ref_idx) a = Some h).
  { unfold ref_hints. rewrite (map_nth_error _ _ _ Nr). f_equal. apply nth_error_nth. exact Nh. }
  clear - X. revert X. generalize (ref_hints hints ref_idx) as l. revert a. induction a; intros [|x l] X; try discriminate.
  - injection X as ->. reflexivity.
  - cbn [firstn app]. f_equal. apply IHa. exact X.
Qed.
Lemma map_snoc A B (f : A -> B) l x : map f (l ++ [x]) = map f l ++ [f x].
Proof. rewrite map_app. reflexivity. Qed.

Lemma found_step_before bits hints ref_idx cur hs h i fh : skip_typed bits hints ref_idx cur -> found nearest_before none_before bits cur hs i fh ->
  Forall (fun h => 0 <= h < 2 ^ 62) hs -> 0 <= h < 2 ^ 62 -> 0 <= cur < 2 ^ 62 ->
  (signed_dist bits h cur < 0 -> (if i <? 0 then Ok true else e <- rel_dist (as_i64 h) (as_i64 fh) true bits ;; Ok (0 <? e)) = 
     Ok (if i <? 0 then true else 0 <? signed_dist bits h fh)) /\
  found nearest_before none_before bits cur (hs ++ [h])
    (if (signed_dist bits h cur <? 0) && (if i <? 0 then true else 0 <? signed_dist bits h fh) then Z.of_nat (length hs) else i)
    (if (signed_dist bits h cur <? 0) && (if i <? 0 then true else 0 <? signed_dist bits h fh) then h else fh).
Proof.
  intros (B & _) F T Hh Hc. unfold found in *. rewrite map_snoc. destruct F as [[-> N]|(f & -> & Ef & N)].
  - cbn [Z.ltb]. change (-1 <? 0) with true. cbv iota. split; [intros _; reflexivity|]. rewrite andb_true_r.
    destruct (Z.ltb_spec (signed_dist bits h cur) 0).
    + right. exists (length hs). split; [reflexivity|]. split; [apply snoc_last|]. rewrite <- (map_length (fun h => signed_dist bits h cur) hs). apply before_new; assumption.
    + left. split; [reflexivity|]. apply before_none; assumption.
  - destruct (Z.ltb_spec (Z.of_nat f) 0); [lia|].
    assert (Hf : 0 <= fh < 2 ^ 62) by (rewrite Forall_forall in T; apply T; eapply nth_error_In; exact Ef).
    rewrite !as_i64_id by lia. rewrite rel_dist_ok by lia. cbn [bind]. split; [reflexivity|].
    assert (Nf : nth_error (map (fun h => signed_dist bits h cur) hs) f = Some (signed_dist bits fh cur)) by exact (map_nth_error (fun h => signed_dist bits h cur) f hs Ef).
    assert (Df : signed_dist bits fh cur < 0). { destruct N as (x & E & X & _). rewrite Nf in E. injection E as <-. exact X. }
    right. destruct (Z.ltb_spec (signed_dist bits h cur) 0) as [D|D]; cbn [andb].
    + rewrite (signed_dist_diff bits h fh cur) by lia. destruct (Z.ltb_spec 0 (signed_dist bits h cur - signed_dist bits fh cur)).
      * exists (length hs). split; [reflexivity|]. split; [apply snoc_last|]. rewrite <- (map_length (fun h => signed_dist bits h cur) hs). eapply before_better; try eassumption; lia.
      * exists f. split; [reflexivity|]. split; [apply snoc_old; exact Ef|]. eapply before_keep; try eassumption; lia.
    + exists f. split; [reflexivity|]. split; [apply snoc_old; exact Ef|]. eapply before_keep; try eassumption; lia.
Qed.
Lemma found_step_after bits hints ref_idx cur hs h i bh : skip_typed bits hints ref_idx cur -> found nearest_after none_after bits cur hs i bh ->
  Forall (fun h => 0 <= h < 2 ^ 62) hs -> 0 <= h < 2 ^ 62 -> 0 <= cur < 2 ^ 62 ->
  (0 < signed_dist bits h cur -> (if i <? 0 then Ok true else e <- rel_dist (as_i64 h) (as_i64 bh) true bits ;; Ok (e <? 0)) = 
     Ok (if i <? 0 then true else signed_dist bits h bh <? 0)) /\
  found nearest_after none_after bits cur (hs ++ [h])
    (if (0 <? signed_dist bits h cur) && (if i <? 0 then true else signed_dist bits h bh <? 0) then Z.of_nat (length hs) else i)
    (if (0 <? signed_dist bits h cur) && (if i <? 0 then true else signed_dist bits h bh <? 0) then h else bh).
Proof.
  intros (B & _) F T Hh Hc. unfold found in *. rewrite map_snoc. destruct F as [[-> N]|(f & -> & Ef & N)].
  - change (-1 <? 0) with true. cbv iota. split; [intros _; reflexivity|]. rewrite andb_true_r.
    destruct (Z.ltb_spec 0 (signed_dist bits h cur)).
    + right. exists (length hs). split; [reflexivity|]. split; [apply snoc_last|]. rewrite <- (map_length (fun h => signed_dist bits h cur) hs). apply after_new; assumption.
    + left. split; [reflexivity|]. apply after_none; assumption.
  - destruct (Z.ltb_spec (Z.of_nat f) 0); [lia|].
    assert (Hf : 0 <= bh < 2 ^ 62) by (rewrite Forall_forall in T; apply T; eapply nth_error_In; exact Ef).
    rewrite !as_i64_id by lia. rewrite rel_dist_ok by lia. cbn [bind]. split; [reflexivity|].
    assert (Nf : nth_error (map (fun h => signed_dist bits h cur) hs) f = Some (signed_dist bits bh cur)) by exact (map_nth_error (fun h => signed_dist bits h cur) f hs Ef).
    assert (Df : 0 < signed_dist bits bh cur). { destruct N as (x & E & X & _). rewrite Nf in E. injection E as <-. exact X. }
    right. destruct (Z.ltb_spec 0 (signed_dist bits h cur)) as [D|D]; cbn [andb].
    + rewrite (signed_dist_diff bits h bh cur) by lia. destruct (Z.ltb_spec (signed_dist bits h cur - signed_dist bits bh cur) 0).
      * exists (length hs). split; [reflexivity|]. split; [apply snoc_last|]. rewrite <- (map_length (fun h => signed_dist bits h cur) hs). eapply after_better; try eassumption; lia.
      * exists f. split; [reflexivity|]. split; [apply snoc_old; exact Ef|]. eapply after_keep; try eassumption; lia.
    + exists f. split; [reflexivity|]. split; [apply snoc_old; exact Ef|]. eapply after_keep; try eassumption; lia.
Qed.

Lemma found_range bits hints ref_idx cur a : skip_typed bits hints ref_idx cur -> Forall (fun h => 0 <= h < 2 ^ 62) (firstn a (ref_hints hints ref_idx)).
Proof.
  intros (B & L & L7 & R & H & C). apply Forall_forall. intros h I. assert (I' : In h (ref_hints hints ref_idx)) by (rewrite <- (firstn_skipn a); apply in_or_app; left; exact I). clear I. rename I' into I. unfold ref_hints in I. apply in_map_iff in I.
  destruct I as (r & <- & I). rewrite Forall_forall in R, H. specialize (R r I). specialize (H (nth (Z.to_nat r) hints 0) ltac:(apply nth_In; lia)).
  assert (2 ^ bits <= 2 ^ 62) by (apply pow2_le; lia). lia.
Qed.
Lemma ref_hints_length hints ref_idx : length (ref_hints hints ref_idx) = length ref_idx.
Proof. apply map_length. Qed.

Lemma skip_scan_found bits hints ref_idx cur : skip_typed bits hints ref_idx cur -> forall n a fi fh bi bh, (a + n = 7)%nat ->
  found nearest_before none_before bits cur (firstn a (ref_hints hints ref_idx)) fi fh ->
  found nearest_after none_after bits cur (firstn a (ref_hints hints ref_idx)) bi bh ->
  exists fi' fh' bi' bh', skip_scan (seq a n) hints ref_idx cur true bits (fi, fh, bi, bh) = Ok (fi', fh', bi', bh') /\
    found nearest_before none_before bits cur (ref_hints hints ref_idx) fi' fh' /\
    found nearest_after none_after bits cur (ref_hints hints ref_idx) bi' bh'.
Proof.
  intros T. pose proof T as (B & L & L7 & _ & _ & C). assert (P : 2 ^ bits <= 2 ^ 62) by (apply pow2_le; lia).
  induction n; intros a fi fh bi bh A F G.
  - assert (a = 7%nat) by lia. subst a. rewrite firstn_all2 in F, G by (rewrite ref_hints_length; lia). exists fi, fh, bi, bh. cbn [seq skip_scan]. tauto.
  - destruct (skip_read bits hints ref_idx cur a T ltac:(lia)) as (r & h & Er & Eh & Hh & Ah & S).
    cbn [seq skip_scan]. rewrite Er. cbn [bind]. rewrite Eh. cbn [bind]. rewrite Ah. rewrite rel_dist_ok by lia. cbn [bind].
    pose proof (found_range bits hints ref_idx cur a T) as FR.
    destruct (found_step_before bits hints ref_idx cur _ h fi fh T F FR Hh ltac:(lia)) as [F1 F2].
    destruct (found_step_after bits hints ref_idx cur _ h bi bh T G FR Hh ltac:(lia)) as [G1 G2].
    rewrite Ah in F1, G1.
    assert (La : length (firstn a (ref_hints hints ref_idx)) = a) by (rewrite firstn_length, ref_hints_length; lia).
    rewrite La, <- S in F2, G2.
    destruct (Z.ltb_spec (signed_dist bits h cur) 0) as [D|D].
    + destruct (Z.ltb_spec 0 (signed_dist bits h cur)); [lia|]. rewrite F1 by lia. cbn [andb] in F2, G2. cbn [bind].
      destruct (if fi <? 0 then true else 0 <? signed_dist bits h fh); apply IHn; (lia || assumption).
    + cbn [andb] in F2. destruct (Z.ltb_spec 0 (signed_dist bits h cur)) as [D'|D'].
      * rewrite G1 by lia. cbn [bind]. cbn [andb] in G2.
        destruct (if bi <? 0 then true else signed_dist bits h bh <? 0); apply IHn; (lia || assumption).
      * cbn [bind]. cbn [andb] in G2. apply IHn; (lia || assumption).
Qed.
Lemma skip_scan2_found bits hints ref_idx cur fh : skip_typed bits hints ref_idx cur -> 0 <= fh < 2 ^ bits -> forall n a si sh, (a + n = 7)%nat ->
  found nearest_before none_before bits fh (firstn a (ref_hints hints ref_idx)) si sh ->
  exists si' sh', skip_scan2 (seq a n) hints ref_idx fh true bits (si, sh) = Ok (si', sh') /\
    found nearest_before none_before bits fh (ref_hints hints ref_idx) si' sh'.
Proof.
  intros T0 Hf. assert (T : skip_typed bits hints ref_idx fh) by (unfold skip_typed in *; tauto). clear T0.
  pose proof T as (B & L & L7 & _). assert (P : 2 ^ bits <= 2 ^ 62) by (apply pow2_le; lia).
  induction n; intros a si sh A F.
  - assert (a = 7%nat) by lia. subst a. rewrite firstn_all2 in F by (rewrite ref_hints_length; lia). exists si, sh. cbn [seq skip_scan2]. tauto.
  - destruct (skip_read bits hints ref_idx fh a T ltac:(lia)) as (r & h & Er & Eh & Hh & Ah & S).
    cbn [seq skip_scan2]. rewrite Er. cbn [bind]. rewrite Eh. cbn [bind]. rewrite Ah. rewrite (as_i64_id fh) by lia. rewrite rel_dist_ok by lia. cbn [bind].
    pose proof (found_range bits hints ref_idx fh a T) as FR.
    destruct (found_step_before bits hints ref_idx fh _ h si sh T F FR Hh ltac:(lia)) as [F1 F2].
    rewrite Ah in F1.
    assert (La : length (firstn a (ref_hints hints ref_idx)) = a) by (rewrite firstn_length, ref_hints_length; lia).
    rewrite La, <- S in F2.
    destruct (Z.ltb_spec (signed_dist bits h fh) 0) as [D|D].
    + rewrite F1 by lia. cbn [andb] in F2. cbn [bind].
      destruct (if si <? 0 then true else 0 <? signed_dist bits h sh); apply IHn; (lia || assumption).
    + cbn [andb] in F2. cbn [bind]. apply IHn; (lia || assumption).
Qed.
Lemma nearest_before_some d f : nearest_before d f -> ~ none_before d.
Proof. intros (x & E & X & _) N. apply nth_error_In in E. specialize (N x E). lia. Qed.
Lemma nearest_after_some d f : nearest_after d f -> ~ none_after d.
Proof. intros (x & E & X & _) N. apply nth_error_In in E. specialize (N x E). lia. Qed.

(** The frames found are those of the standard. *)
Lemma skip_correct bits hints ref_idx cur : skip_typed bits hints ref_idx cur -> exists r,
  skip_mode false true true bits hints ref_idx cur = Ok r /\ av1_skip bits (ref_hints hints ref_idx) cur r.
Proof.
  intros T. pose proof T as (B & L & L7 & _ & _ & C). unfold skip_mode. cbn [orb negb]. unfold upto.
  destruct (skip_scan_found bits hints ref_idx cur T 7 0 (-1) 0 (-1) 0 eq_refl) as (fi & fh & bi & bh & E & F & G).
  { left. split; [reflexivity|]. intros x []. } { left. split; [reflexivity|]. intros x []. }
  change (Z.to_nat REFS_PER_FRAME) with 7%nat. rewrite E. cbn [bind]. unfold av1_skip. cbv zeta.
  destruct F as [[-> N]|(f & -> & Ef & N)].
  - exists None. split; [reflexivity|]. left. tauto.
  - destruct (Z.ltb_spec (Z.of_nat f) 0); [lia|]. destruct G as [[-> M]|(b & -> & Eb & M)].
    + change (0 <=? -1) with false. cbv iota.
      assert (Hf : 0 <= fh < 2 ^ bits).
      { apply nth_error_In in Ef. unfold ref_hints in Ef. apply in_map_iff in Ef. destruct Ef as (r & <- & I). destruct T as (_ & _ & _ & R & H' & _).
        rewrite Forall_forall in R, H'. specialize (R r I). apply H'. apply nth_In. lia. }
      destruct (skip_scan2_found bits hints ref_idx cur fh T Hf 7 0 (-1) 0 eq_refl) as (si & sh & E2 & F2).
      { left. split; [reflexivity|]. intros x []. }
      rewrite E2. cbn [bind]. assert (X : nth f (ref_hints hints ref_idx) 0 = fh) by (apply nth_error_nth; exact Ef).
      destruct F2 as [[-> K]|(s & -> & Es & K)].
      * exists None. split; [reflexivity|]. right. right. exists f. split; [exact N|]. split; [exact M|]. rewrite X. left. tauto.
      * destruct (Z.ltb_spec (Z.of_nat s) 0); [lia|]. eexists. split; [reflexivity|]. right. right. exists f. split; [exact N|]. split; [exact M|]. rewrite X.
        right. exists s. split; [exact K|]. unfold Min, Max. do 2 f_equal; destruct (Z.of_nat f <? Z.of_nat s) eqn:Q, (Z.of_nat s <? Z.of_nat f) eqn:Q2; lia.
    + destruct (Z.leb_spec 0 (Z.of_nat b)); [|lia]. eexists. split; [reflexivity|]. right. left. exists f, b. split; [exact N|]. split; [exact M|].
      unfold Min, Max. do 2 f_equal; destruct (Z.of_nat f <? Z.of_nat b) eqn:Q, (Z.of_nat b <? Z.of_nat f) eqn:Q2; lia.
Qed.
Lemma skip_unique bits hs cur r r' : av1_skip bits hs cur r -> av1_skip bits hs cur r' -> r = r'.
Proof.
  assert (U : forall d i j, nearest_before d i -> nearest_before d j -> i = j).
  { intros d i j (x & Ex & X & Hx) (y & Ey & Y & Hy). destruct (Hx j y Ey Y) as [A1 A2], (Hy i x Ex X) as [B1 B2].
    destruct (Nat.lt_trichotomy i j) as [Q|[Q|Q]]; [specialize (B2 Q); lia|exact Q|specialize (A2 Q); lia]. }
  assert (V : forall d i j, nearest_after d i -> nearest_after d j -> i = j).
  { intros d i j (x & Ex & X & Hx) (y & Ey & Y & Hy). destruct (Hx j y Ey Y) as [A1 A2], (Hy i x Ex X) as [B1 B2].
    destruct (Nat.lt_trichotomy i j) as [Q|[Q|Q]]; [specialize (B2 Q); lia|exact Q|specialize (A2 Q); lia]. }
  unfold av1_skip. cbv zeta. intros [[A ->]|[(f & b & A & A' & ->)|(f & A & A' & Q)]] [[B ->]|[(f' & b' & B & B' & ->)|(f' & B & B' & Q')]];
    try reflexivity; try (match goal with H : nearest_before ?d _, K : none_before ?d |- _ => destruct (nearest_before_some _ _ H K) end); try (match goal with H : nearest_after ?d _, K : none_after ?d |- _ => destruct (nearest_after_some _ _ H K) end).
  - rewrite (U _ _ _ A B), (V _ _ _ A' B'). reflexivity.
  - rewrite <- (U _ _ _ A B) in *. destruct Q as [[C ->]|(g & C & ->)], Q' as [[C' ->]|(g' & C' & ->)]; try reflexivity;
      try (match goal with H : nearest_before ?d _, K : none_before ?d |- _ => destruct (nearest_before_some _ _ H K) end). rewrite (U _ _ _ C C'). reflexivity.
Qed.
(** Not searched for an intra frame, without reference selection or order hints. *)
Lemma skip_none intra select enable bits hints ref_idx cur : intra = true \/ select = false \/ enable = false -> skip_mode intra select enable bits hints ref_idx cur = Ok None.
Proof. intros [->|[->| ->]]; unfold skip_mode; [reflexivity|rewrite orb_true_r; reflexivity|rewrite !orb_true_r; reflexivity]. Qed.

(** ** Global motion *)
(** The type that the flags of a reference ask for. *)
Definition gm_typ (p : gmp) (i : nat) : Z :=
  if nth i (gm_global p) false then if nth i (gm_rot p) false then 2 else if nth i (gm_trans p) false then 1 else 3 else 0.
(** The parameters kept for a type: those of the caller are gone. *)
Definition gm_kept (t : Z) : list Z := if t =? 2 then [0; 0; 65536; 0; 0; - 65536] else av1_identity.

Lemma gm_reset_ok types par : length types = 8%nat -> length par = 8%nat -> gm_reset types par =
  Ok (firstn 1 types ++ repeat 0 6 ++ skipn 7 types, firstn 1 par ++ repeat av1_identity 6 ++ skipn 7 par).
Proof.
  intros L L'. do 9 (destruct types as [|? types]; try discriminate). do 9 (destruct par as [|? par]; try discriminate). reflexivity.
Qed.
Lemma gm_intra out hp p types par prev : length types = 8%nat -> length par = 8%nat -> exists types' par',
  enc_gm out true hp p types par prev = Ok (out, types', par') /\
  (forall i, (1 <= i <= 6)%nat -> nth_error types' i = Some 0 /\ nth_error par' i = Some av1_identity) /\
  nth_error types' 7 = nth_error types 7 /\ nth_error par' 7 = nth_error par 7.
Proof.
  intros L L'. do 2 eexists. split; [unfold enc_gm; rewrite gm_reset_ok by assumption; reflexivity|].
  do 9 (destruct types as [|? types]; try discriminate). do 9 (destruct par as [|? par]; try discriminate). cbn [firstn skipn repeat app].
  split; [|split; reflexivity]. intros i I. do 7 (destruct i; [try lia; split; reflexivity|]). lia.
Qed.

Lemma idx_nth_inv A (l : list A) (i : nat) x : idx l (Z.of_nat i) = Ok x -> nth_error l i = Some x.
Proof. unfold idx. intros H. destruct (Z.of_nat i <? 0) eqn:E; [lia|]. rewrite Nat2Z.id in H. destruct (nth_error l i); [congruence|discriminate]. Qed.
Lemma put_inv A (l l' : list A) (i : nat) x : put l (Z.of_nat i) x = Ok l' -> (i < length l)%nat /\ l' = set_nth i x l.
Proof.
  unfold put. intros H. apply bind_inv in H. destruct H as (y & E & H). rewrite Nat2Z.id in H. injection H as <-.
  apply idx_nth_inv in E. split; [|reflexivity]. apply nth_error_Some. congruence.
Qed.
Lemma enc_gm_type_inv out i p out' t : enc_gm_type out (Z.of_nat i) p = Ok (out', t) -> t = gm_typ p i.
Proof.
  unfold enc_gm_type, gm_typ. intros H. apply bind_inv in H. destruct H as (g & G & H). apply idx_nth_inv in G. rewrite (nth_error_nth _ _ _ G).
  destruct g; [|injection H as _ <-; reflexivity]. apply bind_inv in H. destruct H as (r & R & H). apply idx_nth_inv in R. rewrite (nth_error_nth _ _ _ R).
  destruct r; [injection H as _ <-; reflexivity|]. apply bind_inv in H. destruct H as (u & U & H). apply idx_nth_inv in U. rewrite (nth_error_nth _ _ _ U).
  injection H as _ <-. destruct u; reflexivity.
Qed.
Lemma enc_gm_one_inv out hp t prev out' par : t = 0 \/ t = 1 \/ t = 2 \/ t = 3 ->
  enc_gm_one out hp t identity_params prev = Ok (out', par) -> par = gm_kept t.
Proof.
  intros T H. unfold enc_gm_one in H. destruct T as [->|[->|[->| ->]]].
  - cbn in H. injection H as _ <-. reflexivity.
  - change (ROTZOOM <=? 1) with false in H. change (TRANSLATION <=? 1) with true in H. cbv iota in H. cbn [bind] in H.
    apply bind_inv in H. destruct H as (? & _ & H). apply bind_inv in H. destruct H as (? & _ & H). injection H as _ <-. reflexivity.
  - change (ROTZOOM <=? 2) with true in H. change (TRANSLATION <=? 2) with true in H. change (2 =? AFFINE) with false in H. cbv iota in H.
    apply bind_inv in H. destruct H as ([o q] & E & H). apply bind_inv in E. destruct E as (? & _ & E). apply bind_inv in E. destruct E as (? & _ & E).
    cbn in E. injection E as _ <-.
    apply bind_inv in H. destruct H as (? & _ & H). apply bind_inv in H. destruct H as (? & _ & H). injection H as _ <-. reflexivity.
  - change (ROTZOOM <=? 3) with true in H. change (TRANSLATION <=? 3) with true in H. change (3 =? AFFINE) with true in H. cbv iota in H.
    apply bind_inv in H. destruct H as ([o q] & E & H). do 4 (apply bind_inv in E; destruct E as (? & _ & E)). injection E as _ <-.
    do 2 (apply bind_inv in H; destruct H as (? & _ & H)). injection H as _ <-. reflexivity.
Qed.
Lemma gm_typ_cases p i : gm_typ p i = 0 \/ gm_typ p i = 1 \/ gm_typ p i = 2 \/ gm_typ p i = 3.
Proof. unfold gm_typ. destruct (nth i (gm_global p) false), (nth i (gm_rot p) false), (nth i (gm_trans p) false); tauto. Qed.
Lemma nth_set_other A (l : list A) i j x : i <> j -> nth_error (set_nth i x l) j = nth_error l j.
Proof. revert i j. induction l; intros [|i] [|j] N; try reflexivity; try (now destruct N). cbn. apply IHl. lia. Qed.
Lemma nth_set_same A (l : list A) i x : (i < length l)%nat -> nth_error (set_nth i x l) i = Some x.
Proof. revert i. induction l; intros [|i] N; cbn in *; try lia; [reflexivity|]. apply IHl. lia. Qed.

Lemma enc_gm_loop_inv hp p prev : forall rfs out types par out' types' par', NoDup rfs ->
  (forall i, In i rfs -> nth_error par i = Some identity_params) ->
  enc_gm_loop out rfs hp p types par prev = Ok (out', types', par') -> forall i,
  (In i rfs -> nth_error types' i = Some (gm_typ p i) /\ nth_error par' i = Some (gm_kept (gm_typ p i))) /\
  (~ In i rfs -> nth_error types' i = nth_error types i /\ nth_error par' i = nth_error par i).
Proof.
  induction rfs as [|a rfs IH]; intros out types par out' types' par' ND I H i.
  - cbn in H. injection H as _ <- <-. cbn. tauto.
  - inversion ND as [|? ? Na ND']. subst. cbn [enc_gm_loop] in H.
    apply bind_inv in H. destruct H as ([o t] & T & H). apply enc_gm_type_inv in T. subst t.
    apply bind_inv in H. destruct H as (ty & P & H). apply put_inv in P. destruct P as [La ->].
    apply bind_inv in H. destruct H as (g & G & H). apply idx_nth_inv in G. rewrite (I a (or_introl eq_refl)) in G. injection G as <-.
    apply bind_inv in H. destruct H as (pv & _ & H).
    apply bind_inv in H. destruct H as ([o' g'] & G & H). apply enc_gm_one_inv in G; [|apply gm_typ_cases]. subst g'.
    apply bind_inv in H. destruct H as (pa & P & H). apply put_inv in P. destruct P as [Lp ->].
    assert (I' : forall j, In j rfs -> nth_error (set_nth a (gm_kept (gm_typ p a)) par) j = Some identity_params).
    { intros j J. rewrite nth_set_other; [apply I; right; exact J|intros ->; contradiction]. }
    pose proof (IH _ _ _ _ _ _ ND' I' H i) as [X Y].
    split.
    + intros [<-|J]; [|apply X; exact J]. destruct (Y Na) as [Y1 Y2]. rewrite Y1, Y2, !nth_set_same by assumption. split; reflexivity.
    + intros N. destruct (Y ltac:(intros J; apply N; right; exact J)) as [Y1 Y2]. rewrite Y1, Y2.
      rewrite !nth_set_other by (intros ->; apply N; left; reflexivity). split; reflexivity.
Qed.
(** Whatever the caller put into gm_params: afterwards there are only identities and,
    for rotzoom, a matrix with the wrong sign on the diagonal; ALTREF is not touched. *)
Lemma gm_inter_kept out hp p types par prev out' types' par' : length types = 8%nat -> length par = 8%nat ->
  enc_gm out false hp p types par prev = Ok (out', types', par') ->
  (forall i, (1 <= i <= 6)%nat -> nth_error types' i = Some (gm_typ p i) /\ nth_error par' i = Some (gm_kept (gm_typ p i))) /\
  nth_error types' 7 = nth_error types 7 /\ nth_error par' 7 = nth_error par 7.
Proof.
  intros L L' H. unfold enc_gm in H. rewrite gm_reset_ok in H by assumption. cbn [bind] in H.
  assert (ND : NoDup gm_refs) by (unfold gm_refs; repeat constructor; cbn; lia).
  do 9 (destruct types as [|? types]; try discriminate). do 9 (destruct par as [|? par]; try discriminate). cbn [firstn skipn repeat app] in H.
  match type of H with enc_gm_loop _ _ _ _ _ ?q _ = _ => assert (I : forall i, In i gm_refs -> nth_error q i = Some identity_params) end.
  { intros i. unfold gm_refs. cbn [In]. intros K. repeat (destruct K as [<-|K]; [reflexivity|]). destruct K. }
  pose proof (enc_gm_loop_inv hp p prev gm_refs _ _ _ _ _ _ ND I H) as X.
  split.
  - intros i K. apply X. unfold gm_refs. cbn. lia.
  - destruct (X 7%nat) as [_ Y]. apply Y. unfold gm_refs. cbn. lia.
Qed.
(** The bits do not depend on the caller's parameters either. *)
Lemma gm_inter_same out intra hp p types par types2 par2 prev : length types = 8%nat -> length par = 8%nat -> length types2 = 8%nat -> length par2 = 8%nat ->
  (r <- enc_gm out intra hp p types par prev ;; Ok (fst (fst r))) = (r <- enc_gm out intra hp p types2 par2 prev ;; Ok (fst (fst r))).
Proof.
  intros L L' L2 L2'. unfold enc_gm. rewrite !gm_reset_ok by assumption. cbn [bind]. destruct intra; [reflexivity|].
  do 9 (destruct types as [|? types]; try discriminate). do 9 (destruct par as [|? par]; try discriminate).
  do 9 (destruct types2 as [|? types2]; try discriminate). do 9 (destruct par2 as [|? par2]; try discriminate). cbn [firstn skipn repeat app].
  assert (G : forall rfs out (t t2 : list Z) (q q2 : list (list Z)), length t = length t2 -> length q = length q2 -> 
    (forall i, In i rfs -> nth_error q i = Some identity_params /\ nth_error q2 i = Some identity_params) -> NoDup rfs ->
    (r <- enc_gm_loop out rfs hp p t q prev ;; Ok (fst (fst r))) = (r <- enc_gm_loop out rfs hp p t2 q2 prev ;; Ok (fst (fst r)))).
  { clear. induction rfs as [|a rfs IH]; intros out t t2 q q2 Lt Lq I ND; [reflexivity|]. inversion ND as [|? ? Na ND']. subst. cbn [enc_gm_loop].
    destruct (enc_gm_type out (Z.of_nat a) p) as [[o ty]| |] eqn:T; cbn [bind]; try reflexivity.
    apply enc_gm_type_inv in T. subst ty. destruct (I a (or_introl eq_refl)) as [Q Q2].
    assert (Lt' : forall A (l l2 : list A) x, length l = length l2 -> (put l (Z.of_nat a) x = Panic /\ put l2 (Z.of_nat a) x = Panic) \/
      ((a < length l)%nat /\ put l (Z.of_nat a) x = Ok (set_nth a x l) /\ put l2 (Z.of_nat a) x = Ok (set_nth a x l2))).
    { intros A l l2 x E. destruct (Nat.lt_ge_cases a (length l)).
      - right. split; [assumption|]. rewrite !put_ok by lia. tauto.
      - left. unfold put. rewrite !idx_miss by (unfold len; lia). tauto. }
    destruct (Lt' _ t t2 (gm_typ p a) Lt) as [[-> ->]|(_ & -> & ->)]; [reflexivity|]. cbn [bind].
    rewrite (idx_nth _ _ _ _ Q), (idx_nth _ _ _ _ Q2). cbn [bind]. destruct (idx prev (Z.of_nat a)) as [l| |]; cbn [bind]; try reflexivity.
    destruct (enc_gm_one o hp (gm_typ p a) identity_params l) as [[o' g]| |]; cbn [bind]; try reflexivity.
    destruct (Lt' _ q q2 g Lq) as [[-> ->]|(_ & -> & ->)]; [reflexivity|]. cbn [bind].
    apply IH; rewrite ?set_nth_length; try assumption. intros i J. rewrite !nth_set_other by (intros ->; contradiction). apply I. right. exact J. }
  apply G; try reflexivity.
  - intros i. unfold gm_refs. cbn [In]. intros K. repeat (destruct K as [<-|K]; [split; reflexivity|]). destruct K.
  - unfold gm_refs. repeat constructor; cbn; lia.
Qed.

(** Every reader of a global motion parameter only takes bits away. *)
Definition shrinks {A : Type} (r : list Z -> option (A * list Z)) : Prop := forall q v k, r q = Some (v, k) -> (length k <= length q)%nat.
Lemma rd_shrinks n : shrinks (rd n).
Proof. intros q v k H. apply rd_length in H. lia. Qed.
Lemma rd1_shrinks : shrinks rd1.
Proof. intros q v k H. apply rd1_length in H. lia. Qed.
Lemma rd_ns_shrinks n : shrinks (rd_ns n).
Proof.
  intros q v k H. unfold rd_ns in H. apply obind_inv in H. destruct H as ((x & r) & E & H). apply rd_length in E.
  destruct (_ <? _); [injection H as _ <-; lia|]. apply obind_inv in H. destruct H as ((y & s) & F & H). apply rd_length in F. injection H as _ <-. lia.
Qed.
Lemma rd_global_shrinks t hp i p : shrinks (rd_global_param t hp i p).
Proof.
  assert (S : forall fuel i mk n, shrinks (rd_subexp_loop fuel i mk n)).
  { induction fuel; intros j mk n q v k H; [discriminate|]. cbn [rd_subexp_loop] in H. cbv zeta in H. destruct (n <=? _).
    - apply obind_inv in H. destruct H as ((x & r) & E & H). apply rd_ns_shrinks in E. injection H as _ <-. exact E.
    - apply obind_inv in H. destruct H as ((x & r) & E & H). apply rd1_shrinks in E. destruct x.
      + apply IHfuel in H. lia.
      + apply obind_inv in H. destruct H as ((y & s) & F & H). apply rd_shrinks in F. injection H as _ <-. lia. }
  intros q v k H. unfold rd_global_param in H. cbv zeta in H. destruct (if i <? 2 then _ else _) as [ab pb].
  apply obind_inv in H. destruct H as ((x & r) & E & H). injection H as _ <-.
  unfold rd_signed_subexp in E. apply obind_inv in E. destruct E as ((y & s) & E & H). injection H as _ <-.
  unfold rd_unsigned_subexp in E. apply obind_inv in E. destruct E as ((z & u) & E & H).
  assert (s = u) by (destruct (_ <=? _) in H; congruence). subst u. eapply S. exact E.
Qed.
Lemma rd_gm_one_less hp prev q v k : rd_gm_one hp prev q = Some (v, k) -> (length k < length q)%nat.
Proof.
  unfold rd_gm_one. intros H. apply obind_inv in H. destruct H as ((t & r) & E & H).
  assert (L : (length r < length q)%nat).
  { unfold rd_gm_type in E. apply obind_inv in E. destruct E as ((g & r1) & E1 & E). apply rd1_length in E1. destruct g; [|injection E as _ <-; lia].
    apply obind_inv in E. destruct E as ((g2 & r2) & E2 & E). apply rd1_length in E2. destruct g2; [injection E as _ <-; lia|].
    apply obind_inv in E. destruct E as ((g3 & r3) & E3 & E). apply rd1_length in E3. injection E as _ <-. lia. }
  clear E. cbv zeta in H. apply obind_inv in H. destruct H as (((((p2 & p3) & p4) & p5) & r1) & E & H).
  assert (L1 : (length r1 <= length r)%nat).
  { destruct (2 <=? t); [|injection E as <- <- <- <- <-; lia]. ob E. ob E. apply rd_global_shrinks in E0, E1. destruct (t =? 3).
    - ob E. ob E. apply rd_global_shrinks in E2, E3. injection E as <- <- <- <- <-. lia.
    - injection E as <- <- <- <- <-. lia. }
  clear E. apply obind_inv in H. destruct H as (((p0 & p1) & r2) & E & H). injection H as _ <-.
  destruct (1 <=? t); [|injection E as _ _ <-; lia]. ob E. ob E. apply rd_global_shrinks in E0, E1. injection E as _ _ <-. lia.
Qed.
Lemma enc_gm_loop_identity hp p prev : forall rfs out types par,
  (forall i, In i rfs -> nth_error (gm_global p) i = Some false /\ (i < length types)%nat /\ (i < length prev)%nat /\ nth_error par i = Some identity_params) ->
  exists types' par', enc_gm_loop out rfs hp p types par prev = Ok (out ++ repeat 0 (length rfs), types', par').
Proof.
  induction rfs as [|a rfs IH]; intros out types par I.
  - do 2 eexists. cbn. rewrite app_nil_r. reflexivity.
  - destruct (I a (or_introl eq_refl)) as (G & Lt & Lp & Q). cbn [enc_gm_loop]. unfold enc_gm_type at 1. rewrite (idx_nth _ _ _ _ G). cbn [bind]. cbv iota.
    rewrite put_ok by exact Lt. cbn [bind]. rewrite (idx_nth _ _ _ _ Q). cbn [bind]. destruct (idx_lt _ prev a Lp) as (pv & -> & _). cbn [bind].
    unfold enc_gm_one at 1. change (ROTZOOM <=? IDENTITY) with false. change (TRANSLATION <=? IDENTITY) with false. cbv iota. cbn [bind].
    rewrite put_ok by (apply nth_error_Some; congruence). cbn [bind].
    destruct (IH (pbit out false) (set_nth a IDENTITY types) (set_nth a identity_params par)) as (t' & p' & E).
    { intros i J. destruct (I i (or_intror J)) as (G' & Lt' & Lp' & Q'). rewrite set_nth_length. repeat split; try assumption.
      destruct (Nat.eq_dec a i) as [->|N]; [apply nth_set_same; apply nth_error_Some; congruence|rewrite nth_set_other by exact N; exact Q']. }
    exists t', p'. rewrite E. rewrite pbit_app. rewrite <- app_assoc. reflexivity.
Qed.
(** All six references global identity: six bits are written, a decoder wants seven. *)
Lemma gm_identity_never out hp p types par prev : length types = 8%nat -> length par = 8%nat -> (7 <= length prev)%nat -> 
  (forall i, (1 <= i <= 6)%nat -> nth_error (gm_global p) i = Some false) -> exists types' par',
  enc_gm out false hp p types par prev = Ok (out ++ repeat 0 6, types', par') /\
  forall prev7, length prev7 = 7%nat -> forall v, never_decodes (repeat 0 6) (rd_gm hp prev7) v.
Proof.
  intros L L' Lp I. unfold enc_gm. rewrite gm_reset_ok by assumption. cbn [bind].
  do 9 (destruct types as [|? types]; try discriminate). do 9 (destruct par as [|? par]; try discriminate). cbn [firstn skipn repeat app].
  match goal with |- context [enc_gm_loop _ _ _ _ ?t ?q _] => pose proof (enc_gm_loop_identity hp p prev gm_refs out t q) as X end.
  destruct X as (t' & p' & E).
  { intros i. unfold gm_refs. cbn [In]. intros K. repeat (destruct K as [<-|K]; [split; [apply I; lia|]; split; [cbn [length]; lia|]; split; [lia|reflexivity]|]). destruct K. }
  exists t', p'. split; [exact E|]. intros prev7 L7 v k H. unfold rd_gm in H. do 8 (destruct prev7 as [|? prev7]; try discriminate).
  assert (S : forall l q w r, rd_each l (rd_gm_one hp) q = Some (w, r) -> (length r + length l <= length q)%nat).
  { clear. induction l as [|a l IH]; intros q w r H; cbn [rd_each] in H; [injection H as _ <-; cbn; lia|]. ob H. ob H. injection H as _ <-.
    apply rd_gm_one_less in E. apply IH in E0. cbn [length]. lia. }
  apply S in H. rewrite app_length in H. cbn [length repeat] in H. clear - H. lia.
Qed.
