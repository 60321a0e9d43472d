(** Proofs about the prediction and filter tables. *)
From Coq Require Import ZArith List Bool Lia.
From Verif Require Import FilterTables FilterSpec BlockTables LrModel.
Import ListNotations.
Open Scope Z_scope.

Definition upto (n : Z) : list Z := map Z.of_nat (seq 0 (Z.to_nat n)).
Lemma upto_all n f : forallb f (upto n) = true -> forall i, 0 <= i < n -> f i = true.
Proof.
  intros H i I. rewrite forallb_forall in H. apply H, in_map_iff. exists (Z.to_nat i). split; [lia|]. apply in_seq. lia.
Qed.
Fixpoint total (l : list Z) : Z := match l with [] => 0 | x :: r => x + total r end.
Definition zs_eqb (a b : list Z) : bool := if list_eq_dec Z.eq_dec a b then true else false.
Lemma zs_eqb_eq a b : zs_eqb a b = true -> a = b.
Proof. unfold zs_eqb. destruct (list_eq_dec Z.eq_dec a b); [auto|discriminate]. Qed.

Lemma filtered_constant taps v : filtered taps (repeat v (length taps)) = total taps * v.
Proof. induction taps as [|t ts IH]; cbn [filtered length repeat total]; [lia|rewrite IH; lia]. Qed.
Lemma filtered_app a b x y : length a = length x -> filtered (a ++ b) (x ++ y) = filtered a x + filtered b y.
Proof. revert x. induction a as [|t a IH]; intros [|s x] L; cbn in *; try discriminate; [reflexivity|]. rewrite IH by lia. lia. Qed.
Lemma filtered_rev a : forall x, length a = length x -> filtered (rev a) (rev x) = filtered a x.
Proof.
  induction a as [|t a IH]; intros [|s x] L; cbn [length] in L; try discriminate; [reflexivity|]. cbn [rev filtered].
  rewrite filtered_app by (rewrite !rev_length; lia). rewrite IH by lia. cbn [filtered]. lia.
Qed.
Lemma filtered_bound taps m : forall x, 0 <= m -> length taps = length x -> Forall (fun s => 0 <= s <= m) x ->
  total (map (fun t => Z.min t 0) taps) * m <= filtered taps x <= total (map (fun t => Z.max t 0) taps) * m.
Proof.
  induction taps as [|t ts IH]; intros [|s x] M L F; cbn [length] in L; try discriminate; cbn [filtered map total]; [lia|].
  inversion F as [|? ? F1 F2]; subst. specialize (IH x M ltac:(lia) F2). rewrite !Z.mul_add_distr_r.
  assert (Z.min t 0 * m <= t * s <= Z.max t 0 * m); [|lia]. destruct (Z.min_spec t 0) as [(A & ->)|(A & ->)], (Z.max_spec t 0) as [(B & ->)|(B & ->)]; nia.
Qed.

(** A table of [n] filters of 8 taps: unit gain, and taps of bounded total. *)
Definition good_filters (t : list (list Z)) (n low high : Z) : bool :=
  (Z.of_nat (length t) =? n) && forallb (fun f => (Z.of_nat (length f) =? 8) && (total f =? 128) &&
    (low <=? total (map (fun t => Z.min t 0) f)) && (total (map (fun t => Z.max t 0) f) <=? high)) t.
Lemma row_in {A} (t : list A) i x : row t i = Some x -> In x t.
Proof. unfold row. destruct (i <? 0); [discriminate|]. apply nth_error_In. Qed.
Lemma row_some {A} (t : list A) i n : Z.of_nat (length t) = n -> 0 <= i < n -> exists x, row t i = Some x.
Proof. intros L I. unfold row. replace (i <? 0) with false by lia. destruct (nth_error t (Z.to_nat i)) eqn:E; [eauto|]. apply nth_error_None in E. lia. Qed.
Lemma good_use t n low high k : good_filters t n low high = true -> 0 <= k < n -> exists f, row t k = Some f /\ length f = 8%nat /\
  (forall v, (filtered f (repeat v 8) + 64) / 128 = v) /\
  (forall m x, 0 <= m -> length x = 8%nat -> Forall (fun s => 0 <= s <= m) x -> low * m <= filtered f x <= high * m).
Proof.
  intros G K. unfold good_filters in G. apply andb_prop in G. destruct G as (L & G). apply Z.eqb_eq in L. destruct (row_some t k n L K) as (f & E).
  exists f. split; [exact E|]. rewrite forallb_forall in G. specialize (G f (row_in _ _ _ E)). repeat (apply andb_prop in G; destruct G as (G & ?)).
  assert (LF : length f = 8%nat) by lia. assert (TF : total f = 128) by lia. split; [exact LF|]. split.
  - intros v. rewrite <- LF, filtered_constant, TF. symmetry. apply (Z.div_unique _ _ _ 64); lia.
  - intros m x M LX F. pose proof (filtered_bound f m x M ltac:(lia) F). nia.
Qed.
Definition mirrored (t : list (list Z)) (n : Z) : bool :=
  forallb (fun k => match row t k, row t (n - k) with Some a, Some b => (k =? 0) || zs_eqb a (rev b) | Some _, None => k =? 0 | _, _ => false end) (upto n).
Lemma mirrored_use t n k f : mirrored t n = true -> 1 <= k < n -> row t k = Some f -> exists g, row t (n - k) = Some g /\
  forall x, length f = length x -> filtered f x = filtered g (rev x).
Proof.
  intros M K E. pose proof (upto_all _ _ M k ltac:(lia)) as X. cbv beta in X. rewrite E in X. destruct (row t (n - k)) as [g|]; [|lia]. exists g. split; [reflexivity|].
  intros x L. assert (EQ : f = rev g) by (apply zs_eqb_eq; destruct (zs_eqb f (rev g)); lia). subst f. rewrite <- (rev_involutive x) at 1. rewrite filtered_rev; [reflexivity|].
  rewrite rev_length in *. exact L.
Qed.

(** ** The three tables of filters *)
Lemma subpel kind k : 0 <= kind < 6 -> 0 <= k < 16 -> exists t f, row subpel_filters kind = Some t /\ row t k = Some f /\ length f = 8%nat /\
  (forall v, (filtered f (repeat v 8) + 64) / 128 = v) /\
  (forall m x, 0 <= m -> length x = 8%nat -> Forall (fun s => 0 <= s <= m) x -> -56 * m <= filtered f x <= 184 * m) /\
  (1 <= k -> exists g, row t (16 - k) = Some g /\ forall x, length x = 8%nat -> filtered f x = filtered g (rev x)).
Proof.
  intros I K. destruct (row_some subpel_filters kind 6 eq_refl I) as (t & E).
  assert (X : forallb (fun t => good_filters t 16 (-56) 184 && mirrored t 16) subpel_filters = true) by (vm_compute; reflexivity).
  rewrite forallb_forall in X. specialize (X t (row_in _ _ _ E)). apply andb_prop in X. destruct X as (G & M).
  destruct (good_use _ _ _ _ k G K) as (f & EF & L & C & B). exists t, f. repeat (split; [assumption|]). intros P.
  destruct (mirrored_use t 16 k f M ltac:(lia) EF) as (g & EG & R). exists g. split; [exact EG|]. intros x LX. apply R. congruence.
Qed.
Lemma warped k : 0 <= k < 193 -> exists f, row warped_filters k = Some f /\ length f = 8%nat /\
  (forall v, (filtered f (repeat v 8) + 64) / 128 = v) /\
  (forall m x, 0 <= m -> length x = 8%nat -> Forall (fun s => 0 <= s <= m) x -> -47 * m <= filtered f x <= 175 * m) /\
  (1 <= k < 192 -> exists g, row warped_filters (192 - k) = Some g /\ forall x, length x = 8%nat -> filtered f x = filtered g (rev x)).
Proof.
  intros K. assert (G : good_filters warped_filters 193 (-47) 175 = true) by (vm_compute; reflexivity).
  destruct (good_use _ _ _ _ k G K) as (f & EF & L & C & B). exists f. repeat (split; [assumption|]). intros P.
  assert (M : mirrored warped_filters 192 = true) by (vm_compute; reflexivity).
  destruct (mirrored_use _ 192 k f M ltac:(lia) EF) as (g & EG & R). exists g. split; [exact EG|]. intros x LX. apply R. congruence.
Qed.
Lemma upscale k : 0 <= k < 64 -> exists f, row upscale_filter k = Some f /\ length f = 8%nat /\
  (forall v, (filtered f (repeat v 8) + 64) / 128 = v) /\
  (forall m x, 0 <= m -> length x = 8%nat -> Forall (fun s => 0 <= s <= m) x -> -44 * m <= filtered f x <= 172 * m) /\
  (1 <= k -> exists g, row upscale_filter (64 - k) = Some g /\ forall x, length x = 8%nat -> filtered f x = filtered g (rev x)).
Proof.
  intros K. assert (G : good_filters upscale_filter 64 (-44) 172 = true) by (vm_compute; reflexivity).
  destruct (good_use _ _ _ _ k G K) as (f & EF & L & C & B). exists f. repeat (split; [assumption|]). intros P.
  assert (M : mirrored upscale_filter 64 = true) by (vm_compute; reflexivity).
  destruct (mirrored_use _ 64 k f M ltac:(lia) EF) as (g & EG & R). exists g. split; [exact EG|]. intros x LX. apply R. congruence.
Qed.

(** ** Reciprocals, masks, cosines *)
Lemma reciprocal i : 0 <= i <= 256 -> exists d, row div_lut i = Some d /\ 2 * Z.abs (d * (256 + i) - 2 ^ 22) <= 256 + i.
Proof.
  intros I. assert (X : forallb (fun i => match row div_lut i with Some d => 2 * Z.abs (d * (256 + i) - 2 ^ 22) <=? 256 + i | None => false end) (upto 257) = true) by (vm_compute; reflexivity).
  pose proof (upto_all _ _ X i ltac:(lia)) as Y. cbv beta in Y. destruct (row div_lut i) as [d|]; [|discriminate]. exists d. split; [reflexivity|]. apply Z.leb_le. exact Y.
Qed.
Fixpoint sorted (l : list Z) : bool := match l with x :: (y :: _) as r => (x <=? y) && sorted r | _ => true end.
Lemma sorted_le l : sorted l = true -> forall i j x y, (i <= j)%nat -> nth_error l i = Some x -> nth_error l j = Some y -> x <= y.
Proof.
  induction l as [|a l IH]; intros S i j x y L EX EY; [destruct i; discriminate|].
  assert (S' : sorted l = true) by (destruct l; [reflexivity|]; cbn in S; apply andb_prop in S; apply S).
  destruct i as [|i], j as [|j]; cbn in EX, EY; [injection EX as <-; injection EY as <-; lia| |lia|apply (IH S' i j); auto; lia].
  injection EX as <-. destruct l as [|b l]; [destruct j; discriminate|]. cbn in S. apply andb_prop in S. destruct S as (S & _).
  specialize (IH S' 0%nat j b y ltac:(lia) eq_refl EY). lia.
Qed.
Lemma sorted_row l i j x y : sorted l = true -> 0 <= i <= j -> row l i = Some x -> row l j = Some y -> x <= y.
Proof.
  intros S I. unfold row. destruct (i <? 0) eqn:A; [lia|]. destruct (j <? 0) eqn:B; [lia|]. apply sorted_le; [exact S|lia].
Qed.
(** Masks between 0 and 64 that grow. *)
Definition mask (l : list Z) (n : Z) : Prop := forall i j, 0 <= i <= j -> j < n -> exists x y, row l i = Some x /\ row l j = Some y /\ 0 <= x <= y /\ y <= 64.
Lemma mask_ok l n : Z.of_nat (length l) = n -> sorted l = true -> forallb (fun x => (0 <=? x) && (x <=? 64)) l = true -> mask l n.
Proof.
  intros L S R i j I J. destruct (row_some l i n L ltac:(lia)) as (x & EX). destruct (row_some l j n L ltac:(lia)) as (y & EY). exists x, y. split; [exact EX|]. split; [exact EY|].
  pose proof (sorted_row l i j x y S I EX EY). rewrite forallb_forall in R. pose proof (R x (row_in _ _ _ EX)). pose proof (R y (row_in _ _ _ EY)). lia.
Qed.
Lemma wedge_masks : mask wedge_master_vertical 64 /\ mask wedge_master_oblique_odd 64 /\ mask wedge_master_oblique_even 64 /\
  forall i, 0 <= i < 64 -> exists v v' o e, row wedge_master_vertical i = Some v /\ row wedge_master_vertical (63 - i) = Some v' /\
    row wedge_master_oblique_odd i = Some o /\ row wedge_master_oblique_even (63 - i) = Some e /\ v + v' = 64 /\ o + e = 64.
Proof.
  do 3 (split; [apply mask_ok; vm_compute; reflexivity|]). intros i I.
  assert (X : forallb (fun i => match row wedge_master_vertical i, row wedge_master_vertical (63 - i), row wedge_master_oblique_odd i, row wedge_master_oblique_even (63 - i) with
    | Some v, Some v', Some o, Some e => (v + v' =? 64) && (o + e =? 64) | _, _, _, _ => false end) (upto 64) = true) by (vm_compute; reflexivity).
  pose proof (upto_all _ _ X i I) as Y. cbv beta in Y. destruct (row wedge_master_vertical i), (row wedge_master_vertical (63 - i)), (row wedge_master_oblique_odd i), (row wedge_master_oblique_even (63 - i)); try discriminate.
  do 4 eexists. do 4 (split; [reflexivity|]). lia.
Qed.
Lemma overlap_masks : forall l n, In (l, n) [(obmc_mask_2, 2); (obmc_mask_4, 4); (obmc_mask_8, 8); (obmc_mask_16, 16); (obmc_mask_32, 32)] ->
  mask l n /\ row l (n - 1) = Some 64 /\ exists x, row l 0 = Some x /\ 32 < x.
Proof.
  intros l n I. repeat (destruct I as [E|I]; [injection E as <- <-; split; [apply mask_ok; vm_compute; reflexivity|]; split; [reflexivity|]; eexists; split; [reflexivity|lia]|]). destruct I.
Qed.
Lemma intra_weights : mask (rev ii_weights_1d) 128 /\ row ii_weights_1d 0 = Some 60 /\ row ii_weights_1d 127 = Some 1.
Proof. split; [apply mask_ok; vm_compute; reflexivity|]. split; reflexivity. Qed.
Lemma distance_weights i : 0 <= i < 4 -> exists a b, row quant_dist_lookup i = Some [a; b] /\ a + b = 16 /\ 0 < b < a.
Proof.
  intros I. assert (i = 0 \/ i = 1 \/ i = 2 \/ i = 3) as K by lia; destruct K as [K|[K|[K|K]]]; subst i; do 2 eexists; (split; [reflexivity|lia]).
Qed.
(** The addition theorem, up to rounding, for all arguments. *)
Lemma cos_periodic x : cos128 cos128_lookup x = cos128 cos128_lookup (x mod 256).
Proof. unfold cos128. rewrite Z.mod_mod by lia. reflexivity. Qed.
Lemma addition a b : exists p q s d, cos128 cos128_lookup a = Some p /\ cos128 cos128_lookup b = Some q /\ cos128 cos128_lookup (a + b) = Some s /\ cos128 cos128_lookup (a - b) = Some d /\
  Z.abs (2 * p * q - 4096 * (s + d)) <= 9696.
Proof.
  assert (X : forallb (fun a => forallb (fun b => match cos128 cos128_lookup a, cos128 cos128_lookup b, cos128 cos128_lookup (a + b), cos128 cos128_lookup (a - b) with
    | Some p, Some q, Some s, Some d => Z.abs (2 * p * q - 4096 * (s + d)) <=? 9696 | _, _, _, _ => false end) (upto 256)) (upto 256) = true) by (vm_compute; reflexivity).
  pose proof (upto_all _ _ X (a mod 256) (Z.mod_pos_bound a 256 eq_refl)) as Y. cbv beta in Y. pose proof (upto_all _ _ Y (b mod 256) (Z.mod_pos_bound b 256 eq_refl)) as W. cbv beta in W. clear X Y.
  rewrite (cos_periodic (a mod 256 + b mod 256)), (cos_periodic (a mod 256 - b mod 256)), <- Zplus_mod, <- Zminus_mod, <- !cos_periodic in W.
  destruct (cos128 cos128_lookup a) as [p|], (cos128 cos128_lookup b) as [q|], (cos128 cos128_lookup (a + b)) as [s|], (cos128 cos128_lookup (a - b)) as [d|]; try discriminate.
  exists p, q, s, d. do 4 (split; [reflexivity|]). apply Z.leb_le. exact W.
Qed.
Lemma cos_falls a b : 0 <= a < b -> b <= 64 -> exists p q, cos128 cos128_lookup a = Some p /\ cos128 cos128_lookup b = Some q /\ 0 <= q < p /\ p <= 4096.
Proof.
  intros A B. assert (X : forallb (fun a => forallb (fun b => match cos128 cos128_lookup a, cos128 cos128_lookup b with
    | Some p, Some q => if a <? b then (0 <=? q) && (q <? p) && (p <=? 4096) else true | _, _ => false end) (upto 65)) (upto 65) = true) by (vm_compute; reflexivity).
  pose proof (upto_all _ _ X a ltac:(lia)) as Y. cbv beta in Y. pose proof (upto_all _ _ Y b ltac:(lia)) as W. cbv beta in W. clear X Y.
  destruct (cos128 cos128_lookup a) as [p|], (cos128 cos128_lookup b) as [q|]; try discriminate. exists p, q. do 2 (split; [reflexivity|]). replace (a <? b) with true in W by lia. lia.
Qed.
Lemma cos_ends : cos128 cos128_lookup 0 = Some 4096 /\ cos128 cos128_lookup 64 = Some 0.
Proof. split; reflexivity. Qed.
(** The self guided filter. *)
Lemma self_guided set i : 0 <= set < 16 -> 0 <= i < 2 ->
  exists p s r e strength, row sgr_params set = Some p /\ row av1_sgr_params set = Some s /\ length p = 4%nat /\
    row p (2 * i) = Some r /\ row p (2 * i + 1) = Some e /\ row s i = Some (r, strength) /\
    (r = 0 -> e = 0) /\ (0 < r -> 0 < e /\ 2 * Z.abs (strength * ((2 * r + 1) ^ 4 * e) - 2 ^ 20) <= (2 * r + 1) ^ 4 * e).
Proof.
  intros S I.
  assert (X : forallb (fun set => forallb (fun i => match row sgr_params set, row av1_sgr_params set with
    | Some p, Some s => match row p (2 * i), row p (2 * i + 1), row s i with
      | Some r, Some e, Some (r', st) => (Nat.eqb (length p) 4) && (r =? r') && (if r =? 0 then e =? 0 else (0 <? r) && (0 <? e) && (2 * Z.abs (st * ((2 * r + 1) ^ 4 * e) - 2 ^ 20) <=? (2 * r + 1) ^ 4 * e))
      | _, _, _ => false end | _, _ => false end) (upto 2)) (upto 16) = true) by (vm_compute; reflexivity).
  pose proof (upto_all _ _ X set S) as Y. cbv beta in Y. pose proof (upto_all _ _ Y i I) as W. cbv beta in W. clear X Y.
  destruct (row sgr_params set) as [p|]; [|discriminate]. destruct (row av1_sgr_params set) as [s|]; [|discriminate].
  destruct (row p (2 * i)) as [r|] eqn:R; [|discriminate]. destruct (row p (2 * i + 1)) as [e|] eqn:E; [|discriminate]. destruct (row s i) as [[r' st]|] eqn:Q; [|discriminate].
  apply andb_prop in W. destruct W as [W Z3]. apply andb_prop in W. destruct W as [W1 W2]. apply Z.eqb_eq in W2. subst r'. apply Nat.eqb_eq in W1.
  exists p, s, r, e, st. do 2 (split; [reflexivity|]). split; [exact W1|]. do 3 (split; [assumption|]).
  destruct (Z.eqb_spec r 0) as [K|K].
  - split; [intros _; lia|lia].
  - split; [lia|]. intros _. apply andb_prop in Z3. destruct Z3 as [A B]. apply Z.leb_le in B. split; [lia|exact B].
Qed.
