(** Proofs about the quantizer tables: by computation over all of their entries. The
    matrices are put in a search tree first. *)
From Coq Require Import ZArith List Bool Lia FMapPositive.
From Verif Require Import QuantTables QuantSpec.
Import ListNotations.
Open Scope Z_scope.

Fixpoint fill (i : positive) (l : list Z) : PositiveMap.t Z :=
  match l with [] => PositiveMap.empty Z | x :: r => PositiveMap.add i x (fill (Pos.succ i) r) end.
Lemma find_fill l : forall i j, PositiveMap.find j (fill i l) = if (j <? i)%positive then None else nth_error l (Pos.to_nat j - Pos.to_nat i).
Proof.
  induction l as [|x l IH]; intros i j; cbn [fill].
  - rewrite PositiveMap.gempty. destruct (j <? i)%positive; [reflexivity|]. destruct (Pos.to_nat j - Pos.to_nat i)%nat; reflexivity.
  - destruct (Pos.eq_dec j i) as [->|N].
    + rewrite PositiveMap.gss, Pos.ltb_irrefl, Nat.sub_diag. reflexivity.
    + rewrite PositiveMap.gso by exact N. rewrite IH. destruct (Pos.ltb_spec j i), (Pos.ltb_spec j (Pos.succ i)); try lia; try reflexivity.
      replace (Pos.to_nat j - Pos.to_nat i)%nat with (S (Pos.to_nat j - Pos.to_nat (Pos.succ i))) by lia. reflexivity.
Qed.
Definition look (t : PositiveMap.t Z) (i : Z) : option Z := if i <? 0 then None else PositiveMap.find (Z.to_pos (i + 1)) t.
Lemma look_fill l i : look (fill 1 l) i = at_ l i.
Proof.
  unfold look, at_. destruct (Z.ltb_spec i 0); [reflexivity|]. rewrite find_fill. destruct (Pos.ltb_spec (Z.to_pos (i + 1)) 1) as [H0|H0]; [lia|].
  f_equal. lia.
Qed.

(** All numbers below [n]. *)
Definition upto (n : Z) : list Z := map Z.of_nat (seq 0 (Z.to_nat n)).
Lemma in_upto n i : 0 <= i < n -> In i (upto n).
Proof. intros H. apply in_map_iff. exists (Z.to_nat i). split; [lia|]. apply in_seq. lia. Qed.
Lemma upto_all n f : forallb f (upto n) = true -> forall i, 0 <= i < n -> f i = true.
Proof. intros H i I. rewrite forallb_forall in H. apply H, in_upto, I. Qed.

(** A check of every coefficient of every matrix, given how to look up a weight. *)
Definition every (check : (Z -> Z -> Z -> option Z) -> Z -> Z -> Z -> Z -> bool) : bool :=
  forallb (fun level => forallb (fun plane =>
    match at_ quantizer_matrix level with
    | Some planes =>
        match at_ planes plane with
        | Some l =>
            let t := fill 1 l in
            let w := fun size r c => match at_ qm_offset size with Some o => look t (o + r * qm_w size + c) | None => None end in
            forallb (fun size => forallb (fun r => forallb (fun c => check w level size r c) (upto (qm_w size))) (upto (qm_h size))) (upto 19)
        | None => false
        end
    | None => false
    end) (upto 2)) (upto 16).
Lemma every_all check : (forall w w' level size r c, (forall a b d, w a b d = w' a b d) -> check w level size r c = check w' level size r c) -> every check = true ->
  forall level plane size r c, table level plane -> coefficient size r c -> check (weight quantizer_matrix qm_offset level plane) level size r c = true.
Proof.
  intros X H level plane size r c (L & P) (S & R & C). unfold every in H.
  pose proof (upto_all _ _ H level L) as H1. cbv beta in H1. pose proof (upto_all _ _ H1 plane P) as H2. cbv beta in H2.
  destruct (at_ quantizer_matrix level) as [planes|] eqn:EL; [|discriminate]. destruct (at_ planes plane) as [l|] eqn:EP; [|discriminate]. cbv zeta in H2.
  pose proof (upto_all _ _ H2 size S) as H3. cbv beta in H3. pose proof (upto_all _ _ H3 r R) as H4. cbv beta in H4. pose proof (upto_all _ _ H4 c C) as H5. cbv beta in H5.
  rewrite <- H5. apply X. intros a b d. unfold weight. rewrite EL, EP. destruct (at_ qm_offset a); [|reflexivity]. symmetry. apply look_fill.
Qed.
Definition same (a b : option Z) : bool := match a, b with Some x, Some y => x =? y | _, _ => false end.
Lemma same_eq a b : same a b = true -> exists v, a = Some v /\ b = Some v.
Proof. destruct a, b; cbn; try discriminate. intros E. apply Z.eqb_eq in E. subst. eauto. Qed.

(** ** Transposed sizes *)
Definition flipped : list Z := [0; 1; 2; 3; 3; 6; 5; 8; 7; 10; 9; 3; 3; 14; 13; 16; 15; 10; 9].
Definition check_transposed (w : Z -> Z -> Z -> option Z) (level size r c : Z) : bool :=
  match at_ flipped size with Some other => same (w size r c) (w other c r) | None => false end.
Lemma transposed_run : every check_transposed = true.
Proof. vm_compute. reflexivity. Qed.
Lemma flipped_dims size : 0 <= size < 19 -> exists o, at_ flipped size = Some o /\ 0 <= o < 19 /\ qm_w o = qm_h size /\ qm_h o = qm_w size.
Proof.
  intros I. assert (X : forallb (fun s => match at_ flipped s with Some o => (0 <=? o) && (o <? 19) && (qm_w o =? qm_h s) && (qm_h o =? qm_w s) | None => false end) (upto 19) = true)
    by (vm_compute; reflexivity).
  pose proof (upto_all _ _ X size I) as Y. cbv beta in Y. destruct (at_ flipped size) as [o|]; [|discriminate]. exists o. split; [reflexivity|].
  repeat (apply andb_prop in Y; destruct Y as (Y & ?)). lia.
Qed.
Lemma same_dims a b level plane r c : 0 <= a < 19 -> 0 <= b < 19 -> qm_w a = qm_w b -> qm_h a = qm_h b ->
  weight quantizer_matrix qm_offset level plane a r c = weight quantizer_matrix qm_offset level plane b r c.
Proof.
  intros A B W H.
  assert (X : forallb (fun a => forallb (fun b => if (qm_w a =? qm_w b) && (qm_h a =? qm_h b) then same (at_ qm_offset a) (at_ qm_offset b) else true) (upto 19)) (upto 19) = true)
    by (vm_compute; reflexivity).
  pose proof (upto_all _ _ X a A) as Y. cbv beta in Y. pose proof (upto_all _ _ Y b B) as V. cbv beta in V. rewrite W, H, !Z.eqb_refl in V. cbn [andb] in V.
  apply same_eq in V. destruct V as (v & E1 & E2). unfold weight. rewrite E1, E2, W. reflexivity.
Qed.
Lemma transposed level plane size other r c : table level plane -> coefficient size r c -> 0 <= other < 19 -> qm_w other = qm_h size -> qm_h other = qm_w size ->
  exists v, weight quantizer_matrix qm_offset level plane size r c = Some v /\ weight quantizer_matrix qm_offset level plane other c r = Some v.
Proof.
  intros T C O W H.
  assert (X : check_transposed (weight quantizer_matrix qm_offset level plane) level size r c = true).
  { apply every_all; [|exact transposed_run|exact T|exact C]. intros w w' ? s ? ? E. unfold check_transposed. destruct (at_ flipped s); [|reflexivity]. rewrite !E. reflexivity. }
  unfold check_transposed in X. destruct (flipped_dims size) as (o & E & I & W' & H'); [apply C|]. rewrite E in X. apply same_eq in X.
  rewrite (same_dims other o) by congruence. exact X.
Qed.

(** ** Sampled from two matrices *)
Definition check_sampled (w : Z -> Z -> Z -> option Z) (level size r c : Z) : bool :=
  let sh := 32 / qm_h size in
  let base := if qm_w size =? qm_h size then 3 else 9 in
  let sw := qm_w base / qm_w size in
  if qm_h size <? qm_w size then true else same (w size r c) (w base (r * sh + (sh - 1) / 2) (c * sw + (sw - 1) / 2)).
Lemma sampled_run : every check_sampled = true.
Proof. vm_compute. reflexivity. Qed.
Lemma check_sampled_ext w w' level size r c : (forall a b d, w a b d = w' a b d) -> check_sampled w level size r c = check_sampled w' level size r c.
Proof. intros E. unfold check_sampled. rewrite !E. reflexivity. Qed.
Lemma square_sampled level plane size r c s : table level plane -> coefficient size r c -> qm_w size = qm_h size -> s * qm_w size = 32 ->
  exists v, weight quantizer_matrix qm_offset level plane size r c = Some v /\
    weight quantizer_matrix qm_offset level plane 3 (r * s + (s - 1) / 2) (c * s + (s - 1) / 2) = Some v.
Proof.
  intros T C Q S. pose proof (every_all _ check_sampled_ext sampled_run _ _ _ _ _ T C) as X. unfold check_sampled in X.
  rewrite <- Q, Z.ltb_irrefl, Z.eqb_refl in X. cbn [orb] in X. change (qm_w 3) with 32 in X.
  replace (32 / qm_w size) with s in X; [apply same_eq; exact X|]. destruct C as (_ & _ & C). rewrite <- S. symmetry. apply Z.div_mul. lia.
Qed.
Lemma tall_sampled level plane size r c sw sh : table level plane -> coefficient size r c -> qm_w size < qm_h size -> sw * qm_w size = 16 -> sh * qm_h size = 32 ->
  exists v, weight quantizer_matrix qm_offset level plane size r c = Some v /\
    weight quantizer_matrix qm_offset level plane 9 (r * sh + (sh - 1) / 2) (c * sw + (sw - 1) / 2) = Some v.
Proof.
  intros T C Q SW SH. pose proof (every_all _ check_sampled_ext sampled_run _ _ _ _ _ T C) as X. unfold check_sampled in X.
  replace (qm_h size <? qm_w size) with false in X by lia. replace (qm_w size =? qm_h size) with false in X by lia. cbn [orb] in X. change (qm_w 9) with 16 in X.
  replace (16 / qm_w size) with sw in X by (destruct C as (_ & _ & C); rewrite <- SW; symmetry; apply Z.div_mul; lia).
  replace (32 / qm_h size) with sh in X by (destruct C as (_ & C & _); rewrite <- SH; symmetry; apply Z.div_mul; lia). apply same_eq. exact X.
Qed.
(** Every size that is not wide is one of the two cases. *)
Lemma sampled_cases size : 0 <= size < 19 -> qm_w size <= qm_h size ->
  (qm_w size = qm_h size /\ exists s, s * qm_w size = 32) \/ (qm_w size < qm_h size /\ exists sw sh, sw * qm_w size = 16 /\ sh * qm_h size = 32).
Proof.
  intros I. assert (X : forallb (fun s => (qm_h s <? qm_w s) || ((qm_w s =? qm_h s) && (32 / qm_w s * qm_w s =? 32)) ||
    ((qm_w s <? qm_h s) && (16 / qm_w s * qm_w s =? 16) && (32 / qm_h s * qm_h s =? 32))) (upto 19) = true) by (vm_compute; reflexivity).
  pose proof (upto_all _ _ X size I) as Y. cbv beta in Y. clear X. generalize dependent (32 / qm_w size). generalize (16 / qm_w size). generalize (32 / qm_h size). intros a b d Y W.
  apply orb_prop in Y. destruct Y as [Y|Y]; [apply orb_prop in Y; destruct Y as [Y|Y]; [lia|]|].
  - apply andb_prop in Y. left. split; [lia|]. exists d. lia.
  - apply andb_prop in Y. destruct Y as (Y & Y3). apply andb_prop in Y. right. split; [lia|]. exists b, a. lia.
Qed.

(** ** Values *)
Definition check_values (w : Z -> Z -> Z -> option Z) (level size r c : Z) : bool :=
  match w size r c with Some v => (30 <=? v) && (v <=? 242) && (negb (level =? 15) || (v =? 32)) | None => false end.
Lemma values_run : every check_values = true.
Proof. vm_compute. reflexivity. Qed.
Lemma values level plane size r c : table level plane -> coefficient size r c ->
  exists v, weight quantizer_matrix qm_offset level plane size r c = Some v /\ 30 <= v <= 242 /\ (level = 15 -> v = 32).
Proof.
  intros T C. assert (X : check_values (weight quantizer_matrix qm_offset level plane) level size r c = true).
  { apply every_all; [|exact values_run|exact T|exact C]. intros w w' ? s ? ? E. unfold check_values. rewrite E. reflexivity. }
  unfold check_values in X. destruct (weight _ _ _ _ _ _ _) as [v|]; [|discriminate]. exists v. split; [reflexivity|]. lia.
Qed.

(** ** Offsets *)
Lemma offsets a b oa ob : 0 <= a < 19 -> 0 <= b < 19 -> at_ qm_offset a = Some oa -> at_ qm_offset b = Some ob ->
  (qm_w a = qm_w b /\ qm_h a = qm_h b /\ oa = ob) \/ oa + qm_w a * qm_h a <= ob \/ ob + qm_w b * qm_h b <= oa.
Proof.
  intros A B EA EB.
  assert (X : forallb (fun a => forallb (fun b => match at_ qm_offset a, at_ qm_offset b with
    | Some oa, Some ob => ((qm_w a =? qm_w b) && (qm_h a =? qm_h b) && (oa =? ob)) || (oa + qm_w a * qm_h a <=? ob) || (ob + qm_w b * qm_h b <=? oa)
    | _, _ => false end) (upto 19)) (upto 19) = true) by (vm_compute; reflexivity).
  pose proof (upto_all _ _ X a A) as Y. cbv beta in Y. pose proof (upto_all _ _ Y b B) as W. cbv beta in W. rewrite EA, EB in W. clear X Y EA EB.
  generalize dependent (qm_w a * qm_h a). generalize dependent (qm_w b * qm_h b). intros. lia.
Qed.
(** Every entry of a matrix belongs to a coefficient. *)
Lemma covered i : 0 <= i < 3344 -> exists size r c o, coefficient size r c /\ at_ qm_offset size = Some o /\ i = o + r * qm_w size + c.
Proof.
  intros I.
  assert (X : forallb (fun i => existsb (fun size => match at_ qm_offset size with
      Some o => (o <=? i) && (i <? o + qm_w size * qm_h size) && (0 <? qm_w size) | None => false end) (upto 19)) (upto 3344) = true) by (vm_compute; reflexivity).
  pose proof (upto_all _ _ X i I) as Y. cbv beta in Y. apply existsb_exists in Y. destruct Y as (size & S & Y). destruct (at_ qm_offset size) as [o|] eqn:E; [|discriminate].
  apply in_map_iff in S. destruct S as (n & <- & S). apply in_seq in S. set (size := Z.of_nat n) in *.
  exists size, ((i - o) / qm_w size), ((i - o) mod qm_w size), o. apply andb_prop in Y. destruct Y as (Y & W). apply andb_prop in Y. apply Z.ltb_lt in W.
  pose proof (Z.div_mod (i - o) (qm_w size)) as D. pose proof (Z.mod_pos_bound (i - o) _ W) as M. split; [|split; [exact E|lia]].
  unfold coefficient. split; [lia|]. split; [|lia]. split; [apply Z.div_pos; lia|]. apply Z.div_lt_upper_bound; lia.
Qed.

(** ** Step sizes *)
Definition check_steps (l : list (list Z)) (strict : Z -> bool) : bool :=
  forallb (fun d => match at_ l d with
    | Some t => (Z.of_nat (length t) =? 256) && same (at_ t 0) (Some 4) && forallb (fun q => match at_ t q, at_ t (q + 1) with
        | Some x, Some y => if strict d then x <? y else x <=? y
        | _, _ => false end) (upto 255)
    | None => false end) (upto 3).
Lemma steps l strict d : check_steps l strict = true -> 0 <= d < 3 -> step l d 0 = Some 4 /\ step l d 256 = None /\
  forall n q, 0 <= q -> q + Z.of_nat n < 256 -> exists x y, step l d q = Some x /\ step l d (q + Z.of_nat n) = Some y /\ x <= y /\ (strict d = true -> n <> 0%nat -> x < y).
Proof.
  intros H D. pose proof (upto_all _ _ H d D) as X. cbv beta in X. unfold step. destruct (at_ l d) as [t|] eqn:E; [|discriminate].
  apply andb_prop in X. destruct X as (X & HS). apply andb_prop in X. destruct X as (L & Z0). apply Z.eqb_eq in L. apply same_eq in Z0. destruct Z0 as (v & -> & [= <-]).
  split; [reflexivity|]. split; [unfold at_; cbn [Z.ltb Z.compare]; apply nth_error_None; lia|].
  assert (K : forall q, 0 <= q < 256 -> exists x, at_ t q = Some x).
  { intros q Q. unfold at_. replace (q <? 0) with false by lia. destruct (nth_error t (Z.to_nat q)) eqn:N; [eauto|]. apply nth_error_None in N. lia. }
  induction n as [|n IH]; intros q Q B.
  - destruct (K q ltac:(lia)) as (x & EX). exists x, x. rewrite Z.add_0_r. repeat split; auto; try lia.
  - destruct (IH q Q ltac:(lia)) as (x & y & EX & EY & A & C). destruct (K (q + Z.of_nat (S n)) ltac:(lia)) as (z & EZ). exists x, z. split; [exact EX|]. split; [exact EZ|].
    pose proof (upto_all _ _ HS (q + Z.of_nat n) ltac:(lia)) as Y. cbv beta in Y. rewrite EY in Y. replace (q + Z.of_nat n + 1) with (q + Z.of_nat (Datatypes.S n)) in Y by lia. rewrite EZ in Y.
    destruct (strict d); [apply Z.ltb_lt in Y|apply Z.leb_le in Y]; split; try lia; discriminate.
Qed.
Lemma steps_increase l strict d p q : check_steps l strict = true -> 0 <= d < 3 -> 0 <= p <= q -> q < 256 ->
  exists x y, step l d p = Some x /\ step l d q = Some y /\ 4 <= x <= y /\ (strict d = true -> p < q -> x < y).
Proof.
  intros H D P Q. destruct (steps l strict d H D) as (Z0 & _ & M). destruct (M (Z.to_nat p) 0 ltac:(lia) ltac:(lia)) as (x0 & x & E0 & EX & A & _).
  rewrite Z0 in E0. injection E0 as <-. replace (0 + Z.of_nat (Z.to_nat p)) with p in EX by lia.
  destruct (M (Z.to_nat (q - p)) p ltac:(lia) ltac:(lia)) as (x1 & y & E1 & EY & B & C). rewrite EX in E1. injection E1 as <-.
  replace (p + Z.of_nat (Z.to_nat (q - p))) with q in EY by lia. exists x, y. split; [exact EX|]. split; [exact EY|]. split; [lia|]. intros S N. apply C; [exact S|lia].
Qed.
Lemma dc_run : check_steps dc_q_lookup (fun d => 0 <? d) = true.
Proof. vm_compute. reflexivity. Qed.
Lemma ac_run : check_steps ac_q_lookup (fun _ => true) = true.
Proof. vm_compute. reflexivity. Qed.
(** The three depths and the two kinds of coefficients beside each other. *)
Lemma steps_beside q : 0 <= q < 256 -> exists d0 d1 d2 a0 a1 a2,
  step dc_q_lookup 0 q = Some d0 /\ step dc_q_lookup 1 q = Some d1 /\ step dc_q_lookup 2 q = Some d2 /\
  step ac_q_lookup 0 q = Some a0 /\ step ac_q_lookup 1 q = Some a1 /\ step ac_q_lookup 2 q = Some a2 /\
  d0 <= a0 /\ d1 <= a1 /\ d2 <= a2 /\ d0 <= d1 <= d2 /\ a0 <= a1 <= a2 /\
  -33 <= d1 - 4 * d0 <= 4 /\ -35 <= d2 - 4 * d1 <= 2 /\ -37 <= a1 - 4 * a0 <= 0 /\ -38 <= a2 - 4 * a1 <= 1.
Proof.
  intros Q.
  assert (X : forallb (fun q => match step dc_q_lookup 0 q, step dc_q_lookup 1 q, step dc_q_lookup 2 q, step ac_q_lookup 0 q, step ac_q_lookup 1 q, step ac_q_lookup 2 q with
    | Some d0, Some d1, Some d2, Some a0, Some a1, Some a2 =>
        (d0 <=? a0) && (d1 <=? a1) && (d2 <=? a2) && (d0 <=? d1) && (d1 <=? d2) && (a0 <=? a1) && (a1 <=? a2) &&
        (-33 <=? d1 - 4 * d0) && (d1 - 4 * d0 <=? 4) && (-35 <=? d2 - 4 * d1) && (d2 - 4 * d1 <=? 2) &&
        (-37 <=? a1 - 4 * a0) && (a1 - 4 * a0 <=? 0) && (-38 <=? a2 - 4 * a1) && (a2 - 4 * a1 <=? 1)
    | _, _, _, _, _, _ => false end) (upto 256) = true) by (vm_compute; reflexivity).
  pose proof (upto_all _ _ X q Q) as Y. cbv beta in Y. clear X.
  destruct (step dc_q_lookup 0 q) as [d0|], (step dc_q_lookup 1 q) as [d1|], (step dc_q_lookup 2 q) as [d2|],
    (step ac_q_lookup 0 q) as [a0|], (step ac_q_lookup 1 q) as [a1|], (step ac_q_lookup 2 q) as [a2|]; try discriminate.
  exists d0, d1, d2, a0, a1, a2. do 6 (split; [reflexivity|]). repeat (apply andb_prop in Y; destruct Y as (Y & ?)). lia.
Qed.
