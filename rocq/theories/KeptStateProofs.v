(** What the mode info of a block leaves of the state carried from block to block (C119). *)
From Coq Require Import ZArith List Bool Lia ZifyBool ZifyNat.
From Verif Require Import Base BaseProofs ContextModel MvStackModel ModeInfoModel KeptSpec KeptProofs.
Import ListNotations.
Open Scope Z_scope.

Lemma idx_nth_kept {A} (l : list A) i a d : idx l i = Ok a -> nth (Z.to_nat i) l d = a.
Proof. unfold idx. intros H. destruct (i <? 0); [discriminate|]. destruct (nth_error l (Z.to_nat i)) eqn:E; [|discriminate]. injection H as <-. apply nth_error_nth, E. Qed.

Lemma segment_state x b t es es' b' t' : intra_segment_id x b t es = Ok (es', b', t') ->
  kept_contexts t t' /\ kept_motion t t' /\ kept_levels t t' /\ t_read_deltas t' = t_read_deltas t /\ t_cdef t' = t_cdef t /\
  nth (Z.to_nat (p_seg b')) (x_lossless x) false = t_lossless t'.
Proof.
  intros H. unfold intra_segment_id in H. apply bind_inv in H as ([e seg] & _ & H). apply bind_inv in H as (l & L & H). injection H as _ <- <-.
  apply (idx_nth_kept _ _ _ false) in L. repeat split. exact L.
Qed.
Lemma cdef_state x b t es es' t' : code_cdef x b t es = Ok (es', t') ->
  kept_contexts t t' /\ kept_motion t t' /\ kept_levels t t' /\ t_read_deltas t' = t_read_deltas t /\ t_lossless t' = t_lossless t /\
  (t_cdef t' = t_cdef t \/ (x_coded_lossless x = false /\ x_cdef_on x = true /\ x_intrabc x = false /\
     nth (Z.to_nat (16 * (x_col x / 16))) (nth (Z.to_nat (16 * (x_row x / 16))) (t_cdef t) []) 0 = -1)).
Proof.
  intros H. unfold code_cdef in H. destruct (negb (_ || _ || _)) eqn:C; [|injection H as _ <-; repeat split; left; reflexivity].
  apply bind_inv in H as (row & R & H). apply bind_inv in H as (old & O & H). destruct (old =? -1) eqn:E; [|injection H as _ <-; repeat split; left; reflexivity].
  apply bind_inv in H as (w & _ & H). apply bind_inv in H as (h & _ & H). apply bind_inv in H as (m & _ & H). injection H as _ <-.
  repeat split. right. apply Z.eqb_eq in E. subst old. apply (idx_nth_kept _ _ _ []) in R. apply (idx_nth_kept _ _ _ 0) in O.
  replace (16 * (x_row x / 16)) with (x_row x - x_row x mod 16) by (pose proof (Z.div_mod (x_row x) 16); lia).
  replace (16 * (x_col x / 16)) with (x_col x - x_col x mod 16) by (pose proof (Z.div_mod (x_col x) 16); lia).
  rewrite R, O. destruct (x_coded_lossless x), (x_cdef_on x), (x_intrabc x); try discriminate C. auto.
Qed.
Lemma deltas_state x b t es es' t' : code_deltas x b t es = Ok (es', t') ->
  kept_contexts t t' /\ kept_motion t t' /\ t_read_deltas t' = false /\ t_lossless t' = t_lossless t /\ t_cdef t' = t_cdef t /\
  (t_read_deltas t = false \/ (p_bsize b = (if x_sb128 x then 15 else 12) /\ p_skip b = true) -> kept_levels t t') /\
  (x_lf_present x = false -> t_cur_lf t' = t_cur_lf t).
Proof.
  intros H. unfold code_deltas in H. cbv zeta in H. set (on := negb _ && t_read_deltas t) in H.
  apply bind_inv in H as ([e q] & Q & H). apply bind_inv in H as ([e1 lf] & L & H). injection H as _ <-.
  split; [repeat split|]. split; [repeat split|]. split; [reflexivity|]. split; [reflexivity|]. split; [reflexivity|]. split.
  - intros C. assert (O : on = false).
    { subst on. destruct C as [-> | [B S]]; [apply andb_false_r|]. rewrite S, B. destruct (x_sb128 x); reflexivity. }
    rewrite O in Q, L. cbn [andb] in L. injection Q as <- <-. injection L as <- <-. split; reflexivity.
  - intros P. rewrite P, andb_false_r in L. injection L as <- <-. reflexivity.
Qed.
Lemma inter_state x b t es es' b' t' : code_inter x b t es = Ok (es', b', t') ->
  kept_contexts t t' /\ kept_levels t t' /\ t_read_deltas t' = t_read_deltas t /\ t_lossless t' = t_lossless t /\ t_cdef t' = t_cdef t.
Proof.
  intros H. unfold code_inter in H. apply bind_inv in H as ([e b1] & _ & H).
  apply bind_inv in H as (s & _ & H). apply bind_inv in H as (sk & _ & H). apply bind_inv in H as (gl & _ & H). apply bind_inv in H as ([e1 y] & _ & H).
  apply bind_inv in H as ([e2 i] & _ & H). apply bind_inv in H as ([[[e3 mvs] pred] mode] & _ & H). injection H as _ _ <-. repeat split.
Qed.

Lemma mode_info_state x b t es es' b' t' : x_intra x = true -> encode_mode_info x b t es = Ok (es', b', t') ->
  kept_contexts t t' /\ (p_inter b' = false -> kept_motion t t') /\ t_read_deltas t' = false /\
  (t_read_deltas t = false \/ (p_bsize b' = (if x_sb128 x then 15 else 12) /\ p_skip b' = true) -> kept_levels t t') /\
  (x_lf_present x = false -> t_cur_lf t' = t_cur_lf t) /\
  t_lossless t' = nth (Z.to_nat (p_seg b')) (x_lossless x) false /\
  (t_cdef t' = t_cdef t \/ (x_coded_lossless x = false /\ x_cdef_on x = true /\ x_intrabc x = false /\
     nth (Z.to_nat (16 * (x_col x / 16))) (nth (Z.to_nat (16 * (x_row x / 16))) (t_cdef t) []) 0 = -1)).
Proof.
  intros I H. unfold encode_mode_info in H. rewrite I in H.
  apply bind_inv in H as ([[e1 b1] t1] & H1 & H). apply bind_inv in H as (sk & _ & H). apply bind_inv in H as ([e2 b2] & H2 & H).
  apply bind_inv in H as ([[e3 b3] t3] & H3 & H). apply bind_inv in H as ([e4 t4] & H4 & H). apply bind_inv in H as ([e5 t5] & H5 & H).
  apply bind_inv in H as ([e6 b6] & H6 & H).
  assert (A2 : p_seg b2 = p_seg b1).
  { destruct sk; [injection H2 as _ <-; reflexivity|]. apply bind_inv in H2 as (e & _ & H2). injection H2 as _ <-. reflexivity. }
  assert (A3 : kept_contexts t t3 /\ kept_motion t t3 /\ kept_levels t t3 /\ t_read_deltas t3 = t_read_deltas t /\ t_cdef t3 = t_cdef t /\
     nth (Z.to_nat (p_seg b3)) (x_lossless x) false = t_lossless t3).
  { destruct (x_pre_skip x); cbn [negb] in H3.
    - apply segment_state in H1. injection H3 as _ <- <-. rewrite A2. exact H1.
    - injection H1 as _ <- <-. apply segment_state in H3. exact H3. }
  destruct A3 as (K1 & K2 & K3 & K4 & K5 & K6). apply cdef_state in H4 as (C1 & C2 & C3 & C4 & C5 & C6).
  apply deltas_state in H5 as (D1 & D2 & D3 & D4 & D5 & D6 & D7). apply is_inter_keeps in H6 as (B1 & _ & B2 & B3).
  rewrite K5 in C6. rewrite C4, K4 in D6.
  assert (R : kept_contexts t5 t' /\ kept_levels t5 t' /\ t_read_deltas t' = t_read_deltas t5 /\ t_lossless t' = t_lossless t5 /\ t_cdef t' = t_cdef t5 /\
     same_choices b6 b' /\ p_skip b' = p_skip b6 /\ p_seg b' = p_seg b6 /\ (p_inter b' = false -> t' = t5)).
  { destruct (p_inter b6) eqn:P.
    - pose proof (inter_keeps _ _ _ _ _ _ _ H) as (? & ? & ? & ?). apply inter_state in H as (? & ? & ? & ? & ?). repeat (split; [assumption|]). congruence.
    - injection H as _ <- <-. repeat split. }
  destruct R as (R1 & R2 & R3 & R4 & R5 & R6 & R7 & R8 & R9).
  assert (BS : p_bsize b' = p_bsize b3) by (unfold same_choices in *; intuition congruence).
  split; [unfold kept_contexts in *; intuition congruence|].
  split; [intros P; rewrite (R9 P); unfold kept_motion in *; intuition congruence|].
  split; [congruence|]. split.
  { intros Q. assert (Q' : kept_levels t4 t5) by (apply D6; rewrite R7, B2, BS in Q; exact Q). unfold kept_levels in *. intuition congruence. }
  split; [intros P; specialize (D7 P); unfold kept_levels in *; intuition congruence|].
  split; [congruence|]. rewrite R5, D5. destruct C6 as [C6|C6]; [left; congruence|right; exact C6].
Qed.
