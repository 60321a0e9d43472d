(** What the superblocks of a frame leave behind (C119). *)
From Coq Require Import ZArith List Bool Lia ZifyBool ZifyNat.
From Verif Require Import Base BaseProofs UtilModel BlockTables GeomModel FrameParamModel SeqSpec LrModel LrSpec LrProofs KeptSpec KeptProofs.
Import ListNotations.
Open Scope Z_scope.

Lemma coded_found x sbs i j s es v : v_intrabc x = false ->
  encode_lr x sbs (sb_of (v_use128 x) * i) (sb_of (v_use128 x) * j) (if v_use128 x then BLOCK_128X128 else BLOCK_64X64) s es = Ok v ->
  exists row units, idx sbs i = Ok row /\ idx row j = Ok units.
Proof.
  intros I H. unfold encode_lr in H. rewrite I in H. apply bind_inv in H as (w & _ & H). apply bind_inv in H as (h & _ & H). apply bind_inv in H as (sb4 & E & H).
  apply bind_inv in H as (row & E1 & H). apply bind_inv in H as (units & E2 & _).
  assert (B : sb4 = sb_of (v_use128 x)) by (destruct (v_use128 x); vm_compute in E; injection E as <-; reflexivity).
  rewrite B in E1, E2. assert (sb_of (v_use128 x) <> 0) by (destruct (v_use128 x); discriminate).
  rewrite Z.mul_comm, Z.div_mul in E1, E2 by assumption. eauto.
Qed.

Lemma unit_owner x i j i' j' q : lr_sizes_ok x -> in_grid x i j -> in_grid x i' j' ->
  In q (av1_read_lr (frame_of x) (sb_of (v_use128 x) * i) (sb_of (v_use128 x) * j) (sb_of (v_use128 x))) ->
  In q (av1_read_lr (frame_of x) (sb_of (v_use128 x) * i') (sb_of (v_use128 x) * j') (sb_of (v_use128 x))) -> i = i' /\ j = j'.
Proof.
  intros S G G' Q Q'. destruct (grid_positions x i j S G) as [Pi Pj]. destruct (grid_positions x i' j' S G') as [Pi' Pj'].
  pose proof (visits_ok x _ _ S Pi Pj) as V. pose proof (visits_ok x _ _ S Pi' Pj') as V'. destruct (units_once x S) as [U1 U2].
  destruct (U1 i j G) as (l & L & _ & F). rewrite V in L. injection L as <-. destruct q as [[p row] col]. destruct (U2 p row col (F _ _ _ Q)) as (i0 & j0 & _ & U).
  apply (U _ _ _ G V) in Q. apply (U _ _ _ G' V') in Q'. lia.
Qed.

Definition units_of (x : lrenv) (i j : Z) : list (Z * Z * Z) := av1_read_lr (frame_of x) (sb_of (v_use128 x) * i) (sb_of (v_use128 x) * j) (sb_of (v_use128 x)).

Lemma over_kept x sbs ps : lr_sizes_ok x -> Forall (fun t => 0 <= t <= 3) (v_types x) -> v_intrabc x = false ->
  forall s s', coded_over x sbs ps s s' -> NoDup ps -> Forall (fun '(i, j) => in_grid x i j) ps ->
  (forall p row col, 0 <= p -> 0 <= row -> 0 <= col -> (forall i j, In (i, j) ps -> ~ In (p, row, col) (units_of x i j)) ->
     cell (t_type s') p row col 0 = cell (t_type s) p row col 0 /\ cell (t_set s') p row col 0 = cell (t_set s) p row col 0 /\ cell (t_xqd s') p row col [] = cell (t_xqd s) p row col []) /\
  (forall i j p row col, In (i, j) ps -> In (p, row, col) (units_of x i j) -> exists line units u, idx sbs i = Ok line /\ idx line j = Ok units /\
     unit_at units p (row - av1_row_start (frame_of x) p (sb_of (v_use128 x) * i)) (col - av1_col_start (frame_of x) p (sb_of (v_use128 x) * j)) = Ok u /\
     holds_unit (nth (Z.to_nat p) (v_types x) 0) u has_weight s s' p row col).
Proof.
  intros S T I s s' C. induction C as [s s' (E1 & E2 & E3)|i j ps s s1 s2 s' es es' (E1 & E2 & E3) H C IH]; intros ND G.
  - split; [intros; rewrite E1, E2, E3; auto|intros i j p row col []].
  - apply NoDup_cons_iff in ND as [NI ND]. inversion G as [|? ? G0 G']; subst. destruct (IH ND G') as [IA IB]. clear IH.
    change (if v_use128 x then 32 else 16) with (sb_of (v_use128 x)) in H. cbv zeta in H.
    destruct (coded_found x sbs i j s1 es _ I H) as (line & units & L1 & L2). destruct (grid_positions x i j S G0) as [Pi Pj].
    assert (NZ : sb_of (v_use128 x) <> 0) by (destruct (v_use128 x); discriminate).
    assert (L1' : idx sbs (sb_of (v_use128 x) * i / sb_of (v_use128 x)) = Ok line) by (rewrite Z.mul_comm, Z.div_mul by exact NZ; exact L1).
    assert (L2' : idx line (sb_of (v_use128 x) * j / sb_of (v_use128 x)) = Ok units) by (rewrite Z.mul_comm, Z.div_mul by exact NZ; exact L2).
    pose proof (superblock_kept x sbs line units _ _ s1 es s2 es' S T Pi Pj L1' L2' H) as K. rewrite I in K. cbv zeta in K. fold (units_of x i j) in K.
    destruct K as (K1 & K2 & _). split.
    + intros p row col P R Cc N. destruct (IA p row col P R Cc) as (A1 & A2 & A3); [intros i' j' MEM; apply N; right; exact MEM|].
      destruct (K1 p row col P R Cc) as (B1 & B2 & B3); [apply N; left; reflexivity|]. rewrite A1, A2, A3, B1, B2, B3, E1, E2, E3. auto.
    + intros i' j' p row col [E|MEM] Q.
      * injection E as <- <-. destruct (K2 p row col Q) as (u & FU & (P & R & Cc) & _ & J1 & J2 & J3). exists line, units, u.
        split; [exact L1|]. split; [exact L2|]. split; [exact FU|].
        assert (A : forall i' j', In (i', j') ps -> ~ In (p, row, col) (units_of x i' j')).
        { intros i' j' MEM Q'. rewrite Forall_forall in G'. specialize (G' _ MEM). cbv beta iota in G'. destruct (unit_owner x i j i' j' _ S G0 G' Q Q') as [<- <-]. contradiction. }
        destruct (IA p row col P R Cc A) as (A1 & A2 & A3). unfold holds_unit. rewrite A1, A2, A3, <- E2, <- E3. auto.
      * destruct (IB i' j' p row col MEM Q) as (line' & units' & u & M1 & M2 & M3 & H1 & H2 & H3). exists line', units', u. split; [exact M1|]. split; [exact M2|]. split; [exact M3|].
        split; [exact H1|]. split; [exact H2|]. intros NE. destruct (H3 NE) as [N1 N2]. rewrite N1, N2.
        assert (D : ~ In (p, row, col) (units_of x i j)).
        { intros Q'. rewrite Forall_forall in G'. specialize (G' _ MEM). cbv beta iota in G'. destruct (unit_owner x i j i' j' _ S G0 G' Q' Q) as [<- <-]. contradiction. }
        assert (B : 0 <= p /\ 0 <= row /\ 0 <= col).
        { rewrite Forall_forall in G'. specialize (G' _ MEM). cbv beta iota in G'. destruct (grid_positions x i' j' S G') as [Pi' Pj'].
          destruct (proj1 (units_once x S) i' j' G') as (l & V & _ & F). rewrite visits_ok in V by assumption. injection V as <-. destruct (F _ _ _ Q) as (? & _ & ? & ?). lia. }
        destruct (K1 p row col ltac:(lia) ltac:(lia) ltac:(lia) D) as (_ & B2 & B3). rewrite B2, B3, E2, E3. auto.
Qed.

(** All superblocks, in any order. *)
Lemma frame_kept x sbs ps s s' : lr_sizes_ok x -> Forall (fun t => 0 <= t <= 3) (v_types x) -> v_intrabc x = false ->
  coded_over x sbs ps s s' -> NoDup ps -> (forall i j, In (i, j) ps <-> in_grid x i j) ->
  (forall p row col, frame_unit x p row col -> exists i j line units u, in_grid x i j /\ idx sbs i = Ok line /\ idx line j = Ok units /\
     unit_at units p (row - av1_row_start (frame_of x) p (sb_of (v_use128 x) * i)) (col - av1_col_start (frame_of x) p (sb_of (v_use128 x) * j)) = Ok u /\
     holds_unit (nth (Z.to_nat p) (v_types x) 0) u has_weight s s' p row col) /\
  (forall p row col, 0 <= p -> 0 <= row -> 0 <= col -> ~ frame_unit x p row col ->
     cell (t_type s') p row col 0 = cell (t_type s) p row col 0 /\ cell (t_set s') p row col 0 = cell (t_set s) p row col 0 /\ cell (t_xqd s') p row col [] = cell (t_xqd s) p row col []).
Proof.
  intros S T I C ND G. assert (GF : Forall (fun '(i, j) => in_grid x i j) ps) by (apply Forall_forall; intros [i j] MEM; apply G; exact MEM).
  destruct (over_kept x sbs ps S T I s s' C ND GF) as [A B]. destruct (units_once x S) as [U1 U2]. split.
  - intros p row col F. destruct (U2 p row col F) as (i & j & GR & U). destruct (grid_positions x i j S GR) as [Pi Pj].
    assert (Q : In (p, row, col) (units_of x i j)) by (apply (U i j _ GR (visits_ok x _ _ S Pi Pj)); auto).
    destruct (B i j p row col (proj2 (G i j) GR) Q) as (line & units & u & K). exists i, j, line, units, u. split; [exact GR|exact K].
  - intros p row col P R Cc N. apply A; [exact P|exact R|exact Cc|]. intros i j MEM Q. apply N. apply G in MEM. destruct (grid_positions x i j S MEM) as [Pi Pj].
    destruct (U1 i j MEM) as (l & V & _ & F). rewrite visits_ok in V by assumption. injection V as <-. exact (F _ _ _ Q).
Qed.
