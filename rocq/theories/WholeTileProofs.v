(** Proofs about WholeTileModel and about a coder that was not initialised. *)
From Coq Require Import ZArith List Bool Lia Sorted.
From Verif Require Import Base BaseProofs UtilModel RangeCoderModel RangeCoderSpec CdfProofs SessionModel BlockTables GeomModel GeomSpec GeomProofs TileModel TileProofs TileSpec FrameParamModel LrModel CdfTables CdfTableSpec WholeTileModel.
Import ListNotations.
Open Scope Z_scope.

(** ** The state at the start of a tile *)

Lemma three (A : Type) (l : list A) : length l = 3%nat -> exists a b c, l = [a; b; c].
Proof. destruct l as [|a [|b [|c [|]]]]; try discriminate. intros _. exists a, b, c. reflexivity. Qed.
Lemma two_of (A : Type) (l : list A) : length l = 2%nat -> exists a b, l = [a; b].
Proof. destruct l as [|a [|b [|]]]; try discriminate. intros _. exists a, b. reflexivity. Qed.
Lemma four (A : Type) (l : list A) : length l = 4%nat -> exists a b c d, l = [a; b; c; d].
Proof. destruct l as [|a [|b [|c [|d [|]]]]]; try discriminate. intros _. exists a, b, c, d. reflexivity. Qed.

Lemma taps_shape (l : list (list Z)) : length l = 2%nat /\ Forall (fun k => length k = 3%nat) l ->
  exists a b c d e f, l = [[a; b; c]; [d; e; f]].
Proof.
  intros (H1 & H2). apply two_of in H1. destruct H1 as (x & y & ->).
  inversion H2 as [|? ? X Y]; subst. inversion Y as [|? ? Z _]; subst.
  apply three in X, Z. destruct X as (a & b & c & ->), Z as (d & e & f & ->). exists a, b, c, d, e, f. reflexivity.
Qed.

Lemma start_ok (S : Type) planes base_q (w : rest S) :
  0 <= planes <= 3 -> length (w_lf w) = 4%nat ->
  length (t_ref_xqd (w_lr w)) = 3%nat -> Forall (fun l => length l = 2%nat) (t_ref_xqd (w_lr w)) ->
  length (t_ref_taps (w_lr w)) = 3%nat ->
  Forall (fun l => length l = 2%nat /\ Forall (fun k => length k = 3%nat) l) (t_ref_taps (w_lr w)) ->
  exists w', start_tile base_q planes w = Ok w' /\ w_q w' = base_q /\ w_lf w' = [0; 0; 0; 0] /\
    (forall p, 0 <= p < planes ->
       nth (Z.to_nat p) (t_ref_xqd (w_lr w')) [] = [-32; 31] /\
       nth (Z.to_nat p) (t_ref_taps (w_lr w')) [] = [[3; -7; 15]; [3; -7; 15]]) /\
    (forall p, planes <= p ->
       nth (Z.to_nat p) (t_ref_xqd (w_lr w')) [] = nth (Z.to_nat p) (t_ref_xqd (w_lr w)) [] /\
       nth (Z.to_nat p) (t_ref_taps (w_lr w')) [] = nth (Z.to_nat p) (t_ref_taps (w_lr w)) []) /\
    length (t_ref_xqd (w_lr w')) = 3%nat /\ length (t_ref_taps (w_lr w')) = 3%nat /\
    t_type (w_lr w') = t_type (w_lr w) /\ t_taps (w_lr w') = t_taps (w_lr w) /\ t_set (w_lr w') = t_set (w_lr w) /\
    t_xqd (w_lr w') = t_xqd (w_lr w) /\
    w_read w' = w_read w /\ w_cdef w' = w_cdef w /\ w_other w' = w_other w.
Proof.
  destruct w as [[xqd taps ty tp se xq] q lf rd cdef o]. cbn [w_lf w_lr t_ref_xqd t_ref_taps w_q w_read w_cdef w_other t_type t_taps t_set t_xqd].
  intros P L4 X3 X2 T3 T2.
  apply four in L4. destruct L4 as (a & b & c & d & ->).
  apply three in X3. destruct X3 as (x0 & x1 & x2 & ->).
  inversion X2 as [|? ? A0 X2']; subst. inversion X2' as [|? ? A1 X2'']; subst. inversion X2'' as [|? ? A2 _]; subst.
  apply two_of in A0, A1, A2. destruct A0 as (? & ? & ->), A1 as (? & ? & ->), A2 as (? & ? & ->).
  apply three in T3. destruct T3 as (t0 & t1 & t2 & ->).
  inversion T2 as [|? ? B0 T2']; subst. inversion T2' as [|? ? B1 T2'']; subst. inversion T2'' as [|? ? B2 _]; subst.
  apply taps_shape in B0, B1, B2.
  destruct B0 as (? & ? & ? & ? & ? & ? & ->), B1 as (? & ? & ? & ? & ? & ? & ->), B2 as (? & ? & ? & ? & ? & ? & ->).
  assert (planes = 0 \/ planes = 1 \/ planes = 2 \/ planes = 3) as [-> |[-> |[-> | ->]]] by lia;
    (eexists; split; [reflexivity|]; cbn [w_lf w_lr t_ref_xqd t_ref_taps w_q w_read w_cdef w_other t_type t_taps t_set t_xqd];
     split; [reflexivity|]; split; [reflexivity|]; split;
     [intros p Hp; destruct (Z.to_nat p) as [|[|[|n]]] eqn:E; try (exfalso; lia); split; reflexivity|];
     split; [intros p Hp; destruct (Z.to_nat p) as [|[|[|n]]] eqn:E; try (exfalso; lia); split; reflexivity|];
     repeat split).
Qed.

(** ** A coder that was not initialised *)

Lemma emit_range c out b c' out' : emit c out b = Ok (c', out') -> bool_range c' = bool_range c.
Proof. unfold emit. intros H. apply bind_inv in H. destruct H as (n & _ & H). injection H as <- _. reflexivity. Qed.
Lemma emit_n_range k : forall c out b c' out', emit_n k c out b = Ok (c', out') -> bool_range c' = bool_range c.
Proof.
  induction k as [|k IH]; cbn [emit_n]; intros c out b c' out' H; [injection H as <- _; reflexivity|].
  apply bind_inv in H. destruct H as ((c1, o1) & E & H). apply IH in H. apply emit_range in E. congruence.
Qed.
Lemma carry_range c out c' out' : carry_step c out = Ok (c', out') -> bool_range c' = bool_range c.
Proof.
  unfold carry_step. intros H. destruct (65536 <=? bool_value c); [|injection H as <- _; reflexivity].
  cbv zeta in H. destruct (0 <? _).
  - apply bind_inv in H. destruct H as ((c1, o1) & E & H). apply bind_inv in H. destruct H as ((c2, o2) & E2 & H).
    injection H as <- _. apply emit_range in E. apply emit_n_range in E2. cbn [set_pending bool_range]. cbn [set_vr bool_range] in E. congruence.
  - injection H as <- _. reflexivity.
Qed.

Lemma renorm_zero fuel : forall c out v, bool_range c = 0 -> renorm_loop fuel c out <> Ok v.
Proof.
  induction fuel as [|fuel IH]; cbn [renorm_loop]; intros c out v R H; [discriminate|].
  rewrite R in H. change (0 <? 32768) with true in H. cbv zeta iota in H.
  apply bind_inv in H. destruct H as ((c1, o1) & E & H).
  assert (R1 : bool_range c1 = 0).
  { destruct (bool_first c); cbn [negb] in E; [injection E as <- _; exact R|].
    destruct (Z.land (Z.shiftr (bool_value c) 15) 1 =? 0).
    - apply bind_inv in E. destruct E as ((ca, oa) & Ea & E). apply bind_inv in E. destruct E as ((cb, ob) & Eb & E).
      injection E as <- _. cbn [set_pending bool_range]. apply emit_n_range in Eb.
      destruct (bool_value_last_zero c); [apply emit_range in Ea|injection Ea as <- _]; congruence.
    - apply bind_inv in E. destruct E as (z & _ & E). injection E as <- _. exact R. }
  refine (IH _ _ _ _ H). cbn [set_vr set_first bool_range]. rewrite R1. reflexivity.
Qed.

Lemma zero_never fuel c s out cdf v : bool_range c = 0 -> encode_symbol_fuel fuel c s out cdf <> Ok v.
Proof.
  intros R H. unfold encode_symbol_fuel in H. rewrite R in H. change (Z.shiftr 0 8) with 0 in H.
  apply bind_inv in H. destruct H as (n1 & _ & H). apply bind_inv in H. destruct H as (fl & _ & H).
  apply bind_inv in H. destruct H as (x & _ & H). apply bind_inv in H. destruct H as (fr & _ & H).
  rewrite !Z.mul_0_l in H. change (chk_i32 0) with (@Ok Z 0) in H. cbn [bind] in H. cbv zeta in H. change (Z.shiftr 0 7) with 0 in H.
  replace (if s =? 0 then 0 else 0) with 0 in H by (destruct (s =? 0); reflexivity).
  change (chk_i32 (0 - 0)) with (@Ok Z 0) in H. cbn [bind] in H.
  apply bind_inv in H. destruct H as (v1 & _ & H). apply bind_inv in H. destruct H as ((c1, o1) & E & H).
  apply bind_inv in H. destruct H as (p & E2 & H). apply carry_range in E. cbn [set_vr bool_range] in E.
  exact (renorm_zero _ _ _ _ E E2).
Qed.

(** Value 0 and nothing pending: the rounds put out zeros for ever. *)
Lemma renorm_hang fuel : forall c out, bool_range c = 0 -> bool_value c = 0 -> bool_value_zero_count c = 0 ->
  0 <= bit_count c -> bit_count c + Z.of_nat fuel < 2 ^ 64 -> renorm_loop fuel c out = Hang.
Proof.
  induction fuel as [|fuel IH]; cbn [renorm_loop]; intros c out R V P B0 B; [reflexivity|].
  rewrite R, V, P. change (0 <? 32768) with true. change (Z.land (Z.shiftr 0 15) 1 =? 0) with true. cbv zeta iota.
  cbn [emit_n Z.to_nat].
  assert (K : forall c' o', bool_range c' = 0 -> bool_value c' = 0 -> bool_value_zero_count c' = 0 ->
            bit_count c <= bit_count c' <= bit_count c + 1 ->
            renorm_loop fuel (set_vr (set_first c' false) (Z.land (as_i32 (Z.shiftl (bool_value (set_first c' false)) 1)) 65535)
              (as_i32 (Z.shiftl (bool_range (set_first c' false)) 1))) o' = Hang).
  { intros c' o' R' V' P' B'. apply IH; cbn [set_vr set_first bool_range bool_value bool_value_zero_count bit_count];
      rewrite ?R', ?V'; try reflexivity; try assumption; lia. }
  destruct (bool_first c); cbn [negb bind].
  - apply K; try assumption; lia.
  - destruct (bool_value_last_zero c).
    + unfold emit. rewrite chk_u64_ok by lia. cbn [bind]. apply K; cbn [set_pending bool_range bool_value bool_value_zero_count bit_count];
        try assumption; try reflexivity; lia.
    + cbn [bind]. apply K; cbn [set_pending bool_range bool_value bool_value_zero_count bit_count];
        try assumption; try reflexivity; lia.
Qed.

Definition stale (c : coder) : Prop :=
  bool_range c = 0 /\ bool_value c = 0 /\ bool_value_zero_count c = 0 /\ 0 <= bit_count c < 2 ^ 63.

Lemma hang_row fuel c s out cdf : stale c -> 0 <= s < len cdf -> len cdf < 2 ^ 31 ->
  Forall (fun x => 0 <= x <= 32768) cdf -> Z.of_nat fuel < 2 ^ 63 ->
  encode_symbol_fuel fuel c s out cdf = Hang.
Proof.
  intros (R & V & P & B) Hs L F Fu. unfold encode_symbol_fuel. rewrite R. change (Z.shiftr 0 8) with 0.
  assert (I : forall i, 0 <= i < len cdf -> exists x, idx cdf i = Ok x /\ 0 <= x <= 32768).
  { intros i Hi. unfold idx. replace (i <? 0) with false by lia.
    destruct (nth_error cdf (Z.to_nat i)) as [x|] eqn:E.
    - exists x. split; [reflexivity|]. rewrite Forall_forall in F. exact (F x (nth_error_In _ _ E)).
    - apply nth_error_None in E. unfold len in Hi. lia. }
  rewrite (chk_u64_ok (len cdf - 1)) by lia. cbn [bind].
  assert (FL : exists fl, (if 0 <? s then s1 <- chk_i32 (s - 1) ;; x <- idx cdf s1 ;; chk_i32 (32768 - x) else Ok 0) = Ok fl).
  { destruct (0 <? s) eqn:E; [|exists 0; reflexivity]. rewrite (chk_i32_ok (s - 1)) by lia. cbn [bind].
    destruct (I (s - 1) ltac:(lia)) as (x & -> & X). cbn [bind]. rewrite chk_i32_ok by lia. eexists. reflexivity. }
  destruct FL as (fl & ->). cbn [bind]. destruct (I s Hs) as (x & -> & X). cbn [bind].
  rewrite (chk_i32_ok (32768 - x)) by lia. cbn [bind]. rewrite !Z.mul_0_l. change (chk_i32 0) with (@Ok Z 0). cbn [bind]. cbv zeta.
  change (Z.shiftr 0 7) with 0. replace (if s =? 0 then 0 else 0) with 0 by (destruct (s =? 0); reflexivity).
  change (chk_i32 (0 - 0)) with (@Ok Z 0). cbn [bind]. rewrite V. change (chk_i32 (0 + 0)) with (@Ok Z 0). cbn [bind].
  unfold carry_step. cbn [set_vr bool_value]. change (65536 <=? 0) with false. cbv iota. cbn [bind].
  rewrite renorm_hang; try reflexivity; cbn [set_vr bool_value_zero_count bit_count]; try assumption; lia.
Qed.

Lemma valid_bounds N cdf : valid_cdf N cdf -> len cdf = Z.of_nat N + 1 /\ Z.of_nat N <= 1024 /\ Forall (fun x => 0 <= x <= 32768) cdf.
Proof.
  intros V. destruct (valid_cdf_len _ _ V) as (L & B). unfold len. rewrite L. split; [lia|]. split; [lia|].
  pose proof (fun j => valid_cdf_nth N cdf j V) as K. destruct V as (probs & cnt & -> & Lp & _ & Hs & Hl & Hc).
  apply Forall_app. split; [|constructor; [lia|constructor]].
  apply Forall_forall. intros x Hx. apply (In_nth _ _ 0) in Hx. destruct Hx as (j & Hj & <-).
  specialize (K j ltac:(lia)). rewrite app_nth1 in K by lia. lia.
Qed.

Lemma new_stale : stale new_coder.
Proof. unfold stale. cbn. lia. Qed.

Lemma created_hangs N cdf s fuel out : valid_cdf N cdf -> (s < N)%nat -> Z.of_nat fuel < 2 ^ 63 ->
  encode_symbol_fuel fuel new_coder (Z.of_nat s) out cdf = Hang.
Proof.
  intros V Hs F. destruct (valid_bounds _ _ V) as (L & B & A). apply hang_row; try assumption; try lia. exact new_stale.
Qed.

(** Sessions without [init_encoder]. *)
Definition codes_nothing (o : op) : Prop :=
  match o with OSym _ _ => False | OBit _ _ => False | OBits _ bs => bs = [] | OLit n _ => n = O end.

Lemma ops_never ops : forall c t out c' t' out', bool_range c = 0 -> encode_ops c t out ops = Ok (c', t', out') ->
  Forall codes_nothing ops /\ c' = c /\ t' = t /\ out' = out.
Proof.
  induction ops as [|o ops IH]; cbn [encode_ops]; intros c t out c' t' out' R H.
  - injection H as <- <- <-. repeat split. constructor.
  - apply bind_inv in H. destruct H as (((c1, t1), o1) & E & H).
    assert (X : codes_nothing o /\ c1 = c /\ t1 = t /\ o1 = out).
    { destruct o as [ctx s|p b|p bs|n v]; cbn [encode_op codes_nothing] in *.
      - apply bind_inv in E. destruct E as (cdf & _ & E). apply bind_inv in E. destruct E as (((c2, o2), d2) & E & _).
        exfalso. exact (zero_never _ _ _ _ _ _ R E).
      - apply bind_inv in E. destruct E as ((c2, o2) & E & _). unfold encode_symbolp in E.
        exfalso. apply bind_inv in E. destruct E as (cdf & _ & E). apply bind_inv in E. destruct E as (((c3, o3), d3) & E & _). exact (zero_never _ _ _ _ _ _ R E).
      - apply bind_inv in E. destruct E as ((c2, o2) & E & F). injection F as <- <- <-. unfold encode_symbols in E.
        apply bind_inv in E. destruct E as (cdf & _ & E). destruct bs as [|b bs]; cbn [encode_symbols_loop] in E.
        + injection E as <- <-. repeat split.
        + exfalso. apply bind_inv in E. destruct E as (y & E & _). exact (zero_never _ _ _ _ _ _ R E).
      - apply bind_inv in E. destruct E as ((c2, o2) & E & F). injection F as <- <- <-.
        destruct n as [|n]; cbn [encode_literal] in E.
        + injection E as <- <-. repeat split.
        + exfalso. apply bind_inv in E. destruct E as (u & _ & E). apply bind_inv in E. destruct E as (y & E & _).
          unfold encode_symbolp in E. apply bind_inv in E. destruct E as (cdf & _ & E). apply bind_inv in E. destruct E as (y2 & E & _).
          exact (zero_never _ _ _ _ _ _ R E). }
    destruct X as (X & -> & -> & ->). destruct (IH _ _ _ _ _ _ R H) as (Y & -> & -> & ->). repeat split. constructor; assumption.
Qed.

(** ** Superblocks and tiles *)

Lemma first_symbol c out b above left : stale c -> In b [3; 6; 9; 12; 15] ->
  code_partition c default_part out b above left 0 = Hang.
Proof.
  intros Sc B. unfold code_partition. cbn [In] in B.
  destruct B as [<-|[<-|[<-|[<-|[<-|[]]]]]];
    (match goal with |- context [idx mi_width_log2 ?b] => let v := eval vm_compute in (idx mi_width_log2 b) in change (idx mi_width_log2 b) with v end);
    cbn [bind]; destruct above, left;
    (match goal with |- context [idx (part_table default_part ?k) ?i] =>
       let v := eval vm_compute in (idx (part_table default_part k) i) in
       replace (idx (part_table default_part k) i) with v by (vm_compute; reflexivity) end);
    cbn [bind]; unfold encode_symbol;
    (rewrite hang_row; [reflexivity|exact Sc|vm_compute; intuition discriminate|vm_compute; reflexivity| |vm_compute; reflexivity]);
    repeat (constructor; [lia|]); constructor.
Qed.

Definition half_sb (b : Z) : Z := if b =? 12 then 8 else 16.

Lemma full_hangs S mode_info e fuel st b r c out : stale (t_coder st) -> t_cdf st = default_part ->
  In b [12; 15] -> r + half_sb b < e_mi_rows e -> c + half_sb b < e_mi_cols e ->
  encode_partition S mode_info e fuel st r c b out = Hang.
Proof.
  intros Sc Cd B R C. destruct fuel as [|fuel]; [reflexivity|]. cbn [encode_partition].
  assert (H : exists n, idx num_4x4_blocks_wide b = Ok n /\ Z.shiftr n 1 = half_sb b /\ 0 < half_sb b /\ b <? BLOCK_8X8 = false).
  { cbn [In] in B. destruct B as [<-|[<-|[]]]; eexists; (split; [vm_compute; reflexivity|]); (split; [reflexivity|]); (split; reflexivity). }
  destruct H as (n & -> & Hn & Hp & Hb). cbn [bind]. rewrite Hn.
  replace ((e_mi_rows e <=? r) || (e_mi_cols e <=? c)) with false by lia. cbv zeta.
  replace (r + half_sb b <? e_mi_rows e) with true by lia. replace (c + half_sb b <? e_mi_cols e) with true by lia.
  unfold partitions_in_order. cbn [try_all]. unfold signal_partition at 1.
  unfold partition_tried. rewrite Hb. cbn [negb andb t_coder t_cdf t_avail_u t_avail_l].
  rewrite Cd, first_symbol; [reflexivity|assumption|cbn [In] in *; tauto].
Qed.

Section WholeProofs.
Variable S : Type.
Variable mode_info : tstate (rest S) -> block_env -> list Z -> res (tstate (rest S) * list Z).

(** A tile that begins inside the frame is never encoded, whatever the coder. *)
Lemma whole_never borrowed x n st out v r0 r1 c0 c1 :
  tile_bounds n (i_cols x) (i_rows x) (i_cs x) (i_rs x) = Ok (r0, r1, c0, c1) ->
  r0 < r1 -> c0 < c1 -> Z.even r0 = true -> Z.even c0 = true ->
  Z.even (i_mi_rows x) = true -> Z.even (i_mi_cols x) = true -> r0 < i_mi_rows x -> c0 < i_mi_cols x ->
  encode_whole_tile S mode_info borrowed x n st out <> Ok v.
Proof.
  intros B R C E1 E2 E3 E4 F1 F2 H. unfold encode_whole_tile in H.
  apply bind_inv in H. destruct H as (u & _ & H). rewrite B in H. cbn [bind] in H.
  apply bind_inv in H. destruct H as (w & _ & H). cbv zeta in H. unfold encode_tile in H. cbn [borrow_mut bind] in H.
  rewrite B in H. cbn [bind] in H. apply bind_inv in H. destruct H as (sb4 & _ & H).
  cbn [sb_rows] in H. replace (r0 <? r1) with true in H by lia.
  apply bind_inv in H. destruct H as (y & H & _). cbn [sb_row] in H. replace (c0 <? c1) with true in H by lia.
  apply bind_inv in H. destruct H as (cd & _ & H). apply bind_inv in H. destruct H as (y2 & H & _).
  unfold superblock in H. apply bind_inv in H. destruct H as ((lr, es) & _ & H). apply bind_inv in H. destruct H as ((cc, oo) & _ & H).
  cbv zeta in H. apply bind_inv in H. destruct H as (y3 & H & _). unfold encode_superblock in H.
  rewrite !Z.div_mul in H by lia. revert H. apply never_partition; cbn [e_mi_rows e_mi_cols]; try assumption.
  destruct (i_use128 x); cbn; tauto.
Qed.

(** With a coder that was not initialised and the default CDFs it runs for ever. *)
Lemma whole_hangs x n st out r0 r1 c0 c1 w lr cdef' :
  tile_bounds n (i_cols x) (i_rows x) (i_cs x) (i_rs x) = Ok (r0, r1, c0, c1) ->
  r0 < r1 -> c0 < c1 ->
  r0 + (if i_use128 x then 16 else 8) < i_mi_rows x -> c0 + (if i_use128 x then 16 else 8) < i_mi_cols x ->
  stale (t_coder st) -> t_cdf st = default_part ->
  start_tile (i_base_q x) (i_planes x) (t_rest st) = Ok w ->
  clear_cdef (w_cdef w) (i_use128 x) r0 c0 = Ok cdef' ->
  encode_lr (i_lr x) (i_units x) r0 c0 (if i_use128 x then 15 else 12) (w_lr w) [] = Ok (lr, []) ->
  encode_whole_tile S mode_info false x n st out = Hang.
Proof.
  intros B R C F1 F2 Sc Cd W K L. unfold encode_whole_tile. cbn [borrow_mut bind]. rewrite B. cbn [bind]. rewrite W. cbn [bind]. cbv zeta.
  unfold encode_tile. cbn [borrow_mut bind]. rewrite B. cbn [bind].
  change BLOCK_128X128 with 15. change BLOCK_64X64 with 12.
  assert (I : exists k, idx num_4x4_blocks_wide (if i_use128 x then 15 else 12) = Ok k) by (destruct (i_use128 x); eexists; vm_compute; reflexivity).
  destruct I as (k & ->). cbn [bind sb_rows]. replace (r0 <? r1) with true by lia. cbn [sb_row]. replace (c0 <? c1) with true by lia.
  rewrite K. cbn [bind]. unfold superblock at 1. cbn [t_rest t_coder t_cdf t_avail_u t_avail_l]. rewrite L. cbn [bind run_levs]. cbv zeta.
  unfold encode_superblock. rewrite !Z.div_mul by lia.
  rewrite full_hangs; try reflexivity; try assumption.
  - destruct (i_use128 x); cbn; tauto.
  - cbn [e_mi_rows]. destruct (i_use128 x); exact F1.
  - cbn [e_mi_cols]. destruct (i_use128 x); exact F2.
Qed.
End WholeProofs.
