From Coq Require Import String ZArith List Bool Lia ZifyBool ZifyNat.
From Verif Require Import Base BaseProofs UtilModel RangeCoderModel SessionModel ElementModel ElementSpec ElementProofs SeqSpec ContextModel
  ModeInfoModel ModeInfoSpec FloorProofs DeltaSpec.
Import ListNotations.
Open Scope string_scope.
Open Scope list_scope.
Open Scope Z_scope.

Definition delta_events (name : string) (path : list Z) (extra delta : Z) : list ev :=
  let a := Z.abs delta in let rem := Z.log2 (a - 1) in
  if delta =? 0 then [ESym name path 0]
  else (if a <? 3 then [ESym name path a] else [ESym name path 3; ELit 3 (rem - 1); ELit rem (a - 1 - 2 ^ (rem - 1) - extra)]) ++
       [ELit 1 (if delta <? 0 then 1 else 0)].

Lemma sym_here n p s r : sym n p (ESym n p s :: r) = Some (s, r).
Proof. unfold sym. rewrite String.eqb_refl. destruct (list_eq_dec Z.eq_dec p p) as [_|N]; [reflexivity|]. now destruct N. Qed.
Lemma low_here n v r : low n (ELit n v :: r) = Some (v mod 2 ^ n, r).
Proof. unfold low, lit. now rewrite Z.eqb_refl. Qed.

Lemma delta_events_read name path extra delta k : Z.abs delta <= 512 -> extra = 0 \/ extra = 1 ->
  av1_delta_of name path (delta_events name path extra delta ++ k) = Some (delta_coded extra delta, k).
Proof.
  intros H He. unfold delta_events, delta_coded. cbv zeta. set (a := Z.abs delta). set (rem := Z.log2 (a - 1)).
  unfold av1_delta_of. destruct (delta =? 0) eqn:E0.
  { cbn [app]. rewrite sym_here. cbn. destruct (a <? 3) eqn:E; [|lia]. f_equal. f_equal. lia. }
  assert (S : (if delta <? 0 then 1 else 0) mod 2 ^ 1 = if delta <? 0 then 1 else 0) by (destruct (delta <? 0); reflexivity).
  destruct (a <? 3) eqn:E.
  - cbn [app]. rewrite sym_here. cbn [obind]. destruct (a =? 3) eqn:E3; [lia|]. cbn [obind]. destruct (a =? 0) eqn:E4; [lia|]. rewrite low_here, S. cbn [obind].
    destruct (delta <? 0) eqn:E5; cbn; repeat f_equal; lia.
  - destruct (log2_range a ltac:(lia)) as (R & P & Q). fold rem in R, P, Q.
    cbn [app]. rewrite sym_here. cbn [obind Z.eqb Pos.eqb]. rewrite low_here. rewrite (Z.mod_small (rem - 1)) by (cbn; lia).
    cbn [obind]. replace (rem - 1 + 1) with rem by lia. rewrite low_here.
    pose proof (Z.mod_pos_bound (a - 1 - 2 ^ (rem - 1) - extra) (2 ^ rem) ltac:(lia)) as B.
    set (X := (a - 1 - 2 ^ (rem - 1) - extra) mod 2 ^ rem) in *. clearbody X. cbn [obind].
    destruct (X + 2 ^ rem + 1 =? 0) eqn:E4; [lia|]. rewrite low_here, S. cbn [obind].
    destruct (Z.sgn_spec delta) as [[? G]|[[? G]|[? G]]]; rewrite G; destruct (delta <? 0) eqn:E5; try (exfalso; lia); cbn [Z.eqb]; f_equal; f_equal; lia.
Qed.

Lemma of_shape name path extra delta : Z.abs delta <= 512 ->
  let a := Z.abs delta in let rem := Z.log2 (a - 1) in
  map (ev_of_op name path)
    (if delta =? 0 then [OSym 0 0]
     else if a <? 3 then [OSym 0 (Z.to_nat a)] ++ [OLit 1 (if delta <? 0 then 1 else 0)]
     else [OSym 0 3; OLit 3 (rem - 1); OLit (Z.to_nat rem) (a - 1 - 2 ^ (rem - 1) - extra)] ++ [OLit 1 (if delta <? 0 then 1 else 0)])
  = delta_events name path extra delta.
Proof.
  intros H a rem. unfold delta_events. fold a. fold rem. cbv zeta. destruct (delta =? 0) eqn:E0; [reflexivity|]. destruct (a <? 3) eqn:E.
  - cbn. repeat f_equal. lia.
  - destruct (log2_range a ltac:(lia)) as (R & _ & _). fold rem in R. cbn [app map ev_of_op]. rewrite Z2Nat.id by lia. reflexivity.
Qed.

Lemma units_small m res want have : 0 <= res -> - m <= want - have <= m -> 1 <= m -> Z.abs (in_units res want have) <= m.
Proof.
  intros R H M. unfold in_units. pose proof (Z.pow_pos_nonneg 2 res ltac:(lia) R).
  assert (- m <= (want - have) / 2 ^ res) by (apply Z.div_le_lower_bound; nia).
  assert ((want - have) / 2 ^ res <= m) by (apply Z.div_le_upper_bound; nia). lia.
Qed.

Lemma q_events q cur k : 0 <= q <= 255 -> 0 <= cur <= 255 -> 0 <= k < 64 ->
  exists ops, delta_q_ops 0 q cur k = Ok (ops, q) /\ map (ev_of_op "delta_q" []) ops = delta_events "delta_q" [] 0 (in_units k q cur).
Proof.
  intros Q C K. pose proof (units_small 255 k q cur ltac:(lia) ltac:(lia) ltac:(lia)) as S. unfold in_units in *.
  rewrite delta_q_ops_value by lia. eexists. split; [reflexivity|]. apply of_shape. lia.
Qed.
Lemma lf_events name path q cur k : -63 <= q <= 63 -> -63 <= cur <= 63 -> 0 <= k < 64 ->
  exists ops, delta_lf_ops 0 q cur k = Ok (ops, q) /\ map (ev_of_op name path) ops = delta_events name path 1 (in_units k q cur).
Proof.
  intros Q C K. pose proof (units_small 126 k q cur ltac:(lia) ltac:(lia) ltac:(lia)) as S. unfold in_units in *.
  rewrite delta_lf_ops_value by lia. rewrite <- of_shape by lia. cbv zeta.
  destruct (_ =? 0); [eexists; split; reflexivity|]. destruct (_ <? 3); eexists; split; reflexivity.
Qed.

Definition in_lf (l : list Z) : Prop := Forall (fun v => -63 <= v <= 63) l.

Lemma idx_at (l : list Z) i : (i < length l)%nat -> idx l (Z.of_nat i) = Ok (nth i l 0).
Proof.
  intros H. unfold idx. destruct (Z.of_nat i <? 0) eqn:E; [lia|]. rewrite Nat2Z.id. now rewrite (nth_error_nth' l 0 H).
Qed.
Lemma in_lf_nth l i : in_lf l -> -63 <= nth i l 0 <= 63.
Proof.
  intros H. destruct (Nat.lt_ge_cases i (length l)) as [L|L]; [|rewrite nth_overflow by exact L; lia].
  exact (proj1 (Forall_forall _ _) H _ (nth_In l 0 L)).
Qed.
Lemma in_lf_set l i v : in_lf l -> -63 <= v <= 63 -> in_lf (set_nth i v l).
Proof.
  intros H V. revert i. induction H as [|a l A H IH]; intros [|i]; cbn [set_nth]; constructor; auto. apply IH.
Qed.

Lemma lf_loop : forall n i x lf cur es, 0 <= x_lf_res x < 64 -> in_lf lf -> in_lf cur -> (i + n <= length lf)%nat -> (i + n <= length cur)%nat ->
  exists ds cur', code_delta_lf n (Z.of_nat i) x lf cur es = Ok (es ++ ds, cur') /\
    (forall k, av1_lf_deltas (x_lf_multi x) n (Z.of_nat i) (ds ++ k) =
       Some (map (fun j => delta_coded 1 (in_units (x_lf_res x) (nth j lf 0) (nth j cur 0))) (seq i n), k)) /\
    length cur' = length cur /\ (forall j, nth j cur' 0 = if (i <=? j)%nat && (j <? i + n)%nat then nth j lf 0 else nth j cur 0).
Proof.
  induction n as [|n IH]; intros i x lf cur es R L C Li Ci.
  - exists [], cur. cbn [code_delta_lf av1_lf_deltas seq map]. rewrite app_nil_r. split; [reflexivity|]. split; [reflexivity|]. split; [reflexivity|].
    intros j. destruct (i <=? j)%nat eqn:E1, (j <? i + 0)%nat eqn:E2; try reflexivity. lia.
  - cbn [code_delta_lf]. rewrite idx_at by lia. cbn [bind]. rewrite idx_at by lia. cbn [bind].
    pose proof (in_lf_nth lf i L) as V. pose proof (in_lf_nth cur i C) as P.
    set (name := if x_lf_multi x then "delta_lf_multi" else "delta_lf"). set (path := if x_lf_multi x then [Z.of_nat i] else @nil Z).
    destruct (lf_events name path (nth i lf 0) (nth i cur 0) (x_lf_res x) V P R) as (ops & E & M). rewrite E. cbn [bind].
    assert (W : encode_delta_lf_abs 0 (b2z (x_lf_multi x)) (Z.of_nat i) = Ok (name, path, 0)).
    { unfold encode_delta_lf_abs, name, path. destruct (x_lf_multi x); reflexivity. }
    rewrite W. cbn [bind]. rewrite M. rewrite Nat2Z.id.
    replace (Z.of_nat i + 1) with (Z.of_nat (S i)) by lia.
    destruct (IH (S i) x lf (set_nth i (nth i lf 0) cur) (es ++ delta_events name path 1 (in_units (x_lf_res x) (nth i lf 0) (nth i cur 0)))) as (ds & cur' & E2 & Rd & Len & Nt);
      [exact R|exact L|now apply in_lf_set|lia| |].
    { rewrite set_nth_len. lia. }
    eexists. exists cur'. rewrite E2, <- app_assoc. split; [reflexivity|]. split; [|split].
    + intros k. cbn [av1_lf_deltas seq map].
      assert (D' : forall q, (if x_lf_multi x then av1_delta_of "delta_lf_multi" [Z.of_nat i] q else av1_delta_of "delta_lf" [] q) = av1_delta_of name path q)
        by (intros q; unfold name, path; destruct (x_lf_multi x); reflexivity).
      rewrite D', <- app_assoc, delta_events_read.
      * cbn [obind]. replace (Z.of_nat i + 1) with (Z.of_nat (S i)) by lia. rewrite Rd. cbn [obind]. f_equal. f_equal. f_equal. apply map_ext_in. intros j J. apply in_seq in J.
        rewrite set_nth_other by lia. reflexivity.
      * pose proof (units_small 126 (x_lf_res x) (nth i lf 0) (nth i cur 0)). lia.
      * now right.
    + rewrite Len. apply set_nth_len.
    + intros j. rewrite Nt. destruct (Nat.eq_dec j i) as [->|N].
      * rewrite set_nth_same by lia. destruct (S i <=? i)%nat eqn:A1; [lia|]. destruct (i <=? i)%nat eqn:A2; [|lia]. destruct (i <? i + S n)%nat eqn:A3; [reflexivity|lia].
      * rewrite set_nth_other by lia.
        destruct (S i <=? j)%nat eqn:A1, (j <? S i + n)%nat eqn:A2, (i <=? j)%nat eqn:A3, (j <? i + S n)%nat eqn:A4; try reflexivity; lia.
Qed.

Lemma map_eq_iff {A B} (f g : A -> B) l : map f l = map g l <-> forall a, In a l -> f a = g a.
Proof.
  induction l as [|a l IH]; cbn [map In]; [split; [intros _ a []|reflexivity]|]. split.
  - intros H. injection H as H1 H2. intros b [<-|I]; [exact H1|]. now apply IH.
  - intros H. f_equal; [apply H; now left|]. apply IH. intros b I. apply H. now right.
Qed.

Lemma deltas_exactly x b t es : 
  let n := lf_count (x_lf_present x) (x_lf_multi x) (x_planes x <=? 1) in
  t_read_deltas t = true -> p_bsize b <> (if x_sb128 x then 15 else 12) \/ p_skip b = false ->
  0 <= x_dq_res x < 64 -> 0 <= x_lf_res x < 64 -> 0 <= p_q b <= 255 -> 0 <= t_cur_q t <= 255 ->
  in_lf (p_lf b) -> in_lf (t_cur_lf t) -> (4 <= length (p_lf b))%nat -> (4 <= length (t_cur_lf t))%nat ->
  exists ds t', code_deltas x b t es = Ok (es ++ ds, t') /\
    (forall k, av1_deltas (x_lf_multi x) n (ds ++ k) =
       Some ((delta_coded 0 (in_units (x_dq_res x) (p_q b) (t_cur_q t)),
              map (fun j => delta_coded 1 (in_units (x_lf_res x) (nth j (p_lf b) 0) (nth j (t_cur_lf t) 0))) (seq 0 n)), k)) /\
    t_read_deltas t' = false /\ t_cur_q t' = p_q b /\ length (t_cur_lf t') = length (t_cur_lf t) /\
    forall j, nth j (t_cur_lf t') 0 = if (j <? n)%nat then nth j (p_lf b) 0 else nth j (t_cur_lf t) 0.
Proof.
  intros n RD SB K1 K2 Q C L1 L2 N1 N2. unfold code_deltas. rewrite RD, andb_true_r.
  replace (negb ((p_bsize b =? (if x_sb128 x then BLOCK_128X128 else BLOCK_64X64)) && p_skip b)) with true.
  2:{ unfold BLOCK_128X128, BLOCK_64X64. destruct SB as [S|S]; [|rewrite S, andb_false_r; reflexivity].
      destruct (p_bsize b =? _) eqn:E; [|reflexivity]. destruct (x_sb128 x); lia. }
  destruct (q_events (p_q b) (t_cur_q t) (x_dq_res x) Q C K1) as (ops & E & M). rewrite E. cbn [bind]. rewrite M. cbn [andb].
  assert (W : exists ds cur', (if x_lf_present x then
        code_delta_lf (if x_lf_multi x then if 1 <? x_planes x then 4%nat else 2%nat else 1%nat) 0 x (p_lf b) (t_cur_lf t)
          (es ++ delta_events "delta_q" [] 0 (in_units (x_dq_res x) (p_q b) (t_cur_q t)))
        else Ok (es ++ delta_events "delta_q" [] 0 (in_units (x_dq_res x) (p_q b) (t_cur_q t)), t_cur_lf t))
      = Ok ((es ++ delta_events "delta_q" [] 0 (in_units (x_dq_res x) (p_q b) (t_cur_q t))) ++ ds, cur') /\
      (forall k, av1_lf_deltas (x_lf_multi x) n 0 (ds ++ k) =
       Some (map (fun j => delta_coded 1 (in_units (x_lf_res x) (nth j (p_lf b) 0) (nth j (t_cur_lf t) 0))) (seq 0 n), k)) /\
      length cur' = length (t_cur_lf t) /\
      (forall j, nth j cur' 0 = if (j <? n)%nat then nth j (p_lf b) 0 else nth j (t_cur_lf t) 0)).
  { unfold n, lf_count. destruct (x_lf_present x).
    - replace (if x_lf_multi x then if 1 <? x_planes x then 4%nat else 2%nat else 1%nat) with
        (if x_lf_multi x then if x_planes x <=? 1 then 2%nat else 4%nat else 1%nat)
        by (destruct (x_lf_multi x), (x_planes x <=? 1) eqn:A, (1 <? x_planes x) eqn:B; try reflexivity; lia).
      set (m := if x_lf_multi x then if x_planes x <=? 1 then 2%nat else 4%nat else 1%nat).
      assert (m <= 4)%nat by (unfold m; destruct (x_lf_multi x), (x_planes x <=? 1); lia).
      destruct (lf_loop m 0 x (p_lf b) (t_cur_lf t) (es ++ delta_events "delta_q" [] 0 (in_units (x_dq_res x) (p_q b) (t_cur_q t))) K2 L1 L2 ltac:(lia) ltac:(lia))
        as (ds & cur' & E2 & Rd & Len & Nt).
      exists ds, cur'. split; [exact E2|]. split; [exact Rd|]. split; [exact Len|]. intros j. rewrite Nt. reflexivity.
    - exists [], (t_cur_lf t). rewrite app_nil_r. split; [reflexivity|]. split; [reflexivity|]. split; [reflexivity|]. intros j.
      destruct (j <? 0)%nat eqn:A; [lia|reflexivity]. }
  destruct W as (ds & cur' & E2 & Rd & Len & Nt). rewrite E2. cbn [bind]. eexists. eexists. rewrite <- app_assoc. split; [reflexivity|].
  split; [|cbn; auto]. intros k. unfold av1_deltas. rewrite <- app_assoc, delta_events_read; [|pose proof (units_small 255 (x_dq_res x) (p_q b) (t_cur_q t)); lia|now left].
  cbn [obind]. rewrite Rd. reflexivity.
Qed.

Lemma deltas_read_iff x b t es :
  let n := lf_count (x_lf_present x) (x_lf_multi x) (x_planes x <=? 1) in
  t_read_deltas t = true -> p_bsize b <> (if x_sb128 x then 15 else 12) \/ p_skip b = false ->
  0 <= x_dq_res x < 64 -> 0 <= x_lf_res x < 64 -> 0 <= p_q b <= 255 -> 0 <= t_cur_q t <= 255 ->
  in_lf (p_lf b) -> in_lf (t_cur_lf t) -> (4 <= length (p_lf b))%nat -> (4 <= length (t_cur_lf t))%nat ->
  exists ds t', code_deltas x b t es = Ok (es ++ ds, t') /\
    (reads_as ds (av1_deltas (x_lf_multi x) n)
       (in_units (x_dq_res x) (p_q b) (t_cur_q t), map (fun j => in_units (x_lf_res x) (nth j (p_lf b) 0) (nth j (t_cur_lf t) 0)) (seq 0 n)) <->
     Z.abs (in_units (x_dq_res x) (p_q b) (t_cur_q t)) <= 2 /\
     forall j, (j < n)%nat -> Z.abs (in_units (x_lf_res x) (nth j (p_lf b) 0) (nth j (t_cur_lf t) 0)) <= 4) /\
    t_read_deltas t' = false /\ t_cur_q t' = p_q b /\ length (t_cur_lf t') = length (t_cur_lf t) /\
    forall j, nth j (t_cur_lf t') 0 = if (j <? n)%nat then nth j (p_lf b) 0 else nth j (t_cur_lf t) 0.
Proof.
  intros n RD SB K1 K2 Q C L1 L2 N1 N2. destruct (deltas_exactly x b t es RD SB K1 K2 Q C L1 L2 N1 N2) as (ds & t' & E & R & T).
  fold n in R, T. exists ds, t'. split; [exact E|]. split; [|exact T].
  pose proof (units_small 255 (x_dq_res x) (p_q b) (t_cur_q t) ltac:(lia) ltac:(lia) ltac:(lia)) as S.
  assert (SL : forall j, Z.abs (in_units (x_lf_res x) (nth j (p_lf b) 0) (nth j (t_cur_lf t) 0)) <= 126).
  { intros j. pose proof (in_lf_nth _ j L1). pose proof (in_lf_nth _ j L2). apply units_small; lia. }
  pose proof (delta_coded_iff 0 _ (Z.le_trans _ _ 512 S ltac:(lia)) (or_introl eq_refl)) as I0.
  assert (I1 : forall j, delta_coded 1 (in_units (x_lf_res x) (nth j (p_lf b) 0) (nth j (t_cur_lf t) 0)) =
      in_units (x_lf_res x) (nth j (p_lf b) 0) (nth j (t_cur_lf t) 0) <-> Z.abs (in_units (x_lf_res x) (nth j (p_lf b) 0) (nth j (t_cur_lf t) 0)) < 3 + 2 * 1).
  { intros j. apply delta_coded_iff; [specialize (SL j); lia|now right]. }
  split.
  - intros H. specialize (H []). rewrite R in H. injection H as H1 H2. split; [apply I0 in H1; lia|].
    intros j J. rewrite map_eq_iff in H2. specialize (H2 j). rewrite in_seq in H2. specialize (H2 ltac:(lia)). apply I1 in H2. lia.
  - intros [H1 H2] k. rewrite R. f_equal. f_equal. f_equal; [apply I0; lia|]. apply map_eq_iff. intros j J. apply in_seq in J. apply I1. specialize (H2 j). lia.
Qed.

Lemma deltas_off x b t es : t_read_deltas t = false \/ (p_bsize b = (if x_sb128 x then 15 else 12) /\ p_skip b = true) ->
  code_deltas x b t es = Ok (es, with_deltas (t_cur_q t) (t_cur_lf t) false t).
Proof.
  intros H. unfold code_deltas.
  replace (negb ((p_bsize b =? (if x_sb128 x then BLOCK_128X128 else BLOCK_64X64)) && p_skip b) && t_read_deltas t) with false.
  2:{ unfold BLOCK_128X128, BLOCK_64X64. destruct H as [H|[H1 H2]]; [rewrite H, andb_false_r; reflexivity|]. rewrite H1, H2, Z.eqb_refl. reflexivity. }
  reflexivity.
Qed.

Lemma lf_value_iff want cur res : -63 <= want <= 63 -> 0 <= res -> 2 ^ res <= want + 64 ->
  (av1_lf_value cur (in_units res want cur) res = want <-> (want - cur) mod 2 ^ res = 0).
Proof.
  intros W R B. unfold av1_lf_value, in_units. pose proof (Z.pow_pos_nonneg 2 res ltac:(lia) R) as P.
  pose proof (Z.div_mod (want - cur) (2 ^ res) ltac:(lia)). pose proof (Z.mod_pos_bound (want - cur) (2 ^ res) P). lia.
Qed.
