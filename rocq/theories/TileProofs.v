(** Proofs about the tile layer. *)
From Coq Require Import ZArith List Bool Lia ZifyBool.
From Verif Require Import Base TableLemmas BaseProofs UtilModel UtilProofs BitsSpec BitsProofs RangeCoderModel BitCodecModel BitCodecSpec BitCodecProofs
  SessionModel BlockTables GeomModel GeomSpec GeomProofs SeqSpec SeqProofs TileModel TileSpec.
Import ListNotations.
Open Scope Z_scope.
Ltac Zify.zify_post_hook ::= Z.div_mod_to_equations.

(** ** tile_log2 *)
Lemma tile_log2_loop_ok fuel : forall k blk target,
  0 < blk < 2 ^ 20 -> 0 <= k -> Z.of_nat fuel + k = 64 -> target <= 2 ^ 40 ->
  (forall j, 0 <= j < k -> blk * 2 ^ j < target) -> k <= 40 ->
  exists r, tile_log2_loop fuel k blk target = Ok r /\ is_tile_log2 blk target r.
Proof.
  induction fuel as [|f IH]; intros k blk target B K F T J K40; [exfalso; lia|].
  cbn [tile_log2_loop]. rewrite shiftl_mul by lia.
  assert (P : 2 ^ k <= 2 ^ 40) by (apply Z.pow_le_mono_r; lia).
  assert (P0 : 0 < 2 ^ k) by (apply Z.pow_pos_nonneg; lia).
  assert (Q : 0 <= blk * 2 ^ k <= 18446744073709551615).
  { split; [nia|]. assert (blk * 2 ^ k <= 2 ^ 20 * 2 ^ 40) by nia. change (2 ^ 20 * 2 ^ 40) with 1152921504606846976 in *. lia. }
  rewrite as_u64_id by lia.
  destruct (blk * 2 ^ k <? target) eqn:E.
  - apply IH; try lia.
    + intros j Hj. assert (C : j = k \/ j < k) by lia. destruct C as [->|C]; [lia|]. apply J. lia.
    + destruct (Z.eq_dec k 40) as [->|]; [|lia]. exfalso. nia.
  - exists k. split; [reflexivity|]. split; [lia|]. split; [lia|]. exact J.
Qed.

Lemma is_tile_log2_unique blk target a b : is_tile_log2 blk target a -> is_tile_log2 blk target b -> a = b.
Proof.
  intros (A0 & A1 & A2) (B0 & B1 & B2).
  destruct (Z.lt_trichotomy a b) as [C|[C|C]]; [|exact C|].
  - specialize (B2 a ltac:(lia)). lia.
  - specialize (A2 b ltac:(lia)). lia.
Qed.

Lemma av1_tile_log2_ok blk target : 0 < blk -> is_tile_log2 blk target (av1_tile_log2 blk target).
Proof.
  intros B. unfold av1_tile_log2. set (c := (target + blk - 1) / blk).
  assert (C : blk * (c - 1) < target <= blk * c).
  { subst c. pose proof (Z.div_mod (target + blk - 1) blk ltac:(lia)).
    pose proof (Z.mod_pos_bound (target + blk - 1) blk ltac:(lia)). nia. }
  clearbody c.
  destruct (Z_le_gt_dec c 1) as [L|G].
  - rewrite Z.log2_up_eqn0 by lia. split; [lia|]. split; [rewrite Z.pow_0_r; nia|]. intros; lia.
  - pose proof (Z.log2_up_spec c ltac:(lia)) as (S1 & S2). pose proof (Z.log2_up_nonneg c).
    split; [assumption|]. split; [nia|].
    intros j Hj. assert (2 ^ j <= 2 ^ Z.pred (Z.log2_up c)) by (apply Z.pow_le_mono_r; lia). nia.
Qed.

Lemma tile_log2_ok blk target : 0 < blk < 2 ^ 20 -> target <= 2 ^ 40 -> tile_log2 blk target = Ok (av1_tile_log2 blk target).
Proof.
  intros B T. unfold tile_log2.
  destruct (tile_log2_loop_ok 64 0 blk target B ltac:(lia) eq_refl T ltac:(intros; lia) ltac:(lia)) as (r & R & I).
  rewrite R. f_equal. eapply is_tile_log2_unique; [exact I|]. apply av1_tile_log2_ok. lia.
Qed.

(** ** Starts *)
Lemma set_at_ok v i x : Z.of_nat i < len v -> set_at v i x = Ok (firstn i v ++ x :: skipn (S i) v).
Proof.
  intros H. unfold set_at. rewrite (idx_nth _ v (Z.of_nat i) 0) by (pose proof (len_nonneg _ v); lia).
  cbn [bind]. f_equal. unfold len in H. assert (L : (i < length v)%nat) by lia. clear H.
  revert i L. induction v as [|a v IH]; intros i L; [cbn in L; lia|].
  destruct i; [reflexivity|]. cbn [set_nth firstn skipn app]. f_equal. apply IH. cbn in L. lia.
Qed.

Lemma set_at_bad v i x : len v <= Z.of_nat i -> set_at v i x = Panic.
Proof. intros H. unfold set_at. rewrite idx_oob by lia. reflexivity. Qed.

Lemma cdiv_0 a b : 0 < b -> a <= 0 -> - b < a -> cdiv a b = 0.
Proof. intros. unfold cdiv. apply Z.div_small. lia. Qed.

Lemma cdiv_step a b : 0 < b -> cdiv a b = cdiv (a - b) b + 1.
Proof. intros. unfold cdiv. replace (a + b - 1) with (a - b + b - 1 + 1 * b) by ring. rewrite Z.div_add by lia. reflexivity. Qed.

Lemma cdiv_pos a b : 0 < b -> 0 < a -> 1 <= cdiv a b.
Proof. intros. unfold cdiv. apply Z.div_le_lower_bound; lia. Qed.

Lemma cdiv_nonneg a b : 0 < b -> - b < a -> 0 <= cdiv a b.
Proof. intros. unfold cdiv. apply Z.div_pos; lia. Qed.

(** The entries from position [i] on. *)
Definition starts_from (start n : Z) (step sh mi : Z) : list Z :=
  map (fun i => (start + Z.of_nat i * step) * 2 ^ sh) (seq 0 (Z.to_nat n)) ++ [mi].

Lemma starts_cons start n step sh mi : 0 < n ->
  starts_from start n step sh mi = start * 2 ^ sh :: starts_from (start + step) (n - 1) step sh mi.
Proof.
  intros N. unfold starts_from. replace (Z.to_nat n) with (S (Z.to_nat (n - 1))) by lia.
  cbn [seq map app]. f_equal; [f_equal; lia|]. f_equal. rewrite <- seq_shift, map_map. apply map_ext. intros i.
  f_equal. lia.
Qed.

Lemma starts_len start n step sh mi : 0 <= n -> len (starts_from start n step sh mi) = n + 1.
Proof. intros. unfold starts_from, len. rewrite app_length, map_length, seq_length. cbn. lia. Qed.

Lemma fill_starts_ok fuel : forall pre v start sb step sh mi, 0 < step -> 0 <= sh -> - step < sb - start ->
  sb - start < Z.of_nat fuel -> (0 < fuel)%nat ->
  fill_starts fuel (pre ++ v) (length pre) start sb step sh mi =
    (if cdiv (sb - start) step + 1 <=? len v
     then Ok (pre ++ starts_from start (cdiv (sb - start) step) step sh mi
                  ++ skipn (Z.to_nat (cdiv (sb - start) step + 1)) v)
     else Panic).
Proof.
  induction fuel as [|f IH]; intros pre v start sb step sh mi St Sh D F F0.
  { exfalso. lia. }
  cbn [fill_starts]. destruct (start <? sb) eqn:E.
  - pose proof (cdiv_pos (sb - start) step St ltac:(lia)) as Cp.
    destruct (Z_le_gt_dec (len (pre ++ v)) (Z.of_nat (length pre))) as [L|L].
    + rewrite set_at_bad by exact L. cbn [bind]. rewrite len_app in L. unfold len at 1 in L.
      pose proof (len_nonneg _ v). replace (_ <=? len v) with false by lia. reflexivity.
    + rewrite set_at_ok by lia. cbn [bind].
      assert (V : exists a v', v = a :: v').
      { destruct v; [rewrite app_nil_r in L; unfold len in L; lia|eauto]. }
      destruct V as (a & v' & ->).
      rewrite firstn_app, firstn_all, Nat.sub_diag. cbn [firstn]. rewrite app_nil_r.
      replace (S (length pre)) with (length (pre ++ [a])) at 1 by (rewrite app_length; cbn; lia).
      replace (pre ++ a :: v') with ((pre ++ [a]) ++ v') by (rewrite <- app_assoc; reflexivity).
      rewrite skipn_app, skipn_all, Nat.sub_diag. cbn [skipn app].
      replace (pre ++ Z.shiftl start sh :: v') with ((pre ++ [Z.shiftl start sh]) ++ v') by (rewrite <- app_assoc; reflexivity).
      replace (S (length pre)) with (length (pre ++ [Z.shiftl start sh])) by (rewrite app_length; cbn; lia).
      rewrite IH by lia.
      replace (sb - (start + step)) with (sb - start - step) by ring.
      rewrite (cdiv_step (sb - start)) by lia. rewrite len_cons.
      set (n := cdiv (sb - start - step) step).
      assert (N0 : 0 <= n) by (apply cdiv_nonneg; lia).
      replace (n + 1 + 1 <=? 1 + len v') with (n + 1 <=? len v') by lia.
      destruct (n + 1 <=? len v'); [|reflexivity]. f_equal.
      rewrite (starts_cons start) by lia. rewrite shiftl_mul by lia.
      replace (n + 1 - 1) with n by ring. rewrite <- !app_assoc. cbn [app]. do 3 f_equal.
      replace (Z.to_nat (n + 1 + 1)) with (S (Z.to_nat (n + 1))) by lia. reflexivity.
  - assert (C0 : cdiv (sb - start) step = 0) by (apply cdiv_0; lia). rewrite C0. cbn [Z.add].
    destruct (Z_le_gt_dec (len (pre ++ v)) (Z.of_nat (length pre))) as [L|L].
    + rewrite set_at_bad by exact L. rewrite len_app in L. unfold len at 1 in L.
      pose proof (len_nonneg _ v). replace (_ <=? len v) with false by lia. reflexivity.
    + rewrite set_at_ok by lia.
      assert (V : exists a v', v = a :: v').
      { destruct v; [rewrite app_nil_r in L; unfold len in L; lia|eauto]. }
      destruct V as (a & v' & ->). rewrite len_cons. pose proof (len_nonneg _ v').
      replace (1 <=? 1 + len v') with true by lia. f_equal.
      rewrite firstn_app, firstn_all, Nat.sub_diag. cbn [firstn]. rewrite app_nil_r.
      replace (S (length pre)) with (length (pre ++ [a])) at 1 by (rewrite app_length; cbn; lia).
      replace (pre ++ a :: v') with ((pre ++ [a]) ++ v') by (rewrite <- app_assoc; reflexivity).
      rewrite skipn_app, skipn_all, Nat.sub_diag. reflexivity.
Qed.

Lemma starts_av1 n step sh mi sbs : n = cdiv sbs step -> 0 <= sh ->
  starts_from 0 n step sh mi = av1_starts sbs step (2 ^ sh) mi.
Proof. intros -> H. unfold starts_from, av1_starts. f_equal. Qed.

(** The starts split the frame. *)
Lemma starts_split sbs step sb mi : 0 < step -> 0 < sb -> 0 < sbs -> sb * (sbs - 1) < mi ->
  splits (av1_starts sbs step sb mi) mi.
Proof.
  intros St Sb Ss M. unfold splits, av1_starts.
  pose proof (cdiv_pos sbs step St Ss) as C. set (n := Z.to_nat (cdiv sbs step)).
  assert (N : (1 <= n)%nat) by lia.
  assert (Last : (Z.of_nat n - 1) * step < sbs).
  { subst n. rewrite Z2Nat.id by lia. unfold cdiv. pose proof (Z.div_mod (sbs + step - 1) step ltac:(lia)).
    pose proof (Z.mod_pos_bound (sbs + step - 1) step ltac:(lia)). unfold cdiv in C. nia. }
  split; [|split].
  - rewrite nth_error_app1 by (rewrite map_length, seq_length; lia).
    rewrite (map_nth_error _ 0 (seq 0 n) (d := 0%nat)); [reflexivity|].
    destruct n; [lia|reflexivity].
  - eexists. reflexivity.
  - intros i a b A B.
    assert (E : forall k, (k < n)%nat -> nth_error (map (fun i => Z.of_nat i * step * sb) (seq 0 n) ++ [mi]) k
                = Some (Z.of_nat k * step * sb)).
    { intros k K. rewrite nth_error_app1 by (rewrite map_length, seq_length; lia).
      apply (map_nth_error (fun i => Z.of_nat i * step * sb)). rewrite nth_error_nth' with (d := 0%nat) by (rewrite seq_length; lia).
      rewrite seq_nth by lia. reflexivity. }
    assert (I : (S i <= n)%nat).
    { match type of B with ?x = _ => assert (H : x <> None) by (rewrite B; discriminate) end. apply nth_error_Some in H.
      rewrite app_length, map_length, seq_length in H. cbn in H. lia. }
    rewrite E in A by lia. injection A as <-.
    destruct (Nat.eq_dec (S i) n) as [Q|Q].
    + rewrite nth_error_app2 in B by (rewrite map_length, seq_length; lia).
      rewrite map_length, seq_length in B. replace (S i - n)%nat with 0%nat in B by lia. cbn in B. injection B as <-.
      replace (Z.of_nat i) with (Z.of_nat n - 1) by lia. set (u := (Z.of_nat n - 1) * step) in *.
      assert (u * sb <= (sbs - 1) * sb) by (apply Z.mul_le_mono_nonneg_r; lia). lia.
    + rewrite E in B by lia. assert (b = Z.of_nat (S i) * step * sb) by congruence. subst b. rewrite Nat2Z.inj_succ.
      replace (Z.succ (Z.of_nat i) * step * sb) with (Z.of_nat i * step * sb + step * sb) by ring.
      assert (0 < step * sb) by (apply Z.mul_pos_pos; lia). lia.
Qed.

(** ** The header *)
Definition lim_ok (mi_cols mi_rows : Z) (use128 : bool) : tile_limits :=
  let sb := if use128 then 32 else 16 in
  mkLim (cdiv mi_cols sb) (cdiv mi_rows sb) (if use128 then 5 else 4)
    (av1_min_cols sb (cdiv mi_cols sb)) (av1_max (cdiv mi_cols sb)) (av1_max (cdiv mi_rows sb))
    (av1_min_tiles sb (cdiv mi_cols sb) (cdiv mi_rows sb)).

Lemma limits_ok mi_cols mi_rows use128 : 0 < mi_cols <= 2 ^ 19 -> 0 < mi_rows <= 2 ^ 19 ->
  compute_limits mi_cols mi_rows use128 = Ok (lim_ok mi_cols mi_rows use128).
Proof.
  intros C R. unfold compute_limits, lim_ok.
  set (sb := if use128 then 32 else 16).
  assert (E1 : (if use128 then Z.shiftr (mi_cols + 31) 5 else Z.shiftr (mi_cols + 15) 4) = cdiv mi_cols sb).
  { subst sb. unfold cdiv. destruct use128; rewrite shiftr_div by lia; f_equal; lia. }
  assert (E2 : (if use128 then Z.shiftr (mi_rows + 31) 5 else Z.shiftr (mi_rows + 15) 4) = cdiv mi_rows sb).
  { subst sb. unfold cdiv. destruct use128; rewrite shiftr_div by lia; f_equal; lia. }
  rewrite E1, E2. clear E1 E2.
  assert (B1 : 1 <= cdiv mi_cols sb <= 2 ^ 19) by (unfold cdiv; subst sb; destruct use128; lia).
  assert (B2 : 1 <= cdiv mi_rows sb <= 2 ^ 19) by (unfold cdiv; subst sb; destruct use128; lia).
  set (sc := cdiv mi_cols sb) in *. set (sr := cdiv mi_rows sb) in *.
  assert (W : Z.shiftr MAX_TILE_WIDTH ((if use128 then 5 else 4) + 2) = 1024 / sb) by (subst sb; destruct use128; reflexivity).
  assert (A : Z.shiftr MAX_TILE_AREA (2 * ((if use128 then 5 else 4) + 2)) = 4096 * 2304 / 16 / (sb * sb))
    by (subst sb; destruct use128; reflexivity).
  rewrite W, A.
  assert (W' : 0 < 1024 / sb < 2 ^ 20) by (subst sb; destruct use128; cbn; lia).
  assert (A' : 0 < 4096 * 2304 / 16 / (sb * sb) < 2 ^ 20) by (subst sb; destruct use128; vm_compute; split; reflexivity).
  rewrite tile_log2_ok by (try assumption; lia). cbn [bind].
  replace (if sc <? MAX_TILE_COLS then sc else MAX_TILE_COLS) with (Z.min sc 64)
    by (unfold MAX_TILE_COLS; destruct (sc <? 64) eqn:?; lia).
  replace (if sr <? MAX_TILE_ROWS then sr else MAX_TILE_ROWS) with (Z.min sr 64)
    by (unfold MAX_TILE_ROWS; destruct (sr <? 64) eqn:?; lia).
  rewrite tile_log2_ok by lia. cbn [bind]. rewrite tile_log2_ok by lia. cbn [bind].
  rewrite tile_log2_ok by (try assumption; assert (sr * sc <= 2 ^ 19 * 2 ^ 19) by nia; lia). cbn [bind].
  f_equal. unfold av1_min_cols, av1_max, av1_min_tiles, av1_min_cols. f_equal.
  set (x := av1_tile_log2 _ sc). set (y := av1_tile_log2 _ (sr * sc)). destruct (y <? x) eqn:?; lia.
Qed.

Lemma rd_increments_ok k : forall n r, rd_increments k (repeat 1 n ++ 0 :: r) =
  if (n <? k)%nat then Some (Z.of_nat n, r) else Some (Z.of_nat k, repeat 1 (n - k) ++ 0 :: r).
Proof.
  induction k as [|k IH]; intros n r; cbn [rd_increments].
  - rewrite Nat.sub_0_r. reflexivity.
  - destruct n as [|n]; cbn [repeat app rd1 obind].
    + reflexivity.
    + cbn [Z.eqb Pos.eqb]. rewrite IH. change (S n <? S k)%nat with (n <? k)%nat.
      destruct (n <? k)%nat; cbn [obind]; do 2 f_equal; lia.
Qed.

Lemma push_n_repeat n : forall out b, push_n n out b = out ++ repeat b n.
Proof.
  induction n as [|n IH]; intros out b; cbn [push_n repeat]; [rewrite app_nil_r; reflexivity|].
  rewrite IH. unfold push. rewrite <- app_assoc. reflexivity.
Qed.

Lemma shift_step sbs k : 0 <= k -> Z.shiftr (sbs + Z.shiftl 1 k - 1) k = cdiv sbs (2 ^ k).
Proof. intros K. rewrite shiftr_div, shiftl_mul by lia. unfold cdiv. f_equal; ring. Qed.

Lemma av1_log2_nonneg a b : 0 <= av1_tile_log2 a b.
Proof. apply Z.log2_up_nonneg. Qed.

Lemma tiles_log2_ok n : 1 <= n <= 65535 -> tiles_log2 n = Ok (Z.log2 n).
Proof. intros H. unfold tiles_log2. rewrite as_u16_id by lia. apply msb16_log2. lia. Qed.

Lemma log2_16 n : 1 <= n <= 65535 -> 0 <= Z.log2 n <= 15.
Proof. intros H. pose proof (log2_bound n 16 ltac:(lia) ltac:(cbn; lia)). lia. Qed.

Lemma cdiv_pow a k : 0 < a -> 0 <= k -> 1 <= cdiv a (2 ^ k).
Proof. intros. apply cdiv_pos; [apply Z.pow_pos_nonneg; lia|lia]. Qed.

Lemma tile_info_writes out mi_cols mi_rows (use128 : bool) tile_cols tile_rows update_id size_bytes cs rs :
  0 < mi_cols <= 2 ^ 19 -> 0 < mi_rows <= 2 ^ 19 -> 1 <= tile_cols <= 65535 -> 1 <= tile_rows <= 65535 ->
  0 <= update_id < 2 ^ 32 -> 0 <= size_bytes < 2 ^ 32 ->
  let sb := if use128 then 32 else 16 in
  let sc := cdiv mi_cols sb in let sr := cdiv mi_rows sb in
  let cl := Z.log2 tile_cols in let rl := Z.log2 tile_rows in
  let wc := cdiv sc (2 ^ cl) in let wr := cdiv sr (2 ^ rl) in
  let mt := av1_min_tiles sb sc sr in
  encode_tile_info out mi_cols mi_rows use128 true tile_cols tile_rows update_id size_bytes cs rs =
  if (av1_min_cols sb sc <=? cl) && (cdiv sc wc + 1 <=? len cs) && (cl <=? mt) && (mt - cl <=? rl)
     && (cdiv sr wr + 1 <=? len rs) && (((cl =? 0) && (rl =? 0)) || (1 <=? size_bytes))
  then Ok (out ++ info_bits (av1_min_cols sb sc) cl (mt - cl) rl (info_tail cl rl update_id size_bytes),
           av1_starts sc wc sb mi_cols ++ skipn (Z.to_nat (cdiv sc wc + 1)) cs,
           av1_starts sr wr sb mi_rows ++ skipn (Z.to_nat (cdiv sr wr + 1)) rs)
  else Panic.
Proof.
  intros C R TC TR U Sz. cbv zeta. unfold encode_tile_info. rewrite limits_ok by assumption. cbn [bind].
  unfold lim_ok. set (sb := if use128 then 32 else 16).
  cbn [l_sb_cols l_sb_rows l_sb_shift l_min_cols l_max_cols l_max_rows l_min_tiles].
  rewrite !tiles_log2_ok by assumption. cbn [bind].
  pose proof (log2_16 _ TC) as CL. pose proof (log2_16 _ TR) as RL.
  set (cl := Z.log2 tile_cols) in *. set (rl := Z.log2 tile_rows) in *.
  assert (Sp : sb = 2 ^ (if use128 then 5 else 4)) by (subst sb; destruct use128; reflexivity).
  assert (Sh : 0 <= (if use128 then 5 else 4)) by (destruct use128; lia).
  assert (B1 : 1 <= cdiv mi_cols sb <= 2 ^ 19) by (unfold cdiv; subst sb; destruct use128; lia).
  assert (B2 : 1 <= cdiv mi_rows sb <= 2 ^ 19) by (unfold cdiv; subst sb; destruct use128; lia).
  set (sc := cdiv mi_cols sb) in *. set (sr := cdiv mi_rows sb) in *.
  assert (Mc : 0 <= av1_min_cols sb sc) by apply av1_log2_nonneg. set (mc := av1_min_cols sb sc) in *.
  assert (Mt : 0 <= av1_min_tiles sb sc sr < 2 ^ 50).
  { unfold av1_min_tiles. fold mc. split; [lia|]. unfold mc, av1_min_cols.
    assert (X : forall a b, 1 <= a -> 1 <= b < 2 ^ 40 -> av1_tile_log2 a b <= 40).
    { intros a b A B. unfold av1_tile_log2. apply Z.log2_up_le_pow2; [|].
      - apply Z.div_str_pos. lia.
      - apply Z.div_le_upper_bound; [lia|]. nia. }
    assert (1 <= sr * sc < 2 ^ 40) by (split; nia).
    pose proof (X (1024 / sb) sc ltac:(subst sb; destruct use128; cbn; lia) ltac:(lia)).
    pose proof (X (4096 * 2304 / 16 / (sb * sb)) (sr * sc) ltac:(subst sb; destruct use128; vm_compute; discriminate) ltac:(lia)).
    lia. }
  set (mt := av1_min_tiles sb sc sr) in *.
  assert (Mc2 : mc < 2 ^ 50) by (subst mt; unfold av1_min_tiles in Mt; fold mc in Mt; lia).
  clearbody mc mt.
  destruct (mc <=? cl) eqn:E1; cbn [andb];
    [rewrite chk_u64_ok by lia | unfold chk_u64; rewrite chk_not_ok by lia; reflexivity].
  cbn [bind]. rewrite shift_ok_ok by lia. cbn [bind].
  rewrite !shift_step by lia. 
  pose proof (cdiv_pow sc cl ltac:(lia) ltac:(lia)) as Wc. pose proof (cdiv_pow sr rl ltac:(lia) ltac:(lia)) as Wr.
  set (wc := cdiv sc (2 ^ cl)) in *. set (wr := cdiv sr (2 ^ rl)) in *. clearbody wc wr.
  pose proof (fill_starts_ok (S (Z.to_nat sc)) [] cs 0 sc wc (if use128 then 5 else 4) mi_cols) as F1.
  cbn [app List.length] in F1. rewrite Z.sub_0_r in F1. rewrite F1 by lia. clear F1.
  destruct (cdiv sc wc + 1 <=? len cs) eqn:E2; cbn [andb bind]; [|reflexivity].
  destruct (cl <=? mt) eqn:E3; cbn [andb];
    [rewrite chk_u64_ok by lia | unfold chk_u64; rewrite chk_not_ok by lia; reflexivity].
  cbn [bind].
  destruct (mt - cl <=? rl) eqn:E4; cbn [andb];
    [rewrite chk_u64_ok by lia | unfold chk_u64; rewrite chk_not_ok by lia; reflexivity].
  cbn [bind].
  pose proof (fill_starts_ok (S (Z.to_nat sr)) [] rs 0 sr wr (if use128 then 5 else 4) mi_rows) as F1.
  cbn [app List.length] in F1. rewrite Z.sub_0_r in F1. rewrite F1 by lia. clear F1.
  destruct (cdiv sr wr + 1 <=? len rs) eqn:E5; cbn [andb bind]; [|reflexivity].
  rewrite !(starts_av1 _ _ _ _ _ eq_refl Sh). rewrite <- Sp.
  rewrite !push_n_repeat. unfold push.
  assert (Em : forall tail, ((((out ++ [b2z true]) ++ repeat 1 (Z.to_nat (cl - mc))) ++ [0]) ++
     repeat 1 (Z.to_nat (rl - (mt - cl)))) ++ [0] ++ tail = out ++ info_bits mc cl (mt - cl) rl tail).
  { intros tail. unfold info_bits. rewrite <- !app_assoc. reflexivity. }
  unfold info_tail.
  destruct ((0 <? cl) || (0 <? rl)) eqn:E6.
  - rewrite as_u32_id by lia. rewrite as_u8_id by lia. rewrite push_bits_with_size_ok by lia. cbn [bind].
    replace ((cl =? 0) && (rl =? 0)) with false by lia. cbn [orb].
    destruct (1 <=? size_bytes) eqn:E7;
      [rewrite chk_u64_ok by lia | unfold chk_u64; rewrite chk_not_ok by lia; reflexivity].
    cbn [bind]. rewrite as_u32_id by lia. rewrite push_bits_with_size_ok by lia. cbn [bind].
    rewrite <- Em. rewrite <- !app_assoc. reflexivity.
  - replace ((cl =? 0) && (rl =? 0)) with true by lia. cbn [orb]. rewrite <- Em. cbn [app]. reflexivity.
Qed.

Lemma rd_length n q v q' : rd n q = Some (v, q') -> length q = (n + length q')%nat.
Proof.
  unfold rd. destruct (n <=? length q)%nat eqn:E; [|discriminate]. intros H. injection H as _ <-.
  rewrite skipn_length. apply Nat.leb_le in E. lia.
Qed.

Lemma obind_inv (A B : Type) (x : option A) (f : A -> option B) b : obind x f = Some b -> exists a, x = Some a /\ f a = Some b.
Proof. destruct x; cbn; [eauto|discriminate]. Qed.

Lemma info_tail_length cl rl id sz : 0 <= cl -> 0 <= rl ->
  length (info_tail cl rl id sz) = if (0 <? cl) || (0 <? rl) then (Z.to_nat (rl + cl) + 2)%nat else 0%nat.
Proof.
  intros. unfold info_tail. destruct (_ || _); [|reflexivity]. rewrite app_length, !to_bits_length. reflexivity.
Qed.

Lemma tile_info_read mi_cols mi_rows (use128 : bool) cl rl update_id size_bytes :
  0 < mi_cols -> 0 < mi_rows ->
  let sb := if use128 then 32 else 16 in
  let sc := cdiv mi_cols sb in let sr := cdiv mi_rows sb in
  let mt := av1_min_tiles sb sc sr in
  av1_min_cols sb sc <= cl <= mt -> mt - cl <= rl ->
  0 <= update_id < 2 ^ (rl + cl) -> 1 <= size_bytes <= 4 ->
  let bits := info_bits (av1_min_cols sb sc) cl (mt - cl) rl (info_tail cl rl update_id size_bytes) in
  let info := mkTI cl rl (av1_starts sc (cdiv sc (2 ^ cl)) sb mi_cols) (av1_starts sr (cdiv sr (2 ^ rl)) sb mi_rows)
                (if (0 <? cl) || (0 <? rl) then update_id else 0) (if (0 <? cl) || (0 <? rl) then size_bytes else 0) in
  (forall rest, rd_tile_info mi_cols mi_rows use128 (bits ++ rest) = Some (info, rest)) <->
  (cl < av1_max sc /\ rl < av1_max sr).
Proof.
  intros C R. cbv zeta. set (sb := if use128 then 32 else 16).
  set (sc := cdiv mi_cols sb). set (sr := cdiv mi_rows sb).
  intros CL RL U Sz.
  assert (Mc : 0 <= av1_min_cols sb sc) by apply av1_log2_nonneg.
  set (mc := av1_min_cols sb sc) in *. set (mt := av1_min_tiles sb sc sr) in *.
  assert (Step : forall rest, rd_tile_info mi_cols mi_rows use128 (info_bits mc cl (mt - cl) rl
       (info_tail cl rl update_id size_bytes) ++ rest) =
     let n := Z.to_nat (cl - mc) in let k := Z.to_nat (av1_max sc - mc) in
     let rows q cl' :=
       let min_rows := Z.max (mt - cl') 0 in
       LET (m, q) := rd_increments (Z.to_nat (av1_max sr - min_rows)) q IN
       let rl' := min_rows + m in
       LET (id, q) := (if (0 <? cl') || (0 <? rl') then rd (Z.to_nat (rl' + cl')) q else Some (0, q)) IN
       LET (bytes, q) := (if (0 <? cl') || (0 <? rl') then rd 2 q else Some (-1, q)) IN
       Some (mkTI cl' rl' (av1_starts sc (cdiv sc (2 ^ cl')) sb mi_cols)
          (av1_starts sr (cdiv sr (2 ^ rl')) sb mi_rows) id (bytes + 1), q) in
     let tl := repeat 1 (Z.to_nat (rl - (mt - cl))) ++ 0 :: info_tail cl rl update_id size_bytes ++ rest in
     if (n <? k)%nat then rows tl (mc + Z.of_nat n)
     else rows (repeat 1 (n - k) ++ 0 :: tl) (mc + Z.of_nat k)).
  { intros rest. unfold rd_tile_info, info_bits. fold sb. fold sc sr. fold mc. fold mt. cbn [app rd1 obind Z.eqb Pos.eqb negb].
    rewrite <- !app_assoc. cbn [app]. rewrite <- !app_assoc. cbn [app]. rewrite rd_increments_ok.
    cbv zeta. destruct (_ <? _)%nat; reflexivity. }
  split.
  - intros H. specialize (H []). rewrite Step in H. clear Step. cbv zeta in H.
    (* what a reader that starts the row bits at [q] has left, if the values agree *)
    assert (Rows : forall q cl' v,
       (let min_rows := Z.max (mt - cl') 0 in
       LET (m, q) := rd_increments (Z.to_nat (av1_max sr - min_rows)) q IN
       let rl' := min_rows + m in
       LET (id, q) := (if (0 <? cl') || (0 <? rl') then rd (Z.to_nat (rl' + cl')) q else Some (0, q)) IN
       LET (bytes, q) := (if (0 <? cl') || (0 <? rl') then rd 2 q else Some (-1, q)) IN
       Some (mkTI cl' rl' (av1_starts sc (cdiv sc (2 ^ cl')) sb mi_cols)
          (av1_starts sr (cdiv sr (2 ^ rl')) sb mi_rows) id (bytes + 1), q)) = Some (v, []) ->
       ti_cols_log2 v = cl -> ti_rows_log2 v = rl ->
       cl' = cl /\ exists q', rd_increments (Z.to_nat (av1_max sr - (mt - cl))) q = Some (rl - (mt - cl), q') /\
         length q' = length (info_tail cl rl update_id size_bytes)).
    { intros q cl' v. cbv zeta. intros Q V1 V2.
      apply obind_inv in Q. destruct Q as ((m & q1) & I & Q).
      apply obind_inv in Q. destruct Q as ((id & q2) & J & Q).
      apply obind_inv in Q. destruct Q as ((by_ & q3) & K & Q).
      injection Q as <- ->. cbn [ti_cols_log2 ti_rows_log2] in V1, V2. subst cl'. split; [reflexivity|].
      replace (Z.max (mt - cl) 0) with (mt - cl) in * by lia.
      exists q1. split; [rewrite I; do 2 f_equal; lia|]. rewrite info_tail_length by lia. rewrite V2 in J, K.
      destruct ((0 <? cl) || (0 <? rl)).
      - apply rd_length in J, K. cbn [length] in K. lia.
      - injection J as _ <-. injection K as _ ->. reflexivity. }
    destruct (Z.to_nat (cl - mc) <? Z.to_nat (av1_max sc - mc))%nat eqn:E.
    + split; [apply Nat.ltb_lt in E; lia|].
      apply Rows in H; [|reflexivity|reflexivity]. destruct H as (_ & q' & I & L).
      rewrite rd_increments_ok in I. destruct (_ <? _)%nat eqn:E2 in I; [apply Nat.ltb_lt in E2; lia|].
      injection I as I1 I2. subst q'. rewrite !app_length in L. cbn [length] in L. rewrite !app_length in L. cbn [length] in L. lia.
    + exfalso. apply Rows in H; [|reflexivity|reflexivity]. destruct H as (E1 & q' & I & L).
      replace (Z.to_nat (cl - mc) - Z.to_nat (av1_max sc - mc))%nat with 0%nat in I by (apply Nat.ltb_ge in E; lia).
      cbn [repeat app] in I.
      destruct (Z.to_nat (av1_max sr - (mt - cl))) as [|k2]; cbn [rd_increments rd1 obind Z.eqb] in I.
      * injection I as I1 I2. subst q'. cbn [length] in L. rewrite !app_length in L. cbn [length] in L.
        rewrite !app_length in L. lia.
      * injection I as I1 I2. subst q'. rewrite !app_length in L. cbn [length] in L. rewrite !app_length in L. lia.
  - intros (Hc & Hr) rest. rewrite Step. clear Step. cbv zeta.
    replace (Z.to_nat (cl - mc) <? Z.to_nat (av1_max sc - mc))%nat with true by (symmetry; apply Nat.ltb_lt; lia).
    replace (mc + Z.of_nat (Z.to_nat (cl - mc))) with cl by lia.
    replace (Z.max (mt - cl) 0) with (mt - cl) by lia. rewrite rd_increments_ok.
    replace (_ <? _)%nat with true by (symmetry; apply Nat.ltb_lt; lia). cbn [obind].
    replace (mt - cl + Z.of_nat (Z.to_nat (rl - (mt - cl)))) with rl by lia.
    unfold info_tail. destruct ((0 <? cl) || (0 <? rl)).
    + rewrite <- app_assoc. rewrite rd_ok by (rewrite Z2Nat.id by lia; exact U). cbn [obind].
      rewrite rd_ok by (cbn; lia). cbn [obind]. do 3 f_equal. lia.
    + reflexivity.
Qed.

(** ** Positions *)
Lemma positions_iff rows cols : 1 <= rows -> 1 <= cols ->
  ((forall n, 0 <= n < rows * cols -> tile_position n cols rows = Ok (av1_tile_position n cols)) <->
   rows = 1 /\ cols = 1).
Proof.
  intros R C. unfold tile_position, av1_tile_position.
  replace ((cols =? 0) || (rows =? 0)) with false by lia. split.
  - intros H.
    destruct (Z.eq_dec cols 1) as [->|C1].
    + split; [|reflexivity]. destruct (Z.eq_dec rows 1) as [E|R1]; [exact E|exfalso].
      specialize (H 1 ltac:(lia)). injection H as H1 H2. change (1 mod 1) with 0 in H2. change (1 / 1) with 1 in H2. discriminate.
    + exfalso. specialize (H 1 ltac:(nia)). injection H as H1 H2.
      rewrite (Z.div_small 1 cols) in H2 by lia. rewrite Z.mod_small in H2 by lia. discriminate.
  - intros (-> & ->) n N. replace n with 0 by lia. reflexivity.
Qed.

(** ** Superblocks of a tile *)
Lemma count_app a b y x : count (a ++ b) y x = count a y x + count b y x.
Proof.
  induction a as [|p a IH]; [reflexivity|].
  change (count ((p :: a) ++ b) y x) with ((if holdsb p y x then 1 else 0) + count (a ++ b) y x).
  change (count (p :: a) y x) with ((if holdsb p y x then 1 else 0) + count a y x). rewrite IH. lia.
Qed.

(** A superblock encoder that only records where it was called. *)
Definition recorder (st : list (Z * Z * Z)) (cdef : list (list Z)) (r c b : Z) (out : list Z)
  : res (list (Z * Z * Z) * list (list Z) * list Z) := Ok (st ++ [(r, c, b)], cdef, out).

Definition sb_cells (use128 : bool) : Z := if use128 then 32 else 16.
Definition sb_code (use128 : bool) : Z := if use128 then 15 else 12.

Lemma holdsb_sb use128 r c y x : holdsb (r, c, sb_code use128) y x =
  (r <=? y) && (y <? r + sb_cells use128) && (c <=? x) && (x <? c + sb_cells use128).
Proof. destruct use128; reflexivity. Qed.

Lemma sb_row_visits fuel use128 : forall r c ce st cdef out st' cdef' out',
  sb_row _ recorder fuel use128 (sb_code use128) (sb_cells use128) r c ce st cdef out = Ok (st', cdef', out') ->
  exists l, st' = st ++ l /\
    (forall b, In b l -> exists k, b = (r, k, sb_code use128) /\ c <= k < ce) /\
    (forall y x, x < ce -> count l y x = if (r <=? y) && (y <? r + sb_cells use128) && (c <=? x) then 1 else 0).
Proof.
  induction fuel as [|f IH]; intros r c ce st cdef out st' cdef' out' H; [discriminate|].
  cbn [sb_row] in H. destruct (c <? ce) eqn:E.
  - apply bind_inv in H. destruct H as (cdef1 & _ & H). cbn [recorder bind] in H.
    apply IH in H. destruct H as (l & -> & In1 & Ct). exists ((r, c, sb_code use128) :: l).
    assert (S : 0 < sb_cells use128) by (destruct use128; cbn; lia).
    split; [rewrite <- app_assoc; reflexivity|]. split.
    + intros b [<-|B]; [exists c; split; [reflexivity|lia]|]. destruct (In1 b B) as (k & -> & K). exists k. split; [reflexivity|lia].
    + intros y x X. cbn [count fold_right]. fold (count l y x). rewrite Ct by exact X. rewrite holdsb_sb.
      set (s := sb_cells use128) in *. clearbody s. clear - S E X.
      destruct ((r <=? y) && (y <? r + s)); cbn [andb]; [|reflexivity].
      destruct ((c <=? x) && (x <? c + s)) eqn:A, (c + s <=? x) eqn:B, (c <=? x) eqn:D; lia.
  - injection H as <- _ _. exists []. split; [rewrite app_nil_r; reflexivity|]. split; [intros b []|].
    intros y x X. cbn [count fold_right]. replace (c <=? x) with false by lia. rewrite andb_false_r. reflexivity.
Qed.

Lemma sb_rows_visits fuel use128 : forall r re cs ce st cdef out st' cdef' out',
  sb_rows _ recorder fuel use128 (sb_code use128) (sb_cells use128) r re cs ce st cdef out = Ok (st', cdef', out') ->
  exists l, st' = st ++ l /\
    (forall b, In b l -> exists i k, b = (i, k, sb_code use128) /\ r <= i < re /\ cs <= k < ce) /\
    (forall y x, y < re -> cs <= x < ce -> count l y x = if r <=? y then 1 else 0).
Proof.
  induction fuel as [|f IH]; intros r re cs ce st cdef out st' cdef' out' H; [discriminate|].
  cbn [sb_rows] in H. destruct (r <? re) eqn:E.
  - apply bind_inv in H. destruct H as (((st1 & cdef1) & out1) & H1 & H).
    apply sb_row_visits in H1. destruct H1 as (l1 & -> & In1 & C1).
    apply IH in H. destruct H as (l2 & -> & In2 & C2). exists (l1 ++ l2).
    assert (S : 0 < sb_cells use128) by (destruct use128; cbn; lia).
    split; [rewrite app_assoc; reflexivity|]. split.
    + intros b B. apply in_app_or in B. destruct B as [B|B].
      * destruct (In1 b B) as (k & -> & K). exists r, k. split; [reflexivity|lia].
      * destruct (In2 b B) as (i & k & -> & I & K). exists i, k. split; [reflexivity|lia].
    + intros y x Y X. rewrite count_app, C1, C2 by lia. set (s := sb_cells use128) in *. clearbody s.
      destruct (r <=? y) eqn:A, (y <? r + s) eqn:B, (cs <=? x) eqn:D, (r + s <=? y) eqn:F; cbn [andb]; lia.
  - injection H as <- _ _. exists []. split; [rewrite app_nil_r; reflexivity|]. split; [intros b []|].
    intros y x Y X. cbn [count fold_right]. replace (r <=? y) with false by lia. reflexivity.
Qed.

Lemma tile_covered use128 n tc tr cs rs cdef out visited cdef' out' :
  encode_tile _ recorder false use128 n tc tr cs rs [] cdef out = Ok (visited, cdef', out') ->
  exists r0 r1 c0 c1, tile_bounds n tc tr cs rs = Ok (r0, r1, c0, c1) /\
    (forall b, In b visited -> exists i k, b = (i, k, if use128 then 15 else 12) /\ r0 <= i < r1 /\ c0 <= k < c1) /\
    (forall y x, r0 <= y < r1 -> c0 <= x < c1 -> held_once visited y x).
Proof.
  intros H. unfold encode_tile in H. cbn [borrow_mut bind] in H.
  apply bind_inv in H. destruct H as ((((r0 & r1) & c0) & c1) & B & H).
  assert (Sb : idx num_4x4_blocks_wide (if use128 then BLOCK_128X128 else BLOCK_64X64) = Ok (sb_cells use128))
    by (destruct use128; reflexivity).
  rewrite Sb in H. cbn [bind] in H.
  replace (if use128 then BLOCK_128X128 else BLOCK_64X64) with (sb_code use128) in H by (destruct use128; reflexivity).
  apply sb_rows_visits in H. destruct H as (l & -> & I & C). exists r0, r1, c0, c1.
  split; [exact B|]. split; [exact I|]. intros y x Y X. apply count_once. cbn [app]. rewrite C by lia.
  replace (r0 <=? y) with true by lia. reflexivity.
Qed.

(** ** No tile is ever coded *)
Section NoTile.
Variable T : Type.
Variable superblock : T -> list (list Z) -> Z -> Z -> Z -> list Z -> res (T * list (list Z) * list Z).

Lemma tile_group_never out use128 tc tr groups s e sz cs rs st cdef v : 0 <= tc -> 0 <= tr ->
  encode_tile_group T superblock out use128 tc tr groups s e sz cs rs st cdef = Ok v ->
  tc * tr <> 1 /\ groups <> 0 /\ e < s.
Proof.
  intros TC TR H. unfold encode_tile_group in H. apply bind_inv in H. destruct H as (((s' & e') & o') & H1 & H).
  assert (L : (Z.to_nat (e' + 1 - s') = 0)%nat).
  { destruct (Z.to_nat (e' + 1 - s')) as [|k]; [reflexivity|]. cbn [tile_loop encode_tile borrow_mut bind] in H. discriminate. }
  destruct ((tc * tr =? 1) || (groups =? 0)) eqn:E.
  - apply bind_inv in H1. destruct H1 as (x & X & Q). injection Q as <- <- <-.
    apply chk_inv in X. destruct X as (-> & X). lia.
  - apply bind_inv in H1. destruct H1 as (cl & _ & H1). apply bind_inv in H1. destruct H1 as (rl & _ & H1).
    apply bind_inv in H1. destruct H1 as (o1 & _ & H1). apply bind_inv in H1. destruct H1 as (o2 & _ & H1).
    injection H1 as <- <- <-. lia.
Qed.

Lemma tile_initial_starts borrowed use128 n tc tr st cdef out :
  encode_tile T superblock borrowed use128 n tc tr initial_starts initial_starts st cdef out = Panic.
Proof.
  unfold encode_tile. destruct borrowed; [reflexivity|]. cbn [borrow_mut bind]. unfold tile_bounds, tile_position.
  destruct (_ || _); [reflexivity|]. cbn [bind]. rewrite idx_oob; [reflexivity|]. unfold initial_starts, len. cbn. lia.
Qed.

Lemma idx_nil (i : Z) : idx (@nil Z) i = Panic.
Proof. apply idx_oob. unfold len. cbn. lia. Qed.

Lemma set_cdef_initial r c : set_cdef initial_cdef r c = Panic.
Proof.
  unfold set_cdef, initial_cdef. destruct (idx [[]] r) as [row| |] eqn:E; [|reflexivity|].
  - apply idx_inv in E. destruct E as (B & E). cbn [bind]. unfold len in B. cbn in B. replace r with 0 in E by lia.
    cbn in E. injection E as <-. rewrite idx_nil. reflexivity.
  - exfalso. unfold idx in E. destruct (r <? 0); [discriminate|]. destruct (nth_error _ _); discriminate.
Qed.

Lemma tile_initial_cdef borrowed use128 n tc tr cs rs st out r0 r1 c0 c1 :
  tile_bounds n tc tr cs rs = Ok (r0, r1, c0, c1) -> r0 < r1 -> c0 < c1 ->
  encode_tile T superblock borrowed use128 n tc tr cs rs st initial_cdef out = Panic.
Proof.
  intros B R C. unfold encode_tile. destruct borrowed; [reflexivity|]. cbn [borrow_mut bind]. rewrite B. cbn [bind].
  destruct use128; cbn [idx]; (match goal with |- context [idx num_4x4_blocks_wide ?b] => val (idx num_4x4_blocks_wide b) end);
    cbn [bind sb_rows]; replace (r0 <? r1) with true by lia; cbn [sb_row];
    replace (c0 <? c1) with true by lia; unfold clear_cdef; rewrite set_cdef_initial; reflexivity.
Qed.

End NoTile.

Lemma tile_info_initial out mi_cols mi_rows use128 tc tr id sz rs :
  0 < mi_cols <= 2 ^ 19 -> 0 < mi_rows <= 2 ^ 19 -> 1 <= tc <= 65535 -> 1 <= tr <= 65535 ->
  0 <= id < 2 ^ 32 -> 0 <= sz < 2 ^ 32 ->
  encode_tile_info out mi_cols mi_rows use128 true tc tr id sz initial_starts rs = Panic.
Proof.
  intros. rewrite tile_info_writes by assumption. cbv zeta. set (sb := if use128 then 32 else 16).
  assert (S : 0 < sb) by (subst sb; destruct use128; lia).
  pose proof (cdiv_pos mi_cols sb S ltac:(lia)) as A.
  pose proof (cdiv_pow (cdiv mi_cols sb) (Z.log2 tc) ltac:(lia) ltac:(apply Z.log2_nonneg)) as W.
  pose proof (cdiv_pos (cdiv mi_cols sb) (cdiv (cdiv mi_cols sb) (2 ^ Z.log2 tc)) ltac:(lia) ltac:(lia)).
  change (len initial_starts) with 0.
  replace (cdiv (cdiv mi_cols sb) (cdiv (cdiv mi_cols sb) (2 ^ Z.log2 tc)) + 1 <=? 0) with false by lia.
  rewrite andb_false_r. reflexivity.
Qed.

Lemma idx_some : forall (A : Type) (l : list A) i a, 0 <= i -> nth_error l (Z.to_nat i) = Some a -> idx l i = Ok a.
Proof. intros A l i a I N. unfold idx. destruct (Z.ltb_spec i 0); [lia|]. rewrite N. reflexivity. Qed.
Lemma bounds_ok : forall n tile_cols tile_rows cs rs row col r0 r1 c0 c1,
  tile_position n tile_cols tile_rows = Ok (row, col) -> 0 <= row -> 0 <= col ->
  nth_error rs (Z.to_nat row) = Some r0 -> nth_error rs (S (Z.to_nat row)) = Some r1 ->
  nth_error cs (Z.to_nat col) = Some c0 -> nth_error cs (S (Z.to_nat col)) = Some c1 ->
  tile_bounds n tile_cols tile_rows cs rs = Ok (r0, r1, c0, c1).
Proof.
  intros n tile_cols tile_rows cs rs row col r0 r1 c0 c1 P R C A B D E. unfold tile_bounds. rewrite P. cbn [bind].
  rewrite (idx_some _ rs row r0 R A). cbn [bind]. rewrite (idx_some _ rs (row + 1) r1) by (try lia; replace (Z.to_nat (row + 1)) with (S (Z.to_nat row)) by lia; exact B).
  cbn [bind]. rewrite (idx_some _ cs col c0 C D). cbn [bind].
  rewrite (idx_some _ cs (col + 1) c1) by (try lia; replace (Z.to_nat (col + 1)) with (S (Z.to_nat col)) by lia; exact E). reflexivity.
Qed.
Lemma set_cdef_ok : forall m R C i j, table m R C -> 0 <= i < R -> 0 <= j < C ->
  exists m', set_cdef m i j = Ok m' /\ table m' R C /\ forall a b, entry m' a b = if (a =? i) && (b =? j) then Some (-1) else entry m a b.
Proof.
  intros m R C i j T HI HJ. destruct (assign_ok m R C i j (-1) T HI HJ) as (row & o & E & Eo & G). unfold set_cdef. rewrite E. cbn [bind].
  rewrite Eo. cbn [bind]. eexists. split; [reflexivity|exact G].
Qed.
Lemma clear_ok : forall m R C use128 r c, table m R C -> 0 <= r -> 0 <= c -> r + (if use128 : bool then 16 else 0) < R -> c + (if use128 then 16 else 0) < C ->
  exists m', clear_cdef m use128 r c = Ok m' /\ table m' R C /\
    forall i j, entry m' i j = if ((i =? r) || use128 && (i =? r + 16)) && ((j =? c) || use128 && (j =? c + 16)) then Some (-1) else entry m i j.
Proof.
  intros m R C use128 r c T R0 C0 RR CC. unfold clear_cdef. destruct use128.
  - destruct (set_cdef_ok m R C r c T) as (m1 & E1 & T1 & V1); [lia|lia|]. rewrite E1. cbn [bind].
    change (idx num_4x4_blocks_wide BLOCK_64X64) with (Ok 16). cbn [bind].
    destruct (set_cdef_ok m1 R C r (c + 16) T1) as (m2 & E2 & T2 & V2); [lia|lia|]. rewrite E2. cbn [bind].
    destruct (set_cdef_ok m2 R C (r + 16) c T2) as (m3 & E3 & T3 & V3); [lia|lia|]. rewrite E3. cbn [bind].
    destruct (set_cdef_ok m3 R C (r + 16) (c + 16) T3) as (m4 & E4 & T4 & V4); [lia|lia|]. exists m4. split; [exact E4|]. split; [exact T4|].
    intros i j. rewrite V4, V3, V2, V1. destruct (i =? r), (i =? r + 16), (j =? c), (j =? c + 16); reflexivity.
  - destruct (set_cdef_ok m R C r c T) as (m1 & E1 & T1 & V1); [lia|lia|]. rewrite E1. cbn [bind]. exists m1. split; [reflexivity|]. split; [exact T1|].
    intros i j. rewrite V1. cbn [andb]. rewrite !orb_false_r. reflexivity.
Qed.

