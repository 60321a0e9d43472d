(** Proofs about the start of the mode info: skip flag, cdef index and its table, and
    the segment id (ModeInfoModel). *)
From Coq Require Import String ZArith List Bool Lia ZifyBool ZifyNat.
From Verif Require Import Base BaseProofs SessionModel BlockTables CdfTables GeomModel SeqSpec ElementModel ElementSpec ElementProofs ContextModel ContextSpec ContextProofs
  MvStackModel TableLemmas ModeInfoModel ModeInfoSpec ModeInfoProofs ModeWholeProofs.
Import ListNotations.
Open Scope string_scope.
Open Scope list_scope.
Open Scope Z_scope.
Ltac Zify.zify_post_hook ::= Z.div_mod_to_equations.

(** ** The table of cdef indices *)

Lemma set_cell_ok : forall m R C i j v, table m R C -> 0 <= i < R -> 0 <= j < C ->
  exists m', set_cell m i j v = Ok m' /\ table m' R C /\
    forall a b, entry m' a b = if (a =? i) && (b =? j) then Some v else entry m a b.
Proof.
  intros m R C i j v T HI HJ. destruct (assign_ok m R C i j v T HI HJ) as (row & o & E & Eo & G). unfold set_cell. rewrite E. cbn [bind].
  rewrite Eo. cbn [bind]. eexists. split; [reflexivity|exact G].
Qed.

(** Multiples of 16 below [lim]. *)
Definition steps (lim k : Z) : bool := (k mod 16 =? 0) && (0 <=? k) && (k <? lim).
Lemma cols_ok : forall fuel m R C i j lim v, table m R C -> 0 <= i < R -> 0 <= j -> j mod 16 = 0 -> lim - j <= Z.of_nat fuel ->
  (forall k, steps lim k = true -> k < C) ->
  exists m', cdef_cols fuel i j lim v m = Ok m' /\ table m' R C /\
    forall a b, entry m' a b = if (a =? i) && steps lim b && (j <=? b) then Some v else entry m a b.
Proof.
  induction fuel as [|fuel IH]; intros m R C i j lim v T HI HJ HM HF HS; cbn [cdef_cols].
  - destruct (Z.ltb_spec j lim); [lia|]. exists m. split; [reflexivity|]. split; [exact T|]. intros a b.
    unfold steps. destruct (Z.ltb_spec b lim); [|rewrite !andb_false_r; reflexivity]. destruct (Z.leb_spec j b); [lia|]. rewrite andb_false_r. reflexivity.
  - destruct (Z.ltb_spec j lim) as [L|L].
    + assert (JC : j < C) by (apply HS; unfold steps; lia).
      destruct (set_cell_ok m R C i j v T HI (conj HJ JC)) as (m1 & -> & T1 & E1). cbn [bind].
      destruct (IH m1 R C i (j + 16) lim v T1 HI) as (m2 & E2 & T2 & V2); [lia|lia|lia|exact HS|].
      exists m2. split; [exact E2|]. split; [exact T2|]. intros a b. rewrite V2, E1. unfold steps.
      destruct (Z.eqb_spec a i); cbn [andb]; [|reflexivity]. destruct (Z.eqb_spec b j) as [->|NB].
      * replace (j mod 16 =? 0) with true by lia. replace (0 <=? j) with true by lia. replace (j <? lim) with true by lia.
        replace (j <=? j) with true by lia. cbn [andb]. destruct (j + 16 <=? j); reflexivity.
      * destruct (Z.eqb_spec (b mod 16) 0); cbn [andb]; [|reflexivity]. destruct (0 <=? b), (b <? lim); cbn [andb]; try reflexivity.
        destruct (Z.leb_spec (j + 16) b), (Z.leb_spec j b); try reflexivity; lia.
    + exists m. split; [reflexivity|]. split; [exact T|]. intros a b. unfold steps.
      destruct (Z.ltb_spec b lim); [|rewrite !andb_false_r; reflexivity]. destruct (Z.leb_spec j b); [lia|]. rewrite andb_false_r. reflexivity.
Qed.
Lemma rows_ok : forall fuel m R C i lim clim v, table m R C -> 0 <= i -> i mod 16 = 0 -> lim - i <= Z.of_nat fuel ->
  (forall k, steps lim k = true -> k < R) -> (forall k, steps clim k = true -> k < C) ->
  exists m', cdef_rows fuel i lim clim v m = Ok m' /\ table m' R C /\
    forall a b, entry m' a b = if steps lim a && (i <=? a) && steps clim b then Some v else entry m a b.
Proof.
  induction fuel as [|fuel IH]; intros m R C i lim clim v T HI HM HF HR HC; cbn [cdef_rows].
  - destruct (Z.ltb_spec i lim); [lia|]. exists m. split; [reflexivity|]. split; [exact T|]. intros a b. unfold steps.
    destruct (Z.ltb_spec a lim); [|rewrite !andb_false_r; reflexivity]. destruct (Z.leb_spec i a); [lia|]. rewrite !andb_false_r. reflexivity.
  - destruct (Z.ltb_spec i lim) as [L|L].
    + assert (IR : i < R) by (apply HR; unfold steps; lia).
      destruct (cols_ok (Z.to_nat clim) m R C i 0 clim v T) as (m1 & -> & T1 & E1); [lia|lia|reflexivity|lia|exact HC|]. cbn [bind].
      destruct (IH m1 R C (i + 16) lim clim v T1) as (m2 & E2 & T2 & V2); [lia|lia|lia|exact HR|exact HC|].
      exists m2. split; [exact E2|]. split; [exact T2|]. intros a b. rewrite V2, E1.
      assert (SB : steps clim b = true -> 0 <= b) by (unfold steps; lia).
      destruct (steps clim b) eqn:ES; [|rewrite !andb_false_r; reflexivity]. replace (0 <=? b) with true by (specialize (SB eq_refl); lia).
      rewrite !andb_true_r. unfold steps. destruct (Z.eqb_spec a i) as [->|NA].
      * replace (i mod 16 =? 0) with true by lia. replace (0 <=? i) with true by lia. replace (i <? lim) with true by lia.
        replace (i <=? i) with true by lia. cbn [andb]. destruct (i + 16 <=? i); reflexivity.
      * destruct (Z.eqb_spec (a mod 16) 0); cbn [andb]; [|reflexivity]. destruct (0 <=? a), (a <? lim); cbn [andb]; try reflexivity.
        destruct (Z.leb_spec (i + 16) a), (Z.leb_spec i a); try reflexivity; lia.
    + exists m. split; [reflexivity|]. split; [exact T|]. intros a b. unfold steps.
      destruct (Z.ltb_spec a lim); [|rewrite !andb_false_r; reflexivity]. destruct (Z.leb_spec i a); [lia|]. rewrite !andb_false_r. reflexivity.
Qed.

Definition cdef_coded (x : mode_env) : bool := negb (x_coded_lossless x) && x_cdef_on x && negb (x_intrabc x).
Lemma cdef_cond : forall x, negb (x_coded_lossless x || negb (x_cdef_on x) || x_intrabc x) = cdef_coded x.
Proof. intros x. unfold cdef_coded. destruct (x_coded_lossless x), (x_cdef_on x), (x_intrabc x); reflexivity. Qed.

Definition unit_of (z : Z) : Z := z - z mod 16.
(** A block whose cdef index is not known yet: the index is written, and every entry of
    the table above and to the left of its end is set. *)
Lemma cdef_written : forall x b t es R C w4 h4, cdef_coded x = true -> table (t_cdef t) R C -> 0 <= x_row x -> 0 <= x_col x ->
  entry (t_cdef t) (unit_of (x_row x)) (unit_of (x_col x)) = Some (-1) ->
  idx num_4x4_blocks_wide (p_bsize b) = Ok w4 -> idx num_4x4_blocks_high (p_bsize b) = Ok h4 ->
  (forall k, steps (unit_of (x_row x) + h4) k = true -> k < R) -> (forall k, steps (unit_of (x_col x) + w4) k = true -> k < C) ->
  exists m, code_cdef x b t es = Ok (es ++ [ELit (x_cdef_bits x) (as_u64 (p_cdef b))], with_cdef m t) /\ table m R C /\
    forall i j, entry m i j = if steps (unit_of (x_row x) + h4) i && steps (unit_of (x_col x) + w4) j then Some (p_cdef b) else entry (t_cdef t) i j.
Proof.
  intros x b t es R C w4 h4 CC T HR HC E0 W H SR SC. unfold code_cdef. rewrite cdef_cond, CC. cbv zeta.
  fold (unit_of (x_row x)) (unit_of (x_col x)). set (r := unit_of (x_row x)) in *. set (c := unit_of (x_col x)) in *.
  assert (R0 : 0 <= r) by (unfold r, unit_of; lia). assert (C0 : 0 <= c) by (unfold c, unit_of; lia).
  unfold entry in E0. destruct (Z.ltb_spec r 0); [lia|]. destruct (Z.ltb_spec c 0); [lia|]. cbn [orb] in E0.
  destruct (nth_error (t_cdef t) (Z.to_nat r)) as [row|] eqn:NR; [|discriminate].
  assert (IR : idx (t_cdef t) r = Ok row) by (unfold idx; destruct (Z.ltb_spec r 0); [lia|]; rewrite NR; reflexivity).
  assert (IC : idx row c = Ok (-1)) by (unfold idx; destruct (Z.ltb_spec c 0); [lia|]; rewrite E0; reflexivity).
  rewrite IR. cbn [bind]. rewrite IC. cbn [bind]. replace (-1 =? -1) with true by reflexivity. rewrite W, H. cbn [bind].
  destruct (rows_ok (Z.to_nat (r + h4)) (t_cdef t) R C 0 (r + h4) (c + w4) (p_cdef b) T) as (m & E & T' & V);
    [lia|reflexivity|lia|exact SR|exact SC|]. rewrite E. cbn [bind]. exists m. split; [reflexivity|]. split; [exact T'|].
  intros i j. rewrite V. assert (SI : steps (r + h4) i = true -> 0 <= i) by (unfold steps; lia).
  destruct (steps (r + h4) i) eqn:ES; [|reflexivity]. replace (0 <=? i) with true by (specialize (SI eq_refl); lia). reflexivity.
Qed.
(** The standard sets only the units the block covers. *)
Lemma cdef_sets_iff : forall m m' r c w4 h4 v R C, table m R C -> 0 <= r -> 0 <= c -> 
  (forall i j, entry m' i j = if steps (unit_of r + h4) i && steps (unit_of c + w4) j then Some v else entry m i j) ->
  ((forall i j, entry m' i j = if av1_cdef_sets r c w4 h4 i j then Some v else entry m i j) <->
   forall i j, steps (unit_of r + h4) i = true -> steps (unit_of c + w4) j = true -> i < unit_of r \/ j < unit_of c -> entry m i j = Some v).
Proof.
  intros m m' r c w4 h4 v R C T HR HC V. split.
  - intros A i j SI SJ O. specialize (A i j). rewrite V, SI, SJ in A. cbn [andb] in A.
    assert (N : av1_cdef_sets r c w4 h4 i j = false) by (unfold av1_cdef_sets, unit_of in *; lia). rewrite N in A. symmetry. exact A.
  - intros A i j. rewrite V. unfold av1_cdef_sets. fold (unit_of r) (unit_of c).
    destruct (steps (unit_of r + h4) i) eqn:SI; cbn [andb].
    + destruct (steps (unit_of c + w4) j) eqn:SJ; cbn [andb].
      * destruct (Z.ltb_spec i (unit_of r)) as [L|L].
        { rewrite (A i j SI SJ) by tauto. destruct (_ && _ && _ && _ && _ && _); reflexivity. }
        destruct (Z.ltb_spec j (unit_of c)) as [L'|L'].
        { rewrite (A i j SI SJ) by tauto. destruct (_ && _ && _ && _ && _ && _); reflexivity. }
        unfold steps in SI, SJ. replace (_ && _ && _ && _ && _ && _) with true; [reflexivity|]. lia.
      * unfold steps in SI, SJ. replace (_ && _ && _ && _ && _ && _) with false; [reflexivity|]. unfold unit_of in *. lia.
    + unfold steps in SI. replace (_ && _ && _ && _ && _ && _) with false; [reflexivity|]. unfold unit_of in *. lia.
Qed.
(** The table the encoder starts with has no entries. *)
Lemma cdef_panics : forall x b t es, cdef_coded x = true -> t_cdef t = [[]] -> code_cdef x b t es = Panic.
Proof.
  intros x b t es CC T. unfold code_cdef. rewrite cdef_cond, CC, T. cbv zeta. set (r := x_row x - _). set (c := x_col x - _).
  destruct (Z_lt_le_dec r 1) as [L|L]; [|rewrite (idx_miss _ [[]] r) by (unfold len; cbn; lia); reflexivity].
  destruct (Z_lt_le_dec r 0) as [N|N]; [unfold idx; destruct (Z.ltb_spec r 0); [reflexivity|lia]|].
  replace r with 0 by lia. cbn [idx Z.ltb Z.compare Z.to_nat nth_error bind]. unfold idx. destruct (c <? 0); [reflexivity|].
  destruct (Z.to_nat c); reflexivity.
Qed.

(** ** Skip flag and cdef index of an intra block *)

(** The table has room for the block and does not have its index yet. *)
Definition cdef_ready (x : mode_env) (bsize : Z) (m : list (list Z)) : Prop :=
  exists R C w4 h4, table m R C /\ 0 <= x_row x /\ 0 <= x_col x /\ entry m (unit_of (x_row x)) (unit_of (x_col x)) = Some (-1) /\
    idx num_4x4_blocks_wide bsize = Ok w4 /\ idx num_4x4_blocks_high bsize = Ok h4 /\
    (forall k, steps (unit_of (x_row x) + h4) k = true -> k < R) /\ (forall k, steps (unit_of (x_col x) + w4) k = true -> k < C).
Lemma segment_off : forall x b t es, x_seg_on x = false -> (exists l, idx (x_lossless x) 0 = Ok l) ->
  exists l, intra_segment_id x b t es = Ok (es, with_seg 0 b, with_lossless l t).
Proof. intros x b t es S [l L]. exists l. unfold intra_segment_id. rewrite S. cbn [bind]. rewrite L. reflexivity. Qed.
Lemma feature_off : forall x seg lvl, x_seg_on x = false -> feature_on x seg lvl = Ok false.
Proof. intros x seg lvl S. unfold feature_on. rewrite S. reflexivity. Qed.

Lemma skip_cdef_exactly : forall x b t es r0 c0, x_intra x = true -> x_seg_on x = false -> t_read_deltas t = false -> p_inter b = false ->
  frame_ok (x_frame x) (x_row x) (x_col x) -> inner r0 c0 (x_row x) (x_col x) -> (exists l, idx (x_lossless x) 0 = Ok l) ->
  (cdef_coded x = true -> cdef_ready x (p_bsize b) (t_cdef t)) -> 0 <= p_cdef b < 2 ^ 64 ->
  let u := above_of (x_frame x) r0 (x_row x) (x_col x) in let l := left_of (x_frame x) c0 (x_row x) (x_col x) in
  exists pre b' t', encode_mode_info x b t es = Ok (es ++ pre ++ [ESym "is_inter" [spec_is_inter u l] 0], b', t') /\
    (reads_as pre (av1_skip_cdef u l (cdef_coded x) (x_cdef_bits x)) (b2z (p_skip b), if cdef_coded x then Some (p_cdef b) else None) <->
     ~ (p_skip b = true /\ cdef_coded x = true)) /\
    (p_skip b = true -> cdef_coded x = true -> forall k, av1_skip_cdef u l true (x_cdef_bits x) (pre ++ k) = Some ((1, None), ELit (x_cdef_bits x) (p_cdef b) :: k)).
Proof.
  intros x b t es r0 c0 I S RD NI F HN L CR CV u l. set (sk := [b2z (at_nb m_skip false u) + b2z (at_nb m_skip false l)]).
  set (cd := if cdef_coded x then [ELit (x_cdef_bits x) (p_cdef b)] else []).
  assert (CD : forall b1 t1 e, p_bsize b1 = p_bsize b -> p_cdef b1 = p_cdef b -> t_cdef t1 = t_cdef t ->
                exists t2, code_cdef x b1 t1 e = Ok (e ++ cd, t2) /\ t_read_deltas t2 = t_read_deltas t1).
  { intros b1 t1 e EB EC ET. unfold cd. destruct (cdef_coded x) eqn:CC.
    - destruct (CR eq_refl) as (R & C & w4 & h4 & T & X & Y & E0 & W & H & SR & SC).
      destruct (cdef_written x b1 t1 e R C w4 h4) as (m & E & _); rewrite ?EB, ?ET; try assumption.
      exists (with_cdef m t1). split; [|reflexivity]. rewrite E, EC. do 4 f_equal. unfold as_u64. rewrite Z.mod_small by lia. reflexivity.
    - exists t1. split; [|reflexivity]. unfold code_cdef. rewrite cdef_cond, CC, app_nil_r. reflexivity. }
  assert (DD : forall b1 t1 e, t_read_deltas t1 = false -> exists t2, code_deltas x b1 t1 e = Ok (e, t2)).
  { intros b1 t1 e R. unfold code_deltas. rewrite R, andb_false_r. cbn [andb bind]. eexists. reflexivity. }
  assert (II : forall b1 e, p_inter b1 = false -> code_is_inter x b1 e = Ok (e ++ [ESym "is_inter" [spec_is_inter u l] 0], b1)).
  { intros b1 e P. unfold code_is_inter. rewrite !feature_off by assumption. cbn [bind]. rewrite P.
    unfold emit. rewrite (is_inter_ok _ r0 c0) by assumption. reflexivity. }
  assert (SS : forall b1 e, p_skip b1 = p_skip b -> emit (encode_skip (b2z (p_skip b1)) (x_frame x) (x_row x) (x_col x)) e = Ok (e ++ [ESym "skip" sk (b2z (p_skip b))])).
  { intros b1 e ->. unfold emit. rewrite (skip_ok _ r0 c0) by assumption. reflexivity. }
  exists (ESym "skip" sk (b2z (p_skip b)) :: cd).
  assert (G : exists b' t', encode_mode_info x b t es = Ok (es ++ (ESym "skip" sk (b2z (p_skip b)) :: cd) ++ [ESym "is_inter" [spec_is_inter u l] 0], b', t')).
  { unfold encode_mode_info. rewrite I. destruct (x_pre_skip x); cbn [negb].
    - destruct (segment_off x b t es S L) as (ll & ->). cbn [bind]. rewrite feature_off by assumption. cbn [bind].
      rewrite SS by reflexivity. cbn [bind].
      destruct (CD (with_seg 0 b) (with_lossless ll t) (es ++ [ESym "skip" sk (b2z (p_skip b))])) as (t2 & -> & R2); try reflexivity. cbn [bind].
      destruct (DD (with_seg 0 b) t2 ((es ++ [ESym "skip" sk (b2z (p_skip b))]) ++ cd)) as (t3 & ->); [rewrite R2; exact RD|]. cbn [bind].
      rewrite II by exact NI. cbn [bind p_inter with_seg]. rewrite NI. do 2 eexists. rewrite <- !app_assoc. reflexivity.
    - cbn [bind]. rewrite SS by reflexivity. cbn [bind].
      destruct (segment_off x b t (es ++ [ESym "skip" sk (b2z (p_skip b))]) S L) as (ll & ->). cbn [bind].
      destruct (CD (with_seg 0 b) (with_lossless ll t) (es ++ [ESym "skip" sk (b2z (p_skip b))])) as (t2 & -> & R2); try reflexivity. cbn [bind].
      destruct (DD (with_seg 0 b) t2 ((es ++ [ESym "skip" sk (b2z (p_skip b))]) ++ cd)) as (t3 & ->); [rewrite R2; exact RD|]. cbn [bind].
      rewrite II by exact NI. cbn [bind p_inter with_seg]. rewrite NI. do 2 eexists. rewrite <- !app_assoc. reflexivity. }
  destruct G as (b' & t' & G). exists b', t'. split; [exact G|].
  assert (HS : forall s k, sym "skip" sk (ESym "skip" sk s :: k) = Some (s, k)).
  { intros s k. unfold sym. cbn [String.eqb]. destruct (String.eqb_spec "skip" "skip"); [|congruence].
    destruct (list_eq_dec Z.eq_dec sk sk); [reflexivity|congruence]. }
  assert (HL : forall k, lit (x_cdef_bits x) (ELit (x_cdef_bits x) (p_cdef b) :: k) = Some (p_cdef b, k)).
  { intros k. unfold lit. rewrite Z.eqb_refl. reflexivity. }
  split; [split|].
  - intros R [PS CC]. specialize (R []). unfold av1_skip_cdef in R. fold sk in R. cbn [app] in R. rewrite HS in R. cbn [obind] in R.
    rewrite PS, CC in R. discriminate.
  - intros N k. unfold av1_skip_cdef. fold sk. cbn [app]. rewrite HS. cbn [obind]. unfold cd. destruct (cdef_coded x).
    + destruct (p_skip b); [tauto|]. cbn [b2z Z.eqb andb app]. rewrite HL. reflexivity.
    + rewrite andb_false_r. reflexivity.
  - intros PS CC k. unfold av1_skip_cdef. fold sk. cbn [app]. rewrite HS. cbn [obind]. unfold cd. rewrite PS, CC. reflexivity.
Qed.

(** ** Segment id *)

(** The id a neighbour has, -1 if it is not available. *)
Definition prev_id (avail : bool) (ids : list (list (option Z))) (r c : Z) (z : Z) : Prop :=
  if avail then 0 <= r /\ 0 <= c /\ 0 <= z < 8 /\ exists row, nth_error ids (Z.to_nat r) = Some row /\ nth_error row (Z.to_nat c) = Some (Some z)
  else z = -1.
Lemma prev_id_ok : forall avail ids r c z, prev_id avail ids r c z -> (if avail then seg_at ids r c else Ok (-1)) = Ok z /\ (avail = true -> 0 <= z) /\ -1 <= z < 8.
Proof.
  intros [|] ids r c z P; cbn [prev_id] in P.
  - destruct P as (R & C & Z0 & row & N & M). split; [|lia]. unfold seg_at, idx. destruct (Z.ltb_spec r 0); [lia|]. rewrite N. cbn [bind].
    destruct (Z.ltb_spec c 0); [lia|]. rewrite M. reflexivity.
  - subst z. split; [reflexivity|]. split; [discriminate|lia].
Qed.

(** [max] is what the decoder knows: the last active segment plus one. *)
Lemma segment_exactly : forall avail_u avail_l ids r c ul u l seg max es,
  prev_id (avail_u && avail_l) ids (r - 1) (c - 1) ul -> prev_id avail_u ids (r - 1) c u -> prev_id avail_l ids r (c - 1) l ->
  0 <= seg < max -> 2 <= max <= 8 ->
  let pred := av1_seg_pred ul u l in let run := code_segment_id avail_u avail_l ids r c false 0 seg es in
  (pred = 0 -> exists ds, run = Ok (es ++ ds, seg) /\ reads_as ds (av1_segment_id ul u l max) seg) /\
  (pred <> 0 -> seg <> 0 -> run = Panic) /\
  (pred <> 0 -> seg = 0 -> exists ds w, run = Ok (es ++ ds, seg) /\ reads_as ds (av1_segment_id ul u l max) w /\ w <> seg).
Proof.
  intros avail_u avail_l ids r c ul u l seg max es PU Pu Pl SG MX pred run.
  destruct (prev_id_ok _ _ _ _ _ PU) as (EU & AU & RU). destruct (prev_id_ok _ _ _ _ _ Pu) as (Eu & Au & Ru). destruct (prev_id_ok _ _ _ _ _ Pl) as (El & Al & Rl).
  assert (PR : 0 <= pred < 8). { unfold pred, av1_seg_pred. destruct (Z.eqb_spec u (-1)), (Z.eqb_spec l (-1)); try lia. destruct (ul =? u); lia. }
  assert (RUN : run = (v <- neg_interleave seg pred 1 ;; es <- emit (encode_segment_id v u l ul) es ;; Ok (es, seg))).
  { unfold run, code_segment_id. rewrite EU. cbn [bind]. rewrite Eu. cbn [bind]. rewrite El. reflexivity. }
  assert (EM : forall v, emit (encode_segment_id v u l ul) es = Ok (es ++ [ESym "segment_id" [spec_segment_id ul u l] v])).
  { intros v. unfold emit. rewrite segment_id_ok; [reflexivity|]. intros H. destruct avail_u, avail_l; cbn [andb prev_id] in *; try lia; split; auto. }
  assert (RDS : forall v, reads_as [ESym "segment_id" [spec_segment_id ul u l] v] (av1_segment_id ul u l max)
            (Z.max 0 (Z.min (max - 1) (av1_neg_deinterleave v pred max)))).
  { intros v k. unfold av1_segment_id. cbn [app]. unfold sym. destruct (String.eqb_spec "segment_id" "segment_id"); [|congruence].
    destruct (list_eq_dec Z.eq_dec _ _); [reflexivity|congruence]. }
  clearbody run pred. subst run. split; [|split].
  - intros ->. unfold neg_interleave. cbn [Z.eqb bind]. rewrite EM. cbn [bind]. eexists. split; [reflexivity|].
    specialize (RDS seg). unfold av1_neg_deinterleave in RDS. cbn [Z.eqb] in RDS. replace (Z.max 0 (Z.min (max - 1) seg)) with seg in RDS by lia. exact RDS.
  - intros NP NS. unfold neg_interleave. destruct (Z.eqb_spec pred 0); [lia|]. rewrite chk_u64_ok by lia. cbn [bind].
    replace (1 - 1 <=? pred) with true by lia. rewrite chk_u64_panic by lia. reflexivity.
  - intros NP ->. unfold neg_interleave. destruct (Z.eqb_spec pred 0); [lia|]. rewrite chk_u64_ok by lia. cbn [bind].
    replace (1 - 1 <=? pred) with true by lia. rewrite chk_u64_ok by lia. cbn [bind]. rewrite EM. cbn [bind].
    eexists _, _. split; [reflexivity|]. split; [apply RDS|]. unfold av1_neg_deinterleave. change (1 - 1 - 0) with 0. change (Z.odd 0) with false. cbv iota.
    destruct (Z.eqb_spec pred 0); [lia|]. destruct (Z.leb_spec (max - 1) pred); [lia|].
    destruct (Z.ltb_spec (2 * pred) max); [destruct (Z.leb_spec 0 (2 * pred)); lia|].
    destruct (Z.leb_spec 0 (2 * (max - pred - 1))); lia.
Qed.
