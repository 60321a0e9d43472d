(** Proofs about the loop restoration units. *)
From Coq Require Import ZArith List Bool Lia ZifyBool ZifyNat FinFun.
From Verif Require Import Base BaseProofs UtilModel RangeCoderModel BitCodecModel SessionModel BlockTables GeomModel TileModel ElementModel FrameParamModel
  SeqSpec SyntaxSpec ElementSpec TileSpec LrModel LrSpec.
Import ListNotations.
Open Scope Z_scope.
Ltac Zify.zify_post_hook ::= Z.div_mod_to_equations.

(** The frame as the standard sees it. *)
Definition frame_of (x : lrenv) : av1_lr :=
  mkAv1Lr (v_planes x) (fun p => nth (Z.to_nat p) (v_types x) 0) (fun p => nth (Z.to_nat p) (v_sizes x) 0)
    (b2z (v_ssx x)) (b2z (v_ssy x)) (v_height x) (v_up x) (if v_superres x then Some (v_denom x) else None).

Definition lr_sizes_ok (x : lrenv) : Prop :=
  0 <= v_planes x <= len (v_types x) /\ v_planes x <= len (v_sizes x) /\
  (forall p, 0 <= p < v_planes x -> nth (Z.to_nat p) (v_types x) 0 <> 0 -> 8 <= nth (Z.to_nat p) (v_sizes x) 0 <= 2 ^ 50) /\
  1 <= v_height x <= 2 ^ 50 /\ 1 <= v_up x <= 2 ^ 50 /\ (v_superres x = true -> 9 <= v_denom x <= 16).

(** One axis. *)
Lemma cdiv_le a d u : 0 < d -> (cdiv a d <= u <-> a <= u * d).
Proof. intros Hd. unfold cdiv. split; intros H; nia. Qed.

Lemma div_up_ok a d : 0 <= a < 2 ^ 62 -> 0 < d < 2 ^ 62 -> div_up a d = Ok (cdiv a d).
Proof.
  intros Ha Hd. unfold div_up. rewrite chk_u64_ok by lia. cbn [bind]. rewrite chk_u64_ok by lia. cbn [bind].
  destruct (d =? 0) eqn:E; [lia|reflexivity].
Qed.

Lemma unit_range_ok pos size num den units : 0 <= pos <= 2 ^ 51 -> 0 <= size <= 64 -> 1 <= num <= 64 -> 0 < den <= 2 ^ 53 ->
  unit_range pos size num den units = Ok (cdiv (pos * num) den, Z.min units (cdiv ((pos + size) * num) den)).
Proof.
  intros Hp Hs Hn Hd. unfold unit_range.
  assert (0 <= pos * num <= 2 ^ 51 * 64) by nia.
  assert (0 <= (pos + size) * num <= (2 ^ 51 + 64) * 64) by nia.
  rewrite chk_u64_ok by lia. cbn [bind]. rewrite div_up_ok by lia. cbn [bind].
  rewrite chk_u64_ok by lia. cbn [bind]. rewrite div_up_ok by lia. cbn [bind]. f_equal. f_equal.
  destruct (units <? cdiv ((pos + size) * num) den) eqn:E; lia.
Qed.

Lemma count_units_ok us size : 1 <= us <= 2 ^ 50 -> 0 <= size <= 2 ^ 51 -> count_units us size = Ok (av1_unit_count us size).
Proof.
  intros Hu Hs. unfold count_units, av1_unit_count. rewrite shiftr_div by lia. change (2 ^ 1) with 2.
  rewrite chk_u64_ok by lia. cbn [bind]. destruct (us =? 0) eqn:E; [lia|]. f_equal.
  destruct (1 <? (size + us / 2) / us) eqn:E1; lia.
Qed.

Lemma round2_u_ok x n : 0 <= x <= 2 ^ 50 -> n = 0 \/ n = 1 -> round2_u x n = Ok (av1_plane_size x n).
Proof.
  intros Hx [->| ->]; unfold round2_u, av1_plane_size.
  - change (0 =? 0) with true. cbv iota. f_equal. change (1 + 0) with 1. rewrite Z.div_1_r. lia.
  - change (1 =? 0) with false. cbv iota. change (Z.shiftl 1 (1 - 1)) with 1. rewrite chk_u64_ok by lia. cbn [bind].
    rewrite shiftr_div by lia. reflexivity.
Qed.

Lemma ss_01 (b : bool) p : plane_ss (b2z b) p = 0 \/ plane_ss (b2z b) p = 1.
Proof. unfold plane_ss. destruct (p =? 0), b; cbn; auto. Qed.

Lemma area_ok x plane r c n : lr_sizes_ok x -> 0 <= plane < v_planes x -> nth (Z.to_nat plane) (v_types x) 0 <> 0 ->
  0 <= r <= 2 ^ 50 -> 0 <= c <= 2 ^ 50 -> 0 <= n <= 32 ->
  lr_area x plane r c n n (nth (Z.to_nat plane) (v_sizes x) 0) =
    Ok ((av1_row_start (frame_of x) plane r, av1_row_end (frame_of x) plane r n),
        (av1_col_start (frame_of x) plane c, av1_col_end (frame_of x) plane c n)).
Proof.
  intros (P & P2 & S & Hh & Hu & Hd) Hp Ht Hr Hc Hn. specialize (S plane Hp Ht).
  unfold lr_area. change (if plane =? 0 then 0 else b2z (v_ssx x)) with (plane_ss (b2z (v_ssx x)) plane).
  change (if plane =? 0 then 0 else b2z (v_ssy x)) with (plane_ss (b2z (v_ssy x)) plane). cbv zeta.
  unfold av1_row_end, av1_col_end, av1_row_start, av1_col_start, av1_unit_rows, av1_unit_cols. cbn [frame_of a_size a_ssx a_ssy a_height a_up a_denom].
  set (us := nth (Z.to_nat plane) (v_sizes x) 0) in *.
  pose proof (ss_01 (v_ssx x) plane) as Sx. pose proof (ss_01 (v_ssy x) plane) as Sy.
  set (sx := plane_ss (b2z (v_ssx x)) plane) in *. set (sy := plane_ss (b2z (v_ssy x)) plane) in *.
  rewrite (round2_u_ok (v_height x)) by (lia || assumption). cbn [bind].
  rewrite (round2_u_ok (v_up x)) by (lia || assumption). cbn [bind].
  assert (0 <= av1_plane_size (v_height x) sy <= 2 ^ 51) by (unfold av1_plane_size; destruct Sy as [-> | ->]; lia).
  assert (0 <= av1_plane_size (v_up x) sx <= 2 ^ 51) by (unfold av1_plane_size; destruct Sx as [-> | ->]; lia).
  rewrite !count_units_ok by lia. cbn [bind].
  assert (Ey : Z.shiftr MI_SIZE sy = 4 / (1 + sy)) by (destruct Sy as [-> | ->]; reflexivity).
  assert (Ex : Z.shiftr MI_SIZE sx = 4 / (1 + sx)) by (destruct Sx as [-> | ->]; reflexivity).
  rewrite Ey, Ex. assert (1 <= 4 / (1 + sy) <= 4) by (destruct Sy as [-> | ->]; cbn; lia).
  assert (1 <= 4 / (1 + sx) <= 4) by (destruct Sx as [-> | ->]; cbn; lia).
  rewrite unit_range_ok by lia. cbn [bind].
  destruct (v_superres x) eqn:E.
  - specialize (Hd eq_refl).
    assert (1 <= 4 / (1 + sx) * v_denom x <= 64) by (generalize dependent (4 / (1 + sx)); intros; nia).
    unfold SUPERRES_NUM. rewrite !chk_u64_ok by lia. cbn [bind]. rewrite unit_range_ok by lia. reflexivity.
  - cbn [bind]. rewrite unit_range_ok by lia. reflexivity.
Qed.

(** Running over a list of units. *)
Fixpoint for_units {T : Type} (f : Z * Z * Z -> T -> res T) (l : list (Z * Z * Z)) (t : T) : res T :=
  match l with
  | [] => Ok t
  | q :: l => t <- f q t ;; for_units f l t
  end.

Lemma for_units_app {T : Type} (f : Z * Z * Z -> T -> res T) a b : forall t,
  for_units f (a ++ b) t = (t <- for_units f a t ;; for_units f b t).
Proof. induction a as [|q a IH]; intros t; [reflexivity|]. cbn [app for_units]. destruct (f q t); cbn [bind]; auto. Qed.

Lemma for_units_ext {T : Type} (f g : Z * Z * Z -> T -> res T) l : (forall q t, In q l -> f q t = g q t) ->
  forall t, for_units f l t = for_units g l t.
Proof.
  induction l as [|q l IH]; intros H t; [reflexivity|]. cbn [for_units]. rewrite H by (left; reflexivity).
  destruct (g q t); cbn [bind]; auto. apply IH. intros; apply H; right; assumption.
Qed.

Lemma zrange_up_to lo hi : zrange lo hi = up_to lo hi.
Proof. reflexivity. Qed.

Lemma up_to_in lo hi z : In z (up_to lo hi) <-> lo <= z < hi.
Proof.
  unfold up_to. rewrite in_map_iff. split.
  - intros (i & <- & Hi). apply in_seq in Hi. lia.
  - intros H. exists (Z.to_nat (z - lo)). split; [lia|]. apply in_seq. lia.
Qed.

Lemma up_to_nodup lo hi : NoDup (up_to lo hi).
Proof. unfold up_to. apply Injective_map_NoDup; [|apply seq_NoDup]. intros a b H. lia. Qed.

Lemma lr_cols_units {T : Type} (unit : Z -> Z -> Z -> Z -> Z -> T -> res T) plane row row0 col0 : forall cols t,
  lr_cols T unit cols plane row row0 col0 t =
    for_units (fun '(p, r, c) => unit p r c (r - row0) (c - col0)) (map (fun c => (plane, row, c)) cols) t.
Proof. induction cols as [|c cols IH]; intros t; [reflexivity|]. cbn [lr_cols map for_units]. destruct (unit _ _ _ _ _ t); cbn [bind]; auto. Qed.

Lemma lr_rows_units {T : Type} (unit : Z -> Z -> Z -> Z -> Z -> T -> res T) plane row0 cols : forall rows t,
  lr_rows T unit rows plane row0 cols t =
    for_units (fun '(p, r, c) => unit p r c (r - row0) (c - fst cols))
      (flat_map (fun row => map (fun c => (plane, row, c)) (up_to (fst cols) (snd cols))) rows) t.
Proof.
  induction rows as [|r rows IH]; intros t; [reflexivity|]. cbn [lr_rows flat_map]. rewrite for_units_app, lr_cols_units.
  rewrite zrange_up_to. destruct (for_units _ _ t); cbn [bind]; auto.
Qed.

Lemma plane_units_plane f r c n p q : In q (av1_plane_units f r c n p) -> fst (fst q) = p.
Proof.
  unfold av1_plane_units. destruct (a_type f p =? 0); [intros []|]. intros H. apply in_flat_map in H as (row & _ & H).
  apply in_map_iff in H as (col & <- & _). reflexivity.
Qed.

Lemma idx_nth (A : Type) (l : list A) i d : 0 <= i < len l -> idx l i = Ok (nth (Z.to_nat i) l d).
Proof.
  intros H. unfold idx. destruct (i <? 0) eqn:E; [lia|].
  rewrite (nth_error_nth' l d) by (unfold len in H; lia). reflexivity.
Qed.

Lemma lr_planes_units {T : Type} (unit : Z -> Z -> Z -> Z -> Z -> T -> res T) x r c n :
  lr_sizes_ok x -> 0 <= r <= 2 ^ 50 -> 0 <= c <= 2 ^ 50 -> 0 <= n <= 32 ->
  forall ps t, (forall p, In p ps -> 0 <= p < v_planes x) ->
  lr_planes T unit ps x r c n n t =
    for_units (fun '(p, row, col) => unit p row col (row - av1_row_start (frame_of x) p r) (col - av1_col_start (frame_of x) p c))
      (flat_map (av1_plane_units (frame_of x) r c n) ps) t.
Proof.
  intros S Hr Hc Hn. induction ps as [|p ps IH]; intros t Hps; [reflexivity|].
  assert (Hp : 0 <= p < v_planes x) by (apply Hps; left; reflexivity).
  destruct S as (P & P2 & S'). assert (S : lr_sizes_ok x) by (split; [exact P|split; [exact P2|exact S']]).
  cbn [lr_planes flat_map]. rewrite (idx_nth _ (v_types x) p 0) by lia. cbn [bind]. rewrite for_units_app.
  assert (H : (if negb (nth (Z.to_nat p) (v_types x) 0 =? RESTORE_NONE) then
              unit_size <- idx (v_sizes x) p ;;
              '(rows, cols) <- lr_area x p r c n n unit_size ;;
              lr_rows T unit (zrange (fst rows) (snd rows)) p (fst rows) cols t
            else Ok t) = for_units (fun '(p, row, col) => unit p row col (row - av1_row_start (frame_of x) p r) (col - av1_col_start (frame_of x) p c))
                           (av1_plane_units (frame_of x) r c n p) t).
  { unfold av1_plane_units. cbn [frame_of a_type]. unfold RESTORE_NONE.
    destruct (nth (Z.to_nat p) (v_types x) 0 =? 0) eqn:E; cbn [negb]; [reflexivity|].
    rewrite (idx_nth _ (v_sizes x) p 0) by lia. cbn [bind]. rewrite area_ok by (lia || assumption). cbn [bind fst snd].
    rewrite lr_rows_units. change zrange with up_to. cbn [fst snd]. apply for_units_ext. intros [[p' r'] c'] t' Hin.
    apply in_flat_map in Hin as (row & _ & Hin). apply in_map_iff in Hin as (col & Eq & _). injection Eq as <- <- <-. reflexivity. }
  rewrite H. destruct (for_units _ _ t); cbn [bind]; auto. apply IH. intros; apply Hps; right; assumption.
Qed.

(** A block size that is a superblock. *)
Definition sb_of (use128 : bool) : Z := if use128 then 32 else 16.

Lemma encode_lr_units x sbs row units r c s es :
  lr_sizes_ok x -> 0 <= r <= 2 ^ 50 -> 0 <= c <= 2 ^ 50 ->
  idx sbs (r / sb_of (v_use128 x)) = Ok row -> idx row (c / sb_of (v_use128 x)) = Ok units ->
  encode_lr x sbs r c (if v_use128 x then BLOCK_128X128 else BLOCK_64X64) s es =
    for_units (fun '(p, row, col) '(s, es) =>
        u <- unit_at units p (row - av1_row_start (frame_of x) p r) (col - av1_col_start (frame_of x) p c) ;;
        lr_unit (nth (Z.to_nat p) (v_types x) 0) p row col u s es)
      (if v_intrabc x then [] else av1_read_lr (frame_of x) r c (sb_of (v_use128 x))) (s, es).
Proof.
  intros S Hr Hc E1 E2. unfold encode_lr. destruct (v_intrabc x) eqn:I; [reflexivity|].
  assert (W : idx num_4x4_blocks_wide (if v_use128 x then BLOCK_128X128 else BLOCK_64X64) = Ok (sb_of (v_use128 x))) by (destruct (v_use128 x); reflexivity).
  assert (H : idx num_4x4_blocks_high (if v_use128 x then BLOCK_128X128 else BLOCK_64X64) = Ok (sb_of (v_use128 x))) by (destruct (v_use128 x); reflexivity).
  rewrite W, H. cbn [bind]. rewrite E1. cbn [bind]. rewrite E2. cbn [bind].
  rewrite lr_planes_units; [|assumption..|unfold sb_of; destruct (v_use128 x); lia|].
  2:{ intros p Hp. rewrite zrange_up_to in Hp. apply up_to_in in Hp. lia. }
  unfold av1_read_lr. change zrange with up_to. cbn [frame_of a_planes]. apply for_units_ext. intros [[p r'] c'] [s' es'] Hin.
  apply in_flat_map in Hin as (p0 & Hp0 & Hin). apply plane_units_plane in Hin. cbn [fst] in Hin. subst p0. apply up_to_in in Hp0.
  rewrite (idx_nth _ (v_types x) p 0) by (destruct S as (P & _); lia). reflexivity.
Qed.

(** Which units a superblock visits: the model's loops with a recorder. *)
Definition visits (x : lrenv) (r c : Z) : res (list (Z * Z * Z)) :=
  lr_planes _ (fun plane row col _ _ l => Ok (l ++ [(plane, row, col)])) (zrange 0 (v_planes x)) x r c
    (sb_of (v_use128 x)) (sb_of (v_use128 x)) [].

Lemma for_units_record l : forall a, for_units (fun '(p, row, col) l => Ok (l ++ [(p, row, col)])) l a = Ok (a ++ l).
Proof.
  induction l as [|[[p r] c] l IH]; intros a; cbn [for_units]; [rewrite app_nil_r; reflexivity|]. cbn [bind].
  rewrite IH, <- app_assoc. reflexivity.
Qed.

Lemma visits_ok x r c : lr_sizes_ok x -> 0 <= r <= 2 ^ 50 -> 0 <= c <= 2 ^ 50 ->
  visits x r c = Ok (av1_read_lr (frame_of x) r c (sb_of (v_use128 x))).
Proof.
  intros S Hr Hc. unfold visits. rewrite lr_planes_units; [|assumption..|unfold sb_of; destruct (v_use128 x); lia|].
  2:{ intros p Hp. rewrite zrange_up_to in Hp. apply up_to_in in Hp. lia. }
  etransitivity; [apply for_units_ext with (g := fun '(p, row, col) l => Ok (l ++ [(p, row, col)]))|rewrite for_units_record; reflexivity].
  intros [[p r'] c'] t _. reflexivity.
Qed.

Lemma read_lr_in f r c n p row col :
  In (p, row, col) (av1_read_lr f r c n) <->
  0 <= p < a_planes f /\ a_type f p <> 0 /\ av1_row_start f p r <= row < av1_row_end f p r n /\ av1_col_start f p c <= col < av1_col_end f p c n.
Proof.
  unfold av1_read_lr. rewrite in_flat_map. split.
  - intros (p' & Hp & H). pose proof (plane_units_plane _ _ _ _ _ _ H) as E. cbn [fst] in E. subst p'. apply up_to_in in Hp.
    unfold av1_plane_units in H. destruct (a_type f p =? 0) eqn:E; [destruct H|]. apply in_flat_map in H as (row' & Hr & H).
    apply in_map_iff in H as (col' & Eq & Hc). injection Eq as <- <-. apply up_to_in in Hr, Hc. repeat split; lia.
  - intros (Hp & Ht & Hr & Hc). exists p. split; [apply up_to_in; lia|]. unfold av1_plane_units.
    destruct (a_type f p =? 0) eqn:E; [lia|]. apply in_flat_map. exists row. split; [apply up_to_in; lia|].
    apply in_map_iff. exists col. split; [reflexivity|apply up_to_in; lia].
Qed.

Lemma nodup_flat_map (A B : Type) (f : A -> list B) l : NoDup l -> (forall a, In a l -> NoDup (f a)) ->
  (forall a b x, In a l -> In b l -> In x (f a) -> In x (f b) -> a = b) -> NoDup (flat_map f l).
Proof.
  induction l as [|a l IH]; intros N H D; [constructor|]. cbn [flat_map]. apply NoDup_cons_iff in N as [Na N].
  assert (App : forall l1 l2 : list B, NoDup l1 -> NoDup l2 -> (forall x, In x l1 -> ~ In x l2) -> NoDup (l1 ++ l2)).
  { clear. induction l1 as [|y l1 IH]; intros l2 N1 N2 D; [exact N2|]. cbn [app]. apply NoDup_cons_iff in N1 as [Ny N1].
    constructor; [|apply IH; auto; intros x Hx; apply D; right; exact Hx].
    intros I. apply in_app_iff in I as [I|I]; [auto|]. exact (D y (or_introl eq_refl) I). }
  apply App.
  - apply H. left; reflexivity.
  - apply IH; [exact N|intros; apply H; right; assumption|]. intros; eapply D; try right; eassumption.
  - intros x Hx Hx'. apply in_flat_map in Hx' as (b & Hb & Hx').
    assert (a = b) by (eapply D; [left; reflexivity|right; exact Hb|exact Hx|exact Hx']). subst b. auto.
Qed.

Lemma read_lr_nodup f r c n : NoDup (av1_read_lr f r c n).
Proof.
  unfold av1_read_lr. apply nodup_flat_map; [apply up_to_nodup| |].
  - intros p _. unfold av1_plane_units. destruct (a_type f p =? 0); [constructor|]. apply nodup_flat_map; [apply up_to_nodup| |].
    + intros row _. apply Injective_map_NoDup; [|apply up_to_nodup]. intros a b E. injection E as <-. reflexivity.
    + intros a b q _ _ Ha Hb. apply in_map_iff in Ha as (? & <- & _). apply in_map_iff in Hb as (? & E & _). injection E as E _. congruence.
  - intros a b q _ _ Ha Hb. apply plane_units_plane in Ha, Hb. congruence.
Qed.

(** Each unit on an axis belongs to one superblock. *)
Lemma axis_iff num den units sb i u : 0 < num -> 0 < den -> 0 < sb ->
  (cdiv (sb * i * num) den <= u < Z.min units (cdiv ((sb * i + sb) * num) den)) <-> u < units /\ i = u * den / (sb * num).
Proof.
  intros Hn Hd Hs. pose proof (cdiv_le (sb * i * num) den u Hd) as A. pose proof (cdiv_le ((sb * i + sb) * num) den u Hd) as B.
  assert (P : 0 < sb * num) by nia.
  assert (D : i = u * den / (sb * num) <-> sb * i * num <= u * den < (sb * i + sb) * num).
  { split.
    - intros ->. pose proof (Z.div_mod (u * den) (sb * num) ltac:(lia)) as M. pose proof (Z.mod_pos_bound (u * den) (sb * num) P). nia.
    - intros H. apply Z.div_unique with (u * den - sb * num * i); [left; nia|nia]. }
  rewrite D. lia.
Qed.

Lemma superblocks_cover size sb : 1 <= size -> 0 < sb -> size <= 4 * (sb * av1_superblocks size sb) /\ (size + 1) / 2 <= 2 * (sb * av1_superblocks size sb).
Proof.
  intros Hs Hb. unfold av1_superblocks. assert (av1_cells size <= sb * cdiv (av1_cells size) sb).
  { unfold cdiv. pose proof (Z.div_mod (av1_cells size + sb - 1) sb ltac:(lia)). pose proof (Z.mod_pos_bound (av1_cells size + sb - 1) sb Hb). lia. }
  unfold av1_cells in *. lia.
Qed.

Lemma count_below us size u : 1 <= us -> 0 <= u < av1_unit_count us size -> u = 0 \/ u * us <= size + us / 2 - us.
Proof.
  intros Hu H. unfold av1_unit_count in H. destruct (Z.eq_dec u 0); [left; assumption|right].
  assert (A : u + 1 <= (size + us / 2) / us) by lia.
  pose proof (Z.mul_div_le (size + us / 2) us ltac:(lia)). nia.
Qed.

Lemma rows_end us size sb (ss : bool) u : 8 <= us -> 1 <= size -> 0 < sb ->
  0 <= u < av1_unit_count us (av1_plane_size size (b2z ss)) ->
  u * us < sb * av1_superblocks size sb * (4 / (1 + b2z ss)).
Proof.
  intros Hu Hs Hb H. apply count_below in H; [|lia]. destruct (superblocks_cover size sb Hs Hb) as [C1 C2].
  set (t := sb * av1_superblocks size sb) in *. unfold av1_plane_size in H.
  destruct ss; cbn [b2z] in *; change (4 / (1 + 1)) with 2; change (4 / (1 + 0)) with 4; change (1 + 0) with 1 in H; rewrite ?Z.div_1_r in H;
    (destruct H as [->|H]; [lia|]; set (m := u * us) in *; lia).
Qed.

Lemma cols_end us up d sb (ss : bool) u : 8 <= us -> 1 <= up -> 9 <= d <= 16 -> 0 < sb ->
  0 <= u < av1_unit_count us (av1_plane_size up (b2z ss)) ->
  u * (us * 8) < sb * av1_superblocks ((up * 8 + d / 2) / d) sb * (4 / (1 + b2z ss) * d).
Proof.
  intros Hu Hs Hd Hb H. apply count_below in H; [|lia]. set (fw := (up * 8 + d / 2) / d).
  assert (F : 8 * up + d / 2 - d + 1 <= d * fw <= 8 * up + d / 2).
  { unfold fw. pose proof (Z.div_mod (up * 8 + d / 2) d ltac:(lia)). pose proof (Z.mod_pos_bound (up * 8 + d / 2) d ltac:(lia)). lia. }
  assert (F1 : 1 <= fw).
  { destruct (Z_lt_le_dec fw 1); [|assumption]. assert (d * fw <= 0) by nia. lia. }
  destruct (superblocks_cover fw sb F1 Hb) as [C1 C2].
  set (t := sb * av1_superblocks fw sb) in *. assert (C3 : d * fw <= 4 * (d * t)) by nia.
  assert (T : 0 < t) by lia. assert (DT : 0 < d * t) by nia.
  replace (u * (us * 8)) with (8 * (u * us)) by ring. unfold av1_plane_size in H.
  destruct ss; cbn [b2z] in *; change (4 / (1 + 1)) with 2; change (4 / (1 + 0)) with 4; change (1 + 0) with 1 in H; rewrite ?Z.div_1_r in H.
  - replace (t * (2 * d)) with (2 * (d * t)) by ring. destruct H as [->|H]; [lia|]. set (m := u * us) in *. lia.
  - replace (t * (4 * d)) with (4 * (d * t)) by ring. destruct H as [->|H]; [lia|]. set (m := u * us) in *. lia.
Qed.

(** The whole frame. *)
Definition in_grid (x : lrenv) (i j : Z) : Prop :=
  0 <= i < av1_superblocks (v_height x) (sb_of (v_use128 x)) /\
  0 <= j < av1_superblocks (av1_frame_width (frame_of x)) (sb_of (v_use128 x)).
Definition frame_unit (x : lrenv) (p row col : Z) : Prop :=
  0 <= p < v_planes x /\ a_type (frame_of x) p <> 0 /\
  0 <= row < av1_unit_rows (frame_of x) p /\ 0 <= col < av1_unit_cols (frame_of x) p.

Lemma grid_positions x i j : lr_sizes_ok x -> in_grid x i j ->
  0 <= sb_of (v_use128 x) * i <= 2 ^ 50 /\ 0 <= sb_of (v_use128 x) * j <= 2 ^ 50.
Proof.
  intros (_ & _ & _ & Hh & Hu & Hd) [Hi Hj].
  assert (W : 0 <= av1_frame_width (frame_of x) <= 2 ^ 50).
  { unfold av1_frame_width. cbn [frame_of a_denom a_up]. destruct (v_superres x); [|lia]. specialize (Hd eq_refl).
    split; [apply Z.div_pos; lia|]. apply Z.div_le_upper_bound; [lia|]. nia. }
  assert (G : forall size k sb, 0 <= size <= 2 ^ 50 -> 0 < sb <= 32 -> 0 <= k < av1_superblocks size sb -> 0 <= sb * k <= 2 ^ 50).
  { intros size k sb Hs Hb Hk. unfold av1_superblocks, cdiv, av1_cells in Hk.
    pose proof (Z.mul_div_le (2 * ((size + 7) / 8) + sb - 1) sb ltac:(lia)). nia. }
  unfold sb_of in *. destruct (v_use128 x); split; (eapply G; [|lia|eassumption]; lia).
Qed.

Lemma units_once x : lr_sizes_ok x ->
  (forall i j, in_grid x i j -> exists l, visits x (sb_of (v_use128 x) * i) (sb_of (v_use128 x) * j) = Ok l /\ NoDup l /\
     forall p row col, In (p, row, col) l -> frame_unit x p row col) /\
  (forall p row col, frame_unit x p row col ->
     exists i j, in_grid x i j /\
       forall i' j' l, in_grid x i' j' -> visits x (sb_of (v_use128 x) * i') (sb_of (v_use128 x) * j') = Ok l ->
         (In (p, row, col) l <-> i' = i /\ j' = j)).
Proof.
  intros S. assert (S' := S). destruct S' as (P1 & P2 & Sz & Hh & Hu & Hd).
  assert (Hsb : 0 < sb_of (v_use128 x) <= 32) by (unfold sb_of; destruct (v_use128 x); lia).
  set (sb := sb_of (v_use128 x)) in *.
  assert (Pss : forall (b : bool) p, plane_ss (b2z b) p = b2z (if p =? 0 then false else b)) by (intros b p; unfold plane_ss; destruct (p =? 0); reflexivity).
  (* which superblock *)
  assert (Row : forall p i row, 0 <= p < v_planes x -> a_type (frame_of x) p <> 0 ->
    (av1_row_start (frame_of x) p (sb * i) <= row < av1_row_end (frame_of x) p (sb * i) sb <->
     row < av1_unit_rows (frame_of x) p /\ i = row * nth (Z.to_nat p) (v_sizes x) 0 / (sb * (4 / (1 + plane_ss (b2z (v_ssy x)) p))))).
  { intros p i row Hp Ht. specialize (Sz p Hp Ht). unfold av1_row_end, av1_row_start. cbn [frame_of a_size a_ssy].
    apply axis_iff; [|lia|lia]. rewrite Pss. destruct (if p =? 0 then false else v_ssy x); cbn; lia. }
  assert (Col : forall p, 0 <= p < v_planes x -> a_type (frame_of x) p <> 0 -> exists num den, 0 < num /\ 0 < den /\
    (forall j col, av1_col_start (frame_of x) p (sb * j) <= col < av1_col_end (frame_of x) p (sb * j) sb <->
       col < av1_unit_cols (frame_of x) p /\ j = col * den / (sb * num)) /\
    (forall col, 0 <= col < av1_unit_cols (frame_of x) p ->
       col * den < sb * av1_superblocks (av1_frame_width (frame_of x)) sb * num)).
  { intros p Hp Ht. specialize (Sz p Hp Ht). unfold av1_col_end, av1_col_start, av1_unit_cols, av1_frame_width. cbn [frame_of a_size a_ssx a_denom a_up].
    rewrite Pss. set (ss := if p =? 0 then false else v_ssx x).
    assert (0 < 4 / (1 + b2z ss)) by (destruct ss; cbn; lia).
    destruct (v_superres x) eqn:Sr.
    - specialize (Hd eq_refl). exists (4 / (1 + b2z ss) * v_denom x), (nth (Z.to_nat p) (v_sizes x) 0 * 8).
      split; [apply Z.mul_pos_pos; lia|]. split; [lia|]. split; [intros; apply axis_iff; [apply Z.mul_pos_pos; lia|lia|lia]|].
      intros col Hc. apply cols_end; [lia|lia|lia|lia|exact Hc].
    - exists (4 / (1 + b2z ss)), (nth (Z.to_nat p) (v_sizes x) 0).
      split; [lia|]. split; [lia|]. split; [intros; apply axis_iff; lia|].
      intros col Hc. apply rows_end; [lia|lia|lia|exact Hc]. }
  split.
  - intros i j G. destruct (grid_positions x i j S G) as [Gi Gj]. eexists. split; [apply visits_ok; assumption|]. split; [apply read_lr_nodup|].
    fold sb. intros p row col H. apply read_lr_in in H as (Hp & Ht & Hr & Hc). cbn [frame_of a_planes] in Hp.
    destruct G as [G1 G2]. fold sb in G1, G2.
    assert (R0 : 0 <= row).
    { assert (0 <= av1_row_start (frame_of x) p (sb * i)); [|lia]. unfold av1_row_start, cdiv. specialize (Sz p Hp Ht). cbn [frame_of a_size a_ssy].
      apply Z.div_pos; [|lia]. rewrite Pss. destruct (if p =? 0 then false else v_ssy x); cbn [b2z]; change (4 / (1 + 1)) with 2; change (4 / (1 + 0)) with 4; lia. }
    assert (C0 : 0 <= col).
    { assert (0 <= av1_col_start (frame_of x) p (sb * j)); [|lia]. unfold av1_col_start, cdiv. specialize (Sz p Hp Ht). cbn [frame_of a_size a_ssx a_denom].
      assert (0 < 4 / (1 + plane_ss (b2z (v_ssx x)) p)) by (rewrite Pss; destruct (if p =? 0 then false else v_ssx x); cbn; lia).
      assert (M : forall m, 0 <= m -> 0 <= sb * j * m) by (intros m Hm; apply Z.mul_nonneg_nonneg; lia).
      destruct (v_superres x).
      - specialize (Hd eq_refl). apply Z.div_pos; [|lia].
        pose proof (M (4 / (1 + plane_ss (b2z (v_ssx x)) p) * v_denom x) ltac:(apply Z.mul_nonneg_nonneg; lia)) as M'. clear - M' Sz.
        revert M'. generalize (sb * j * (4 / (1 + plane_ss (b2z (v_ssx x)) p) * v_denom x)). intros. lia.
      - apply Z.div_pos; [|lia]. pose proof (M (4 / (1 + plane_ss (b2z (v_ssx x)) p)) ltac:(lia)) as M'. clear - M' Sz.
        revert M'. generalize (sb * j * (4 / (1 + plane_ss (b2z (v_ssx x)) p))). intros. lia. }
    split; [exact Hp|]. split; [exact Ht|]. apply Row in Hr; [|assumption..]. destruct (Col p Hp Ht) as (num & den & _ & _ & CI & _). apply CI in Hc. lia.
  - intros p row col (Hp & Ht & Hr & Hc). destruct (Col p Hp Ht) as (num & den & Hn & Hde & CI & CE). specialize (CE col Hc).
    assert (Hs := Sz p Hp Ht).
    assert (RE : row * nth (Z.to_nat p) (v_sizes x) 0 < sb * av1_superblocks (v_height x) sb * (4 / (1 + plane_ss (b2z (v_ssy x)) p))).
    { rewrite Pss. apply rows_end; [lia|lia|lia|]. rewrite <- Pss. exact Hr. }
    assert (Nn : 0 < 4 / (1 + plane_ss (b2z (v_ssy x)) p)) by (rewrite Pss; destruct (if p =? 0 then false else v_ssy x); cbn; lia).
    set (nr := 4 / (1 + plane_ss (b2z (v_ssy x)) p)) in *.
    exists (row * nth (Z.to_nat p) (v_sizes x) 0 / (sb * nr)), (col * den / (sb * num)).
    assert (Q : forall a k m, 0 <= a -> 0 < m -> a < sb * k * m -> 0 <= a / (sb * m) < k).
    { intros a k m Ha Hm Hk. clear - Ha Hm Hk Hsb. assert (0 < sb * m) by (apply Z.mul_pos_pos; lia). split; [apply Z.div_pos; assumption|]. apply Z.div_lt_upper_bound; [assumption|]. rewrite (Z.mul_comm sb m), <- Z.mul_assoc, Z.mul_comm. exact Hk. }
    split.
    + assert (Hs0 : 0 <= nth (Z.to_nat p) (v_sizes x) 0) by (clear - Hs; lia). destruct Hr as [Hr0 _]. destruct Hc as [Hc0 _].
      unfold in_grid. fold sb. split.
      * apply Q; [apply Z.mul_nonneg_nonneg; assumption|exact Nn|exact RE].
      * apply Q; [apply Z.mul_nonneg_nonneg; [assumption|apply Z.lt_le_incl; assumption]|exact Hn|exact CE].
    + intros i' j' l G V. destruct (grid_positions x i' j' S G) as [Gi Gj]. rewrite visits_ok in V by assumption. injection V as <-. fold sb.
      rewrite read_lr_in, Row, CI by assumption. cbn [frame_of a_planes]. fold nr. cbn [frame_of] in Ht. clear - Hp Ht Hr Hc. tauto.
Qed.
