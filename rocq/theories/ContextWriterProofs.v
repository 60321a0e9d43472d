From Coq Require Import String ZArith List Lia Bool.
From Coq Require Import ZifyBool ZifyNat.
From Verif Require Import Base BaseProofs UtilModel RangeCoderModel SessionModel BlockTables CdfTables CdfTableSpec GeomModel
  ElementModel ElementProofs ContextModel ContextSpec ContextCallSpec ContextRunProofs ContextProofs ContextCoefProofs.
Import ListNotations.
Open Scope string_scope.
Open Scope list_scope.
Open Scope Z_scope.
Ltac Zify.zify_post_hook ::= Z.div_mod_to_equations.

(** ** Ranges of the neighbour contexts *)

Lemma b2z_range : forall b, 0 <= b2z b <= 1.
Proof. intros []; cbn; lia. Qed.
Lemma inner_00 : forall r c, inner 0 0 r c.
Proof. intros r c. split; left; reflexivity. Qed.
Lemma above_nb : forall f r0 r c, frame_ok f r c -> nb_ok (above_of f r0 r c).
Proof. intros f r0 r c F. destruct (above_of f r0 r c) eqn:E; [|constructor]. eapply above_mi_ok; eassumption. Qed.
Lemma left_nb : forall f c0 r c, frame_ok f r c -> nb_ok (left_of f c0 r c).
Proof. intros f c0 r c F. destruct (left_of f c0 r c) eqn:E; [|constructor]. eapply left_mi_ok; eassumption. Qed.

Lemma spec_is_inter_range : forall u l, 0 <= spec_is_inter u l < 4.
Proof. intros u l. unfold spec_is_inter. pose proof (b2z_range (Intra u)). pose proof (b2z_range (Intra l)).
  repeat match goal with |- context [if ?b then _ else _] => destruct b end; lia. Qed.
Lemma spec_comp_mode_range : forall u l, 0 <= spec_comp_mode u l < 5.
Proof. intros u l. unfold spec_comp_mode. pose proof (b2z_range (backward (Ref0 u))). pose proof (b2z_range (backward (Ref0 l))).
  destruct (Avail u), (Avail l), (Single u), (Single l); repeat match goal with |- context [if ?b then _ else _] => destruct b end; lia. Qed.
Lemma spec_counts_range : forall g0 g1 u l, 0 <= spec_counts g0 g1 u l < 3.
Proof. intros. unfold spec_counts. destruct (_ ?= _); lia. Qed.
Lemma comp_ref_type_range : forall u l, 0 <= comp_ref_type_ctx u l < 5.
Proof.
  intros u l. unfold comp_ref_type_ctx.
  destruct u as [u|], l as [l|]; cbv zeta;
    repeat match goal with |- context [b2z ?b] => let x := fresh "x" in pose proof (b2z_range b); set (x := b2z b) in *; clearbody x end;
    repeat match goal with |- context [if ?b then _ else _] => destruct b end; lia.
Qed.
Lemma spec_comp_group_idx_range : forall u l, nb_ok u -> nb_ok l -> 0 <= spec_comp_group_idx u l < 6.
Proof.
  intros u l Hu Hl. unfold spec_comp_group_idx.
  assert (X : forall n, nb_ok n -> 0 <= (if negb (Single n) then at_nb m_comp_group_idx 0 n else if Ref0 n =? 7 then 3 else 0)).
  { intros [m|] H; [|cbn; lia]. cbn [nb_ok at_nb] in *. pose proof (ok_comp_group_idx m H). repeat match goal with |- context [if ?b then _ else _] => destruct b end; lia. }
  pose proof (X u Hu). pose proof (X l Hl). lia.
Qed.
Lemma spec_compound_idx_range : forall a b u l, nb_ok u -> nb_ok l -> 0 <= spec_compound_idx a b u l < 6.
Proof.
  intros a b u l Hu Hl. unfold spec_compound_idx.
  assert (X : forall n, nb_ok n -> 0 <= (if negb (Single n) then at_nb m_compound_idx 0 n else if Ref0 n =? 7 then 1 else 0) <= 1).
  { intros [m|] H; [|cbn; lia]. cbn [nb_ok at_nb] in *. pose proof (ok_compound_idx m H). repeat match goal with |- context [if ?b then _ else _] => destruct b end; lia. }
  pose proof (X u Hu). pose proof (X l Hl). cbv zeta. destruct (Z.abs a =? Z.abs b); lia.
Qed.

(** ** All-zero flag *)

(** Number of 4x4 units of an edge of [n] units from [pos] that lie before [limit]. *)
Definition inside (n pos limit : Z) : Z := Z.max 0 (Z.min n (limit - pos)).
Lemma iter_r : forall (g : Z -> Z) n x, Nat.iter (S n) g x = Nat.iter n g (g x).
Proof. intros g n x. induction n as [|n IH]; [reflexivity|]. change (g (Nat.iter (S n) g x) = g (Nat.iter n g (g x))). f_equal. exact IH. Qed.
Lemma nb_loop_inside : forall step v n k pos limit acc, 0 <= k -> 0 <= pos ->
  nb_loop n k pos limit (Ok v) step acc = Ok (Nat.iter (Z.to_nat (inside (Z.of_nat n) (pos + k) limit)) (fun a => step a v) acc).
Proof.
  intros step v. induction n as [|n IH]; intros k pos limit acc K P.
  - unfold inside. replace (Z.max 0 _) with 0 by lia. reflexivity.
  - cbn [nb_loop]. destruct (Z.ltb_spec (pos + k) limit).
    + cbn [bind]. rewrite IH by lia.
      assert (E : Z.to_nat (inside (Z.of_nat (S n)) (pos + k) limit) = S (Z.to_nat (inside (Z.of_nat n) (pos + (k + 1)) limit))) by (unfold inside; lia).
      rewrite E. rewrite iter_r. reflexivity.
    + rewrite IH by lia.
      assert (E : Z.to_nat (inside (Z.of_nat (S n)) (pos + k) limit) = Z.to_nat (inside (Z.of_nat n) (pos + (k + 1)) limit)) by (unfold inside; lia).
      rewrite E. reflexivity.
Qed.

Lemma level_ok : forall n plane, nb_ok n -> 0 <= plane <= 2 ->
  look_level (Ok n) plane = Ok (at_nb (fun m => nth (Z.to_nat plane) (m_level m) 0) 0 n) /\ 0 <= at_nb (fun m => nth (Z.to_nat plane) (m_level m) 0) 0 n.
Proof.
  intros [m|] plane H P; unfold look_level; cbn [bind at_nb]; [|split; [reflexivity|lia]]. cbn [nb_ok] in H.
  destruct (ok_level m H) as (a & b & d & E & A & B & D). rewrite E.
  assert (plane = 0 \/ plane = 1 \/ plane = 2) as [->|[->| ->]] by lia; (split; [reflexivity|assumption]).
Qed.
Lemma dc_ok : forall n plane, nb_ok n -> 0 <= plane <= 2 ->
  look_dc (Ok n) plane = Ok (at_nb (fun m => nth (Z.to_nat plane) (m_dc m) 0) 0 n) /\ 0 <= at_nb (fun m => nth (Z.to_nat plane) (m_dc m) 0) 0 n <= 2.
Proof.
  intros [m|] plane H P; unfold look_dc; cbn [bind at_nb]; [|split; [reflexivity|lia]]. cbn [nb_ok] in H.
  destruct (ok_dc m H) as (a & b & d & E & A & B & D). rewrite E.
  assert (plane = 0 \/ plane = 1 \/ plane = 2) as [->|[->| ->]] by lia; (split; [reflexivity|assumption]).
Qed.

Lemma residual_ok : forall f plane b, block_size b -> chroma_ok f plane b ->
  exists z, get_plane_residual_size b plane (f_subx f) (f_suby f) = Ok z /\ block_size z /\
    Block_Width z = Z.max 4 (if (0 <? plane) && f_subx f then Block_Width b / 2 else Block_Width b) /\
    Block_Height z = Z.max 4 (if (0 <? plane) && f_suby f then Block_Height b / 2 else Block_Height b).
Proof.
  intros f plane b B (P & S & C).
  set (Q := fun b => forallb (fun plane => forallb (fun sx : bool => forallb (fun sy : bool =>
     (sy && negb sx) || negb ((plane =? 0) || Bool.eqb sx sy || (Block_Height b <=? Block_Width b)) ||
     match get_plane_residual_size b plane sx sy with
     | Ok z => (0 <=? z) && (z <? 22) && (Block_Width z =? Z.max 4 (if (0 <? plane) && sx then Block_Width b / 2 else Block_Width b))
                && (Block_Height z =? Z.max 4 (if (0 <? plane) && sy then Block_Height b / 2 else Block_Height b))
     | _ => false end) [true; false]) [true; false]) [0; 1; 2]).
  assert (X : Q b = true) by (apply (forall_below 22 Q); [vm_compute; reflexivity|exact B]). unfold Q in X.
  rewrite forallb_forall in X. specialize (X plane ltac:(cbn; lia)). rewrite forallb_forall in X.
  specialize (X (f_subx f) ltac:(destruct (f_subx f); cbn; tauto)). rewrite forallb_forall in X.
  specialize (X (f_suby f) ltac:(destruct (f_suby f); cbn; tauto)).
  assert (Y : f_suby f && negb (f_subx f) = false) by (destruct (f_suby f); [rewrite S by reflexivity|]; reflexivity).
  assert (W : (plane =? 0) || Bool.eqb (f_subx f) (f_suby f) || (Block_Height b <=? Block_Width b) = true).
  { destruct C as [->|[->|C]]; [reflexivity|rewrite eqb_reflx, orb_true_r; reflexivity|]. rewrite (proj2 (Z.leb_le _ _) C). apply orb_true_r. }
  rewrite Y, W in X. cbn [negb orb] in X. destruct (get_plane_residual_size b plane (f_subx f) (f_suby f)) as [z| |]; try discriminate.
  repeat rewrite andb_true_iff in X. rewrite Z.leb_le, Z.ltb_lt, !Z.eqb_eq in X. destruct X as (((X1 & X2) & X3) & X4).
  exists z. split; [reflexivity|]. split; [split; assumption|]. split; assumption.
Qed.

Lemma iter_max : forall v n acc, 0 <= v -> Nat.iter n (fun a => Z.max a v) acc = if (n =? 0)%nat then acc else Z.max acc v.
Proof.
  intros v n acc H. induction n as [|n IH]; [reflexivity|]. change (Z.max (Nat.iter n (fun a => Z.max a v) acc) v = Z.max acc v). rewrite IH. destruct n; cbn [Nat.eqb]; lia.
Qed.
Lemma iter_lor : forall v n acc, Nat.iter n (fun a => Z.lor a v) acc = if (n =? 0)%nat then acc else Z.lor acc v.
Proof.
  intros v n acc. induction n as [|n IH]; [reflexivity|]. change (Z.lor (Nat.iter n (fun a => Z.lor a v) acc) v = Z.lor acc v). rewrite IH. destruct n; cbn [Nat.eqb]; [reflexivity|].
  rewrite <- Z.lor_assoc, Z.lor_diag. reflexivity.
Qed.

(** The context of the all-zero flag in terms of the neighbours. *)
Definition seen (n pos limit : Z) (v : Z) : Z := if 0 <? inside n pos limit then v else 0.
Definition lvl (plane : Z) (n : option mi) : Z := at_nb (fun m => nth (Z.to_nat plane) (m_level m) 0) 0 n.
Definition dcs (plane : Z) (n : option mi) : Z := at_nb (fun m => nth (Z.to_nat plane) (m_dc m) 0) 0 n.
Definition all_zero_chroma (bigger : bool) (above left : Z) : Z := 7 + b2z (negb (above =? 0)) + b2z (negb (left =? 0)) + (if bigger then 3 else 0).

Lemma all_zero_luma_ok : forall s t tc f b r0 c0 r c w4 h4 x4 y4, transform_size t -> block_size b -> frame_ok f r c -> inner r0 c0 r c ->
  0 <= w4 -> 0 <= h4 -> 0 <= x4 -> 0 <= y4 ->
  encode_all_zero s 0 t tc f b r c w4 h4 x4 y4 =
  Ok ("txb_skip", [0; tc; spec_all_zero_luma ((Block_Width b =? Tx_Width t) && (Block_Height b =? Tx_Height t))
        (seen w4 x4 (f_mi_cols f) (lvl 0 (above_of f r0 r c))) (seen h4 y4 (f_mi_rows f) (lvl 0 (left_of f c0 r c)))], s).
Proof.
  intros s t tc f b r0 c0 r c w4 h4 x4 y4 T B F I W H X Y. unfold encode_all_zero. cbn [Z.ltb Z.compare].
  rewrite (proj1 (tx_width_ok t T)), (proj1 (tx_height_ok t T)). cbn [bind].
  destruct (residual_ok (mkFr [] 0 0 false false) 0 b B) as (z & Z1 & Z2 & Z3 & Z4).
  { unfold chroma_ok. cbn. split; [lia|]. split; [discriminate|left; reflexivity]. }
  assert (E : get_plane_residual_size b 0 (f_subx f) (f_suby f) = get_plane_residual_size b 0 false false).
  { unfold get_plane_residual_size. reflexivity. }
  rewrite E. cbn [f_subx f_suby] in Z1. rewrite Z1. cbn [bind].
  rewrite (proj1 (block_width_ok z Z2)), (proj1 (block_height_ok z Z2)). cbn [bind].
  cbn [f_subx f_suby andb Z.ltb Z.compare] in Z3, Z4. pose proof (proj2 (block_width_ok b B)). pose proof (proj2 (block_height_ok b B)).
  rewrite Z3, Z4. rewrite !Z.max_r by lia. rewrite Z.eqb_refl.
  destruct (nbrs _ _ _ _ _ F I) as (u & l & -> & -> & Eu & El & Nu & Nl). rewrite Eu, El.
  destruct (level_ok u 0 Nu ltac:(lia)) as [Lu Pu]. destruct (level_ok l 0 Nl ltac:(lia)) as [Ll Pl].
  rewrite Lu, Ll. rewrite nb_loop_inside by lia. cbn [bind].
  rewrite nb_loop_inside by lia. cbn [bind].
  rewrite !iter_max by assumption. rewrite !Z2Nat.id by assumption. rewrite !Z.add_0_r.
  fold (lvl 0 u) in *. fold (lvl 0 l) in *.
  assert (S : forall n pos lim v, 0 <= v -> (if (Z.to_nat (inside n pos lim) =? 0)%nat then 0 else Z.max 0 v) = seen n pos lim v).
  { intros n pos lim v Hv. unfold seen. destruct (Nat.eqb_spec (Z.to_nat (inside n pos lim)) 0), (Z.ltb_spec 0 (inside n pos lim)); try reflexivity; try (unfold inside in *; lia). }
  rewrite !S by assumption.
  assert (Pa : 0 <= seen w4 x4 (f_mi_cols f) (lvl 0 u)) by (unfold seen; destruct (_ <? _); lia).
  assert (Pb : 0 <= seen h4 y4 (f_mi_rows f) (lvl 0 l)) by (unfold seen; destruct (_ <? _); lia).
  set (a := seen _ _ _ _) in *. set (d := seen _ _ (f_mi_rows f) _) in *. clearbody a d. do 5 f_equal.
  unfold spec_all_zero_luma. destruct ((Block_Width b =? Tx_Width t) && (Block_Height b =? Tx_Height t)); [reflexivity|].
  destruct (Z.eqb_spec (Z.min a 255) 0), (Z.eqb_spec (Z.min d 255) 0), (Z.ltb_spec 0 a), (Z.ltb_spec 0 d); cbn [andb orb]; try lia; try reflexivity.
  - replace (3 <? Z.max (Z.min a 255) (Z.min d 255)) with (3 <? Z.max a d) by lia. destruct (3 <? Z.max a d); reflexivity.
  - replace (3 <? Z.max (Z.min a 255) (Z.min d 255)) with (3 <? Z.max a d) by lia. destruct (3 <? Z.max a d); reflexivity.
  - replace (Z.max (Z.min a 255) (Z.min d 255) <=? 3) with (Z.max a d <=? 3) by lia.
    replace (Z.min (Z.min a 255) (Z.min d 255) <=? 3) with (Z.min a d <=? 3) by lia. reflexivity.
Qed.

Lemma lor_zero : forall a b, Z.lor a b = 0 <-> a = 0 /\ b = 0.
Proof. intros a b. apply Z.lor_eq_0_iff. Qed.

Lemma all_zero_chroma_ok : forall s plane t tc f b r0 c0 r c w4 h4 x4 y4, transform_size t -> block_size b -> frame_ok f r c -> inner r0 c0 r c ->
  0 <= w4 -> 0 <= h4 -> 0 <= x4 -> 0 <= y4 -> 1 <= plane -> chroma_ok f plane b ->
  encode_all_zero s plane t tc f b r c w4 h4 x4 y4 =
  Ok ("txb_skip", [0; tc; all_zero_chroma
       (Tx_Width t * Tx_Height t <? Z.max 4 (if f_subx f then Block_Width b / 2 else Block_Width b) * Z.max 4 (if f_suby f then Block_Height b / 2 else Block_Height b))
       (seen w4 x4 (f_mi_cols f / 2 ^ b2z (f_subx f)) (Z.lor (lvl plane (above_of f r0 r c)) (dcs plane (above_of f r0 r c))))
       (seen h4 y4 (f_mi_rows f / 2 ^ b2z (f_suby f)) (Z.lor (lvl plane (left_of f c0 r c)) (dcs plane (left_of f c0 r c))))], s).
Proof.
  intros s plane t tc f b r0 c0 r c w4 h4 x4 y4 T B F I W H X Y P C. unfold encode_all_zero.
  destruct (Z.ltb_spec 0 plane); [|lia]. destruct (Z.eqb_spec plane 0); [lia|].
  rewrite (proj1 (tx_width_ok t T)), (proj1 (tx_height_ok t T)). cbn [bind].
  destruct (residual_ok f plane b B C) as (z & Z1 & Z2 & Z3 & Z4). rewrite Z1. cbn [bind].
  rewrite (proj1 (block_width_ok z Z2)), (proj1 (block_height_ok z Z2)). cbn [bind].
  rewrite Z3, Z4. destruct (Z.ltb_spec 0 plane); [|lia]. cbn [andb].
  destruct (nbrs _ _ _ _ _ F I) as (u & l & -> & -> & Eu & El & Nu & Nl). rewrite Eu, El.
  destruct C as (P2 & _ & _).
  destruct (level_ok u plane Nu P2) as [Lu Pu]. destruct (level_ok l plane Nl P2) as [Ll Pl].
  destruct (dc_ok u plane Nu P2) as [Du Qu]. destruct (dc_ok l plane Nl P2) as [Dl Ql].
  fold (lvl plane u) in *. fold (lvl plane l) in *. fold (dcs plane u) in *. fold (dcs plane l) in *.
  rewrite Lu, Ll, Du, Dl. cbn [bind].
  rewrite nb_loop_inside by lia. cbn [bind].
  rewrite nb_loop_inside by lia. cbn [bind].
  rewrite !iter_lor. rewrite !Z2Nat.id by assumption. rewrite !Z.add_0_r. rewrite !Z.lor_0_l.
  assert (S : forall n pos lim v, (if (Z.to_nat (inside n pos lim) =? 0)%nat then 0 else v) = seen n pos lim v).
  { intros n' pos lim v. unfold seen. destruct (Nat.eqb_spec (Z.to_nat (inside n' pos lim)) 0), (Z.ltb_spec 0 (inside n' pos lim)); try reflexivity; try (unfold inside in *; lia). }
  rewrite !S. rewrite !Z.shiftr_div_pow2 by (destruct (f_subx f), (f_suby f); cbn; lia).
  unfold all_zero_chroma. do 6 f_equal. ring.
Qed.

Lemma spec_all_zero_luma_range : forall w a b, 0 <= spec_all_zero_luma w a b < 13.
Proof. intros w a b. unfold spec_all_zero_luma. destruct w; [lia|]. destruct (0 <? a), (0 <? b); repeat match goal with |- context [if ?b then _ else _] => destruct b end; lia. Qed.
Lemma all_zero_chroma_range : forall w a b, 0 <= all_zero_chroma w a b < 13.
Proof. intros w a b. unfold all_zero_chroma. pose proof (b2z_range (negb (a =? 0))). pose proof (b2z_range (negb (b =? 0))). destruct w; lia. Qed.

(** ** Coefficient writers *)

Definition mag_of (x : Z) : Z := if x <? 0 then 15 else x.
Lemma br_ctx_val : forall t ty row col quant, 0 <= t < 19 -> 0 <= ty < 16 ->
  0 <= row < coded_height t -> 0 <= col < coded_width t ->
  coded_width t * coded_height t <= len quant -> Forall (fun x => - 2 ^ 63 <= x < 2 ^ 63) quant ->
  br_ctx t ty (row * coded_width t + col) quant = Ok (spec_coeff_br t ty row col (fun r c => mag_of (at_quant quant t r c))).
Proof.
  intros t ty row col quant T TY R C L Q. unfold br_ctx.
  destruct (coded_size t T) as (adj & bwl & E1 & E2 & B & E3 & E5 & E4 & Bw & Bh). rewrite E1. cbn [bind]. rewrite E2. cbn [bind].
  rewrite E5, E4. cbn [bind]. cbv zeta. rewrite Z.shiftl_1_l, E3.
  destruct (pos_split bwl (coded_width t) row col E3 ltac:(lia) C ltac:(lia)) as [P1 P2]. rewrite P1, P2.
  destruct (class_ok ty TY) as [K KB]. rewrite K. rewrite (br_offsets _ KB). cbn [bind].
  rewrite (sum_mag_ok (fun x => Z.min (Z.abs (mag_of x)) 15)) with (t := t);
    [|exact E3|lia|lia|lia|lia|exact L| |apply br_nbrs_pos].
  2:{ intros x Hx. rewrite Forall_forall in Q. specialize (Q x Hx). unfold as_u64, mag_of. destruct (Z.ltb_spec x 0).
      - assert (E : x mod 2 ^ 64 = x + 2 ^ 64) by lia. rewrite E. f_equal. lia.
      - rewrite Z.mod_small by lia. rewrite Z.abs_eq by lia. reflexivity. }
  cbn [bind]. rewrite Z.add_0_l. unfold spec_coeff_br, nbr_sum. cbv zeta. rewrite shiftr_1.
  set (m := fold_right _ _ _). rewrite (Z.min_comm 6). f_equal.
  replace (row * coded_width t + col =? 0) with ((row =? 0) && (col =? 0)) by (destruct (Z.eqb_spec (row * coded_width t + col) 0); nia).
  destruct ((row =? 0) && (col =? 0)); [reflexivity|]. destruct (tx_class ty =? 0); [reflexivity|]. destruct (tx_class ty =? 1); reflexivity.
Qed.

Lemma known_type : forall plane x y f i uv r c, frame_ok f r c -> type_known plane x y f i uv r c ->
  exists ty, 0 <= ty < 16 /\ type_source plane x y f i uv r c ty.
Proof.
  intros plane x y f i uv r c F K. unfold type_known, type_source in *. destruct F as (R & C & _ & _ & _ & _ & M).
  destruct (plane =? 0).
  - destruct (cell f r c) as [m|] eqn:E; [|congruence]. exists (m_tx_type m). split; [exact (ok_tx_type m (M _ _ _ E))|]. exists m. auto.
  - destruct i.
    + destruct (cell f _ _) as [m|] eqn:E; [|congruence]. exists (m_tx_type m). split; [exact (ok_tx_type m (M _ _ _ E))|]. exists m. auto.
    + set (P := fun u => match nth_error mode_to_txfm (Z.to_nat u) with Some t => (0 <=? t) && (t <? 16) | None => false end).
      assert (X : P uv = true) by (apply (forall_below 14 P); [vm_compute; reflexivity|exact K]). unfold P in X.
      destruct (nth_error mode_to_txfm (Z.to_nat uv)) as [t|]; [|discriminate]. exists t. split; [lia|]. split; [reflexivity|lia].
Qed.

Lemma tx_type_some : forall plane t x y f lossless i red uv r c, frame_ok f r c -> transform_size t -> type_known plane x y f i uv r c ->
  exists ty, compute_tx_type plane t x y f lossless i red uv r c = Ok ty /\ 0 <= ty < 16.
Proof.
  intros plane t x y f lossless i red uv r c F T K. destruct (known_type _ _ _ _ _ _ _ _ F K) as (ty & B & S).
  exists (code_tx_type t lossless i red ty). split; [|apply code_tx_type_range; exact B].
  apply compute_tx_type_ok; try assumption; destruct F as (R & C & _ & _ & ? & ? & _); lia.
Qed.

Lemma pos_coords : forall t pos, transform_size t -> 0 <= pos < coded_width t * coded_height t ->
  exists row col, pos = row * coded_width t + col /\ 0 <= row < coded_height t /\ 0 <= col < coded_width t.
Proof.
  intros t pos T H. destruct (coded_size t T) as (_ & _ & _ & _ & _ & _ & _ & _ & Bw & Bh).
  exists (pos / coded_width t), (pos mod coded_width t).
  pose proof (Z.div_mod pos (coded_width t) ltac:(lia)). pose proof (Z.mod_pos_bound pos (coded_width t) ltac:(lia)).
  split; [lia|]. split; [|assumption]. split; [apply Z.div_pos; lia|]. apply Z.div_lt_upper_bound; lia.
Qed.

(** ** Every legal call is sound *)

Lemma palette_y_shape : forall n, 2 <= n <= 8 ->
  find (fun sh : string * list nat * nat => String.eqb (fst (fst sh)) (palette_table_y n)) cdf_shapes = Some (palette_table_y n, [5%nat], Z.to_nat n).
Proof. intros n H. assert (n = 2 \/ n = 3 \/ n = 4 \/ n = 5 \/ n = 6 \/ n = 7 \/ n = 8) as [->|[->|[->|[->|[->|[->| ->]]]]]] by lia; vm_compute; reflexivity. Qed.
Lemma palette_uv_shape : forall n, 2 <= n <= 8 ->
  find (fun sh : string * list nat * nat => String.eqb (fst (fst sh)) (palette_table_uv n)) cdf_shapes = Some (palette_table_uv n, [5%nat], Z.to_nat n).
Proof. intros n H. assert (n = 2 \/ n = 3 \/ n = 4 \/ n = 5 \/ n = 6 \/ n = 7 \/ n = 8) as [->|[->|[->|[->|[->|[->| ->]]]]]] by lia; vm_compute; reflexivity. Qed.

Ltac use E := eapply sound_intro; [exact E|vm_compute; reflexivity|path|lia].

Lemma legal_sound : forall w, legal w -> sound w.
Proof.
  intros w H. destruct H; unfold bit, block_size, transform_size in *.
  - (* intra_frame_y_mode *)
    destruct (ok_in_ok _ _ _ (forall_below 13 (fun b => ok_in (idx intra_mode_context b) 0 5) eq_refl a H0)) as (x & X & Bx).
    destruct (ok_in_ok _ _ _ (forall_below 13 (fun b => ok_in (idx intra_mode_context b) 0 5) eq_refl l H1)) as (y & Y & By).
    unfold encode_intra_frame_y_mode. rewrite X, Y. cbn [bind]. sound.
  - destruct (size_group_ok b H0) as (g & G & Bg). unfold encode_y_mode. rewrite G. cbn [bind]. sound.
  - (* uv_mode *)
    assert (X : exists name, encode_uv_mode s b lossless sx sy = Ok (name, [s], s) /\ In name ["uv_mode_cfl_allowed"; "uv_mode_cfl_not_allowed"]).
    { unfold encode_uv_mode. destruct lossless.
      - destruct (residual_ok (mkFr [] 0 0 sx sy) 1 b H0) as (z & Z1 & _).
        { split; [lia|]. cbn [f_subx f_suby]. split; [assumption|]. right. assumption. }
        cbn [f_subx f_suby] in Z1. rewrite Z1. cbn [bind negb]. destruct (z =? BLOCK_4X4); eexists; (split; [reflexivity|cbn; tauto]).
      - cbn [bind negb]. rewrite (proj1 (block_width_ok b H0)), (proj1 (block_height_ok b H0)). cbn [bind].
        eexists. split; [reflexivity|]. destruct (_ <=? 32); cbn; tauto. }
    destruct X as (name & X & I). destruct I as [<-|[<-|[]]]; use X.
  - unfold encode_angle_delta, V_PRED. rewrite chk_u64_ok by lia. cbn [bind]. sound.
  - (* tx_depth *)
    pose proof (tx_depth_val f 0 0 r c s t depth H0 (inner_00 r c) H) as X.
    pose proof (b2z_range (Tx_Width t <=? at_nb (fun m => if m_is_inter m then Block_Width (m_size m) else Tx_Width (m_tx_size m)) 0 (above_of f 0 r c))).
    pose proof (b2z_range (Tx_Height t <=? at_nb (fun m => if m_is_inter m then Block_Width (m_size m) else Tx_Height (m_tx_size m)) 0 (left_of f 0 r c))).
    revert X H3 H4. generalize (b2z (Tx_Width t <=? at_nb (fun m => if m_is_inter m then Block_Width (m_size m) else Tx_Width (m_tx_size m)) 0 (above_of f 0 r c))).
    generalize (b2z (Tx_Height t <=? at_nb (fun m => if m_is_inter m then Block_Width (m_size m) else Tx_Height (m_tx_size m)) 0 (left_of f 0 r c))).
    intros b a X H3 H4.
    assert (depth = 1 \/ depth = 2 \/ depth = 3 \/ depth = 4) as [->|[->|[->| ->]]] by lia; cbn in H2;
      (eapply sound_intro; [exact X|vm_compute; reflexivity|path|lia]).
  - (* segment_id *)
    unfold encode_segment_id. cbv zeta. match goal with |- sound (Ok (_, [?x], _)) => assert (0 <= x < 3) by (repeat match goal with |- context [if ?b then _ else _] => destruct b end; lia); generalize dependent x; intros ctx ? end.
    sound.
  - pose proof (seg_id_predicted_ok f 0 0 r c s H0 (inner_00 r c)) as X.
    assert (G : forall n, nb_ok n -> 0 <= at_nb m_seg_id_predicted 0 n <= 1) by (intros [m|] N; cbn; [exact (ok_predicted m N)|lia]).
    pose proof (G _ (above_nb f 0 r c H0)). pose proof (G _ (left_nb f 0 r c H0)). use X.
  - unfold encode_new_mv. sound.
  - unfold encode_zero_mv. sound.
  - unfold encode_ref_mv. sound.
  - (* drl_mode *)
    unfold encode_drl_mode. destruct (idx stack i) as [v| |] eqn:E.
    + assert (V : 0 <= v < 3). { rewrite Forall_forall in H1. apply H1. unfold idx in E. destruct (i <? 0); [discriminate|]. destruct (nth_error stack (Z.to_nat i)) eqn:N; [|discriminate]. injection E as ->. eapply nth_error_In; exact N. }
      cbn [bind]. sound.
    + exfalso. unfold idx in E. destruct (Z.ltb_spec i 0); [lia|]. destruct (nth_error stack (Z.to_nat i)) eqn:N; [discriminate|]. apply nth_error_None in N. unfold len in H0. lia.
    + exfalso. unfold idx in E. destruct (i <? 0); [discriminate|]. destruct (nth_error stack (Z.to_nat i)); discriminate.
  - pose proof (is_inter_ok f 0 0 r c s H (inner_00 r c)) as X. pose proof (spec_is_inter_range (above_of f 0 r c) (left_of f 0 r c)).
    pose proof (b2z_range s). use X.
  - unfold encode_use_filter_intra. sound.
  - unfold encode_filter_intra_mode. sound.
  - pose proof (comp_mode_ok f 0 0 r c s H0 (inner_00 r c)) as X. pose proof (spec_comp_mode_range (above_of f 0 r c) (left_of f 0 r c)). use X.
  - pose proof (skip_mode_ok f 0 0 r c s H0 (inner_00 r c)) as X.
    assert (G : forall n, nb_ok n -> 0 <= at_nb m_skip_mode 0 n <= 1) by (intros [m|] N; cbn; [exact (ok_skip_mode m N)|lia]).
    pose proof (G _ (above_nb f 0 r c H0)). pose proof (G _ (left_nb f 0 r c H0)). use X.
  - pose proof (skip_ok f 0 0 r c s H0 (inner_00 r c)) as X.
    pose proof (b2z_range (at_nb m_skip false (above_of f 0 r c))). pose proof (b2z_range (at_nb m_skip false (left_of f 0 r c))). use X.
  - (* reference frames *)
    assert (X : exists g0 g1 name i dims, w s f r c = Ok (name, [spec_counts g0 g1 (above_of f 0 r c) (left_of f 0 r c); i], s) /\
       find (fun sh : string * list nat * nat => String.eqb (fst (fst sh)) name) cdf_shapes = Some (name, [3%nat; dims], 2%nat) /\ 0 <= i < Z.of_nat dims).
    { repeat (destruct H1 as [<-|H1]; [unfold encode_comp_ref, encode_comp_ref_p1, encode_comp_ref_p2, encode_comp_bwdref, encode_comp_bwdref_p1,
          encode_single_ref_p1, encode_single_ref_p2, encode_single_ref_p3, encode_single_ref_p4, encode_single_ref_p5,
          encode_single_ref_p6, encode_uni_comp_ref, encode_uni_comp_ref_p1, encode_uni_comp_ref_p2;
        do 5 eexists; (split; [apply count_ctx_ok; [exact H0|apply inner_00|repeat constructor; cbn; intuition lia|repeat constructor; cbn; intuition lia]|split; [vm_compute; reflexivity|lia]])|]).
      destruct H1. }
    destruct X as (g0 & g1 & name & i & dims & E & Fd & B). pose proof (spec_counts_range g0 g1 (above_of f 0 r c) (left_of f 0 r c)).
    eapply sound_intro; [exact E|exact Fd|path|lia].
  - (* compound_mode *)
    unfold encode_compound_mode.
    assert (X : forallb (fun a => forallb (fun b => ok_in (idx2 compound_mode_ctx_map (Z.shiftr a 1) (Z.min b 4)) 0 8) (map Z.of_nat (seq 0 6))) (map Z.of_nat (seq 0 6)) = true) by (vm_compute; reflexivity).
    pose proof (forall_below 6 _ X a H0) as X1. cbn beta in X1. pose proof (forall_below 6 _ X1 b H1) as X2. cbn beta in X2.
    apply ok_in_ok in X2. destruct X2 as (v & V & Bv). rewrite V. cbn [bind]. sound.
  - (* interp_filter *)
    destruct (cell f r c) as [m|] eqn:E; [|congruence].
    destruct (interp_filter_val f 0 0 r c s dir m H0 (inner_00 r c) E ltac:(lia)) as (X & K1 & K2). cbv zeta in X.
    eapply sound_intro; [exact X|vm_compute; reflexivity| |lia]. apply Forall2_cons; [|apply Forall2_nil].
    pose proof (b2z_range (0 <? m_ref1 m)). cbv zeta in K1, K2.
    revert K1 K2. generalize (if Avail (left_of f 0 r c) && ((Ref0 (left_of f 0 r c) =? m_ref0 m) || (Ref1 (left_of f 0 r c) =? m_ref1 m)) then nth (Z.to_nat dir) (at_nb m_filter [] (left_of f 0 r c)) 3 else 3).
    generalize (if Avail (above_of f 0 r c) && ((Ref0 (above_of f 0 r c) =? m_ref0 m) || (Ref1 (above_of f 0 r c) =? m_ref1 m)) then nth (Z.to_nat dir) (at_nb m_filter [] (above_of f 0 r c)) 3 else 3).
    intros ku kl K1 K2. change (Z.of_nat 16) with 16.
    repeat match goal with |- context [if ?b then _ else _] => destruct b end; lia.
  - unfold encode_motion_mode. sound.
  - unfold encode_mv_joint. sound.
  - unfold encode_mv_sign. sound.
  - unfold encode_mv_class. sound.
  - unfold encode_mv_class0_bit. sound.
  - unfold encode_mv_class0_fr. sound.
  - unfold encode_mv_class0_hp. sound.
  - unfold encode_mv_fr. sound.
  - unfold encode_mv_hp. sound.
  - unfold encode_mv_bit. sound.
  - (* all_zero *)
    assert (X : exists ctx, encode_all_zero s plane t tc f b r c w4 h4 x4 y4 = Ok ("txb_skip", [0; tc; ctx], s) /\ 0 <= ctx < 13).
    { destruct (Z.eq_dec plane 0) as [->|N].
      - eexists. split; [apply (all_zero_luma_ok s t tc f b 0 0 r c w4 h4 x4 y4); try assumption; apply inner_00|apply spec_all_zero_luma_range].
      - eexists. split; [apply (all_zero_chroma_ok s plane t tc f b 0 0 r c w4 h4 x4 y4); try assumption; [apply inner_00|match goal with X : chroma_ok _ _ _ |- _ => destruct X; lia end]|apply all_zero_chroma_range]. }
    destruct X as (ctx & X & B). use X.
  - (* eob_pt *)
    destruct (tx_type_some _ _ _ _ _ lossless _ red _ _ _ H1 H2 H4) as (ty & E & B). unfold encode_eob_pt. rewrite E. cbn [bind].
    match goal with |- sound (Ok (_, [_; _; ?x], _)) => assert (0 <= x <= 1) by (destruct (get_tx_class ty =? TX_CLASS_2D); lia); generalize dependent x; intros k ? end.
    repeat (destruct H as [H|H]; [injection H as <- <-; sound|]). destruct H.
  - unfold encode_eob_extra. sound.
  - (* coeff_base *)
    destruct H4 as (T & P & L & Q). destruct (tx_type_some _ _ _ _ _ lossless _ red _ _ _ H2 T H3) as (ty & E & B).
    destruct (pos_coords t pos T P) as (row & col & -> & R & C).
    unfold encode_coeff_base, get_coeff_base_ctx. rewrite E. cbn [bind].
    rewrite base_ctx_ok; [|assumption|assumption|assumption|assumption|assumption|revert Q; apply Forall_impl; intros; lia].
    cbn [bind]. pose proof (spec_coeff_base_range t ty row col (at_quant quant t) B ltac:(lia) ltac:(lia)). sound.
  - (* coeff_br *)
    destruct H4 as (T & P & L & Q). destruct (tx_type_some _ _ _ _ _ lossless _ red _ _ _ H2 T H3) as (ty & E & B).
    destruct (pos_coords t pos T P) as (row & col & -> & R & C).
    unfold encode_coeff_br. rewrite E. cbn [bind]. rewrite br_ctx_val by assumption. cbn [bind]. unfold TX_32X32.
    pose proof (spec_coeff_br_range t ty row col (fun r c => mag_of (at_quant quant t r c))). sound.
  - pose proof (has_palette_y_ok f 0 0 r c s b H0 (inner_00 r c)) as X.
    pose proof (b2z_range (0 <? at_nb (fun m => nth 0 (m_palette m) 0) 0 (above_of f 0 r c))).
    pose proof (b2z_range (0 <? at_nb (fun m => nth 0 (m_palette m) 0) 0 (left_of f 0 r c))). use X.
  - unfold encode_has_palette_uv. pose proof (b2z_range (0 <? n)). sound.
  - unfold encode_palette_size_y_minus_2. sound.
  - unfold encode_palette_size_uv_minus_2. sound.
  - assert (X : exists ctx, encode_palette_color_idx_y s h n = Ok (palette_table_y n, [ctx], s) /\ 0 <= ctx < 5).
    { repeat (destruct H1 as [<-|H1]; [eexists; (split; [reflexivity|lia])|]). destruct H1. }
    destruct X as (ctx & X & B). eapply sound_intro; [exact X|apply palette_y_shape; assumption|path|lia].
  - assert (X : exists ctx, encode_palette_color_idx_uv s h n = Ok (palette_table_uv n, [ctx], s) /\ 0 <= ctx < 5).
    { repeat (destruct H1 as [<-|H1]; [eexists; (split; [reflexivity|lia])|]). destruct H1. }
    destruct X as (ctx & X & B). eapply sound_intro; [exact X|apply palette_uv_shape; assumption|path|lia].
  - unfold encode_delta_q_abs. sound.
  - unfold encode_delta_lf_abs. destruct (multi =? 0); sound.
  - unfold encode_comp_ref_type. rewrite get_above, get_left by assumption. cbn [bind]. pose proof (comp_ref_type_range (above_of f 0 r c) (left_of f 0 r c)). sound.
  - pose proof (comp_group_idx_ok f 0 0 r c s H0 (inner_00 r c)) as X.
    pose proof (spec_comp_group_idx_range _ _ (above_nb f 0 r c H0) (left_nb f 0 r c H0)). use X.
  - (* compound_idx *)
    assert (D : forall i, 0 <= i < len hints -> exists h d, idx hints i = Ok h /\ get_relative_dist h cur enable bits = Ok d /\ - 2 ^ 63 < d < 2 ^ 63).
    { intros i Hi. destruct (idx hints i) as [h| |] eqn:E.
      - assert (Hh : 0 <= h < 256). { rewrite Forall_forall in H4. apply H4. unfold idx in E. destruct (i <? 0); [discriminate|]. destruct (nth_error hints (Z.to_nat i)) eqn:N; [|discriminate]. injection E as ->. eapply nth_error_In; exact N. }
        exists h. destruct enable.
        + destruct (relative_dist_ok h cur bits) as (d & Ed & Bd & _); try lia. exists d. split; [reflexivity|]. split; [exact Ed|].
          assert (2 ^ (bits - 1) <= 2 ^ 7) by (apply Z.pow_le_mono_r; lia). lia.
        + exists 0. split; [reflexivity|]. split; [reflexivity|lia].
      - exfalso. unfold idx in E. destruct (Z.ltb_spec i 0); [lia|]. destruct (nth_error hints (Z.to_nat i)) eqn:N; [discriminate|]. apply nth_error_None in N. unfold len in Hi. lia.
      - exfalso. unfold idx in E. destruct (i <? 0); [discriminate|]. destruct (nth_error hints (Z.to_nat i)); discriminate. }
    destruct (D r0 H1) as (h0 & d0 & A1 & A2 & A3). destruct (D r1 H2) as (h1 & d1 & B1 & B2 & B3).
    pose proof (compound_idx_ok f 0 0 r c s hints cur r0 r1 h0 h1 d0 d1 enable bits H0 (inner_00 r c) A1 B1 A2 B2 A3 B3) as X.
    pose proof (spec_compound_idx_range d0 d1 _ _ (above_nb f 0 r c H0) (left_nb f 0 r c H0)). use X.
  - unfold encode_compound_type. sound.
  - destruct (size_group_ok b H0) as (g & G & Bg). unfold encode_interintra. rewrite G. cbn [bind]. sound.
  - destruct (size_group_ok b H0) as (g & G & Bg). unfold encode_interintra_mode. rewrite G. cbn [bind]. sound.
  - unfold encode_wedge_index. sound.
  - unfold encode_wedge_interintra. sound.
  - unfold encode_use_obmc. sound.
  - unfold encode_cfl_alpha_signs. sound.
  - unfold encode_cfl_alpha_u. destruct (Z.leb_spec 2 signs); [|lia]. sound.
  - unfold encode_cfl_alpha_v. destruct (Z.ltb_spec (signs mod 3) 2); [|lia]. rewrite chk_u64_ok by lia. cbn [bind]. sound.
  - unfold encode_use_wiener. sound.
  - unfold encode_use_sgrproj. sound.
  - unfold encode_restoration_type. sound.
Qed.

(** ** Sequences of calls *)

Lemma sound_list : forall ws, Forall sound ws -> exists es, ws = map (@Ok element) es /\ Forall in_range es.
Proof.
  induction 1 as [|w ws (e & -> & I) _ (es & -> & F)]; [exists []; split; [reflexivity|constructor]|].
  exists (e :: es). split; [reflexivity|]. constructor; assumption.
Qed.

(** ** Writers that cannot work *)

Lemma idx_not_hang : forall {A} (l : list A) i, idx l i <> Hang.
Proof. intros A l i. unfold idx. destruct (i <? 0); [discriminate|]. destruct (nth_error l (Z.to_nat i)); discriminate. Qed.
Lemma bind_not_hang : forall {A B} (x : res A) (k : A -> res B), x <> Hang -> (forall a, x = Ok a -> k a <> Hang) -> bind x k <> Hang.
Proof. intros A B [a| |] k H K; cbn [bind]; [apply K; reflexivity|discriminate|congruence]. Qed.
Ltac nh := repeat first
  [ apply bind_not_hang; [|intros ? _]
  | apply idx_not_hang
  | discriminate
  | match goal with |- context [if ?b then _ else _] => destruct b end ].
Lemma tx_type_not_hang : forall plane t x y f lossless i red uv r c, compute_tx_type plane t x y f lossless i red uv r c <> Hang.
Proof.
  intros. unfold compute_tx_type, get_tx_set, is_tx_type_in_set, idx2, get_mi, unwrap. nh;
    match goal with |- match ?o with Some _ => _ | None => _ end <> _ => destruct o; discriminate end.
Qed.

Lemma coeff_base_eob_panics : forall s t tc ptype plane x4 y4 pos ci f lossless i red uv r c quant,
  encode_coeff_base_eob s t tc ptype plane x4 y4 pos ci f lossless i red uv r c quant = Panic.
Proof.
  intros. unfold encode_coeff_base_eob, get_coeff_base_ctx.
  pose proof (tx_type_not_hang plane t x4 y4 f lossless i red uv r c) as N.
  destruct (compute_tx_type plane t x4 y4 f lossless i red uv r c) as [ty| |]; [|reflexivity|congruence]. cbn [bind].
  unfold base_ctx.
  pose proof (@idx_not_hang Z adjusted_tx_size t). destruct (idx adjusted_tx_size t) as [adj| |]; [|reflexivity|congruence]. cbn [bind].
  pose proof (@idx_not_hang Z tx_width_log2 adj). destruct (idx tx_width_log2 adj) as [bwl| |]; [|reflexivity|congruence]. cbn [bind]. cbv zeta.
  pose proof (@idx_not_hang Z tx_height adj). destruct (idx tx_height adj) as [h| |]; [|reflexivity|congruence]. cbn [bind].
  unfold SIG_COEF_CONTEXTS. destruct (ci =? 0); [reflexivity|]. destruct (ci <=? _); [reflexivity|]. destruct (ci <=? _); reflexivity.
Qed.

(** DC signs: 1 a negative, 2 a positive DC coefficient. *)
Definition dc_value (v : Z) : Z := if v =? 1 then -1 else if v =? 2 then 1 else 0.
Definition dc_count (plane : Z) (f : frame) (u l : option mi) (w4 h4 x4 y4 : Z) : Z :=
  inside w4 x4 (f_mi_cols f / 2 ^ b2z ((0 <? plane) && f_subx f)) * dc_value (dcs plane u) +
  inside h4 y4 (f_mi_rows f / 2 ^ b2z ((0 <? plane) && f_suby f)) * dc_value (dcs plane l).
Lemma iter_dc : forall v n acc, Nat.iter n (fun a => dc_step a v) acc = acc + Z.of_nat n * dc_value v.
Proof.
  intros v n acc. induction n as [|n IH]; [cbn; lia|]. change (dc_step (Nat.iter n (fun a => dc_step a v) acc) v = acc + Z.of_nat (S n) * dc_value v).
  rewrite IH. unfold dc_step, dc_value. destruct (v =? 1), (v =? 2); lia.
Qed.
Lemma dc_sign_val : forall ptype f plane r0 c0 r c w4 h4 x4 y4, frame_ok f r c -> inner r0 c0 r c -> 0 <= plane <= 2 ->
  0 <= w4 <= 16 -> 0 <= h4 <= 16 -> 0 <= x4 -> 0 <= y4 ->
  let d := dc_count plane f (above_of f r0 r c) (left_of f c0 r c) w4 h4 x4 y4 in
  encode_dc_sign ptype f plane r c w4 h4 x4 y4 =
  Ok ("dc_sign", [0; ptype; match Z.compare d 0 with Lt => 1 | Eq => 0 | Gt => 2 end], d).
Proof.
  intros ptype f plane r0 c0 r c w4 h4 x4 y4 F I P W H X Y d. unfold encode_dc_sign.
  assert (EX : (if 0 <? plane then Z.shiftr (f_mi_cols f) (b2z (f_subx f)) else f_mi_cols f) = f_mi_cols f / 2 ^ b2z ((0 <? plane) && f_subx f)).
  { destruct (0 <? plane); cbn [andb]; [apply Z.shiftr_div_pow2; destruct (f_subx f); cbn; lia|]. cbn. symmetry. apply Z.div_1_r. }
  assert (EY : (if 0 <? plane then Z.shiftr (f_mi_rows f) (b2z (f_suby f)) else f_mi_rows f) = f_mi_rows f / 2 ^ b2z ((0 <? plane) && f_suby f)).
  { destruct (0 <? plane); cbn [andb]; [apply Z.shiftr_div_pow2; destruct (f_suby f); cbn; lia|]. cbn. symmetry. apply Z.div_1_r. }
  cbv zeta. rewrite EX, EY. clear EX EY. unfold d, dc_count.
  destruct (nbrs _ _ _ _ _ F I) as (u & l & -> & -> & Eu & El & Nu & Nl). rewrite Eu, El.
  destruct (dc_ok u plane Nu P) as [Du Qu]. destruct (dc_ok l plane Nl P) as [Dl Ql]. fold (dcs plane u) in *. fold (dcs plane l) in *.
  rewrite Du, Dl. rewrite nb_loop_inside by lia. cbn [bind]. rewrite nb_loop_inside by lia. cbn [bind].
  rewrite !iter_dc. rewrite (Z2Nat.id w4), (Z2Nat.id h4) by lia. rewrite !Z.add_0_r, Z.add_0_l.
  set (a := inside w4 x4 _). set (b := inside h4 y4 _). assert (0 <= a <= 16) by (unfold a, inside; lia). assert (0 <= b <= 16) by (unfold b, inside; lia).
  rewrite !Z2Nat.id by lia.
  assert (V : forall v, -1 <= dc_value v <= 1) by (intros v; unfold dc_value; destruct (v =? 1), (v =? 2); lia).
  pose proof (V (dcs plane u)). pose proof (V (dcs plane l)). set (p := dc_value (dcs plane u)) in *. set (q := dc_value (dcs plane l)) in *.
  set (e := a * p + b * q). assert (-32 <= e <= 32) by (unfold e; nia). clearbody e.
  unfold as_i32. rewrite Z.mod_small by lia. do 5 f_equal; [|lia].
  destruct (Z.compare_spec e 0), (Z.ltb_spec e 0), (Z.ltb_spec 0 e); try lia; reflexivity.
Qed.
Lemma dc_sign_sound_iff : forall ptype f plane r0 c0 r c w4 h4 x4 y4, frame_ok f r c -> inner r0 c0 r c -> 0 <= plane <= 2 -> 0 <= ptype <= 1 ->
  0 <= w4 <= 16 -> 0 <= h4 <= 16 -> 0 <= x4 -> 0 <= y4 ->
  (sound (encode_dc_sign ptype f plane r c w4 h4 x4 y4) <->
   0 <= dc_count plane f (above_of f r0 r c) (left_of f c0 r c) w4 h4 x4 y4 <= 1).
Proof.
  intros ptype f plane r0 c0 r c w4 h4 x4 y4 F I P PT W H X Y.
  pose proof (dc_sign_val ptype f plane r0 c0 r c w4 h4 x4 y4 F I P W H X Y) as E. cbv zeta in E.
  set (d := dc_count _ _ _ _ _ _ _ _) in *. split.
  - intros S. destruct (sound_elim _ _ _ _ [4; 2; 3]%nat 2%nat S E) as [_ B]; [vm_compute; reflexivity|lia].
  - intros B. eapply sound_intro; [exact E|vm_compute; reflexivity| |lia].
    assert (0 <= match d ?= 0 with Lt => 1 | Eq => 0 | Gt => 2 end < 3) by (destruct (d ?= 0); lia). path.
Qed.

(** Chroma modes. *)
Lemma uv_mode_cfl : forall s b sx sy, block_size b -> Z.max (Block_Width b) (Block_Height b) <= 32 ->
  encode_uv_mode s b false sx sy = Ok ("uv_mode_cfl_allowed", [s], s).
Proof.
  intros s b sx sy B H. unfold encode_uv_mode. cbn [bind negb]. rewrite (proj1 (block_width_ok b B)), (proj1 (block_height_ok b B)). cbn [bind].
  destruct (Z.leb_spec (Z.max (Block_Width b) (Block_Height b)) 32); [reflexivity|lia].
Qed.
Lemma uv_mode_sound_iff : forall s b sx sy, block_size b -> Z.max (Block_Width b) (Block_Height b) <= 32 -> 0 <= s < 14 ->
  (sound (encode_uv_mode s b false sx sy) <-> s <> 13).
Proof.
  intros s b sx sy B H S. pose proof (uv_mode_cfl s b sx sy B H) as E. split.
  - intros X. destruct (sound_elim _ _ _ _ [13]%nat 14%nat X E) as [P _]; [vm_compute; reflexivity|]. inversion P; subst. lia.
  - intros N. use E.
Qed.

(** Chroma from luma. *)
Lemma cfl_u_val : forall s su sv, 0 <= su <= 2 -> 0 <= sv <= 2 -> su <> 0 ->
  encode_cfl_alpha_u s (3 * su + sv - 1) = Ok ("cfl_alpha", [spec_cfl_u su sv + 1], s).
Proof.
  intros s su sv A B N. unfold encode_cfl_alpha_u, spec_cfl_u. destruct (Z.leb_spec 2 (3 * su + sv - 1)); [|lia]. do 4 f_equal; lia.
Qed.
Lemma cfl_u_sound_iff : forall s su sv, 0 <= su <= 2 -> 0 <= sv <= 2 -> su <> 0 -> 0 <= s < 16 ->
  (sound (encode_cfl_alpha_u s (3 * su + sv - 1)) <-> ~ (su = 2 /\ sv = 2)).
Proof.
  intros s su sv A B N S. pose proof (cfl_u_val s su sv A B N) as E. unfold spec_cfl_u in E. split.
  - intros X. destruct (sound_elim _ _ _ _ [6]%nat 16%nat X E) as [P _]; [vm_compute; reflexivity|]. inversion P; subst. lia.
  - intros X. use E.
Qed.
Lemma cfl_v_val : forall s su sv, 0 <= su <= 2 -> 0 <= sv <= 2 -> sv <> 0 -> 0 < spec_cfl_v su sv ->
  encode_cfl_alpha_v s (3 * su + sv - 1) = Ok ("cfl_alpha", [spec_cfl_v su sv - 1], s).
Proof.
  intros s su sv A B N P. unfold encode_cfl_alpha_v, spec_cfl_v in *.
  assert (E : (3 * su + sv - 1) mod 3 = sv - 1) by lia. assert (D : (3 * su + sv - 1) / 3 = su) by lia. rewrite E, D.
  destruct (Z.ltb_spec (sv - 1) 2); [|lia]. rewrite chk_u64_ok by lia. reflexivity.
Qed.
Lemma cfl_v_panics : forall s, encode_cfl_alpha_v s (3 * 0 + 1 - 1) = Panic.
Proof. reflexivity. Qed.

(** Transform types. *)
Lemma intra_tx_type_sound_iff : forall ty set t y, 0 <= ty < 16 -> 0 <= t < 19 -> 0 <= y < 13 ->
  Z.min (Tx_Width t) (Tx_Height t) < 64 -> (set = 1 \/ set = 2) -> forall fm,
  (sound (encode_intra_tx_type ty set t false fm y) <-> ty < if set =? 1 then 7 else 5).
Proof.
  intros ty set t y TY T Y L S fm. unfold encode_intra_tx_type. cbn [bind].
  destruct (sqr_sizes t T) as (a & b & E1 & E2 & AB & B4 & P1 & P2). rewrite E1. cbn [bind].
  assert (A : a <= 3). { destruct (Z.eq_dec a 4) as [->|]; [|lia]. rewrite <- P1 in L. vm_compute in L. discriminate. }
  destruct S as [->| ->]; cbn [Z.eqb TX_SET_INTRA_1 Pos.eqb]; split; intros X.
  - destruct (sound_elim _ _ _ _ [4; 13]%nat 7%nat X eq_refl) as [_ B]; [vm_compute; reflexivity|lia].
  - sound.
  - destruct (sound_elim _ _ _ _ [4; 13]%nat 5%nat X eq_refl) as [_ B]; [vm_compute; reflexivity|lia].
  - sound.
Qed.

(** A new frame: nothing has been stored, so lookups of the current block panic. *)
Lemma new_mis_cell : forall w h r c sx sy rows cols, cell (mkFr (new_mis w h) rows cols sx sy) r c = None.
Proof.
  intros. unfold cell, new_mis. cbn [f_mis]. destruct (nth_error (repeat (repeat (@None mi) (Z.to_nat (w / 4))) (Z.to_nat (h / 4))) (Z.to_nat r)) as [row|] eqn:E; [|reflexivity].
  apply nth_error_In, repeat_spec in E. subst row. destruct (nth_error (repeat (@None mi) (Z.to_nat (w / 4))) (Z.to_nat c)) as [o|] eqn:E2; [|reflexivity].
  apply nth_error_In, repeat_spec in E2. exact E2.
Qed.
Lemma new_frame_interp_panics : forall w h rows cols sx sy s r c dir,
  encode_interp_filter s (mkFr (new_mis w h) rows cols sx sy) r c dir = Panic.
Proof.
  intros. unfold encode_interp_filter. pose proof (new_mis_cell w h r c sx sy rows cols) as N. unfold get_mi, cell, idx in *. cbn [f_mis] in *.
  destruct (r <? 0); [reflexivity|]. destruct (nth_error (new_mis w h) (Z.to_nat r)) as [row|]; [|reflexivity]. cbn [bind].
  destruct (c <? 0); [reflexivity|]. destruct (nth_error row (Z.to_nat c)) as [o|]; [|reflexivity]. subst o. reflexivity.
Qed.
(** frame.rs 383-391: the number of 4x4 columns and rows. *)
Lemma new_frame_row_panics : forall w h rows cols sx sy s r c, 0 <= h -> h / 4 < r ->
  encode_skip s (mkFr (new_mis w h) rows cols sx sy) r c = Panic.
Proof.
  intros w h rows cols sx sy s r c Hh Hr. unfold encode_skip, nb_sum, get_above_mi, get_mi. destruct (Z.eqb_spec r 0); [lia|].
  assert (E : idx (f_mis (mkFr (new_mis w h) rows cols sx sy)) (r - 1) = Panic).
  { unfold idx. cbn [f_mis]. destruct (Z.ltb_spec (r - 1) 0); [reflexivity|].
    destruct (nth_error (new_mis w h) (Z.to_nat (r - 1))) eqn:N; [|reflexivity]. exfalso.
    assert (X : (Z.to_nat (r - 1) < List.length (new_mis w h))%nat) by (apply nth_error_Some; rewrite N; discriminate).
    unfold new_mis in X. rewrite repeat_length in X. lia. }
  rewrite E. reflexivity.
Qed.

(** ** Elements whose CDF depends on the block or the call only *)
Lemma size_group_ok : forall b, block_size b -> idx size_group b = Ok (spec_size_group b).
Proof.
  intros b B. assert (H : forallb (fun b => match idx size_group b with Ok x => x =? spec_size_group b | _ => false end) (map Z.of_nat (seq 0 22)) = true)
    by (vm_compute; reflexivity).
  rewrite forallb_forall in H. specialize (H b). destruct (idx size_group b) as [x| |].
  - f_equal. apply Z.eqb_eq, H. apply in_map_iff. exists (Z.to_nat b). unfold block_size in B. split; [lia|]. apply in_seq. lia.
  - discriminate H. apply in_map_iff. exists (Z.to_nat b). unfold block_size in B. split; [lia|]. apply in_seq. lia.
  - discriminate H. apply in_map_iff. exists (Z.to_nat b). unfold block_size in B. split; [lia|]. apply in_seq. lia.
Qed.
Lemma mode_context_ok : forall m, 0 <= m < 13 -> idx intra_mode_context m = Ok (spec_mode_context m).
Proof.
  intros m M. assert (C : m = 0 \/ m = 1 \/ m = 2 \/ m = 3 \/ m = 4 \/ m = 5 \/ m = 6 \/ m = 7 \/ m = 8 \/ m = 9 \/ m = 10 \/ m = 11 \/ m = 12) by lia.
  repeat (destruct C as [->|C]; [reflexivity|]). subst. reflexivity.
Qed.
Lemma compound_mode_ok : forall s a b, 0 <= a < 6 -> 0 <= b -> encode_compound_mode s a b = Ok ("compound_mode", [spec_compound_mode a b], s).
Proof.
  intros s a b A B. unfold encode_compound_mode, spec_compound_mode. rewrite shiftr_div by lia. change (2 ^ 1) with 2.
  assert (C : a / 2 = 0 \/ a / 2 = 1 \/ a / 2 = 2) by lia.
  assert (D : Z.min b 4 = 0 \/ Z.min b 4 = 1 \/ Z.min b 4 = 2 \/ Z.min b 4 = 3 \/ Z.min b 4 = 4) by lia.
  destruct C as [->|[->| ->]]; destruct D as [->|[->|[->|[->| ->]]]]; reflexivity.
Qed.
Lemma color_context_ok : forall table s h n ctx, spec_color_context h = Some ctx -> encode_palette_color table s h n = Ok (table n, [ctx], s).
Proof.
  intros table s h n ctx H. unfold encode_palette_color.
  assert (C : h = 2 \/ h = 5 \/ h = 6 \/ h = 7 \/ h = 8).
  { unfold spec_color_context in H. destruct h as [|p|p]; try discriminate. do 4 (destruct p as [p|p|]; try discriminate; auto 6). }
  destruct C as [->|[->|[->|[->| ->]]]]; injection H as <-; reflexivity.
Qed.
Lemma color_context_none : forall table s h n, 0 <= h <= 8 -> spec_color_context h = None -> encode_palette_color table s h n = Panic.
Proof.
  intros table s h n H N. assert (C : h = 0 \/ h = 1 \/ h = 2 \/ h = 3 \/ h = 4 \/ h = 5 \/ h = 6 \/ h = 7 \/ h = 8) by lia.
  repeat (destruct C as [->|C]; [first [discriminate N|reflexivity]|]). subst. discriminate N.
Qed.

Lemma coef_set : forall w name i path s q,
  In name ["txb_skip"; "eob_pt_16"; "eob_pt_32"; "eob_pt_64"; "eob_pt_128"; "eob_pt_256"; "eob_pt_512"; "eob_pt_1024"; "eob_extra"; "dc_sign"; "coeff_base_eob"; "coeff_base"; "coeff_br"] ->
  legal w -> w = Ok (name, i :: path, s) -> 0 <= q < 256 -> (i = spec_coef_set q <-> q <= 20).
Proof.
  intros w name i path s q N L E Q.
  assert (I : i = 0).
  { destruct L; try (unfold encode_intra_frame_y_mode, encode_y_mode, encode_uv_mode, encode_angle_delta, encode_tx_depth, encode_seg_id_predicted, encode_drl_mode,
      encode_is_inter, encode_comp_mode, encode_skip_mode, encode_skip, encode_interp_filter, encode_compound_mode, encode_all_zero, encode_eob_pt, encode_eob_extra, encode_coeff_base, encode_coeff_br,
      encode_has_palette_y, encode_palette_color_idx_y, encode_palette_color_idx_uv, encode_palette_color, encode_comp_ref_type, encode_comp_group_idx, encode_compound_idx, encode_interintra, encode_interintra_mode,
      encode_cfl_alpha_u, encode_cfl_alpha_v, encode_delta_lf_abs, encode_segment_id in E);
    repeat (match type of E with
      | bind _ _ = Ok _ => apply bind_inv in E; let x := fresh "x" in let X := fresh "X" in destruct E as (x & X & E)
      | (if ?b then _ else _) = Ok _ => destruct b; try discriminate E
      end).
    all: try (injection E; intros; subst; reflexivity).
    all: try (injection E; intros; subst; cbn in N; exfalso; intuition discriminate).
    all: try (injection E; intros; subst; exfalso; unfold palette_table_y, palette_table_uv in N;
      repeat match type of N with context [if ?b then _ else _] => destruct b end; cbn in N; intuition discriminate).
    cbn [In] in H1; repeat (destruct H1 as [<-|H1]; [unfold encode_comp_ref, encode_comp_ref_p1, encode_comp_ref_p2, encode_comp_bwdref, encode_comp_bwdref_p1,
      encode_single_ref_p1, encode_single_ref_p2, encode_single_ref_p3, encode_single_ref_p4, encode_single_ref_p5, encode_single_ref_p6, encode_uni_comp_ref,
      encode_uni_comp_ref_p1, encode_uni_comp_ref_p2, count_ctx in E; apply bind_inv in E; destruct E as (x & _ & E); apply bind_inv in E; destruct E as (y & _ & E);
      injection E; intros; subst; exfalso; cbn in N; intuition discriminate|]); destruct H1. }
  subst i. unfold spec_coef_set. destruct (Z.leb_spec q 20), (Z.leb_spec q 60), (Z.leb_spec q 120); lia.
Qed.
