From Coq Require Import String ZArith List Lia Bool.
From Coq Require Import ZifyBool ZifyNat.
From Verif Require Import Base BaseProofs UtilModel RangeCoderModel SessionModel BlockTables CdfTables CdfTableSpec GeomModel
  ElementModel ContextModel ContextSpec ContextRunProofs ContextProofs.
Import ListNotations.
Open Scope string_scope.
Open Scope list_scope.
Open Scope Z_scope.
Ltac Zify.zify_post_hook ::= Z.div_mod_to_equations.

(** ** Coefficient neighbourhoods *)

Lemma coded_size : forall t, 0 <= t < 19 ->
  exists adj bwl, idx adjusted_tx_size t = Ok adj /\ idx tx_width_log2 adj = Ok bwl /\ 0 <= bwl <= 5 /\ 2 ^ bwl = coded_width t /\
    idx tx_width adj = Ok (coded_width t) /\ idx tx_height adj = Ok (coded_height t) /\ 4 <= coded_width t <= 32 /\ 4 <= coded_height t <= 32.
Proof.
  intros t H.
  set (P := fun t => match idx adjusted_tx_size t with
            | Ok adj => match idx tx_width_log2 adj, idx tx_width adj, idx tx_height adj with
               | Ok bwl, Ok w, Ok h => (0 <=? bwl) && (bwl <=? 5) && (2 ^ bwl =? coded_width t) && (w =? coded_width t) && (h =? coded_height t)
                     && (4 <=? w) && (w <=? 32) && (4 <=? h) && (h <=? 32)
               | _, _, _ => false end
            | _ => false end).
  assert (X : P t = true) by (apply (forall_below 19 P); [vm_compute; reflexivity|exact H]). unfold P in X.
  destruct (idx adjusted_tx_size t) as [adj| |]; try discriminate.
  destruct (idx tx_width_log2 adj) as [bwl| |] eqn:E1; try discriminate. destruct (idx tx_width adj) as [w| |] eqn:E2; try discriminate.
  destruct (idx tx_height adj) as [h| |] eqn:E3; try discriminate.
  repeat rewrite andb_true_iff in X. rewrite !Z.leb_le, !Z.eqb_eq in X.
  exists adj, bwl. destruct X as ((((((((A & B) & C) & D) & E) & F) & G) & I) & J). subst w h.
  repeat (split; [first [reflexivity|assumption|lia]|]). lia.
Qed.

Definition pr (d : Z * Z) : list Z := [fst d; snd d].

(** The coefficients of a transform block in raster order. *)
Definition at_quant (quant : list Z) (t r c : Z) : Z := nth (Z.to_nat (r * coded_width t + c)) quant 0.

Lemma sum_mag_ok : forall (W : Z -> Z) weight quant t bwl row col,
  2 ^ bwl = coded_width t -> 0 <= bwl -> 4 <= coded_width t -> 0 <= row -> 0 <= col ->
  coded_width t * coded_height t <= len quant ->
  (forall x, In x quant -> weight x = Ok (W x)) ->
  forall nbrs mag, Forall (fun d => 0 <= fst d /\ 0 <= snd d) nbrs ->
  sum_mag (map pr nbrs) row col bwl (coded_width t) (coded_height t) quant weight mag =
  Ok (mag + fold_right Z.add 0 (map (fun d => let r := row + fst d in let c := col + snd d in
       if (r <? coded_height t) && (c <? coded_width t) then W (at_quant quant t r c) else 0) nbrs)).
Proof.
  intros W weight quant t bwl row col E HB Hw Hr Hc HL HW. induction nbrs as [|[dr dc] nbrs IH]; intros mag F.
  - cbn. f_equal. lia.
  - inversion F as [|? ? [A B] F']; subst. cbn [fst snd] in A, B. cbn [map sum_mag pr fst snd fold_right].
    change (idx (pr (dr, dc)) 0) with (Ok dr). change (idx (pr (dr, dc)) 1) with (Ok dc). cbn [bind]. cbv zeta. cbv zeta in IH.
    destruct (Z.ltb_spec (row + dr) (coded_height t)), (Z.ltb_spec (col + dc) (coded_width t)); cbn [andb];
      try (rewrite IH by exact F'; f_equal; lia).
    rewrite Z.shiftl_mul_pow2 by exact HB. rewrite E.
    assert (R : 0 <= (row + dr) * coded_width t + (col + dc) < len quant) by nia.
    destruct (idx quant ((row + dr) * coded_width t + (col + dc))) as [q| |] eqn:Q.
    + cbn [bind]. assert (Eq : q = at_quant quant t (row + dr) (col + dc)).
      { unfold at_quant. unfold idx in Q. destruct (Z.ltb_spec ((row + dr) * coded_width t + (col + dc)) 0); [lia|].
        destruct (nth_error quant _) eqn:N; [|discriminate]. injection Q as ->. symmetry. apply nth_error_nth. exact N. }
      assert (I : In q quant).
      { unfold idx in Q. destruct (_ <? 0); [discriminate|]. destruct (nth_error quant _) eqn:N; [|discriminate]. injection Q as ->. eapply nth_error_In; exact N. }
      rewrite (HW q I). cbn [bind]. rewrite IH by exact F'. rewrite <- Eq. f_equal. lia.
    + exfalso. unfold idx in Q. destruct (Z.ltb_spec ((row + dr) * coded_width t + (col + dc)) 0); [lia|].
      destruct (nth_error quant _) eqn:N; [discriminate|]. apply nth_error_None in N. unfold len in R. lia.
    + exfalso. unfold idx in Q. destruct (_ <? 0); [discriminate|]. destruct (nth_error quant _); discriminate.
Qed.

Lemma class_ok : forall ty, 0 <= ty < 16 -> get_tx_class ty = tx_class ty /\ 0 <= tx_class ty < 3.
Proof.
  intros ty H. set (P := fun ty => (get_tx_class ty =? tx_class ty) && (0 <=? tx_class ty) && (tx_class ty <? 3)).
  assert (X : P ty = true) by (apply (forall_below 16 P); [vm_compute; reflexivity|exact H]). unfold P in X. lia.
Qed.
Lemma base_offsets : forall k, 0 <= k < 3 -> idx sig_ref_diff_offset k = Ok (map pr (base_nbrs k)).
Proof. intros k H. assert (k = 0 \/ k = 1 \/ k = 2) as [->|[->| ->]] by lia; reflexivity. Qed.
Lemma br_offsets : forall k, 0 <= k < 3 -> idx mag_ref_offset_with_tx_class k = Ok (map pr (br_nbrs k)).
Proof. intros k H. assert (k = 0 \/ k = 1 \/ k = 2) as [->|[->| ->]] by lia; reflexivity. Qed.
Lemma base_nbrs_pos : forall k, Forall (fun d => 0 <= fst d /\ 0 <= snd d) (base_nbrs k).
Proof. intros k. unfold base_nbrs. destruct (k =? 0), (k =? 1); repeat constructor; cbn; lia. Qed.
Lemma br_nbrs_pos : forall k, Forall (fun d => 0 <= fst d /\ 0 <= snd d) (br_nbrs k).
Proof. intros k. unfold br_nbrs. destruct (k =? 0), (k =? 1); repeat constructor; cbn; lia. Qed.

Definition base_off (t row col : Z) : Z :=
  if (Tx_Width t <? Tx_Height t) && (row <? 2) then 11
  else if (Tx_Height t <? Tx_Width t) && (col <? 2) then 16
  else if row + col <? 2 then 1
  else if row + col <? 4 then 6
  else 21.
Lemma base_off_ok : forall t row col, 0 <= t < 19 -> 0 <= row < coded_height t -> 0 <= col < coded_width t -> ~ (row = 0 /\ col = 0) ->
  idx3 coeff_base_ctx_offset t (Z.min row 4) (Z.min col 4) = Ok (base_off t row col).
Proof.
  intros t row col T R C N.
  set (P := fun t => forallb (fun r => forallb (fun c => ((r =? 0) && (c =? 0)) || (coded_height t <=? r) || (coded_width t <=? c) ||
     match idx3 coeff_base_ctx_offset t r c with Ok v => v =? base_off t r c | _ => false end) (map Z.of_nat (seq 0 5))) (map Z.of_nat (seq 0 5))).
  assert (X : P t = true) by (apply (forall_below 19 P); [vm_compute; reflexivity|exact T]).
  unfold P in X. rewrite forallb_forall in X. specialize (X (Z.min row 4) (below 5 (Z.min row 4) ltac:(change (Z.of_nat 5) with 5; clear - R C; lia))).
  rewrite forallb_forall in X. specialize (X (Z.min col 4) (below 5 (Z.min col 4) ltac:(change (Z.of_nat 5) with 5; clear - R C; lia))).
  destruct (Z.leb_spec (coded_height t) (Z.min row 4)); [lia|]. destruct (Z.leb_spec (coded_width t) (Z.min col 4)); [lia|].
  destruct (Z.eqb_spec (Z.min row 4) 0), (Z.eqb_spec (Z.min col 4) 0); cbn [andb orb] in X; try lia;
  (destruct (idx3 coeff_base_ctx_offset t (Z.min row 4) (Z.min col 4)) as [v| |]; [|discriminate|discriminate]);
  apply Z.eqb_eq in X; subst v; f_equal; unfold base_off;
  (replace (Z.min row 4 <? 2) with (row <? 2) by lia); (replace (Z.min col 4 <? 2) with (col <? 2) by lia);
  (replace (Z.min row 4 + Z.min col 4 <? 2) with (row + col <? 2) by lia);
  (replace (Z.min row 4 + Z.min col 4 <? 4) with (row + col <? 4) by lia); reflexivity.
Qed.

(** Positions. *)
Lemma pos_split : forall bwl w row col, 2 ^ bwl = w -> 0 <= bwl -> 0 <= col < w -> 0 <= row ->
  Z.shiftr (row * w + col) bwl = row /\ row * w + col - Z.shiftl row bwl = col.
Proof.
  intros bwl w row col E HB HC HR. rewrite Z.shiftr_div_pow2, Z.shiftl_mul_pow2 by exact HB. rewrite E.
  split; [|lia]. rewrite Z.div_add_l by lia. rewrite Z.div_small by lia. lia.
Qed.

Lemma shiftr_1 : forall x, Z.shiftr x 1 = x / 2.
Proof. intros x. rewrite Z.shiftr_div_pow2 by lia. reflexivity. Qed.

Lemma base_ctx_ok : forall t ty row col ci quant, 0 <= t < 19 -> 0 <= ty < 16 ->
  0 <= row < coded_height t -> 0 <= col < coded_width t ->
  coded_width t * coded_height t <= len quant -> Forall (fun x => - 2 ^ 63 < x < 2 ^ 63) quant ->
  base_ctx t ty (row * coded_width t + col) ci false quant = Ok (spec_coeff_base t ty row col (at_quant quant t)).
Proof.
  intros t ty row col ci quant T TY R C L Q. unfold base_ctx.
  destruct (coded_size t T) as (adj & bwl & E1 & E2 & B & E3 & _ & E4 & Bw & Bh). rewrite E1. cbn [bind]. rewrite E2. cbn [bind].
  rewrite E4. cbn [bind]. cbv zeta. rewrite Z.shiftl_1_l, E3.
  destruct (pos_split bwl (coded_width t) row col E3 ltac:(lia) C ltac:(lia)) as [P1 P2]. rewrite P1, P2.
  destruct (class_ok ty TY) as [K KB]. rewrite K. rewrite (base_offsets _ KB). cbn [bind].
  rewrite (sum_mag_ok (fun x => Z.min (Z.abs x) 3)) with (t := t);
    [|exact E3|lia|lia|lia|lia|exact L| |apply base_nbrs_pos].
  2:{ intros x Hx. rewrite Forall_forall in Q. rewrite abs_i64_ok by (apply Q; exact Hx). reflexivity. }
  cbn [bind]. rewrite Z.add_0_l. unfold spec_coeff_base, nbr_sum. cbv zeta. rewrite shiftr_1.
  set (m := fold_right _ _ _). rewrite (Z.min_comm 4).
  unfold TX_CLASS_2D, TX_CLASS_VERT. destruct (Z.eqb_spec (tx_class ty) 0) as [K0|K0].
  - destruct (Z.eqb_spec row 0), (Z.eqb_spec col 0); cbn [andb]; try reflexivity;
      (rewrite base_off_ok by lia); cbn [bind]; unfold base_off; repeat match goal with |- context [if ?b then _ else _] => destruct b end; reflexivity.
  - set (i := if tx_class ty =? 2 then row else col). assert (Hi : 0 <= i) by (unfold i; destruct (tx_class ty =? 2); lia).
    assert (X : idx coeff_base_pos_ctx_offset (Z.min i 2) = Ok (26 + 5 * Z.min 2 i)).
    { assert (i = 0 \/ i = 1 \/ 2 <= i) as [->|[->|Y]] by lia; [reflexivity|reflexivity|].
      rewrite Z.min_r, Z.min_l by lia. reflexivity. }
    rewrite X. cbn [bind]. f_equal. lia.
Qed.

Lemma br_ctx_ok : forall t ty row col quant, 0 <= t < 19 -> 0 <= ty < 16 ->
  0 <= row < coded_height t -> 0 <= col < coded_width t ->
  coded_width t * coded_height t <= len quant -> Forall (fun x => 0 <= x < 2 ^ 63) quant ->
  br_ctx t ty (row * coded_width t + col) quant = Ok (spec_coeff_br t ty row col (at_quant quant t)).
Proof.
  intros t ty row col quant T TY R C L Q. unfold br_ctx.
  destruct (coded_size t T) as (adj & bwl & E1 & E2 & B & E3 & E5 & E4 & Bw & Bh). rewrite E1. cbn [bind]. rewrite E2. cbn [bind].
  rewrite E5, E4. cbn [bind]. cbv zeta. rewrite Z.shiftl_1_l, E3.
  destruct (pos_split bwl (coded_width t) row col E3 ltac:(lia) C ltac:(lia)) as [P1 P2]. rewrite P1, P2.
  destruct (class_ok ty TY) as [K KB]. rewrite K. rewrite (br_offsets _ KB). cbn [bind].
  rewrite (sum_mag_ok (fun x => Z.min (Z.abs x) 15)) with (t := t);
    [|exact E3|lia|lia|lia|lia|exact L| |apply br_nbrs_pos].
  2:{ intros x Hx. rewrite Forall_forall in Q. specialize (Q x Hx). unfold as_u64. rewrite Z.mod_small by lia. rewrite Z.abs_eq by lia. reflexivity. }
  cbn [bind]. rewrite Z.add_0_l. unfold spec_coeff_br, nbr_sum. cbv zeta. rewrite shiftr_1.
  set (m := fold_right _ _ _). rewrite (Z.min_comm 6). f_equal.
  replace (row * coded_width t + col =? 0) with ((row =? 0) && (col =? 0)) by (destruct (Z.eqb_spec (row * coded_width t + col) 0); nia).
  destruct ((row =? 0) && (col =? 0)); [reflexivity|]. destruct (tx_class ty =? 0); [reflexivity|]. destruct (tx_class ty =? 1); reflexivity.
Qed.

(** Ranges of the specification's contexts. *)
Lemma nbr_sum_pos : forall t row col top nbrs q, 0 <= top -> 0 <= nbr_sum t row col top nbrs q.
Proof.
  intros t row col top nbrs q H. unfold nbr_sum. induction nbrs as [|d l IH]; cbn [map fold_right]; [lia|].
  cbv zeta. destruct (_ && _); lia.
Qed.
Lemma spec_coeff_base_range : forall t ty row col q, 0 <= ty < 16 -> 0 <= row -> 0 <= col -> 0 <= spec_coeff_base t ty row col q < 42.
Proof.
  intros t ty row col q TY R C. unfold spec_coeff_base. cbv zeta. pose proof (nbr_sum_pos t row col 3 (base_nbrs (tx_class ty)) q ltac:(lia)) as S.
  set (n := nbr_sum _ _ _ _ _ _) in *. set (m := Z.min 4 ((n + 1) / 2)). assert (0 <= m <= 4) by (unfold m; lia). clearbody m.
  repeat match goal with |- context [if ?b then _ else _] => destruct b end; lia.
Qed.
Lemma spec_coeff_br_range : forall t ty row col q, 0 <= spec_coeff_br t ty row col q < 21.
Proof.
  intros t ty row col q. unfold spec_coeff_br. cbv zeta. pose proof (nbr_sum_pos t row col 15 (br_nbrs (tx_class ty)) q ltac:(lia)) as S.
  set (n := nbr_sum _ _ _ _ _ _) in *. set (m := Z.min 6 ((n + 1) / 2)). assert (0 <= m <= 6) by (unfold m; lia). clearbody m.
  destruct ((row =? 0) && (col =? 0)); [lia|]. match goal with |- context [if ?b then m + 7 else _] => destruct b end; lia.
Qed.

(** ** Transform types *)

Lemma sqr_sizes : forall t, 0 <= t < 19 ->
  exists a b, idx tx_size_sqr t = Ok a /\ idx tx_size_sqr_up t = Ok b /\ 0 <= a <= b /\ b <= 4 /\
    2 ^ (a + 2) = Z.min (Tx_Width t) (Tx_Height t) /\ 2 ^ (b + 2) = Z.max (Tx_Width t) (Tx_Height t).
Proof.
  intros t H.
  set (P := fun t => match idx tx_size_sqr t, idx tx_size_sqr_up t with
      | Ok a, Ok b => (0 <=? a) && (a <=? b) && (b <=? 4) && (2 ^ (a + 2) =? Z.min (Tx_Width t) (Tx_Height t)) && (2 ^ (b + 2) =? Z.max (Tx_Width t) (Tx_Height t))
      | _, _ => false end).
  assert (X : P t = true) by (apply (forall_below 19 P); [vm_compute; reflexivity|exact H]). unfold P in X.
  destruct (idx tx_size_sqr t) as [a| |]; try discriminate. destruct (idx tx_size_sqr_up t) as [b| |]; try discriminate.
  repeat rewrite andb_true_iff in X. rewrite !Z.leb_le, !Z.eqb_eq in X. destruct X as ((((A & B) & C) & D) & E).
  exists a, b. repeat (split; [first [reflexivity|assumption|lia]|]). exact E.
Qed.

(** The set the code works with, as a list of transform types. *)
Definition code_types (t : Z) (is_inter reduced : bool) : list Z :=
  if is_inter then
    match spec_tx_set t true reduced with
    | 1 => [0]                                                  (* should be all sixteen *)
    | 2 => [0; 1; 2; 3; 4; 5; 6; 7; 8; 9; 10; 11; 12; 13; 14; 15] (* should be the twelve *)
    | 3 => [0; 1; 2; 3; 4; 5; 6; 7; 8; 9; 10; 11]                 (* should be the two *)
    | _ => [0]
    end
  else spec_set_types false (spec_tx_set t false reduced).

Lemma in_set_ok : forall t i red, 0 <= t < 19 ->
  exists set, get_tx_set t i red = Ok set /\
    forall ty, 0 <= ty < 16 -> is_tx_type_in_set set ty i = Ok (existsb (Z.eqb ty) (code_types t i red)).
Proof.
  intros t i red H.
  set (P := fun t => forallb (fun i : bool => forallb (fun red : bool =>
     match get_tx_set t i red with
     | Ok set => forallb (fun ty => match is_tx_type_in_set set ty i with
                                    | Ok b => Bool.eqb b (existsb (Z.eqb ty) (code_types t i red)) | _ => false end) (map Z.of_nat (seq 0 16))
     | _ => false end) [true; false]) [true; false]).
  assert (X : P t = true) by (apply (forall_below 19 P); [vm_compute; reflexivity|exact H]). unfold P in X.
  rewrite forallb_forall in X. specialize (X i ltac:(destruct i; cbn; tauto)). rewrite forallb_forall in X.
  specialize (X red ltac:(destruct red; cbn; tauto)). destruct (get_tx_set t i red) as [set| |]; try discriminate.
  exists set. split; [reflexivity|]. intros ty Hty. rewrite forallb_forall in X. specialize (X ty (below 16 ty Hty)).
  destruct (is_tx_type_in_set set ty i) as [b| |]; try discriminate. apply eqb_prop in X. subst. reflexivity.
Qed.

Definition code_tx_type (t : Z) (lossless is_inter reduced : bool) (ty : Z) : Z :=
  if lossless then 0 else if existsb (Z.eqb ty) (code_types t is_inter reduced) then ty else 0.

(** The mode info the code takes the transform type from. *)
Definition type_source (plane block_x block_y : Z) (f : frame) (is_inter : bool) (uv_mode r c : Z) (ty : Z) : Prop :=
  if plane =? 0 then exists m, cell f r c = Some m /\ m_tx_type m = ty
  else if is_inter then exists m, cell f (Z.max r (block_y * 2 ^ b2z (f_suby f))) (Z.max c (block_x * 2 ^ b2z (f_subx f))) = Some m /\ m_tx_type m = ty
  else nth_error mode_to_txfm (Z.to_nat uv_mode) = Some ty /\ 0 <= uv_mode.

Lemma get_mi_some : forall f i j m, 0 <= i -> 0 <= j -> cell f i j = Some m -> get_mi f i j = Ok (Some m).
Proof.
  intros f i j m Hi Hj H. unfold get_mi, cell in *. unfold idx. destruct (Z.ltb_spec i 0); [lia|].
  destruct (nth_error (f_mis f) (Z.to_nat i)) as [row|]; [|discriminate]. cbn [bind]. destruct (Z.ltb_spec j 0); [lia|].
  destruct (nth_error row (Z.to_nat j)) as [o|]; [|discriminate]. subst. reflexivity.
Qed.

Lemma large_dct : forall t ty lossless i red, 0 <= t < 19 -> 32 < Z.max (Tx_Width t) (Tx_Height t) -> code_tx_type t lossless i red ty = 0.
Proof.
  intros t ty lossless i red H L. unfold code_tx_type, code_types, spec_set_types, spec_tx_set. cbv zeta.
  destruct (Z.ltb_spec 32 (Z.max (Tx_Width t) (Tx_Height t))); [|lia]. destruct lossless; [reflexivity|].
  destruct i; cbn; destruct (Z.eqb_spec ty 0); cbn; congruence.
Qed.

Lemma compute_tx_type_ok : forall plane t x y f lossless i red uv r c ty, 0 <= t < 19 -> 0 <= ty < 16 -> 0 <= r -> 0 <= c ->
  type_source plane x y f i uv r c ty ->
  compute_tx_type plane t x y f lossless i red uv r c = Ok (code_tx_type t lossless i red ty).
Proof.
  intros plane t x y f lossless i red uv r c ty T TY R C S. unfold compute_tx_type.
  destruct (sqr_sizes t T) as (a & b & E1 & E2 & AB & B4 & P1 & P2). rewrite E2. cbn [bind].
  destruct lossless; cbn [orb]; [reflexivity|]. unfold TX_32X32.
  destruct (Z.ltb_spec 3 b).
  - rewrite large_dct; [reflexivity|exact T|]. rewrite <- P2. assert (b = 4) by lia. subst b. reflexivity.
  - destruct (in_set_ok t i red T) as (set & G & Q). rewrite G. cbn [bind].
    assert (Y : (if plane =? 0 then m <- get_mi f r c ;; m <- unwrap m ;; Ok (m_tx_type m)
       else if i then m <- get_mi f (Z.max r (Z.shiftl y (b2z (f_suby f)))) (Z.max c (Z.shiftl x (b2z (f_subx f)))) ;; m <- unwrap m ;; Ok (m_tx_type m)
       else idx mode_to_txfm uv) = Ok ty).
    { unfold type_source in S. destruct (plane =? 0).
      - destruct S as (m & Hm & Ht). rewrite (get_mi_some _ _ _ _ R C Hm). cbn [bind unwrap]. congruence.
      - destruct i.
        + destruct S as (m & Hm & Ht). rewrite !Z.shiftl_mul_pow2 by (destruct (f_suby f), (f_subx f); cbn; lia).
          rewrite (fun A B => get_mi_some _ _ _ _ A B Hm) by lia. cbn [bind unwrap]. congruence.
        + destruct S as [N U]. unfold idx. destruct (Z.ltb_spec uv 0); [lia|]. rewrite N. reflexivity. }
    cbv zeta. rewrite Y. cbn [bind]. rewrite (Q ty TY). cbn [bind]. unfold code_tx_type, DCT_DCT. reflexivity.
Qed.

Lemma code_tx_type_intra : forall t lossless red ty, code_tx_type t lossless false red ty = spec_tx_type t lossless false red ty.
Proof. reflexivity. Qed.
Lemma code_tx_type_inter_iff : forall t red ty, 0 <= t < 19 -> 0 <= ty < 16 ->
  (code_tx_type t false true red ty = spec_tx_type t false true red ty <->
   match spec_tx_set t true red with
   | 1 => ty = 0
   | 2 => ty <= 11
   | 3 => ty = 0 \/ ty = 9 \/ 12 <= ty
   | _ => True
   end).
Proof.
  intros t red ty T TY. unfold code_tx_type, spec_tx_type, code_types, spec_set_types.
  assert (S : spec_tx_set t true red = 0 \/ spec_tx_set t true red = 1 \/ spec_tx_set t true red = 2 \/ spec_tx_set t true red = 3).
  { unfold spec_tx_set. repeat match goal with |- context [if ?b then _ else _] => destruct b end; tauto. }
  destruct S as [->|[->|[->| ->]]]; cbn;
    repeat match goal with |- context [(ty =? ?k)] => destruct (Z.eqb_spec ty k); [subst ty; cbn; try lia|] end; cbn; try lia.
Qed.
Lemma code_tx_type_range : forall t l i red ty, 0 <= ty < 16 -> 0 <= code_tx_type t l i red ty < 16.
Proof. intros t l i red ty H. unfold code_tx_type. destruct l; [lia|]. destruct (existsb _ _); lia. Qed.
