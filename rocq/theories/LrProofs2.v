(** Proofs about what is written for a loop restoration unit. *)
From Coq Require Import ZArith List Bool Lia ZifyBool ZifyNat.
From Verif Require Import Base BaseProofs UtilModel RangeCoderModel BitCodecModel BitCodecProofs SeqProofs3 SessionModel BlockTables GeomModel TileModel ElementModel FrameParamModel
  SeqSpec SyntaxSpec ElementSpec TileSpec LrModel LrSpec LrProofs.
Import ListNotations.
Open Scope Z_scope.
Ltac Zify.zify_post_hook ::= Z.div_mod_to_equations.

(** Wiener units: the second borrow. *)
Lemma wiener_never plane row col u s es v : wiener_passes [0; 1] plane row col u s es <> Ok v.
Proof.
  assert (T : forall j js pass s es v, wiener_taps (j :: js) plane row col pass u s es <> Ok v).
  { intros j js pass s0 es0 v0 H. cbn [wiener_taps] in H.
    repeat match type of H with bind (borrow_mut _) _ = _ => discriminate H | bind _ _ = _ => apply bind_inv in H as (? & _ & H) end. }
  intros H. cbn [wiener_passes] in H. apply bind_inv in H as ([s1 js] & E & H).
  assert (J : exists j js', js = j :: js').
  { destruct (0 <? plane); [apply bind_inv in E as (? & _ & E)|]; injection E as _ <-; eauto. }
  destruct J as (j & js' & ->). apply bind_inv in H as (? & E1 & _). exact (T _ _ _ _ _ _ E1).
Qed.

Lemma wiener_unit_never typ plane row col u s es v :
  (typ = RESTORE_WIENER /\ u_wiener u = true) \/ (typ = RESTORE_SWITCHABLE /\ u_type u = RESTORE_WIENER) ->
  lr_unit typ plane row col u s es <> Ok v.
Proof.
  intros [[-> W]|[-> W]] H; unfold lr_unit in H; rewrite W in H; cbn [RESTORE_WIENER RESTORE_NONE RESTORE_SWITCHABLE RESTORE_SGRPROJ Z.eqb] in H; cbn in H;
    apply bind_inv in H as (? & _ & H); exact (wiener_never _ _ _ _ _ _ _ H).
Qed.

(** A unit with the filter off. *)
Lemma off_unit typ plane row col u s es s' es' :
  (typ = RESTORE_WIENER /\ u_wiener u = false) \/ (typ = RESTORE_SGRPROJ /\ u_sgrproj u = false) \/ (typ = RESTORE_SWITCHABLE /\ u_type u = RESTORE_NONE) ->
  lr_unit typ plane row col u s es = Ok (s', es') ->
  es' = es ++ (if typ =? RESTORE_SWITCHABLE then [] else [Raw 0]) /\ t_ref_xqd s' = t_ref_xqd s.
Proof.
  intros [[-> W]|[[-> W]|[-> W]]] H; unfold lr_unit in H; rewrite W in H; cbn in H;
    apply bind_inv in H as (? & _ & H); injection H as <- <-; split; cbn; rewrite ?app_nil_r; reflexivity.
Qed.

(** The code of a weight goes after what is there. *)
Lemma subexp_loop_frame fuel : forall es v num k i mk,
  subexp_bool_loop fuel es v num k i mk = (d <- subexp_bool_loop fuel [] v num k i mk ;; Ok (es ++ d)).
Proof.
  induction fuel as [|f IH]; intros es v num k i mk; [reflexivity|]. cbn [subexp_bool_loop].
  destruct (if 0 <? i then s <- chk_u64 (k + i) ;; chk_u64 (s - 1) else Ok k) as [b2| |]; cbn [bind]; try reflexivity.
  destruct (shift_ok 64 b2); cbn [bind]; try reflexivity.
  destruct (chk_u64 (3 * Z.shiftl 1 b2)) as [a3| |]; cbn [bind]; try reflexivity.
  destruct (chk_u64 (mk + a3)) as [lim| |]; cbn [bind]; try reflexivity.
  destruct (chk_u64 (v - mk)) as [tv| |]; cbn [bind]; try reflexivity.
  destruct (num <=? lim).
  - destruct (chk_u64 (num - mk)) as [m| |]; cbn [bind]; try reflexivity. destruct (encode_ns [] tv m); cbn [bind]; reflexivity.
  - destruct (tv <? Z.shiftl 1 b2); [reflexivity|].
    destruct (chk_u64 (i + 1)) as [i'| |]; cbn [bind]; try reflexivity. destruct (chk_u64 (mk + Z.shiftl 1 b2)) as [mk'| |]; cbn [bind]; try reflexivity.
    rewrite IH. rewrite (IH ([] ++ literal 1 1)). destruct (subexp_bool_loop f [] v num k i' mk'); cbn [bind]; try reflexivity.
    rewrite app_assoc. reflexivity.
Qed.

Lemma weight_frame es v low high k r :
  encode_signed_subexp_bool es v low high k r = (d <- encode_signed_subexp_bool [] v low high k r ;; Ok (es ++ d)).
Proof.
  unfold encode_signed_subexp_bool, encode_unsigned_subexp_bool, encode_subexp_bool.
  destruct (chk_i64 (v - low)); cbn [bind]; try reflexivity. destruct (chk_i64 (high - low)); cbn [bind]; try reflexivity.
  destruct (chk_i64 (r - low)); cbn [bind]; try reflexivity.
  destruct (as_u64 (Z.shiftl (as_u64 a1) 1) <=? as_u64 a0).
  - destruct (inverse_recenter (as_u64 a1) (as_u64 a)); cbn [bind]; try reflexivity. apply subexp_loop_frame.
  - destruct (chk_u64 (as_u64 a0 - 1)); cbn [bind]; try reflexivity. destruct (chk_u64 (a2 - as_u64 a)); cbn [bind]; try reflexivity.
    destruct (chk_u64 (a2 - as_u64 a1)); cbn [bind]; try reflexivity. destruct (inverse_recenter a4 a3); cbn [bind]; try reflexivity.
    apply subexp_loop_frame.
Qed.

(** A weight decoded by the standard's reader. *)
Definition weight_decoded (i v r : Z) : Prop :=
  exists bits, encode_signed_subexp_bool [] v (xqd_min i) (xqd_max i + 1) SGRPROJ_PRJ_SUBEXP_K r = Ok (map Half bits) /\
    forall k, rd_weight i r (bits ++ k) = Some (v, k).

Definition halves (es : list lev) : option (list Z) :=
  fold_right (fun e o => match e, o with Half b, Some l => Some (b :: l) | _, _ => None end) (Some []) es.
Lemma halves_some es : forall l, halves es = Some l -> es = map Half l.
Proof.
  induction es as [|e es IH]; intros l H; cbn in H; [injection H as <-; reflexivity|].
  destruct e; [discriminate|]. fold (halves es) in H. destruct (halves es) as [l'|]; [|discriminate]. injection H as <-. cbn. f_equal. auto.
Qed.
Lemma halves_map l : halves (map Half l) = Some l.
Proof. induction l as [|b l IH]; [reflexivity|]. cbn. fold (halves (map Half l)). rewrite IH. reflexivity. Qed.


(** More input changes nothing. *)
Lemma rd1_more q v q' k : rd1 q = Some (v, q') -> rd1 (q ++ k) = Some (v, q' ++ k).
Proof. destruct q; [discriminate|]. cbn. intros H. injection H as <- <-. reflexivity. Qed.
Lemma rd_ns_more n q v q' k : rd_ns n q = Some (v, q') -> rd_ns n (q ++ k) = Some (v, q' ++ k).
Proof.
  unfold rd_ns. intros H. destruct (rd (bit_width n - 1) q) as [[a q1]|] eqn:E; [|discriminate H]. cbn [obind] in H.
  rewrite (rd_app_more _ _ k _ _ E). cbn [obind].
  destruct (a <? 2 ^ Z.of_nat (bit_width n) - Z.pos n); [injection H as <- <-; reflexivity|].
  destruct (rd 1 q1) as [[b q2]|] eqn:E2; [|discriminate H]. cbn [obind] in H. rewrite (rd_app_more _ _ k _ _ E2). cbn [obind].
  injection H as <- <-. reflexivity.
Qed.
Lemma rd_subexp_more fuel : forall i mk num kk q v q' k, rd_subexp_bool_loop fuel i mk num kk q = Some (v, q') ->
  rd_subexp_bool_loop fuel i mk num kk (q ++ k) = Some (v, q' ++ k).
Proof.
  induction fuel as [|f IH]; intros i mk num kk q v q' k H; [discriminate H|]. cbn [rd_subexp_bool_loop] in *.
  set (b2 := if i =? 0 then kk else kk + i - 1) in *. destruct (num <=? mk + 3 * 2 ^ b2).
  - destruct (rd_ns (Z.to_pos (num - mk)) q) as [[a q1]|] eqn:E; [|discriminate H]. cbn [obind] in H.
    rewrite (rd_ns_more _ _ _ _ k E). cbn [obind]. injection H as <- <-. reflexivity.
  - destruct (rd1 q) as [[m q1]|] eqn:E; [|discriminate H]. cbn [obind] in H. rewrite (rd1_more _ _ _ k E). cbn [obind].
    destruct m; [apply IH; exact H|]. destruct (rd (Z.to_nat b2) q1) as [[a q2]|] eqn:E2; [|discriminate H]. cbn [obind] in H.
    rewrite (rd_app_more _ _ k _ _ E2). cbn [obind]. injection H as <- <-. reflexivity.
Qed.
Lemma rd_weight_more i r q v q' k : rd_weight i r q = Some (v, q') -> rd_weight i r (q ++ k) = Some (v, q' ++ k).
Proof.
  unfold rd_weight, rd_signed_subexp_bool. intros H.
  destruct (rd_subexp_bool_loop 65 0 0 (xqd_max i + 1 - xqd_min i) 4 q) as [[a q1]|] eqn:E; [|discriminate H]. cbn [obind] in H.
  rewrite (rd_subexp_more _ _ _ _ _ _ _ _ k E). cbn [obind].
  destruct (2 * (r - xqd_min i) <=? xqd_max i + 1 - xqd_min i); injection H as <- <-; reflexivity.
Qed.

Definition wdec (i v r : Z) : bool :=
  match encode_signed_subexp_bool [] v (xqd_min i) (xqd_max i + 1) SGRPROJ_PRJ_SUBEXP_K r with
  | Ok es => match halves es with
             | Some bits => match rd_weight i r bits with Some (v', []) => v' =? v | _ => false end
             | None => false end
  | _ => false
  end.
Lemma wdec_ok i v r : wdec i v r = true <-> weight_decoded i v r.
Proof.
  unfold wdec, weight_decoded. split.
  - destruct (encode_signed_subexp_bool [] v (xqd_min i) (xqd_max i + 1) SGRPROJ_PRJ_SUBEXP_K r) as [es| |]; try discriminate.
    destruct (halves es) as [bits|] eqn:E; [|discriminate]. destruct (rd_weight i r bits) as [[v' [|]]|] eqn:R; try discriminate.
    intros H. exists bits. rewrite (halves_some _ _ E). split; [reflexivity|]. intros k. apply Z.eqb_eq in H. subst v'.
    exact (rd_weight_more _ _ _ _ _ k R).
  - intros (bits & -> & R). rewrite halves_map. specialize (R []). rewrite app_nil_r in R. rewrite R. apply Z.eqb_refl.
Qed.

(** The weights that come back. [r] and [v] from the smallest value on. *)
Definition weight_good (r v : Z) : bool :=
  (r <=? 64) && (av1_inverse_recenter r v <? 32) && (av1_inverse_recenter r (av1_inverse_recenter r v) =? v).
Lemma weight_table : forallb (fun i => forallb (fun r => forallb (fun v =>
    Bool.eqb (wdec i (v + xqd_min i) (r + xqd_min i)) (weight_good r v)) (up_to 0 128)) (up_to 0 128)) [0; 1] = true.
Proof. vm_compute. reflexivity. Qed.

Lemma weight_iff i v r : i = 0 \/ i = 1 -> xqd_min i <= v <= xqd_max i -> xqd_min i <= r <= xqd_max i ->
  (weight_decoded i v r <-> r - xqd_min i <= 64 /\ av1_inverse_recenter (r - xqd_min i) (v - xqd_min i) < 32 /\
     av1_inverse_recenter (r - xqd_min i) (av1_inverse_recenter (r - xqd_min i) (v - xqd_min i)) = v - xqd_min i).
Proof.
  intros Hi Hv Hr. rewrite <- wdec_ok.
  assert (Ii : In i [0; 1]) by (destruct Hi as [-> | ->]; cbn; auto).
  assert (X : xqd_max i = xqd_min i + 127) by (destruct Hi as [-> | ->]; reflexivity).
  assert (Iv : In (v - xqd_min i) (up_to 0 128)) by (apply up_to_in; lia).
  assert (Ir : In (r - xqd_min i) (up_to 0 128)) by (apply up_to_in; lia).
  pose proof weight_table as T. rewrite forallb_forall in T. specialize (T i Ii). cbv beta in T.
  rewrite forallb_forall in T. specialize (T _ Ir). cbv beta in T.
  rewrite forallb_forall in T. specialize (T _ Iv). cbv beta in T. apply Bool.eqb_prop in T.
  rewrite !Z.sub_add in T. rewrite T. unfold weight_good. rewrite !andb_true_iff, Z.leb_le, Z.ltb_lt, Z.eqb_eq. tauto.
Qed.

Lemma weight_none_table : forallb (fun r => forallb (fun v => negb (weight_good r v)) (up_to 0 128)) (up_to 62 128) = true.
Proof. vm_compute. reflexivity. Qed.
Lemma weight_none i v r : i = 0 \/ i = 1 -> xqd_min i <= v <= xqd_max i -> xqd_min i + 62 <= r <= xqd_max i -> ~ weight_decoded i v r.
Proof.
  intros Hi Hv Hr D. apply weight_iff in D; [|assumption|assumption|lia].
  assert (X : xqd_max i = xqd_min i + 127) by (destruct Hi as [-> | ->]; reflexivity).
  pose proof weight_none_table as T. rewrite forallb_forall in T. specialize (T (r - xqd_min i) ltac:(apply up_to_in; lia)). cbv beta in T.
  rewrite forallb_forall in T. specialize (T (v - xqd_min i) ltac:(apply up_to_in; lia)). cbv beta in T.
  apply negb_true_iff in T. assert (weight_good (r - xqd_min i) (v - xqd_min i) = true); [|congruence].
  unfold weight_good. rewrite !andb_true_iff, Z.leb_le, Z.ltb_lt, Z.eqb_eq. tauto.
Qed.

Lemma weight_panic_table : forallb (fun i => forallb (fun v =>
    match encode_signed_subexp_bool [] v (xqd_min i) (xqd_max i + 1) SGRPROJ_PRJ_SUBEXP_K (xqd_max i) with Panic => true | _ => false end)
    (up_to (xqd_min i) (xqd_max i + 1))) [0; 1] = true.
Proof. vm_compute. reflexivity. Qed.
Lemma weight_ok_table : forallb (fun i => forallb (fun r => forallb (fun v =>
    match encode_signed_subexp_bool [] v (xqd_min i) (xqd_max i + 1) SGRPROJ_PRJ_SUBEXP_K r with Ok _ => true | _ => false end)
    (up_to (xqd_min i) (xqd_max i + 1))) (up_to (xqd_min i) (xqd_max i))) [0; 1] = true.
Proof. vm_compute. reflexivity. Qed.
Lemma weight_panics es i v : i = 0 \/ i = 1 -> xqd_min i <= v <= xqd_max i ->
  encode_signed_subexp_bool es v (xqd_min i) (xqd_max i + 1) SGRPROJ_PRJ_SUBEXP_K (xqd_max i) = Panic.
Proof.
  intros Hi Hv. rewrite weight_frame. assert (Ii : In i [0; 1]) by (destruct Hi as [-> | ->]; cbn; auto).
  pose proof weight_panic_table as T. rewrite forallb_forall in T. specialize (T i Ii). cbv beta in T.
  rewrite forallb_forall in T. specialize (T v ltac:(apply up_to_in; lia)). cbv beta in T.
  destruct (encode_signed_subexp_bool [] v (xqd_min i) (xqd_max i + 1) SGRPROJ_PRJ_SUBEXP_K (xqd_max i)); try discriminate T. reflexivity.
Qed.
Lemma weight_written es i v r : i = 0 \/ i = 1 -> xqd_min i <= v <= xqd_max i -> xqd_min i <= r < xqd_max i ->
  exists d, encode_signed_subexp_bool es v (xqd_min i) (xqd_max i + 1) SGRPROJ_PRJ_SUBEXP_K r = Ok (es ++ d).
Proof.
  intros Hi Hv Hr. rewrite weight_frame. assert (Ii : In i [0; 1]) by (destruct Hi as [-> | ->]; cbn; auto).
  pose proof weight_ok_table as T. rewrite forallb_forall in T. specialize (T i Ii). cbv beta in T.
  rewrite forallb_forall in T. specialize (T r ltac:(apply up_to_in; lia)). cbv beta in T.
  rewrite forallb_forall in T. specialize (T v ltac:(apply up_to_in; lia)). cbv beta in T.
  destruct (encode_signed_subexp_bool [] v (xqd_min i) (xqd_max i + 1) SGRPROJ_PRJ_SUBEXP_K r); try discriminate T. cbn [bind]. eauto.
Qed.
