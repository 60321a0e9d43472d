(** The last coefficient in a release build (C124). *)
From Coq Require Import String ZArith List Bool Lia ZifyBool.
From Verif Require Import Base RangeCoderModel SessionModel ContextModel CdfTableSpec ContextSpec ContextProofs ContextCoefProofs ContextWriterProofs ContextRunProofs BuildProofs.
From Verif Require BuildModel BuildEncModel BuildEncProofs.
Import ListNotations.
Open Scope string_scope.
Open Scope list_scope.
Open Scope Z_scope.

Lemma eob_release_val s t tc ptype plane x4 y4 pos ci f lossless i red uv r c quant ty :
  0 <= t < 19 -> 0 <= ty < 16 -> 0 <= r -> 0 <= c -> type_source plane x4 y4 f i uv r c ty ->
  BuildEncModel.encode_coeff_base_eob BuildModel.Release s t tc ptype plane x4 y4 pos ci f lossless i red uv r c quant =
    Ok ("coeff_base_eob", [0; tc; ptype; spec_coeff_base_eob t ci], s).
Proof.
  intros T TY R C S. unfold BuildEncModel.encode_coeff_base_eob, BuildEncModel.get_coeff_base_ctx.
  rewrite (compute_tx_type_ok plane t x4 y4 f lossless i red uv r c ty T TY R C S). cbn [bind]. unfold BuildEncModel.base_ctx.
  destruct (coded_size t T) as (adj & bwl & -> & E2 & B & W & E3 & E4 & HW & HH). cbn [bind]. rewrite E2. cbn [bind]. cbv zeta. rewrite E4. cbn [bind].
  rewrite Z.shiftl_mul_pow2 by lia. rewrite W. unfold spec_coeff_base_eob. rewrite (Z.mul_comm (coded_width t)).
  unfold SIG_COEF_CONTEXTS, SIG_COEF_CONTEXTS_EOB.
  destruct (ci =? 0); [reflexivity|]. destruct (ci <=? coded_height t * coded_width t / 8); [reflexivity|].
  destruct (ci <=? coded_height t * coded_width t / 4); reflexivity.
Qed.
Lemma spec_eob_range t ci : 0 <= spec_coeff_base_eob t ci < 4.
Proof. unfold spec_coeff_base_eob. repeat match goal with |- context [if ?b then _ else _] => destruct b end; lia. Qed.
Lemma eob_in_range s t tc ptype ci : 0 <= s < 3 -> 0 <= tc < 5 -> 0 <= ptype <= 1 ->
  in_range ("coeff_base_eob", [0; tc; ptype; spec_coeff_base_eob t ci], s).
Proof.
  intros S TC P. pose proof (spec_eob_range t ci). assert (X : sound (Ok ("coeff_base_eob", [0; tc; ptype; spec_coeff_base_eob t ci], s))) by sound.
  destruct X as (e & E & R). injection E as <-. exact R.
Qed.
Lemma eob_release_coded c0 cs out s t tc ptype plane x4 y4 pos ci f lossless i red uv r c quant ty res :
  0 <= t < 19 -> 0 <= ty < 16 -> 0 <= r -> 0 <= c -> type_source plane x4 y4 f i uv r c ty ->
  run_writer c0 cs out (Ok ("coeff_base_eob", [0; tc; ptype; spec_coeff_base_eob t ci], s)) = Ok res ->
  BuildEncModel.run_writer BuildModel.Release c0 cs out
    (BuildEncModel.encode_coeff_base_eob BuildModel.Release s t tc ptype plane x4 y4 pos ci f lossless i red uv r c quant) = Ok res.
Proof.
  intros T TY R C S E. rewrite (eob_release_val s t tc ptype plane x4 y4 pos ci f lossless i red uv r c quant ty T TY R C S).
  rewrite <- BuildEncProofs.debug_run_writer in E. eapply le_ok; [|exact E]. apply BuildEncProofs.le_run_writer, le_refl.
Qed.

(** Wrapping does not help a writer whose index ends up outside the array. *)
Lemma release_out_of_range : forall s name path v dims N c out, state_ok s -> In (name, dims, N) cdf_shapes ->
  ~ Forall2 (fun i d => 0 <= i < Z.of_nat d) path dims ->
  BuildEncModel.run_writer BuildModel.Release c s out (Ok (name, path, v)) = Panic.
Proof.
  intros s name path v dims N c out S I H. destruct (state_field _ _ _ _ _ shapes_nodup S I) as (t & F & T1 & T2).
  unfold BuildEncModel.run_writer. cbn [bind]. rewrite F. cbn [bind].
  assert (G : tab_get t path = Panic); [|rewrite G; reflexivity].
  destruct (Forall_dec (fun i => 0 <= i) (fun i => Z_le_dec 0 i) path) as [P|P].
  - rewrite (tab_get_at _ _ P). destruct (tab_at t (map Z.to_nat path)) as [row|] eqn:E; [|reflexivity].
    exfalso. apply H. apply path_z; [exact P|]. exact (T2 _ _ E).
  - clear -P. revert t P. induction path as [|i p IH]; intros t P; [exfalso; apply P; constructor|].
    destruct t as [r|l]; [reflexivity|]. cbn [tab_get]. unfold idx. destruct (Z.ltb_spec i 0); [reflexivity|].
    destruct (nth_error l (Z.to_nat i)); [|reflexivity]. cbn [bind]. apply IH. intros X. apply P. constructor; assumption.
Qed.
Lemma angle_release_panics c st out s mode : state_ok st -> 0 <= mode < 2 ^ 64 -> ~ 1 <= mode <= 8 ->
  BuildEncModel.run_writer BuildModel.Release c st out (BuildEncModel.encode_angle_delta BuildModel.Release s mode) = Panic.
Proof.
  intros S M N. unfold BuildEncModel.encode_angle_delta. change V_PRED with 1.
  change (BuildModel.chk_u64 BuildModel.Release (mode - 1)) with (Ok (as_u64 (mode - 1))). unfold as_u64.
  cbn [bind]. apply (release_out_of_range st "angle_delta" _ s [8]%nat 7%nat c out S).
  - apply shape_in. vm_compute. reflexivity.
  - intros P. inversion P as [|? ? ? ? X]; subst. change (Z.of_nat 8) with 8 in X.
    destruct (Z.eq_dec mode 0) as [->|Z0]; [vm_compute in X; destruct X; discriminate|].
    rewrite Z.mod_small in X by lia. lia.
Qed.
Lemma cfl_v_release_panics c st out s : state_ok st ->
  BuildEncModel.run_writer BuildModel.Release c st out (BuildEncModel.encode_cfl_alpha_v BuildModel.Release s 0) = Panic.
Proof.
  intros S. change (BuildEncModel.encode_cfl_alpha_v BuildModel.Release s 0) with (Ok ("cfl_alpha", [as_u64 (-1)], s)).
  apply (release_out_of_range st "cfl_alpha" _ s [6]%nat 16%nat c out S).
  - apply shape_in. vm_compute. reflexivity.
  - intros P. inversion P as [|? ? ? ? X]; subst. vm_compute in X. destruct X; discriminate.
Qed.
Lemma inside_dec : forall path dims,
  {Forall2 (fun i d => 0 <= i < Z.of_nat d) path dims} + {~ Forall2 (fun i d => 0 <= i < Z.of_nat d) path dims}.
Proof.
  induction path as [|i p IH]; intros [|d ds]; try (left; constructor; fail); try (right; intros X; inversion X; fail).
  destruct (IH ds) as [P|P]; [|right; intros X; inversion X; subst; tauto].
  destruct (Z_le_dec 0 i) as [A|A]; [|right; intros X; inversion X; subst; lia].
  destruct (Z_lt_dec i (Z.of_nat d)) as [C|C]; [left; constructor; [lia|exact P]|right; intros X; inversion X; subst; lia].
Qed.
Lemma release_inside : forall c st out name path v dims N res, state_ok st -> In (name, dims, N) cdf_shapes ->
  BuildEncModel.run_writer BuildModel.Release c st out (Ok (name, path, v)) = Ok res ->
  Forall2 (fun i d => 0 <= i < Z.of_nat d) path dims.
Proof.
  intros c st out name path v dims N res S I E.
  destruct (inside_dec path dims) as [P|P]; [exact P|].
  rewrite (release_out_of_range st name path v dims N c out S I P) in E. discriminate E.
Qed.
