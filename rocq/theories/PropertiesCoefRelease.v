(** Properties C124 and C125: context arithmetic in a release build. *)
From Coq Require Import String ZArith List Bool Lia.
From Verif Require Import Base RangeCoderModel CdfTables CdfTableSpec ContextModel ContextSpec ContextProofs ContextCoefProofs ContextWriterProofs ContextRunProofs CoefReleaseProofs PropertiesContext.
From Verif Require BuildModel BuildEncModel.
Import ListNotations.
Open Scope string_scope.
Open Scope list_scope.
Open Scope Z_scope.

(** The two wrapping operations cancel: the context is the one of the standard, and the
    row exists. (A debug build panics, C45.) *)
Theorem C124_context : forall s t tc ptype plane x4 y4 pos ci f lossless i red uv r c quant ty,
  0 <= t < 19 -> 0 <= ty < 16 -> 0 <= r -> 0 <= c -> type_source plane x4 y4 f i uv r c ty ->
  BuildEncModel.encode_coeff_base_eob BuildModel.Release s t tc ptype plane x4 y4 pos ci f lossless i red uv r c quant =
    Ok ("coeff_base_eob", [0; tc; ptype; spec_coeff_base_eob t ci], s) /\
  (0 <= s < 3 -> 0 <= tc < 5 -> 0 <= ptype <= 1 -> in_range ("coeff_base_eob", [0; tc; ptype; spec_coeff_base_eob t ci], s)).
Proof.
  intros s t tc ptype plane x4 y4 pos ci f lossless i red uv r c quant ty T TY R C S. split; [exact (eob_release_val s t tc ptype plane x4 y4 pos ci f lossless i red uv r c quant ty T TY R C S)|].
  intros. apply eob_in_range; assumption.
Qed.
Print Assumptions C124_context.

(** So a release build writes the element that C45 reads back. *)
Theorem C124_coded : forall c0 cs out s t tc ptype plane x4 y4 pos ci f lossless i red uv r c quant ty res,
  0 <= t < 19 -> 0 <= ty < 16 -> 0 <= r -> 0 <= c -> type_source plane x4 y4 f i uv r c ty ->
  run_writer c0 cs out (Ok ("coeff_base_eob", [0; tc; ptype; spec_coeff_base_eob t ci], s)) = Ok res ->
  BuildEncModel.run_writer BuildModel.Release c0 cs out
    (BuildEncModel.encode_coeff_base_eob BuildModel.Release s t tc ptype plane x4 y4 pos ci f lossless i red uv r c quant) = Ok res.
Proof. exact eob_release_coded. Qed.
Print Assumptions C124_coded.

(** An 8x8 block whose last coefficient is number 9. *)
Example C124_case : type_source 1 0 0 ex_frame false 2 1 1 2 /\
  BuildEncModel.encode_coeff_base_eob BuildModel.Release 1 1 1 1 1 0 0 0 9 ex_frame false false false 2 1 1 [] = Ok ("coeff_base_eob", [0; 1; 1; 2], 1) /\
  match write_session new_coder default_cdf [] [Ok ("coeff_base_eob", [0; 1; 1; 2], 1)] with Ok _ => True | _ => False end.
Proof. split; [split; [reflexivity|lia]|]. split; vm_compute; [reflexivity|exact I]. Qed.

(** A release build codes no element whose index has wrapped out of its array. *)
Theorem C125_inside : forall c st out name path v dims N res, state_ok st -> In (name, dims, N) cdf_shapes ->
  BuildEncModel.run_writer BuildModel.Release c st out (Ok (name, path, v)) = Ok res ->
  Forall2 (fun i d => 0 <= i < Z.of_nat d) path dims.
Proof. exact release_inside. Qed.
Print Assumptions C125_inside.

(** The difference in the context of the angle delta wraps for DC_PRED. The call still
    panics, as it does for every mode that has no direction. *)
Theorem C125_angle : forall c st out s mode, state_ok st -> 0 <= mode < 2 ^ 64 -> ~ 1 <= mode <= 8 ->
  BuildEncModel.run_writer BuildModel.Release c st out (BuildEncModel.encode_angle_delta BuildModel.Release s mode) = Panic.
Proof. exact angle_release_panics. Qed.
Print Assumptions C125_angle.

(** So does the one in the context of the V alpha when U is zero and V is negative. *)
Theorem C125_cfl_v : forall c st out s, state_ok st ->
  BuildEncModel.run_writer BuildModel.Release c st out (BuildEncModel.encode_cfl_alpha_v BuildModel.Release s 0) = Panic.
Proof. exact cfl_v_release_panics. Qed.
Print Assumptions C125_cfl_v.

(** The default state is one of these states; a directional mode is coded. *)
Example C125_case : state_ok default_cdf /\
  match BuildEncModel.run_writer BuildModel.Release (init_encoder new_coder) default_cdf [] (BuildEncModel.encode_angle_delta BuildModel.Release 3 8) with Ok _ => True | _ => False end.
Proof. split; [exact default_state_ok|vm_compute; exact I]. Qed.
