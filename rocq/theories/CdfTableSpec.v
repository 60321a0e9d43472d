(** What each CDF table has to look like: for every table its contexts (one bound
    per index) and the number of values of the syntax element coded with it,
    written from the syntax and semantics sections of the AV1 specification.
    [inter_intra], [eob_extra] and the tx_type sets have the larger number of
    contexts of the draft the encoder follows. *)
From Coq Require Import ZArith List String.
From Verif Require Import RangeCoderSpec SessionModel CdfTables.
Import ListNotations.
Open Scope string_scope.
Open Scope nat_scope.

Definition cdf_shapes : list (string * list nat * nat) := [
  ("intra_frame_y_mode", [5; 5], 13); ("y_mode", [4], 13);
  ("uv_mode_cfl_not_allowed", [13], 13); ("uv_mode_cfl_allowed", [13], 14);
  ("angle_delta", [8], 7); ("intrabc", [], 2);
  ("partition_w8", [4], 4); ("partition_w16", [4], 10); ("partition_w32", [4], 10);
  ("partition_w64", [4], 10); ("partition_w128", [4], 8);
  ("tx_8x8", [3], 2); ("tx_16x16", [3], 3); ("tx_32x32", [3], 3); ("tx_64x64", [3], 3);
  ("txfm_split", [21], 2); ("filter_intra_mode", [], 5); ("filter_intra", [22], 2);
  ("segment_id", [3], 8); ("segment_id_predicted", [3], 2);
  ("mv_class0_hp", [2; 2], 2); ("mv_hp", [2; 2], 2); ("mv_sign", [2; 2], 2);
  ("mv_bit", [2; 2; 10], 2); ("mv_class0_bit", [2; 2], 2);
  ("new_mv", [6], 2); ("zero_mv", [2], 2); ("ref_mv", [6], 2); ("drl_mode", [3], 2);
  ("is_inter", [4], 2); ("comp_mode", [5], 2); ("skip_mode", [3], 2); ("skip", [3], 2);
  ("comp_ref", [3; 3], 2); ("comp_bwd_ref", [3; 2], 2); ("single_ref", [3; 6], 2);
  ("compound_mode", [8], 8); ("interp_filter", [16], 3); ("motion_mode", [22], 3);
  ("mv_joint", [2], 4); ("mv_class", [2; 2], 11); ("mv_class0_fr", [2; 2; 2], 4); ("mv_fr", [2; 2], 4);
  ("palette_y_size", [7], 7); ("palette_uv_size", [7], 7);
  ("palette_size_2_y_color", [5], 2); ("palette_size_3_y_color", [5], 3); ("palette_size_4_y_color", [5], 4);
  ("palette_size_5_y_color", [5], 5); ("palette_size_6_y_color", [5], 6); ("palette_size_7_y_color", [5], 7);
  ("palette_size_8_y_color", [5], 8);
  ("palette_size_2_uv_color", [5], 2); ("palette_size_3_uv_color", [5], 3); ("palette_size_4_uv_color", [5], 4);
  ("palette_size_5_uv_color", [5], 5); ("palette_size_6_uv_color", [5], 6); ("palette_size_7_uv_color", [5], 7);
  ("palette_size_8_uv_color", [5], 8);
  ("palette_y_mode", [7; 3], 2); ("palette_uv_mode", [2], 2);
  ("delta_q", [], 4); ("delta_lf", [], 4); ("delta_lf_multi", [4], 4);
  ("intra_tx_type_set1", [4; 13], 7); ("intra_tx_type_set2", [4; 13], 5);
  ("inter_tx_type_set1", [4], 16); ("inter_tx_type_set2", [4], 12); ("inter_tx_type_set3", [4], 2);
  ("compound_idx", [6], 2); ("comp_group_idx", [6], 2); ("compound_type", [22], 2);
  ("inter_intra", [4], 2); ("inter_intra_mode", [4], 4); ("wedge_index", [22], 16); ("wedge_inter_intra", [22], 2);
  ("use_obmc", [22], 2); ("comp_ref_type", [5], 2); ("uni_comp_ref", [3; 3], 2);
  ("cfl_sign", [], 8); ("cfl_alpha", [6], 16);
  ("use_wiener", [], 2); ("use_sgrproj", [], 2); ("restoration_type", [], 3);
  ("txb_skip", [4; 5; 13], 2);
  ("eob_pt_16", [4; 2; 2], 5); ("eob_pt_32", [4; 2; 2], 6); ("eob_pt_64", [4; 2; 2], 7);
  ("eob_pt_128", [4; 2; 2], 8); ("eob_pt_256", [4; 2; 2], 9); ("eob_pt_512", [4; 2; 2], 10);
  ("eob_pt_1024", [4; 2; 2], 11);
  ("eob_extra", [4; 5; 2; 22], 2); ("dc_sign", [4; 2; 3], 2);
  ("coeff_base_eob", [4; 5; 2; 4], 3); ("coeff_base", [4; 5; 2; 42], 4); ("coeff_br", [4; 5; 2; 21], 4)].

(** The row reached by a list of indices. *)
Fixpoint tab_at (t : tab) (path : list nat) : option (list Z) :=
  match t, path with
  | Row r, [] => Some r
  | Tab l, i :: p => match nth_error l i with Some t' => tab_at t' p | None => None end
  | _, _ => None
  end.

(** Exactly the index lists below the bounds reach a row, and all those rows are
    valid CDFs of [N] symbols. *)
Definition table_ok (t : tab) (dims : list nat) (N : nat) : Prop :=
  (forall path, Forall2 lt path dims -> exists row, tab_at t path = Some row /\ valid_cdf N row) /\
  (forall path row, tab_at t path = Some row -> Forall2 lt path dims).

(** All rows of a table in order. *)
Fixpoint tab_rows (t : tab) : list (list Z) :=
  match t with
  | Row r => [r]
  | Tab l => flat_map tab_rows l
  end.

(** All CDFs of the default state in one table. *)
Definition default_table : cdf_table := flat_map (fun p => tab_rows (snd p)) default_cdf.
Definition default_sizes : list nat := map (fun r => List.length r - 1)%nat default_table.
