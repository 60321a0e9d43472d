(** Which calls of the syntax writers are legal: the arguments of each writer range
    over the values their syntax element and the decoded blocks can have.

    Not included because no call, or only some, can work: coeff_base_eob, dc_sign,
    txfm_split, the two transform type writers and the chroma mode 13 (chroma from
    luma); see PropertiesContext. *)
From Coq Require Import String ZArith List Bool.
From Verif Require Import Base UtilModel RangeCoderModel BlockTables CdfTables CdfTableSpec GeomModel ContextModel ContextSpec.
Import ListNotations.
Open Scope string_scope.
Open Scope list_scope.
Open Scope Z_scope.

Definition bit (s : Z) : Prop := 0 <= s < 2.
Definition block_size (b : Z) : Prop := 0 <= b < 22.
Definition transform_size (t : Z) : Prop := 0 <= t < 19.

(** AV1's chroma formats; a 4:2:2 block higher than wide has no chroma block size. *)
Definition chroma_ok (f : frame) (plane mi_size : Z) : Prop :=
  0 <= plane <= 2 /\ (f_suby f = true -> f_subx f = true) /\
  (plane = 0 \/ f_subx f = f_suby f \/ Block_Height mi_size <= Block_Width mi_size).

(** Where the transform type of a block is found: the mode info of the block (luma),
    the mode info at the luma position (inter chroma) or the chroma mode. *)
Definition type_known (plane x4 y4 : Z) (f : frame) (is_inter : bool) (uv_mode r c : Z) : Prop :=
  if plane =? 0 then cell f r c <> None
  else if is_inter then cell f (Z.max r (y4 * 2 ^ b2z (f_suby f))) (Z.max c (x4 * 2 ^ b2z (f_subx f))) <> None
  else 0 <= uv_mode < 14.

(** A coefficient position and the coefficients of its transform block. *)
Definition coef_ok (t pos : Z) (quant : list Z) (low : Z) : Prop :=
  transform_size t /\ 0 <= pos < coded_width t * coded_height t /\ coded_width t * coded_height t <= len quant /\
  Forall (fun x => low <= x < 2 ^ 63) quant.

Definition eob_fields : list (string * Z) :=
  [("eob_pt_16", 5); ("eob_pt_32", 6); ("eob_pt_64", 7); ("eob_pt_128", 8); ("eob_pt_256", 9); ("eob_pt_512", 10); ("eob_pt_1024", 11)].

Inductive legal : wr -> Prop :=
| L_intra_frame_y_mode s a l : 0 <= s < 13 -> 0 <= a < 13 -> 0 <= l < 13 -> legal (encode_intra_frame_y_mode s a l)
| L_y_mode s b : 0 <= s < 13 -> block_size b -> legal (encode_y_mode s b)
| L_uv_mode s b lossless sx sy : 0 <= s < 13 -> block_size b ->
    (sy = true -> sx = true) -> (sx = sy \/ Block_Height b <= Block_Width b) -> legal (encode_uv_mode s b lossless sx sy)
| L_angle_delta s mode : 0 <= s < 7 -> 1 <= mode <= 8 -> legal (encode_angle_delta s mode)
| L_tx_depth s t depth f r c : transform_size t -> frame_ok f r c -> 1 <= depth <= 4 -> 0 <= s <= (if depth =? 1 then 1 else 2) ->
    legal (encode_tx_depth s t depth f r c)
| L_segment_id s u l ul : 0 <= s < 8 -> legal (encode_segment_id s u l ul)
| L_seg_id_predicted s f r c : bit s -> frame_ok f r c -> legal (encode_seg_id_predicted s f r c)
| L_new_mv s ctx : bit s -> 0 <= ctx < 6 -> legal (encode_new_mv s ctx)
| L_zero_mv s ctx : bit s -> 0 <= ctx < 2 -> legal (encode_zero_mv s ctx)
| L_ref_mv s ctx : bit s -> 0 <= ctx < 6 -> legal (encode_ref_mv s ctx)
| L_drl_mode s i stack : bit s -> 0 <= i < len stack -> Forall (fun x => 0 <= x < 3) stack -> legal (encode_drl_mode s i stack)
| L_is_inter s f r c : frame_ok f r c -> legal (encode_is_inter s f r c)
| L_use_filter_intra s b : bit s -> block_size b -> legal (encode_use_filter_intra s b)
| L_filter_intra_mode s : 0 <= s < 5 -> legal (encode_filter_intra_mode s)
| L_comp_mode s f r c : bit s -> frame_ok f r c -> legal (encode_comp_mode s f r c)
| L_skip_mode s f r c : bit s -> frame_ok f r c -> legal (encode_skip_mode s f r c)
| L_skip s f r c : bit s -> frame_ok f r c -> legal (encode_skip s f r c)
| L_ref w s f r c : bit s -> frame_ok f r c ->
    In w [encode_comp_ref; encode_comp_ref_p1; encode_comp_ref_p2; encode_comp_bwdref; encode_comp_bwdref_p1;
          encode_single_ref_p1; encode_single_ref_p2; encode_single_ref_p3; encode_single_ref_p4; encode_single_ref_p5;
          encode_single_ref_p6; encode_uni_comp_ref; encode_uni_comp_ref_p1; encode_uni_comp_ref_p2] ->
    legal (w s f r c)
| L_compound_mode s a b : 0 <= s < 8 -> 0 <= a < 6 -> 0 <= b < 6 -> legal (encode_compound_mode s a b)
| L_interp_filter s f r c dir : 0 <= s < 3 -> frame_ok f r c -> cell f r c <> None -> bit dir -> legal (encode_interp_filter s f r c dir)
| L_motion_mode s b : 0 <= s < 3 -> block_size b -> legal (encode_motion_mode s b)
| L_mv_joint s ctx : 0 <= s < 4 -> bit ctx -> legal (encode_mv_joint s ctx)
| L_mv_sign s ctx comp : bit s -> bit ctx -> bit comp -> legal (encode_mv_sign s ctx comp)
| L_mv_class s ctx comp : 0 <= s < 11 -> bit ctx -> bit comp -> legal (encode_mv_class s ctx comp)
| L_mv_class0_bit s ctx comp : bit s -> bit ctx -> bit comp -> legal (encode_mv_class0_bit s ctx comp)
| L_mv_class0_fr s i ctx comp : 0 <= s < 4 -> bit i -> bit ctx -> bit comp -> legal (encode_mv_class0_fr s i ctx comp)
| L_mv_class0_hp s ctx comp : bit s -> bit ctx -> bit comp -> legal (encode_mv_class0_hp s ctx comp)
| L_mv_fr s ctx comp : 0 <= s < 4 -> bit ctx -> bit comp -> legal (encode_mv_fr s ctx comp)
| L_mv_hp s ctx comp : bit s -> bit ctx -> bit comp -> legal (encode_mv_hp s ctx comp)
| L_mv_bit s i ctx comp : bit s -> 0 <= i < 10 -> bit ctx -> bit comp -> legal (encode_mv_bit s i ctx comp)
| L_all_zero s plane t tc f b r c w4 h4 x4 y4 : bit s -> transform_size t -> 0 <= tc < 5 -> block_size b -> frame_ok f r c ->
    chroma_ok f plane b -> 0 <= w4 -> 0 <= h4 -> 0 <= x4 -> 0 <= y4 -> legal (encode_all_zero s plane t tc f b r c w4 h4 x4 y4)
| L_eob_pt name n s f r c uv lossless i red plane t x4 y4 ptype : In (name, n) eob_fields -> 0 <= s < n -> frame_ok f r c ->
    transform_size t -> bit ptype -> type_known plane x4 y4 f i uv r c ->
    legal (encode_eob_pt name s f r c uv lossless i red plane t x4 y4 ptype)
| L_eob_extra s tc ptype pt : bit s -> 0 <= tc < 5 -> bit ptype -> 0 <= pt < 22 -> legal (encode_eob_extra s tc ptype pt)
| L_coeff_base s t tc ptype plane x4 y4 pos ci f lossless i red uv r c quant : 0 <= s < 4 -> 0 <= tc < 5 -> bit ptype ->
    frame_ok f r c -> type_known plane x4 y4 f i uv r c -> coef_ok t pos quant (- 2 ^ 63 + 1) ->
    legal (encode_coeff_base s t tc ptype plane x4 y4 pos ci f lossless i red uv r c quant)
| L_coeff_br s f tc lossless i red uv pos ptype t x4 y4 plane quant r c : 0 <= s < 4 -> 0 <= tc < 5 -> bit ptype ->
    frame_ok f r c -> type_known plane x4 y4 f i uv r c -> coef_ok t pos quant (- 2 ^ 63) ->
    legal (encode_coeff_br s f tc lossless i red uv pos ptype t x4 y4 plane quant r c)
| L_has_palette_y s f r c b : bit s -> frame_ok f r c -> 0 <= b < 7 -> legal (encode_has_palette_y s f r c b)
| L_has_palette_uv s n : bit s -> legal (encode_has_palette_uv s n)
| L_palette_size_y s b : 0 <= s < 7 -> 0 <= b < 7 -> legal (encode_palette_size_y_minus_2 s b)
| L_palette_size_uv s b : 0 <= s < 7 -> 0 <= b < 7 -> legal (encode_palette_size_uv_minus_2 s b)
| L_palette_color_y s h n : 2 <= n <= 8 -> 0 <= s < n -> In h [2; 5; 6; 7; 8] -> legal (encode_palette_color_idx_y s h n)
| L_palette_color_uv s h n : 2 <= n <= 8 -> 0 <= s < n -> In h [2; 5; 6; 7; 8] -> legal (encode_palette_color_idx_uv s h n)
| L_delta_q_abs s : 0 <= s < 4 -> legal (encode_delta_q_abs s)
| L_delta_lf_abs s multi i : 0 <= s < 4 -> 0 <= i < 4 -> legal (encode_delta_lf_abs s multi i)
| L_comp_ref_type s f r c : bit s -> frame_ok f r c -> legal (encode_comp_ref_type s f r c)
| L_comp_group_idx s f r c : bit s -> frame_ok f r c -> legal (encode_comp_group_idx s f r c)
| L_compound_idx s hints cur r0 r1 f r c enable bits : bit s -> frame_ok f r c -> 0 <= r0 < len hints -> 0 <= r1 < len hints ->
    1 <= bits <= 8 -> Forall (fun h => 0 <= h < 256) hints -> 0 <= cur < 256 ->
    legal (encode_compound_idx s hints cur r0 r1 f r c enable bits)
| L_compound_type s b : bit s -> block_size b -> legal (encode_compound_type s b)
| L_interintra s b : bit s -> block_size b -> legal (encode_interintra s b)
| L_interintra_mode s b : 0 <= s < 4 -> block_size b -> legal (encode_interintra_mode s b)
| L_wedge_index s b : 0 <= s < 16 -> block_size b -> legal (encode_wedge_index s b)
| L_wedge_interintra s b : bit s -> block_size b -> legal (encode_wedge_interintra s b)
| L_use_obmc s b : bit s -> block_size b -> legal (encode_use_obmc s b)
| L_cfl_alpha_signs s : 0 <= s < 8 -> legal (encode_cfl_alpha_signs s)
| L_cfl_alpha_u s signs : 0 <= s < 16 -> 2 <= signs <= 6 -> legal (encode_cfl_alpha_u s signs)
| L_cfl_alpha_v s signs : 0 <= s < 16 -> 1 <= signs < 8 -> signs mod 3 <> 2 -> legal (encode_cfl_alpha_v s signs)
| L_use_wiener s : bit s -> legal (encode_use_wiener s)
| L_use_sgrproj s : bit s -> legal (encode_use_sgrproj s)
| L_restoration_type s : 0 <= s < 3 -> legal (encode_restoration_type s).
