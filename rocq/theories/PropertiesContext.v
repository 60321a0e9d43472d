(** Properties C45, C57 and C58: the CDFs selected by the syntax writers. *)
From Coq Require Import String ZArith List Lia Bool.
From Verif Require Import BitsSpec Base BaseProofs UtilModel RangeCoderModel RangeCoderSpec SessionModel BlockTables CdfTables CdfTableSpec GeomModel
  ElementModel ContextModel ContextSpec ContextEdgeSpec ContextCallSpec ContextRunProofs ContextProofs ContextCoefProofs ContextWriterProofs ContextEdgeProofs.
Import ListNotations.
Open Scope string_scope.
Open Scope list_scope.
Open Scope Z_scope.

(** Two blocks and a frame of 2 x 2 units for the examples: an inter block with a
    single reference above, a compound block to the left. *)
Definition ex_above : mi := mkMi 3 1 0 true false false true 0 0 1 (-1) [0; 0] [3; 0; 0] [1; 0; 0] [0; 0; 0] 0 0.
Definition ex_left : mi := mkMi 4 1 0 true true false false 1 0 1 5 [1; 2] [0; 2; 0] [2; 0; 0] [2; 0; 0] 1 1.
Definition ex_here : mi := mkMi 6 2 3 true false false false 0 0 1 7 [0; 1] [0; 0; 0] [0; 0; 0] [0; 0; 0] 0 0.
Definition ex_frame : frame := mkFr [[None; Some ex_above]; [Some ex_left; Some ex_here]] 2 2 true true.
Ltac block_ok := constructor; cbn [ex_above ex_left ex_here m_size m_tx_size m_tx_type m_seg_id_predicted m_skip_mode m_ref0 m_ref1 m_intra m_single m_filter m_level m_dc m_palette m_comp_group_idx m_compound_idx];
  unfold INTRA_FRAME, NONE; try lia; try reflexivity; repeat eexists; try reflexivity; lia.
Lemma ex_above_ok : mi_ok ex_above.
Proof. block_ok. Qed.
Lemma ex_left_ok : mi_ok ex_left.
Proof. block_ok. Qed.
Lemma ex_here_ok : mi_ok ex_here.
Proof. block_ok. Qed.
Lemma ex_frame_ok : frame_ok ex_frame 1 1.
Proof.
  exists 2, 2. split; [reflexivity|]. split; [intros row [<-|[<-|[]]]; reflexivity|]. split; [lia|]. split; [lia|].
  intros i j m. unfold cell. destruct (Z.to_nat i) as [|[|k]]; cbn [ex_frame f_mis nth_error]; [| |destruct k; discriminate];
  (destruct (Z.to_nat j) as [|[|q]]; cbn [nth_error]; [| |destruct q; discriminate]); intros E; try discriminate; injection E as <-.
  - exact ex_above_ok.
  - exact ex_left_ok.
  - exact ex_here_ok.
Qed.

(** ** C45 *)

(** Every legal call selects an existing CDF and codes a symbol of its alphabet. *)
Theorem C45_legal_calls : forall w, legal w -> sound w.
Proof. exact legal_sound. Qed.
Print Assumptions C45_legal_calls.

(** So any sequence of legal calls succeeds, and a decoder that selects the same CDFs
    reads the same symbols and ends with the same CDFs. *)
Theorem C45_round_trip : forall s ws c d out sz tail,
  state_ok s -> Forall legal ws -> Z.of_nat (List.length ws) <= 2 ^ 26 ->
  0 <= bit_count c < 2 ^ 62 -> 0 <= sz < 2 ^ 28 -> is_bits tail ->
  exists es c' s' D d' rest,
    ws = map (@Ok element) es /\
    write_session c s out ws = Ok (c', s', out ++ D) /\ is_bits D /\
    read_session d s (D ++ tail) sz (map fst es) = Ok (map snd es, d', s', rest ++ tail).
Proof.
  intros s ws c d out sz tail S L N B Z T.
  destruct (sound_list ws) as (es & -> & R); [eapply Forall_impl; [exact legal_sound|exact L]|].
  rewrite map_length in N. destruct (writers_round_trip s es c d out sz tail S R N B Z T) as (c' & s' & D & d' & rest & W & I & Q).
  exists es, c', s', D, d', rest. auto.
Qed.
Print Assumptions C45_round_trip.

(** Each call leaves valid CDFs; the default CDFs are valid. *)
Theorem C45_state_stays_valid : forall w s c out c' s' out', legal w -> state_ok s ->
  run_writer c s out w = Ok (c', s', out') -> state_ok s'.
Proof.
  intros w s c out c' s' out' L S E. destruct (legal_sound w L) as (e & -> & R). exact (writer_keeps_state s e c out c' s' out' S R E).
Qed.
Print Assumptions C45_state_stays_valid.
Theorem C45_default_state : state_ok default_cdf.
Proof. exact default_state_ok. Qed.
Print Assumptions C45_default_state.

Example C45_case : exists ws, legal (encode_comp_mode 1 ex_frame 1 1) /\ legal (encode_uv_mode 12 6 false true true) /\
  legal (encode_coeff_base 2 2 2 0 0 0 0 17 3 ex_frame false false false 0 1 1 (repeat 1 256)) /\
  ws = [encode_comp_mode 1 ex_frame 1 1; encode_is_inter true ex_frame 1 1; encode_y_mode 5 7] /\ Forall legal ws /\
  match write_session new_coder default_cdf [] ws with Ok (_, _, out) => out = [1; 1; 0; 1; 0; 1; 1; 0; 1; 1; 1; 0; 0; 0; 1; 1; 0; 0; 0; 0; 0; 0; 0; 0] | _ => False end.
Proof.
  exists [encode_comp_mode 1 ex_frame 1 1; encode_is_inter true ex_frame 1 1; encode_y_mode 5 7].
  split; [apply L_comp_mode; [unfold bit; lia|exact ex_frame_ok]|].
  split; [apply L_uv_mode; [lia|unfold block_size; lia|reflexivity|left; reflexivity]|].
  split; [apply L_coeff_base; [lia|lia|unfold bit; lia|exact ex_frame_ok|cbn; discriminate|]|].
  { split; [unfold transform_size; lia|]. change (coded_width 2 * coded_height 2) with 256. split; [lia|]. split; [reflexivity|].
    apply Forall_forall. intros x Hx. apply repeat_spec in Hx. subst. lia. }
  split; [reflexivity|]. split; [|vm_compute; reflexivity].
  constructor; [apply L_comp_mode; [unfold bit; lia|exact ex_frame_ok]|].
  constructor; [apply L_is_inter; exact ex_frame_ok|].
  constructor; [apply L_y_mode; [lia|unfold block_size; lia]|constructor].
Qed.

(** The exceptions. The writer of the last coefficient cannot be called at all. *)
Theorem C45_coeff_base_eob_refuted : forall s t tc ptype plane x4 y4 pos ci f lossless i red uv r c quant,
  encode_coeff_base_eob s t tc ptype plane x4 y4 pos ci f lossless i red uv r c quant = Panic.
Proof. exact coeff_base_eob_panics. Qed.
Print Assumptions C45_coeff_base_eob_refuted.

(** The sign of a DC coefficient is not an argument: the symbol is the number of
    positive minus the number of negative DC coefficients along the edges. *)
Theorem C45_dc_sign_exactly : forall ptype f plane r0 c0 r c w4 h4 x4 y4, frame_ok f r c -> inner r0 c0 r c -> 0 <= plane <= 2 -> 0 <= ptype <= 1 ->
  0 <= w4 <= 16 -> 0 <= h4 <= 16 -> 0 <= x4 -> 0 <= y4 ->
  let d := dc_count plane f (above_of f r0 r c) (left_of f c0 r c) w4 h4 x4 y4 in
  encode_dc_sign ptype f plane r c w4 h4 x4 y4 =
    Ok ("dc_sign", [0; ptype; match Z.compare d 0 with Lt => 1 | Eq => 0 | Gt => 2 end], d) /\
  (sound (encode_dc_sign ptype f plane r c w4 h4 x4 y4) <-> 0 <= d <= 1).
Proof.
  intros ptype f plane r0 c0 r c w4 h4 x4 y4 F I P PT W H X Y d. split.
  - exact (dc_sign_val ptype f plane r0 c0 r c w4 h4 x4 y4 F I P W H X Y).
  - exact (dc_sign_sound_iff ptype f plane r0 c0 r c w4 h4 x4 y4 F I P PT W H X Y).
Qed.
Print Assumptions C45_dc_sign_exactly.
Theorem C45_dc_sign_refuted : exists f r c, frame_ok f r c /\ ~ sound (encode_dc_sign 0 f 0 r c 1 1 0 0) /\
  encode_dc_sign 0 f 0 r c 2 1 0 0 = Ok ("dc_sign", [0; 0; 1], -2).
Proof.
  exists (mkFr [[None; Some ex_above]; [None; Some ex_here]] 2 2 true true), 1, 1.
  assert (F : frame_ok (mkFr [[None; Some ex_above]; [None; Some ex_here]] 2 2 true true) 1 1).
  { exists 2, 2. split; [reflexivity|]. split; [intros row [<-|[<-|[]]]; reflexivity|]. split; [lia|]. split; [lia|].
    intros i j m. unfold cell. destruct (Z.to_nat i) as [|[|k]]; cbn [f_mis nth_error]; [| |destruct k; discriminate];
    (destruct (Z.to_nat j) as [|[|q]]; cbn [nth_error]; [| |destruct q; discriminate]); intros E; try discriminate; injection E as <-; [exact ex_above_ok|exact ex_here_ok]. }
  split; [exact F|]. split; [|vm_compute].
  - intros S. apply (dc_sign_sound_iff 0 _ 0 0 0 1 1 1 1 0 0 F (inner_00 1 1)) in S; try lia. vm_compute in S. destruct S as [S _]. apply S. reflexivity.
  - reflexivity.
Qed.
Print Assumptions C45_dc_sign_refuted.

(** The chroma mode is used as its own context. Chroma from luma, the fourteenth
    mode, is outside the array and cannot be coded where it is allowed. *)
Theorem C45_uv_mode_exactly : forall s b sx sy, block_size b -> Z.max (Block_Width b) (Block_Height b) <= 32 -> 0 <= s < 14 ->
  (sound (encode_uv_mode s b false sx sy) <-> s <> 13).
Proof. exact uv_mode_sound_iff. Qed.
Print Assumptions C45_uv_mode_exactly.
Theorem C45_uv_mode_refuted : forall b sx sy st c out, block_size b -> Z.max (Block_Width b) (Block_Height b) <= 32 -> state_ok st ->
  run_writer c st out (encode_uv_mode 13 b false sx sy) = Panic.
Proof.
  intros b sx sy st c out B H S. rewrite (uv_mode_cfl 13 b sx sy B H).
  apply (out_of_range_panics st "uv_mode_cfl_allowed" [13] 13 [13]%nat 14%nat c out S).
  - apply shape_in. vm_compute. reflexivity.
  - intros P. inversion P; subst. lia.
Qed.
Print Assumptions C45_uv_mode_refuted.
Example C45_uv_mode_case : block_size 6 /\ Z.max (Block_Width 6) (Block_Height 6) <= 32.
Proof. unfold block_size. vm_compute. repeat split; discriminate. Qed.

(** Both chroma from luma writers are off by one, in opposite directions, and panic
    at one end: for two positive signs and for U zero with V negative. *)
Theorem C45_cfl_alpha_u : forall s su sv, 0 <= su <= 2 -> 0 <= sv <= 2 -> su <> 0 -> 0 <= s < 16 ->
  encode_cfl_alpha_u s (3 * su + sv - 1) = Ok ("cfl_alpha", [spec_cfl_u su sv + 1], s) /\
  (sound (encode_cfl_alpha_u s (3 * su + sv - 1)) <-> ~ (su = 2 /\ sv = 2)).
Proof. intros s su sv A B N S. split; [exact (cfl_u_val s su sv A B N)|exact (cfl_u_sound_iff s su sv A B N S)]. Qed.
Print Assumptions C45_cfl_alpha_u.
Theorem C45_cfl_alpha_v : forall s su sv, 0 <= su <= 2 -> 0 <= sv <= 2 -> sv <> 0 ->
  (su = 0 /\ sv = 1 -> encode_cfl_alpha_v s (3 * su + sv - 1) = Panic) /\
  (~ (su = 0 /\ sv = 1) -> encode_cfl_alpha_v s (3 * su + sv - 1) = Ok ("cfl_alpha", [spec_cfl_v su sv - 1], s)).
Proof.
  intros s su sv A B N. split.
  - intros [-> ->]. exact (cfl_v_panics s).
  - intros X. apply cfl_v_val; try assumption. unfold spec_cfl_v. lia.
Qed.
Print Assumptions C45_cfl_alpha_v.
Theorem C45_cfl_alpha_refuted : (forall c st out, state_ok st -> run_writer c st out (encode_cfl_alpha_u 3 (3 * 2 + 2 - 1)) = Panic) /\
  encode_cfl_alpha_v 3 (3 * 0 + 1 - 1) = Panic.
Proof.
  split; [|reflexivity]. intros c st out S.
  apply (out_of_range_panics st "cfl_alpha" [6] 3 [6]%nat 16%nat c out S).
  - apply shape_in. vm_compute. reflexivity.
  - intros P. inversion P; subst. lia.
Qed.
Print Assumptions C45_cfl_alpha_refuted.

(** A transform split cannot be coded for a block without a neighbour above or to the
    left: sizes are added to the context instead of being compared. *)
Theorem C45_txfm_split_refuted : forall f r0 c0 r c s t b st e out, frame_ok f r c -> inner r0 c0 r c -> transform_size t -> block_size b ->
  state_ok st -> above_of f r0 r c = None \/ left_of f c0 r c = None ->
  run_writer e st out (encode_txfm_split s r c r c f t b) = Panic.
Proof.
  intros f r0 c0 r c s t b st e out F I T B S N.
  destruct (txfm_split_val f r0 c0 r c s t b F I T B) as (ctx & -> & _ & X). specialize (X N).
  apply (out_of_range_panics st "txfm_split" [ctx] s [21]%nat 2%nat e out S).
  - apply shape_in. vm_compute. reflexivity.
  - intros P. inversion P; subst. lia.
Qed.
Print Assumptions C45_txfm_split_refuted.
Example C45_txfm_split_case : above_of ex_frame 0 1 0 = None /\ frame_ok ex_frame 1 0.
Proof.
  split; [reflexivity|]. destruct ex_frame_ok as (R & C & A & B & _ & _ & M). exists R, C. split; [exact A|]. split; [exact B|].
  cbn in A. unfold len in A. cbn in A. assert (C = 2) by (rewrite <- (B [None; Some ex_above]) by (left; reflexivity); reflexivity). split; [lia|]. split; [lia|exact M].
Qed.

(** Intra transform types are coded as they are numbered, not by their position in
    the set: of the seven (five) types only those below 7 (5) can be coded. *)
Theorem C45_intra_tx_type_exactly : forall ty set t y, 0 <= ty < 16 -> 0 <= t < 19 -> 0 <= y < 13 ->
  Z.min (Tx_Width t) (Tx_Height t) < 64 -> (set = 1 \/ set = 2) -> forall fm,
  (sound (encode_intra_tx_type ty set t false fm y) <-> ty < if set =? 1 then 7 else 5).
Proof. exact intra_tx_type_sound_iff. Qed.
Print Assumptions C45_intra_tx_type_exactly.
Theorem C45_intra_tx_type_refuted : exists ty, In ty (spec_set_types false (spec_tx_set 1 false false)) /\
  ~ sound (encode_intra_tx_type ty (spec_tx_set 1 false false) 1 false 0 0).
Proof.
  exists 9. split; [vm_compute; tauto|]. intros S. apply (intra_tx_type_sound_iff 9 1 1 0) in S; try lia; [vm_compute in S; discriminate|reflexivity].
Qed.
Print Assumptions C45_intra_tx_type_refuted.

(** In a new frame no block is stored. Nothing in the crate stores one, so the
    interpolation filter can never be coded; and rows below the last whole 4x4 row
    (the frame has 2 * ((h + 7) / 8) rows) are outside the table. *)
Theorem C45_new_frame_refuted : forall w h rows cols sx sy s r c dir,
  encode_interp_filter s (mkFr (new_mis w h) rows cols sx sy) r c dir = Panic /\
  (0 <= h -> h / 4 < r -> encode_skip s (mkFr (new_mis w h) rows cols sx sy) r c = Panic).
Proof.
  intros. split; [apply new_frame_interp_panics|]. intros H R. apply new_frame_row_panics; assumption.
Qed.
Print Assumptions C45_new_frame_refuted.
Example C45_new_frame_case : 6 / 4 < 2 /\ 2 < 2 * ((10 + 7) / 8).
Proof. split; reflexivity. Qed.

(** ** C57 *)

(** Inside a tile ([inner]: the position is not at a tile edge that is inside the
    frame) these writers use the context of the specification. *)
Theorem C57_contexts_conform : forall f r0 c0 r c s, frame_ok f r c -> inner r0 c0 r c ->
  let u := above_of f r0 r c in let l := left_of f c0 r c in
  (forall b, encode_is_inter b f r c = Ok ("is_inter", [spec_is_inter u l], b2z b)) /\
  encode_comp_mode s f r c = Ok ("comp_mode", [spec_comp_mode u l], s) /\
  encode_seg_id_predicted s f r c = Ok ("segment_id_predicted", [at_nb m_seg_id_predicted 0 u + at_nb m_seg_id_predicted 0 l], s) /\
  encode_skip_mode s f r c = Ok ("skip_mode", [at_nb m_skip_mode 0 u + at_nb m_skip_mode 0 l], s) /\
  encode_skip s f r c = Ok ("skip", [b2z (at_nb m_skip false u) + b2z (at_nb m_skip false l)], s) /\
  encode_comp_group_idx s f r c = Ok ("comp_group_idx", [spec_comp_group_idx u l], s) /\
  (forall b, encode_has_palette_y s f r c b =
     Ok ("palette_y_mode", [b; b2z (0 <? at_nb (fun m => nth 0 (m_palette m) 0) 0 u) + b2z (0 <? at_nb (fun m => nth 0 (m_palette m) 0) 0 l)], s)).
Proof.
  intros f r0 c0 r c s F I u l.
  split; [intros b; apply is_inter_ok; assumption|]. split; [apply comp_mode_ok; assumption|].
  split; [apply seg_id_predicted_ok; assumption|]. split; [apply skip_mode_ok; assumption|]. split; [apply skip_ok; assumption|].
  split; [apply comp_group_idx_ok; assumption|]. intros b. apply has_palette_y_ok; assumption.
Qed.
Print Assumptions C57_contexts_conform.

(** All reference frame writers compare the right groups of references. *)
Theorem C57_reference_contexts : forall f r0 c0 r c s, frame_ok f r c -> inner r0 c0 r c ->
  let ctx g0 g1 := spec_counts g0 g1 (above_of f r0 r c) (left_of f c0 r c) in
  encode_comp_ref s f r c = Ok ("comp_ref", [ctx [1; 2] [3; 4]; 0], s) /\
  encode_comp_ref_p1 s f r c = Ok ("comp_ref", [ctx [1] [2]; 1], s) /\
  encode_comp_ref_p2 s f r c = Ok ("comp_ref", [ctx [3] [4]; 2], s) /\
  encode_comp_bwdref s f r c = Ok ("comp_bwd_ref", [ctx [5; 6] [7]; 0], s) /\
  encode_comp_bwdref_p1 s f r c = Ok ("comp_bwd_ref", [ctx [5] [6]; 1], s) /\
  encode_single_ref_p1 s f r c = Ok ("single_ref", [ctx [1; 2; 3; 4] [5; 6; 7]; 0], s) /\
  encode_single_ref_p2 s f r c = Ok ("single_ref", [ctx [5; 6] [7]; 1], s) /\
  encode_single_ref_p3 s f r c = Ok ("single_ref", [ctx [1; 2] [3; 4]; 2], s) /\
  encode_single_ref_p4 s f r c = Ok ("single_ref", [ctx [1] [2]; 3], s) /\
  encode_single_ref_p5 s f r c = Ok ("single_ref", [ctx [3] [4]; 4], s) /\
  encode_single_ref_p6 s f r c = Ok ("single_ref", [ctx [5] [6]; 5], s) /\
  encode_uni_comp_ref s f r c = Ok ("uni_comp_ref", [ctx [1; 2; 3; 4] [5; 6; 7]; 0], s) /\
  encode_uni_comp_ref_p1 s f r c = Ok ("uni_comp_ref", [ctx [2] [3; 4]; 1], s) /\
  encode_uni_comp_ref_p2 s f r c = Ok ("uni_comp_ref", [ctx [3] [4]; 2], s).
Proof.
  intros f r0 c0 r c s F I ctx. unfold ctx.
  repeat match goal with |- _ /\ _ => split end;
    (apply count_ctx_ok; [exact F|exact I|repeat constructor; cbn; intuition lia|repeat constructor; cbn; intuition lia]).
Qed.
Print Assumptions C57_reference_contexts.

Theorem C57_compound_idx : forall f r0 c0 r c s hints cur ref0 ref1 h0 h1 fwd bwd enable bits,
  frame_ok f r c -> inner r0 c0 r c -> idx hints ref0 = Ok h0 -> idx hints ref1 = Ok h1 ->
  get_relative_dist h0 cur enable bits = Ok fwd -> get_relative_dist h1 cur enable bits = Ok bwd ->
  - 2 ^ 63 < fwd < 2 ^ 63 -> - 2 ^ 63 < bwd < 2 ^ 63 ->
  encode_compound_idx s hints cur ref0 ref1 f r c enable bits =
  Ok ("compound_idx", [spec_compound_idx fwd bwd (above_of f r0 r c) (left_of f c0 r c)], s).
Proof. exact compound_idx_ok. Qed.
Print Assumptions C57_compound_idx.

(** The segment id context: right if an available block above left implies available
    blocks above and to the left. *)
Theorem C57_segment_id : forall s u l ul, (0 <= ul -> 0 <= u /\ 0 <= l) ->
  encode_segment_id s u l ul = Ok ("segment_id", [spec_segment_id ul u l], s).
Proof. exact segment_id_ok. Qed.
Print Assumptions C57_segment_id.

Example C57_case : inner 0 0 1 1 /\
  spec_is_inter (Some ex_above) (Some ex_left) = 0 /\ spec_comp_mode (Some ex_above) (Some ex_left) = 2 /\
  spec_comp_group_idx (Some ex_above) (Some ex_left) = 1 /\ spec_counts [1] [2] (Some ex_above) (Some ex_left) = 2 /\
  spec_counts [5] [6] (Some ex_above) (Some ex_left) = 2 /\ spec_counts [3] [4] (Some ex_above) (Some ex_left) = 1 /\
  spec_compound_idx (-2) 2 (Some ex_above) (Some ex_left) = 4 /\ spec_segment_id 3 3 2 = 1 /\
  encode_compound_idx 1 [0; 4; 0; 0; 0; 8] 6 1 5 ex_frame 1 1 true 7 = Ok ("compound_idx", [4], 1).
Proof. split; [split; left; reflexivity|]. vm_compute. repeat split. Qed.

(** Elements whose CDF depends on the block size, the mode or the arguments only:
    CDF and indices in the order of the specification. (For inter-intra the
    specification leaves out the first size group, the tables here keep it.) *)
Theorem C57_block_contexts : forall s b, block_size b ->
  encode_y_mode s b = Ok ("y_mode", [spec_size_group b], s) /\
  encode_interintra s b = Ok ("inter_intra", [spec_size_group b], s) /\
  encode_interintra_mode s b = Ok ("inter_intra_mode", [spec_size_group b], s) /\
  encode_wedge_interintra s b = Ok ("wedge_inter_intra", [b], s) /\ encode_wedge_index s b = Ok ("wedge_index", [b], s) /\
  encode_use_filter_intra s b = Ok ("filter_intra", [b], s) /\ encode_motion_mode s b = Ok ("motion_mode", [b], s) /\
  encode_compound_type s b = Ok ("compound_type", [b], s) /\ encode_use_obmc s b = Ok ("use_obmc", [b], s).
Proof.
  intros s b B. unfold encode_y_mode, encode_interintra, encode_interintra_mode. rewrite (size_group_ok b B). repeat split.
Qed.
Print Assumptions C57_block_contexts.
Theorem C57_mode_contexts : forall s a l, 0 <= a < 13 -> 0 <= l < 13 ->
  encode_intra_frame_y_mode s a l = Ok ("intra_frame_y_mode", [spec_mode_context a; spec_mode_context l], s) /\
  (1 <= a <= 8 -> encode_angle_delta s a = Ok ("angle_delta", [a - 1], s)) /\
  (forall r n, 0 <= r < 6 -> 0 <= n -> encode_compound_mode s r n = Ok ("compound_mode", [spec_compound_mode r n], s)).
Proof.
  intros s a l A L. unfold encode_intra_frame_y_mode. rewrite (mode_context_ok a A), (mode_context_ok l L). split; [reflexivity|]. split.
  - intros H. unfold encode_angle_delta, V_PRED. rewrite chk_u64_ok by lia. reflexivity.
  - intros r n R N. apply compound_mode_ok; assumption.
Qed.
Print Assumptions C57_mode_contexts.
Theorem C57_mv_contexts : forall s mv_ctx comp,
  encode_mv_joint s mv_ctx = Ok ("mv_joint", [mv_ctx], s) /\ encode_mv_sign s mv_ctx comp = Ok ("mv_sign", [mv_ctx; comp], s) /\
  encode_mv_class s mv_ctx comp = Ok ("mv_class", [mv_ctx; comp], s) /\ encode_mv_class0_bit s mv_ctx comp = Ok ("mv_class0_bit", [mv_ctx; comp], s) /\
  (forall bit, encode_mv_class0_fr s bit mv_ctx comp = Ok ("mv_class0_fr", [mv_ctx; comp; bit], s)) /\
  encode_mv_class0_hp s mv_ctx comp = Ok ("mv_class0_hp", [mv_ctx; comp], s) /\ encode_mv_fr s mv_ctx comp = Ok ("mv_fr", [mv_ctx; comp], s) /\
  encode_mv_hp s mv_ctx comp = Ok ("mv_hp", [mv_ctx; comp], s) /\ (forall i, encode_mv_bit s i mv_ctx comp = Ok ("mv_bit", [mv_ctx; comp; i], s)).
Proof. repeat split. Qed.
Print Assumptions C57_mv_contexts.
(** Palette colours: the table of the palette size; hashes that no neighbourhood has
    are rejected. *)
Theorem C57_palette_contexts : forall s h n, 2 <= n <= 8 -> 0 <= h <= 8 ->
  match spec_color_context h with
  | Some ctx =>
      encode_palette_color_idx_y s h n = Ok (nth (Z.to_nat (n - 2)) ["palette_size_2_y_color"; "palette_size_3_y_color"; "palette_size_4_y_color";
        "palette_size_5_y_color"; "palette_size_6_y_color"; "palette_size_7_y_color"; "palette_size_8_y_color"] "", [ctx], s) /\
      encode_palette_color_idx_uv s h n = Ok (nth (Z.to_nat (n - 2)) ["palette_size_2_uv_color"; "palette_size_3_uv_color"; "palette_size_4_uv_color";
        "palette_size_5_uv_color"; "palette_size_6_uv_color"; "palette_size_7_uv_color"; "palette_size_8_uv_color"] "", [ctx], s)
  | None => encode_palette_color_idx_y s h n = Panic /\ encode_palette_color_idx_uv s h n = Panic
  end.
Proof.
  intros s h n N H. unfold encode_palette_color_idx_y, encode_palette_color_idx_uv.
  destruct (spec_color_context h) as [ctx|] eqn:E.
  - rewrite !(color_context_ok _ s h n ctx E). assert (C : n = 2 \/ n = 3 \/ n = 4 \/ n = 5 \/ n = 6 \/ n = 7 \/ n = 8) by lia.
    repeat (destruct C as [->|C]; [split; reflexivity|]). subst. split; reflexivity.
  - rewrite !color_context_none by assumption. split; reflexivity.
Qed.
Print Assumptions C57_palette_contexts.
Theorem C57_other_contexts : forall s,
  (forall n, 0 <= n -> encode_has_palette_uv s n = Ok ("palette_uv_mode", [if n =? 0 then 0 else 1], s)) /\
  (forall b, encode_palette_size_y_minus_2 s b = Ok ("palette_y_size", [b], s) /\ encode_palette_size_uv_minus_2 s b = Ok ("palette_uv_size", [b], s)) /\
  (forall i, encode_delta_lf_abs s 0 i = Ok ("delta_lf", [], s) /\ encode_delta_lf_abs s 1 i = Ok ("delta_lf_multi", [i], s)) /\
  (forall ctx, encode_new_mv s ctx = Ok ("new_mv", [ctx], s) /\ encode_zero_mv s ctx = Ok ("zero_mv", [ctx], s) /\ encode_ref_mv s ctx = Ok ("ref_mv", [ctx], s)) /\
  (forall i stack ctx, 0 <= i -> nth_error stack (Z.to_nat i) = Some ctx -> encode_drl_mode s i stack = Ok ("drl_mode", [ctx], s)) /\
  encode_delta_q_abs s = Ok ("delta_q", [], s) /\ encode_filter_intra_mode s = Ok ("filter_intra_mode", [], s) /\ encode_cfl_alpha_signs s = Ok ("cfl_sign", [], s) /\
  encode_use_wiener s = Ok ("use_wiener", [], s) /\ encode_use_sgrproj s = Ok ("use_sgrproj", [], s) /\ encode_restoration_type s = Ok ("restoration_type", [], s).
Proof.
  intros s. split; [|split; [|split; [|split; [|split]]]]; [| | | | |repeat split].
  - intros n H. unfold encode_has_palette_uv. destruct (Z.ltb_spec 0 n), (Z.eqb_spec n 0); try lia; reflexivity.
  - split; reflexivity.
  - split; reflexivity.
  - repeat split.
  - intros i st ctx H N. unfold encode_drl_mode, idx. destruct (Z.ltb_spec i 0); [lia|]. rewrite N. reflexivity.
Qed.
Print Assumptions C57_other_contexts.
Example C57_block_case : block_size 17 /\ spec_size_group 17 = 0 /\ spec_size_group 15 = 3 /\ spec_mode_context 7 = 4 /\ spec_compound_mode 4 9 = 7.
Proof. unfold block_size. split; [lia|]. repeat split. Qed.

(** At a tile edge inside the frame the writers use the block of the other tile. *)
Theorem C57_tile_edge_refuted : exists f r0 c0 r c, frame_ok f r c /\ 0 <= r0 <= r /\ 0 <= c0 <= c /\
  encode_skip 0 f r c <> Ok ("skip", [b2z (at_nb m_skip false (above_of f r0 r c)) + b2z (at_nb m_skip false (left_of f c0 r c))], 0).
Proof.
  exists ex_frame, 1, 1, 1, 1. split; [exact ex_frame_ok|]. split; [lia|]. split; [lia|]. vm_compute. discriminate.
Qed.
Print Assumptions C57_tile_edge_refuted.

(** The compound reference type: exactly characterised. *)
Theorem C57_comp_ref_type_exactly : forall f r0 c0 r c s, frame_ok f r c -> inner r0 c0 r c ->
  (encode_comp_ref_type s f r c = Ok ("comp_ref_type", [spec_comp_ref_type (above_of f r0 r c) (left_of f c0 r c)], s) <->
   ~ both_uni_above (above_of f r0 r c) (left_of f c0 r c)).
Proof.
  intros f r0 c0 r c s F I. split; [intros E H; exact (comp_ref_type_wrong f r0 c0 r c s F I H E)|apply comp_ref_type_ok; assumption].
Qed.
Print Assumptions C57_comp_ref_type_exactly.
Definition ex_uni : mi := mkMi 3 1 0 true false false false 0 0 5 7 [0; 0] [0; 0; 0] [0; 0; 0] [0; 0; 0] 0 0.
Lemma ex_uni_ok : mi_ok ex_uni.
Proof. unfold ex_uni. block_ok. Qed.
Theorem C57_comp_ref_type_refuted : exists u l, mi_ok u /\ mi_ok l /\
  comp_ref_type_ctx (Some u) (Some l) = 3 /\ spec_comp_ref_type (Some u) (Some l) = 2.
Proof.
  exists ex_uni, ex_left. split; [exact ex_uni_ok|].
  split; [exact ex_left_ok|]. split; reflexivity.
Qed.
Print Assumptions C57_comp_ref_type_refuted.

(** The transform depth: right unless the block to the left is inter coded and only
    one of its width and height reaches the height of the transform. *)
Theorem C57_tx_depth_exactly : forall f r0 c0 r c s t d, frame_ok f r c -> inner r0 c0 r c -> 0 <= t < 19 ->
  (encode_tx_depth s t d f r c = Ok (depth_table d, [spec_tx_depth t (above_of f r0 r c) (left_of f c0 r c)], s)) <->
  ~ left_height_matters t (left_of f c0 r c).
Proof. exact tx_depth_iff. Qed.
Print Assumptions C57_tx_depth_exactly.
Theorem C57_tx_depth_refuted : exists f r c, frame_ok f r c /\ left_height_matters 2 (left_of f 0 r c).
Proof. exists ex_frame, 1, 1. split; [exact ex_frame_ok|]. vm_compute. split; [reflexivity|discriminate]. Qed.
Print Assumptions C57_tx_depth_refuted.

(** The transform split context is never the right one. *)
Theorem C57_txfm_split_refuted : forall f r0 c0 r c s t b, frame_ok f r c -> inner r0 c0 r c -> 0 <= t < 19 -> 0 <= b < 22 ->
  encode_txfm_split s r c r c f t b <> Ok ("txfm_split", [spec_txfm_split t b (above_of f r0 r c) (left_of f c0 r c)], s).
Proof.
  intros f r0 c0 r c s t b F I T B E. destruct (txfm_split_val f r0 c0 r c s t b F I T B) as (ctx & X & G & _). rewrite X in E. injection E as ->. lia.
Qed.
Print Assumptions C57_txfm_split_refuted.

(** The interpolation filter: the encoder compares second references with each other,
    AV1 a neighbour's second reference with the first one of the block. The context is
    right exactly if the two readings agree on which filter, if any, is the only one
    of the neighbours. *)
Theorem C57_interp_filter_exactly : forall f r0 c0 r c s dir m, frame_ok f r c -> inner r0 c0 r c -> cell f r c = Some m -> 0 <= dir <= 1 ->
  let ours n := taken_filter dir (fun n => (Ref0 n =? m_ref0 m) || (Ref1 n =? m_ref1 m)) n in
  let theirs n := taken_filter dir (fun n => (Ref0 n =? m_ref0 m) || (Ref1 n =? m_ref0 m)) n in
  let u := above_of f r0 r c in let l := left_of f c0 r c in
  (encode_interp_filter s f r c dir = Ok ("interp_filter", [spec_interp_filter dir (m_ref0 m) (m_ref1 m) u l], s) <->
   forall v, 0 <= v < 3 -> (only_filter v (ours u) (ours l) <-> only_filter v (theirs u) (theirs l))).
Proof. exact interp_filter_exactly. Qed.
Print Assumptions C57_interp_filter_exactly.
(** In particular it is right when no neighbour differs in the first reference
    while its second reference equals only one of the two references of the block. *)
Theorem C57_interp_filter_same_references : forall f r0 c0 r c s dir m, frame_ok f r c -> inner r0 c0 r c -> cell f r c = Some m -> 0 <= dir <= 1 ->
  (forall n, n = above_of f r0 r c \/ n = left_of f c0 r c -> Ref0 n <> m_ref0 m -> (Ref1 n = m_ref1 m <-> Ref1 n = m_ref0 m)) ->
  encode_interp_filter s f r c dir =
  Ok ("interp_filter", [spec_interp_filter dir (m_ref0 m) (m_ref1 m) (above_of f r0 r c) (left_of f c0 r c)], s).
Proof. exact interp_filter_ok. Qed.
Print Assumptions C57_interp_filter_same_references.
(** A neighbour with another single reference (second reference NONE) is taken to
    match a block with a single reference. *)
Definition ex_here2 : mi := mkMi 6 2 0 true false false true 0 0 2 (-1) [0; 1] [0; 0; 0] [0; 0; 0] [0; 0; 0] 0 0.
Theorem C57_interp_filter_refuted : exists f r c m, frame_ok f r c /\ cell f r c = Some m /\
  encode_interp_filter 0 f r c 0 <> Ok ("interp_filter", [spec_interp_filter 0 (m_ref0 m) (m_ref1 m) (above_of f 0 r c) (left_of f 0 r c)], 0).
Proof.
  exists (mkFr [[None; Some ex_above]; [None; Some ex_here2]] 2 2 true true), 1, 1, ex_here2. split; [|split; [reflexivity|vm_compute; discriminate]].
  exists 2, 2. split; [reflexivity|]. split; [intros row [<-|[<-|[]]]; reflexivity|]. split; [lia|]. split; [lia|].
  intros i j m. unfold cell. destruct (Z.to_nat i) as [|[|k]]; cbn [f_mis nth_error]; [| |destruct k; discriminate];
  (destruct (Z.to_nat j) as [|[|q]]; cbn [nth_error]; [| |destruct q; discriminate]); intros E; try discriminate; injection E as <-; [exact ex_above_ok|].
  unfold ex_here2. block_ok.
Qed.
Print Assumptions C57_interp_filter_refuted.
Example C57_interp_filter_exactly_case : let ours n := taken_filter 1 (fun n => (Ref0 n =? 1) || (Ref1 n =? 7)) n in
  let theirs n := taken_filter 1 (fun n => (Ref0 n =? 1) || (Ref1 n =? 1)) n in
  ours (Some ex_above) = 0 /\ ours (Some ex_left) = 2 /\ theirs (Some ex_above) = 0 /\ theirs (Some ex_left) = 2 /\
  ~ only_filter 0 0 2 /\ only_filter 2 2 3.
Proof. vm_compute. repeat split; try reflexivity; try tauto; try (left; reflexivity); try (right; reflexivity). intros (_ & _ & [X|X]); discriminate X. Qed.
Example C57_interp_filter_case : cell ex_frame 1 1 = Some ex_here /\
  (forall n, n = above_of ex_frame 0 1 1 \/ n = left_of ex_frame 0 1 1 -> Ref0 n <> m_ref0 ex_here -> (Ref1 n = m_ref1 ex_here <-> Ref1 n = m_ref0 ex_here)) /\
  encode_interp_filter 2 ex_frame 1 1 1 = Ok ("interp_filter", [15], 2).
Proof. split; [reflexivity|]. split; [|vm_compute; reflexivity]. intros n [->| ->]; vm_compute; intros X; exfalso; apply X; reflexivity. Qed.

(** The flag "all coefficients are zero". AV1 looks at the level contexts [A], [L] of
    every 4x4 unit along the edges of the transform block, the code for every unit at
    the same one block ([seen]: if the edge starts inside the frame). Luma: the context
    is right exactly if the transform covers the block or both readings find the same
    two kinds of edges (no level, small, large), in either order. *)
Theorem C57_all_zero_luma_exactly : forall s t tc f b r0 c0 r c w4 h4 x4 y4 A L, transform_size t -> block_size b -> frame_ok f r c -> inner r0 c0 r c ->
  0 <= w4 -> 0 <= h4 -> 0 <= x4 -> 0 <= y4 ->
  let whole := (Block_Width b =? Tx_Width t) && (Block_Height b =? Tx_Height t) in
  let top := edge_level A x4 w4 (f_mi_cols f) in let left := edge_level L y4 h4 (f_mi_rows f) in
  (encode_all_zero s 0 t tc f b r c w4 h4 x4 y4 = Ok ("txb_skip", [0; tc; spec_all_zero_luma whole top left], s) <->
   whole = true \/
   same_two (level_class (seen w4 x4 (f_mi_cols f) (lvl 0 (above_of f r0 r c)))) (level_class (seen h4 y4 (f_mi_rows f) (lvl 0 (left_of f c0 r c))))
            (level_class top) (level_class left)).
Proof. exact all_zero_luma_exactly. Qed.
Print Assumptions C57_all_zero_luma_exactly.
(** In particular it is right if each edge has the level of the block looked at. *)
Theorem C57_all_zero_luma_alike : forall s t tc f b r0 c0 r c w4 h4 x4 y4 A L, transform_size t -> block_size b -> frame_ok f r c -> inner r0 c0 r c ->
  0 <= w4 -> 0 <= h4 -> 0 <= x4 -> 0 <= y4 ->
  (forall x, x4 <= x < Z.min (f_mi_cols f) (x4 + w4) -> A x = lvl 0 (above_of f r0 r c)) ->
  (forall y, y4 <= y < Z.min (f_mi_rows f) (y4 + h4) -> L y = lvl 0 (left_of f c0 r c)) ->
  encode_all_zero s 0 t tc f b r c w4 h4 x4 y4 =
  Ok ("txb_skip", [0; tc; spec_all_zero_luma ((Block_Width b =? Tx_Width t) && (Block_Height b =? Tx_Height t))
                          (edge_level A x4 w4 (f_mi_cols f)) (edge_level L y4 h4 (f_mi_rows f))], s).
Proof. exact all_zero_luma_alike. Qed.
Print Assumptions C57_all_zero_luma_alike.
(** Chroma: exactly if both readings find the same number of edges with coefficients. *)
Theorem C57_all_zero_chroma_exactly : forall s plane t tc f b r0 c0 r c w4 h4 x4 y4 A DA L DL, transform_size t -> block_size b -> frame_ok f r c -> inner r0 c0 r c ->
  0 <= w4 -> 0 <= h4 -> 0 <= x4 -> 0 <= y4 -> 1 <= plane -> chroma_ok f plane b ->
  let smaller := Tx_Width t * Tx_Height t <? Z.max 4 (if f_subx f then Block_Width b / 2 else Block_Width b) * Z.max 4 (if f_suby f then Block_Height b / 2 else Block_Height b) in
  let top := edge_coded A DA x4 w4 (plane_units (f_mi_cols f) (f_subx f)) in
  let left := edge_coded L DL y4 h4 (plane_units (f_mi_rows f) (f_suby f)) in
  let coded n := negb (lvl plane n =? 0) || negb (dcs plane n =? 0) in
  let top' := (0 <? inside w4 x4 (f_mi_cols f / 2 ^ b2z (f_subx f))) && coded (above_of f r0 r c) in
  let left' := (0 <? inside h4 y4 (f_mi_rows f / 2 ^ b2z (f_suby f))) && coded (left_of f c0 r c) in
  (encode_all_zero s plane t tc f b r c w4 h4 x4 y4 = Ok ("txb_skip", [0; tc; spec_all_zero_chroma smaller top left], s) <->
   b2z top' + b2z left' = b2z top + b2z left).
Proof. exact all_zero_chroma_exactly. Qed.
Print Assumptions C57_all_zero_chroma_exactly.
(** Two blocks above, the first without and the second with coefficients. *)
Definition ex_zero : mi := mkMi 0 0 0 true false false true 0 0 1 (-1) [0; 0] [0; 0; 0] [0; 0; 0] [0; 0; 0] 0 0.
Definition ex_frame3 : frame := mkFr [[None; Some ex_zero; Some ex_above]; [Some ex_left; Some ex_here; None]] 2 3 true true.
Lemma ex_zero_ok : mi_ok ex_zero.
Proof. unfold ex_zero. block_ok. Qed.
Lemma ex_frame3_ok : frame_ok ex_frame3 1 1.
Proof.
  exists 2, 3. split; [reflexivity|]. split; [intros row [<-|[<-|[]]]; reflexivity|]. split; [lia|]. split; [lia|].
  intros i j m. unfold cell. destruct (Z.to_nat i) as [|[|k]]; cbn [ex_frame3 f_mis nth_error]; [| |destruct k; discriminate];
  (destruct (Z.to_nat j) as [|[|[|q]]]; cbn [nth_error]; [| | |destruct q; discriminate]); intros E; try discriminate; injection E as <-.
  - exact ex_zero_ok.
  - exact ex_above_ok.
  - exact ex_left_ok.
  - exact ex_here_ok.
Qed.
Theorem C57_all_zero_refuted : exists f r c t tc b w4 h4, frame_ok f r c /\ transform_size t /\ block_size b /\ w4 = Tx_Width t / 4 /\ h4 = Tx_Height t / 4 /\
  let A x := lvl 0 (cell f (r - 1) x) in let L y := lvl 0 (cell f y (c - 1)) in
  encode_all_zero 1 0 t tc f b r c w4 h4 c r <>
  Ok ("txb_skip", [0; tc; spec_all_zero_luma ((Block_Width b =? Tx_Width t) && (Block_Height b =? Tx_Height t))
                          (edge_level A c w4 (f_mi_cols f)) (edge_level L r h4 (f_mi_rows f))], 1).
Proof.
  exists ex_frame3, 1, 1, 1, 1, 6, 2, 2. split; [exact ex_frame3_ok|]. split; [unfold transform_size; lia|]. split; [unfold block_size; lia|].
  split; [reflexivity|]. split; [reflexivity|]. vm_compute. discriminate.
Qed.
Print Assumptions C57_all_zero_refuted.
(** The contexts the code uses, in terms of the one block on each side. *)
Theorem C57_all_zero_luma_value : forall s t tc f b r0 c0 r c w4 h4 x4 y4, transform_size t -> block_size b -> frame_ok f r c -> inner r0 c0 r c ->
  0 <= w4 -> 0 <= h4 -> 0 <= x4 -> 0 <= y4 ->
  encode_all_zero s 0 t tc f b r c w4 h4 x4 y4 =
  Ok ("txb_skip", [0; tc; spec_all_zero_luma ((Block_Width b =? Tx_Width t) && (Block_Height b =? Tx_Height t))
        (seen w4 x4 (f_mi_cols f) (lvl 0 (above_of f r0 r c))) (seen h4 y4 (f_mi_rows f) (lvl 0 (left_of f c0 r c)))], s).
Proof. exact all_zero_luma_ok. Qed.
Print Assumptions C57_all_zero_luma_value.
Theorem C57_all_zero_chroma_value : forall s plane t tc f b r0 c0 r c w4 h4 x4 y4, transform_size t -> block_size b -> frame_ok f r c -> inner r0 c0 r c ->
  0 <= w4 -> 0 <= h4 -> 0 <= x4 -> 0 <= y4 -> 1 <= plane -> chroma_ok f plane b ->
  encode_all_zero s plane t tc f b r c w4 h4 x4 y4 =
  Ok ("txb_skip", [0; tc; all_zero_chroma
       (Tx_Width t * Tx_Height t <? Z.max 4 (if f_subx f then Block_Width b / 2 else Block_Width b) * Z.max 4 (if f_suby f then Block_Height b / 2 else Block_Height b))
       (seen w4 x4 (f_mi_cols f / 2 ^ b2z (f_subx f)) (Z.lor (lvl plane (above_of f r0 r c)) (dcs plane (above_of f r0 r c))))
       (seen h4 y4 (f_mi_rows f / 2 ^ b2z (f_suby f)) (Z.lor (lvl plane (left_of f c0 r c)) (dcs plane (left_of f c0 r c))))], s).
Proof. exact all_zero_chroma_ok. Qed.
Print Assumptions C57_all_zero_chroma_value.
Example C57_all_zero_case : encode_all_zero 1 0 1 1 ex_frame 6 1 1 2 2 1 1 = Ok ("txb_skip", [0; 1; 2], 1) /\
  encode_all_zero 1 1 1 1 ex_frame 6 1 1 2 2 0 0 = Ok ("txb_skip", [0; 1; 8], 1) /\ chroma_ok ex_frame 1 6.
Proof. split; [reflexivity|]. split; [reflexivity|]. split; [lia|]. split; [reflexivity|]. right. left. reflexivity. Qed.

(** ** C58 *)

(** The context of a coefficient is the one of the specification, for every transform
    size and type, position and coefficients, negative ones included. *)
Theorem C58_coeff_base : forall t ty row col ci quant, 0 <= t < 19 -> 0 <= ty < 16 ->
  0 <= row < coded_height t -> 0 <= col < coded_width t ->
  coded_width t * coded_height t <= len quant -> Forall (fun x => - 2 ^ 63 < x < 2 ^ 63) quant ->
  base_ctx t ty (row * coded_width t + col) ci false quant = Ok (spec_coeff_base t ty row col (at_quant quant t)).
Proof. exact base_ctx_ok. Qed.
Print Assumptions C58_coeff_base.

(** The range context: right for coefficients that are not negative. *)
Theorem C58_coeff_br : forall t ty row col quant, 0 <= t < 19 -> 0 <= ty < 16 ->
  0 <= row < coded_height t -> 0 <= col < coded_width t ->
  coded_width t * coded_height t <= len quant -> Forall (fun x => 0 <= x < 2 ^ 63) quant ->
  br_ctx t ty (row * coded_width t + col) quant = Ok (spec_coeff_br t ty row col (at_quant quant t)).
Proof. exact br_ctx_ok. Qed.
Print Assumptions C58_coeff_br.
(** For all coefficients: a negative coefficient counts as 15 or more. *)
Theorem C58_coeff_br_exactly : forall t ty row col quant, 0 <= t < 19 -> 0 <= ty < 16 ->
  0 <= row < coded_height t -> 0 <= col < coded_width t ->
  coded_width t * coded_height t <= len quant -> Forall (fun x => - 2 ^ 63 <= x < 2 ^ 63) quant ->
  br_ctx t ty (row * coded_width t + col) quant = Ok (spec_coeff_br t ty row col (fun r c => mag_of (at_quant quant t r c))).
Proof. exact br_ctx_val. Qed.
Print Assumptions C58_coeff_br_exactly.
Theorem C58_coeff_br_refuted : exists quant, coded_width 0 * coded_height 0 <= len quant /\
  br_ctx 0 0 0 quant = Ok 6 /\ spec_coeff_br 0 0 0 0 (at_quant quant 0) = 1.
Proof. exists (0 :: -1 :: repeat 0 14). split; [vm_compute; discriminate|]. split; reflexivity. Qed.
Print Assumptions C58_coeff_br_refuted.

Example C58_case : base_ctx 0 0 5 0 false [9; 2; -3; 0; 1; 7; 1; 0; 0; -1; 0; 0; 0; 0; 0; 0] = Ok 7 /\
  spec_coeff_base 0 0 1 1 (at_quant [9; 2; -3; 0; 1; 7; 1; 0; 0; -1; 0; 0; 0; 0; 0; 0] 0) = 7 /\
  br_ctx 14 11 17 (map Z.of_nat (seq 0 64)) = Ok 20 /\ coded_width 14 * 1 + 1 = 17.
Proof. vm_compute. repeat split. Qed.

(** The transform type of intra blocks is the one of the specification ... *)
Theorem C58_intra_tx_type : forall plane t x y f lossless red uv r c ty, 0 <= t < 19 -> 0 <= ty < 16 -> 0 <= r -> 0 <= c ->
  type_source plane x y f false uv r c ty ->
  compute_tx_type plane t x y f lossless false red uv r c = Ok (spec_tx_type t lossless false red ty).
Proof. intros. rewrite <- code_tx_type_intra. apply compute_tx_type_ok; assumption. Qed.
Print Assumptions C58_intra_tx_type.

(** ... but the sets of inter blocks are shifted by one: the result is right exactly
    for these types. In particular small inter blocks always get the DCT. *)
Theorem C58_inter_tx_type_exactly : forall plane t x y f red uv r c ty, 0 <= t < 19 -> 0 <= ty < 16 -> 0 <= r -> 0 <= c ->
  type_source plane x y f true uv r c ty ->
  (compute_tx_type plane t x y f false true red uv r c = Ok (spec_tx_type t false true red ty) <->
   match spec_tx_set t true red with
   | 1 => ty = 0
   | 2 => ty <= 11
   | 3 => ty = 0 \/ ty = 9 \/ 12 <= ty
   | _ => True
   end).
Proof.
  intros plane t x y f red uv r c ty T TY R C S. rewrite (compute_tx_type_ok plane t x y f false true red uv r c ty T TY R C S).
  rewrite <- (code_tx_type_inter_iff t red ty T TY). split; [intros E; injection E; auto|congruence].
Qed.
Print Assumptions C58_inter_tx_type_exactly.
Theorem C58_inter_tx_type_refuted : exists f r c, frame_ok f r c /\ type_source 0 0 0 f true 0 r c 3 /\
  compute_tx_type 0 1 0 0 f false true false 0 r c = Ok 0 /\ spec_tx_type 1 false true false 3 = 3.
Proof.
  exists ex_frame, 1, 1. split; [exact ex_frame_ok|]. split; [exists ex_here; split; reflexivity|]. split; reflexivity.
Qed.
Print Assumptions C58_inter_tx_type_refuted.
Example C58_tx_type_case : type_source 1 0 0 ex_frame false 2 1 1 2 /\
  compute_tx_type 1 1 0 0 ex_frame false false false 2 1 1 = Ok 2 /\ compute_tx_type 1 3 0 0 ex_frame false false false 2 1 1 = Ok 0.
Proof. split; [split; [reflexivity|lia]|]. split; reflexivity. Qed.

(** The complete writers, for intra blocks: CDF and indices. (The specification has
    the first index, the set of CDFs, fixed per frame; see below.) *)
Theorem C58_coefficient_writers : forall s t tc ptype plane x4 y4 row col ci f lossless red uv r c quant ty name,
  0 <= t < 19 -> 0 <= ty < 16 -> 0 <= r -> 0 <= c -> type_source plane x4 y4 f false uv r c ty ->
  0 <= row < coded_height t -> 0 <= col < coded_width t ->
  coded_width t * coded_height t <= len quant -> Forall (fun x => 0 <= x < 2 ^ 63) quant ->
  let tt := spec_tx_type t lossless false red ty in
  encode_eob_pt name s f r c uv lossless false red plane t x4 y4 ptype = Ok (name, [0; ptype; if tx_class tt =? 0 then 0 else 1], s) /\
  encode_coeff_base s t tc ptype plane x4 y4 (row * coded_width t + col) ci f lossless false red uv r c quant =
    Ok ("coeff_base", [0; tc; ptype; spec_coeff_base t tt row col (at_quant quant t)], s) /\
  encode_coeff_br s f tc lossless false red uv (row * coded_width t + col) ptype t x4 y4 plane quant r c =
    Ok ("coeff_br", [0; Z.min tc 3; ptype; spec_coeff_br t tt row col (at_quant quant t)], s).
Proof.
  intros s t tc ptype plane x4 y4 row col ci f lossless red uv r c quant ty name T TY R C S RW CL L Q tt.
  assert (X : compute_tx_type plane t x4 y4 f lossless false red uv r c = Ok tt).
  { unfold tt. rewrite <- code_tx_type_intra. apply compute_tx_type_ok; assumption. }
  assert (B : 0 <= tt < 16) by (unfold tt; rewrite <- code_tx_type_intra; apply code_tx_type_range; assumption).
  unfold encode_eob_pt, encode_coeff_base, get_coeff_base_ctx, encode_coeff_br. rewrite X. cbn [bind].
  rewrite base_ctx_ok, br_ctx_ok, (proj1 (class_ok tt B)); try assumption.
  - repeat split.
  - eapply Forall_impl; [|exact Q]. cbn beta. intros a A. lia.
Qed.
Print Assumptions C58_coefficient_writers.
Example C58_writers_case : type_source 1 0 0 ex_frame false 1 1 1 1 /\ coded_width 0 * coded_height 0 <= len (map Z.of_nat (seq 0 16)) /\
  Forall (fun x => 0 <= x < 2 ^ 63) (map Z.of_nat (seq 0 16)) /\
  encode_coeff_br 2 ex_frame 4 false false false 1 (1 * coded_width 0 + 2) 1 0 0 0 1 (map Z.of_nat (seq 0 16)) 1 1 = Ok ("coeff_br", [0; 3; 1; 20], 2).
Proof.
  split; [split; [reflexivity|lia]|]. split; [vm_compute; discriminate|]. split; [|vm_compute; reflexivity].
  apply Forall_forall. intros x Hx. apply in_map_iff in Hx. destruct Hx as (n & <- & Hn). apply in_seq in Hn. lia.
Qed.

(** The set of coefficient CDFs is always the first: right for base_q_idx up to 20. *)
Theorem C58_coefficient_set_exactly : forall w name i path s q,
  In name ["txb_skip"; "eob_pt_16"; "eob_pt_32"; "eob_pt_64"; "eob_pt_128"; "eob_pt_256"; "eob_pt_512"; "eob_pt_1024"; "eob_extra"; "dc_sign"; "coeff_base_eob"; "coeff_base"; "coeff_br"] ->
  legal w -> w = Ok (name, i :: path, s) -> 0 <= q < 256 -> (i = spec_coef_set q <-> q <= 20).
Proof. exact coef_set. Qed.
Print Assumptions C58_coefficient_set_exactly.
Theorem C58_coefficient_set_refuted : exists w name i path s q, legal w /\ w = Ok (name, i :: path, s) /\ 0 <= q < 256 /\ i <> spec_coef_set q.
Proof.
  exists (encode_eob_extra 1 2 1 3), "eob_extra", 0, [2; 1; 3], 1, 100. split; [apply L_eob_extra; unfold bit; lia|]. split; [reflexivity|]. split; [lia|]. discriminate.
Qed.
Print Assumptions C58_coefficient_set_refuted.
