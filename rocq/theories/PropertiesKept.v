(** What a coded unit, block or frame leaves behind: property C119. *)
From Coq Require Import ZArith List Bool Lia.
From Verif Require Import Base BaseProofs ContextModel MvStackModel ModeInfoModel UtilModel BlockTables GeomModel FrameParamModel SeqSpec LrModel LrSpec LrProofs
  CloneModel PropertiesModeInfo PropertiesLr KeptSpec KeptProofs KeptFrameProofs KeptStateProofs.
Import ListNotations.
Open Scope Z_scope.

(** ** C119 *)

(** After a superblock, the type kept for each unit coded with it is the one asked for;
    for a self-guided unit the set and the weights that were coded are kept too. Units
    of other superblocks keep what they had, and so do the Wiener taps. *)
Theorem C119_superblock : forall x sbs row units r c s es s' es',
  lr_sizes_ok x -> Forall (fun t => 0 <= t <= 3) (v_types x) -> 0 <= r <= 2 ^ 50 -> 0 <= c <= 2 ^ 50 ->
  idx sbs (r / sb_of (v_use128 x)) = Ok row -> idx row (c / sb_of (v_use128 x)) = Ok units ->
  encode_lr x sbs r c (if v_use128 x then 15 else 12) s es = Ok (s', es') ->
  let coded := if v_intrabc x then [] else av1_read_lr (frame_of x) r c (sb_of (v_use128 x)) in
  (forall p i j, 0 <= p -> 0 <= i -> 0 <= j -> ~ In (p, i, j) coded ->
     cell (t_type s') p i j 0 = cell (t_type s) p i j 0 /\ cell (t_set s') p i j 0 = cell (t_set s) p i j 0 /\ cell (t_xqd s') p i j [] = cell (t_xqd s) p i j []) /\
  (forall p i j, In (p, i, j) coded ->
     exists u, unit_at units p (i - av1_row_start (frame_of x) p r) (j - av1_col_start (frame_of x) p c) = Ok u /\ (0 <= p /\ 0 <= i /\ 0 <= j) /\
     let k := unit_type (nth (Z.to_nat p) (v_types x) 0) u in k <> 1 /\ cell (t_type s') p i j 0 = k /\
     (k = 2 -> cell (t_set s') p i j 0 = u_set u /\ forall n, n = 0 \/ n = 1 -> has_weight (u_set u) n = true -> nth (Z.to_nat n) (cell (t_xqd s') p i j []) 0 = nth (Z.to_nat n) (u_xqd u) 0) /\
     (k <> 2 -> cell (t_set s') p i j 0 = cell (t_set s) p i j 0 /\ cell (t_xqd s') p i j [] = cell (t_xqd s) p i j [])) /\
  t_taps s' = t_taps s /\ t_ref_taps s' = t_ref_taps s.
Proof. exact superblock_kept. Qed.
Print Assumptions C119_superblock.
(** Two units of varying type: the first filtered, the second not. *)
Example C119_superblock_case : Forall (fun t => 0 <= t <= 3) (v_types env_switch) /\ av1_read_lr (frame_of env_switch) 0 0 32 = [(0, 0, 0); (0, 0, 1)] /\
  match encode_lr env_switch [[[[[unit_sgr 5 (-32) 31; unit_off]]]]] 0 0 15 lr_start [] with
  | Ok (s, _) => cell (t_type s) 0 0 0 0 = 2 /\ cell (t_type s) 0 0 1 0 = 0 /\ cell (t_set s) 0 0 0 0 = 5 /\ cell (t_xqd s) 0 0 0 [] = [-32; 31] /\ cell (t_xqd s) 0 0 1 [] = [0; 0]
  | _ => False
  end.
Proof. split; [repeat (apply Forall_cons; [cbn; lia|]); constructor|]. split; vm_compute; [reflexivity|]. repeat split. Qed.

(** After all superblocks of a frame, in whatever order and whatever happens in between,
    every unit of the frame holds what is asked for; the rest of the tables is as before. *)
Theorem C119_frame : forall x sbs ps s s', lr_sizes_ok x -> Forall (fun t => 0 <= t <= 3) (v_types x) -> v_intrabc x = false ->
  coded_over x sbs ps s s' -> NoDup ps -> (forall i j, In (i, j) ps <-> in_grid x i j) ->
  (forall p row col, frame_unit x p row col -> exists i j line units u, in_grid x i j /\ idx sbs i = Ok line /\ idx line j = Ok units /\
     unit_at units p (row - av1_row_start (frame_of x) p (sb_of (v_use128 x) * i)) (col - av1_col_start (frame_of x) p (sb_of (v_use128 x) * j)) = Ok u /\
     holds_unit (nth (Z.to_nat p) (v_types x) 0) u has_weight s s' p row col) /\
  (forall p row col, 0 <= p -> 0 <= row -> 0 <= col -> ~ frame_unit x p row col ->
     cell (t_type s') p row col 0 = cell (t_type s) p row col 0 /\ cell (t_set s') p row col 0 = cell (t_set s) p row col 0 /\ cell (t_xqd s') p row col [] = cell (t_xqd s) p row col []).
Proof. exact frame_kept. Qed.
Print Assumptions C119_frame.
(** Two superblocks of one unit each, the second first. *)
Definition env_two : lrenv := mkLrEnv false 3 [3; 0; 0] [64; 32; 32] true true 64 128 false 8 false.
Definition sbs_two : list (list (list (list (list lrunit)))) := [[[[[unit_off]]]; [[[unit_sgr 5 (-32) 31]]]]].
Example C119_frame_case : lr_sizes_ok env_two /\ (forall i j, In (i, j) [(0, 1); (0, 0)] <-> in_grid env_two i j) /\ frame_unit env_two 0 0 1 /\
  exists s, coded_over env_two sbs_two [(0, 1); (0, 0)] lr_start s /\ t_type s = [[[0; 2]]; [[0; 0]]; [[0; 0]]].
Proof.
  split; [|split; [|split]].
  - unfold lr_sizes_ok, len. split; [cbn; lia|]. split; [cbn; lia|]. split; [|cbn; lia].
    intros p Hp N. change (v_planes _) with 3 in Hp. assert (p = 0 \/ p = 1 \/ p = 2) as [-> |[-> | ->]] by lia; vm_compute in N; vm_compute; intuition congruence.
  - intros i j. unfold in_grid. change (av1_superblocks (v_height env_two) (sb_of (v_use128 env_two))) with 1.
    change (av1_superblocks (av1_frame_width (frame_of env_two)) (sb_of (v_use128 env_two))) with 2. cbn [In]. split.
    + intros [E|[E|[]]]; injection E as <- <-; lia.
    + intros [H1 H2]. assert (i = 0) as -> by lia. assert (j = 0 \/ j = 1) as [-> | ->] by lia; auto.
  - vm_compute. intuition congruence.
  - eexists. split.
    + eapply (over_next _ _ 0 1 _ _ lr_start _ _ []); [repeat split|vm_compute; reflexivity|].
      eapply (over_next _ _ 0 0 _ _ _ _ _ []); [repeat split|vm_compute; reflexivity|]. apply over_none. repeat split.
    + reflexivity.
Qed.

(** Whatever a block is in, the mode info changes nothing of it but its segment, skip
    and is_inter, and for an inter block the references, the mode and the vectors. *)
Theorem C119_block : forall x b t es es' b' t', encode_mode_info x b t es = Ok (es', b', t') ->
  same_choices b b' /\ (p_inter b' = false -> same_motion b b') /\
  (p_skip b' = p_skip b \/ x_intra x = true /\ x_pre_skip x = true /\ x_seg_on x = true /\ p_skip b' = true).
Proof. exact mode_info_keeps. Qed.
Print Assumptions C119_block.
(** A segment that fixes the reference to intra, of a block that asks for inter. *)
Example C119_block_case :
  match encode_mode_info (ex_mode_env 1 1 true) (ModeInfoModel.mkBlk 3 0 false 5 40 [0; 0; 0; 0] true 1 (-1) 0 1 20 true true true [0; 0; 0] false ((3, 4), (0, 0))) (ex_mode_state ex_cdef) [] with
  | Ok (_, b, _) => p_inter b = false /\ p_comp_ref_type b = 1 /\ p_mode b = 20 /\ p_mvs b = ((3, 4), (0, 0))
  | _ => False
  end.
Proof. vm_compute. repeat split. Qed.

(** Of the state carried on, an intra block changes neither the vectors nor the mode of the
    last inter block; no block changes the contexts. The levels change only where deltas
    are due, which they are not again in this superblock; the filter strengths only where
    none is known for the 64x64 area; the lossless flag is that of the segment. *)
Theorem C119_state : forall x b t es es' b' t', x_intra x = true -> encode_mode_info x b t es = Ok (es', b', t') ->
  kept_contexts t t' /\ (p_inter b' = false -> kept_motion t t') /\ t_read_deltas t' = false /\
  (t_read_deltas t = false \/ (p_bsize b' = (if x_sb128 x then 15 else 12) /\ p_skip b' = true) -> kept_levels t t') /\
  (x_lf_present x = false -> t_cur_lf t' = t_cur_lf t) /\
  t_lossless t' = nth (Z.to_nat (p_seg b')) (x_lossless x) false /\
  (t_cdef t' = t_cdef t \/ (x_coded_lossless x = false /\ x_cdef_on x = true /\ x_intrabc x = false /\
     nth (Z.to_nat (16 * (x_col x / 16))) (nth (Z.to_nat (16 * (x_row x / 16))) (t_cdef t) []) 0 = -1)).
Proof. exact mode_info_state. Qed.
Print Assumptions C119_state.
Example C119_state_case : x_intra (ex_mode_env 1 1 true) = true /\
  match encode_mode_info (ex_mode_env 1 1 true) (ModeInfoModel.mkBlk 3 0 false 5 40 [0; 0; 0; 0] true 1 (-1) 0 1 20 true true true [0; 0; 0] false ((3, 4), (0, 0))) (ex_mode_state ex_cdef) [] with
  | Ok (_, b, t) => p_inter b = false /\ t_cdef t <> ex_cdef /\ t_pred t = t_pred (ex_mode_state ex_cdef)
  | _ => False
  end.
Proof. split; [reflexivity|]. vm_compute. repeat split. discriminate. Qed.
(** Where no film grain is applied, the parameters kept are those of
    reset_grain_params. *)
Theorem C119_grain : forall out fg refs show showable inter mono ss out' g',
  fg = None \/ (show = false /\ showable = false) \/ (exists g, fg = Some g /\ fg_apply g = false) ->
  enc_grain out fg refs show showable inter mono ss = Ok (out', g') -> exists g, g' = Some g /\ no_grain g.
Proof. exact grain_reset. Qed.
Print Assumptions C119_grain.
Example C119_grain_case : match enc_grain [] (Some (mkGrain false 7 true 2 1 [5] [6] true 0 0 [] [] [] [] 8 0 [] [1] [2] 6 0 1 2 3 4 5 6 true true)) (repeat grain_new 8) true true true false true with
  | Ok (out, Some g) => out = [0] /\ fg_seed g = 0 | _ => False end.
Proof. vm_compute. split; reflexivity. Qed.

(** Where the parameters of a reference frame are used, they are kept as that frame has
    them, with the seed asked for. *)
Theorem C119_grain_loaded : forall out g refs show showable mono ss out' g', show = true \/ showable = true -> fg_apply g = true -> fg_update g = false ->
  enc_grain out (Some g) refs show showable true mono ss = Ok (out', g') ->
  exists st k, idx refs (fg_ref g) = Ok st /\ g' = Some k /\ same_but_seed st k /\ fg_seed k = fg_seed g.
Proof. exact grain_loaded. Qed.
Print Assumptions C119_grain_loaded.
Example C119_grain_loaded_case :
  match enc_grain [] (Some (mkGrain true 7 false 1 0 [] [] false 0 0 [] [] [] [] 0 0 [] [] [] 0 0 0 0 0 0 0 0 false false))
    [grain_new; mkGrain true 9 true 2 1 [5] [6] true 0 0 [] [] [] [] 8 3 [] [1] [2] 6 0 1 2 3 4 5 6 true true] true true true false true with
  | Ok (_, Some g) => fg_seed g = 7 /\ fg_scaling g = 8 /\ fg_lag g = 3 | _ => False end.
Proof. vm_compute. repeat split. Qed.

(** Where a frame has parameters of its own, what is kept is what a decoder has after
    reading them: those asked for, without chroma points where none are sent. *)
Theorem C119_grain_own : forall out g refs show showable inter mono ss out' g', show = true \/ showable = true -> fg_apply g = true -> inter = false \/ fg_update g = true ->
  enc_grain out (Some g) refs show showable inter mono ss = Ok (out', g') -> exists k, g' = Some k /\ grain_as_read mono ss g k.
Proof. exact grain_updated. Qed.
Print Assumptions C119_grain_own.
(** A key frame with monochrome video: the chroma points asked for are dropped. *)
Example C119_grain_own_case :
  match enc_grain [] (Some (mkGrain true 7 false 1 1 [5] [6] true 1 1 [2] [3] [4] [5] 8 0 [] [1] [2] 6 0 1 2 3 4 5 6 true true)) (repeat grain_new 8) true true false true false with
  | Ok (_, Some g) => fg_seed g = 7 /\ fg_update g = true /\ fg_ncb g = 0 /\ fg_cfl g = false /\ fg_cbv g = [2] | _ => False end.
Proof. vm_compute. repeat split. Qed.

(** The tree the search starts from: an undivided intra block in segment 0. *)
Example C119_new_tree : forall bsize, pt_new bsize = PT 0 [] bsize 0 false 0 0 (repeat 0 4) false [1; 1] 0 0 18 false false false (repeat 0 8) false [(0, 0); (0, 0)].
Proof. reflexivity. Qed.
