(** The hand-written copies of a partition tree and of film grain parameters. *)
From Coq Require Import ZArith List.
From Verif Require Import Base FrameParamModel.
Import ListNotations.
Open Scope Z_scope.

(** block.rs 20-40, [PartitionTree], every field. Enumerations and numbers are
    integers, arrays are lists, motion vectors pairs. *)
Inductive ptree : Type := PT {
  pt_part_type : Z; pt_partitions : list ptree; pt_bsize : Z; pt_segment_id : Z; pt_skip : bool; pt_cdef_idx : Z; pt_q_index : Z;
  pt_delta_lf : list Z; pt_is_inter : bool; pt_ref_frame : list Z; pt_comp_mode : Z; pt_comp_ref_type : Z; pt_compound_mode : Z;
  pt_new_mv : bool; pt_zero_mv : bool; pt_ref_mv : bool; pt_drl_mode : list Z; pt_use_intrabc : bool; pt_mvs : list (Z * Z) }.

(** block.rs 43-63, [PartitionTree::new]. The constants are the discriminants in
    constants.rs: PARTITION_NONE 0, LAST_FRAME 1, SINGLE_REFERENCE 0,
    UNIDIR_COMP_REFERENCE 0, NEAREST_NEARESTMV 18. *)
Definition pt_new (bsize : Z) : ptree :=
  PT 0 [] bsize 0 false 0 0 [0; 0; 0; 0] false [1; 1] 0 0 18 false false false (repeat 0 8) false [(0, 0); (0, 0)].

(** block.rs 65-94, [PartitionTree::clone]. The loop pushes the copies one by one;
    here a list is built from the front, in the same order. *)
Fixpoint pt_clone (t : ptree) : ptree :=
  PT (pt_part_type t)
     ((fix go (ps : list ptree) : list ptree := match ps with [] => [] | p :: ps => pt_clone p :: go ps end) (match t with PT _ ps _ _ _ _ _ _ _ _ _ _ _ _ _ _ _ _ _ => ps end))
     (pt_bsize t) (pt_segment_id t) (pt_skip t) (pt_cdef_idx t) (pt_q_index t) (pt_delta_lf t) (pt_is_inter t) (pt_ref_frame t)
     (pt_comp_mode t) (pt_comp_ref_type t) (pt_compound_mode t) (pt_new_mv t) (pt_zero_mv t) (pt_ref_mv t) (pt_drl_mode t) (pt_use_intrabc t) (pt_mvs t).

(** frame.rs 146-176, [FilmGrainParams::clone]. The vectors' own [clone] copies them. *)
Definition grain_clone (g : grain) : grain :=
  mkGrain (fg_apply g) (fg_seed g) (fg_update g) (fg_ref g) (fg_ny g) (fg_yv g) (fg_ys g) (fg_cfl g) (fg_ncb g) (fg_ncr g)
    (fg_cbv g) (fg_cbs g) (fg_crv g) (fg_crs g) (fg_scaling g) (fg_lag g) (fg_ay g) (fg_acb g) (fg_acr g) (fg_ashift g) (fg_gshift g)
    (fg_cb_mult g) (fg_cb_luma g) (fg_cb_off g) (fg_cr_mult g) (fg_cr_luma g) (fg_cr_off g) (fg_overlap g) (fg_clip g).
