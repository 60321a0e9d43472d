(** What is kept of a restoration unit, written down independently of the encoder. *)
From Coq Require Import ZArith List Bool.
From Verif Require Import Base MvStackModel ModeInfoModel GeomModel FrameParamModel LrModel.
Import ListNotations.
Open Scope Z_scope.

(** The entry of a table at a plane, row and column. *)
Definition cell {A : Type} (l : list (list (list A))) (p r c : Z) (d : A) : A :=
  nth (Z.to_nat c) (nth (Z.to_nat r) (nth (Z.to_nat p) l []) []) d.

(** The type (0 none, 1 Wiener, 2 self-guided) a unit has in a plane of type [typ]
    (3: varying): 7.17. *)
Definition unit_type (typ : Z) (u : lrunit) : Z :=
  match typ with
  | 1 => if u_wiener u then 1 else 0
  | 2 => if u_sgrproj u then 2 else 0
  | 3 => u_type u
  | _ => 0
  end.

(** 6.8.20, reset_grain_params: all elements are 0. *)
Definition no_grain (g : grain) : Prop :=
  (fg_apply g = false /\ fg_seed g = 0 /\ fg_update g = false /\ fg_ref g = 0) /\
  (fg_ny g = 0 /\ fg_yv g = [] /\ fg_ys g = [] /\ fg_cfl g = false /\ fg_ncb g = 0 /\ fg_ncr g = 0) /\
  (fg_cbv g = [] /\ fg_cbs g = [] /\ fg_crv g = [] /\ fg_crs g = [] /\ fg_scaling g = 0 /\ fg_lag g = 0) /\
  (fg_ay g = [] /\ fg_acb g = [] /\ fg_acr g = [] /\ fg_ashift g = 0 /\ fg_gshift g = 0) /\
  (fg_cb_mult g = 0 /\ fg_cb_luma g = 0 /\ fg_cb_off g = 0 /\ fg_cr_mult g = 0 /\ fg_cr_luma g = 0 /\ fg_cr_off g = 0) /\
  fg_overlap g = false /\ fg_clip g = false.

(** The same parameters but for the seed: 6.8.20, load_grain_params. *)
Definition same_but_seed (g g' : grain) : Prop :=
  (fg_apply g' = fg_apply g /\ fg_update g' = fg_update g /\ fg_ref g' = fg_ref g) /\
  (fg_ny g' = fg_ny g /\ fg_yv g' = fg_yv g /\ fg_ys g' = fg_ys g /\ fg_cfl g' = fg_cfl g /\ fg_ncb g' = fg_ncb g /\ fg_ncr g' = fg_ncr g) /\
  (fg_cbv g' = fg_cbv g /\ fg_cbs g' = fg_cbs g /\ fg_crv g' = fg_crv g /\ fg_crs g' = fg_crs g /\ fg_scaling g' = fg_scaling g /\ fg_lag g' = fg_lag g) /\
  (fg_ay g' = fg_ay g /\ fg_acb g' = fg_acb g /\ fg_acr g' = fg_acr g /\ fg_ashift g' = fg_ashift g /\ fg_gshift g' = fg_gshift g) /\
  (fg_cb_mult g' = fg_cb_mult g /\ fg_cb_luma g' = fg_cb_luma g /\ fg_cb_off g' = fg_cb_off g /\ fg_cr_mult g' = fg_cr_mult g /\ fg_cr_luma g' = fg_cr_luma g /\ fg_cr_off g' = fg_cr_off g) /\
  (fg_overlap g' = fg_overlap g /\ fg_clip g' = fg_clip g).

(** 5.9.30: what a decoder has after new parameters: update_grain is set, and without
    chroma scaling of its own a plane has no points. *)
Definition grain_as_read (mono ss : bool) (g g' : grain) : Prop :=
  let cfl := negb mono && fg_cfl g in
  let none := mono || cfl || (ss && (fg_ny g =? 0)) in
  (fg_apply g' = fg_apply g /\ fg_seed g' = fg_seed g /\ fg_update g' = true /\ fg_ref g' = fg_ref g) /\
  (fg_ny g' = fg_ny g /\ fg_yv g' = fg_yv g /\ fg_ys g' = fg_ys g /\ fg_cfl g' = cfl /\ fg_ncb g' = (if none then 0 else fg_ncb g) /\ fg_ncr g' = (if none then 0 else fg_ncr g)) /\
  (fg_cbv g' = fg_cbv g /\ fg_cbs g' = fg_cbs g /\ fg_crv g' = fg_crv g /\ fg_crs g' = fg_crs g /\ fg_scaling g' = fg_scaling g /\ fg_lag g' = fg_lag g) /\
  (fg_ay g' = fg_ay g /\ fg_acb g' = fg_acb g /\ fg_acr g' = fg_acr g /\ fg_ashift g' = fg_ashift g /\ fg_gshift g' = fg_gshift g) /\
  (fg_cb_mult g' = fg_cb_mult g /\ fg_cb_luma g' = fg_cb_luma g /\ fg_cb_off g' = fg_cb_off g /\ fg_cr_mult g' = fg_cr_mult g /\ fg_cr_luma g' = fg_cr_luma g /\ fg_cr_off g' = fg_cr_off g) /\
  (fg_overlap g' = fg_overlap g /\ fg_clip g' = fg_clip g).

(** Two blocks asked for with the same choices; with the same references, mode and
    vectors. The rest are segment, skip and is_inter. *)
Definition same_choices (b b' : blk) : Prop :=
  p_bsize b' = p_bsize b /\ p_cdef b' = p_cdef b /\ p_q b' = p_q b /\ p_lf b' = p_lf b /\ p_comp_ref_type b' = p_comp_ref_type b /\
  p_new_mv b' = p_new_mv b /\ p_zero_mv b' = p_zero_mv b /\ p_ref_mv b' = p_ref_mv b /\ p_drl b' = p_drl b /\ p_intrabc b' = p_intrabc b.
Definition same_motion (b b' : blk) : Prop :=
  p_comp_mode b' = p_comp_mode b /\ p_ref0 b' = p_ref0 b /\ p_ref1 b' = p_ref1 b /\ p_mode b' = p_mode b /\ p_mvs b' = p_mvs b.

(** The state carried from block to block, in parts: the contexts of the inter modes; the
    vectors found and the mode, index and prediction of the last inter block; the levels
    of the quantizer and the loop filter. *)
Definition kept_contexts (t t' : mode_state) : Prop := t_ref_ctx t' = t_ref_ctx t /\ t_new_ctx t' = t_new_ctx t /\ t_drl_ctx t' = t_drl_ctx t.
Definition kept_motion (t t' : mode_state) : Prop := t_mv t' = t_mv t /\ t_y_mode t' = t_y_mode t /\ t_idx t' = t_idx t /\ t_pred t' = t_pred t.
Definition kept_levels (t t' : mode_state) : Prop := t_cur_q t' = t_cur_q t /\ t_cur_lf t' = t_cur_lf t.

(** The superblocks [ps] of a frame coded one after the other, from tables [s] to [s'].
    In between anything may happen that leaves the tables as they are. *)
Definition same_tables (s s' : lrstate) : Prop := t_type s' = t_type s /\ t_set s' = t_set s /\ t_xqd s' = t_xqd s.
Inductive coded_over (x : lrenv) (sbs : list (list (list (list (list lrunit))))) : list (Z * Z) -> lrstate -> lrstate -> Prop :=
  | over_none : forall s s', same_tables s s' -> coded_over x sbs [] s s'
  | over_next : forall i j ps s s1 s2 s' es es', same_tables s s1 ->
      (let sb := if v_use128 x then 32 else 16 in
       encode_lr x sbs (sb * i) (sb * j) (if v_use128 x then 15 else 12) s1 es = Ok (s2, es')) ->
      coded_over x sbs ps s2 s' -> coded_over x sbs ((i, j) :: ps) s s'.
(** Tables [s'] hold for a unit at a place what the unit [u] of a plane of type [typ] asks
    for, coming from tables [s]. *)
Definition holds_unit (typ : Z) (u : lrunit) (weight_coded : Z -> Z -> bool) (s s' : lrstate) (p i j : Z) : Prop :=
  cell (t_type s') p i j 0 = unit_type typ u /\
  (unit_type typ u = 2 -> cell (t_set s') p i j 0 = u_set u /\
     forall n, n = 0 \/ n = 1 -> weight_coded (u_set u) n = true -> nth (Z.to_nat n) (cell (t_xqd s') p i j []) 0 = nth (Z.to_nat n) (u_xqd u) 0) /\
  (unit_type typ u <> 2 -> cell (t_set s') p i j 0 = cell (t_set s) p i j 0 /\ cell (t_xqd s') p i j [] = cell (t_xqd s) p i j []).
