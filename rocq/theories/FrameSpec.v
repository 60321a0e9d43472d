(** Readers for the frame header, written from the syntax tables of the AV1
    specification (5.9.2 to 5.9.30), independently of the encoder model. A reader
    takes a bit string and returns what it read and the rest. *)
From Coq Require Import ZArith List Bool.
From Verif Require Import BitsSpec SeqSpec ElementSpec TileSpec.
Import ListNotations.
Open Scope Z_scope.

(** The bits are bits and every decoder reads exactly them, and gets [v]. *)
Definition decodes {A : Type} (bits : list Z) (rd : list Z -> option (A * list Z)) (v : A) : Prop :=
  is_bits bits /\ forall k, rd (bits ++ k) = Some (v, k).
(** Whatever follows the bits, no decoder gets [v] out of exactly them. *)
Definition never_decodes {A : Type} (bits : list Z) (rd : list Z -> option (A * list Z)) (v : A) : Prop :=
  forall k, rd (bits ++ k) <> Some (v, k).

Definition clip (lo hi v : Z) : Z := Z.max lo (Z.min hi v).

(** su(n), 4.10.6. *)
Definition rd_su (n : nat) (q : list Z) : option (Z * list Z) :=
  LET (v, q) := rd n q IN Some (if 2 ^ (Z.of_nat n - 1) <=? v then v - 2 ^ Z.of_nat n else v, q).

(** [n] times the same reader. *)
Fixpoint rd_times {A : Type} (n : nat) (r : list Z -> option (A * list Z)) (q : list Z) : option (list A * list Z) :=
  match n with
  | O => Some ([], q)
  | S n => LET (a, q) := r q IN LET (l, q) := rd_times n r q IN Some (a :: l, q)
  end.
(** One reader per element of a list. *)
Fixpoint rd_each {A B : Type} (l : list B) (r : B -> list Z -> option (A * list Z)) (q : list Z) : option (list A * list Z) :=
  match l with
  | [] => Some ([], q)
  | b :: l => LET (a, q) := r b q IN LET (m, q) := rd_each l r q IN Some (a :: m, q)
  end.
(** A reader that is run only on a condition. *)
Definition rd_if {A : Type} (c : bool) (r : list Z -> option (A * list Z)) (d : A) (q : list Z) : option (A * list Z) :=
  if c then r q else Some (d, q).

(** quantization_params, 5.9.12, 5.9.13. *)
Record av1_quant : Type := mkAQ {
  aq_base : Z; aq_y_dc : Z; aq_u_dc : Z; aq_u_ac : Z; aq_v_dc : Z; aq_v_ac : Z; aq_matrix : option (Z * Z * Z) }.
Definition rd_delta_q (q : list Z) : option (Z * list Z) := LET (c, q) := rd1 q IN if c then rd_su 7 q else Some (0, q).
Definition rd_quant (planes : Z) (sep : bool) (q : list Z) : option (av1_quant * list Z) :=
  LET (base, q) := rd 8 q IN
  LET (y_dc, q) := rd_delta_q q IN
  LET ((udc, uac, vdc, vac), q) :=
    (if 1 <? planes then
       LET (diff, q) := rd_if sep rd1 false q IN
       LET (udc, q) := rd_delta_q q IN
       LET (uac, q) := rd_delta_q q IN
       if diff then
         LET (vdc, q) := rd_delta_q q IN
         LET (vac, q) := rd_delta_q q IN
         Some ((udc, uac, vdc, vac), q)
       else Some ((udc, uac, udc, uac), q)
     else Some ((0, 0, 0, 0), q)) IN
  LET (matrix, q) := rd1 q IN
  LET (m, q) :=
    (if matrix then
       LET (y, q) := rd 4 q IN
       LET (u, q) := rd 4 q IN
       LET (v, q) := rd_if sep (rd 4) u q IN
       Some (Some (y, u, v), q)
     else Some (None, q)) IN
  Some (mkAQ base y_dc udc uac vdc vac m, q).

(** segmentation_params, 5.9.14: eight features per segment. *)
Record av1_seg : Type := mkAS { as_map : bool; as_temporal : bool; as_data : option (list (list (option Z))) }.
(** (bits, signed, max) of the features: ALT_Q, four loop filter levels, REF_FRAME,
    SKIP, GLOBALMV. *)
Definition av1_features : list (nat * bool * Z) :=
  [(8%nat, true, 255); (6%nat, true, 63); (6%nat, true, 63); (6%nat, true, 63); (6%nat, true, 63); (3%nat, false, 7);
   (0%nat, false, 0); (0%nat, false, 0)].
Definition rd_feature (f : nat * bool * Z) (q : list Z) : option (option Z * list Z) :=
  let '(bits, signed, max) := f in
  LET (e, q) := rd1 q IN
  if e then
    if signed then LET (v, q) := rd_su (1 + bits) q IN Some (Some (clip (- max) max v), q)
    else LET (v, q) := rd bits q IN Some (Some (clip 0 max v), q)
  else Some (None, q).
Definition rd_features (q : list Z) : option (list (list (option Z)) * list Z) :=
  rd_times 8 (rd_each av1_features rd_feature) q.
(** [None] is segmentation_enabled = 0. *)
Definition rd_seg (primary_none : bool) (q : list Z) : option (option av1_seg * list Z) :=
  LET (on, q) := rd1 q IN
  if on then
    LET ((map, temporal, data), q) :=
      (if primary_none then Some ((true, false, true), q)
       else
         LET (m, q) := rd1 q IN
         LET (t, q) := rd_if m rd1 false q IN
         LET (d, q) := rd1 q IN
         Some ((m, t, d), q)) IN
    LET (f, q) := rd_if data (fun q => LET (f, q) := rd_features q IN Some (Some f, q)) None q IN
    Some (Some (mkAS map temporal f), q)
  else Some (None, q).
(** SegIdPreSkip and LastActiveSegId of a table of features. *)
Definition av1_pre_skip (m : list (list (option Z))) : Prop :=
  exists i j v, (5 <= j)%nat /\ nth_error (nth i m []) j = Some (Some v).
Definition av1_last_active (m : list (list (option Z))) (k : Z) : Prop :=
  (forall i j v, nth_error (nth i m []) j = Some (Some v) -> Z.of_nat i <= k) /\
  (k = 0 \/ exists j v, nth_error (nth (Z.to_nat k) m []) j = Some (Some v)).

(** delta_q_params and delta_lf_params, 5.9.17, 5.9.18: [None] is
    delta_q_present = 0; (delta_q_res, [None] or (delta_lf_res, delta_lf_multi)). *)
Definition rd_delta (base : Z) (intrabc : bool) (q : list Z) : option (option (Z * option (Z * bool)) * list Z) :=
  LET (present, q) := rd_if (0 <? base) rd1 false q IN
  if present then
    LET (res, q) := rd 2 q IN
    LET (lf, q) := rd_if (negb intrabc) rd1 false q IN
    if lf then
      LET (lres, q) := rd 2 q IN
      LET (multi, q) := rd1 q IN
      Some (Some (res, Some (lres, multi)), q)
    else Some (Some (res, None), q)
  else Some (None, q).

(** 7.12.2 get_qidx with ignoreDeltaQ = 1, and LosslessArray, 5.9.2. [feature] is
    the value of SEG_LVL_ALT_Q if it is active. *)
Definition av1_qidx (base : Z) (feature : option Z) : Z :=
  match feature with Some d => clip 0 255 (base + d) | None => base end.
Definition av1_lossless (base : Z) (feature : option Z) (deltas : list Z) : bool :=
  (av1_qidx base feature =? 0) && forallb (Z.eqb 0) deltas.

(** loop_filter_params, 5.9.11, when it is not skipped. The updates are [None]
    if loop_filter_delta_update = 0. *)
Record av1_lf : Type := mkALF {
  al_levels : Z * Z * option (Z * Z); al_sharp : Z; al_enabled : bool;
  al_updates : option (list (option Z) * list (option Z)) }.
Definition rd_update (q : list Z) : option (option Z * list Z) :=
  LET (u, q) := rd1 q IN if u then LET (v, q) := rd_su 7 q IN Some (Some v, q) else Some (None, q).
Definition rd_lf (planes : Z) (q : list Z) : option (av1_lf * list Z) :=
  LET (l0, q) := rd 6 q IN
  LET (l1, q) := rd 6 q IN
  LET (uv, q) := rd_if ((1 <? planes) && (negb (l0 =? 0) || negb (l1 =? 0)))
    (fun q => LET (l2, q) := rd 6 q IN LET (l3, q) := rd 6 q IN Some (Some (l2, l3), q)) None q IN
  LET (sharp, q) := rd 3 q IN
  LET (enabled, q) := rd1 q IN
  LET (update, q) := rd_if enabled rd1 false q IN
  LET (ups, q) := rd_if update
    (fun q => LET (r, q) := rd_times 8 rd_update q IN LET (m, q) := rd_times 2 rd_update q IN Some (Some (r, m), q)) None q IN
  Some (mkALF (l0, l1, uv) sharp enabled ups, q).

(** cdef_params, 5.9.19, when it is not skipped: the damping and per index the
    strengths (luma pri, luma sec, [None] or (chroma pri, chroma sec)). *)
Definition rd_sec (q : list Z) : option (Z * list Z) := LET (s, q) := rd 2 q IN Some (if s =? 3 then 4 else s, q).
Definition rd_strength (planes : Z) (q : list Z) : option (Z * Z * option (Z * Z) * list Z) :=
  LET (yp, q) := rd 4 q IN
  LET (ys, q) := rd_sec q IN
  LET (uv, q) := rd_if (1 <? planes) (fun q => LET (p, q) := rd 4 q IN LET (s, q) := rd_sec q IN Some (Some (p, s), q)) None q IN
  Some (yp, ys, uv, q).
Definition rd_cdef (planes : Z) (q : list Z) : option (Z * list (Z * Z * option (Z * Z)) * list Z) :=
  LET (d, q) := rd 2 q IN
  LET (b, q) := rd 2 q IN
  LET (l, q) := rd_times (Z.to_nat (2 ^ b)) (rd_strength planes) q IN
  Some (d + 3, l, q).

(** lr_params, 5.9.20, when it is not skipped: FrameRestorationType of the planes
    and, if one of them is in use, LoopRestorationSize of the three planes. *)
Definition av1_remap (t : Z) : Z := nth (Z.to_nat t) [0; 3; 1; 2] 0.
Definition rd_lr (planes : Z) (sb128 ss : bool) (q : list Z) : option (list Z * option (Z * Z * Z) * list Z) :=
  LET (l, q) := rd_times (Z.to_nat planes) (rd 2) q IN
  let types := map av1_remap l in
  let uses := existsb (fun t => negb (t =? 0)) types in
  let chroma := existsb (fun t => negb (t =? 0)) (tl types) in
  if uses then
    LET (shift, q) :=
      (if sb128 then LET (s, q) := rd 1 q IN Some (s + 1, q)
       else LET (s, q) := rd 1 q IN LET (e, q) := rd_if (s =? 1) (rd 1) 0 q IN Some (s + e, q)) IN
    LET (uv, q) := rd_if (ss && chroma) (rd 1) 0 q IN
    let size := 2 ^ (6 + shift) in
    Some (types, Some (size, size / 2 ^ uv, size / 2 ^ uv), q)
  else Some (types, None, q).

(** skip_mode_params, 5.9.22, in terms of the signed distances [d] of the
    references to the current frame: the nearest reference before it is the one
    with the greatest negative distance, the nearest after it the one with the
    least positive distance; ties go to the first. *)
Definition nearest_before (d : list Z) (i : nat) : Prop :=
  exists x, nth_error d i = Some x /\ x < 0 /\
    forall j y, nth_error d j = Some y -> y < 0 -> y <= x /\ ((j < i)%nat -> y < x).
Definition nearest_after (d : list Z) (i : nat) : Prop :=
  exists x, nth_error d i = Some x /\ 0 < x /\
    forall j y, nth_error d j = Some y -> 0 < y -> x <= y /\ ((j < i)%nat -> x < y).
Definition none_before (d : list Z) : Prop := forall x, In x d -> 0 <= x.
Definition none_after (d : list Z) : Prop := forall x, In x d -> x <= 0.
(** get_relative_dist, 7.9.2 ff., for order hints of [bits] bits: the signed
    residue of the difference. *)
Definition signed_dist (bits a b : Z) : Z := (a - b + 2 ^ (bits - 1)) mod 2 ^ bits - 2 ^ (bits - 1).

(** The two frames, or [None] if skip mode is not allowed; [hs] are the order hints
    of the references, [cur] that of the frame. *)
Definition av1_skip (bits : Z) (hs : list Z) (cur : Z) (r : option (Z * Z)) : Prop :=
  let d := map (fun h => signed_dist bits h cur) hs in
  let frames (i j : nat) := Some (1 + Z.of_nat (Nat.min i j), 1 + Z.of_nat (Nat.max i j)) in
  (none_before d /\ r = None) \/
  (exists f b, nearest_before d f /\ nearest_after d b /\ r = frames f b) \/
  (exists f, nearest_before d f /\ none_after d /\
     let e := map (fun h => signed_dist bits h (nth f hs 0)) hs in
     (none_before e /\ r = None) \/ exists g, nearest_before e g /\ r = frames f g).

(** global_motion_params, 5.9.24, for one inter frame: the type of each of the
    seven references (0 identity, 1 translation, 2 rotzoom, 3 affine) and its six
    parameters; [prev] are those of the primary reference frame. *)
Definition rd_gm_type (q : list Z) : option (Z * list Z) :=
  LET (g, q) := rd1 q IN
  if g then
    LET (r, q) := rd1 q IN
    if r then Some (2, q) else LET (t, q) := rd1 q IN Some (if t then 1 else 3, q)
  else Some (0, q).
Definition rd_gm_one (hp : bool) (prev : list Z) (q : list Z) : option (Z * list Z * list Z) :=
  LET (t, q) := rd_gm_type q IN
  let param i := rd_global_param (t =? 1) hp (Z.of_nat i) (nth i prev 0) in
  LET ((p2, p3, p4, p5), q) :=
    (if 2 <=? t then
       LET (p2, q) := param 2%nat q IN
       LET (p3, q) := param 3%nat q IN
       if t =? 3 then
         LET (p4, q) := param 4%nat q IN
         LET (p5, q) := param 5%nat q IN
         Some ((p2, p3, p4, p5), q)
       else Some ((p2, p3, - p3, p2), q)
     else Some ((2 ^ 16, 0, 0, 2 ^ 16), q)) IN
  LET ((p0, p1), q) :=
    (if 1 <=? t then
       LET (p0, q) := param 0%nat q IN
       LET (p1, q) := param 1%nat q IN
       Some ((p0, p1), q)
     else Some ((0, 0), q)) IN
  Some (t, [p0; p1; p2; p3; p4; p5], q).
Definition rd_gm (hp : bool) (prev : list (list Z)) (q : list Z) : option (list (Z * list Z) * list Z) :=
  rd_each prev (rd_gm_one hp) q.
Definition av1_identity : list Z := [0; 0; 65536; 0; 0; 65536].

(** film_grain_params, 5.9.30. *)
Record av1_grain_params : Type := mkAG {
  ag_seed : Z; ag_y : list (Z * Z); ag_cfl : bool; ag_cb : list (Z * Z); ag_cr : list (Z * Z);
  ag_scaling : Z; ag_lag : Z; ag_ar_y : list Z; ag_ar_cb : list Z; ag_ar_cr : list Z; ag_ar_shift : Z; ag_scale_shift : Z;
  ag_cb_mult : option (Z * Z * Z); ag_cr_mult : option (Z * Z * Z); ag_overlap : bool; ag_clip : bool }.
Inductive av1_grain : Type :=
| NoGrain
| GrainOf (seed ref : Z)
| Grain (p : av1_grain_params).
Definition rd_points (q : list Z) : option (list (Z * Z) * list Z) :=
  LET (n, q) := rd 4 q IN
  rd_times (Z.to_nat n) (fun q => LET (v, q) := rd 8 q IN LET (s, q) := rd 8 q IN Some ((v, s), q)) q.
Definition rd_ar (n : Z) (q : list Z) : option (list Z * list Z) :=
  rd_times (Z.to_nat n) (fun q => LET (v, q) := rd 8 q IN Some (v - 128, q)) q.
Definition rd_mult (q : list Z) : option (option (Z * Z * Z) * list Z) :=
  LET (m, q) := rd 8 q IN LET (l, q) := rd 8 q IN LET (o, q) := rd 9 q IN Some (Some (m, l, o), q).
Definition rd_grain_params (seed : Z) (mono ss : bool) (q : list Z) : option (av1_grain_params * list Z) :=
  LET (y, q) := rd_points q IN
  LET (cfl, q) := rd_if (negb mono) rd1 false q IN
  LET ((cb, cr), q) :=
    (if mono || cfl || (ss && (length y =? 0)%nat) then Some (([], []), q)
     else LET (cb, q) := rd_points q IN LET (cr, q) := rd_points q IN Some ((cb, cr), q)) IN
  LET (s, q) := rd 2 q IN
  LET (lag, q) := rd 2 q IN
  let luma := 2 * lag * (lag + 1) in
  let some l := negb (length l =? 0)%nat in
  let chroma := if some y then luma + 1 else luma in
  LET (ay, q) := rd_if (some y) (rd_ar luma) [] q IN
  LET (acb, q) := rd_if (cfl || some cb) (rd_ar chroma) [] q IN
  LET (acr, q) := rd_if (cfl || some cr) (rd_ar chroma) [] q IN
  LET (ash, q) := rd 2 q IN
  LET (gsh, q) := rd 2 q IN
  LET (mb, q) := rd_if (some cb) rd_mult None q IN
  LET (mr, q) := rd_if (some cr) rd_mult None q IN
  LET (o, q) := rd1 q IN
  LET (c, q) := rd1 q IN
  Some (mkAG seed y cfl cb cr (s + 8) lag ay acb acr (ash + 6) gsh mb mr o c, q).
Definition rd_grain (present shown inter mono ss : bool) (q : list Z) : option (av1_grain * list Z) :=
  if negb present || negb shown then Some (NoGrain, q)
  else
    LET (apply, q) := rd1 q IN
    if negb apply then Some (NoGrain, q)
    else
      LET (seed, q) := rd 16 q IN
      LET (update, q) := rd_if inter rd1 true q IN
      if negb update then LET (r, q) := rd 3 q IN Some (GrainOf seed r, q)
      else LET (p, q) := rd_grain_params seed mono ss q IN Some (Grain p, q).

(** frame_size, superres_params, render_size, 5.9.5 to 5.9.8. [nw], [nh] are
    frame_width_bits and frame_height_bits of the sequence header, [max] its
    maximal size. *)
Record av1_size : Type := mkAZ { az_w : Z; az_h : Z; az_up : Z; az_denom : Z; az_rw : Z; az_rh : Z }.
Definition rd_superres (enable : bool) (w : Z) (q : list Z) : option (Z * Z * list Z) :=
  LET (use, q) := rd_if enable rd1 false q IN
  LET (denom, q) := rd_if use (fun q => LET (c, q) := rd 3 q IN Some (c + 9, q)) 8 q IN
  Some ((w * 8 + denom / 2) / denom, denom, q).
Definition rd_sizes (override enable : bool) (nw nh : nat) (max : Z * Z) (q : list Z) : option (av1_size * list Z) :=
  LET ((up, h), q) :=
    (if override then LET (w, q) := rd nw q IN LET (h, q) := rd nh q IN Some ((w + 1, h + 1), q) else Some (max, q)) IN
  LET (w, denom, q) := rd_superres enable up q IN
  LET (differ, q) := rd1 q IN
  LET ((rw, rh), q) := (if differ then LET (rw, q) := rd 16 q IN LET (rh, q) := rd 16 q IN Some ((rw + 1, rh + 1), q) else Some ((up, h), q)) IN
  Some (mkAZ w h up denom rw rh, q).

(** Whether a reference with frame id [r] may still be used when the current id is
    [cur]: ids are counted modulo 2^[id_len], and the reference may be up to
    2^[diff_len] ids back (7.20, mark_ref_frames). *)
Definition id_usable (id_len diff_len cur r : Z) : bool := (cur - r) mod 2 ^ id_len <=? 2 ^ diff_len.

(** Whether the operating point with idc [i] contains the layer [(tid, sid)]. *)
Definition in_layer (i tid sid : Z) : bool := (i =? 0) || (Z.testbit i tid && Z.testbit i (sid + 8)).

(** What a decoder knows before it reads the frame header: from the sequence
    header, the OBU header, and about its reference slots. *)
Record av1_seq : Type := mkASeq {
  s_reduced : bool; s_ids : bool; s_id_len : nat;
  (** Length of tu_presentation_delay and of buffer_removal_time, if the decoder
      model is present; equal_picture_interval; the idc of the operating points
      with a decoder model. *)
  s_dm : option (nat * nat); s_equal : bool; s_ops : list Z; s_tid : Z; s_sid : Z;
  s_sct : Z; s_imv : Z; s_hint_on : bool; s_hint_bits : nat;
  s_nw : nat; s_nh : nat; s_max : Z * Z; s_superres : bool; s_sb128 : bool;
  s_cdef : bool; s_restoration : bool; s_grain : bool;
  s_mono : bool; s_ssx : bool; s_ssy : bool; s_sep : bool; s_ref_types : list Z }.
Definition s_planes (s : av1_seq) : Z := if s_mono s then 1 else 3.

(** What it learns from the header of a frame shown again, or of a key frame or
    intra-only frame. Inter frames are not read here. *)
Record av1_intra : Type := mkAI {
  h_type : Z; h_show : bool; h_showable : bool; h_err : bool; h_no_update : bool; h_sct : Z; h_id : Z; h_hint : Z;
  h_refresh : Z; h_size : av1_size; h_intrabc : bool; h_no_end : bool; h_tiles : tile_info; h_quant : av1_quant; h_seg : option av1_seg;
  h_delta : option (Z * option (Z * bool)); h_lossless : bool; h_lf : option av1_lf; h_cdef : option (Z * list (Z * Z * option (Z * Z)));
  h_lr : option (list Z * option (Z * Z * Z)); h_tx_select : option bool; h_reduced_tx : bool; h_grain : av1_grain }.
Inductive av1_header : Type :=
| ShowExisting (idx : Z) (typ refresh : Z)
| Intra (h : av1_intra).

Definition rd_point (s : av1_seq) (q : list Z) : option (unit * list Z) :=
  match s_dm s with
  | Some (n, _) => if s_equal s then Some (tt, q) else LET (_, q) := rd n q IN Some (tt, q)
  | None => Some (tt, q)
  end.
Definition rd_removal (s : av1_seq) (q : list Z) : option (unit * list Z) :=
  match s_dm s with
  | Some (_, n) =>
      LET (p, q) := rd1 q IN
      LET (_, q) := rd_if p (rd_each (s_ops s) (fun i => rd_if (in_layer i (s_tid s) (s_sid s)) (rd n) 0)) [] q IN
      Some (tt, q)
  | None => Some (tt, q)
  end.
(** From show_existing_frame to refresh_frame_flags. *)
Definition rd_intra_top (s : av1_seq) (q : list Z) : option (Z * bool * bool * bool * list Z) :=
  if s_reduced s then Some (0, true, false, true, q)
  else
    LET (typ, q) := rd 2 q IN
    LET (show, q) := rd1 q IN
    LET (_, q) := rd_if show (rd_point s) tt q IN
    LET (showable, q) := rd_if (negb show) rd1 (negb (typ =? 0)) q IN
    LET (err, q) := rd_if (negb ((typ =? 3) || ((typ =? 0) && show))) rd1 true q IN
    Some (typ, show, showable, err, q).
Definition rd_intra (s : av1_seq) (q : list Z) : option (av1_intra * list Z) :=
  LET (typ, show, showable, err, q) := rd_intra_top s q IN
  if negb ((typ =? 0) || (typ =? 2)) then None else
  LET (no_update, q) := rd1 q IN
  LET (sct, q) := rd_if (s_sct s =? 2) (rd 1) (s_sct s) q IN
  LET (_, q) := rd_if ((0 <? sct) && (s_imv s =? 2)) (rd 1) 0 q IN
  LET (id, q) := rd_if (s_ids s) (rd (s_id_len s)) 0 q IN
  LET (override, q) := rd_if (negb (s_reduced s)) rd1 false q IN
  LET (hint, q) := rd (s_hint_bits s) q IN
  LET (_, q) := rd_removal s q IN
  LET (refresh, q) := rd_if (negb ((typ =? 0) && show)) (rd 8) 255 q IN
  LET (_, q) := rd_if (negb (refresh =? 255) && err && s_hint_on s) (rd_times 8 (rd (s_hint_bits s))) [] q IN
  LET (size, q) := rd_sizes override (s_superres s) (s_nw s) (s_nh s) (s_max s) q IN
  LET (intrabc, q) := rd_if ((0 <? sct) && (az_up size =? az_w size)) rd1 false q IN
  LET (no_end, q) := rd_if (negb (s_reduced s || no_update)) rd1 true q IN
  LET (tiles, q) := rd_tile_info (2 * ((az_w size + 7) / 8)) (2 * ((az_h size + 7) / 8)) (s_sb128 s) q IN
  LET (quant, q) := rd_quant (s_planes s) (s_sep s) q IN
  LET (seg, q) := rd_seg true q IN
  LET (delta, q) := rd_delta (aq_base quant) intrabc q IN
  let features := match seg with Some g => match as_data g with Some m => m | None => [] end | None => repeat [] 8 end in
  let deltas := [aq_y_dc quant; aq_u_dc quant; aq_u_ac quant; aq_v_dc quant; aq_v_ac quant] in
  let lossless := forallb (fun row => av1_lossless (aq_base quant) (nth 0 row None) deltas) features in
  LET (lf, q) := rd_if (negb (lossless || intrabc)) (fun q => LET (v, q) := rd_lf (s_planes s) q IN Some (Some v, q)) None q IN
  LET (cdef, q) := rd_if (negb (lossless || intrabc || negb (s_cdef s))) (fun q => LET (d, l, q) := rd_cdef (s_planes s) q IN Some (Some (d, l), q)) None q IN
  LET (lr, q) := rd_if (negb ((lossless && (az_w size =? az_up size)) || intrabc || negb (s_restoration s)))
    (fun q => LET (t, z, q) := rd_lr (s_planes s) (s_sb128 s) (s_ssx s && s_ssy s) q IN Some (Some (t, z), q)) None q IN
  LET (tx, q) := rd_if (negb lossless) (fun q => LET (b, q) := rd1 q IN Some (Some b, q)) None q IN
  LET (reduced_tx, q) := rd1 q IN
  LET (grain, q) := rd_grain (s_grain s) (show || showable) false (s_mono s) (s_ssx s && s_ssy s) q IN
  Some (mkAI typ show showable err no_update sct id hint refresh size intrabc no_end tiles quant seg delta lossless lf cdef lr tx reduced_tx grain, q).
Definition rd_header (s : av1_seq) (q : list Z) : option (av1_header * list Z) :=
  LET (existing, q) := rd_if (negb (s_reduced s)) rd1 false q IN
  if existing then
    LET (i, q) := rd 3 q IN
    LET (_, q) := rd_point s q IN
    LET (_, q) := rd_if (s_ids s) (rd (s_id_len s)) 0 q IN
    let typ := nth (Z.to_nat i) (s_ref_types s) (-1) in
    Some (ShowExisting i typ (if typ =? 0 then 255 else 0), q)
  else LET (h, q) := rd_intra s q IN Some (Intra h, q).
