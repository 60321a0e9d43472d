(** A parser for the sequence header, written from the syntax tables of the AV1
    bitstream specification, independently of the encoder model.

    The encoder follows the order of fields of the draft in which timing and
    decoder model information come after color_config(); the fields themselves
    are those of the final text (5.5.1 to 5.5.5). [cnt_minus_1] says whether the
    number of operating points is coded minus one, as the specification says
    ([true]), or as it is, as the encoder intends ([false]). *)
From Coq Require Import ZArith List Bool.
From Verif Require Import BitsSpec.
Import ListNotations.
Open Scope Z_scope.

Definition obind {A B : Type} (x : option A) (f : A -> option B) : option B :=
  match x with Some a => f a | None => None end.
Notation "'LET' p ':=' e1 'IN' e2" := (obind e1 (fun p => e2)) (at level 200, p pattern, right associativity).

(** f(n): the next n bits as an unsigned number. *)
Definition rd (n : nat) (q : list Z) : option (Z * list Z) :=
  if (n <=? length q)%nat then Some (bits_val (firstn n q), skipn n q) else None.
Definition rd1 (q : list Z) : option (bool * list Z) :=
  match q with [] => None | b :: r => Some (b =? 1, r) end.

(** uvlc(), 4.10.3. *)
Fixpoint rd_zeros (q : list Z) : option (nat * list Z) :=
  match q with
  | [] => None
  | b :: r => if b =? 1 then Some (O, r) else LET (n, r) := rd_zeros r IN Some (S n, r)
  end.
Definition rd_uvlc (q : list Z) : option (Z * list Z) :=
  LET (n, q) := rd_zeros q IN
  if (32 <=? n)%nat then Some (2 ^ 32 - 1, q)
  else LET (v, q) := rd n q IN Some (v + 2 ^ Z.of_nat n - 1, q).

Record p_op : Type := P_OP { po_idc : Z; po_level : Z; po_tier : option bool }.
Fixpoint rd_ops (n : nat) (q : list Z) : option (list p_op * list Z) :=
  match n with
  | O => Some ([], q)
  | S n' =>
      LET (idc, q) := rd 12 q IN
      LET (lv, q) := rd 5 q IN
      LET (tier, q) := (if 7 <? lv then LET (t, q) := rd1 q IN Some (Some t, q) else Some (None, q)) IN
      LET (r, q) := rd_ops n' q IN
      Some (P_OP idc lv tier :: r, q)
  end.

Record p_tools : Type := P_TOOLS {
  pt_sb128 : bool; pt_filter_intra : bool; pt_intra_edge : bool;
  pt_interintra : bool; pt_masked : bool; pt_warped : bool; pt_dual : bool; pt_order_hint : bool;
  pt_jnt : bool; pt_ref_mvs : bool; pt_sct : Z; pt_imv : Z; pt_ohb : Z;
  pt_superres : bool; pt_cdef : bool; pt_restoration : bool }.

(** 5.5.1, from use_128x128_superblock to enable_restoration, for
    reduced_still_picture_header = 0. *)
Definition rd_tools (q : list Z) : option (p_tools * list Z) :=
  LET (sb, q) := rd1 q IN
  LET (fi, q) := rd1 q IN
  LET (ie, q) := rd1 q IN
  LET (ii, q) := rd1 q IN
  LET (ma, q) := rd1 q IN
  LET (wa, q) := rd1 q IN
  LET (du, q) := rd1 q IN
  LET (oh, q) := rd1 q IN
  LET (jr, q) := (if oh : bool
                  then LET (j, q) := rd1 q IN LET (r, q) := rd1 q IN Some ((j, r), q)
                  else Some ((false, false), q)) IN
  LET (cs, q) := rd1 q IN
  LET (sct, q) := (if cs : bool then Some (2, q) else rd 1 q) IN
  LET (imv, q) := (if 0 <? sct
                   then LET (ci, q) := rd1 q IN if ci : bool then Some (2, q) else rd 1 q
                   else Some (2, q)) IN
  LET (ohb, q) := (if oh : bool then LET (b, q) := rd 3 q IN Some (b + 1, q) else Some (0, q)) IN
  LET (sr, q) := rd1 q IN
  LET (cd, q) := rd1 q IN
  LET (re, q) := rd1 q IN
  Some (P_TOOLS sb fi ie ii ma wa du oh (fst jr) (snd jr) sct imv ohb sr cd re, q).

Record p_color : Type := P_COLOR {
  pc_depth : Z; pc_mono : bool; pc_primaries : Z; pc_transfer : Z; pc_matrix : Z;
  pc_range : bool; pc_ssx : bool; pc_ssy : bool; pc_csp : option Z; pc_sep : bool }.

(** 5.5.2, color_config(). *)
Definition rd_color (profile : Z) (q : list Z) : option (p_color * list Z) :=
  LET (hb, q) := rd1 q IN
  LET (depth, q) :=
    (if (profile =? 2) && hb then LET (tw, q) := rd1 q IN Some (if tw : bool then 12 else 10, q)
     else Some (if hb : bool then 10 else 8, q)) IN
  LET (mono, q) := (if profile =? 1 then Some (false, q) else rd1 q) IN
  LET (present, q) := rd1 q IN
  LET (cd, q) :=
    (if present : bool
     then LET (p, q) := rd 8 q IN LET (t, q) := rd 8 q IN LET (m, q) := rd 8 q IN Some ((p, t, m), q)
     else Some ((2, 2, 2), q)) IN
  let '(p, t, m) := cd in
  if mono : bool then
    LET (r, q) := rd1 q IN
    Some (P_COLOR depth true p t m r true true (Some 0) false, q)
  else
    LET (v, q) :=
      (if (p =? 1) && (t =? 13) && (m =? 0) then Some ((true, false, false, None), q)
       else
         LET (r, q) := rd1 q IN
         LET (ss, q) :=
           (if profile =? 0 then Some ((true, true), q)
            else if profile =? 1 then Some ((false, false), q)
            else if depth =? 12 then
              LET (x, q) := rd1 q IN
              if x : bool then LET (y, q) := rd1 q IN Some ((true, y), q) else Some ((false, false), q)
            else Some ((true, false), q)) IN
         LET (csp, q) :=
           (if fst ss && snd ss then LET (c, q) := rd 2 q IN Some (Some c, q) else Some (None, q)) IN
         Some ((r, fst ss, snd ss, csp), q)) IN
    let '(r, x, y, csp) := v in
    LET (sep, q) := rd1 q IN
    Some (P_COLOR depth false p t m r x y csp sep, q).

Record p_dm : Type := P_DM {
  pd_bitrate_scale : Z; pd_buffer_scale : Z; pd_delay_len : Z; pd_units : Z; pd_removal_len : Z; pd_present_len : Z }.
Record p_timing : Type := P_TIMING {
  pm_units : Z; pm_scale : Z; pm_ticks : option Z; pm_dm : option p_dm }.

(** 5.5.3 and 5.5.4, timing_info() and decoder_model_info(). *)
Definition rd_timing (q : list Z) : option (option p_timing * list Z) :=
  LET (present, q) := rd1 q IN
  if present : bool then
    LET (u, q) := rd 32 q IN
    LET (s, q) := rd 32 q IN
    LET (eq, q) := rd1 q IN
    LET (ticks, q) := (if eq : bool then LET (v, q) := rd_uvlc q IN Some (Some (v + 1), q) else Some (None, q)) IN
    LET (dmp, q) := rd1 q IN
    LET (dm, q) :=
      (if dmp : bool then
         LET (a, q) := rd 4 q IN
         LET (b, q) := rd 4 q IN
         LET (c, q) := rd 5 q IN
         LET (d, q) := rd 32 q IN
         LET (x, q) := rd 5 q IN
         LET (y, q) := rd 5 q IN
         Some (Some (P_DM a b (c + 1) d (x + 1) (y + 1)), q)
       else Some (None, q)) IN
    Some (Some (P_TIMING u s ticks dm), q)
  else Some (None, q).

Record p_params : Type := P_PARAMS {
  pp_bitrate : Z; pp_buffer : Z; pp_cbr : bool; pp_dec : Z; pp_enc : Z; pp_low : bool }.
Record p_opm : Type := P_OPM { pq_idc : Z; pq_delay : option Z; pq_params : option p_params }.

(** Operating points of the decoder model. [dm] is the buffer delay length when
    decoder model information is present. *)
Fixpoint rd_opm (n : nat) (dm : option Z) (q : list Z) : option (list p_opm * list Z) :=
  match n with
  | O => Some ([], q)
  | S n' =>
      LET (idc, q) := rd 12 q IN
      LET (dp, q) := rd1 q IN
      LET (delay, q) := (if dp : bool then LET (d, q) := rd 4 q IN Some (Some (d + 1), q) else Some (None, q)) IN
      LET (pa, q) :=
        match dm with
        | None => Some (None, q)
        | Some k =>
            LET (pp, q) := rd1 q IN
            if pp : bool then
              LET (br, q) := rd_uvlc q IN
              LET (bu, q) := rd_uvlc q IN
              LET (cbr, q) := rd1 q IN
              LET (dd, q) := rd (Z.to_nat k) q IN
              LET (ed, q) := rd (Z.to_nat k) q IN
              LET (low, q) := rd1 q IN
              Some (Some (P_PARAMS (br + 1) (bu + 1) cbr dd ed low), q)
            else Some (None, q)
        end IN
      LET (r, q) := rd_opm n' dm q IN
      Some (P_OPM idc delay pa :: r, q)
  end.

Record p_seq : Type := P_SEQ {
  ps_profile : Z; ps_still : bool; ps_ops : list p_op;
  ps_width_minus_1 : Z; ps_height_minus_1 : Z;
  ps_frame_id : option (Z * Z);
  ps_tools : p_tools; ps_color : p_color; ps_timing : option p_timing; ps_opm : list p_opm; ps_grain : bool }.

(** The first part, up to the frame size. *)
Definition rd_head (cnt_minus_1 : bool) (q : list Z)
  : option (Z * bool * bool * list p_op * Z * Z * list Z) :=
  LET (profile, q) := rd 3 q IN
  LET (still, q) := rd1 q IN
  LET (reduced, q) := rd1 q IN
  LET (ops, q) :=
    (if reduced : bool then LET (lv, q) := rd 5 q IN Some ([P_OP 0 lv None], q)
     else LET (n, q) := rd 5 q IN rd_ops (Z.to_nat (if cnt_minus_1 then n + 1 else n)) q) IN
  LET (wb, q) := rd 4 q IN
  LET (hb, q) := rd 4 q IN
  LET (w, q) := rd (Z.to_nat (wb + 1)) q IN
  LET (h, q) := rd (Z.to_nat (hb + 1)) q IN
  Some (profile, still, reduced, ops, w, h, q).

(** The whole header, reduced_still_picture_header = 0. *)
Definition rd_seq (cnt_minus_1 : bool) (q : list Z) : option (p_seq * list Z) :=
  LET (hd, q) :=
    match rd_head cnt_minus_1 q with
    | Some (a, b, c, d, e, f, r) => Some ((a, b, c, d, e, f), r)
    | None => None
    end IN
  let '(profile, still, reduced, ops, w, h) := hd in
  if reduced : bool then None
  else
    LET (fp, q) := rd1 q IN
    LET (fid, q) :=
      (if fp : bool
       then LET (d, q) := rd 4 q IN LET (a, q) := rd 3 q IN Some (Some (d + 2, a + 1), q)
       else Some (None, q)) IN
    LET (t, q) := rd_tools q IN
    LET (c, q) := rd_color profile q IN
    LET (ti, q) := rd_timing q IN
    LET (op, q) := rd1 q IN
    LET (opm, q) :=
      (if op : bool
       then LET (n, q) := rd 5 q IN
            rd_opm (Z.to_nat (n + 1))
              (match ti with Some (P_TIMING _ _ _ (Some d)) => Some (pd_delay_len d) | _ => None end) q
       else Some ([], q)) IN
    LET (g, q) := rd1 q IN
    Some (P_SEQ profile still ops w h fid t c ti opm g, q).

(** ** What a caller may ask for: all fields fit the widths of the syntax. *)
From Verif Require Import SeqModel UtilSpec.

Definition op_ok (o : operating_point) : Prop :=
  0 <= op_idc o < 4096 /\ 0 <= op_level o < 32 /\ (7 < op_level o <-> op_tier o <> None).
Definition dm_ok (d : dec_model) : Prop :=
  0 <= dm_bitrate_scale d < 16 /\ 0 <= dm_buffer_scale d < 16 /\ 1 <= dm_delay_len d <= 32 /\
  0 <= dm_units d < 2 ^ 32 /\ 1 <= dm_removal_len d <= 32 /\ 1 <= dm_presentation_len d <= 32.
Definition timing_ok (t : timing) : Prop :=
  0 <= ti_units t < 2 ^ 32 /\ 0 <= ti_scale t < 2 ^ 32 /\ 1 <= ti_ticks t < 2 ^ 32.
Definition params_ok (k : Z) (p : op_params) : Prop :=
  1 <= opi_bitrate p < 2 ^ 32 /\ 1 <= opi_buffer p < 2 ^ 32 /\
  0 <= opi_dec_delay p < 2 ^ k /\ 0 <= opi_enc_delay p < 2 ^ k.
Definition opm_ok (k : option Z) (o : op_model) : Prop :=
  0 <= opm_idc o < 4096 /\
  match opm_delay o with Some d => 1 <= d <= 16 | None => True end /\
  match opm_params o, k with Some p, Some k => params_ok k p | _, _ => True end.

(** The decoder model that applies: none without timing information. *)
Definition eff_dm (e : enc) (h : seqhdr) : option dec_model :=
  match e_timing e with Some _ => sh_dm h | None => None end.

Definition tools_ok (e : enc) (h : seqhdr) : Prop :=
  (sh_choose_sct h = true \/ e_force_sct e = 0 \/ e_force_sct e = 1) /\
  (sh_choose_imv h = true \/ (sh_choose_sct h = false /\ e_force_sct e = 0) \/
     e_force_imv e = 0 \/ e_force_imv e = 1) /\
  (e_order_hint e = true -> 1 <= e_order_hint_bits e <= 8).
Definition color_ok (e : enc) : Prop :=
  match e_cd e with Some (p, t, m) => 0 <= p < 256 /\ 0 <= t < 256 /\ 0 <= m < 256 | None => True end /\
  0 <= e_csp e < 4.

(** Everything but the frame size. *)
Definition seq_ok (e : enc) (h : seqhdr) : Prop :=
  e_reduced e = false /\ 0 <= sh_profile h <= 2 /\ (sh_profile h = 1 \/ e_mono e = false) /\
  (length (sh_ops h) < 32)%nat /\ Forall op_ok (sh_ops h) /\
  match sh_frame_id h with Some (d, a) => 2 <= d <= 17 /\ 1 <= a <= 8 | None => True end /\
  tools_ok e h /\ color_ok e /\
  match e_timing e with Some t => timing_ok t | None => True end /\
  match eff_dm e h with Some d => dm_ok d | None => True end /\
  (length (e_opm e) <= 32)%nat /\
  Forall (opm_ok (option_map dm_delay_len (eff_dm e h))) (e_opm e).

(** ** What a reader is meant to find. *)
Definition op_view (o : operating_point) : p_op := P_OP (op_idc o) (op_level o) (op_tier o).
Definition tools_view (e : enc) (h : seqhdr) : p_tools :=
  let oh := e_order_hint e in
  let sct := if sh_choose_sct h then 2 else e_force_sct e in
  P_TOOLS (e_sb128 e) (sh_filter_intra h) (sh_intra_edge h) (sh_interintra h) (sh_masked h) (e_warped e)
    (sh_dual h) oh (oh && sh_jnt h) (oh && e_ref_mvs e) sct
    (if 0 <? sct then (if sh_choose_imv h then 2 else e_force_imv e) else 2)
    (if oh then e_order_hint_bits e else 0)
    (e_superres e) (e_cdef e) (e_restoration e).
Definition color_view (e : enc) (profile : Z) : p_color :=
  let depth := if e_high e then (if (profile =? 2) && e_twelve e then 12 else 10) else 8 in
  let '(p, t, m) := match e_cd e with Some c => c | None => (2, 2, 2) end in
  let srgb := (p =? 1) && (t =? 13) && (m =? 0) in
  let x := negb srgb && ((profile =? 0) || (profile =? 2) && (negb (depth =? 12) || e_ssx e)) in
  let y := negb srgb && ((profile =? 0) || (profile =? 2) && (depth =? 12) && e_ssx e && e_ssy e) in
  P_COLOR depth false p t m (srgb || e_range e) x y (if x && y then Some (e_csp e) else None) (e_sep_uv e).
Definition dm_view (d : dec_model) : p_dm :=
  P_DM (dm_bitrate_scale d) (dm_buffer_scale d) (dm_delay_len d) (dm_units d) (dm_removal_len d)
    (dm_presentation_len d).
Definition timing_view (h : seqhdr) (t : timing) : p_timing :=
  P_TIMING (ti_units t) (ti_scale t) (if ti_equal t then Some (ti_ticks t) else None)
    (option_map dm_view (sh_dm h)).
Definition params_view (p : op_params) : p_params :=
  P_PARAMS (opi_bitrate p) (opi_buffer p) (opi_cbr p) (opi_dec_delay p) (opi_enc_delay p) (opi_low p).
Definition opm_view (with_dm : bool) (o : op_model) : p_opm :=
  P_OPM (opm_idc o) (opm_delay o) (if with_dm then option_map params_view (opm_params o) else None).
Definition seq_view (e : enc) (h : seqhdr) (w1 h1 : Z) : p_seq :=
  P_SEQ (sh_profile h) (sh_still h) (map op_view (sh_ops h)) w1 h1 (sh_frame_id h)
    (tools_view e h) (color_view e (sh_profile h))
    (option_map (timing_view h) (e_timing e))
    (map (opm_view (match eff_dm e h with Some _ => true | None => false end)) (e_opm e)) (e_grain e).
