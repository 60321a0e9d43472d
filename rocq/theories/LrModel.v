(** Model of the loop restoration units, /repo/src/tile_encoder.rs 179-322
    ([encode_lr]).

    What is written is a list of calls: a bit put on the output directly ([push_bit],
    [encode_ns]), or a bit coded by the arithmetic coder with even odds (one round of
    [encode_literal], bool_coder.rs 220-224).

    [ecx], the encoder context, is borrowed mutably from line 185 to the end. *)
From Coq Require Import ZArith List Bool.
From Verif Require Import Base UtilModel RangeCoderModel BitCodecModel SessionModel BlockTables GeomModel TileModel ElementModel FrameParamModel.
Import ListNotations.
Open Scope Z_scope.

Inductive lev : Type := Raw (b : Z) | Half (b : Z).

(** constants.rs 320, 441-442, 464. *)
Definition MI_SIZE := 4.
Definition SGRPROJ_PARAMS_BITS := 4.
Definition SGRPROJ_PRJ_SUBEXP_K := 4.
Definition SUPERRES_NUM := 8.
(** bool_coder.rs 220-224, [encode_literal]: the calls. The shifts are by less than
    64 in all uses below. *)
Fixpoint literal (n : nat) (v : Z) : list lev :=
  match n with
  | O => []
  | S i => Half (as_u8 (Z.land (Z.shiftr v (Z.of_nat i)) 1)) :: literal i v
  end.

(** tile_encoder.rs 241-264 (closure [encode_subexp_bool], all usize). The shift
    reaches its limit after 65 rounds at most; fuel 67 is never used up. *)
Fixpoint subexp_bool_loop (fuel : nat) (es : list lev) (v num_syms k i mk : Z) : res (list lev) :=
  match fuel with
  | O => Hang
  | S f =>
      b2 <- (if 0 <? i then s <- chk_u64 (k + i) ;; chk_u64 (s - 1) else Ok k) ;;
      _ <- shift_ok 64 b2 ;;
      let a := Z.shiftl 1 b2 in
      a3 <- chk_u64 (3 * a) ;;
      lim <- chk_u64 (mk + a3) ;;
      tv <- chk_u64 (v - mk) ;;
      if num_syms <=? lim then
        n <- chk_u64 (num_syms - mk) ;;
        bits <- encode_ns [] tv n ;;
        Ok (es ++ map Raw bits)
      else if tv <? a then Ok (es ++ literal 1 0 ++ literal (Z.to_nat (as_u8 b2)) tv)
      else
        i <- chk_u64 (i + 1) ;;
        mk <- chk_u64 (mk + a) ;;
        subexp_bool_loop f (es ++ literal 1 1) v num_syms k i mk
  end.
Definition encode_subexp_bool (es : list lev) (v num_syms k : Z) : res (list lev) :=
  subexp_bool_loop 67 es v num_syms k 0 0.

(** tile_encoder.rs 265-274 (closure [encode_unsigned_subexp_with_ref_bool]); the
    closure [inverse_recenter] (232-240) is that of obu_encoder.rs, see ElementModel. *)
Definition encode_unsigned_subexp_bool (es : list lev) (v mx k r : Z) : res (list lev) :=
  if as_u64 (Z.shiftl r 1) <=? mx then
    tv <- inverse_recenter r v ;;
    encode_subexp_bool es tv mx k
  else
    m1 <- chk_u64 (mx - 1) ;;
    tv <- chk_u64 (m1 - v) ;;
    mr <- chk_u64 (m1 - r) ;;
    tv <- inverse_recenter mr tv ;;
    encode_subexp_bool es tv mr k.

(** tile_encoder.rs 275-278 (closure [encode_signed_subexp_with_ref_bool], isize). *)
Definition encode_signed_subexp_bool (es : list lev) (v low high k r : Z) : res (list lev) :=
  x <- chk_i64 (v - low) ;;
  mx <- chk_i64 (high - low) ;;
  rl <- chk_i64 (r - low) ;;
  encode_unsigned_subexp_bool es (as_u64 x) (as_u64 mx) k (as_u64 rl).

(** block.rs 11-18. *)
Record lrunit : Type := mkUnit {
  u_wiener : bool; u_sgrproj : bool; u_type : Z; u_set : Z; u_taps : list (list Z); u_xqd : list Z }.

(** What is written: [ref_sgr_xqd] and [ref_lr_wiener] of the context and [lr_type],
    [lr_wiener], [lr_sgr_set], [lr_sgr_xqd] of the frame. *)
Record lrstate : Type := mkLrState {
  t_ref_xqd : list (list Z); t_ref_taps : list (list (list Z));
  t_type : list (list (list Z)); t_taps : list (list (list (list (list Z))));
  t_set : list (list (list Z)); t_xqd : list (list (list (list Z))) }.
(** [l[i] = f(l[i])], nested. *)
Definition upd {A : Type} (l : list A) (i : Z) (f : A -> res A) : res (list A) :=
  x <- idx l i ;; y <- f x ;; Ok (set_nth (Z.to_nat i) y l).
Definition put3 {A : Type} (l : list (list (list A))) (p r c : Z) (x : A) : res (list (list (list A))) :=
  upd l p (fun l => upd l r (fun l => put l c x)).
Definition set_type (t : list (list (list Z))) (s : lrstate) : lrstate := mkLrState (t_ref_xqd s) (t_ref_taps s) t (t_taps s) (t_set s) (t_xqd s).
Definition set_set (t : list (list (list Z))) (s : lrstate) : lrstate := mkLrState (t_ref_xqd s) (t_ref_taps s) (t_type s) (t_taps s) t (t_xqd s).
Definition set_taps (t : list (list (list (list (list Z))))) (s : lrstate) : lrstate := mkLrState (t_ref_xqd s) (t_ref_taps s) (t_type s) t (t_set s) (t_xqd s).
Definition set_ref_taps (t : list (list (list Z))) (s : lrstate) : lrstate := mkLrState (t_ref_xqd s) t (t_type s) (t_taps s) (t_set s) (t_xqd s).
Definition set_xqd (ref : list (list Z)) (t : list (list (list (list Z)))) (s : lrstate) : lrstate := mkLrState ref (t_ref_taps s) (t_type s) (t_taps s) (t_set s) t.

(** tile_encoder.rs 279-301: the Wiener coefficients. The context is borrowed again
    for each of them, which panics while the borrow of line 185 lives. *)
Fixpoint wiener_taps (js : list Z) (plane row col pass : Z) (u : lrunit) (s : lrstate) (es : list lev) : res (lrstate * list lev) :=
  match js with
  | [] => Ok (s, es)
  | j :: js =>
      mn <- idx wiener_taps_min j ;;
      mx <- idx wiener_taps_max j ;;
      k <- idx wiener_taps_k j ;;
      p <- idx (u_taps u) pass ;;
      v <- idx p j ;;
      rp <- idx (t_ref_taps s) plane ;;
      rq <- idx rp pass ;;
      r <- idx rq j ;;
      es <- encode_signed_subexp_bool es v mn (mx + 1) k r ;;
      taps <- upd (t_taps s) plane (fun l => upd l row (fun l => upd l col (fun l => upd l pass (fun l => put l j v)))) ;;
      _ <- borrow_mut true ;;
      ref <- put3 (t_ref_taps s) plane pass j v ;;
      wiener_taps js plane row col pass u (set_ref_taps ref (set_taps taps s)) es
  end.
Fixpoint wiener_passes (ps : list Z) (plane row col : Z) (u : lrunit) (s : lrstate) (es : list lev) : res (lrstate * list lev) :=
  match ps with
  | [] => Ok (s, es)
  | pass :: ps =>
      '(s, js) <- (if 0 <? plane then
                     taps <- upd (t_taps s) plane (fun l => upd l row (fun l => upd l col (fun l => upd l pass (fun l => put l 0 0)))) ;;
                     Ok (set_taps taps s, [1; 2])
                   else Ok (s, [0; 1; 2])) ;;
      '(s, es) <- wiener_taps js plane row col pass u s es ;;
      wiener_passes ps plane row col u s es
  end.

(** tile_encoder.rs 302-322: the self-guided filter. *)
Definition clip3 (lo hi x : Z) : Z := if x <? lo then lo else if hi <? x then hi else x.
Fixpoint sgr_weights (is : list Z) (plane row col : Z) (u : lrunit) (s : lrstate) (es : list lev) : res (lrstate * list lev) :=
  match is with
  | [] => Ok (s, es)
  | i :: is =>
      p <- idx sgr_params (u_set u) ;;
      radius <- idx p (i * 2) ;;
      mn <- idx sgrproj_xqd_min i ;;
      mx <- idx sgrproj_xqd_max i ;;
      rp <- idx (t_ref_xqd s) plane ;;
      '(v, es) <-
        (if 0 <? radius then
           v <- idx (u_xqd u) i ;;
           r <- idx rp i ;;
           es <- encode_signed_subexp_bool es v mn (mx + 1) SGRPROJ_PRJ_SUBEXP_K r ;;
           Ok (v, es)
         else if i =? 1 then
           r <- idx rp 0 ;;
           d <- chk_i64 (Z.shiftl 1 SGRPROJ_PARAMS_BITS - r) ;;
           Ok (clip3 mn mx d, es)
         else Ok (0, es)) ;;
      xqd <- upd (t_xqd s) plane (fun l => upd l row (fun l => upd l col (fun l => put l i v))) ;;
      ref <- upd (t_ref_xqd s) plane (fun l => put l i v) ;;
      sgr_weights is plane row col u (set_xqd ref xqd s) es
  end.
Definition sgr_unit (plane row col : Z) (u : lrunit) (s : lrstate) (es : list lev) : res (lrstate * list lev) :=
  let es := es ++ literal (Z.to_nat SGRPROJ_PARAMS_BITS) (u_set u) in
  sets <- put3 (t_set s) plane row col (u_set u) ;;
  sgr_weights [0; 1] plane row col u (set_set sets s) es.

(** tile_encoder.rs 212-322: one unit; [typ] is the type of the plane. *)
Definition lr_unit (typ plane row col : Z) (u : lrunit) (s : lrstate) (es : list lev) : res (lrstate * list lev) :=
  let '(rtype, es) :=
    if typ =? RESTORE_NONE then (RESTORE_NONE, es)
    else if typ =? RESTORE_WIENER then (if u_wiener u then RESTORE_WIENER else RESTORE_NONE, es ++ [Raw (b2z (u_wiener u))])
    else if typ =? RESTORE_SGRPROJ then (if u_sgrproj u then RESTORE_SGRPROJ else RESTORE_NONE, es ++ [Raw (b2z (u_sgrproj u))])
    else (u_type u, es) in
  types <- put3 (t_type s) plane row col rtype ;;
  let s := set_type types s in
  if rtype =? RESTORE_WIENER then wiener_passes [0; 1] plane row col u s es
  else if rtype =? RESTORE_SGRPROJ then sgr_unit plane row col u s es
  else Ok (s, es).

(** [lo..hi]. *)
Definition zrange (lo hi : Z) : list Z := map (fun i => lo + Z.of_nat i) (seq 0 (Z.to_nat (hi - lo))).

(** tile_encoder.rs 197-209 on one axis. [count_units_in_frame]; sizes are such that
    the sums do not overflow (they are checked here nevertheless); a unit size of 0
    panics in the division. *)
Definition div_up (a unit_size : Z) : res Z :=
  x <- chk_u64 (a + unit_size) ;; x <- chk_u64 (x - 1) ;;
  if unit_size =? 0 then Panic else Ok (x / unit_size).
Definition count_units (unit_size tile_size : Z) : res Z :=
  x <- chk_u64 (tile_size + Z.shiftr unit_size 1) ;;
  if unit_size =? 0 then Panic else Ok (if 1 <? x / unit_size then x / unit_size else 1).
(** util.rs 25-27, on usize. *)
Definition round2_u (x n : Z) : res Z := if n =? 0 then Ok x else y <- chk_u64 (x + Z.shiftl 1 (n - 1)) ;; Ok (Z.shiftr y n).
Definition unit_range (pos size num den units : Z) : res (Z * Z) :=
  a <- chk_u64 (pos * num) ;;
  start <- div_up a den ;;
  b <- chk_u64 ((pos + size) * num) ;;
  e <- div_up b den ;;
  Ok (start, if units <? e then units else e).

Record lrenv : Type := mkLrEnv {
  v_intrabc : bool; v_planes : Z; v_types : list Z; v_sizes : list Z; v_ssx : bool; v_ssy : bool;
  v_height : Z; v_up : Z; v_superres : bool; v_denom : Z; v_use128 : bool }.
(** tile_encoder.rs 190-209: the units of a plane that belong to the superblock at
    row [r], column [c] (in units of 4 samples) of size [w] by [h]. *)
Definition lr_area (x : lrenv) (plane r c w h unit_size : Z) : res (Z * Z * (Z * Z)) :=
  let subx := if plane =? 0 then 0 else b2z (v_ssx x) in
  let suby := if plane =? 0 then 0 else b2z (v_ssy x) in
  fh <- round2_u (v_height x) suby ;;
  fw <- round2_u (v_up x) subx ;;
  unit_rows <- count_units unit_size fh ;;
  unit_cols <- count_units unit_size fw ;;
  rows <- unit_range r h (Z.shiftr MI_SIZE suby) unit_size unit_rows ;;
  '(num, den) <-
    (if v_superres x then
       n <- chk_u64 (Z.shiftr MI_SIZE subx * v_denom x) ;;
       d <- chk_u64 (unit_size * SUPERRES_NUM) ;; Ok (n, d)
     else Ok (Z.shiftr MI_SIZE subx, unit_size)) ;;
  cols <- unit_range c w num den unit_cols ;;
  Ok (rows, cols).

Section Lr.
(** What is done for a unit, given its place in the list of units of the superblock
    and its place in the plane. *)
Variable T : Type.
Variable unit : Z -> Z -> Z -> Z -> Z -> T -> res T.
Fixpoint lr_cols (cols : list Z) (plane row row0 col0 : Z) (t : T) : res T :=
  match cols with
  | [] => Ok t
  | col :: cols => t <- unit plane row col (row - row0) (col - col0) t ;; lr_cols cols plane row row0 col0 t
  end.
Fixpoint lr_rows (rows : list Z) (plane row0 : Z) (cols : Z * Z) (t : T) : res T :=
  match rows with
  | [] => Ok t
  | row :: rows => t <- lr_cols (zrange (fst cols) (snd cols)) plane row row0 (fst cols) t ;; lr_rows rows plane row0 cols t
  end.
Fixpoint lr_planes (planes : list Z) (x : lrenv) (r c w h : Z) (t : T) : res T :=
  match planes with
  | [] => Ok t
  | plane :: planes =>
      typ <- idx (v_types x) plane ;;
      t <- (if negb (typ =? RESTORE_NONE) then
              unit_size <- idx (v_sizes x) plane ;;
              '(rows, cols) <- lr_area x plane r c w h unit_size ;;
              lr_rows (zrange (fst rows) (snd rows)) plane (fst rows) cols t
            else Ok t) ;;
      lr_planes planes x r c w h t
  end.
End Lr.

(** tile_encoder.rs 179-322, [encode_lr]; [sbs] is frame.superblocks, of each
    superblock [lr_units]. *)
Definition unit_at (units : list (list (list lrunit))) (plane i j : Z) : res lrunit :=
  p <- idx units plane ;; row <- idx p i ;; idx row j.
Definition encode_lr (x : lrenv) (sbs : list (list (list (list (list lrunit))))) (r c bsize : Z) (s : lrstate) (es : list lev)
  : res (lrstate * list lev) :=
  if v_intrabc x then Ok (s, es)
  else
    w <- idx num_4x4_blocks_wide bsize ;;
    h <- idx num_4x4_blocks_high bsize ;;
    sb4 <- idx num_4x4_blocks_wide (if v_use128 x then BLOCK_128X128 else BLOCK_64X64) ;;
    row <- idx sbs (r / sb4) ;;
    units <- idx row (c / sb4) ;;
    lr_planes _ (fun plane row col i j '(s, es) =>
        typ <- idx (v_types x) plane ;;
        (** The list of units is looked at only where a parameter is needed; with the
            types of planes that are not [RESTORE_NONE] it always is. *)
        u <- unit_at units plane i j ;;
        lr_unit typ plane row col u s es)
      (zrange 0 (v_planes x)) x r c w h (s, es).

(** The calls carried out: bool_coder.rs 47-49 ([push_bit]) and 220-224. *)
Fixpoint run_levs (c : coder) (out : list Z) (es : list lev) : res (coder * list Z) :=
  match es with
  | [] => Ok (c, out)
  | Raw b :: es => run_levs c (push out b) es
  | Half b :: es => '(c, out) <- encode_symbolp c b out 128 ;; run_levs c out es
  end.

(** frame.rs 342: the superblocks of a new frame. *)
Definition initial_superblocks : list (list (list (list (list lrunit)))) := [[]].
