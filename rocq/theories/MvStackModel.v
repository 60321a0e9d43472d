(** Model of the motion vector prediction of /repo/src/tile_encoder.rs: the global
    motion vectors, the candidate list and the assignment of motion vectors.

    A [MotionVector] (common.rs 13-16) is the pair of its fields x and y.
    Simplifications: positions in a frame are below 2^32, so sums of positions do not
    overflow; the counters of candidates are usize and checked. *)
From Coq Require Import ZArith List Bool.
From Verif Require Import Base UtilModel SessionModel BlockTables GeomModel ElementModel.
Import ListNotations.
Open Scope Z_scope.

Definition mv : Type := (Z * Z)%type.
(** [PartialEq] is derived: field by field. *)
Definition mv_eqb (a b : mv) : bool := (fst a =? fst b) && (snd a =? snd b).

(** constants.rs 268-278, 139-166, 391, 435 and 434. *)
Definition INTRA := 0.
Definition NEARESTMV := 14.
Definition NEARMV := 15.
Definition GLOBALMV := 16.
Definition NEWMV := 17.
Definition NEAREST_NEARESTMV := 18.
Definition NEAR_NEARMV := 19.
Definition NEAREST_NEWMV := 20.
Definition NEW_NEARESTMV := 21.
Definition NEAR_NEWMV := 22.
Definition NEW_NEARMV := 23.
Definition GLOBAL_GLOBALMV := 24.
Definition NEW_NEWMV := 25.
Definition IDENTITY := 0.
Definition TRANSLATION := 1.
Definition WARPEDMODEL_PREC_BITS := 16.
Definition MAX_REF_MV_STACK_SIZE := 8.
Definition REF_CAT_LEVEL := 640.

(** The fields of [ModeInfo] (constants.rs 1190-1210) used here. *)
Record nbr : Type := mkNbr {
  b_is_inter : bool; b_ref0 : Z; b_ref1 : Z; b_mode : Z; b_size : Z; b_mv0 : mv; b_mv1 : mv
}.

(** What does not change while a block's candidates are collected: the tile, the
    block ([mi_row], [mi_col], [part_tree.bsize], [part_tree.ref_frame]), the frame
    and the global motion of the encoder context. *)
Record mv_env : Type := mkMvEnv {
  v_tile : tile_env; v_row : Z; v_col : Z; v_size : Z; v_ref0 : Z; v_ref1 : Z;
  v_hp : bool; v_int : bool; (* allow_high_precision_mv, force_integer_mv > 0 *)
  v_gm_type : list Z; v_gm_params : list (list Z);
  v_field : list (list (list mv)); v_mis : list (list (option nbr))
}.

(** The fields of [TileEncoder] (tile_encoder.rs 27-63) that change. *)
Record mv_state : Type := mkMvState {
  s_num : Z; s_new : Z; s_found : bool; s_stack : list (mv * mv); s_weights : list Z;
  s_global : mv * mv; s_close : Z; s_zero_ctx : Z
}.
Definition set_found (b : bool) (s : mv_state) : mv_state :=
  mkMvState (s_num s) (s_new s) b (s_stack s) (s_weights s) (s_global s) (s_close s) (s_zero_ctx s).
Definition set_new (n : Z) (s : mv_state) : mv_state :=
  mkMvState (s_num s) n (s_found s) (s_stack s) (s_weights s) (s_global s) (s_close s) (s_zero_ctx s).
Definition set_list (n : Z) (stack : list (mv * mv)) (weights : list Z) (s : mv_state) : mv_state :=
  mkMvState n (s_new s) (s_found s) stack weights (s_global s) (s_close s) (s_zero_ctx s).
Definition set_global (g : mv * mv) (s : mv_state) : mv_state :=
  mkMvState (s_num s) (s_new s) (s_found s) (s_stack s) (s_weights s) g (s_close s) (s_zero_ctx s).
Definition set_close (n : Z) (s : mv_state) : mv_state :=
  mkMvState (s_num s) (s_new s) (s_found s) (s_stack s) (s_weights s) (s_global s) n (s_zero_ctx s).
Definition set_zero (n : Z) (s : mv_state) : mv_state :=
  mkMvState (s_num s) (s_new s) (s_found s) (s_stack s) (s_weights s) (s_global s) (s_close s) n.

(** util.rs 25-31 on isize, for n > 0. The value for a negative x is not negated. *)
Definition Round2 (x n : Z) : res Z := t <- chk_i64 (x + Z.shiftl 1 (n - 1)) ;; Ok (Z.shiftr t n).
Definition Round2Signed (x n : Z) : res Z :=
  if 0 <=? x then Round2 x n else m <- chk_i64 (- x) ;; Round2 m n.

Definition lower_mv (e : mv_env) (m : mv) : res mv :=
  x <- lower_mv_precision (v_int e) (fst m) ;;
  y <- lower_mv_precision (v_int e) (snd m) ;;
  Ok (x, y).

(** tile_encoder.rs 894-953, closure [setup_global_mv]: the vector for one reference. *)
Definition global_mv (e : mv_env) (rf : Z) : res mv :=
  typ <- (if rf =? INTRA then Ok 0 else idx (v_gm_type e) rf) ;;
  bw <- idx block_width (v_size e) ;;
  bh <- idx block_height (v_size e) ;;
  m <- (if (rf =? INTRA) || (typ =? IDENTITY) then Ok (0, 0)
        else
          p <- idx (v_gm_params e) rf ;;
          p0 <- idx p 0 ;; p1 <- idx p 1 ;;
          if typ =? TRANSLATION then
            Ok (Z.shiftr p0 (WARPEDMODEL_PREC_BITS - 3), Z.shiftr p1 (WARPEDMODEL_PREC_BITS - 3))
          else
            p2 <- idx p 2 ;; p3 <- idx p 3 ;; p4 <- idx p 4 ;; p5 <- idx p 5 ;;
            let x := v_col e * 4 + bw / 2 - 1 in
            let y := v_row e * 4 + bh / 2 - 1 in
            d2 <- chk_i64 (p2 - Z.shiftl 1 WARPEDMODEL_PREC_BITS) ;;
            t0 <- chk_i64 (d2 * x) ;; t1 <- chk_i64 (p3 * y) ;; t <- chk_i64 (t0 + t1) ;;
            xc <- chk_i64 (t + p0) ;;
            d5 <- chk_i64 (p5 - Z.shiftl 1 WARPEDMODEL_PREC_BITS) ;;
            u0 <- chk_i64 (p4 * x) ;; u1 <- chk_i64 (d5 * y) ;; u <- chk_i64 (u0 + u1) ;;
            yc <- chk_i64 (u + p1) ;;
            if v_hp e then
              a <- Round2Signed xc (WARPEDMODEL_PREC_BITS - 3) ;;
              b <- Round2Signed yc (WARPEDMODEL_PREC_BITS - 3) ;;
              Ok (a, b)
            else
              a <- Round2Signed xc (WARPEDMODEL_PREC_BITS - 2) ;; a <- chk_i64 (a * 2) ;;
              b <- Round2Signed yc (WARPEDMODEL_PREC_BITS - 2) ;; b <- chk_i64 (b * 2) ;;
              Ok (a, b)) ;;
  lower_mv e m.

(** tile_encoder.rs 954-957. *)
Definition setup_global_mvs (e : mv_env) (is_compound : bool) (s : mv_state) : res mv_state :=
  g0 <- global_mv e (v_ref0 e) ;;
  if is_compound then g1 <- global_mv e (v_ref1 e) ;; Ok (set_global (g0, g1) s)
  else Ok (set_global (g0, snd (s_global s)) s).

(** tile_encoder.rs 1246-1253, 1303-1310, 1112-1118, 1144-1152: the index of the first
    equal entry, or the number of entries. [n] entries are left, [i] is the next. *)
Fixpoint search (eq : mv * mv -> bool) (stack : list (mv * mv)) (n : nat) (i : Z) : res Z :=
  match n with
  | O => Ok i
  | S n => t <- idx stack i ;; if eq t then Ok i else search eq stack n (i + 1)
  end.

(** tile_encoder.rs 1244-1260, 1301-1319, 1111-1125, 1143-1161: add a weight to an
    equal entry or append a new one if there is room. Without [is_compound] only the
    first vector of an entry is compared and stored. *)
Definition stack_add (is_compound : bool) (m : mv * mv) (weight : Z) (s : mv_state) : res mv_state :=
  let eq t := mv_eqb (fst m) (fst t) && (negb is_compound || mv_eqb (snd m) (snd t)) in
  i <- search eq (s_stack s) (Z.to_nat (s_num s)) 0 ;;
  if i <? s_num s then
    w <- idx (s_weights s) i ;;
    w <- chk_u64 (w + weight) ;;
    Ok (set_list (s_num s) (s_stack s) (set_nth (Z.to_nat i) w (s_weights s)) s)
  else if s_num s <? MAX_REF_MV_STACK_SIZE then
    t <- idx (s_stack s) (s_num s) ;;
    _ <- idx (s_weights s) (s_num s) ;;
    Ok (set_list (s_num s + 1)
          (set_nth (Z.to_nat (s_num s)) (fst m, if is_compound then snd m else snd t) (s_stack s))
          (set_nth (Z.to_nat (s_num s)) weight (s_weights s)) s)
  else Ok s.

(** tile_encoder.rs 1238-1242, 1320-1324, closure [has_newmv]. *)
Definition has_newmv (mode : Z) : bool :=
  existsb (Z.eqb mode) [NEWMV; NEW_NEWMV; NEAR_NEWMV; NEW_NEARMV; NEAREST_NEWMV; NEW_NEARESTMV].

Definition count_new (mode : Z) (s : mv_state) : res mv_state :=
  if has_newmv mode then n <- chk_u64 (s_new s + 1) ;; Ok (set_new n s) else Ok s.

(** tile_encoder.rs 1194-1262: one round of the loop over [cand_list]. *)
Definition search_stack (e : mv_env) (b : nbr) (m : mv) (weight : Z) (s : mv_state) : res mv_state :=
  bw <- idx block_width (b_size b) ;;
  bh <- idx block_height (b_size b) ;;
  let large := 8 <=? Z.min bw bh in
  cand <- (if (b_mode b =? GLOBALMV) || (b_mode b =? GLOBAL_GLOBALMV) then
             typ <- idx (v_gm_type e) (v_ref0 e) ;;
             Ok (if (TRANSLATION <? typ) && large then fst (s_global s) else m)
           else Ok m) ;;
  cand <- lower_mv e cand ;;
  s <- count_new (b_mode b) s ;;
  stack_add false (cand, (0, 0)) weight (set_found true s).

(** tile_encoder.rs 1264-1331. *)
Definition compound_search_stack (e : mv_env) (b : nbr) (weight : Z) (s : mv_state) : res mv_state :=
  '(c0, c1) <- (if b_mode b =? GLOBAL_GLOBALMV then
                  t0 <- idx (v_gm_type e) (v_ref0 e) ;;
                  t1 <- idx (v_gm_type e) (v_ref1 e) ;;
                  Ok (if TRANSLATION <? t0 then fst (s_global s) else b_mv0 b,
                      if TRANSLATION <? t1 then snd (s_global s) else b_mv1 b)
                else Ok (b_mv0 b, b_mv1 b)) ;;
  c0 <- lower_mv e c0 ;;
  c1 <- lower_mv e c1 ;;
  s <- stack_add true (c0, c1) weight (set_found true s) ;;
  count_new (b_mode b) s.

(** tile_encoder.rs 1186-1335, [add_ref_mv_candidate] (the position is not used). *)
Definition add_ref_mv_candidate (e : mv_env) (is_compound : bool) (weight : Z) (b : nbr) (s : mv_state)
  : res mv_state :=
  if b_is_inter b then
    if negb is_compound then
      s <- (if b_ref0 b =? v_ref0 e then search_stack e b (b_mv0 b) weight s else Ok s) ;;
      (if b_ref1 b =? v_ref0 e then search_stack e b (b_mv1 b) weight s else Ok s)
    else if (b_ref0 b =? v_ref0 e) && (b_ref1 b =? v_ref1 e) then compound_search_stack e b weight s
    else Ok s
  else Ok s.

(** frame.rs 351-353 and [unwrap]. *)
Definition get_nbr (e : mv_env) (r c : Z) : res nbr :=
  row <- idx (v_mis e) r ;;
  o <- idx row c ;;
  match o with Some b => Ok b | None => Panic end.

(** tile_encoder.rs 962-993 with delta_row = -1, the only call; the lines for
    |d_row| > 1 do nothing then. Every round moves on by at least one unit. *)
Fixpoint scan_row_loop (fuel : nat) (e : mv_env) (is_compound : bool) (bw4 end4 i : Z) (s : mv_state)
  : res mv_state :=
  if i <? end4 then
    match fuel with
    | O => Hang
    | S fuel =>
        let r := v_row e - 1 in
        let c := v_col e + i in
        if negb (is_inside (v_tile e) r c) then Ok s
        else
          b <- get_nbr e r c ;;
          w <- idx num_4x4_blocks_wide (b_size b) ;;
          let l := Z.min bw4 w in
          let l := if 16 <=? bw4 then Z.max 4 l else l in
          s <- add_ref_mv_candidate e is_compound (l * 2) b s ;;
          scan_row_loop fuel e is_compound bw4 end4 (i + l) s
    end
  else Ok s.
Definition scan_row (e : mv_env) (is_compound : bool) (s : mv_state) : res mv_state :=
  bw4 <- idx num_4x4_blocks_wide (v_size e) ;;
  left <- chk_u64 (e_mi_cols (v_tile e) - v_col e) ;;
  let end4 := Z.min (Z.min bw4 left) 16 in
  scan_row_loop (Z.to_nat end4) e is_compound bw4 end4 0 s.

(** tile_encoder.rs 999-1030 with delta_col = -1. *)
Fixpoint scan_col_loop (fuel : nat) (e : mv_env) (is_compound : bool) (bh4 end4 i : Z) (s : mv_state)
  : res mv_state :=
  if i <? end4 then
    match fuel with
    | O => Hang
    | S fuel =>
        let r := v_row e + i in
        let c := v_col e - 1 in
        if negb (is_inside (v_tile e) r c) then Ok s
        else
          b <- get_nbr e r c ;;
          h <- idx num_4x4_blocks_high (b_size b) ;;
          let l := Z.min bh4 h in
          let l := if 16 <=? bh4 then Z.max 4 l else l in
          s <- add_ref_mv_candidate e is_compound (l * 2) b s ;;
          scan_col_loop fuel e is_compound bh4 end4 (i + l) s
    end
  else Ok s.
Definition scan_col (e : mv_env) (is_compound : bool) (s : mv_state) : res mv_state :=
  bh4 <- idx num_4x4_blocks_high (v_size e) ;;
  left <- chk_u64 (e_mi_rows (v_tile e) - v_row e) ;;
  let end4 := Z.min (Z.min bh4 left) 16 in
  scan_col_loop (Z.to_nat end4) e is_compound bh4 end4 0 s.

(** tile_encoder.rs 1036-1047: the block is looked up before the test. *)
Definition scan_point (e : mv_env) (is_compound : bool) (bw4 : Z) (s : mv_state) : res mv_state :=
  let r := v_row e - 1 in
  let c := v_col e + bw4 in
  b <- get_nbr e r c ;;
  if is_inside (v_tile e) r c && negb (b_ref0 b =? -1) then add_ref_mv_candidate e is_compound 4 b s
  else Ok s.

(** tile_encoder.rs 1055-1059. *)
Fixpoint add_level (n : nat) (i : Z) (ws : list Z) : res (list Z) :=
  match n with
  | O => Ok ws
  | S n =>
      w <- idx ws i ;;
      w <- chk_u64 (w + REF_CAT_LEVEL) ;;
      add_level n (i + 1) (set_nth (Z.to_nat i) w ws)
  end.

(** Is the candidate at least two samples away from the global vector? *)
Definition far (m g : mv) : res bool :=
  dx <- chk_i64 (fst m - fst g) ;;
  ax <- (if 0 <=? dx then Ok dx else chk_i64 (- dx)) ;;
  if 16 <=? ax then Ok true
  else
    dy <- chk_i64 (snd m - snd g) ;;
    ay <- (if 0 <=? dy then Ok dy else chk_i64 (- dy)) ;;
    Ok (16 <=? ay).

Definition field_mv (e : mv_env) (rf y8 x8 : Z) : res mv :=
  f <- idx (v_field e) rf ;; row <- idx f y8 ;; idx row x8.

Definition INVALID_MV := - 2 ^ 15.

(** tile_encoder.rs 1071-1163: one temporal sample. *)
Definition temporal_sample (e : mv_env) (is_compound : bool) (dr dc : Z) (s : mv_state) : res mv_state :=
  let r := Z.lor (v_row e + dr) 1 in
  let c := Z.lor (v_col e + dc) 1 in
  if is_inside (v_tile e) r c then
    let y8 := Z.shiftr r 1 in
    let x8 := Z.shiftr c 1 in
    let first := (dr =? 0) && (dc =? 0) in
    let s := if first then set_zero 1 s else s in
    if negb is_compound then
      m <- field_mv e (v_ref0 e) y8 x8 ;;
      if fst m =? INVALID_MV then Ok s
      else
        m <- lower_mv e m ;;
        s <- (if first then f <- far m (fst (s_global s)) ;; Ok (set_zero (b2z f) s) else Ok s) ;;
        stack_add false (m, (0, 0)) 2 s
    else
      m0 <- field_mv e (v_ref0 e) y8 x8 ;;
      m1 <- field_mv e (v_ref1 e) y8 x8 ;;
      if (fst m0 =? INVALID_MV) || (fst m1 =? INVALID_MV) then Ok s
      else
        m0 <- lower_mv e m0 ;;
        m1 <- lower_mv e m1 ;;
        s <- (if first then
                f0 <- far m0 (fst (s_global s)) ;;
                f <- (if f0 : bool then Ok true else far m1 (snd (s_global s))) ;;
                Ok (set_zero (b2z f) s)
              else Ok s) ;;
        stack_add true (m0, m1) 2 s
  else Ok s.

(** tile_encoder.rs 1067-1169: the samples in order; at most 16 x 16 units. *)
Fixpoint temporal_cols (fuel : nat) (e : mv_env) (is_compound : bool) (dr step lim dc : Z) (s : mv_state)
  : res mv_state :=
  if dc <? lim then
    match fuel with
    | O => Hang
    | S fuel =>
        s <- temporal_sample e is_compound dr dc s ;;
        temporal_cols fuel e is_compound dr step lim (dc + step) s
    end
  else Ok s.
Fixpoint temporal_rows (fuel : nat) (e : mv_env) (is_compound : bool) (stepr limr stepc limc dr : Z) (s : mv_state)
  : res mv_state :=
  if dr <? limr then
    match fuel with
    | O => Hang
    | S fuel =>
        s <- temporal_cols 16 e is_compound dr stepc limc 0 s ;;
        temporal_rows fuel e is_compound stepr limr stepc limc (dr + stepr) s
    end
  else Ok s.

(** tile_encoder.rs 885-1184, [find_mv_stack]. The loop over [tpl_sample_pos] has an
    empty body. The list is not sorted and no further rows or columns are scanned. *)
Definition find_mv_stack (e : mv_env) (is_compound : bool) (s : mv_state) : res mv_state :=
  bw4 <- idx num_4x4_blocks_wide (v_size e) ;;
  bh4 <- idx num_4x4_blocks_high (v_size e) ;;
  let s := set_new 0 (set_list 0 (s_stack s) (s_weights s) s) in
  s <- setup_global_mvs e is_compound s ;;
  s <- scan_row e is_compound (set_found false s) ;;
  let above := s_found s in
  s <- scan_col e is_compound (set_found false s) ;;
  let left := s_found s in
  let s := set_found false s in
  s <- (if Z.max bw4 bh4 <=? 16 then scan_point e is_compound bw4 s else Ok s) ;;
  let above := above || s_found s in
  let s := set_close (b2z above + b2z left) s in
  ws <- add_level (Z.to_nat (s_num s)) 0 (s_weights s) ;;
  let s := set_zero 0 (set_list (s_num s) (s_stack s) ws s) in
  temporal_rows 16 e is_compound (if 16 <=? bh4 then 4 else 2) (Z.min bh4 16)
    (if 16 <=? bw4 then 4 else 2) (Z.min bw4 16) 0 s.
