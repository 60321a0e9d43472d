(** Model of the parameter groups of the frame header,
    /repo/src/obu_encoder.rs 817-1389, with the data of /repo/src/frame.rs and
    /repo/src/encoder.rs they use. Each group is the code between two comments of
    the source; it takes the fields it reads and returns the bits written so far
    and the new values of the fields it assigns. *)
From Coq Require Import ZArith List Bool.
From Verif Require Import Base UtilModel RangeCoderModel BitCodecModel SessionModel BlockTables SeqModel ElementModel TileModel.
Import ListNotations.
Open Scope Z_scope.

(** constants.rs 314-338, 452, 485. *)
Definition REFS_PER_FRAME := 7.
Definition NUM_REF_FRAMES := 8.
Definition TOTAL_REFS_PER_FRAME := 8.
Definition MAX_SEGMENTS := 8.
Definition SEG_LVL_ALT_Q := 0.
Definition SEG_LVL_REF_FRAME := 5.
Definition SEG_LVL_MAX := 7.
Definition PRIMARY_REF_NONE := 7.
Definition RESTORATION_TILESIZE_MAX := 256.

(** Indices [0..n]. *)
Definition upto (n : Z) : list nat := seq 0 (Z.to_nat n).

(** [v[i] = x] for a vector or array of any type. *)
Definition put {A : Type} (v : list A) (i : Z) (x : A) : res (list A) :=
  _ <- idx v i ;; Ok (set_nth (Z.to_nat i) x v).

(** Quantization parameters: frame.rs 18-26 (without [delta_q], never used) and
    encoder.rs 56-60. *)
Record quant : Type := mkQ { q_base : Z; q_diff : bool; q_using : bool; q_y : Z; q_u : Z; q_v : Z }.
Record dq5 : Type := mkDQ { dq_y_dc : Z; dq_u_dc : Z; dq_u_ac : Z; dq_v_dc : Z; dq_v_ac : Z }.

(** obu_encoder.rs 819-826, closure [encode_delta_q]. *)
Definition enc_delta_q (out : list Z) (d : Z) : res (list Z) :=
  if negb (d =? 0) then encode_su (push out 1) d 7 else Ok (push out 0).

(** obu_encoder.rs 817-857. [planes] is [ecx.num_planes], [sep] is
    [ecx.color_config.separate_uv_delta_q]. *)
Definition enc_quant (out : list Z) (planes : Z) (sep : bool) (q : quant) (d : dq5) : res (list Z * quant * dq5) :=
  out <- push_bits_with_size out (q_base q) 8 ;;
  out <- enc_delta_q out (dq_y_dc d) ;;
  '(out, diff, d) <-
    (if 1 <? planes then
       let '(out, diff) := if sep then (pbit out (q_diff q), q_diff q) else (out, false) in
       out <- enc_delta_q out (dq_u_dc d) ;;
       out <- enc_delta_q out (dq_u_ac d) ;;
       if diff then
         out <- enc_delta_q out (dq_v_dc d) ;;
         out <- enc_delta_q out (dq_v_ac d) ;;
         Ok (out, diff, d)
       else Ok (out, diff, mkDQ (dq_y_dc d) (dq_u_dc d) (dq_u_ac d) (dq_u_dc d) (dq_u_ac d))
     else Ok (out, q_diff q, mkDQ (dq_y_dc d) 0 0 0 0)) ;;
  let out := pbit out (q_using q) in
  if q_using q then
    out <- push_bits_with_size out (q_y q) 4 ;;
    out <- push_bits_with_size out (q_u q) 4 ;;
    if negb sep then Ok (out, mkQ (q_base q) diff true (q_y q) (q_u q) (q_u q), d)
    else
      out <- push_bits_with_size out (q_v q) 4 ;;
      Ok (out, mkQ (q_base q) diff true (q_y q) (q_u q) (q_v q), d)
  else Ok (out, mkQ (q_base q) diff false (q_y q) (q_u q) (q_v q), d).

(** Segmentation parameters: frame.rs 28-34. *)
Record segp : Type := mkSegP {
  g_on : bool; g_map : bool; g_temporal : bool; g_data : bool; g_feat : list (list (option Z)) }.

(** constants.rs 1018-1028. *)
Definition feature_bits : list Z := segmentation_feature_bits.
Definition feature_signed : list bool := map (Z.eqb 1) segmentation_feature_signed.
Definition feature_max : list Z := segmentation_feature_max.

(** obu_encoder.rs 877-891: one feature; [fv : isize]. Returns the clipped value. *)
Definition enc_feature (out : list Z) (j : Z) (v : option Z) : res (list Z * option Z) :=
  let out := pbit out (is_some v) in
  match v with
  | None => Ok (out, Some 0)
  | Some fv =>
      bits <- idx feature_bits j ;;
      limit <- idx feature_max j ;;
      sg <- idx feature_signed j ;;
      if (sg : bool) then
        b <- chk_u8 (1 + bits) ;;
        out <- encode_su out fv b ;;
        Ok (out, Some (Clip3 (- limit) limit fv))
      else
        out <- encode_su out fv bits ;;
        Ok (out, Some (Clip3 0 limit fv))
  end.

(** obu_encoder.rs 875-893: the loop over the features of one segment, and the
    loop over the segments. *)
Fixpoint enc_features (out : list Z) (js : list nat) (row : list (option Z)) : res (list Z * list (option Z)) :=
  match js with
  | [] => Ok (out, row)
  | j :: js =>
      v <- idx row (Z.of_nat j) ;;
      '(out, v) <- enc_feature out (Z.of_nat j) v ;;
      enc_features out js (set_nth j v row)
  end.
Fixpoint enc_segments (out : list Z) (is : list nat) (m : list (list (option Z))) : res (list Z * list (list (option Z))) :=
  match is with
  | [] => Ok (out, m)
  | i :: is =>
      row <- idx m (Z.of_nat i) ;;
      '(out, row) <- enc_features out (upto SEG_LVL_MAX) row ;;
      enc_segments out is (set_nth i row m)
  end.

(** obu_encoder.rs 895-899: [feature_value[i][j] = None] everywhere. The array is
    8 by 7 (frame.rs 33), so this is the array of [None]. *)
Definition no_features : list (list (option Z)) := repeat (repeat None 7) 8.

(** obu_encoder.rs 901-912: seg_id_pre_skip and last_active_seg_id. *)
Definition seg_derive (m : list (list (option Z))) : bool * Z :=
  fold_left (fun acc i =>
    fold_left (fun acc j =>
      match nth_error (nth i m []) j with
      | Some (Some _) => (fst acc || (SEG_LVL_REF_FRAME <=? Z.of_nat j), Z.of_nat i)
      | _ => acc
      end) (upto SEG_LVL_MAX) acc) (upto MAX_SEGMENTS) (false, 0).

(** obu_encoder.rs 859-912. [primary] is [frame.primary_ref_frame]. Returns the
    output, the parameters, seg_id_pre_skip and last_active_seg_id. *)
Definition enc_seg (out : list Z) (primary : Z) (s : segp) : res (list Z * segp * bool * Z) :=
  let out := pbit out (g_on s) in
  '(out, s) <-
    (if g_on s then
       let '(out, s) :=
         if primary =? PRIMARY_REF_NONE then (out, mkSegP true true false true (g_feat s))
         else
           let out := pbit out (g_map s) in
           let out := if g_map s then pbit out (g_temporal s) else out in
           (pbit out (g_data s), s) in
       if g_data s then
         '(out, m) <- enc_segments out (upto MAX_SEGMENTS) (g_feat s) ;;
         Ok (out, mkSegP true (g_map s) (g_temporal s) true m)
       else Ok (out, s)
     else Ok (out, mkSegP false (g_map s) (g_temporal s) (g_data s) no_features)) ;;
  let '(pre, last) := seg_derive (g_feat s) in
  Ok (out, s, pre, last).

(** Delta q and delta lf parameters: frame.rs 36-46; obu_encoder.rs 914-940. *)
Record deltap : Type := mkDelta { d_present : bool; d_res : Z; d_lf : bool; d_lf_res : Z; d_multi : bool }.
Definition enc_delta (out : list Z) (base : Z) (intrabc : bool) (p : deltap) : res (list Z * deltap) :=
  let '(out, present) := if 0 <? base then (pbit out (d_present p), d_present p) else (out, false) in
  if present then
    let out := push out (d_res p) in
    let '(out, lf) := if negb intrabc then (pbit out (d_lf p), d_lf p) else (out, false) in
    if lf then
      out <- push_bits_with_size out (d_lf_res p) 2 ;;
      Ok (pbit out (d_multi p), mkDelta true (d_res p) true (d_lf_res p) (d_multi p))
    else Ok (out, mkDelta true (d_res p) false 0 false)
  else Ok (out, mkDelta false 0 (d_lf p) (d_lf_res p) (d_multi p)).

(** obu_encoder.rs 948-966, closures [seg_feature_active_idx] and [get_qindex]:
    [cur] is [ecx.current_q_index]. *)
Definition get_qindex (ignore : bool) (seg cur : Z) (present : bool) (base : Z) (s : segp) : res Z :=
  row <- (if g_on s then idx (g_feat s) seg else Ok []) ;;
  f <- (if g_on s then idx row SEG_LVL_ALT_Q else Ok None) ;;
  match f with
  | Some data =>
      q <- chk_i64 (base + data) ;;
      q <- (if negb ignore && present then chk_i64 (cur + data) else Ok q) ;;
      Ok (Clip3 0 255 q)
  | None => if ignore then Ok cur else Ok base
  end.

(** obu_encoder.rs 967-987: per segment (lossless, levels of the quantizer
    matrices if they are in use); then [coded_lossless] and the levels. *)
Definition dq_zero (d : dq5) : bool :=
  (dq_y_dc d =? 0) && (dq_u_ac d =? 0) && (dq_u_dc d =? 0) && (dq_v_ac d =? 0) && (dq_v_dc d =? 0).
Fixpoint enc_lossless (segs : list nat) (cur : Z) (present : bool) (q : quant) (d : dq5) (s : segp)
  (coded : bool) (arr : list bool) (lv : list (list Z)) : res (bool * list bool * list (list Z)) :=
  match segs with
  | [] => Ok (coded, arr, lv)
  | i :: segs =>
      qi <- get_qindex true (Z.of_nat i) cur present (q_base q) s ;;
      let l := (qi =? 0) && dq_zero d in
      arr <- put arr (Z.of_nat i) l ;;
      lv <- (if q_using q then
               let set3 k x lv := row <- idx lv k ;; row <- put row (Z.of_nat i) x ;; put lv k row in
               lv <- set3 0 (if l then 15 else q_y q) lv ;;
               lv <- set3 1 (if l then 15 else q_u q) lv ;;
               set3 2 (if l then 15 else q_v q) lv
             else Ok lv) ;;
      enc_lossless segs cur present q d s (coded && l) arr lv
  end.

(** Loop filter parameters: frame.rs 48-57. *)
Record lfp : Type := mkLF {
  lf_level : list Z; lf_sharp : Z; lf_enabled : bool; lf_update : bool;
  lf_upd_ref : list bool; lf_ref : list Z; lf_upd_mode : list bool; lf_mode : list Z }.

(** obu_encoder.rs 1021-1032: the loops over the reference deltas and the mode
    deltas. Both read [update_ref_delta] to decide whether the delta is written. *)
Fixpoint enc_lf_deltas (out : list Z) (is : list nat) (flag guard : list bool) (delta : list Z) : res (list Z) :=
  match is with
  | [] => Ok out
  | i :: is =>
      f <- idx flag (Z.of_nat i) ;;
      let out := pbit out f in
      g <- idx guard (Z.of_nat i) ;;
      out <- (if (g : bool) then v <- idx delta (Z.of_nat i) ;; encode_su out v 7 else Ok out) ;;
      enc_lf_deltas out is flag guard delta
  end.

(** obu_encoder.rs 992-1036. Array positions: INTRA 0, LAST 1, LAST2 2, LAST3 3,
    GOLDEN 4, BWDREF 5, ALTREF2 6, ALTREF 7. *)
Definition enc_lf (out : list Z) (planes : Z) (off : bool) (p : lfp) : res (list Z * lfp) :=
  if off then
    l <- put (lf_level p) 0 0 ;;
    l <- put l 1 0 ;;
    Ok (out, mkLF l (lf_sharp p) (lf_enabled p) (lf_update p) (lf_upd_ref p) [1; 0; 0; 0; -1; 0; -1; -1] (lf_upd_mode p) [0; 0])
  else
    l0 <- idx (lf_level p) 0 ;;
    l1 <- idx (lf_level p) 1 ;;
    out <- push_bits_with_size out l0 6 ;;
    out <- push_bits_with_size out l1 6 ;;
    out <- (if (1 <? planes) && ((0 <? l0) || (0 <? l1)) then
              l2 <- idx (lf_level p) 2 ;;
              out <- push_bits_with_size out l2 6 ;;
              l3 <- idx (lf_level p) 3 ;;
              push_bits_with_size out l3 6
            else Ok out) ;;
    out <- push_bits_with_size out (lf_sharp p) 3 ;;
    let out := pbit out (lf_enabled p) in
    out <- (if lf_enabled p then
              let out := pbit out (lf_update p) in
              if lf_update p then
                out <- enc_lf_deltas out (upto TOTAL_REFS_PER_FRAME) (lf_upd_ref p) (lf_upd_ref p) (lf_ref p) ;;
                enc_lf_deltas out (upto 2) (lf_upd_mode p) (lf_upd_ref p) (lf_mode p)
              else Ok out
            else Ok out) ;;
    Ok (out, p).

(** CDEF parameters: frame.rs 59-66; obu_encoder.rs 1038-1064. *)
Record cdefp : Type := mkCdef {
  cd_damping : Z; cd_bits : Z; cd_y_pri : list Z; cd_y_sec : list Z; cd_uv_pri : list Z; cd_uv_sec : list Z }.
(** A pair of strengths, 1050-1054 and 1056-1060: a secondary strength of 3 becomes 4. *)
Definition enc_strength (out : list Z) (i : Z) (pri sec : list Z) : res (list Z * list Z) :=
  p <- idx pri i ;;
  out <- push_bits_with_size out p 4 ;;
  s <- idx sec i ;;
  out <- push_bits_with_size out s 2 ;;
  Ok (out, if s =? 3 then set_nth (Z.to_nat i) 4 sec else sec).
Fixpoint enc_strengths (out : list Z) (is : list nat) (planes : Z) (p : cdefp) : res (list Z * cdefp) :=
  match is with
  | [] => Ok (out, p)
  | i :: is =>
      '(out, ys) <- enc_strength out (Z.of_nat i) (cd_y_pri p) (cd_y_sec p) ;;
      '(out, us) <- (if 1 <? planes then enc_strength out (Z.of_nat i) (cd_uv_pri p) (cd_uv_sec p) else Ok (out, cd_uv_sec p)) ;;
      enc_strengths out is planes (mkCdef (cd_damping p) (cd_bits p) (cd_y_pri p) ys (cd_uv_pri p) us)
  end.
Definition enc_cdef (out : list Z) (planes : Z) (off : bool) (p : cdefp) : res (list Z * cdefp) :=
  if off then
    a <- put (cd_y_pri p) 0 0 ;;
    b <- put (cd_y_sec p) 0 0 ;;
    c <- put (cd_uv_pri p) 0 0 ;;
    d <- put (cd_uv_sec p) 0 0 ;;
    Ok (out, mkCdef 3 0 a b c d)
  else
    d <- chk_u8 (cd_damping p - 3) ;;
    out <- push_bits_with_size out d 2 ;;
    out <- push_bits_with_size out (cd_bits p) 2 ;;
    _ <- shift_ok 64 (cd_bits p) ;;
    enc_strengths out (upto (Z.shiftl 1 (cd_bits p))) planes p.

(** Loop restoration parameters: frame.rs 68-73, encoder.rs 71-75. The restoration
    types are the enum values of constants.rs 87-92. *)
Record lrp : Type := mkLR { lr_type : Z; lr_shift : Z; lr_extra : Z; lr_uv : Z }.
Record lrc : Type := mkLRC { lc_type : list Z; lc_size : list Z; lc_uses : bool; lc_chroma : bool }.
Definition RESTORE_NONE := 0.
Definition RESTORE_WIENER := 1.
Definition RESTORE_SGRPROJ := 2.
Definition RESTORE_SWITCHABLE := 3.

(** obu_encoder.rs 1075-1084. *)
Fixpoint enc_lr_types (out : list Z) (is : list nat) (typ : Z) (types : list Z) (uses chroma : bool)
  : res (list Z * list Z * bool * bool) :=
  match is with
  | [] => Ok (out, types, uses, chroma)
  | i :: is =>
      out <- push_bits_with_size out typ 2 ;;
      t <- idx remap_lr_type typ ;;
      types <- put types (Z.of_nat i) t ;;
      let on := negb (t =? RESTORE_NONE) in
      enc_lr_types out is typ types (uses || on) (chroma || (on && (0 <? Z.of_nat i)))
  end.

(** obu_encoder.rs 1066-1106. [off] is
    [ecx.all_lossless || frame.allow_intrabc || ecx.enable_restoration]; [ss] is
    [subsampling_x && subsampling_y]. *)
Definition enc_lr (out : list Z) (planes : Z) (off sb128 ss : bool) (p : lrp) (c : lrc) : res (list Z * lrp * lrc) :=
  if off then Ok (out, p, mkLRC [RESTORE_NONE; RESTORE_NONE; RESTORE_NONE] (lc_size c) false (lc_chroma c))
  else
    '(out, types, uses, chroma) <- enc_lr_types out (upto planes) (lr_type p) (lc_type c) false false ;;
    if uses then
      '(out, extra) <-
        (if (sb128 : bool) then s1 <- chk_u64 (lr_shift p - 1) ;; Ok (push out (as_u8 s1), lr_extra p)
         else
           let out := push out (as_u8 (lr_shift p)) in
           if 1 <=? lr_shift p then Ok (push out (as_u8 (lr_shift p - 1)), lr_shift p - 1)
           else Ok (out, lr_extra p)) ;;
      k <- chk_u64 (2 - lr_shift p) ;;
      size <- put (lc_size c) 0 (Z.shiftr RESTORATION_TILESIZE_MAX k) ;;
      let '(out, uv) := if (ss : bool) && chroma then (push out (as_u8 (lr_uv p)), lr_uv p) else (out, 0) in
      _ <- shift_ok 64 uv ;;
      s1 <- idx size 1 ;;
      size <- put size 1 (Z.shiftr s1 uv) ;;
      s2 <- idx size 2 ;;
      size <- put size 2 (Z.shiftr s2 uv) ;;
      Ok (out, mkLR (lr_type p) (lr_shift p) extra uv, mkLRC types size true chroma)
    else Ok (out, p, mkLRC types (lc_size c) false chroma).

(** obu_encoder.rs 1135-1144, closure [get_relative_dist] on isize. *)
Definition rel_dist (a b : Z) (enable : bool) (bits : Z) : res Z :=
  if negb enable then Ok 0
  else
    diff <- chk_i64 (a - b) ;;
    k <- chk_u8 (bits - 1) ;;
    _ <- shift_ok 64 k ;;
    let m := as_i64 (Z.shiftl 1 k) in
    m1 <- chk_i64 (m - 1) ;;
    chk_i64 (Z.land diff m1 - Z.land diff m).

(** obu_encoder.rs 1145-1158: the first loop over the references. The state is
    (forward_idx, forward_hint, backward_idx, backward_hint). *)
Fixpoint skip_scan (is : list nat) (hints ref_idx : list Z) (cur : Z) (enable : bool) (bits : Z) (st : Z * Z * Z * Z)
  : res (Z * Z * Z * Z) :=
  match is with
  | [] => Ok st
  | i :: is =>
      let '(fi, fh, bi, bh) := st in
      r <- idx ref_idx (Z.of_nat i) ;;
      h <- idx hints r ;;
      d <- rel_dist (as_i64 h) cur enable bits ;;
      st <- (if d <? 0 then
               upd <- (if fi <? 0 then Ok true else e <- rel_dist (as_i64 h) (as_i64 fh) enable bits ;; Ok (0 <? e)) ;;
               Ok (if (upd : bool) then (Z.of_nat i, h, bi, bh) else st)
             else
               d <- rel_dist (as_i64 h) cur enable bits ;;
               if 0 <? d then
                 upd <- (if bi <? 0 then Ok true else e <- rel_dist (as_i64 h) (as_i64 bh) enable bits ;; Ok (e <? 0)) ;;
                 Ok (if (upd : bool) then (fi, fh, Z.of_nat i, h) else st)
               else Ok st) ;;
      skip_scan is hints ref_idx cur enable bits st
  end.

(** obu_encoder.rs 1166-1176: the second loop; the state is
    (second_forward_idx, second_forward_hint). *)
Fixpoint skip_scan2 (is : list nat) (hints ref_idx : list Z) (fh : Z) (enable : bool) (bits : Z) (st : Z * Z) : res (Z * Z) :=
  match is with
  | [] => Ok st
  | i :: is =>
      let '(si, sh) := st in
      r <- idx ref_idx (Z.of_nat i) ;;
      h <- idx hints r ;;
      d <- rel_dist (as_i64 h) (as_i64 fh) enable bits ;;
      st <- (if d <? 0 then
               upd <- (if si <? 0 then Ok true else e <- rel_dist (as_i64 h) (as_i64 sh) enable bits ;; Ok (0 <? e)) ;;
               Ok (if (upd : bool) then (Z.of_nat i, h) else st)
             else Ok st) ;;
      skip_scan2 is hints ref_idx fh enable bits st
  end.

(** obu_encoder.rs 1127-1187, without the bit. [None] is
    [skip_mode_allowed = false]; otherwise the two frames. *)
Definition skip_mode (intra select enable : bool) (bits : Z) (hints ref_idx : list Z) (cur : Z) : res (option (Z * Z)) :=
  if intra || negb select || negb enable then Ok None
  else
    '(fi, fh, bi, bh) <- skip_scan (upto REFS_PER_FRAME) hints ref_idx cur enable bits (-1, 0, -1, 0) ;;
    if fi <? 0 then Ok None
    else if 0 <=? bi then Ok (Some (1 + Min fi bi, 1 + Max fi bi))
    else
      '(si, sh) <- skip_scan2 (upto REFS_PER_FRAME) hints ref_idx fh enable bits (-1, 0) ;;
      if si <? 0 then Ok None else Ok (Some (1 + Min fi si, 1 + Max fi si)).

(** Global motion parameters: frame.rs 75-79, encoder.rs 29-31. *)
Record gmp : Type := mkGM { gm_global : list bool; gm_rot : list bool; gm_trans : list bool }.
Definition IDENTITY := 0.
Definition TRANSLATION := 1.
Definition ROTZOOM := 2.
Definition AFFINE := 3.
(** [LAST_FRAME..ALTREF_FRAME], a half-open range. *)
Definition gm_refs : list nat := [1; 2; 3; 4; 5; 6]%nat.
(** obu_encoder.rs 1204-1209: the identity. *)
Definition identity_params : list Z := [0; 0; 2 ^ 16; 0; 0; 2 ^ 16].

(** obu_encoder.rs 1211-1222: the type of the model of one reference. *)
Definition enc_gm_type (out : list Z) (rf : Z) (p : gmp) : res (list Z * Z) :=
  g <- idx (gm_global p) rf ;;
  let out := pbit out g in
  if (g : bool) then
    r <- idx (gm_rot p) rf ;;
    let out := pbit out r in
    if (r : bool) then Ok (out, ROTZOOM)
    else t <- idx (gm_trans p) rf ;; Ok (pbit out t, if (t : bool) then TRANSLATION else AFFINE)
  else Ok (out, IDENTITY).

(** obu_encoder.rs 1203-1301 for one reference: [par] is [gm_params[rf]], [prev]
    is [prev_gm_params[rf]]. *)
Definition enc_gm_one (out : list Z) (hp : bool) (typ : Z) (par prev : list Z) : res (list Z * list Z) :=
  let one out k := g <- idx par k ;; p <- idx prev k ;; encode_global_param out (typ =? TRANSLATION) hp k g p in
  '(out, par) <-
    (if ROTZOOM <=? typ then
       out <- one out 2 ;;
       out <- one out 3 ;;
       if typ =? AFFINE then
         out <- one out 4 ;;
         out <- one out 5 ;;
         Ok (out, par)
       else
         g3 <- idx par 3 ;; n3 <- chk_i64 (- g3) ;; par' <- put par 4 n3 ;;
         g2 <- idx par' 2 ;; n2 <- chk_i64 (- g2) ;; par' <- put par' 5 n2 ;;
         Ok (out, par')
     else Ok (out, par)) ;;
  if TRANSLATION <=? typ then
    out <- one out 0 ;;
    out <- one out 1 ;;
    Ok (out, par)
  else Ok (out, par).

Fixpoint enc_gm_loop (out : list Z) (rfs : list nat) (hp : bool) (p : gmp) (types : list Z) (par prev : list (list Z))
  : res (list Z * list Z * list (list Z)) :=
  match rfs with
  | [] => Ok (out, types, par)
  | rf :: rfs =>
      '(out, typ) <- enc_gm_type out (Z.of_nat rf) p ;;
      types <- put types (Z.of_nat rf) typ ;;
      g <- idx par (Z.of_nat rf) ;;
      pv <- idx prev (Z.of_nat rf) ;;
      '(out, g) <- enc_gm_one out hp typ g pv ;;
      par <- put par (Z.of_nat rf) g ;;
      enc_gm_loop out rfs hp p types par prev
  end.

(** obu_encoder.rs 1203-1209: [gm_type] and [gm_params] are set to the identity
    before anything is written. *)
Definition gm_reset (types : list Z) (par : list (list Z)) : res (list Z * list (list Z)) :=
  fold_left (fun acc rf => '(types, par) <- acc ;;
    types <- put types (Z.of_nat rf) IDENTITY ;; par <- put par (Z.of_nat rf) identity_params ;; Ok (types, par))
    gm_refs (Ok (types, par)).

(** obu_encoder.rs 1202-1303. *)
Definition enc_gm (out : list Z) (intra hp : bool) (p : gmp) (types : list Z) (par prev : list (list Z))
  : res (list Z * list Z * list (list Z)) :=
  '(types, par) <- gm_reset types par ;;
  if intra then Ok (out, types, par) else enc_gm_loop out gm_refs hp p types par prev.

(** Film grain parameters: frame.rs 81-143. *)
Record grain : Type := mkGrain {
  fg_apply : bool; fg_seed : Z; fg_update : bool; fg_ref : Z;
  fg_ny : Z; fg_yv : list Z; fg_ys : list Z; fg_cfl : bool; fg_ncb : Z; fg_ncr : Z;
  fg_cbv : list Z; fg_cbs : list Z; fg_crv : list Z; fg_crs : list Z;
  fg_scaling : Z; fg_lag : Z; fg_ay : list Z; fg_acb : list Z; fg_acr : list Z; fg_ashift : Z; fg_gshift : Z;
  fg_cb_mult : Z; fg_cb_luma : Z; fg_cb_off : Z; fg_cr_mult : Z; fg_cr_luma : Z; fg_cr_off : Z;
  fg_overlap : bool; fg_clip : bool }.
Definition grain_new : grain :=
  mkGrain false 0 false 0 0 [] [] false 0 0 [] [] [] [] 0 0 [] [] [] 0 0 0 0 0 0 0 0 false false.
(** [fgp.update_grain = true], [fgp.grain_seed = x]. *)
Definition set_update (g : grain) : grain :=
  mkGrain (fg_apply g) (fg_seed g) true (fg_ref g) (fg_ny g) (fg_yv g) (fg_ys g) (fg_cfl g) (fg_ncb g) (fg_ncr g)
    (fg_cbv g) (fg_cbs g) (fg_crv g) (fg_crs g) (fg_scaling g) (fg_lag g) (fg_ay g) (fg_acb g) (fg_acr g) (fg_ashift g) (fg_gshift g)
    (fg_cb_mult g) (fg_cb_luma g) (fg_cb_off g) (fg_cr_mult g) (fg_cr_luma g) (fg_cr_off g) (fg_overlap g) (fg_clip g).
Definition set_seed (x : Z) (g : grain) : grain :=
  mkGrain (fg_apply g) x (fg_update g) (fg_ref g) (fg_ny g) (fg_yv g) (fg_ys g) (fg_cfl g) (fg_ncb g) (fg_ncr g)
    (fg_cbv g) (fg_cbs g) (fg_crv g) (fg_crs g) (fg_scaling g) (fg_lag g) (fg_ay g) (fg_acb g) (fg_acr g) (fg_ashift g) (fg_gshift g)
    (fg_cb_mult g) (fg_cb_luma g) (fg_cb_off g) (fg_cr_mult g) (fg_cr_luma g) (fg_cr_off g) (fg_overlap g) (fg_clip g).
(** [fgp.chroma_scaling_from_luma = c], and the two numbers of chroma points. *)
Definition set_chroma (c : bool) (ncb ncr : Z) (g : grain) : grain :=
  mkGrain (fg_apply g) (fg_seed g) (fg_update g) (fg_ref g) (fg_ny g) (fg_yv g) (fg_ys g) c ncb ncr
    (fg_cbv g) (fg_cbs g) (fg_crv g) (fg_crs g) (fg_scaling g) (fg_lag g) (fg_ay g) (fg_acb g) (fg_acr g) (fg_ashift g) (fg_gshift g)
    (fg_cb_mult g) (fg_cb_luma g) (fg_cb_off g) (fg_cr_mult g) (fg_cr_luma g) (fg_cr_off g) (fg_overlap g) (fg_clip g).

(** obu_encoder.rs 1330-1333 and the like: points of a scaling function. *)
Fixpoint enc_points (out : list Z) (is : list nat) (vs ss : list Z) : res (list Z) :=
  match is with
  | [] => Ok out
  | i :: is =>
      v <- idx vs (Z.of_nat i) ;;
      out <- push_bits_with_size out v 8 ;;
      s <- idx ss (Z.of_nat i) ;;
      out <- push_bits_with_size out s 8 ;;
      enc_points out is vs ss
  end.
(** obu_encoder.rs 1358-1360 and the like: coefficients, i16 arithmetic. *)
Fixpoint enc_coeffs (out : list Z) (is : list nat) (cs : list Z) : res (list Z) :=
  match is with
  | [] => Ok out
  | i :: is =>
      c <- idx cs (Z.of_nat i) ;;
      v <- chk (- 2 ^ 15) (2 ^ 15 - 1) (c + 128) ;;
      out <- push_bits_with_size out (as_u32 v) 8 ;;
      enc_coeffs out is cs
  end.
(** obu_encoder.rs 1374-1383: mult, luma_mult and offset of a chroma plane. *)
Definition enc_mult (out : list Z) (n m l o : Z) : res (list Z) :=
  if 0 <? n then
    out <- push_bits_with_size out (as_u32 m) 8 ;;
    out <- push_bits_with_size out (as_u32 l) 8 ;;
    push_bits_with_size out (as_u32 o) 9
  else Ok out.

(** obu_encoder.rs 1328-1386: the parameters themselves. [mono], [ss] are
    mono_chrome and [subsampling_x && subsampling_y]. *)
Definition enc_grain_params (out : list Z) (mono ss : bool) (g : grain) : res (list Z * grain) :=
  out <- push_bits_with_size out (as_u32 (fg_ny g)) 4 ;;
  out <- enc_points out (upto (fg_ny g)) (fg_yv g) (fg_ys g) ;;
  let '(out, cfl) := if mono then (out, false) else (pbit out (fg_cfl g), fg_cfl g) in
  '(out, g) <-
    (if mono || cfl || (ss && (fg_ny g =? 0)) then Ok (out, set_chroma cfl 0 0 g)
     else
       out <- push_bits_with_size out (as_u32 (fg_ncb g)) 4 ;;
       out <- enc_points out (upto (fg_ncb g)) (fg_cbv g) (fg_cbs g) ;;
       out <- push_bits_with_size out (as_u32 (fg_ncr g)) 4 ;;
       out <- enc_points out (upto (fg_ncr g)) (fg_crv g) (fg_crs g) ;;
       Ok (out, set_chroma cfl (fg_ncb g) (fg_ncr g) g)) ;;
  s <- chk_u64 (fg_scaling g - 8) ;;
  out <- push_bits_with_size out (as_u32 s) 2 ;;
  out <- push_bits_with_size out (as_u32 (fg_lag g)) 2 ;;
  a <- chk_u64 (2 * fg_lag g) ;;
  luma <- chk_u64 (a * (fg_lag g + 1)) ;;
  '(out, chroma) <- (if 0 <? fg_ny g then out <- enc_coeffs out (upto luma) (fg_ay g) ;; Ok (out, luma + 1) else Ok (out, luma)) ;;
  out <- (if fg_cfl g || (0 <? fg_ncb g) then enc_coeffs out (upto chroma) (fg_acb g) else Ok out) ;;
  out <- (if fg_cfl g || (0 <? fg_ncr g) then enc_coeffs out (upto chroma) (fg_acr g) else Ok out) ;;
  s <- chk_u64 (fg_ashift g - 6) ;;
  out <- push_bits_with_size out (as_u32 s) 2 ;;
  out <- push_bits_with_size out (as_u32 (fg_gshift g)) 2 ;;
  out <- enc_mult out (fg_ncb g) (fg_cb_mult g) (fg_cb_luma g) (fg_cb_off g) ;;
  out <- enc_mult out (fg_ncr g) (fg_cr_mult g) (fg_cr_luma g) (fg_cr_off g) ;;
  Ok (pbit (pbit out (fg_overlap g)) (fg_clip g), g).

(** obu_encoder.rs 1305-1389. [fg] is [ecx.film_grain_params], [refs] the stored
    parameters of the reference frames, [inter] whether the frame is an
    INTER_FRAME. *)
Definition enc_grain (out : list Z) (fg : option grain) (refs : list grain) (show showable inter mono ss : bool)
  : res (list Z * option grain) :=
  let g := match fg with
           | Some g => if negb show && negb showable then grain_new else g
           | None => grain_new
           end in
  stored <- idx refs (fg_ref g) ;;
  let out := pbit out (fg_apply g) in
  if negb (fg_apply g) then Ok (out, Some grain_new)
  else
    out <- push_bits_with_size out (fg_seed g) 16 ;;
    let '(out, g) := if inter then (pbit out (fg_update g), g) else (out, set_update g) in
    if negb (fg_update g) then
      out <- push_bits_with_size out (as_u32 (fg_ref g)) 3 ;;
      Ok (out, Some (set_seed (fg_seed g) stored))
    else
      '(out, g) <- enc_grain_params out mono ss g ;;
      Ok (out, Some g).
