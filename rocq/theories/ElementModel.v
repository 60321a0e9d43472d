(** Model of small pieces of the frame and tile syntax:
    order hint distances, motion vector rounding, segment id prediction,
    delta q / delta lf and the sub-exponential codes of global motion. *)
From Coq Require Import ZArith List Bool.
From Verif Require Import Base UtilModel RangeCoderModel BitCodecModel SessionModel.
Import ListNotations.
Open Scope Z_scope.

(** common.rs 189-197, [get_relative_dist] (a, b, order_hint_bits : usize, result
    isize). The closure of the same name in obu_encoder.rs 1126-1135 is the same
    computation on isize arguments. *)
Definition get_relative_dist (a b : Z) (enable_order_hint : bool) (order_hint_bits : Z) : res Z :=
  if negb enable_order_hint then Ok 0
  else
    diff <- chk_i64 (as_i64 a - as_i64 b) ;;
    k <- chk_u64 (order_hint_bits - 1) ;;
    _ <- shift_ok 64 k ;;
    let m := as_i64 (Z.shiftl 1 k) in
    m1 <- chk_i64 (m - 1) ;;
    chk_i64 (Z.land diff m1 - Z.land diff m).

(** tile_encoder.rs 929-948 (closure [lower_mv_precision], isize; the same text
    is at 1078-1097, 1217 and 1281). [frame.force_integer_mv > 0] is the first
    argument; [allow_high_precision_mv] is not looked at. [Abs!] negates, which
    overflows for the smallest isize. *)
Definition lower_mv_precision (force_integer_mv : bool) (v : Z) : res Z :=
  if force_integer_mv then
    a <- (if 0 <=? v then Ok v else chk_i64 (- v)) ;;
    t <- chk_i64 (a + 3) ;;
    let a_int := Z.shiftr t 3 in
    let s := as_i64 (Z.shiftl a_int 3) in
    if 0 <? v then Ok s else chk_i64 (- s)
  else if negb (Z.land v 1 =? 0) then
    if 0 <? v then chk_i64 (v - 1) else chk_i64 (v + 1)
  else Ok v.

(** tile_encoder.rs 563-589 (closure [neg_interleave], all usize), in a build
    with overflow checks. [<<] discards what is shifted out. *)
Definition neg_interleave (v rf max : Z) : res Z :=
  if rf =? 0 then Ok v
  else
    m1 <- chk_u64 (max - 1) ;;
    if m1 <=? rf then chk_u64 (m1 - v)
    else
      rf2 <- chk_u64 (2 * rf) ;;
      if rf2 <? max then
        a <- chk_u64 (v - rf) ;;
        d1 <- chk_u64 (as_u64 (Z.shiftl a 1) - 1) ;;
        b <- chk_u64 (rf - v) ;;
        let d2 := as_u64 (Z.shiftl b 1) in
        if d1 <=? rf2 then Ok d1 else if d2 <=? rf2 then Ok d2 else Ok v
      else
        a <- chk_u64 (v - rf) ;;
        d1 <- chk_u64 (as_u64 (Z.shiftl a 1) - 1) ;;
        b <- chk_u64 (rf - v) ;;
        let d2 := as_u64 (Z.shiftl b 1) in
        e <- chk_u64 (max - rf) ;;
        e <- chk_u64 (e - 1) ;;
        lim <- chk_u64 (2 * e) ;;
        if d1 <=? lim then Ok d1 else if d2 <=? lim then Ok d2
        else r <- chk_u64 (rf - v) ;; chk_u64 (r - 1).

(** The same closure in a release build: arithmetic wraps modulo 2^64. *)
Definition neg_interleave_wrapping (v rf max : Z) : Z :=
  if rf =? 0 then v
  else if as_u64 (max - 1) <=? rf then as_u64 (max - 1 - v)
  else
    let d1 := as_u64 (2 * as_u64 (v - rf) - 1) in
    let d2 := as_u64 (2 * as_u64 (rf - v)) in
    if as_u64 (2 * rf) <? max then
      if d1 <=? as_u64 (2 * rf) then d1 else if d2 <=? as_u64 (2 * rf) then d2 else v
    else
      let lim := as_u64 (2 * (max - rf - 1)) in
      if d1 <=? lim then d1 else if d2 <=? lim then d2 else as_u64 (rf - v - 1).

(** constants.rs 381-382. *)
Definition DELTA_Q_SMALL : Z := 3.
Definition DELTA_LF_SMALL : Z := 3.

(** tile_encoder.rs 660-683, the calls on the arithmetic coder made for
    [delta_q_abs] and what follows, and the new [current_q_index]. The CDF
    [tile_cdf.delta_q] is entry [ctx] of the table (encode_delta_q_abs,
    bool_coder.rs 1122-1125). [q_index], [cur] : usize, [delta_q_res] : u8. *)
Definition delta_q_ops (ctx : nat) (q_index cur delta_q_res : Z) : res (list op * Z) :=
  d <- chk_i64 (as_i64 q_index - as_i64 cur) ;;
  _ <- shift_ok 64 delta_q_res ;;
  let delta := Z.shiftr d delta_q_res in
  a <- (if 0 <=? delta then Ok delta else chk_i64 (- delta)) ;;
  if negb (delta =? 0) then
    pre <- (if a <? DELTA_Q_SMALL then Ok [OSym ctx (Z.to_nat a)]
            else
              rem_bits <- msb16 (as_u16 (a - 1)) ;;
              r1 <- chk_u8 (rem_bits - 1) ;;
              bits <- chk_u64 (a - 1 - Z.shiftl 1 r1) ;;
              Ok [OSym ctx (Z.to_nat DELTA_Q_SMALL); OLit 3 r1; OLit (Z.to_nat rem_bits) bits]) ;;
    Ok (pre ++ [OLit 1 (if delta <? 0 then 1 else 0)], q_index)
  else Ok ([OSym ctx (Z.to_nat a)], q_index).

(** tile_encoder.rs 692-714: one iteration of the delta lf loop; the CDF is the
    one encode_delta_lf_abs picks (bool_coder.rs 1127-1134), entry [ctx]. *)
Definition delta_lf_ops (ctx : nat) (lf cur delta_lf_res : Z) : res (list op * Z) :=
  d <- chk_i64 (lf - cur) ;;
  _ <- shift_ok 64 delta_lf_res ;;
  let delta := Z.shiftr d delta_lf_res in
  if negb (delta =? 0) then
    a <- (if 0 <=? delta then Ok delta else chk_i64 (- delta)) ;;
    pre <- (if a <? DELTA_LF_SMALL then Ok [OSym ctx (Z.to_nat a)]
            else
              rem_bits <- msb16 (as_u16 (a - 1)) ;;
              r1 <- chk_u8 (rem_bits - 1) ;;
              bits <- chk_u64 (a - 1 - Z.shiftl 1 r1) ;;
              b1 <- chk_u64 (bits - 1) ;;
              Ok [OSym ctx (Z.to_nat DELTA_LF_SMALL); OLit 3 r1; OLit (Z.to_nat rem_bits) b1]) ;;
    Ok (pre ++ [OLit 1 (if delta <? 0 then 1 else 0)], lf)
  else Ok ([OSym ctx 0], lf).

(** obu_encoder.rs 1232-1240 (closure [inverse_recenter], usize). *)
Definition inverse_recenter (r v : Z) : res Z :=
  r2 <- chk_u64 (2 * r) ;;
  if r2 <? v then Ok v
  else if 0 <? Z.land v 1 then w <- chk_u64 (v + 1) ;; chk_u64 (r - Z.shiftr w 1)
  else chk_u64 (r + Z.shiftr v 1).

(** obu_encoder.rs 1241-1266 (closure [encode_subexp]). [i], [b2], [k] : u8 with
    k = 3; the rest usize. The shift [1 << b2] doubles with every round, so 64
    rounds reach its limit; fuel 65 is never used up. *)
Fixpoint encode_subexp_loop (fuel : nat) (out : list Z) (tv num_syms i mk : Z) : res (list Z) :=
  match fuel with
  | O => Hang
  | S f =>
      b2 <- chk_u8 (if 0 <? i then 3 + i - 1 else 3) ;;
      _ <- shift_ok 64 b2 ;;
      let a := Z.shiftl 1 b2 in
      a3 <- chk_u64 (3 * a) ;;
      lim <- chk_u64 (mk + a3) ;;
      if num_syms <=? lim then
        tv <- chk_u64 (tv - mk) ;;
        n <- chk_u64 (num_syms - mk) ;;
        encode_ns out tv n
      else
        top <- chk_u64 (mk + a - 1) ;;
        if tv <=? top then
          tv <- chk_u64 (tv - mk) ;;
          push_bits_with_size (push out 0) (as_u32 tv) b2
        else
          i <- chk_u8 (i + 1) ;;
          mk <- chk_u64 (mk + a) ;;
          encode_subexp_loop f (push out 1) tv num_syms i mk
  end.
Definition encode_subexp (out : list Z) (v num_syms : Z) : res (list Z) :=
  encode_subexp_loop 65 out v num_syms 0 0.

(** obu_encoder.rs 1267-1276 (closure [encode_unsigned_subexp_with_ref]). *)
Definition encode_unsigned_subexp_with_ref (out : list Z) (v mx r : Z) : res (list Z) :=
  if as_u64 (Z.shiftl r 1) <=? mx then
    tv <- inverse_recenter r v ;;
    encode_subexp out tv mx
  else
    m1 <- chk_u64 (mx - 1) ;;
    tv <- chk_u64 (m1 - v) ;;
    mr <- chk_u64 (m1 - r) ;;
    tv <- inverse_recenter mr tv ;;
    encode_subexp out tv mr.

(** obu_encoder.rs 1277-1280 (closure [encode_signed_subexp_with_ref], isize). *)
Definition encode_signed_subexp_with_ref (out : list Z) (v low high r : Z) : res (list Z) :=
  x <- chk_i64 (v - low) ;;
  mx <- chk_i64 (high - low) ;;
  rl <- chk_i64 (r - low) ;;
  encode_unsigned_subexp_with_ref out (as_u64 x) (as_u64 mx) (as_u64 rl).

(** constants.rs 389-412. *)
Definition WARPEDMODEL_PREC_BITS : Z := 16.
Definition GM_ABS_TRANS_BITS : Z := 12.
Definition GM_ABS_TRANS_ONLY_BITS : Z := 9.
Definition GM_ABS_ALPHA_BITS : Z := 12.
Definition GM_ALPHA_PREC_BITS : Z := 15.
Definition GM_TRANS_PREC_BITS : Z := 6.
Definition GM_TRANS_ONLY_PREC_BITS : Z := 3.

(** obu_encoder.rs 1214-1231 and 1281 (closure [encode_global_param]): [gm] is
    [gm_params[rf][idx]], [prev] is [prev_gm_params[rf][idx]]; [translation] says
    whether [typ == TRANSLATION]. All isize. The constants leave no room for
    overflow in [prec_diff] and the shifts, which are therefore not checked. *)
Definition encode_global_param (out : list Z) (translation hp : bool) (idx gm prev : Z) : res (list Z) :=
  let nhp := b2z (negb hp) in
  let abs_bits := if idx <? 2 then if translation then GM_ABS_TRANS_ONLY_BITS - nhp else GM_ABS_TRANS_BITS else GM_ABS_ALPHA_BITS in
  let prec_bits := if idx <? 2 then if translation then GM_TRANS_ONLY_PREC_BITS - nhp else GM_TRANS_PREC_BITS else GM_ALPHA_PREC_BITS in
  let prec_diff := WARPEDMODEL_PREC_BITS - prec_bits in
  let round := if idx mod 3 =? 2 then Z.shiftl 1 WARPEDMODEL_PREC_BITS else 0 in
  let sub := if idx mod 3 =? 2 then Z.shiftl 1 prec_bits else 0 in
  let mx := Z.shiftl 1 abs_bits in
  r <- chk_i64 (Z.shiftr prev prec_diff - sub) ;;
  g <- chk_i64 (gm - round) ;;
  encode_signed_subexp_with_ref out (Z.shiftr g prec_diff) (- mx) (mx + 1) r.
