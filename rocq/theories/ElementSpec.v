(** Independent readers and functions for the small syntax elements, from the AV1
    specification. *)
From Coq Require Import ZArith List Bool.
From Verif Require Import SessionModel SeqSpec SyntaxSpec ReaderSpec.
Import ListNotations.
Open Scope Z_scope.

(** lower_mv_precision for one component, 7.10.2.3. *)
Definition av1_lower_mv (allow_hp force_integer : bool) (v : Z) : Z :=
  if allow_hp then v
  else if force_integer then Z.sgn v * (8 * ((Z.abs v + 3) / 8))
  else if Z.odd v then v - Z.sgn v
  else v.

(** neg_deinterleave, 5.11.9. *)
Definition av1_neg_deinterleave (diff ref max : Z) : Z :=
  if ref =? 0 then diff
  else if max - 1 <=? ref then max - diff - 1
  else if 2 * ref <? max then
    if diff <=? 2 * ref then
      if Z.odd diff then ref + (diff + 1) / 2 else ref - diff / 2
    else diff
  else if diff <=? 2 * (max - ref - 1) then
    if Z.odd diff then ref + (diff + 1) / 2 else ref - diff / 2
  else max - (diff + 1).

(** 5.11.38 and 5.11.39: reading a delta (the part both elements share). *)
Definition av1_delta (ctx : nat) : reader Z :=
  let sign a := if a =? 0 then Done 0
                else ask_lit 1 (fun s => Done (if s =? 0 then a else - a)) in
  ask_sym ctx (fun a =>
    if a =? 3 then
      ask_lit 3 (fun rem =>
        let n := rem + 1 in
        ask_lit n (fun bits => sign (bits + 2 ^ n + 1)))
    else sign a).

(** What the decoder makes of a coded delta q, 5.11.38. *)
Definition av1_current_q (cur delta delta_q_res : Z) : Z :=
  if delta =? 0 then cur else Z.max 1 (Z.min 255 (cur + delta * 2 ^ delta_q_res)).

(** inverse_recenter, 5.9.29. *)
Definition av1_inverse_recenter (r v : Z) : Z :=
  if 2 * r <? v then v
  else if Z.odd v then r - (v + 1) / 2
  else r + v / 2.

(** decode_subexp, 5.9.28; the range doubles every round, 65 rounds at most. *)
Fixpoint rd_subexp_loop (fuel : nat) (i mk numSyms : Z) (q : list Z) : option (Z * list Z) :=
  match fuel with
  | O => None
  | S f =>
      let b2 := if i =? 0 then 3 else 3 + i - 1 in
      let a := 2 ^ b2 in
      if numSyms <=? mk + 3 * a then
        LET (v, q) := rd_ns (Z.to_pos (numSyms - mk)) q IN Some (v + mk, q)
      else
        LET (more, q) := rd1 q IN
        if more then rd_subexp_loop f (i + 1) (mk + a) numSyms q
        else LET (v, q) := rd (Z.to_nat b2) q IN Some (v + mk, q)
  end.
Definition rd_subexp (numSyms : Z) (q : list Z) : option (Z * list Z) :=
  rd_subexp_loop 65 0 0 numSyms q.

(** decode_unsigned_subexp_with_ref and decode_signed_subexp_with_ref, 5.9.26-27. *)
Definition rd_unsigned_subexp (mx r : Z) (q : list Z) : option (Z * list Z) :=
  LET (v, q) := rd_subexp mx q IN
  if 2 * r <=? mx then Some (av1_inverse_recenter r v, q)
  else Some (mx - 1 - av1_inverse_recenter (mx - 1 - r) v, q).
Definition rd_signed_subexp (low high r : Z) (q : list Z) : option (Z * list Z) :=
  LET (x, q) := rd_unsigned_subexp (high - low) (r - low) q IN Some (x + low, q).

(** Number of bits and of fractional bits of a translation parameter, 5.9.25. *)
Definition trans_bits (translation hp : bool) : Z * Z :=
  if translation then if hp then (9, 3) else (8, 2) else (12, 6).

(** read_global_param, 5.9.25: the value stored in gm_params. *)
Definition rd_global_param (translation hp : bool) (idx prev : Z) (q : list Z) : option (Z * list Z) :=
  let less := if hp then 0 else 1 in
  let '(abs_bits, prec_bits) :=
    if idx <? 2 then if translation then (9 - less, 3 - less) else (12, 6) else (12, 15) in
  let prec_diff := 16 - prec_bits in
  let round := if idx mod 3 =? 2 then 2 ^ 16 else 0 in
  let sub := if idx mod 3 =? 2 then 2 ^ prec_bits else 0 in
  let mx := 2 ^ abs_bits in
  let r := prev / 2 ^ prec_diff - sub in
  LET (v, q) := rd_signed_subexp (- mx) (mx + 1) r q IN
  Some (v * 2 ^ prec_diff + round, q).
