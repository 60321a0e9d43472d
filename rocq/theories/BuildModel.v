(** The arithmetic coder and the bit codecs once more, with the integer
    arithmetic read as either build profile reads it. Written by
    tools/gen_build.py from UtilModel, RangeCoderModel, BitCodecModel and
    SessionModel; only shifts and one subtraction are spelt differently, because
    a release build goes on where those files stop. BuildProofs.v shows that the
    [Debug] reading is equal to those files. The names are those of the
    originals, so this file is required without being imported.

    /repo/Cargo.toml has no [profile] section, so the defaults apply: a debug
    build ([cargo build], [cargo test]) checks arithmetic and shift amounts, a
    release build ([cargo build --release]) wraps arithmetic and reduces a shift
    amount modulo the width. Index checks, [assert!] and [unwrap] stay in both. *)
From Coq Require Import ZArith List Bool.
From Verif Require Import Base UtilModel RangeCoderModel BitCodecModel SessionModel.
Import ListNotations.
Open Scope Z_scope.

Inductive build : Type := Debug | Release.

Section Build.
Variable B : build.

(** Checked in a debug build, wrapped in a release build. *)
Definition chk_i32 (z : Z) : res Z := match B with Debug => Base.chk_i32 z | Release => Ok (as_i32 z) end.
Definition chk_i64 (z : Z) : res Z := match B with Debug => Base.chk_i64 z | Release => Ok (as_i64 z) end.
Definition chk_u8 (z : Z) : res Z := match B with Debug => Base.chk_u8 z | Release => Ok (as_u8 z) end.
Definition chk_u16 (z : Z) : res Z := match B with Debug => Base.chk_u16 z | Release => Ok (as_u16 z) end.
Definition chk_u32 (z : Z) : res Z := match B with Debug => Base.chk_u32 z | Release => Ok (as_u32 z) end.
Definition chk_u64 (z : Z) : res Z := match B with Debug => Base.chk_u64 z | Release => Ok (as_u64 z) end.

(** The check of a shift amount, and the amount by which a shift of a [width]-bit
    integer really shifts. *)
Definition shift_ok (width amount : Z) : res unit :=
  match B with Debug => Base.shift_ok width amount | Release => Ok tt end.
Definition shift_amt (width amount : Z) : Z :=
  match B with Debug => amount | Release => amount mod width end.
(** A subtraction that the model does not check because it cannot fail in a debug
    build. *)
Definition sub_u64 (a b : Z) : Z := match B with Debug => a - b | Release => as_u64 (a - b) end.

(** ** UtilModel *)

Definition FloorLog2 (x : Z) : res Z :=
  s <- floorlog2_loop 65 x 0 ;; chk_u64 (s - 1).

Definition msb16 (n : Z) : res Z :=
  let m0 := Z.shiftr n 8 in
  let bit0 := if 0 <? m0 then 8 else 0 in
  let m0 := if 0 <? m0 then m0 else n in
  let m1 := Z.shiftr m0 4 in
  let bit1 := if 0 <? m1 then bit0 + 4 else bit0 in
  let m1 := if 0 <? m1 then m1 else m0 in
  v <- idx lut16 m1 ;;
  chk_u8 (bit1 + v).

Definition msb32 (n : Z) : res Z :=
  let m0 := Z.shiftr n 16 in
  let bit0 := if 0 <? m0 then 16 else 0 in
  let m0 := if 0 <? m0 then m0 else n in
  let m1 := Z.shiftr m0 8 in
  let bit1 := if 0 <? m1 then bit0 + 8 else bit0 in
  let m1 := if 0 <? m1 then m1 else m0 in
  let m2 := Z.shiftr m1 4 in
  let bit2 := if 0 <? m2 then bit1 + 4 else bit1 in
  let m2 := if 0 <? m2 then m2 else m1 in
  v <- idx lut32 m2 ;;
  chk_u8 (bit2 + v).

Definition msb64 (n : Z) : res Z :=
  let m0 := Z.shiftr n 32 in
  let bit0 := if 0 <? m0 then 32 else 0 in
  let m0 := if 0 <? m0 then m0 else n in
  let m1 := Z.shiftr m0 16 in
  let bit1 := if 0 <? m1 then bit0 + 16 else bit0 in
  let m1 := if 0 <? m1 then m1 else m0 in
  let m2 := Z.shiftr m1 8 in
  let bit2 := if 0 <? m2 then bit1 + 8 else bit1 in
  let m2 := if 0 <? m2 then m2 else m1 in
  let m3 := Z.shiftr m2 4 in
  let bit3 := if 0 <? m3 then bit2 + 4 else bit2 in
  let m3 := if 0 <? m3 then m3 else m2 in
  v <- idx lut64 m3 ;;
  chk_u8 (bit3 + v).

(** ** RangeCoderModel *)

(** A push followed by [self.bit_count += 1] (u64). *)
Definition emit (c : coder) (out : list Z) (b : Z) : res (coder * list Z) :=
  n <- chk_u64 (bit_count c + 1) ;;
  Ok (mkCoder (bool_value c) (bool_range c) (bool_max_bits c)
        (bool_value_last_zero c) (bool_value_zero_count c) (bool_first c)
        n (leb_128_bytes c), push out b).

(** [for _ in 0..k { out_bits.push(b); self.bit_count += 1; }]. *)
Fixpoint emit_n (k : nat) (c : coder) (out : list Z) (b : Z) : res (coder * list Z) :=
  match k with
  | O => Ok (c, out)
  | S k' => '(c1, o1) <- emit c out b ;; emit_n k' c1 o1 b
  end.

(** bool_coder.rs 194-206, "update cdf" in [encode_symbol]. The decoder has its
    own copy of this code, modelled separately below.
    The loop [for i in 0..(N-1)] reads and writes only [cdf[i]] in iteration [i],
    so it is written as recursion along the slice. *)
Fixpoint adapt_loop (k : nat) (i symbol tmp diff rate : Z) (l : list Z) : res (list Z) :=
  match k with
  | O => Ok l
  | S k' =>
      match l with
      | [] => Panic
      | c :: r =>
          tmp1 <- chk_i32 (tmp + (if i =? symbol then diff else 0)) ;;
          d <- chk_i32 (c - tmp1) ;;
          c' <- chk_i32 (c - Z.shiftr d rate) ;;
          tmp2 <- chk_i32 (tmp1 + 32) ;;
          r' <- adapt_loop k' (i + 1) symbol tmp2 diff rate r ;;
          Ok (c' :: r')
      end
  end.

(** [cdf[N] += (cdf[N] < 32) as i32], applied to the last entry. *)
Fixpoint bump_last (l : list Z) : res (list Z) :=
  match l with
  | [] => Panic
  | [c] => c' <- chk_i32 (c + b2z (c <? 32)) ;; Ok [c']
  | c :: r => r' <- bump_last r ;; Ok (c :: r')
  end.

Definition update_cdf (symbol : Z) (cdf : list Z) : res (list Z) :=
  n1 <- chk_u64 (len cdf - 1) ;;
  let N := as_i32 n1 in
  cnt <- idx cdf N ;;
  m <- msb16 (as_u16 N) ;;
  let rate := 4 + b2z (31 <? cnt) + m in
  d <- chk_i32 (Z.shiftl 1 15 - as_i32 (Z.shiftl N 5)) ;;
  let diff := as_i32 (Z.shiftl (Z.shiftr d rate) rate) in
  cdf' <- adapt_loop (Z.to_nat (N - 1)) 0 symbol (Z.shiftl 1 5) diff rate cdf ;;
  bump_last cdf'.

(** bool_coder.rs 149-167: interval update and carry. *)
Definition carry_step (c : coder) (out : list Z) : res (coder * list Z) :=
  if 65536 <=? bool_value c then
    let c := set_vr c (bool_value c - 65536) (bool_range c) in
    if 0 <? bool_value_zero_count c then
      '(c, out) <- emit c out 1 ;;
      '(c, out) <- emit_n (Z.to_nat (bool_value_zero_count c - 1)) c out 0 ;;
      Ok (set_pending c true 0, out)
    else Ok (set_pending c false 1, out)
  else Ok (c, out).

(** bool_coder.rs 169-192: [while self.bool_range < 32768 { .. }]. The range is
    an i32; after 32 shifts every bit of it has been shifted out and it stays 0
    for ever, so fuel 40 exhausted means that the loop does not terminate. *)
Fixpoint renorm_loop (fuel : nat) (c : coder) (out : list Z) : res (coder * list Z) :=
  match fuel with
  | O => Hang
  | S f =>
      if bool_range c <? 32768 then
        let bit := Z.land (Z.shiftr (bool_value c) 15) 1 in
        '(c1, out1) <-
          (if negb (bool_first c) then
             if bit =? 0 then
               '(ca, oa) <- (if bool_value_last_zero c then emit c out 0 else Ok (c, out)) ;;
               '(cb, ob) <- emit_n (Z.to_nat (bool_value_zero_count c)) ca oa 1 ;;
               Ok (set_pending cb true 0, ob)
             else
               z <- chk_i32 (bool_value_zero_count c + 1) ;;
               Ok (set_pending c (bool_value_last_zero c) z, out)
           else Ok (c, out)) ;;
        let c2 := set_first c1 false in
        renorm_loop f
          (set_vr c2 (Z.land (as_i32 (Z.shiftl (bool_value c2) 1)) 65535)
                     (as_i32 (Z.shiftl (bool_range c2) 1))) out1
      else Ok (c, out)
  end.

(** bool_coder.rs 142-207, [encode_symbol]. Returns coder, output and cdf.
    [fuel] bounds the number of tests of the loop condition. *)
Definition encode_symbol_fuel (fuel : nat) (c : coder) (symbol : Z) (out : list Z) (cdf : list Z)
  : res (coder * list Z * list Z) :=
  n1 <- chk_u64 (len cdf - 1) ;;
  fl <- (if 0 <? symbol
         then s1 <- chk_i32 (symbol - 1) ;; x <- idx cdf s1 ;; chk_i32 (32768 - x)
         else Ok 0) ;;
  x <- idx cdf symbol ;;
  fr <- chk_i32 (32768 - x) ;;
  l <- chk_i32 (Z.shiftr (bool_range c) 8 * fl) ;;
  r <- chk_i32 (Z.shiftr (bool_range c) 8 * fr) ;;
  let left := if symbol =? 0 then bool_range c else Z.shiftr l 7 in
  let right := Z.shiftr r 7 in
  d <- chk_i32 (bool_range c - left) ;;
  v <- chk_i32 (bool_value c + d) ;;
  rg <- chk_i32 (left - right) ;;
  '(c, out) <- carry_step (set_vr c v rg) out ;;
  '(c, out) <- renorm_loop fuel c out ;;
  cdf' <- update_cdf symbol cdf ;;
  Ok (c, out, cdf').

Definition encode_symbol := encode_symbol_fuel 40.

Definition exit_encoder (c : coder) (out : list Z) : res (coder * list Z) :=
  '(c, out) <- (if bool_value_last_zero c then emit c out 0 else Ok (c, out)) ;;
  '(c, out) <- emit_n (Z.to_nat (bool_value_zero_count c)) c out 1 ;;
  let out := push_value_bits 16 (bool_value c) 0 out in
  let padding := (8 - bit_count c mod 8) mod 8 in
  Ok (c, push_n (Z.to_nat padding) out 0).

(** bool_coder.rs 66-69: [for _ in 0..15 { .. buf = (buf << 1) + bit .. }]. *)
Fixpoint read_bits (k : nat) (acc : Z) (q : list Z) : res (Z * list Z) :=
  match k with
  | O => Ok (acc, q)
  | S k' =>
      '(b, q) <- pop q ;;
      acc' <- chk_i32 (as_i32 (Z.shiftl acc 1) + b) ;;
      read_bits k' acc' q
  end.

(** bool_coder.rs 64-73, [init_decoder]. [sz as i32] truncates. *)
Definition init_decoder (c : coder) (q : list Z) (sz : Z) : res (coder * list Z) :=
  '(buf, q) <- read_bits 15 0 q ;;
  m <- chk_i32 (8 * as_i32 sz) ;;
  mb <- chk_i32 (m - 15) ;;
  Ok (set_max_bits (set_vr c (Z.lxor (Z.shiftl 1 15 - 1) buf) (Z.shiftl 1 15)) mb, q).

(** bool_coder.rs 78-86: the symbol search. [k] bounds the number of iterations
    by the length of the slice: one more iteration would index out of bounds. *)
Fixpoint find_symbol (k : nat) (range value : Z) (cdf : list Z) (symbol prev : Z)
  : res (Z * Z * Z) :=
  match k with
  | O => Panic
  | S k' =>
      x <- idx cdf symbol ;;
      f <- chk_i32 (Z.shiftl 1 15 - x) ;;
      p <- chk_i32 (Z.shiftr range 8 * f) ;;
      let cur := Z.shiftr p 7 in
      if value <? cur then find_symbol k' range value cdf (symbol + 1) cur
      else Ok (symbol, prev, cur)
  end.

(** bool_coder.rs 92-98: refill loop; [bool_max_bits] is decremented per bit. *)
Fixpoint refill (k : nat) (new_data mb : Z) (q : list Z) : res (Z * Z * list Z) :=
  match k with
  | O => Ok (new_data, mb, q)
  | S k' =>
      '(b, q) <- pop q ;;
      nd <- chk_i32 (as_i32 (Z.shiftl new_data 1) + b) ;;
      mb' <- chk_i32 (mb - 1) ;;
      refill k' nd mb' q
  end.

(** bool_coder.rs 101-113, "update cdf" in [decode_symbol]. *)
Fixpoint dec_adapt_loop (k : nat) (i symbol tmp diff rate : Z) (l : list Z) : res (list Z) :=
  match k with
  | O => Ok l
  | S k' =>
      match l with
      | [] => Panic
      | c :: r =>
          tmp1 <- chk_i32 (tmp + (if i =? symbol then diff else 0)) ;;
          d <- chk_i32 (c - tmp1) ;;
          c' <- chk_i32 (c - Z.shiftr d rate) ;;
          tmp2 <- chk_i32 (tmp1 + 32) ;;
          r' <- dec_adapt_loop k' (i + 1) symbol tmp2 diff rate r ;;
          Ok (c' :: r')
      end
  end.

(** [cdf[N] += (cdf[N] < 32) as i32], applied to the last entry. *)
Fixpoint dec_bump_last (l : list Z) : res (list Z) :=
  match l with
  | [] => Panic
  | [c] => c' <- chk_i32 (c + b2z (c <? 32)) ;; Ok [c']
  | c :: r => r' <- dec_bump_last r ;; Ok (c :: r')
  end.

Definition dec_update_cdf (symbol : Z) (cdf : list Z) : res (list Z) :=
  n1 <- chk_u64 (len cdf - 1) ;;
  let N := as_i32 n1 in
  cnt <- idx cdf N ;;
  m <- msb16 (as_u16 N) ;;
  let rate := 4 + b2z (31 <? cnt) + m in
  d <- chk_i32 (Z.shiftl 1 15 - as_i32 (Z.shiftl N 5)) ;;
  let diff := as_i32 (Z.shiftl (Z.shiftr d rate) rate) in
  cdf' <- dec_adapt_loop (Z.to_nat (N - 1)) 0 symbol (Z.shiftl 1 5) diff rate cdf ;;
  dec_bump_last cdf'.

(** bool_coder.rs 75-116, [decode_symbol]. *)
Definition decode_symbol (c : coder) (q : list Z) (cdf : list Z)
  : res (Z * coder * list Z * list Z) :=
  n1 <- chk_u64 (len cdf - 1) ;;
  '(symbol, prev, cur) <-
     find_symbol (length cdf) (bool_range c) (bool_value c) cdf 0 (bool_range c) ;;
  rg <- chk_i32 (prev - cur) ;;
  v <- chk_i32 (bool_value c - cur) ;;
  m <- msb16 (as_u16 rg) ;;
  bits <- chk_u8 (15 - m) ;;
  let rg' := as_i32 (Z.shiftl rg bits) in
  '(new_data, mb, q) <- refill (Z.to_nat bits) 0 (bool_max_bits c) q ;;
  v1 <- chk_i32 (v + 1) ;;
  v2 <- chk_i32 (as_i32 (Z.shiftl v1 bits) - 1) ;;
  mb <- chk_i32 (mb - bits) ;;
  cdf' <- dec_update_cdf symbol cdf ;;
  Ok (symbol, set_max_bits (set_vr c (Z.lxor new_data v2) rg') mb, q, cdf').

(** bool_coder.rs 119, 124, 210, 215: the fixed-probability cdf. *)
Definition cdf_p (p : Z) : res (list Z) :=
  a <- chk_i32 (as_i32 (Z.shiftl p 15) + 256) ;;
  b <- chk_i32 (a - p) ;;
  Ok [Z.shiftr b 8; Z.shiftl 1 15; 0].

(** bool_coder.rs 214-217, [encode_symbolp]. *)
Definition encode_symbolp (c : coder) (bit : Z) (out : list Z) (p : Z) : res (coder * list Z) :=
  cdf <- cdf_p p ;;
  '(c, out, _) <- encode_symbol c bit out cdf ;;
  Ok (c, out).

(** bool_coder.rs 118-121, [decode_symbolp]. *)
Definition decode_symbolp (c : coder) (q : list Z) (p : Z) : res (Z * coder * list Z) :=
  cdf <- cdf_p p ;;
  '(s, c, q, _) <- decode_symbol c q cdf ;;
  Ok (s, c, q).

(** bool_coder.rs 209-212, [encode_symbols]: one local cdf, adapted along. *)
Fixpoint encode_symbols_loop (c : coder) (bits : list Z) (out : list Z) (cdf : list Z)
  : res (coder * list Z) :=
  match bits with
  | [] => Ok (c, out)
  | b :: r => '(c, out, cdf) <- encode_symbol c b out cdf ;; encode_symbols_loop c r out cdf
  end.

Definition encode_symbols (c : coder) (bits : list Z) (out : list Z) (p : Z) : res (coder * list Z) :=
  cdf <- cdf_p p ;; encode_symbols_loop c bits out cdf.

(** bool_coder.rs 123-126, [decode_symbols]; the results are pushed on a second
    vector, here returned as a list. *)
Fixpoint decode_symbols_loop (n : nat) (c : coder) (q : list Z) (cdf : list Z)
  : res (list Z * coder * list Z) :=
  match n with
  | O => Ok ([], c, q)
  | S n' =>
      '(s, c, q, cdf) <- decode_symbol c q cdf ;;
      '(r, c, q) <- decode_symbols_loop n' c q cdf ;;
      Ok (as_u8 s :: r, c, q)
  end.

Definition decode_symbols (c : coder) (q : list Z) (n p : Z) : res (list Z * coder * list Z) :=
  cdf <- cdf_p p ;; decode_symbols_loop (Z.to_nat n) c q cdf.

(** bool_coder.rs 220-224, [encode_literal] ([u64] shifted by i < n). *)
Fixpoint encode_literal (c : coder) (out : list Z) (literal : Z) (n : nat) : res (coder * list Z) :=
  match n with
  | O => Ok (c, out)
  | S i =>
      _ <- shift_ok 64 (Z.of_nat i) ;;
      '(c, out) <- encode_symbolp c (as_u8 (Z.land (Z.shiftr literal (shift_amt 64 (Z.of_nat i))) 1)) out 128 ;;
      encode_literal c out literal i
  end.

(** bool_coder.rs 226-230, [decode_literal]. *)
Fixpoint decode_literal_loop (n : nat) (x : Z) (c : coder) (q : list Z) : res (Z * coder * list Z) :=
  match n with
  | O => Ok (x, c, q)
  | S n' =>
      '(s, c, q) <- decode_symbolp c q 128 ;;
      x' <- chk_u64 (as_u64 (Z.shiftl x 1) + s) ;;
      decode_literal_loop n' x' c q
  end.

Definition decode_literal (c : coder) (q : list Z) (n : nat) : res (Z * coder * list Z) :=
  decode_literal_loop n 0 c q.

(** ** BitCodecModel *)

(** [for i in (lo..lo+k).rev() { out_bits.push(((v>>i)&1) as u8) }] where [v] has
    [width] bits: shifting by [width] or more panics. *)
Fixpoint push_range (width : Z) (out : list Z) (v lo : Z) (k : nat) : res (list Z) :=
  match k with
  | O => Ok out
  | S k' =>
      let i := lo + Z.of_nat k' in
      _ <- shift_ok width i ;;
      push_range width (push out (bit_at v (shift_amt width i))) v lo k'
  end.

(** bool_coder.rs 51-53, [push_bits_with_size] (bits : u32, size : u8). *)
Definition push_bits_with_size (out : list Z) (bits size : Z) : res (list Z) :=
  push_range 32 out bits 0 (Z.to_nat size).

(** bool_coder.rs 232-238, [encode_uvlc] (val : u32). *)
Definition encode_uvlc (out : list Z) (val : Z) : res (list Z) :=
  v <- chk_u32 (val + 1) ;;
  n <- msb64 v ;;
  push_range 64 (push (push_n (Z.to_nat n) out 0) 1) v 0 (Z.to_nat n).

(** bool_coder.rs 241-248: the leading-zero loop. On an exhausted queue
    [pop_front] returns [None], nothing changes and the loop runs for ever. *)
Fixpoint uvlc_zeros (q : list Z) (lz : Z) : res (Z * list Z) :=
  match q with
  | [] => Hang
  | b :: r => if 0 <? b then Ok (lz, r) else lz' <- chk_i32 (lz + 1) ;; uvlc_zeros r lz'
  end.

(** [for _ in 0..k { v = (v<<1) + bit }] on a u64 accumulator, with [assert!(false)]
    on an empty queue. *)
Fixpoint read_u64 (k : nat) (v : Z) (q : list Z) : res (Z * list Z) :=
  match k with
  | O => Ok (v, q)
  | S k' =>
      '(b, q) <- pop q ;;
      v' <- chk_u64 (as_u64 (Z.shiftl v 1) + b) ;;
      read_u64 k' v' q
  end.

(** bool_coder.rs 240-256, [decode_uvlc]. *)
Definition decode_uvlc (q : list Z) : res (Z * list Z) :=
  '(lz, q) <- uvlc_zeros q 0 ;;
  if 32 <=? lz then Ok (as_u32 (Z.shiftl 1 32 - 1), q)
  else
    '(v, q) <- read_u64 (Z.to_nat lz) 0 q ;;
    a <- chk_u64 (v + Z.shiftl 1 lz) ;;
    r <- chk_u64 (a - 1) ;;
    Ok (as_u32 r, q).

(** bool_coder.rs 258-265, [encode_le] (val : u64, n : u8); [i*8] is u8
    arithmetic. *)
Fixpoint encode_le_loop (k : nat) (i : Z) (out : list Z) (val : Z) : res (list Z) :=
  match k with
  | O => Ok out
  | S k' =>
      sh <- chk_u8 (i * 8) ;;
      _ <- shift_ok 64 sh ;;
      let byte := as_u8 (Z.land (Z.shiftr val (shift_amt 64 sh)) 255) in
      out <- push_range 8 out byte 0 8 ;;
      encode_le_loop k' (i + 1) out val
  end.

Definition encode_le (out : list Z) (val n : Z) : res (list Z) :=
  encode_le_loop (Z.to_nat n) 0 out val.

(** bool_coder.rs 270-274: one byte, u8 accumulator. *)
Fixpoint read_u8 (k : nat) (v : Z) (q : list Z) : res (Z * list Z) :=
  match k with
  | O => Ok (v, q)
  | S k' =>
      '(b, q) <- pop q ;;
      v' <- chk_u8 (as_u8 (Z.shiftl v 1) + b) ;;
      read_u8 k' v' q
  end.

(** bool_coder.rs 267-278, [decode_le]. *)
Fixpoint decode_le_loop (k : nat) (i t : Z) (q : list Z) : res (Z * list Z) :=
  match k with
  | O => Ok (t, q)
  | S k' =>
      '(byte, q) <- read_u8 8 0 q ;;
      sh <- chk_u8 (i * 8) ;;
      _ <- shift_ok 64 sh ;;
      t' <- chk_u64 (t + as_u64 (Z.shiftl byte (shift_amt 64 sh))) ;;
      decode_le_loop k' (i + 1) t' q
  end.

Definition decode_le (q : list Z) (n : Z) : res (Z * list Z) :=
  decode_le_loop (Z.to_nat n) 0 0 q.

(** bool_coder.rs 280-291, [encode_leb128] (val : u64). Ten iterations clear any
    u64, so fuel 10 is never exhausted. *)
Fixpoint encode_leb128_loop (fuel : nat) (out : list Z) (v : Z) : res (list Z) :=
  match fuel with
  | O => Hang
  | S f =>
      out <- push_range 64 (push out (b2z (127 <? v))) v 0 7 ;;
      let v := Z.shiftr v 7 in
      if 0 <? v then encode_leb128_loop f out v else Ok out
  end.

Definition encode_leb128 (out : list Z) (val : Z) : res (list Z) :=
  if val <? Z.shiftl 1 56 then encode_leb128_loop 10 out val else Panic.

(** bool_coder.rs 293-306, [decode_leb128]; [nb] is [self.leb_128_bytes]. *)
Fixpoint decode_leb128_loop (k : nat) (i v nb : Z) (q : list Z) : res (Z * Z * list Z) :=
  match k with
  | O => Ok (v, nb, q)
  | S k' =>
      '(leb, q) <- read_u64 8 0 q ;;
      let v := Z.lor v (as_u64 (Z.shiftl (Z.land leb 127) (i * 7))) in
      nb <- chk_u64 (nb + 1) ;;
      if Z.land leb 128 =? 0 then Ok (v, nb, q)
      else decode_leb128_loop k' (i + 1) v nb q
  end.

Definition decode_leb128 (nb : Z) (q : list Z) : res (Z * Z * list Z) :=
  decode_leb128_loop 8 0 0 nb q.

(** bool_coder.rs 308-319, [encode_su] (val : i64, n : u8). *)
Definition encode_su (out : list Z) (val n : Z) : res (list Z) :=
  let out := push out (b2z (val <? 0)) in
  if val <? 0 then
    k <- chk_u8 (n - 1) ;;
    _ <- shift_ok 64 k ;;
    m <- chk_i64 (2 * as_i64 (Z.shiftl 1 (shift_amt 64 k))) ;;
    v <- chk_i64 (val + m) ;;
    push_range 64 out (as_u64 v) 0 (Z.to_nat k)
  else
    k <- chk_u8 (n - 1) ;;
    push_range 64 out val 0 (Z.to_nat k).

(** bool_coder.rs 321-330, [decode_su]. *)
Definition decode_su (q : list Z) (n : Z) : res (Z * list Z) :=
  '(v, q) <- read_u64 (Z.to_nat n) 0 q ;;
  k <- chk_u8 (n - 1) ;;
  _ <- shift_ok 64 k ;;
  let sign_mask := Z.shiftl 1 (shift_amt 64 k) in
  if 0 <? Z.land v sign_mask then
    m <- chk_i64 (2 * as_i64 sign_mask) ;;
    r <- chk_i64 (as_i64 v - m) ;;
    Ok (r, q)
  else Ok (as_i64 v, q).

(** bool_coder.rs 332-347, [encode_ns] (val, n : u64). *)
Definition encode_ns (out : list Z) (val n : Z) : res (list Z) :=
  f <- FloorLog2 n ;;
  w <- chk_u64 (f + 1) ;;
  _ <- shift_ok 64 w ;;
  m <- chk_u64 (Z.shiftl 1 (shift_amt 64 w) - n) ;;
  if val <? m then push_range 64 out val 0 (Z.to_nat (sub_u64 w 1))
  else
    v <- chk_u64 (val + m) ;;
    out <- push_range 64 out v 1 (Z.to_nat (w - 1)) ;;
    Ok (push out (Z.land v 1)).

(** bool_coder.rs 349-361, [decode_ns]. *)
Definition decode_ns (q : list Z) (n : Z) : res (Z * list Z) :=
  f <- FloorLog2 n ;;
  w <- chk_u64 (f + 1) ;;
  _ <- shift_ok 64 w ;;
  m <- chk_u64 (Z.shiftl 1 (shift_amt 64 w) - n) ;;
  '(v, q) <- read_u64 (Z.to_nat (sub_u64 w 1)) 0 q ;;
  if v <? m then Ok (v, q)
  else
    '(b, q) <- pop q ;;
    a <- chk_u64 (as_u64 (Z.shiftl v 1) - m) ;;
    r <- chk_u64 (a + b) ;;
    Ok (r, q).

(** ** SessionModel *)

Definition encode_op (c : coder) (t : cdf_table) (out : list Z) (o : op)
  : res (coder * cdf_table * list Z) :=
  match o with
  | OSym ctx s =>
      cdf <- idx t (Z.of_nat ctx) ;;
      '(c, out, cdf) <- encode_symbol c (Z.of_nat s) out cdf ;;
      Ok (c, set_nth ctx cdf t, out)
  | OBit p b => '(c, out) <- encode_symbolp c b out p ;; Ok (c, t, out)
  | OBits p bs => '(c, out) <- encode_symbols c bs out p ;; Ok (c, t, out)
  | OLit n v => '(c, out) <- encode_literal c out v n ;; Ok (c, t, out)
  end.

Fixpoint encode_ops (c : coder) (t : cdf_table) (out : list Z) (ops : list op)
  : res (coder * cdf_table * list Z) :=
  match ops with
  | [] => Ok (c, t, out)
  | o :: r => '(c, t, out) <- encode_op c t out o ;; encode_ops c t out r
  end.

Definition decode_op (c : coder) (t : cdf_table) (q : list Z) (s : shape)
  : res (op * coder * cdf_table * list Z) :=
  match s with
  | SSym ctx =>
      cdf <- idx t (Z.of_nat ctx) ;;
      '(s, c, q, cdf) <- decode_symbol c q cdf ;;
      Ok (OSym ctx (Z.to_nat s), c, set_nth ctx cdf t, q)
  | SBit p => '(s, c, q) <- decode_symbolp c q p ;; Ok (OBit p s, c, t, q)
  | SBits p n => '(bs, c, q) <- decode_symbols c q (Z.of_nat n) p ;; Ok (OBits p bs, c, t, q)
  | SLit n => '(v, c, q) <- decode_literal c q n ;; Ok (OLit n v, c, t, q)
  end.

Fixpoint decode_ops (c : coder) (t : cdf_table) (q : list Z) (ss : list shape)
  : res (list op * coder * cdf_table * list Z) :=
  match ss with
  | [] => Ok ([], c, t, q)
  | s :: r =>
      '(o, c, t, q) <- decode_op c t q s ;;
      '(os, c, t, q) <- decode_ops c t q r ;;
      Ok (o :: os, c, t, q)
  end.

(** A whole encoding session on coder [c], appending to [out]. *)
Definition encode_session (c : coder) (t : cdf_table) (out : list Z) (ops : list op)
  : res (coder * cdf_table * list Z) :=
  '(c, t, out) <- encode_ops (init_encoder c) t out ops ;;
  '(c, out) <- exit_encoder c out ;;
  Ok (c, t, out).

(** A decoding session up to, but without, [exit_decoder]. *)
Definition decode_session (c : coder) (t : cdf_table) (q : list Z) (sz : Z) (ss : list shape)
  : res (list op * coder * cdf_table * list Z) :=
  '(c, q) <- init_decoder c q sz ;;
  decode_ops c t q ss.

(** A decoder that, like a real parser, chooses the next call from what it has
    decoded so far: [f] maps the history (most recent call last) to the shape of
    the next call; [n] calls are made. *)
Fixpoint decode_adaptive (n : nat) (f : list op -> shape) (hist : list op)
  (c : coder) (t : cdf_table) (q : list Z) : res (list op * coder * cdf_table * list Z) :=
  match n with
  | O => Ok (hist, c, t, q)
  | S n' =>
      '(o, c, t, q) <- decode_op c t q (f hist) ;;
      decode_adaptive n' f (hist ++ [o]) c t q
  end.

End Build.
