(** Model of the bit-level codecs, /repo/src/bool_coder.rs 47-62 and 232-361.
    None of these functions touches the arithmetic coder state (except
    [decode_leb128], which counts bytes), so they are modelled on the bit lists
    only. *)
From Coq Require Import ZArith List Bool.
From Verif Require Import Base UtilModel RangeCoderModel.
Import ListNotations.
Open Scope Z_scope.

(** [((v >> i) & 1) as u8]. *)
Definition bit_at (v i : Z) : Z := Z.land (Z.shiftr v i) 1.

(** [for i in (lo..lo+k).rev() { out_bits.push(((v>>i)&1) as u8) }] where [v] has
    [width] bits: shifting by [width] or more panics. *)
Fixpoint push_range (width : Z) (out : list Z) (v lo : Z) (k : nat) : res (list Z) :=
  match k with
  | O => Ok out
  | S k' =>
      let i := lo + Z.of_nat k' in
      _ <- shift_ok width i ;;
      push_range width (push out (bit_at v i)) v lo k'
  end.

(** bool_coder.rs 51-53, [push_bits_with_size] (bits : u32, size : u8). *)
Definition push_bits_with_size (out : list Z) (bits size : Z) : res (list Z) :=
  push_range 32 out bits 0 (Z.to_nat size).

(** bool_coder.rs 55-57, [push_bits]. *)
Definition push_bits (out bits : list Z) : list Z := fold_left push bits out.

(** bool_coder.rs 59-62, [push_bits_align]. *)
Definition push_bits_align (out : list Z) : list Z :=
  push_n (Z.to_nat ((8 - len out mod 8) mod 8)) out 0.

(** bool_coder.rs 232-238, [encode_uvlc] (val : u32). *)
Definition encode_uvlc (out : list Z) (val : Z) : res (list Z) :=
  v <- chk_u32 (val + 1) ;;
  n <- msb64 v ;;
  push_range 64 (push (push_n (Z.to_nat n) out 0) 1) v 0 (Z.to_nat n).

(** bool_coder.rs 241-248: the leading-zero loop. On an exhausted queue
    [pop_front] returns [None], nothing changes and the loop runs for ever. *)
Fixpoint uvlc_zeros (q : list Z) (lz : Z) : res (Z * list Z) :=
  match q with
  | [] => Hang
  | b :: r => if 0 <? b then Ok (lz, r) else lz' <- chk_i32 (lz + 1) ;; uvlc_zeros r lz'
  end.

(** [for _ in 0..k { v = (v<<1) + bit }] on a u64 accumulator, with [assert!(false)]
    on an empty queue. *)
Fixpoint read_u64 (k : nat) (v : Z) (q : list Z) : res (Z * list Z) :=
  match k with
  | O => Ok (v, q)
  | S k' =>
      '(b, q) <- pop q ;;
      v' <- chk_u64 (as_u64 (Z.shiftl v 1) + b) ;;
      read_u64 k' v' q
  end.

(** bool_coder.rs 240-256, [decode_uvlc]. *)
Definition decode_uvlc (q : list Z) : res (Z * list Z) :=
  '(lz, q) <- uvlc_zeros q 0 ;;
  if 32 <=? lz then Ok (as_u32 (Z.shiftl 1 32 - 1), q)
  else
    '(v, q) <- read_u64 (Z.to_nat lz) 0 q ;;
    a <- chk_u64 (v + Z.shiftl 1 lz) ;;
    r <- chk_u64 (a - 1) ;;
    Ok (as_u32 r, q).

(** bool_coder.rs 258-265, [encode_le] (val : u64, n : u8); [i*8] is u8
    arithmetic. *)
Fixpoint encode_le_loop (k : nat) (i : Z) (out : list Z) (val : Z) : res (list Z) :=
  match k with
  | O => Ok out
  | S k' =>
      sh <- chk_u8 (i * 8) ;;
      _ <- shift_ok 64 sh ;;
      let byte := as_u8 (Z.land (Z.shiftr val sh) 255) in
      out <- push_range 8 out byte 0 8 ;;
      encode_le_loop k' (i + 1) out val
  end.
Definition encode_le (out : list Z) (val n : Z) : res (list Z) :=
  encode_le_loop (Z.to_nat n) 0 out val.

(** bool_coder.rs 270-274: one byte, u8 accumulator. *)
Fixpoint read_u8 (k : nat) (v : Z) (q : list Z) : res (Z * list Z) :=
  match k with
  | O => Ok (v, q)
  | S k' =>
      '(b, q) <- pop q ;;
      v' <- chk_u8 (as_u8 (Z.shiftl v 1) + b) ;;
      read_u8 k' v' q
  end.

(** bool_coder.rs 267-278, [decode_le]. *)
Fixpoint decode_le_loop (k : nat) (i t : Z) (q : list Z) : res (Z * list Z) :=
  match k with
  | O => Ok (t, q)
  | S k' =>
      '(byte, q) <- read_u8 8 0 q ;;
      sh <- chk_u8 (i * 8) ;;
      _ <- shift_ok 64 sh ;;
      t' <- chk_u64 (t + as_u64 (Z.shiftl byte sh)) ;;
      decode_le_loop k' (i + 1) t' q
  end.
Definition decode_le (q : list Z) (n : Z) : res (Z * list Z) :=
  decode_le_loop (Z.to_nat n) 0 0 q.

(** bool_coder.rs 280-291, [encode_leb128] (val : u64). Ten iterations clear any
    u64, so fuel 10 is never exhausted. *)
Fixpoint encode_leb128_loop (fuel : nat) (out : list Z) (v : Z) : res (list Z) :=
  match fuel with
  | O => Hang
  | S f =>
      out <- push_range 64 (push out (b2z (127 <? v))) v 0 7 ;;
      let v := Z.shiftr v 7 in
      if 0 <? v then encode_leb128_loop f out v else Ok out
  end.
Definition encode_leb128 (out : list Z) (val : Z) : res (list Z) :=
  if val <? Z.shiftl 1 56 then encode_leb128_loop 10 out val else Panic.

(** bool_coder.rs 293-306, [decode_leb128]; [nb] is [self.leb_128_bytes]. *)
Fixpoint decode_leb128_loop (k : nat) (i v nb : Z) (q : list Z) : res (Z * Z * list Z) :=
  match k with
  | O => Ok (v, nb, q)
  | S k' =>
      '(leb, q) <- read_u64 8 0 q ;;
      let v := Z.lor v (as_u64 (Z.shiftl (Z.land leb 127) (i * 7))) in
      nb <- chk_u64 (nb + 1) ;;
      if Z.land leb 128 =? 0 then Ok (v, nb, q)
      else decode_leb128_loop k' (i + 1) v nb q
  end.
Definition decode_leb128 (nb : Z) (q : list Z) : res (Z * Z * list Z) :=
  decode_leb128_loop 8 0 0 nb q.

(** bool_coder.rs 308-319, [encode_su] (val : i64, n : u8). *)
Definition encode_su (out : list Z) (val n : Z) : res (list Z) :=
  let out := push out (b2z (val <? 0)) in
  if val <? 0 then
    k <- chk_u8 (n - 1) ;;
    _ <- shift_ok 64 k ;;
    m <- chk_i64 (2 * as_i64 (Z.shiftl 1 k)) ;;
    v <- chk_i64 (val + m) ;;
    push_range 64 out (as_u64 v) 0 (Z.to_nat k)
  else
    k <- chk_u8 (n - 1) ;;
    push_range 64 out val 0 (Z.to_nat k).

(** bool_coder.rs 321-330, [decode_su]. *)
Definition decode_su (q : list Z) (n : Z) : res (Z * list Z) :=
  '(v, q) <- read_u64 (Z.to_nat n) 0 q ;;
  k <- chk_u8 (n - 1) ;;
  _ <- shift_ok 64 k ;;
  let sign_mask := Z.shiftl 1 k in
  if 0 <? Z.land v sign_mask then
    m <- chk_i64 (2 * as_i64 sign_mask) ;;
    r <- chk_i64 (as_i64 v - m) ;;
    Ok (r, q)
  else Ok (as_i64 v, q).

(** bool_coder.rs 332-347, [encode_ns] (val, n : u64). *)
Definition encode_ns (out : list Z) (val n : Z) : res (list Z) :=
  f <- FloorLog2 n ;;
  w <- chk_u64 (f + 1) ;;
  _ <- shift_ok 64 w ;;
  m <- chk_u64 (Z.shiftl 1 w - n) ;;
  if val <? m then push_range 64 out val 0 (Z.to_nat (w - 1))
  else
    v <- chk_u64 (val + m) ;;
    out <- push_range 64 out v 1 (Z.to_nat (w - 1)) ;;
    Ok (push out (Z.land v 1)).

(** bool_coder.rs 349-361, [decode_ns]. *)
Definition decode_ns (q : list Z) (n : Z) : res (Z * list Z) :=
  f <- FloorLog2 n ;;
  w <- chk_u64 (f + 1) ;;
  _ <- shift_ok 64 w ;;
  m <- chk_u64 (Z.shiftl 1 w - n) ;;
  '(v, q) <- read_u64 (Z.to_nat (w - 1)) 0 q ;;
  if v <? m then Ok (v, q)
  else
    '(b, q) <- pop q ;;
    a <- chk_u64 (as_u64 (Z.shiftl v 1) - m) ;;
    r <- chk_u64 (a + b) ;;
    Ok (r, q).
