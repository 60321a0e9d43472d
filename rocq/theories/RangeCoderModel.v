(** Model of the arithmetic coder, /repo/src/bool_coder.rs 18-46, 64-230 and
    363-380. Bits are [Z] values 0/1; the output [Vec<u8>] and the input
    [VecDeque<u8>] are lists, oldest bit first. *)
From Coq Require Import ZArith List Bool.
From Verif Require Import Base UtilModel.
Import ListNotations.
Open Scope Z_scope.

(** bool_coder.rs 18-30, struct [BoolCoder]. *)
Record coder : Type := mkCoder {
  bool_value : Z;
  bool_range : Z;
  bool_max_bits : Z;
  bool_value_last_zero : bool;
  bool_value_zero_count : Z;
  bool_first : bool;
  bit_count : Z;
  leb_128_bytes : Z
}.

(** bool_coder.rs 34-45, [BoolCoder::new]. *)
Definition new_coder : coder := mkCoder 0 0 0 false 0 true 0 0.

(** [out_bits.push(b)]. *)
Definition push (out : list Z) (b : Z) : list Z := out ++ [b].

(** A push followed by [self.bit_count += 1] (u64). *)
Definition emit (c : coder) (out : list Z) (b : Z) : res (coder * list Z) :=
  n <- chk_u64 (bit_count c + 1) ;;
  Ok (mkCoder (bool_value c) (bool_range c) (bool_max_bits c)
        (bool_value_last_zero c) (bool_value_zero_count c) (bool_first c)
        n (leb_128_bytes c), push out b).

(** [for _ in 0..k { out_bits.push(b); self.bit_count += 1; }]. *)
Fixpoint emit_n (k : nat) (c : coder) (out : list Z) (b : Z) : res (coder * list Z) :=
  match k with
  | O => Ok (c, out)
  | S k' => '(c1, o1) <- emit c out b ;; emit_n k' c1 o1 b
  end.

Definition set_pending (c : coder) (last_zero : bool) (zc : Z) : coder :=
  mkCoder (bool_value c) (bool_range c) (bool_max_bits c) last_zero zc
    (bool_first c) (bit_count c) (leb_128_bytes c).

Definition set_vr (c : coder) (v r : Z) : coder :=
  mkCoder v r (bool_max_bits c) (bool_value_last_zero c)
    (bool_value_zero_count c) (bool_first c) (bit_count c) (leb_128_bytes c).

Definition set_first (c : coder) (f : bool) : coder :=
  mkCoder (bool_value c) (bool_range c) (bool_max_bits c) (bool_value_last_zero c)
    (bool_value_zero_count c) f (bit_count c) (leb_128_bytes c).

Definition set_max_bits (c : coder) (m : Z) : coder :=
  mkCoder (bool_value c) (bool_range c) m (bool_value_last_zero c)
    (bool_value_zero_count c) (bool_first c) (bit_count c) (leb_128_bytes c).

(** bool_coder.rs 134-140, [init_encoder]. Note that [bit_count] is kept. *)
Definition init_encoder (c : coder) : coder :=
  mkCoder 0 (Z.shiftl 1 15) (bool_max_bits c) false 0 true (bit_count c) (leb_128_bytes c).

(** bool_coder.rs 194-206, "update cdf" in [encode_symbol]. The decoder has its
    own copy of this code, modelled separately below.
    The loop [for i in 0..(N-1)] reads and writes only [cdf[i]] in iteration [i],
    so it is written as recursion along the slice. *)
Fixpoint adapt_loop (k : nat) (i symbol tmp diff rate : Z) (l : list Z) : res (list Z) :=
  match k with
  | O => Ok l
  | S k' =>
      match l with
      | [] => Panic
      | c :: r =>
          tmp1 <- chk_i32 (tmp + (if i =? symbol then diff else 0)) ;;
          d <- chk_i32 (c - tmp1) ;;
          c' <- chk_i32 (c - Z.shiftr d rate) ;;
          tmp2 <- chk_i32 (tmp1 + 32) ;;
          r' <- adapt_loop k' (i + 1) symbol tmp2 diff rate r ;;
          Ok (c' :: r')
      end
  end.

(** [cdf[N] += (cdf[N] < 32) as i32], applied to the last entry. *)
Fixpoint bump_last (l : list Z) : res (list Z) :=
  match l with
  | [] => Panic
  | [c] => c' <- chk_i32 (c + b2z (c <? 32)) ;; Ok [c']
  | c :: r => r' <- bump_last r ;; Ok (c :: r')
  end.

Definition update_cdf (symbol : Z) (cdf : list Z) : res (list Z) :=
  n1 <- chk_u64 (len cdf - 1) ;;
  let N := as_i32 n1 in
  cnt <- idx cdf N ;;
  m <- msb16 (as_u16 N) ;;
  let rate := 4 + b2z (31 <? cnt) + m in
  d <- chk_i32 (Z.shiftl 1 15 - as_i32 (Z.shiftl N 5)) ;;
  let diff := as_i32 (Z.shiftl (Z.shiftr d rate) rate) in
  cdf' <- adapt_loop (Z.to_nat (N - 1)) 0 symbol (Z.shiftl 1 5) diff rate cdf ;;
  bump_last cdf'.

(** bool_coder.rs 149-167: interval update and carry. *)
Definition carry_step (c : coder) (out : list Z) : res (coder * list Z) :=
  if 65536 <=? bool_value c then
    let c := set_vr c (bool_value c - 65536) (bool_range c) in
    if 0 <? bool_value_zero_count c then
      '(c, out) <- emit c out 1 ;;
      '(c, out) <- emit_n (Z.to_nat (bool_value_zero_count c - 1)) c out 0 ;;
      Ok (set_pending c true 0, out)
    else Ok (set_pending c false 1, out)
  else Ok (c, out).

(** bool_coder.rs 169-192: [while self.bool_range < 32768 { .. }]. The range is
    an i32; after 32 shifts every bit of it has been shifted out and it stays 0
    for ever, so fuel 40 exhausted means that the loop does not terminate. *)
Fixpoint renorm_loop (fuel : nat) (c : coder) (out : list Z) : res (coder * list Z) :=
  match fuel with
  | O => Hang
  | S f =>
      if bool_range c <? 32768 then
        let bit := Z.land (Z.shiftr (bool_value c) 15) 1 in
        '(c1, out1) <-
          (if negb (bool_first c) then
             if bit =? 0 then
               '(ca, oa) <- (if bool_value_last_zero c then emit c out 0 else Ok (c, out)) ;;
               '(cb, ob) <- emit_n (Z.to_nat (bool_value_zero_count c)) ca oa 1 ;;
               Ok (set_pending cb true 0, ob)
             else
               z <- chk_i32 (bool_value_zero_count c + 1) ;;
               Ok (set_pending c (bool_value_last_zero c) z, out)
           else Ok (c, out)) ;;
        let c2 := set_first c1 false in
        renorm_loop f
          (set_vr c2 (Z.land (as_i32 (Z.shiftl (bool_value c2) 1)) 65535)
                     (as_i32 (Z.shiftl (bool_range c2) 1))) out1
      else Ok (c, out)
  end.

(** bool_coder.rs 142-207, [encode_symbol]. Returns coder, output and cdf.
    [fuel] bounds the number of tests of the loop condition. *)
Definition encode_symbol_fuel (fuel : nat) (c : coder) (symbol : Z) (out : list Z) (cdf : list Z)
  : res (coder * list Z * list Z) :=
  n1 <- chk_u64 (len cdf - 1) ;;
  fl <- (if 0 <? symbol
         then s1 <- chk_i32 (symbol - 1) ;; x <- idx cdf s1 ;; chk_i32 (32768 - x)
         else Ok 0) ;;
  x <- idx cdf symbol ;;
  fr <- chk_i32 (32768 - x) ;;
  l <- chk_i32 (Z.shiftr (bool_range c) 8 * fl) ;;
  r <- chk_i32 (Z.shiftr (bool_range c) 8 * fr) ;;
  let left := if symbol =? 0 then bool_range c else Z.shiftr l 7 in
  let right := Z.shiftr r 7 in
  d <- chk_i32 (bool_range c - left) ;;
  v <- chk_i32 (bool_value c + d) ;;
  rg <- chk_i32 (left - right) ;;
  '(c, out) <- carry_step (set_vr c v rg) out ;;
  '(c, out) <- renorm_loop fuel c out ;;
  cdf' <- update_cdf symbol cdf ;;
  Ok (c, out, cdf').

Definition encode_symbol := encode_symbol_fuel 40.

(** bool_coder.rs 363-380, [exit_encoder]. *)
Fixpoint push_value_bits (k : nat) (v : Z) (i : Z) (out : list Z) : list Z :=
  match k with
  | O => out
  | S k' => push_value_bits k' v (i + 1) (push out (Z.land (Z.shiftr v (15 - i)) 1))
  end.

Fixpoint push_n (k : nat) (out : list Z) (b : Z) : list Z :=
  match k with
  | O => out
  | S k' => push_n k' (push out b) b
  end.

Definition exit_encoder (c : coder) (out : list Z) : res (coder * list Z) :=
  '(c, out) <- (if bool_value_last_zero c then emit c out 0 else Ok (c, out)) ;;
  '(c, out) <- emit_n (Z.to_nat (bool_value_zero_count c)) c out 1 ;;
  let out := push_value_bits 16 (bool_value c) 0 out in
  let padding := (8 - bit_count c mod 8) mod 8 in
  Ok (c, push_n (Z.to_nat padding) out 0).

(** [in_bits.pop_front()] with the [else { assert!(false) }] branch. *)
Definition pop (q : list Z) : res (Z * list Z) :=
  match q with
  | [] => Panic
  | b :: r => Ok (b, r)
  end.

(** bool_coder.rs 66-69: [for _ in 0..15 { .. buf = (buf << 1) + bit .. }]. *)
Fixpoint read_bits (k : nat) (acc : Z) (q : list Z) : res (Z * list Z) :=
  match k with
  | O => Ok (acc, q)
  | S k' =>
      '(b, q) <- pop q ;;
      acc' <- chk_i32 (as_i32 (Z.shiftl acc 1) + b) ;;
      read_bits k' acc' q
  end.

(** bool_coder.rs 64-73, [init_decoder]. [sz as i32] truncates. *)
Definition init_decoder (c : coder) (q : list Z) (sz : Z) : res (coder * list Z) :=
  '(buf, q) <- read_bits 15 0 q ;;
  m <- chk_i32 (8 * as_i32 sz) ;;
  mb <- chk_i32 (m - 15) ;;
  Ok (set_max_bits (set_vr c (Z.lxor (Z.shiftl 1 15 - 1) buf) (Z.shiftl 1 15)) mb, q).

(** bool_coder.rs 78-86: the symbol search. [k] bounds the number of iterations
    by the length of the slice: one more iteration would index out of bounds. *)
Fixpoint find_symbol (k : nat) (range value : Z) (cdf : list Z) (symbol prev : Z)
  : res (Z * Z * Z) :=
  match k with
  | O => Panic
  | S k' =>
      x <- idx cdf symbol ;;
      f <- chk_i32 (Z.shiftl 1 15 - x) ;;
      p <- chk_i32 (Z.shiftr range 8 * f) ;;
      let cur := Z.shiftr p 7 in
      if value <? cur then find_symbol k' range value cdf (symbol + 1) cur
      else Ok (symbol, prev, cur)
  end.

(** bool_coder.rs 92-98: refill loop; [bool_max_bits] is decremented per bit. *)
Fixpoint refill (k : nat) (new_data mb : Z) (q : list Z) : res (Z * Z * list Z) :=
  match k with
  | O => Ok (new_data, mb, q)
  | S k' =>
      '(b, q) <- pop q ;;
      nd <- chk_i32 (as_i32 (Z.shiftl new_data 1) + b) ;;
      mb' <- chk_i32 (mb - 1) ;;
      refill k' nd mb' q
  end.

(** bool_coder.rs 101-113, "update cdf" in [decode_symbol]. *)
Fixpoint dec_adapt_loop (k : nat) (i symbol tmp diff rate : Z) (l : list Z) : res (list Z) :=
  match k with
  | O => Ok l
  | S k' =>
      match l with
      | [] => Panic
      | c :: r =>
          tmp1 <- chk_i32 (tmp + (if i =? symbol then diff else 0)) ;;
          d <- chk_i32 (c - tmp1) ;;
          c' <- chk_i32 (c - Z.shiftr d rate) ;;
          tmp2 <- chk_i32 (tmp1 + 32) ;;
          r' <- dec_adapt_loop k' (i + 1) symbol tmp2 diff rate r ;;
          Ok (c' :: r')
      end
  end.

(** [cdf[N] += (cdf[N] < 32) as i32], applied to the last entry. *)
Fixpoint dec_bump_last (l : list Z) : res (list Z) :=
  match l with
  | [] => Panic
  | [c] => c' <- chk_i32 (c + b2z (c <? 32)) ;; Ok [c']
  | c :: r => r' <- dec_bump_last r ;; Ok (c :: r')
  end.

Definition dec_update_cdf (symbol : Z) (cdf : list Z) : res (list Z) :=
  n1 <- chk_u64 (len cdf - 1) ;;
  let N := as_i32 n1 in
  cnt <- idx cdf N ;;
  m <- msb16 (as_u16 N) ;;
  let rate := 4 + b2z (31 <? cnt) + m in
  d <- chk_i32 (Z.shiftl 1 15 - as_i32 (Z.shiftl N 5)) ;;
  let diff := as_i32 (Z.shiftl (Z.shiftr d rate) rate) in
  cdf' <- dec_adapt_loop (Z.to_nat (N - 1)) 0 symbol (Z.shiftl 1 5) diff rate cdf ;;
  dec_bump_last cdf'.

(** bool_coder.rs 75-116, [decode_symbol]. *)
Definition decode_symbol (c : coder) (q : list Z) (cdf : list Z)
  : res (Z * coder * list Z * list Z) :=
  n1 <- chk_u64 (len cdf - 1) ;;
  '(symbol, prev, cur) <-
     find_symbol (length cdf) (bool_range c) (bool_value c) cdf 0 (bool_range c) ;;
  rg <- chk_i32 (prev - cur) ;;
  v <- chk_i32 (bool_value c - cur) ;;
  m <- msb16 (as_u16 rg) ;;
  bits <- chk_u8 (15 - m) ;;
  let rg' := as_i32 (Z.shiftl rg bits) in
  '(new_data, mb, q) <- refill (Z.to_nat bits) 0 (bool_max_bits c) q ;;
  v1 <- chk_i32 (v + 1) ;;
  v2 <- chk_i32 (as_i32 (Z.shiftl v1 bits) - 1) ;;
  mb <- chk_i32 (mb - bits) ;;
  cdf' <- dec_update_cdf symbol cdf ;;
  Ok (symbol, set_max_bits (set_vr c (Z.lxor new_data v2) rg') mb, q, cdf').

(** bool_coder.rs 129-132, [exit_decoder]; [pop_front] of an empty queue is
    harmless here because the result is ignored. *)
Definition exit_decoder (c : coder) (q : list Z) : coder * list Z :=
  (set_max_bits c 0, skipn (Z.to_nat (bool_max_bits c)) q).

(** bool_coder.rs 119, 124, 210, 215: the fixed-probability cdf. *)
Definition cdf_p (p : Z) : res (list Z) :=
  a <- chk_i32 (as_i32 (Z.shiftl p 15) + 256) ;;
  b <- chk_i32 (a - p) ;;
  Ok [Z.shiftr b 8; Z.shiftl 1 15; 0].

(** bool_coder.rs 214-217, [encode_symbolp]. *)
Definition encode_symbolp (c : coder) (bit : Z) (out : list Z) (p : Z) : res (coder * list Z) :=
  cdf <- cdf_p p ;;
  '(c, out, _) <- encode_symbol c bit out cdf ;;
  Ok (c, out).

(** bool_coder.rs 118-121, [decode_symbolp]. *)
Definition decode_symbolp (c : coder) (q : list Z) (p : Z) : res (Z * coder * list Z) :=
  cdf <- cdf_p p ;;
  '(s, c, q, _) <- decode_symbol c q cdf ;;
  Ok (s, c, q).

(** bool_coder.rs 209-212, [encode_symbols]: one local cdf, adapted along. *)
Fixpoint encode_symbols_loop (c : coder) (bits : list Z) (out : list Z) (cdf : list Z)
  : res (coder * list Z) :=
  match bits with
  | [] => Ok (c, out)
  | b :: r => '(c, out, cdf) <- encode_symbol c b out cdf ;; encode_symbols_loop c r out cdf
  end.
Definition encode_symbols (c : coder) (bits : list Z) (out : list Z) (p : Z) : res (coder * list Z) :=
  cdf <- cdf_p p ;; encode_symbols_loop c bits out cdf.

(** bool_coder.rs 123-126, [decode_symbols]; the results are pushed on a second
    vector, here returned as a list. *)
Fixpoint decode_symbols_loop (n : nat) (c : coder) (q : list Z) (cdf : list Z)
  : res (list Z * coder * list Z) :=
  match n with
  | O => Ok ([], c, q)
  | S n' =>
      '(s, c, q, cdf) <- decode_symbol c q cdf ;;
      '(r, c, q) <- decode_symbols_loop n' c q cdf ;;
      Ok (as_u8 s :: r, c, q)
  end.
Definition decode_symbols (c : coder) (q : list Z) (n p : Z) : res (list Z * coder * list Z) :=
  cdf <- cdf_p p ;; decode_symbols_loop (Z.to_nat n) c q cdf.

(** bool_coder.rs 220-224, [encode_literal] ([u64] shifted by i < n). *)
Fixpoint encode_literal (c : coder) (out : list Z) (literal : Z) (n : nat) : res (coder * list Z) :=
  match n with
  | O => Ok (c, out)
  | S i =>
      _ <- shift_ok 64 (Z.of_nat i) ;;
      '(c, out) <- encode_symbolp c (as_u8 (Z.land (Z.shiftr literal (Z.of_nat i)) 1)) out 128 ;;
      encode_literal c out literal i
  end.

(** bool_coder.rs 226-230, [decode_literal]. *)
Fixpoint decode_literal_loop (n : nat) (x : Z) (c : coder) (q : list Z) : res (Z * coder * list Z) :=
  match n with
  | O => Ok (x, c, q)
  | S n' =>
      '(s, c, q) <- decode_symbolp c q 128 ;;
      x' <- chk_u64 (as_u64 (Z.shiftl x 1) + s) ;;
      decode_literal_loop n' x' c q
  end.
Definition decode_literal (c : coder) (q : list Z) (n : nat) : res (Z * coder * list Z) :=
  decode_literal_loop n 0 c q.
