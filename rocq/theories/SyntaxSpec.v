(** Readers written from the AV1 specification (version 1.0.0, sections 4.9, 4.10
    and 8.2), independently of the model: what a conforming decoder does with
    the bits. *)
From Coq Require Import ZArith List Bool.
From Verif Require Import BitsSpec SeqSpec.
Import ListNotations.
Open Scope Z_scope.

(** leb128(), 4.10.5: up to eight bytes, seven bits each, least significant
    first; a byte of 128 or more announces another one. *)
Fixpoint rd_leb_bits (k : nat) (q : list Z) : option (Z * list Z) :=
  match k with
  | O => Some (0, q)
  | S k' =>
      LET (byte, q) := rd 8 q IN
      if byte <? 128 then Some (byte, q)
      else LET (v, q) := rd_leb_bits k' q IN Some (byte - 128 + 128 * v, q)
  end.

(** le(n), 4.10.4. *)
Fixpoint rd_le (n : nat) (q : list Z) : option (Z * list Z) :=
  match n with
  | O => Some (0, q)
  | S n' => LET (byte, q) := rd 8 q IN LET (v, q) := rd_le n' q IN Some (byte + 256 * v, q)
  end.

(** su(n), 4.10.6. *)
Definition rd_su (n : nat) (q : list Z) : option (Z * list Z) :=
  LET (v, q) := rd n q IN
  if 2 ^ Z.of_nat n <=? 2 * v then Some (v - 2 ^ Z.of_nat n, q) else Some (v, q).

(** ns(n), 4.10.7: [w] is FloorLog2(n) + 1, counted by doubling. *)
Fixpoint bit_width (p : positive) : nat :=
  match p with
  | xH => 1
  | xO p' | xI p' => S (bit_width p')
  end.
Definition rd_ns (n : positive) (q : list Z) : option (Z * list Z) :=
  let w := bit_width n in
  let m := 2 ^ Z.of_nat w - Zpos n in
  LET (v, q) := rd (w - 1) q IN
  if v <? m then Some (v, q)
  else LET (extra, q) := rd 1 q IN Some (2 * v - m + extra, q).

(** The symbol decoder of 8.2. State: value, range, bits left, unread bits. *)
Record sdec : Type := SD { sd_value : Z; sd_range : Z; sd_max : Z; sd_bits : list Z }.

(** [f(n)] of at most [max] bits, padded with zeros to [n] bits. *)
Definition take_padded (n : nat) (max : Z) (q : list Z) : Z * list Z :=
  let k := Nat.min n (Z.to_nat max) in
  (bits_val (firstn k q) * 2 ^ Z.of_nat (n - k), skipn k q).

(** init_symbol(sz), 8.2.2. *)
Definition sd_init (q : list Z) (sz : Z) : sdec :=
  let '(buf, q) := take_padded 15 (8 * sz) q in
  SD (Z.lxor (2 ^ 15 - 1) buf) (2 ^ 15) (8 * sz - 15) q.

(** 8.2.6, the search: [cur] of the standard, with EC_PROB_SHIFT = 6 and
    EC_MIN_PROB = 4. [k] iterations at most: there are [N] symbols and the last
    [cur] is 0. *)
Fixpoint sd_search (k : nat) (N range value : Z) (cdf : list Z) (symbol prev : Z) : Z * Z * Z :=
  let f := 32768 - nth (Z.to_nat symbol) cdf 0 in
  let cur := ((range / 256) * (f / 64)) / 2 + 4 * (N - symbol - 1) in
  match k with
  | O => (symbol, prev, cur)
  | S k' => if value <? cur then sd_search k' N range value cdf (symbol + 1) cur else (symbol, prev, cur)
  end.

(** 8.2.6, adaptation of the CDF. *)
Fixpoint sd_adapt (i symbol rate : Z) (l : list Z) : list Z :=
  match l with
  | [] => []
  | c :: r =>
      let tmp := if i <? symbol then 0 else 32768 in
      (if tmp <? c then c - (c - tmp) / 2 ^ rate else c + (tmp - c) / 2 ^ rate) :: sd_adapt (i + 1) symbol rate r
  end.
Definition av1_rate (N cnt : Z) : Z :=
  3 + (if 15 <? cnt then 1 else 0) + (if 31 <? cnt then 1 else 0) + Z.min (Z.log2 N) 2.
Definition av1_adapt (symbol : Z) (cdf : list Z) : list Z :=
  let N := Z.of_nat (length cdf) - 1 in
  let cnt := last cdf 0 in
  sd_adapt 0 symbol (av1_rate N cnt) (firstn (Z.to_nat (N - 1)) cdf) ++
  [32768; if cnt <? 32 then cnt + 1 else cnt].

(** 8.2.6 and 8.2.7: one symbol. *)
Definition sd_symbol (d : sdec) (cdf : list Z) : Z * sdec * list Z :=
  let N := Z.of_nat (length cdf) - 1 in
  let '(s, prev, cur) := sd_search (Z.to_nat (N - 1)) N (sd_range d) (sd_value d) cdf 0 (sd_range d) in
  let range := prev - cur in
  let value := sd_value d - cur in
  let bits := 15 - Z.log2 range in
  let '(new_data, q) := take_padded (Z.to_nat bits) (Z.max 0 (sd_max d)) (sd_bits d) in
  (s, SD (Z.lxor new_data ((value + 1) * 2 ^ bits - 1)) (range * 2 ^ bits) (sd_max d - bits) q,
   av1_adapt s cdf).

Fixpoint sd_run (n : nat) (d : sdec) (cdf : list Z) : list Z :=
  match n with
  | O => []
  | S n' => let '(s, d, cdf) := sd_symbol d cdf in s :: sd_run n' d cdf
  end.

(** The same with a CDF that does not adapt (disable_cdf_update = 1, or the
    single bits of 8.2.5). *)
Fixpoint sd_run_static (n : nat) (d : sdec) (cdf : list Z) : list Z :=
  match n with
  | O => []
  | S n' => let '(s, d, _) := sd_symbol d cdf in s :: sd_run_static n' d cdf
  end.

(** The adaptation rule the encoder follows (an earlier draft of the standard),
    written entry by entry. *)
Definition draft_rate (N cnt : Z) : Z := 4 + (if 31 <? cnt then 1 else 0) + Z.log2 N.
Definition draft_target (N rate symbol i : Z) : Z :=
  32 * (i + 1) + (if i <? symbol then 0 else (32768 - 32 * N) / 2 ^ rate * 2 ^ rate).

(** [cdf'] is what the draft rule makes of [cdf] (alphabet of [N]) after symbol [s]. *)
Definition draft_adapted (N : nat) (s : Z) (cdf cdf' : list Z) : Prop :=
  let rate := draft_rate (Z.of_nat N) (nth N cdf 0) in
  length cdf' = length cdf /\
  (forall i, (i < N - 1)%nat ->
     nth i cdf' 0 = nth i cdf 0 - (nth i cdf 0 - draft_target (Z.of_nat N) rate s (Z.of_nat i)) / 2 ^ rate) /\
  nth (N - 1) cdf' 0 = 32768 /\
  nth N cdf' 0 = Z.min 32 (nth N cdf 0 + 1).
