(** Model of /repo/src/util.rs. *)
From Coq Require Import ZArith List Bool.
From Verif Require Import Base.
Import ListNotations.
Open Scope Z_scope.

(** util.rs 5-7, macro [Abs!]. *)
Definition Abs (x : Z) : Z := if 0 <=? x then x else - x.

(** util.rs 9-11, macro [Clip3!(x, y, z)]. *)
Definition Clip3 (x y z : Z) : Z := if z <? x then x else if y <? z then y else z.

(** util.rs 13-15, macro [Clip1!]. *)
Definition Clip1 (x : Z) : Z := Clip3 0 (Z.shiftl 1 8 - 1) x.

(** util.rs 17-23, macros [Min!] and [Max!]. *)
Definition Min (x y : Z) : Z := if x <? y then x else y.
Definition Max (x y : Z) : Z := if y <? x then x else y.

(** util.rs 25-27, macro [Round2!(x, n)]. Simplification: evaluated on
    unbounded integers, overflow of [x + (1 << (n-1))] is not modelled. *)
Definition Round2 (x n : Z) : Z :=
  if n =? 0 then x else Z.shiftr (x + Z.shiftl 1 (n - 1)) n.

(** util.rs 29-31, macro [Round2Signed!(x, n)]. *)
Definition Round2Signed (x n : Z) : Z :=
  if 0 <=? x then Round2 x n else Round2 (- x) n.

(** util.rs 33-46, macro [FloorLog2!(x)] for an unsigned 64-bit [x]: the loop
    [while t != 0 { t >>= 1; s += 1 }], then [s - 1], which underflows (panics)
    for [x = 0] because [s] is unsigned. 64 iterations clear any u64; the fuel
    argument is 65 so that running out of it cannot happen for a u64. *)
Fixpoint floorlog2_loop (fuel : nat) (t s : Z) : res Z :=
  match fuel with
  | O => Hang
  | S f => if t =? 0 then Ok s else floorlog2_loop f (Z.shiftr t 1) (s + 1)
  end.
Definition FloorLog2 (x : Z) : res Z :=
  s <- floorlog2_loop 65 x 0 ;; chk_u64 (s - 1).

(** util.rs 48-60, macro [CeilLog2!] does not parse as Rust ([i++]) and is never
    used, so it is not modelled. *)

(** util.rs 62-72, [msb16]. *)
Definition lut16 : list Z := [0; 0; 1; 1; 2; 2; 2; 2; 3; 3; 3; 3; 3; 3; 3; 3].
Definition msb16 (n : Z) : res Z :=
  let m0 := Z.shiftr n 8 in
  let bit0 := if 0 <? m0 then 8 else 0 in
  let m0 := if 0 <? m0 then m0 else n in
  let m1 := Z.shiftr m0 4 in
  let bit1 := if 0 <? m1 then bit0 + 4 else bit0 in
  let m1 := if 0 <? m1 then m1 else m0 in
  v <- idx lut16 m1 ;;
  chk_u8 (bit1 + v).

(** util.rs 74-91, [msb32]. *)
Definition lut32 : list Z :=
  [0; 0; 1; 1; 2; 2; 2; 2; 3; 3; 3; 3; 3; 3; 3; 3;
   4; 4; 4; 4; 4; 4; 4; 4; 4; 4; 4; 4; 4; 4; 4; 4].
Definition msb32 (n : Z) : res Z :=
  let m0 := Z.shiftr n 16 in
  let bit0 := if 0 <? m0 then 16 else 0 in
  let m0 := if 0 <? m0 then m0 else n in
  let m1 := Z.shiftr m0 8 in
  let bit1 := if 0 <? m1 then bit0 + 8 else bit0 in
  let m1 := if 0 <? m1 then m1 else m0 in
  let m2 := Z.shiftr m1 4 in
  let bit2 := if 0 <? m2 then bit1 + 4 else bit1 in
  let m2 := if 0 <? m2 then m2 else m1 in
  v <- idx lut32 m2 ;;
  chk_u8 (bit2 + v).

(** util.rs 93-113, [msb64]. *)
Definition lut64 : list Z :=
  [0; 0; 1; 1; 2; 2; 2; 2; 3; 3; 3; 3; 3; 3; 3; 3;
   4; 4; 4; 4; 4; 4; 4; 4; 4; 4; 4; 4; 4; 4; 4; 4;
   5; 5; 5; 5; 5; 5; 5; 5; 5; 5; 5; 5; 5; 5; 5; 5;
   5; 5; 5; 5; 5; 5; 5; 5; 5; 5; 5; 5; 5; 5; 5; 5].
Definition msb64 (n : Z) : res Z :=
  let m0 := Z.shiftr n 32 in
  let bit0 := if 0 <? m0 then 32 else 0 in
  let m0 := if 0 <? m0 then m0 else n in
  let m1 := Z.shiftr m0 16 in
  let bit1 := if 0 <? m1 then bit0 + 16 else bit0 in
  let m1 := if 0 <? m1 then m1 else m0 in
  let m2 := Z.shiftr m1 8 in
  let bit2 := if 0 <? m2 then bit1 + 8 else bit1 in
  let m2 := if 0 <? m2 then m2 else m1 in
  let m3 := Z.shiftr m2 4 in
  let bit3 := if 0 <? m3 then bit2 + 4 else bit2 in
  let m3 := if 0 <? m3 then m3 else m2 in
  v <- idx lut64 m3 ;;
  chk_u8 (bit3 + v).
