(** Common ground of the model: Rust outcomes and checked integer operations.

    [res A] is the outcome of a Rust computation that would return an [A]:
    - [Ok a]   it returns [a];
    - [Panic]  it panics (index out of bounds, arithmetic overflow in a debug
               build, failed [assert!], [unwrap] of [None], ...);
    - [Hang]   it never returns (a loop whose exit condition is never met).  *)
From Coq Require Import ZArith List Bool.
Import ListNotations.
Open Scope Z_scope.

Inductive res (A : Type) : Type :=
| Ok (a : A)
| Panic
| Hang.
Arguments Ok {A} a.
Arguments Panic {A}.
Arguments Hang {A}.

Definition bind {A B : Type} (x : res A) (f : A -> res B) : res B :=
  match x with
  | Ok a => f a
  | Panic => Panic
  | Hang => Hang
  end.

Declare Scope res_scope.
Delimit Scope res_scope with res.
Notation "x <- e1 ;; e2" := (bind e1 (fun x => e2))
  (at level 61, e1 at next level, right associativity) : res_scope.
Notation "' p <- e1 ;; e2" := (bind e1 (fun p => e2))
  (at level 61, p pattern, e1 at next level, right associativity) : res_scope.
Open Scope res_scope.

(** Integer types: the result of a debug-build arithmetic operation is the
    mathematical result when it fits, a panic otherwise. *)
Definition chk (lo hi z : Z) : res Z := if (lo <=? z) && (z <=? hi) then Ok z else Panic.

Definition chk_i32 := chk (- 2 ^ 31) (2 ^ 31 - 1).
Definition chk_i64 := chk (- 2 ^ 63) (2 ^ 63 - 1).
Definition chk_u8  := chk 0 (2 ^ 8 - 1).
Definition chk_u16 := chk 0 (2 ^ 16 - 1).
Definition chk_u32 := chk 0 (2 ^ 32 - 1).
(** [usize] and [u64] are both 64 bits on the target. *)
Definition chk_u64 := chk 0 (2 ^ 64 - 1).

(** [as u8], [as u16], ... : truncation to an unsigned type. *)
Definition as_u8  (z : Z) : Z := z mod 2 ^ 8.
Definition as_u16 (z : Z) : Z := z mod 2 ^ 16.
Definition as_u32 (z : Z) : Z := z mod 2 ^ 32.
Definition as_u64 (z : Z) : Z := z mod 2 ^ 64.
(** [as i32], [as i64] : truncation to a signed type; also the value of a left
    shift on that type, which in Rust discards the bits shifted out. *)
Definition as_i32 (z : Z) : Z := (z + 2 ^ 31) mod 2 ^ 32 - 2 ^ 31.
Definition as_i64 (z : Z) : Z := (z + 2 ^ 63) mod 2 ^ 64 - 2 ^ 63.

(** Shift by an amount: in a debug build the amount must be below the width. *)
Definition shift_ok (width amount : Z) : res unit :=
  if (0 <=? amount) && (amount <? width) then Ok tt else Panic.

(** Indexing a slice or vector. A negative value cast to [usize] is larger than
    any length, hence out of bounds. *)
Definition idx {A : Type} (l : list A) (i : Z) : res A :=
  if i <? 0 then Panic
  else match nth_error l (Z.to_nat i) with
       | Some a => Ok a
       | None => Panic
       end.

Definition b2z (b : bool) : Z := if b then 1 else 0.

Definition len {A : Type} (l : list A) : Z := Z.of_nat (length l).
