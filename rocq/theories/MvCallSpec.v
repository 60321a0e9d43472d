(** Which calls of the writers of bool_coder.rs code a given difference of motion vectors,
    by 5.11.31 and 5.11.32 of the AV1 specification. Differences are in eighths of a
    sample, as (row, column). *)
From Coq Require Import String ZArith List Bool.
From Verif Require Import Base ContextModel ContextSpec ModeInfoModel.
Import ListNotations.
Open Scope Z_scope.

(** One component that is not zero. *)
Definition component_class (d : Z) : Z := let z := Z.abs d - 1 in if z <? 16 then 0 else Z.log2 z - 3.
Definition component_calls (d ctx comp : Z) (int hp : bool) : list wr :=
  let z := Z.abs d - 1 in let c := component_class d in
  [encode_mv_sign (if d <? 0 then 1 else 0) ctx comp; encode_mv_class c ctx comp] ++
  if c =? 0 then
    [encode_mv_class0_bit (z / 8) ctx comp] ++ (if int then [] else [encode_mv_class0_fr (z / 2 mod 4) (z / 8) ctx comp]) ++
    (if hp then [encode_mv_class0_hp (z mod 2) ctx comp] else [])
  else
    map (fun i => encode_mv_bit (z / 2 ^ (3 + Z.of_nat i) mod 2) (Z.of_nat i) ctx comp) (seq 0 (Z.to_nat c)) ++
    (if int then [] else [encode_mv_fr (z / 2 mod 4) ctx comp]) ++ (if hp then [encode_mv_hp (z mod 2) ctx comp] else []).
Definition mv_calls (d : Z * Z) (ctx : Z) (int hp : bool) : list wr :=
  let '(a, b) := d in
  [encode_mv_joint ((if a =? 0 then 0 else 2) + (if b =? 0 then 0 else 1)) ctx] ++
  (if a =? 0 then [] else component_calls a ctx 0 int hp) ++ (if b =? 0 then [] else component_calls b ctx 1 int hp).

(** The differences the syntax has: below 2048 samples, whole samples if [int], even without
    high precision. *)
Definition expressible (int hp : bool) (d : Z) : Prop :=
  Z.abs d <= 2 ^ 14 /\ (int = true -> d mod 8 = 0) /\ (hp = false -> d mod 2 = 0) /\ (int = true -> hp = false).

(** What the calls select and code. *)
Definition element_of (w : wr) : ev := match w with Ok (name, path, v) => ESym name path v | _ => ELit 0 0 end.
