(** Property C116: the closure that would code a component of a motion vector. *)
From Coq Require Import String ZArith List Bool Lia.
From Verif Require Import Base SeqSpec ContextModel ModeInfoModel ModeInfoSpec MvComponentModel MvComponentSpec MvComponentProofs.
Import ListNotations.
Open Scope string_scope.
Open Scope list_scope.
Open Scope Z_scope.

(** It never fails (but for the least 64-bit integer), and what it writes is never read as
    the component: neither as it is, nor with a sign put before it. *)
Theorem C116_never : forall int hp ctx v comp es, - 2 ^ 63 < v < 2 ^ 63 ->
  exists ds, mv_component int hp ctx v comp es = Ok (es ++ ds) /\ never_reads_as ds (av1_component ctx comp int hp) v /\
    forall s, never_reads_as (ESym "mv_sign" [ctx; comp] s :: ds) (av1_component ctx comp int hp) v.
Proof. exact never_magnitude. Qed.
Print Assumptions C116_never.

Theorem C116_panics_iff : forall int hp ctx v comp es, - 2 ^ 63 <= v < 2 ^ 63 -> (mv_component int hp ctx v comp es = Panic <-> v = - 2 ^ 63).
Proof. exact component_panics. Qed.
Print Assumptions C116_panics_iff.

(** What is read with a sign before it, exactly: at most 32 eighths of a sample. *)
Theorem C116_read_as : forall int hp ctx v comp es, - 2 ^ 63 < v < 2 ^ 63 ->
  exists c ds, mv_component int hp ctx v comp es = Ok (es ++ ESym "mv_class" [ctx; comp] c :: ds) /\
  forall s, reads_as (ESym "mv_sign" [ctx; comp] s :: ESym "mv_class" [ctx; comp] c :: ds) (av1_component ctx comp int hp)
    (if s =? 0 then read_magnitude int hp (Z.abs v) else - read_magnitude int hp (Z.abs v)).
Proof. exact component_read_as. Qed.
Print Assumptions C116_read_as.
Theorem C116_small : forall int hp a, 0 <= a -> read_magnitude int hp a <> a /\ 1 <= read_magnitude int hp a <= 32.
Proof. exact magnitude_wrong. Qed.
Print Assumptions C116_small.

Example C116_case : mv_component false true 0 (-300) 1 [] =
    Ok [ESym "mv_class" [0; 1] 1; ESym "mv_bit" [0; 1; 0] 1; ESym "mv_fr" [0; 1] 2; ESym "mv_hp" [0; 1] 0] /\ read_magnitude false true 300 = 29 /\
  mv_component false true 0 5 0 [] = Ok [ESym "mv_class" [0; 0] 0; ESym "mv_class0_bit" [0; 0] 0; ESym "mv_class0_fr" [0; 0; 0] 2; ESym "mv_class0_hp" [0; 0] 1] /\
  read_magnitude false true 5 = 6 /\ mv_component false true 0 (- 2 ^ 63) 0 [] = Panic.
Proof. repeat split; vm_compute; reflexivity. Qed.
