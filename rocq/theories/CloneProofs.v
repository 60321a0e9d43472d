(** Copies are equal to the original, at every depth. *)
From Coq Require Import ZArith List.
From Verif Require Import Base FrameParamModel CloneModel.
Import ListNotations.
Open Scope Z_scope.

Fixpoint pt_clone_eq (t : ptree) : pt_clone t = t.
Proof.
  destruct t as [a ps b c d e f g h i j k l m n o p q r].
  assert (E : (fix go (ps : list ptree) : list ptree := match ps with [] => [] | p :: ps => pt_clone p :: go ps end) ps = ps).
  { induction ps as [|x xs IH]; [reflexivity|]. rewrite IH, pt_clone_eq. reflexivity. }
  cbn. rewrite E. reflexivity.
Qed.
Lemma grain_clone_eq : forall g, grain_clone g = g.
Proof. intros []. reflexivity. Qed.
