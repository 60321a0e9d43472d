(** Property C86: copies of partition trees and film grain parameters. *)
From Coq Require Import ZArith List.
From Verif Require Import Base FrameParamModel CloneModel CloneProofs.
Import ListNotations.
Open Scope Z_scope.

(** ** C86 *)

(** The copy of a partition tree that the search keeps is the tree itself: every field
    of every block, at every depth and in the same order. *)
Theorem C86_partition_tree_copy : forall t, pt_clone t = t.
Proof. exact pt_clone_eq. Qed.
Print Assumptions C86_partition_tree_copy.
Example C86_partition_tree_case : exists t, List.length (pt_partitions t) = 2%nat /\ pt_bsize (nth 1 (pt_partitions (pt_clone t)) (pt_new 0)) = 4 /\
  pt_part_type (pt_clone t) = 3.
Proof.
  exists (PT 3 [pt_new 3; pt_new 4] 6 1 true (-1) 9 [1; 2; 3; 4] true [1; 5] 1 1 20 true false true [1; 0; 0; 0; 0; 0; 0; 0] false [(3, -4); (0, 7)]).
  repeat split.
Qed.

(** The copy of the film grain parameters of a reference frame likewise. *)
Theorem C86_film_grain_copy : forall g, grain_clone g = g.
Proof. exact grain_clone_eq. Qed.
Print Assumptions C86_film_grain_copy.
Example C86_film_grain_case : fg_clip (grain_clone (mkGrain true 7 false 2 1 [5] [6] true 0 0 [] [] [] [] 8 0 [] [1] [2] 6 0 1 2 3 4 5 6 true true)) = true.
Proof. reflexivity. Qed.
