(** The candidates the encoder finds for a block with one reference, for any kind of global
    motion: vectors are never of high precision ([plain]), and [g] is the global vector as
    the encoder has it ([code_global] of MvStackSpec), not as a decoder has it. *)
From Coq Require Import ZArith List Bool.
From Verif Require Import Base SeqSpec ContextModel ContextSpec MvStackModel MvStackSpec ModeInfoModel ModeInfoSpec.
Import ListNotations.
Open Scope Z_scope.

Definition own_candidates (e : mv_env) (g : Z * Z) : list (Z * Z) :=
  map fst (kept (near_cands (plain e) false (g, (0, 0)) ++ temporal_cands (plain e) false)).
(** The same for two references; [g] are both global vectors. *)
Definition own_pairs (e : mv_env) (g : mv * mv) : list (mv * mv) := kept (near_cands (plain e) true g ++ temporal_cands (plain e) true).

(** The motion of a block with one reference in a frame with segmentation (5.11.25, 5.11.23
    and 5.11.26): [fixed] is the reference the segment fixes, [still] whether it has the
    skip or the global motion feature; otherwise as without segmentation. *)
Definition av1_motion_segment (fixed : option Z) (still : bool) (u l : option mi) (size : Z) (select : bool) (env : Z -> mv_env) (lists : Z -> list (Z * Z)) (y : mode_ctx)
  (int hp : bool) (q : list ev) : option (((Z * Z) * (Z * Z) * (Z * Z)) * list ev) :=
  LET (refs, q) := (match fixed with Some rf => Some ((rf, -1), q) | None => if still then Some ((1, -1), q) else av1_ref_frames u l size select q end) IN
  let g := av1_global_mv (env (fst refs)) (fst refs) in let cs := lists (fst refs) in
  LET (mi, q) := (if still then Some ((16, 0), q) else av1_mode_index false y (len cs) q) IN
  match modes_of (fst mi) with
  | Some (m, _) => LET (v, q) := av1_list_mv m 0 int hp (av1_pred m (snd mi) (len cs) cs g) q IN Some ((refs, mi, v), q)
  | None => None
  end.
