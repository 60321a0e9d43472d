(** The motion of an inter block with one reference as a decoder reads it, with the list of
    candidates filled up with the global vector (7.10.2.13: entries from NumMvFound up to 1
    are GlobalMvs). [lists] are the candidates found. *)
From Coq Require Import ZArith List Bool.
From Verif Require Import Base SeqSpec ContextModel ContextSpec MvStackModel MvStackSpec ModeInfoModel ModeInfoSpec MotionSpec.
Import ListNotations.
Open Scope Z_scope.

Definition filled (cs : list (Z * Z)) (g : Z * Z) : list (Z * Z) := cs ++ repeat g (2 - length cs).
Definition av1_motion_filled (u l : option mi) (size : Z) (select : bool) (env : Z -> mv_env) (lists : Z -> list (Z * Z)) (y : mode_ctx) (int hp : bool) (q : list ev)
  : option (((Z * Z) * (Z * Z) * (Z * Z)) * list ev) :=
  LET (refs, q) := av1_ref_frames u l size select q IN
  let g := av1_global_mv (env (fst refs)) (fst refs) in let cs := lists (fst refs) in
  LET (mi, q) := av1_mode_index false y (len cs) q IN
  match modes_of (fst mi) with
  | Some (m, _) => LET (v, q) := av1_list_mv m 0 int hp (av1_pred m (snd mi) (len cs) (filled cs g) g) q IN Some ((refs, mi, v), q)
  | None => None
  end.
(** The entry of the list the mode takes when there is no candidate for it. *)
Definition first_entry (m : imode) : nat := match m with Near => 1%nat | _ => 0%nat end.
(** The same state with another list, as earlier blocks may have left it. *)
Definition with_list (s : mv_state) (t : mode_state) : mode_state :=
  mkModeState (t_lossless t) s (t_y_mode t) (t_ref_ctx t) (t_new_ctx t) (t_drl_ctx t) (t_idx t) (t_pred t) (t_cur_q t)
    (t_cur_lf t) (t_read_deltas t) (t_cdef t).
