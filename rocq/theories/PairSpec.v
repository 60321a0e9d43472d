(** The motion of an inter block with two references as a decoder reads it: references
    (5.11.25), list of pairs of candidates (the parts of 7.10.2 that MvStackSpec has, see
    there), mode and index (5.11.23), both vectors (5.11.26). *)
From Coq Require Import ZArith List Bool.
From Verif Require Import Base SeqSpec ContextModel ContextSpec MvStackModel MvStackSpec ModeInfoModel ModeInfoSpec MotionSpec.
Import ListNotations.
Open Scope Z_scope.

(** What the list of candidates of a block of [size] with references [ra] and [rb] is made from. *)
Definition pair_env (x : mode_env) (size ra rb : Z) : mv_env :=
  {| v_tile := x_tile x; v_row := x_row x; v_col := x_col x; v_size := size; v_ref0 := ra; v_ref1 := rb;
     v_hp := x_hp x; v_int := x_int x; v_gm_type := x_gm_type x; v_gm_params := x_gm_params x; v_field := x_field x;
     v_mis := map (map (option_map neighbour)) (x_mis x) |}.
Definition pair_candidates (e : mv_env) (ra rb : Z) : list ((Z * Z) * (Z * Z)) :=
  kept (near_cands e true (av1_global_mv e ra, av1_global_mv e rb) ++ temporal_cands e true).

(** References, mode and index, vectors; [env] is the block with its references, [lists]
    the list of candidates the decoder makes for them. *)
Definition av1_pair_motion (u l : option mi) (size : Z) (select : bool) (env : Z -> Z -> mv_env) (lists : Z * Z -> list ((Z * Z) * (Z * Z)))
  (y : mode_ctx) (int hp : bool) (q : list ev) : option (((Z * Z) * (Z * Z) * ((Z * Z) * (Z * Z))) * list ev) :=
  LET (refs, q) := av1_ref_frames u l size select q IN
  let e := env (fst refs) (snd refs) in let cs := lists refs in
  LET (mi, q) := av1_mode_index true y (len cs) q IN
  match modes_of (fst mi) with
  | Some (m0, m1) =>
      LET (v, q) := av1_assign_mv m0 m1 (av1_pred m0 (snd mi) (len cs) (map fst cs) (av1_global_mv e (fst refs)))
                      (av1_pred m1 (snd mi) (len cs) (map snd cs) (av1_global_mv e (snd refs))) int hp q IN
      Some ((refs, mi, v), q)
  | None => None
  end.

(** The way the first vector is found: by the mode of the last block with one reference,
    in a tile without such a block (0) by the first candidate. *)
Definition old_mode (y : Z) : imode := match y with 15 => Near | 16 => Global | 17 => New | _ => Nearest end.
(** The modes that can be read back, and the old modes with which they can. *)
Definition kind_ok (old mode : Z) : Prop :=
  (mode = 18 \/ mode = 24) /\ (old = 0 \/ old = 14 \/ old = 16) \/ mode = 19 /\ old = 15.
