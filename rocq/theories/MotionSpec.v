(** The motion of an inter block with one reference as a decoder reads it: references
    (5.11.25), list of candidates (the parts of 7.10.2 that MvStackSpec has, see there),
    mode and index (5.11.23), vector (5.11.26). *)
From Coq Require Import ZArith List Bool.
From Verif Require Import Base SeqSpec ContextModel ContextSpec MvStackModel MvStackSpec ModeInfoModel ModeInfoSpec.
Import ListNotations.
Open Scope Z_scope.

(** A coded block as seen by its neighbours. *)
Definition neighbour (m : full_mi) : nbr :=
  {| b_is_inter := m_is_inter (i_mi m); b_ref0 := m_ref0 (i_mi m); b_ref1 := m_ref1 (i_mi m); b_mode := i_mode m;
     b_size := m_size (i_mi m); b_mv0 := i_mv0 m; b_mv1 := i_mv1 m |}.
(** What the list of candidates of a block of [size] with reference [rf] is made from. *)
Definition motion_env (x : mode_env) (size rf : Z) : mv_env :=
  {| v_tile := x_tile x; v_row := x_row x; v_col := x_col x; v_size := size; v_ref0 := rf; v_ref1 := -1;
     v_hp := x_hp x; v_int := x_int x; v_gm_type := x_gm_type x; v_gm_params := x_gm_params x; v_field := x_field x;
     v_mis := map (map (option_map neighbour)) (x_mis x) |}.
Definition candidates (e : mv_env) (rf : Z) : list (Z * Z) :=
  map fst (kept (near_cands e false (av1_global_mv e rf, (0, 0)) ++ temporal_cands e false)).

(** References, mode and index, vector; [env rf] is the block with its reference,
    [lists rf] the list of candidates the decoder makes for it. *)
Definition av1_motion (u l : option mi) (size : Z) (select : bool) (env : Z -> mv_env) (lists : Z -> list (Z * Z)) (y : mode_ctx) (int hp : bool) (q : list ev)
  : option (((Z * Z) * (Z * Z) * (Z * Z)) * list ev) :=
  LET (refs, q) := av1_ref_frames u l size select q IN
  let g := av1_global_mv (env (fst refs)) (fst refs) in let cs := lists (fst refs) in
  LET (mi, q) := av1_mode_index false y (len cs) q IN
  match modes_of (fst mi) with
  | Some (m, _) => LET (v, q) := av1_list_mv m 0 int hp (av1_pred m (snd mi) (len cs) cs g) q IN Some ((refs, mi, v), q)
  | None => None
  end.
(** The index a list of drl flags stands for: start with the first candidate the mode may
    use, and go on, at most twice, while the flag is set and there is a next one. *)
Definition chosen (m : imode) (num : Z) (drl : list Z) : Z :=
  let go := fun first : nat =>
    if (Z.of_nat first + 1 <? num) && negb (nth first drl 0 =? 0) then
      if (Z.of_nat first + 2 <? num) && negb (nth (S first) drl 0 =? 0) then Z.of_nat first + 2 else Z.of_nat first + 1
    else Z.of_nat first in
  match m with New => go 0%nat | Near => go 1%nat | _ => 0 end.
(** There is a candidate for the mode. *)
Definition listed (m : imode) (num : Z) : Prop :=
  match m with Global => True | Near => 1 < num | _ => 0 < num end.
