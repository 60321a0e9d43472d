(** What the motion vector prediction must do: the meaning of the candidate list, and
    the parts of section 7.10.2 of the AV1 specification that are implemented, written
    from the specification. Vectors of the specification are (row, column) pairs. *)
From Coq Require Import ZArith List Bool.
From Verif Require Import Base BlockTables GeomModel ElementSpec MvStackModel.
Import ListNotations.
Open Scope Z_scope.

(** ** The candidate list *)

Notation vec := (mv * mv)%type.
Definition vec_dec (a b : vec) : {a = b} + {a <> b}.
Proof. repeat decide equality. Defined.

(** The distinct candidates in the order of their first occurrence. *)
Fixpoint first_seen (l : list vec) : list vec :=
  match l with
  | [] => []
  | k :: r => k :: filter (fun k' => if vec_dec k k' then false else true) (first_seen r)
  end.
(** The total weight of a candidate. *)
Fixpoint total (k : vec) (cs : list (vec * Z)) : Z :=
  match cs with
  | [] => 0
  | (k', w) :: r => (if vec_dec k k' then w else 0) + total k r
  end.
Fixpoint all_weights (cs : list (vec * Z)) : Z :=
  match cs with [] => 0 | (_, w) :: r => w + all_weights r end.

(** The first eight distinct candidates. *)
Definition kept (cs : list (vec * Z)) : list vec := firstn 8 (first_seen (map fst cs)).

(** The entries of a state; for single prediction the second vectors mean nothing. *)
Definition entry (is_compound : bool) (t : vec) : vec := (fst t, if is_compound then snd t else (0, 0)).
Definition entries (is_compound : bool) (s : mv_state) : list vec :=
  map (entry is_compound) (firstn (Z.to_nat (s_num s)) (s_stack s)).
Definition weights (s : mv_state) : list Z := firstn (Z.to_nat (s_num s)) (s_weights s).

(** The arrays have eight elements. *)
Definition arrays_ok (s : mv_state) : Prop := len (s_stack s) = 8 /\ len (s_weights s) = 8.

(** ** Candidates of a neighbour (7.10.2.7 to 7.10.2.9) *)

Definition lower (e : mv_env) (m : mv) : mv :=
  (av1_lower_mv (v_hp e) (v_int e) (fst m), av1_lower_mv (v_hp e) (v_int e) (snd m)).
Definition gm_type_of (e : mv_env) (rf : Z) : Z := nth (Z.to_nat rf) (v_gm_type e) 0.
Definition width_of (size : Z) : Z := nth (Z.to_nat size) block_width 0.
Definition height_of (size : Z) : Z := nth (Z.to_nat size) block_height 0.
(** GLOBAL_GLOBALMV, and for single prediction GLOBALMV *)
Definition global_mode (single : bool) (b : nbr) : bool := (single && (b_mode b =? 16)) || (b_mode b =? 24).
(** NEWMV, NEAREST_NEWMV, NEW_NEARESTMV, NEAR_NEWMV, NEW_NEARMV, NEW_NEWMV *)
Definition newmv_mode (b : nbr) : bool := existsb (Z.eqb (b_mode b)) [17; 20; 21; 22; 23; 25].

(** The vector of a neighbour, or the global one if that is what it used; the
    condition on the size only exists for single prediction (blocks with two
    references are never smaller than 8x8). *)
Definition cand_mv (e : mv_env) (single : bool) (b : nbr) (rf : Z) (global own : mv) : mv :=
  lower e
    (if global_mode single b && (1 <? gm_type_of e rf) &&
        (negb single || (8 <=? Z.min (width_of (b_size b)) (height_of (b_size b))))
     then global else own).

Definition cands (e : mv_env) (is_compound : bool) (g : mv * mv) (b : nbr) (weight : Z) : list (vec * Z) :=
  if b_is_inter b then
    if is_compound then
      if (b_ref0 b =? v_ref0 e) && (b_ref1 b =? v_ref1 e)
      then [((cand_mv e false b (v_ref0 e) (fst g) (b_mv0 b), cand_mv e false b (v_ref1 e) (snd g) (b_mv1 b)), weight)]
      else []
    else
      (if b_ref0 b =? v_ref0 e then [((cand_mv e true b (v_ref0 e) (fst g) (b_mv0 b), (0, 0)), weight)] else []) ++
      (if b_ref1 b =? v_ref0 e then [((cand_mv e true b (v_ref0 e) (fst g) (b_mv1 b), (0, 0)), weight)] else [])
  else [].

Definition cands_of (e : mv_env) (is_compound : bool) (g : mv * mv) (nbs : list (nbr * Z)) : list (vec * Z) :=
  flat_map (fun bw => cands e is_compound g (fst bw) (snd bw)) nbs.
Definition new_count (e : mv_env) (is_compound : bool) (g : mv * mv) (nbs : list (nbr * Z)) : Z :=
  fold_right Z.add 0
    (map (fun bw => if newmv_mode (fst bw) then len (cands e is_compound g (fst bw) (snd bw)) else 0) nbs).
Definition has_cand (cs : list (vec * Z)) : bool := match cs with [] => false | _ => true end.

(** ** The blocks visited (7.10.2.2 to 7.10.2.4) *)

Definition nb_at (e : mv_env) (r c : Z) : option nbr :=
  match nth_error (v_mis e) (Z.to_nat r) with
  | Some row => match nth_error row (Z.to_nat c) with Some o => o | None => None end
  | None => None
  end.

(** The walk along one edge: [at_ i] is the neighbour at unit i of the edge (none
    outside the tile), [size_of] its extent along the edge in units, [n4] the
    extent of the block, [end4] how far to go. *)
Fixpoint walk (fuel : nat) (at_ : Z -> option nbr) (size_of : nbr -> Z) (n4 end4 i : Z) : list (nbr * Z) :=
  match fuel with
  | O => []
  | S fuel =>
      if i <? end4 then
        match at_ i with
        | None => []
        | Some b =>
            let l := Z.max (Z.min n4 (size_of b)) (if 16 <=? n4 then 4 else 1) in
            (b, 2 * l) :: walk fuel at_ size_of n4 end4 (i + l)
        end
      else []
  end.

Definition inside (e : mv_env) (r c : Z) : Prop :=
  e_row_start (v_tile e) <= r < e_row_end (v_tile e) /\ e_col_start (v_tile e) <= c < e_col_end (v_tile e).
Definition visible (e : mv_env) (r c : Z) : option nbr :=
  if (e_row_start (v_tile e) <=? r) && (r <? e_row_end (v_tile e)) &&
     (e_col_start (v_tile e) <=? c) && (c <? e_col_end (v_tile e)) then nb_at e r c else None.

Definition bw4 (e : mv_env) : Z := width_of (v_size e) / 4.
Definition bh4 (e : mv_env) : Z := height_of (v_size e) / 4.
Definition above_blocks (e : mv_env) : list (nbr * Z) :=
  walk 16 (fun i => visible e (v_row e - 1) (v_col e + i)) (fun b => width_of (b_size b) / 4)
    (bw4 e) (Z.min (Z.min (bw4 e) (e_mi_cols (v_tile e) - v_col e)) 16) 0.
Definition left_blocks (e : mv_env) : list (nbr * Z) :=
  walk 16 (fun i => visible e (v_row e + i) (v_col e - 1)) (fun b => height_of (b_size b) / 4)
    (bh4 e) (Z.min (Z.min (bh4 e) (e_mi_rows (v_tile e) - v_row e)) 16) 0.
Definition corner_blocks (e : mv_env) : list (nbr * Z) :=
  if Z.max (bw4 e) (bh4 e) <=? 16 then
    match visible e (v_row e - 1) (v_col e + bw4 e) with Some b => [(b, 4)] | None => [] end
  else [].

(** ** Temporal samples (7.10.2.5, 7.10.2.6) *)

(** 0, step, 2 * step, ... below the limit *)
Definition steps (n4 : Z) : list Z :=
  let step := if 16 <=? n4 then 4 else 2 in
  filter (fun d => d <? Z.min n4 16) (map (fun k => step * Z.of_nat k) (seq 0 8)).
Definition positions (e : mv_env) : list (Z * Z) :=
  flat_map (fun dr => map (fun dc => (dr, dc)) (steps (bw4 e))) (steps (bh4 e)).

Definition motion_field (e : mv_env) (rf r c : Z) : mv :=
  nth (Z.to_nat (c / 2)) (nth (Z.to_nat (r / 2)) (nth (Z.to_nat rf) (v_field e) []) []) (0, 0).
Definition projected (m : mv) : bool := negb (fst m =? - 2 ^ 15).

(** The candidate of a sample: odd positions, no candidate outside the tile or where
    nothing was projected. *)
Definition sample (e : mv_env) (is_compound : bool) (d : Z * Z) : option vec :=
  let r := 2 * ((v_row e + fst d) / 2) + 1 in
  let c := 2 * ((v_col e + snd d) / 2) + 1 in
  if (e_row_start (v_tile e) <=? r) && (r <? e_row_end (v_tile e)) &&
     (e_col_start (v_tile e) <=? c) && (c <? e_col_end (v_tile e)) then
    let m0 := motion_field e (v_ref0 e) r c in
    let m1 := motion_field e (v_ref1 e) r c in
    if is_compound then if projected m0 && projected m1 then Some (lower e m0, lower e m1) else None
    else if projected m0 then Some (lower e m0, (0, 0)) else None
  else None.
Definition temporal_cands (e : mv_env) (is_compound : bool) : list (vec * Z) :=
  flat_map (fun d => match sample e is_compound d with Some k => [(k, 2)] | None => [] end) (positions e).

(** ZeroMvContext: 0 only if the first sample is outside the tile or close to the
    global vector. *)
Definition distant (a b : mv) : bool := (16 <=? Z.abs (fst a - fst b)) || (16 <=? Z.abs (snd a - snd b)).
Definition zero_context (e : mv_env) (is_compound : bool) (g : mv * mv) : Z :=
  let r := 2 * (v_row e / 2) + 1 in
  let c := 2 * (v_col e / 2) + 1 in
  if (e_row_start (v_tile e) <=? r) && (r <? e_row_end (v_tile e)) &&
     (e_col_start (v_tile e) <=? c) && (c <? e_col_end (v_tile e)) then
    match sample e is_compound (0, 0) with
    | Some (m0, m1) => b2z (distant m0 (fst g) || (is_compound && distant m1 (snd g)))
    | None => 1
    end
  else 0.

(** ** Global motion (7.10.2.1) *)

(** Half away from zero. *)
Definition av1_round (x n : Z) : Z := Z.sgn x * ((Z.abs x + 2 ^ (n - 1)) / 2 ^ n).
Definition param (e : mv_env) (rf i : Z) : Z := nth (Z.to_nat i) (nth (Z.to_nat rf) (v_gm_params e) []) 0.
(** The displacements of the middle of the block. *)
Definition warp_x (e : mv_env) (rf : Z) : Z :=
  let x := v_col e * 4 + width_of (v_size e) / 2 - 1 in
  let y := v_row e * 4 + height_of (v_size e) / 2 - 1 in
  (param e rf 2 - 2 ^ 16) * x + param e rf 3 * y + param e rf 0.
Definition warp_y (e : mv_env) (rf : Z) : Z :=
  let x := v_col e * 4 + width_of (v_size e) / 2 - 1 in
  let y := v_row e * 4 + height_of (v_size e) / 2 - 1 in
  param e rf 4 * x + (param e rf 5 - 2 ^ 16) * y + param e rf 1.
(** (row, column), before and after the reduction of the precision *)
Definition av1_global_raw (e : mv_env) (rf : Z) : mv :=
  let typ := gm_type_of e rf in
  if (rf =? 0) || (typ =? 0) then (0, 0)
  else if typ =? 1 then (param e rf 0 / 2 ^ 13, param e rf 1 / 2 ^ 13)
  else if v_hp e then (av1_round (warp_y e rf) 13, av1_round (warp_x e rf) 13)
  else (2 * av1_round (warp_y e rf) 14, 2 * av1_round (warp_x e rf) 14).
Definition av1_global_mv (e : mv_env) (rf : Z) : mv := lower e (av1_global_raw e rf).

(** ** Inputs *)

Definition mv_ok (m : mv) : Prop := - 2 ^ 31 <= fst m <= 2 ^ 31 /\ - 2 ^ 31 <= snd m <= 2 ^ 31.
Definition nbr_ok (b : nbr) : Prop := 0 <= b_size b < 22 /\ mv_ok (b_mv0 b) /\ mv_ok (b_mv1 b).

(** Sizes, references and arrays are what their types allow; parameters of global
    motion fit in 32 bits; the frame is smaller than 2^16 units. *)
Record env_ok (e : mv_env) (is_compound : bool) : Prop := {
  ok_bsize : 0 <= v_size e < 22;
  ok_rf0 : 0 <= v_ref0 e < 8;
  ok_rf1 : is_compound = true -> 0 <= v_ref1 e < 8;
  ok_types : len (v_gm_type e) = 8;
  ok_params : len (v_gm_params e) = 8 /\
    forall p, In p (v_gm_params e) -> len p = 6 /\ Forall (fun z => - 2 ^ 31 <= z < 2 ^ 31) p;
  ok_tile : 0 <= e_row_start (v_tile e) /\ e_row_end (v_tile e) <= e_mi_rows (v_tile e) < 2 ^ 16 /\
    0 <= e_col_start (v_tile e) /\ e_col_end (v_tile e) <= e_mi_cols (v_tile e) < 2 ^ 16;
  ok_pos : 0 <= v_row e < e_mi_rows (v_tile e) /\ 0 <= v_col e < e_mi_cols (v_tile e);
  ok_mis : forall r c b, nb_at e r c = Some b -> nbr_ok b;
  ok_field : len (v_field e) = 8 /\ forall f, In f (v_field e) ->
    (e_mi_rows (v_tile e) + 1) / 2 <= len f /\
    forall row, In row f -> (e_mi_cols (v_tile e) + 1) / 2 <= len row /\ Forall mv_ok row
}.

(** The table [num_4x4_blocks_wide] is wrong for 16x8, 16x16 and 16x32 (C43). *)
Definition table_right (size : Z) : Prop := ~ (size = 5 \/ size = 6 \/ size = 7).

(** The blocks next to the current one have been coded: above, to the left, and above
    to the right wherever the code looks. *)
Record around_ok (e : mv_env) : Prop := {
  ok_above : forall i, 0 <= i < bw4 e -> inside e (v_row e - 1) (v_col e + i) ->
    exists b, nb_at e (v_row e - 1) (v_col e + i) = Some b;
  ok_left : forall i, 0 <= i < bh4 e -> inside e (v_row e + i) (v_col e - 1) ->
    exists b, nb_at e (v_row e + i) (v_col e - 1) = Some b;
  ok_corner : Z.max (bw4 e) (bh4 e) <= 16 -> 0 < v_row e /\
    exists b, nb_at e (v_row e - 1) (v_col e + bw4 e) = Some b /\ b_ref0 b <> -1
}.

(** The same block in a frame without high precision vectors. *)
Definition plain (e : mv_env) : mv_env :=
  mkMvEnv (v_tile e) (v_row e) (v_col e) (v_size e) (v_ref0 e) (v_ref1 e) false (v_int e) (v_gm_type e) (v_gm_params e)
    (v_field e) (v_mis e).
Definition vec_range (m : mv) : Prop := - 2 ^ 62 <= fst m <= 2 ^ 62 /\ - 2 ^ 62 <= snd m <= 2 ^ 62.

(** Offering any list of blocks with weights. *)
Fixpoint add_all (e : mv_env) (is_compound : bool) (nbs : list (nbr * Z)) (s : mv_state) : res mv_state :=
  match nbs with
  | [] => Ok s
  | (b, w) :: r => s <- add_ref_mv_candidate e is_compound w b s ;; add_all e is_compound r s
  end.
Fixpoint weight_sum (nbs : list (nbr * Z)) : Z :=
  match nbs with [] => 0 | (_, w) :: r => w + weight_sum r end.

(** The candidates of a block: its neighbours', which get a bonus, then the samples'. *)
Definition near_cands (e : mv_env) (is_compound : bool) (g : mv * mv) : list (vec * Z) :=
  cands_of e is_compound g (above_blocks e ++ left_blocks e ++ corner_blocks e).
Definition bonus_of (near : list (vec * Z)) (k : vec) : Z := if in_dec vec_dec k (kept near) then 640 else 0.
(** CloseMatches: one for the row above (with the corner), one for the column. *)
Definition close_matches (e : mv_env) (is_compound : bool) (g : mv * mv) : Z :=
  b2z (has_cand (cands_of e is_compound g (above_blocks e ++ corner_blocks e))) +
  b2z (has_cand (cands_of e is_compound g (left_blocks e))).

Definition refs_ok (e : mv_env) (c : bool) : Prop :=
  len (v_gm_type e) = 8 /\ 0 <= v_ref0 e < 8 /\ (c = true -> 0 <= v_ref1 e < 8).
Definition global_ok (c : bool) (g : mv * mv) : Prop := vec_range (fst g) /\ (c = true -> vec_range (snd g)).
Definition tables_right (e : mv_env) : Prop :=
  table_right (v_size e) /\ forall r c b, nb_at e r c = Some b -> table_right (b_size b).

(** What the code computes, in terms of the specification. *)
Definition code_global (e : mv_env) (rf : Z) : mv :=
  let g := lower (plain e) (av1_global_raw e rf) in
  if (rf =? 0) || (gm_type_of e rf =? 0) || (gm_type_of e rf =? 1) then g else (Z.abs (snd g), Z.abs (fst g)).
