(** C111: the quantizer and loop filter deltas of a block. *)
From Coq Require Import String ZArith List Bool Lia.
From Verif Require Import Base ModeInfoModel ModeInfoSpec DeltaSpec DeltaProofs PropertiesModeInfo.
Import ListNotations.
Open Scope string_scope.
Open Scope list_scope.
Open Scope Z_scope.

(** The first block of a superblock codes all its deltas in the order of the standard,
    with the CDFs of the standard. A decoder gets them exactly if the quantizer delta is
    at most 2 and every loop filter delta at most 4 in magnitude, counted in units of the
    resolution. Afterwards no deltas are due, and the encoder's current values are those
    of the block, those of filters without a delta as before. *)
Theorem C111_deltas_exactly : forall x b t es,
  let n := lf_count (x_lf_present x) (x_lf_multi x) (x_planes x <=? 1) in
  let dq := in_units (x_dq_res x) (p_q b) (t_cur_q t) in
  let dlf j := in_units (x_lf_res x) (nth j (p_lf b) 0) (nth j (t_cur_lf t) 0) in
  t_read_deltas t = true -> p_bsize b <> (if x_sb128 x then 15 else 12) \/ p_skip b = false ->
  0 <= x_dq_res x < 64 -> 0 <= x_lf_res x < 64 -> 0 <= p_q b <= 255 -> 0 <= t_cur_q t <= 255 ->
  Forall (fun v => -63 <= v <= 63) (p_lf b) -> Forall (fun v => -63 <= v <= 63) (t_cur_lf t) ->
  (4 <= length (p_lf b))%nat -> (4 <= length (t_cur_lf t))%nat ->
  exists ds t', code_deltas x b t es = Ok (es ++ ds, t') /\
    (reads_as ds (av1_deltas (x_lf_multi x) n) (dq, map dlf (seq 0 n)) <->
     Z.abs dq <= 2 /\ forall j, (j < n)%nat -> Z.abs (dlf j) <= 4) /\
    t_read_deltas t' = false /\ t_cur_q t' = p_q b /\ length (t_cur_lf t') = length (t_cur_lf t) /\
    forall j, nth j (t_cur_lf t') 0 = if (j <? n)%nat then nth j (p_lf b) 0 else nth j (t_cur_lf t) 0.
Proof. exact deltas_read_iff. Qed.
Print Assumptions C111_deltas_exactly.

(** Later blocks of the superblock, and a skipped block that is a whole superblock, code
    none. *)
Theorem C111_once : forall x b t es,
  t_read_deltas t = false \/ (p_bsize b = (if x_sb128 x then 15 else 12) /\ p_skip b = true) ->
  code_deltas x b t es = Ok (es, with_deltas (t_cur_q t) (t_cur_lf t) false t).
Proof. exact deltas_off. Qed.
Print Assumptions C111_once.

(** A loop filter delta that is read gives the decoder the level of the block exactly if
    the difference is a multiple of the resolution (for the quantizer see C41). *)
Theorem C111_level_exactly : forall want cur res, -63 <= want <= 63 -> 0 <= res -> 2 ^ res <= want + 64 ->
  (av1_lf_value cur (in_units res want cur) res = want <-> (want - cur) mod 2 ^ res = 0).
Proof. exact lf_value_iff. Qed.
Print Assumptions C111_level_exactly.

Definition C111_env (multi : bool) : mode_env :=
  mkModeEnv (x_tile (ex_mode_env 1 1 false)) 1 1 true true (x_mis (ex_mode_env 1 1 false)) true true
    true false false (x_features (ex_mode_env 1 1 false)) (repeat false 8)
    false true false 3 false 1 true multi 2 3 false false false (repeat 0 8) (x_gm_params (ex_mode_env 1 1 false)) (x_field (ex_mode_env 1 1 false)).
Definition C111_blk (lf : list Z) : blk :=
  mkBlk 3 0 false 5 44 lf false 1 (-1) 0 0 0 true true true [0; 0; 0] false ((0, 0), (0, 0)).
Definition C111_state : mode_state :=
  mkModeState false (t_mv (ex_mode_state [])) 0 0 0 [0; 0; 0; 0; 0; 0; 0; 0] 0 ((0, 0), (0, 0)) 40 [0; 8; 0; 0] true [].
(** So a delta of 5 units is not transmitted, although it is a multiple. *)
Theorem C111_large_refuted : exists x b t ds t', code_deltas x b t [] = Ok (ds, t') /\ t_read_deltas t = true /\
  t_cur_q t' = p_q b /\ t_cur_lf t' = p_lf b /\
  forall k, exists lfs, av1_deltas true 4 (ds ++ k) = Some ((2, lfs), k) /\
    map (fun p => av1_lf_value (fst p) (snd p) (x_lf_res x)) (combine (t_cur_lf t) lfs) <> p_lf b.
Proof.
  exists (C111_env true), (C111_blk [4; 8; -8; 20]), C111_state. eexists. eexists. split; [vm_compute; reflexivity|].
  split; [reflexivity|]. split; [reflexivity|]. split; [reflexivity|]. intros k. eexists. split; [cbn; reflexivity|]. vm_compute. discriminate.
Qed.
Print Assumptions C111_large_refuted.
Example C111_case : exists t', code_deltas (C111_env true) (C111_blk [4; 8; -8; 16]) C111_state [] =
    Ok ([ESym "delta_q" [] 2; ELit 1 0; ESym "delta_lf_multi" [0] 1; ELit 1 0; ESym "delta_lf_multi" [1] 0;
         ESym "delta_lf_multi" [2] 2; ELit 1 1; ESym "delta_lf_multi" [3] 3; ELit 3 0; ELit 1 1; ELit 1 0], t') /\ t_cur_lf t' = [4; 8; -8; 16].
Proof. eexists. split; [vm_compute; reflexivity|reflexivity]. Qed.
Example C111_one : exists ds t', code_deltas (C111_env false) (C111_blk [4; 8; -8; 16]) C111_state [] = Ok (ds ++ [ESym "delta_lf" [] 1; ELit 1 0], t') /\ t_cur_lf t' = [4; 8; 0; 0].
Proof. exists [ESym "delta_q" [] 2; ELit 1 0]. eexists. split; [vm_compute; reflexivity|reflexivity]. Qed.
