(** Properties C114 and C115: from elements to bits; all motion vector differences. *)
From Coq Require Import String ZArith List Bool Lia.
From Verif Require Import BitsSpec Base SeqSpec RangeCoderModel CdfTables CdfTableSpec ContextModel ContextSpec ContextCallSpec ContextProofs MvStackModel MvStackSpec
  ModeInfoModel ModeInfoSpec DeltaSpec MotionSpec PairSpec LeftoverSpec AnyMotionSpec BridgeSpec MvStackExamples BridgeProofs InterBitsProofs DeltaBitsProofs MvCallSpec MvCallProofs MvOnlyProofs PropertiesContext PropertiesDelta PropertiesMotion PropertiesPair.
Import ListNotations.
Open Scope string_scope.
Open Scope list_scope.
Open Scope Z_scope.

(** Whatever a program reads from a list of elements, it reads from the bits the arithmetic
    coder makes of them, and the adapted CDFs of both sides are the same afterwards. *)
Theorem C114_elements_to_bits : forall (A : Type) (p : prog A) es v s c d out sz tail,
  state_ok s -> Forall codable_element es -> symbols_of es <= 2 ^ 26 ->
  0 <= bit_count c < 2 ^ 62 -> 0 <= sz < 2 ^ 28 -> is_bits tail -> on_elements p es = Some (v, []) ->
  exists c' s' D d' rest, element_session c s out es = Ok (c', s', out ++ D) /\ is_bits D /\
    decode_bits p d s (D ++ tail) sz = Ok (v, d', s', rest ++ tail).
Proof. exact bridge. Qed.
Print Assumptions C114_elements_to_bits.

(** All readers of C60 to C64, C104, C111 and C112 are such programs. *)
Theorem C114_readers :
  (forall u l size select, bitwise (av1_ref_frames u l size select)) /\
  (forall two y num, bitwise (av1_mode_index two y num)) /\
  (forall ctx int hp pred, bitwise (av1_mv ctx int hp pred)) /\
  (forall m0 m1 a b int hp, bitwise (av1_assign_mv m0 m1 a b int hp)) /\
  (forall ul u l max, bitwise (av1_segment_id ul u l max)) /\
  (forall u l cdef bits, bitwise (av1_skip_cdef u l cdef bits)) /\
  (forall x, bitwise (av1_intra_frame x)) /\
  (forall multi n, bitwise (av1_deltas multi n)) /\
  (forall u l size select env lists y int hp, bitwise (av1_motion u l size select env lists y int hp)) /\
  (forall u l size select env lists y int hp, bitwise (av1_pair_motion u l size select env lists y int hp)).
Proof.
  repeat split; intros; apply isprog_bitwise;
    [apply prog_refs|apply prog_mode_index|apply prog_mv|apply prog_assign|apply prog_segment|apply prog_skip_cdef|apply prog_intra_frame|apply prog_deltas|apply prog_motion|apply prog_pair].
Qed.
Print Assumptions C114_readers.
Theorem C114_more_readers :
  (forall u l size select env lists y int hp, bitwise (av1_motion_filled u l size select env lists y int hp)) /\
  (forall fixed still u l size select env lists y int hp, bitwise (av1_motion_segment fixed still u l size select env lists y int hp)).
Proof. split; intros; apply isprog_bitwise; [apply prog_filled|apply prog_segment_motion]. Qed.
Print Assumptions C114_more_readers.

(** The motion of an inter block: everything the tile encoder writes for it is an existing
    CDF with a symbol of its alphabet, so what a reader gets from the elements (C104 and
    C112 say when that is the block) it gets from the bits. *)
Theorem C114_motion : forall (A : Type) (rd : list ev -> option (A * list ev)) x b t es ds b' t' v,
  bitwise rd -> motion_ranges x b t -> code_inter x b t es = Ok (es ++ ds, b', t') -> reads_as ds rd v ->
  exists p, (forall q, rd q = on_elements p q) /\
  forall s c d out sz tail, state_ok s -> 0 <= bit_count c < 2 ^ 62 -> 0 <= sz < 2 ^ 28 -> is_bits tail ->
  exists c' s' D d' rest, element_session c s out ds = Ok (c', s', out ++ D) /\ is_bits D /\
    decode_bits p d s (D ++ tail) sz = Ok (v, d', s', rest ++ tail).
Proof. exact inter_bits. Qed.
Print Assumptions C114_motion.

(** The deltas of a block: from the bits a decoder always gets something, and it gets the
    deltas exactly when C111 says so. *)
Theorem C114_deltas : forall x b t es,
  let n := lf_count (x_lf_present x) (x_lf_multi x) (x_planes x <=? 1) in
  let dq := in_units (x_dq_res x) (p_q b) (t_cur_q t) in
  let dlf j := in_units (x_lf_res x) (nth j (p_lf b) 0) (nth j (t_cur_lf t) 0) in
  t_read_deltas t = true -> p_bsize b <> (if x_sb128 x then 15 else 12) \/ p_skip b = false ->
  0 <= x_dq_res x < 64 -> 0 <= x_lf_res x < 64 -> 0 <= p_q b <= 255 -> 0 <= t_cur_q t <= 255 ->
  Forall (fun v => -63 <= v <= 63) (p_lf b) -> Forall (fun v => -63 <= v <= 63) (t_cur_lf t) ->
  (4 <= length (p_lf b))%nat -> (4 <= length (t_cur_lf t))%nat ->
  exists ds t' p got, code_deltas x b t es = Ok (es ++ ds, t') /\ (forall q, av1_deltas (x_lf_multi x) n q = on_elements p q) /\
  (got = (dq, map dlf (seq 0 n)) <-> Z.abs dq <= 2 /\ forall j, (j < n)%nat -> Z.abs (dlf j) <= 4) /\
  forall s c d out sz tail, state_ok s -> 0 <= bit_count c < 2 ^ 62 -> 0 <= sz < 2 ^ 28 -> is_bits tail ->
  exists c' s' D d' rest, element_session c s out ds = Ok (c', s', out ++ D) /\ is_bits D /\
    decode_bits p d s (D ++ tail) sz = Ok (got, d', s', rest ++ tail).
Proof. exact deltas_bits. Qed.
Print Assumptions C114_deltas.

(** With segmentation and the skip feature nothing is written, so the bits are empty. *)
Definition ex_segment_blk : blk := ex_motion_blk true true true [0; 0; 0] (0, 0).
Definition ex_segment_bridge : mode_env :=
  mkModeEnv ex_tile 4 4 true true ex_motion_mis true true
    true false true (repeat [None; None; None; None; None; None; Some 0] 8) (repeat false 8)
    false true false 3 false 1 true false 2 3 false false false (repeat 1 8) (repeat [2 ^ 14; 0; 2 ^ 16; 0; 0; 2 ^ 16] 8) (ex_field (20, 4)).
Example C114_segment_case : motion_ranges ex_segment_bridge ex_segment_blk ex_t /\ x_seg_on ex_segment_bridge = true /\
  exists b t, code_inter ex_segment_bridge ex_segment_blk ex_t [] = Ok ([], b, t) /\ fst (p_mvs b) = (2, 0).
Proof.
  split; [|split; [reflexivity|]].
  - constructor; cbn; try lia; try (unfold bit; lia); try discriminate; try (repeat constructor; unfold bit; lia); try (repeat constructor; lia).
    exact ex_motion_frame.
  - assert (E : match code_inter ex_segment_bridge ex_segment_blk ex_t [] with Ok (es, b, _) => es = [] /\ fst (p_mvs b) = (2, 0) | _ => False end) by (vm_compute; split; reflexivity).
    destruct (code_inter ex_segment_bridge ex_segment_blk ex_t []) as [[[es b] t]| |]; [|contradiction|contradiction].
    destruct E as [-> E]. exists b, t. split; [reflexivity|exact E].
Qed.

(** The block of C104_case, coded with the default CDFs and read back from its bits. *)
Definition ex_near : blk := ex_motion_blk true true true [0; 1; 0] (4, 4).
Lemma ex_near_ranges : motion_ranges ex_motion_env ex_near ex_t.
Proof.
  constructor; cbn.
  - exact ex_motion_frame.
  - unfold bit; lia.
  - unfold bit; lia.
  - discriminate.
  - repeat constructor; unfold bit; lia.
  - repeat constructor; lia.
  - lia.
  - lia.
  - lia.
Qed.
Example C114_case : exists ds b t p D,
  code_inter ex_motion_env ex_near ex_t [] = Ok (ds, b, t) /\
  (forall q, av1_motion (above_of (x_frame ex_motion_env) 0 4 4) (left_of (x_frame ex_motion_env) 0 4 4) 3 false (motion_env ex_motion_env 3)
     (fun _ => [(6, 0); (2, 4); (-8, 2); (20, 4)]) ex_own false false q = on_elements p q) /\
  match element_session new_coder default_cdf [] ds with Ok (_, _, out) => out = D | _ => False end /\
  match decode_bits p new_coder default_cdf (D ++ repeat 0 16) 16 with Ok (v, _, _, _) => v = ((1, -1), (15, 2), (-8, 2)) | _ => False end.
Proof.
  pose proof (C104_case) as CC. cbv zeta in CC. change (ex_motion_blk true true true [0; 1; 0] (4, 4)) with ex_near in CC.
  destruct (code_inter ex_motion_env ex_near ex_t []) as [[[ds b] t]| |] eqn:E; [|destruct (CC [])|destruct (CC [])].
  assert (R : reads_as ds (av1_motion (above_of (x_frame ex_motion_env) 0 4 4) (left_of (x_frame ex_motion_env) 0 4 4) 3 false (motion_env ex_motion_env 3)
     (fun _ => [(6, 0); (2, 4); (-8, 2); (20, 4)]) ex_own false false) ((1, -1), (15, 2), (-8, 2))) by (intros q; apply CC).
  destruct (C114_motion _ _ ex_motion_env ex_near ex_t [] ds b t _ (isprog_bitwise _ _ (prog_motion _ _ _ _ _ _ _ _ _)) ex_near_ranges E R) as (p & P & H).
  destruct (H default_cdf new_coder new_coder [] 16 (repeat 0 16) C45_default_state) as (c' & s' & D & d' & rest & W & _ & Rd).
  - cbn. lia.
  - lia.
  - repeat constructor; unfold is_bit; lia.
  - exists ds, b, t, p, D. split; [reflexivity|]. split; [exact P|]. rewrite W, Rd. split; reflexivity.
Qed.
Lemma ex_deltas : forall lf, Forall (fun v => -63 <= v <= 63) lf -> (4 <= length lf)%nat -> let dlf j := in_units 2 (nth j lf 0) (nth j [0; 8; 0; 0] 0) in
  exists ds t p D got, code_deltas (C111_env true) (C111_blk lf) C111_state [] = Ok (ds, t) /\ (forall q, av1_deltas true 4 q = on_elements p q) /\
  (got = (2, map dlf (seq 0 4)) <-> forall j, (j < 4)%nat -> Z.abs (dlf j) <= 4) /\
  match element_session new_coder default_cdf [] ds with Ok (_, _, out) => out = D | _ => False end /\
  match decode_bits p new_coder default_cdf (D ++ repeat 0 16) 16 with Ok (v, _, _, _) => v = got | _ => False end.
Proof.
  intros lf F L dlf. destruct (C114_deltas (C111_env true) (C111_blk lf) C111_state []) as (ds & t & p & got & E & P & I & H).
  - reflexivity.
  - right. reflexivity.
  - cbn. lia.
  - cbn. lia.
  - cbn. lia.
  - cbn. lia.
  - exact F.
  - repeat constructor; lia.
  - exact L.
  - cbn. lia.
  - destruct (H default_cdf new_coder new_coder [] 16 (repeat 0 16) C45_default_state) as (c' & s' & D & d' & rest & W & _ & Rd).
    + cbn. lia.
    + lia.
    + repeat constructor; unfold is_bit; lia.
    + exists ds, t, p, D, got. split; [exact E|]. split; [exact P|]. split.
      * change (got = (2, map dlf (seq 0 4)) <-> Z.abs 2 <= 2 /\ forall j, (j < 4)%nat -> Z.abs (dlf j) <= 4) in I. rewrite I. split; [intros [_ G]; exact G|intros G; split; [lia|exact G]].
      * rewrite W, Rd. split; reflexivity.
Qed.
Example C114_deltas_case : exists ds t p D,
  code_deltas (C111_env true) (C111_blk [4; 8; -8; 16]) C111_state [] = Ok (ds, t) /\ (forall q, av1_deltas true 4 q = on_elements p q) /\
  match element_session new_coder default_cdf [] ds with Ok (_, _, out) => out = D | _ => False end /\
  match decode_bits p new_coder default_cdf (D ++ repeat 0 16) 16 with Ok (v, _, _, _) => v = (2, [1; 0; -2; 4]) | _ => False end.
Proof.
  destruct (ex_deltas [4; 8; -8; 16]) as (ds & t & p & D & got & E & P & I & W & R); [repeat constructor; lia|cbn; lia|].
  exists ds, t, p, D. split; [exact E|]. split; [exact P|]. split; [exact W|].
  change (2, [1; 0; -2; 4]) with (2, map (fun j => in_units 2 (nth j [4; 8; -8; 16] 0) (nth j [0; 8; 0; 0] 0)) (seq 0 4)). rewrite <- (proj2 I); [exact R|].
  intros j J. do 4 (destruct j as [|j]; [vm_compute; discriminate|]). lia.
Qed.
(** The bits of elements, from the start of a tile. *)
Definition ex_bits (ds : list ev) : list Z := match element_session new_coder default_cdf [] ds with Ok (_, _, o) => o | _ => [] end.
Definition ex_value {A : Type} (p : prog A) (ds : list ev) : option A :=
  match decode_bits p new_coder default_cdf (ex_bits ds ++ repeat 0 64) 8 with Ok (v, _, _, _) => Some v | _ => None end.
Definition ex_session (ds : list ev) : bool := match element_session new_coder default_cdf [] ds with Ok _ => true | _ => false end.
Lemma ex_session_ok : forall ds, ex_session ds = true -> match element_session new_coder default_cdf [] ds with Ok (_, _, o) => o = ex_bits ds | _ => False end.
Proof. intros ds H. unfold ex_bits, ex_session in *. destruct (element_session _ _ _ _) as [[[c s] o]| |]; [reflexivity|discriminate|discriminate]. Qed.
Lemma ex_value_ok : forall (A : Type) (p : prog A) ds v, ex_value p ds = Some v ->
  match decode_bits p new_coder default_cdf (ex_bits ds ++ repeat 0 64) 8 with Ok (v', _, _, _) => v' = v | _ => False end.
Proof. intros A p ds v H. unfold ex_value in H. destruct (decode_bits _ _ _ _ _) as [[[[w d] s] r]| |]; [now injection H|discriminate|discriminate]. Qed.
(** A delta of five units is lost on bits too. *)
Definition ex_deltas_5 : list ev := match code_deltas (C111_env true) (C111_blk [4; 8; -8; 20]) C111_state [] with Ok (ds, _) => ds | _ => [] end.
Theorem C114_deltas_refuted : exists x b t ds t' p out, code_deltas x b t [] = Ok (ds, t') /\ t_cur_lf t' = [4; 8; -8; 20] /\ t_cur_lf t = [0; 8; 0; 0] /\ x_lf_res x = 2 /\
  (forall q, av1_deltas true 4 q = on_elements p q) /\
  match element_session new_coder default_cdf [] ds with Ok (_, _, o) => o = out | _ => False end /\
  match decode_bits p new_coder default_cdf (out ++ repeat 0 64) 8 with Ok (v, _, _, _) => v = (2, [1; 0; -2; 6]) | _ => False end.
Proof.
  exists (C111_env true), (C111_blk [4; 8; -8; 20]), C111_state. exists ex_deltas_5. eexists. exists (the _ (prog_deltas true 4)). exists (ex_bits ex_deltas_5). split; [vm_compute; reflexivity|].
  split; [reflexivity|]. split; [reflexivity|]. split; [reflexivity|]. split; [exact (the_ok _ (prog_deltas true 4))|].
  split; [apply ex_session_ok; vm_compute; reflexivity|apply ex_value_ok; vm_compute; reflexivity].
Qed.
Print Assumptions C114_deltas_refuted.

(** Nor does a lucky decoding of the bits save the blocks that C104 and C112 say are not
    read back: the block of C104_new_vector_refuted is decoded from its bits with the vector
    (4, 6), and a block of two new vectors with two other vectors. *)
Definition ex_new : list ev := match code_inter ex_motion_env (ex_motion_blk false true true [1; 0; 0] (7, 3)) ex_t [] with Ok (ds, _, _) => ds | _ => [] end.
Theorem C114_new_vector_refuted : exists x b t ds b' t' p out, code_inter x b t [] = Ok (ds, b', t') /\ fst (p_mvs b') = (7, 3) /\
  (forall q, av1_motion (above_of (x_frame x) 0 4 4) (left_of (x_frame x) 0 4 4) 3 false (motion_env x 3)
     (fun _ => [(6, 0); (2, 4); (-8, 2); (20, 4)]) ex_own false false q = on_elements p q) /\
  match element_session new_coder default_cdf [] ds with Ok (_, _, o) => o = out | _ => False end /\
  match decode_bits p new_coder default_cdf (out ++ repeat 0 64) 8 with Ok (v, _, _, _) => v = ((1, -1), (17, 1), (4, 6)) | _ => False end.
Proof.
  exists ex_motion_env, (ex_motion_blk false true true [1; 0; 0] (7, 3)), ex_t, ex_new. eexists. eexists.
  exists (the _ (prog_motion (above_of (x_frame ex_motion_env) 0 4 4) (left_of (x_frame ex_motion_env) 0 4 4) 3 false (motion_env ex_motion_env 3)
     (fun _ => [(6, 0); (2, 4); (-8, 2); (20, 4)]) ex_own false false)), (ex_bits ex_new).
  split; [vm_compute; reflexivity|]. split; [reflexivity|].
  split; [exact (the_ok _ (prog_motion _ _ _ _ _ _ _ _ _))|].
  split; [apply ex_session_ok; vm_compute; reflexivity|apply ex_value_ok; vm_compute; reflexivity].
Qed.
Print Assumptions C114_new_vector_refuted.
Definition ex_new_new : list ev := match code_inter ex_pair_env (ex_pair_blk 25) (ex_pair_state 17) [] with Ok (ds, _, _) => ds | _ => [] end.
Theorem C114_pair_refuted : exists x b t ds b' t' p out, code_inter x b t [] = Ok (ds, b', t') /\ p_mode b = 25 /\ p_mvs b' = ((7, 3), (2, 0)) /\
  (forall q, ex_pair_reader q = on_elements p q) /\
  match element_session new_coder default_cdf [] ds with Ok (_, _, o) => o = out | _ => False end /\
  match decode_bits p new_coder default_cdf (out ++ repeat 0 64) 8 with Ok (v, _, _, _) => v = ((4, 7), (25, 2), ((22, 6), (20, 4))) | _ => False end.
Proof.
  exists ex_pair_env, (ex_pair_blk 25), (ex_pair_state 17), ex_new_new. eexists. eexists.
  exists (the ex_pair_reader (prog_pair _ _ _ _ _ _ _ _ _)), (ex_bits ex_new_new).
  split; [vm_compute; reflexivity|]. split; [reflexivity|]. split; [reflexivity|].
  split; [exact (the_ok _ (prog_pair _ _ _ _ _ _ _ _ _))|].
  split; [apply ex_session_ok; vm_compute; reflexivity|apply ex_value_ok; vm_compute; reflexivity].
Qed.
Print Assumptions C114_pair_refuted.

(** ** C115 *)
(** Every difference of motion vectors that the syntax has can be coded with the writers of
    bool_coder.rs, and a decoder reads it back. *)
Theorem C115_every_difference : forall d ctx int hp pred, expressible int hp (fst d) -> expressible int hp (snd d) -> bit ctx ->
  Forall legal (mv_calls d ctx int hp) /\
  exists p, (forall q, av1_mv ctx int hp pred q = on_elements p q) /\
  forall s c dc out sz tail, state_ok s -> 0 <= bit_count c < 2 ^ 62 -> 0 <= sz < 2 ^ 28 -> is_bits tail ->
  exists c' s' D d' rest, write_session c s out (mv_calls d ctx int hp) = Ok (c', s', out ++ D) /\ is_bits D /\
    decode_bits p dc s (D ++ tail) sz = Ok ((fst pred + fst d, snd pred + snd d), d', s', rest ++ tail).
Proof.
  intros d ctx int hp pred A B C. split; [apply mv_legal; [apply A|apply B|exact C]|]. apply mv_calls_read; assumption.
Qed.
Print Assumptions C115_every_difference.

(** It has no others: whatever a decoder can read is expressible. *)
Theorem C115_no_other : forall ctx int hp pred q v r, Forall codable_element q -> (int = true -> hp = false) ->
  av1_mv ctx int hp pred q = Some (v, r) -> expressible int hp (fst v - fst pred) /\ expressible int hp (snd v - snd pred).
Proof. exact mv_only. Qed.
Print Assumptions C115_no_other.

(** A difference of 5 rows less 3/8 up and 2.25 columns to the right. *)
Example C115_case : expressible false true (-37) /\ expressible false true 18 /\
  map element_of (mv_calls (-37, 18) 0 false true) =
    [ESym "mv_joint" [0] 3; ESym "mv_sign" [0; 0] 1; ESym "mv_class" [0; 0] 2; ESym "mv_bit" [0; 0; 0] 0; ESym "mv_bit" [0; 0; 1] 0; ESym "mv_fr" [0; 0] 2; ESym "mv_hp" [0; 0] 0;
     ESym "mv_sign" [0; 1] 0; ESym "mv_class" [0; 1] 1; ESym "mv_bit" [0; 1; 0] 0; ESym "mv_fr" [0; 1] 0; ESym "mv_hp" [0; 1] 1] /\
  exists p D, (forall q, av1_mv 0 false true (10, 10) q = on_elements p q) /\
    match write_session new_coder default_cdf [] (mv_calls (-37, 18) 0 false true) with Ok (_, _, out) => out = D | _ => False end /\
    match decode_bits p new_coder default_cdf (D ++ repeat 0 16) 16 with Ok (v, _, _, _) => v = (-27, 28) | _ => False end.
Proof.
  assert (A : expressible false true (-37)) by (unfold expressible; repeat split; intros; discriminate).
  assert (B : expressible false true 18) by (unfold expressible; repeat split; intros; discriminate).
  split; [exact A|]. split; [exact B|]. split; [vm_compute; reflexivity|].
  destruct (C115_every_difference (-37, 18) 0 false true (10, 10) A B ltac:(unfold bit; lia)) as (_ & p & P & H).
  destruct (H default_cdf new_coder new_coder [] 16 (repeat 0 16) C45_default_state) as (c' & s' & D & d' & rest & W & _ & Rd).
  - cbn. lia.
  - lia.
  - repeat constructor; unfold is_bit; lia.
  - exists p, D. split; [exact P|]. rewrite W, Rd. split; reflexivity.
Qed.
