(** Loop restoration units: properties C82 to C85. *)
From Coq Require Import ZArith List Bool Lia.
From Verif Require Import Base BaseProofs UtilModel RangeCoderModel BitCodecModel SessionModel BlockTables GeomModel TileModel ElementModel FrameParamModel BitsSpec
  SeqSpec SyntaxSpec ElementSpec TileSpec LrModel LrSpec LrProofs LrProofs2 LrProofs3.
Import ListNotations.
Open Scope Z_scope.

(** C82: with each superblock exactly the units of 5.11.57 are coded, in its order,
    each taken from its place among the units of the superblock. *)
Theorem C82_units_of_av1 : forall x sbs row units r c s es,
  lr_sizes_ok x -> 0 <= r <= 2 ^ 50 -> 0 <= c <= 2 ^ 50 ->
  idx sbs (r / sb_of (v_use128 x)) = Ok row -> idx row (c / sb_of (v_use128 x)) = Ok units ->
  encode_lr x sbs r c (if v_use128 x then 15 else 12) s es =
    for_units (fun '(p, row, col) '(s, es) =>
        u <- unit_at units p (row - av1_row_start (frame_of x) p r) (col - av1_col_start (frame_of x) p c) ;;
        lr_unit (nth (Z.to_nat p) (v_types x) 0) p row col u s es)
      (if v_intrabc x then [] else av1_read_lr (frame_of x) r c (sb_of (v_use128 x))) (s, es).
Proof. exact encode_lr_units. Qed.
Print Assumptions C82_units_of_av1.

(** C82: over the superblocks of a frame every unit is coded once: in one superblock,
    and once there. *)
Theorem C82_each_once : forall x,
  lr_sizes_ok x ->
  (forall i j, in_grid x i j -> exists l, visits x (sb_of (v_use128 x) * i) (sb_of (v_use128 x) * j) = Ok l /\ NoDup l /\
     forall p row col, In (p, row, col) l -> frame_unit x p row col) /\
  (forall p row col, frame_unit x p row col ->
     exists i j, in_grid x i j /\
       forall i' j' l, in_grid x i' j' -> visits x (sb_of (v_use128 x) * i') (sb_of (v_use128 x) * j') = Ok l ->
         (In (p, row, col) l <-> i' = i /\ j' = j)).
Proof. exact units_once. Qed.
Print Assumptions C82_each_once.

(** A frame of 400 by 300, superres with denominator 12 and chroma at half size. *)
Definition env_example : lrenv := mkLrEnv false 3 [2; 3; 0] [64; 32; 32] true true 300 400 true 12 false.
Example C82_hypotheses : lr_sizes_ok env_example /\ in_grid env_example 4 4 /\ frame_unit env_example 1 4 5 /\
  visits env_example 16 32 = Ok [(0, 1, 3); (0, 1, 4); (1, 1, 3); (1, 1, 4)].
Proof.
  split; [|split; [|split]].
  - unfold lr_sizes_ok, len. split; [cbn; lia|]. split; [cbn; lia|]. split; [|cbn; lia].
    intros p Hp N. change (v_planes _) with 3 in Hp. assert (p = 0 \/ p = 1 \/ p = 2) as [-> |[-> | ->]] by lia; vm_compute in N; vm_compute; intuition congruence.
  - vm_compute. intuition congruence.
  - vm_compute. intuition congruence.
  - vm_compute. reflexivity.
Qed.

(** C83: a unit to be filtered by the Wiener filter. *)
Theorem C83_wiener_never : forall typ plane row col u s es v,
  (typ = 1 /\ u_wiener u = true) \/ (typ = 3 /\ u_type u = 1) ->
  lr_unit typ plane row col u s es <> Ok v.
Proof. exact wiener_unit_never. Qed.
Print Assumptions C83_wiener_never.

(** C83: a unit without filter. Where the type varies by unit nothing is written. *)
Theorem C83_off_unit : forall typ plane row col u s es s' es',
  (typ = 1 /\ u_wiener u = false) \/ (typ = 2 /\ u_sgrproj u = false) \/ (typ = 3 /\ u_type u = 0) ->
  lr_unit typ plane row col u s es = Ok (s', es') ->
  es' = es ++ (if typ =? 3 then [] else [Raw 0]) /\ t_ref_xqd s' = t_ref_xqd s.
Proof. exact off_unit. Qed.
Print Assumptions C83_off_unit.

(** C83: a unit with the self-guided filter: the calls made. *)
Theorem C83_self_guided : forall typ plane row col u s es s' es' r0 r1 x0 x1,
  lr_unit typ plane row col u s es = Ok (s', es') ->
  (typ = 2 /\ u_sgrproj u = true) \/ (typ = 3 /\ u_type u = 2) ->
  nth (Z.to_nat plane) (t_ref_xqd s) [] = [r0; r1] -> u_xqd u = [x0; x1] ->
  exists bits d0 d1,
    es' = es ++ (if typ =? 3 then [] else [Raw 1]) ++ map Half bits ++ d0 ++ d1 /\
    (forall k, rd 4 (bits ++ k) = Some (u_set u, k)) /\
    (if has_weight (u_set u) 0 then encode_signed_subexp_bool [] x0 (-96) 32 4 r0 = Ok d0 else d0 = []) /\
    (if has_weight (u_set u) 1 then encode_signed_subexp_bool [] x1 (-32) 96 4 r1 = Ok d1 else d1 = []).
Proof. exact sgr_unit_events. Qed.
Print Assumptions C83_self_guided.

(** C83: which weights the decoder gets back from the bits handed to the arithmetic
    coder. *)
Theorem C83_weight_exactly : forall i v r,
  i = 0 \/ i = 1 -> xqd_min i <= v <= xqd_max i -> xqd_min i <= r <= xqd_max i ->
  (weight_decoded i v r <-> r - xqd_min i <= 64 /\ av1_inverse_recenter (r - xqd_min i) (v - xqd_min i) < 32 /\
     av1_inverse_recenter (r - xqd_min i) (av1_inverse_recenter (r - xqd_min i) (v - xqd_min i)) = v - xqd_min i).
Proof. exact weight_iff. Qed.
Print Assumptions C83_weight_exactly.

Theorem C83_weight_never : forall i v r,
  i = 0 \/ i = 1 -> xqd_min i <= v <= xqd_max i -> xqd_min i + 62 <= r <= xqd_max i -> ~ weight_decoded i v r.
Proof. exact weight_none. Qed.
Print Assumptions C83_weight_never.

Definition unit_sgr (set x0 x1 : Z) : lrunit := mkUnit false true 2 set [[0; 0; 0]; [0; 0; 0]] [x0; x1].
Definition unit_off : lrunit := mkUnit false false 0 0 [[0; 0; 0]; [0; 0; 0]] [0; 0].
Definition unit_wiener : lrunit := mkUnit true false 1 0 [[3; -7; 15]; [3; -7; 15]] [0; 0].
(** The references at the start of a tile and tables for two units in each plane. *)
Definition lr_start : lrstate :=
  mkLrState (repeat sgrproj_xqd_mid 3) (repeat (repeat wiener_taps_mid 2) 3)
    (repeat [[0; 0]] 3) (repeat [repeat (repeat [0; 0; 0] 2) 2] 3) (repeat [[0; 0]] 3) (repeat [[[0; 0]; [0; 0]]] 3).
(** One unit of 64 by 64; two of them, of varying type. *)
Definition env_sgr : lrenv := mkLrEnv false 3 [2; 0; 0] [64; 32; 32] true true 64 64 false 8 false.
Definition env_switch : lrenv := mkLrEnv false 3 [3; 0; 0] [64; 32; 32] true true 64 128 false 8 true.

(** C83: at the start of a tile (references -32 and 31) no weight comes back. *)
Theorem C83_first_weights_never : forall i v, i = 0 \/ i = 1 -> xqd_min i <= v <= xqd_max i ->
  ~ weight_decoded i v (nth (Z.to_nat i) sgrproj_xqd_mid 0).
Proof. intros i v Hi Hv. apply weight_none; [exact Hi|exact Hv|]. destruct Hi as [-> | ->]; vm_compute; intuition discriminate. Qed.
Print Assumptions C83_first_weights_never.

(** C83: the types of units are lost: the first unit filtered and the second not, or
    the other way round, the same calls are made. *)
Theorem C83_types_lost_refuted : exists x sbs1 sbs2 s s1 s2 es,
  lr_sizes_ok x /\
  encode_lr x sbs1 0 0 15 s [] = Ok (s1, es) /\ encode_lr x sbs2 0 0 15 s [] = Ok (s2, es) /\
  t_type s1 = [[[2; 0]]; [[0; 0]]; [[0; 0]]] /\ t_type s2 = [[[0; 2]]; [[0; 0]]; [[0; 0]]].
Proof.
  exists env_switch, [[[[[unit_sgr 5 (-32) 31; unit_off]]]]], [[[[[unit_off; unit_sgr 5 (-32) 31]]]]], lr_start.
  eexists. eexists. eexists. split.
  - unfold lr_sizes_ok, len. split; [cbn; lia|]. split; [cbn; lia|]. split; [|cbn; lia].
    intros p Hp N. change (v_planes _) with 3 in Hp. assert (p = 0 \/ p = 1 \/ p = 2) as [-> |[-> | ->]] by lia; vm_compute in N; vm_compute; intuition congruence.
  - split; [vm_compute; reflexivity|]. split; [vm_compute; reflexivity|]. split; reflexivity.
Qed.
Print Assumptions C83_types_lost_refuted.

(** C83: the bits of a tile that starts with a unit of set 5, read by the decoder of
    the standard: use_sgrproj (default CDF), then the four bits of lr_sgr_set. It finds
    set 6. *)
Theorem C83_bits_refuted : exists s es c out c' bits d cdf,
  encode_lr env_sgr [[[[[unit_sgr 5 (-32) 31]]]]] 0 0 12 lr_start [] = Ok (s, es) /\
  run_levs (init_encoder new_coder) [] es = Ok (c, out) /\ exit_encoder c out = Ok (c', bits) /\
  sd_symbol (sd_init bits (len bits / 8)) [16855; 32768; 0] = (1, d, cdf) /\
  bits_val (sd_run_static 4 d [16384; 32768; 0]) = 6.
Proof.
  eexists. eexists. eexists. eexists. eexists. eexists. eexists. eexists.
  split; [vm_compute; reflexivity|]. split; [vm_compute; reflexivity|]. split; [vm_compute; reflexivity|]. split; vm_compute; reflexivity.
Qed.
Print Assumptions C83_bits_refuted.

Example C83_weight_there_and_back : weight_decoded 0 (-96 + 20) (-96 + 5) /\ ~ weight_decoded 0 (-96 + 5) (-96 + 5).
Proof. split; [apply wdec_ok; vm_compute; reflexivity|]. intros H. apply wdec_ok in H. vm_compute in H. discriminate H. Qed.
Example C83_wiener_case : lr_unit 1 0 0 0 unit_wiener lr_start [] = Panic /\ lr_unit 3 0 0 0 unit_wiener lr_start [] = Panic.
Proof. split; vm_compute; reflexivity. Qed.
Example C83_off_case : exists s, lr_unit 2 0 0 1 unit_off lr_start [Half 1] = Ok (s, [Half 1; Raw 0]).
Proof. eexists. vm_compute. reflexivity. Qed.
Example C83_self_guided_case : exists s es, lr_unit 2 0 0 1 (unit_sgr 3 (-40) 7) lr_start [] = Ok (s, es).
Proof. eexists. eexists. vm_compute. reflexivity. Qed.

(** C84: the weights kept for the next unit of the plane against those the decoder
    keeps. *)
Theorem C84_references_exactly : forall plane row col u s es s' es' x0 x1,
  sgr_unit plane row col u s es = Ok (s', es') ->
  len (nth (Z.to_nat plane) (t_ref_xqd s) []) = 2 -> u_xqd u = [x0; x1] -> -96 <= x0 <= 31 -> -32 <= x1 <= 95 ->
  (nth (Z.to_nat plane) (t_ref_xqd s') [] = av1_weights (u_set u) x0 x1 <-> u_set u < 14 \/ x0 <= -79) /\
  (forall p, p <> Z.to_nat plane -> nth p (t_ref_xqd s') [] = nth p (t_ref_xqd s) []).
Proof. exact sgr_refs_iff. Qed.
Print Assumptions C84_references_exactly.

(** C84: set 14 with a weight of 0. *)
Theorem C84_references_refuted : exists u s s' es', nth 0 (t_ref_xqd s) [] = sgrproj_xqd_mid /\
  sgr_unit 0 0 0 u s [] = Ok (s', es') /\ u_xqd u = [0; 0] /\ nth 0 (t_ref_xqd s') [] <> av1_weights (u_set u) 0 0.
Proof.
  exists (unit_sgr 14 0 0), lr_start. eexists. eexists. split; [reflexivity|]. split; [vm_compute; reflexivity|]. split; [reflexivity|].
  vm_compute. discriminate.
Qed.
Print Assumptions C84_references_refuted.

(** C84: a reference at its largest value cannot be used, whatever the weight. *)
Theorem C84_largest_reference_never : forall plane row col u s es v r0 r1 x0 x1,
  nth (Z.to_nat plane) (t_ref_xqd s) [] = [r0; r1] ->
  u_xqd u = [x0; x1] -> -96 <= x0 <= 31 -> -32 <= x1 <= 95 ->
  (has_weight (u_set u) 0 = true /\ r0 = 31) \/ (has_weight (u_set u) 1 = true /\ r1 = 95) ->
  sgr_unit plane row col u s es <> Ok v.
Proof. exact sgr_stuck. Qed.
Print Assumptions C84_largest_reference_never.

(** C84: hence after a unit of set 14 or 15 with the references right, no unit of a set
    below 14 can follow in the plane. *)
Theorem C84_after_never : forall plane row col u s es s' es' x0 x1,
  sgr_unit plane row col u s es = Ok (s', es') ->
  len (nth (Z.to_nat plane) (t_ref_xqd s) []) = 2 -> u_xqd u = [x0; x1] -> -96 <= x0 <= 31 -> -32 <= x1 <= 95 ->
  14 <= u_set u -> nth (Z.to_nat plane) (t_ref_xqd s') [] = av1_weights (u_set u) x0 x1 ->
  forall row2 col2 u2 y0 y1 es2 v, u_xqd u2 = [y0; y1] -> -96 <= y0 <= 31 -> -32 <= y1 <= 95 -> u_set u2 < 14 ->
  sgr_unit plane row2 col2 u2 s' es2 <> Ok v.
Proof. exact sgr_after. Qed.
Print Assumptions C84_after_never.

Example C84_hypotheses : exists s es, sgr_unit 0 0 0 (unit_sgr 14 (-80) 0) lr_start [] = Ok (s, es) /\
  nth 0 (t_ref_xqd s) [] = av1_weights 14 (-80) 0 /\ sgr_unit 0 0 1 (unit_sgr 0 0 0) s es = Panic.
Proof. eexists. eexists. split; [vm_compute; reflexivity|]. split; vm_compute; reflexivity. Qed.

(** C85: a frame as created has no superblocks. *)
Theorem C85_new_frame_never : forall x r c bsize s es,
  v_intrabc x = false -> encode_lr x initial_superblocks r c bsize s es = Panic.
Proof. exact fresh_frame. Qed.
Print Assumptions C85_new_frame_never.

Example C85_hypotheses : v_intrabc env_sgr = false /\ encode_lr env_sgr initial_superblocks 0 0 12 lr_start [] = Panic /\
  exists s es, encode_lr env_sgr [[[[[unit_off]]]]] 0 0 12 lr_start [] = Ok (s, es).
Proof. split; [reflexivity|]. split; [reflexivity|]. eexists. eexists. vm_compute. reflexivity. Qed.
