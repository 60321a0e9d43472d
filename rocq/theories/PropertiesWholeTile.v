(** C88: the state a tile starts from. C89: the coder a tile is written with. *)
From Coq Require Import ZArith List Bool Lia.
From Verif Require Import Base UtilModel RangeCoderModel RangeCoderSpec SessionModel BlockTables GeomModel TileModel FrameParamModel LrModel CdfTables CdfTableSpec CdfProofs WholeTileModel WholeTileProofs.
Import ListNotations.
Open Scope Z_scope.

(** C88: whatever earlier tiles left, a tile starts with the quantizer index of the
    frame, loop filter deltas 0 and, for the planes coded, the reference weights and
    taps of the standard (5.11.2, 9.3); nothing else is touched. *)
Theorem C88_tile_start : forall (S : Type) planes base_q (w : rest S),
  0 <= planes <= 3 -> length (w_lf w) = 4%nat ->
  length (t_ref_xqd (w_lr w)) = 3%nat -> Forall (fun l => length l = 2%nat) (t_ref_xqd (w_lr w)) ->
  length (t_ref_taps (w_lr w)) = 3%nat ->
  Forall (fun l => length l = 2%nat /\ Forall (fun k => length k = 3%nat) l) (t_ref_taps (w_lr w)) ->
  exists w', start_tile base_q planes w = Ok w' /\ w_q w' = base_q /\ w_lf w' = [0; 0; 0; 0] /\
    (forall p, 0 <= p < planes ->
       nth (Z.to_nat p) (t_ref_xqd (w_lr w')) [] = [-32; 31] /\
       nth (Z.to_nat p) (t_ref_taps (w_lr w')) [] = [[3; -7; 15]; [3; -7; 15]]) /\
    (forall p, planes <= p ->
       nth (Z.to_nat p) (t_ref_xqd (w_lr w')) [] = nth (Z.to_nat p) (t_ref_xqd (w_lr w)) [] /\
       nth (Z.to_nat p) (t_ref_taps (w_lr w')) [] = nth (Z.to_nat p) (t_ref_taps (w_lr w)) []) /\
    length (t_ref_xqd (w_lr w')) = 3%nat /\ length (t_ref_taps (w_lr w')) = 3%nat /\
    t_type (w_lr w') = t_type (w_lr w) /\ t_taps (w_lr w') = t_taps (w_lr w) /\ t_set (w_lr w') = t_set (w_lr w) /\
    t_xqd (w_lr w') = t_xqd (w_lr w) /\
    w_read w' = w_read w /\ w_cdef w' = w_cdef w /\ w_other w' = w_other w.
Proof. exact start_ok. Qed.
Print Assumptions C88_tile_start.

(** C88: the state is then used for nothing: a tile that begins inside the frame is
    never encoded, for any mode information, any coder and any state. *)
Theorem C88_tile_never_returns : forall (S : Type) (mode_info : tstate (rest S) -> block_env -> list Z -> res (tstate (rest S) * list Z))
    borrowed x n st out v r0 r1 c0 c1,
  tile_bounds n (i_cols x) (i_rows x) (i_cs x) (i_rs x) = Ok (r0, r1, c0, c1) ->
  r0 < r1 -> c0 < c1 -> Z.even r0 = true -> Z.even c0 = true ->
  Z.even (i_mi_rows x) = true -> Z.even (i_mi_cols x) = true -> r0 < i_mi_rows x -> c0 < i_mi_cols x ->
  encode_whole_tile S mode_info borrowed x n st out <> Ok v.
Proof. exact whole_never. Qed.
Print Assumptions C88_tile_never_returns.

(** One tile of a frame of 64 by 64 samples in superblocks of 64; no restoration. *)
Definition lr_none : lrenv := mkLrEnv false 3 [0; 0; 0] [64; 32; 32] true true 64 64 false 8 false.
Definition in64 : tile_in :=
  mkTileIn false 1 1 [0; 16] [0; 16] 16 16 true true 3 120 false lr_none [[[]]].
Definition rest64 : rest unit :=
  mkRest (mkLrState [[5; 6]; [7; 8]; [9; 10]] (repeat [[1; 2; 3]; [4; 5; 6]] 3) [] [] [] []) 3 [1; 2; 3; 4] true
    (repeat (repeat 0 16) 16) tt.
Definition no_mode (st : tstate (rest unit)) (k : block_env) (out : list Z) : res (tstate (rest unit) * list Z) := Ok (st, out).

Example C88_start_case : start_tile 120 1 rest64 =
  Ok (mkRest (mkLrState [[-32; 31]; [7; 8]; [9; 10]] [[[3; -7; 15]; [3; -7; 15]]; [[1; 2; 3]; [4; 5; 6]]; [[1; 2; 3]; [4; 5; 6]]] [] [] [] [])
        120 [0; 0; 0; 0] true (repeat (repeat 0 16) 16) tt).
Proof. reflexivity. Qed.
Example C88_never_case : tile_bounds 0 (i_cols in64) (i_rows in64) (i_cs in64) (i_rs in64) = Ok (0, 16, 0, 16) /\
  encode_whole_tile unit no_mode false in64 0 (mkT (init_encoder new_coder) default_part false false rest64) [] = Panic.
Proof. split; vm_compute; reflexivity. Qed.

(** C89: a coder whose range is 0, as [BoolCoder::new] leaves it, codes no symbol: the
    loop that doubles the range does not end. *)
Theorem C89_range_zero_never : forall fuel c s out cdf v, bool_range c = 0 ->
  encode_symbol_fuel fuel c s out cdf <> Ok v.
Proof. exact zero_never. Qed.
Print Assumptions C89_range_zero_never.

(** C89: with a coder as created, a valid CDF and any symbol it is still running after
    any number of rounds that a 64 bit counter can count. *)
Theorem C89_new_coder_hangs : forall N cdf s fuel out, valid_cdf N cdf -> (s < N)%nat -> Z.of_nat fuel < 2 ^ 63 ->
  encode_symbol_fuel fuel new_coder (Z.of_nat s) out cdf = Hang.
Proof. exact created_hangs. Qed.
Print Assumptions C89_new_coder_hangs.

(** C89: a list of calls made without [init_encoder] returns only if it codes nothing. *)
Theorem C89_without_init_never : forall ops c t out c' t' out', bool_range c = 0 ->
  encode_ops c t out ops = Ok (c', t', out') ->
  Forall (fun o => match o with OSym _ _ => False | OBit _ _ => False | OBits _ bs => bs = [] | OLit n _ => n = O end) ops /\
  c' = c /\ t' = t /\ out' = out.
Proof. exact ops_never. Qed.
Print Assumptions C89_without_init_never.

(** C89: the first tile of a run: the coder is new and the tile encoder too. If its
    first superblock has its middle inside the frame and no restoration units, the
    call runs for ever. *)
Theorem C89_first_tile_hangs : forall (S : Type) (mode_info : tstate (rest S) -> block_env -> list Z -> res (tstate (rest S) * list Z))
    x n w0 out r0 r1 c0 c1 w lr cdef',
  tile_bounds n (i_cols x) (i_rows x) (i_cs x) (i_rs x) = Ok (r0, r1, c0, c1) ->
  r0 < r1 -> c0 < c1 ->
  r0 + (if i_use128 x then 16 else 8) < i_mi_rows x -> c0 + (if i_use128 x then 16 else 8) < i_mi_cols x ->
  start_tile (i_base_q x) (i_planes x) w0 = Ok w ->
  clear_cdef (w_cdef w) (i_use128 x) r0 c0 = Ok cdef' ->
  encode_lr (i_lr x) (i_units x) r0 c0 (if i_use128 x then 15 else 12) (w_lr w) [] = Ok (lr, []) ->
  encode_whole_tile S mode_info false x n (first_tile_state S w0) out = Hang.
Proof.
  intros S mi x n w0 out r0 r1 c0 c1 w lr cdef' B R C F1 F2 W K L.
  exact (whole_hangs S mi x n (first_tile_state S w0) out r0 r1 c0 c1 w lr cdef' B R C F1 F2 new_stale eq_refl W K L).
Qed.
Print Assumptions C89_first_tile_hangs.

Example C89_case : exists w lr cdef',
  start_tile (i_base_q in64) (i_planes in64) rest64 = Ok w /\ clear_cdef (w_cdef w) (i_use128 in64) 0 0 = Ok cdef' /\
  encode_lr (i_lr in64) (i_units in64) 0 0 12 (w_lr w) [] = Ok (lr, []) /\
  encode_whole_tile unit no_mode false in64 0 (first_tile_state unit rest64) [1] = Hang.
Proof.
  eexists. eexists. eexists. split; [reflexivity|]. split; [vm_compute; reflexivity|]. split; vm_compute; reflexivity.
Qed.
(** With [init_encoder] the same symbol is coded. *)
Example C89_symbol_case : encode_symbol new_coder 1 [] [16384; 32768; 0] = Hang /\
  exists v, encode_symbol (init_encoder new_coder) 1 [] [16384; 32768; 0] = Ok v.
Proof. split; [vm_compute; reflexivity|eexists; vm_compute; reflexivity]. Qed.

(** C89 as stated, that the first tile of a run is encoded, is false: a tile of one
    superblock for which every step before the first symbol succeeds. *)
Theorem C89_first_tile_refuted : exists x w0 out,
  tile_bounds 0 (i_cols x) (i_rows x) (i_cs x) (i_rs x) = Ok (0, 16, 0, 16) /\
  i_mi_rows x = 16 /\ i_mi_cols x = 16 /\
  forall mode_info, encode_whole_tile unit mode_info false x 0 (first_tile_state unit w0) out = Hang.
Proof.
  exists in64, rest64, []. split; [reflexivity|]. split; [reflexivity|]. split; [reflexivity|]. intros mi.
  destruct C89_case as (w & lr & cd & A & B & C & _).
  eapply (C89_first_tile_hangs unit mi in64 0 rest64 [] 0 16 0 16 w lr cd); try reflexivity; assumption.
Qed.
Print Assumptions C89_first_tile_refuted.
