(** C107-C110: the whole encoder in a release build. *)
From Coq Require Import ZArith List Bool Lia Ascii String.
From Verif Require Import Base UtilModel RangeCoderModel BitCodecModel SessionModel FieldModel WriterModel SeqModel ObuModel
  ElementModel GeomModel TileModel ContextModel MvStackModel ModeInfoModel FrameParamModel FrameModel LrModel WholeTileModel
  StreamModel OptionModel MainModel BitsSpec RangeCoderSpec CdfProofs WriterSpec SeqSpec SeqProofs2 ObuSpec OptionSpec MainSpec MainProofs WholeTileProofs PartSpec PartProofs PropertiesPart
  BuildSpec BuildProofs BuildProofs2 BuildEncProofs BuildEncProofs2 BuildEncSpec BuildEncProofs3.
From Verif Require BuildModel BuildEncModel.
Import ListNotations.
Open Scope list_scope.
Open Scope Z_scope.

(** C107. Reading the two-profile text as a debug build gives the functions every
    other property speaks of. *)
Theorem C107_debug_is_the_model :
  @BuildEncModel.write_fields Debug = @write_fields /\ @BuildEncModel.read_fields Debug = @read_fields /\
  @BuildEncModel.write_calls Debug = @write_calls /\ @BuildEncModel.enc_seq Debug = @enc_seq /\
  @BuildEncModel.encode_metadata Debug = @encode_metadata /\ @BuildEncModel.encode_units Debug = @encode_units /\
  @BuildEncModel.encode_frame_header Debug = @encode_frame_header /\
  @BuildEncModel.encode_tile_group Debug = @encode_tile_group /\
  @BuildEncModel.encode_partition Debug = @encode_partition /\
  @BuildEncModel.encode_superblock Debug = @encode_superblock /\
  @BuildEncModel.run_writer Debug = @run_writer /\
  @BuildEncModel.find_mv_stack Debug = @find_mv_stack /\
  @BuildEncModel.encode_mode_info Debug = @encode_mode_info /\
  @BuildEncModel.encode_lr Debug = @encode_lr /\ @BuildEncModel.run_levs Debug = @run_levs /\
  @BuildEncModel.encode_whole_tile Debug = @encode_whole_tile /\
  @BuildEncModel.run_stream Debug = @run_stream /\ @BuildEncModel.payloads Debug = @payloads /\
  @BuildEncModel.main Debug = @main.
Proof.
  repeat match goal with |- _ /\ _ => split end; auto using debug_write_fields, debug_read_fields, debug_write_calls,
    debug_enc_seq, debug_encode_metadata, debug_encode_units, debug_encode_frame_header, debug_encode_tile_group,
    debug_encode_partition, debug_encode_superblock, debug_run_writer, debug_find_mv_stack, debug_encode_mode_info,
    debug_encode_lr, debug_run_levs, debug_encode_whole_tile, debug_run_stream, debug_payloads, debug_main.
Qed.
Print Assumptions C107_debug_is_the_model.

(** Headers, metadata and the bytes of the stream, for every argument and state. *)
Theorem C107_headers_agree :
  (forall out l, same_unless_panic (write_fields out l) (BuildEncModel.write_fields Release out l)) /\
  (forall nb q l, same_unless_panic (read_fields nb q l) (BuildEncModel.read_fields Release nb q l)) /\
  (forall w l, same_unless_panic (write_calls w l) (BuildEncModel.write_calls Release w l)) /\
  (forall out e h, same_unless_panic (enc_seq out e h) (BuildEncModel.enc_seq Release out e h)) /\
  (forall m out, same_unless_panic (encode_metadata m out) (BuildEncModel.encode_metadata Release m out)) /\
  (forall w e l, same_unless_panic (encode_units w e l) (BuildEncModel.encode_units Release w e l)) /\
  (forall out c f, same_unless_panic (encode_frame_header out c f) (BuildEncModel.encode_frame_header Release out c f)).
Proof.
  rewrite <- debug_write_fields, <- debug_read_fields, <- debug_write_calls, <- debug_enc_seq, <- debug_encode_metadata,
    <- debug_encode_units, <- debug_encode_frame_header.
  repeat match goal with |- _ /\ _ => split end; intros; apply le_same; auto with le.
Qed.
Print Assumptions C107_headers_agree.

(** Blocks and tiles: lists of motion vectors, mode information, the symbol writers
    with the contexts they compute, restoration units, the search of partitions. The
    code of a block, where it is a parameter, has to agree in the same sense. *)
Theorem C107_tiles_agree :
  (forall e comp s, same_unless_panic (find_mv_stack e comp s) (BuildEncModel.find_mv_stack Release e comp s)) /\
  (forall x b t es, same_unless_panic (encode_mode_info x b t es) (BuildEncModel.encode_mode_info Release x b t es)) /\
  (forall c s out w w', same_unless_panic w w' ->
     same_unless_panic (run_writer c s out w) (BuildEncModel.run_writer Release c s out w')) /\
  (forall x sbs r c bsize s es,
     same_unless_panic (encode_lr x sbs r c bsize s es) (BuildEncModel.encode_lr Release x sbs r c bsize s es)) /\
  (forall c out es, same_unless_panic (run_levs c out es) (BuildEncModel.run_levs Release c out es)) /\
  (forall S mode_info mode_info' e, (forall st k out, same_unless_panic (mode_info st k out) (mode_info' st k out)) ->
     forall fuel st size x y out,
       same_unless_panic (encode_superblock S mode_info e fuel st size x y out)
         (BuildEncModel.encode_superblock Release S mode_info' e fuel st size x y out)) /\
  (forall S mode_info mode_info', (forall st k out, same_unless_panic (mode_info st k out) (mode_info' st k out)) ->
     forall borrowed x n st out,
       same_unless_panic (encode_whole_tile S mode_info borrowed x n st out)
         (BuildEncModel.encode_whole_tile Release S mode_info' borrowed x n st out)).
Proof.
  rewrite <- debug_find_mv_stack, <- debug_encode_mode_info, <- debug_run_writer, <- debug_encode_lr, <- debug_run_levs,
    <- debug_encode_superblock, <- debug_encode_whole_tile.
  repeat match goal with |- _ /\ _ => split end; intros; apply le_same; auto with le.
  - apply le_run_writer. now apply same_le.
  - apply le_encode_superblock. intros. now apply same_le.
  - apply le_encode_whole_tile. intros. now apply same_le.
Qed.
Print Assumptions C107_tiles_agree.

(** Whole streams, and the program. *)
Theorem C107_streams_agree :
  (forall T superblock superblock',
     (forall st cdef i j size out, same_unless_panic (superblock st cdef i j size out) (superblock' st cdef i j size out)) ->
     (forall w x l, same_unless_panic (@run_stream T superblock w x l) (BuildEncModel.run_stream Release T superblock' w x l)) /\
     (forall x l, same_unless_panic (@payloads T superblock x l) (BuildEncModel.payloads Release T superblock' x l))) /\
  (forall args rep input, same_unless_panic (main args rep input) (BuildEncModel.main Release args rep input)).
Proof.
  rewrite <- debug_run_stream, <- debug_payloads, <- debug_main. split; [intros T sb sb' H; split|]; intros; apply le_same; auto with le.
  - apply le_run_stream. intros. now apply same_le.
  - apply le_payloads. intros. now apply same_le.
Qed.
Print Assumptions C107_streams_agree.

(** Cases that are not panics: values and an endless loop. *)
Example C107_case : enc_seq [] enc_new (seq_new 176 144) <> Panic /\
  (exists b, main (map lit ["-i"; "a"; "-o"; "b"; "-fr"; "1"; "-s"; "176x144"]%string) (fun _ => Got 1) [] = Ok b).
Proof. split; [vm_compute; discriminate|eexists; vm_compute; reflexivity]. Qed.

(** C108. On a command line and a video that can be read, the two builds of the program
    do the same unless at least one frame is asked for, of width or height 1 or 2. *)
Theorem C108_differs_iff : forall args rep input, no_failure rep ->
  (BuildEncModel.main Release args rep input <> main args rep input <->
   exists c w h n, accepted args c /\ cf_width c = Some w /\ cf_height c = Some h /\ cf_frames c = Some n /\ 1 <= n /\ (w < 3 \/ h < 3)).
Proof. exact main_differs. Qed.
Print Assumptions C108_differs_iff.
(** There the debug build panics, and the release build ends normally. For any accepted
    size the release build writes ten zero bits, the size, and the rest of the header, and
    the size is coded as the formula for larger sizes says. *)
Theorem C108_release_output : forall args c rep input w h n, accepted args c -> no_failure rep ->
  cf_width c = Some w -> cf_height c = Some h -> cf_frames c = Some n -> 1 <= n ->
  ((w < 3 \/ h < 3) -> main args rep input = Panic) /\
  exists pb fs, BuildEncModel.main Release args rep input = Ok (Ran (pb ++ [24; 16; 8; 8]) fs false) /\
    packs (repeat 0 10 ++
           (to_bits 4 (Z.log2 (w - 1) - 1) ++ to_bits 4 (Z.log2 (h - 1) - 1) ++
            to_bits (Z.to_nat (Z.log2 w)) (w - 1) ++ to_bits (Z.to_nat (Z.log2 h)) (h - 1)) ++
           [0; 1] ++ repeat 0 16 ++ [1; 0; 0; 0; 0; 0]) pb /\
    len fs = n /\ Forall (shape 176 144) fs.
Proof.
  intros args c rep input w h n A NF Ew Eh En Hn. split; [|exact (rel_main args c rep input w h n A NF Ew Eh En Hn)]. intros S.
  destruct (main_accepted args c rep input A) as (w' & h' & n' & Ew' & Eh' & En' & Bw & Bh & Bn & M).
  rewrite Ew in Ew'. rewrite Eh in Eh'. rewrite En in En'. injection Ew' as <-. injection Eh' as <-. injection En' as <-.
  rewrite M, loop_panics by (try assumption; lia). reflexivity.
Qed.
Print Assumptions C108_release_output.
(** A parser takes fields of 16 bits for such a width or height, runs into the fields
    that follow, and finds at least 3 where 1 or 2 was asked for. *)
Theorem C108_small_refuted : forall w h r p q, 1 <= w < 8192 -> 1 <= h < 8192 -> (w < 3 \/ h < 3) -> is_bits r ->
  exists code e' h', BuildEncModel.enc_seq Release [] enc_new (seq_new w h) = Ok (code, e', h') /\
  (rd_seq false (code ++ r) = Some (p, q) ->
   (w < 3 -> 3 <= ps_width_minus_1 p + 1) /\ (3 <= w -> 3 <= ps_height_minus_1 p + 1)).
Proof.
  intros w h r p q W H S B. destruct (rel_seq w h ltac:(lia) ltac:(lia)) as (e' & h' & E).
  eexists. exists e', h'. split; [exact E|]. intros R. destruct (small_unread w h r p q W H S B R). split; intros; lia.
Qed.
Print Assumptions C108_small_refuted.
Definition C108_args : list str := map lit ["-i"; "a"; "-o"; "b"; "-fr"; "1"; "-s"; "2x1"]%string.
Example C108_case : main C108_args (fun _ => Got 0) [] = Panic /\
  bytes_of (BuildEncModel.main Release C108_args (fun _ => Got 0) []) = Some [0; 63; 232; 0; 4; 0; 24; 16; 8; 8] /\
  exists c e' h' p q, BuildEncModel.enc_seq Release [] enc_new (seq_new 2 1) = Ok (c, e', h') /\
    rd_seq false (c ++ repeat 0 40) = Some (p, q) /\ ps_width_minus_1 p = 40960 /\ ps_height_minus_1 p = 4096.
Proof.
  split; [vm_compute; reflexivity|]. split; [vm_compute; reflexivity|]. do 5 eexists.
  split; [vm_compute; reflexivity|]. split; [vm_compute; reflexivity|]. split; reflexivity.
Qed.

(** C109. What stops the encoder for another reason than an overflow stops a release
    build too. Tile groups: as in C37, none with a tile in it is written. *)
Theorem C109_tile_group_never : forall B (T : Type) superblock out use128 tc tr groups s e sz cs rs (st : T) cdef v,
  1 <= tc -> 1 <= tr -> tc * tr < 2 ^ 64 ->
  BuildEncModel.encode_tile_group B T superblock out use128 tc tr groups s e sz cs rs st cdef = Ok v ->
  tc * tr <> 1 /\ groups <> 0 /\ e < s.
Proof. exact b_tile_group_never. Qed.
Print Assumptions C109_tile_group_never.
(** Tiles: as in C88, one that begins inside the frame is never encoded. *)
Theorem C109_tile_never : forall B (S : Type) mode_info borrowed x n st out v r0 r1 c0 c1,
  tile_bounds n (i_cols x) (i_rows x) (i_cs x) (i_rs x) = Ok (r0, r1, c0, c1) ->
  r0 < r1 -> c0 < c1 -> Z.even r0 = true -> Z.even c0 = true ->
  Z.even (i_mi_rows x) = true -> Z.even (i_mi_cols x) = true -> r0 < i_mi_rows x -> c0 < i_mi_cols x ->
  BuildEncModel.encode_whole_tile B S mode_info borrowed x n st out <> Ok v.
Proof. exact b_whole_never. Qed.
Print Assumptions C109_tile_never.
(** As in C89, the first tile of a run does not end. *)
Theorem C109_first_tile_hangs : forall (S : Type) mode_info x n w0 out r0 r1 c0 c1 w lr cdef',
  tile_bounds n (i_cols x) (i_rows x) (i_cs x) (i_rs x) = Ok (r0, r1, c0, c1) ->
  r0 < r1 -> c0 < c1 ->
  r0 + (if i_use128 x then 16 else 8) < i_mi_rows x -> c0 + (if i_use128 x then 16 else 8) < i_mi_cols x ->
  start_tile (i_base_q x) (i_planes x) w0 = Ok w ->
  clear_cdef (w_cdef w) (i_use128 x) r0 c0 = Ok cdef' ->
  encode_lr (i_lr x) (i_units x) r0 c0 (if i_use128 x then 15 else 12) (w_lr w) [] = Ok (lr, []) ->
  BuildEncModel.encode_whole_tile Release S mode_info false x n (first_tile_state S w0) out = Hang.
Proof.
  intros S mi x n w0 out r0 r1 c0 c1 w lr cdef' B R C F1 F2 W K L.
  pose proof (whole_hangs S mi x n (first_tile_state S w0) out r0 r1 c0 c1 w lr cdef' B R C F1 F2 new_stale eq_refl W K L) as H.
  destruct (le_encode_whole_tile S mi mi (fun _ _ _ => le_refl _) false x n (first_tile_state S w0) out) as [E|E];
    rewrite debug_encode_whole_tile, H in E; [discriminate E|exact E].
Qed.
Print Assumptions C109_first_tile_hangs.
(** Frame headers: as in C67. *)
Theorem C109_header_needs : forall B out c f r, c_seen c = false -> List.length (c_order_hints c) = 7%nat ->
  BuildEncModel.encode_frame_header B out c f = Ok r ->
  c_reduced c = false /\ (c_existing c = true \/ (f_type f = 0 /\ c_show c = false) \/ f_type f = 2).
Proof. exact b_header_needs. Qed.
Print Assumptions C109_header_needs.
Theorem C109_header_starts : forall B out c f r, c_seen c = false -> List.length (c_order_hints c) = 7%nat ->
  c_existing c = false -> f_uniform f = true -> c_col_starts c = initial_starts ->
  BuildEncModel.encode_frame_header B out c f <> Ok r.
Proof. exact b_header_starts. Qed.
Print Assumptions C109_header_starts.
Definition C109_in : tile_in :=
  mkTileIn false 1 1 [0; 16] [0; 16] 16 16 true true 3 120 false
    (mkLrEnv false 3 [0; 0; 0] [64; 32; 32] true true 64 64 false 8 false) [[[]]].
Definition C109_rest : rest unit :=
  mkRest (mkLrState [[5; 6]; [7; 8]; [9; 10]] (repeat [[1; 2; 3]; [4; 5; 6]] 3) [] [] [] []) 3 [1; 2; 3; 4] true
    (repeat (repeat 0 16) 16) tt.
Example C109_case :
  tile_bounds 0 (i_cols C109_in) (i_rows C109_in) (i_cs C109_in) (i_rs C109_in) = Ok (0, 16, 0, 16) /\
  BuildEncModel.encode_whole_tile Release unit (fun st _ out => Ok (st, out)) false C109_in 0 (first_tile_state unit C109_rest) [1] = Hang /\
  BuildEncModel.encode_whole_tile Release unit (fun st _ out => Ok (st, out)) false C109_in 0
    (mkT (init_encoder new_coder) default_part false false C109_rest) [] = Panic /\
  BuildEncModel.encode_tile_group Release unit (fun st d _ _ _ o => Ok (st, d, o)) [] false 1 1 0 0 0 4 [0; 16] [0; 16] tt [] = Panic.
Proof. repeat split; vm_compute; reflexivity. Qed.

(** C110. Where a frame's edge cuts a block, a debug build panics (C100). A release
    build does too for blocks of 32 and 64, and for the others codes the flag with the
    sum of probabilities taken modulo 32 as a shift. *)
Theorem C110_split_or_horz : forall t c out b w above left s, parts valid_cdf t -> square b w ->
  exists row, nth_error (flat t) (used_index w above left) = Some row /\
    BuildEncModel.code_split_or_horz Release c t out b above left s = release_split_outcome w row [2; 2; 2; 2; 2]%nat c out s.
Proof. exact r_split_or_horz. Qed.
Print Assumptions C110_split_or_horz.
Theorem C110_split_or_vert : forall t c out b w above left s, parts valid_cdf t -> square b w ->
  exists row, nth_error (flat t) (used_index w above left) = Some row /\
    BuildEncModel.code_split_or_vert Release c t out b above left s = release_split_outcome w row [2; 3; 4; 6; 7]%nat c out s.
Proof. exact r_split_or_vert. Qed.
Print Assumptions C110_split_or_vert.
(** So a release build does not code these flags either: a split of a block of 16 or 128
    with no neighbours, coded from the default tables, is read by a decoder with the
    standard's probability as no split; blocks of 32 and 64 panic. *)
Theorem C110_refuted : forall b w, square b w -> 16 <= w ->
  forall horz : bool,
  let write := if horz then BuildEncModel.code_split_or_horz Release else BuildEncModel.code_split_or_vert Release in
  let std := if horz then std_split_or_horz else std_split_or_vert in
  if (w =? 32) || (w =? 64) then flag_alone write default_part b false false 1 = Panic
  else exists bits row d' u' r',
    flag_alone write default_part b false false 1 = Ok bits /\
    nth_error (flat default_part) (std_index w false false) = Some row /\
    decode_session new_coder [[32768 - std w row; 32768; 0]] (bits ++ repeat 0 64) 8 [SSym 0] = Ok ([OSym 0 0], d', u', r').
Proof.
  intros b w Q W horz. unfold square in Q. cbn [In] in Q.
  destruct Q as [Q|[Q|[Q|[Q|[Q|[]]]]]]; injection Q as <- <-; [lia|..]; destruct horz; cbn [Z.eqb Pos.eqb orb];
    lazymatch goal with
    | |- exists _, _ => do 5 eexists; (split; [vm_compute; reflexivity|split; [vm_compute; reflexivity|vm_compute; reflexivity]])
    | |- _ => vm_compute; reflexivity
    end.
Qed.
Print Assumptions C110_refuted.
Example C110_hypotheses : parts valid_cdf default_part /\ square 6 16.
Proof. split; [exact (floored_valid_parts 20 _ default_parts)|unfold square; cbn; tauto]. Qed.
