(** Generated by tools/gen_tables.py from /repo/src/constants.rs: the tables the
    encoder reads. Enumeration values are their numbers, booleans 0 and 1. *)
From Coq Require Import ZArith List.
Import ListNotations.
Open Scope Z_scope.

(** constants.rs 487-621. *)
Definition coeff_base_ctx_offset : list (list (list Z)) := [[[0; 1; 6; 6; 0]; [1; 6; 6; 21; 0]; [6; 6; 21;
  21; 0]; [6; 21; 21; 21; 0]; [0; 0; 0; 0; 0]]; [[0; 1; 6; 6; 21]; [1; 6; 6; 21; 21]; [6; 6; 21; 21; 21]; [6;
  21; 21; 21; 21]; [21; 21; 21; 21; 21]]; [[0; 1; 6; 6; 21]; [1; 6; 6; 21; 21]; [6; 6; 21; 21; 21]; [6; 21;
  21; 21; 21]; [21; 21; 21; 21; 21]]; [[0; 1; 6; 6; 21]; [1; 6; 6; 21; 21]; [6; 6; 21; 21; 21]; [6; 21; 21;
  21; 21]; [21; 21; 21; 21; 21]]; [[0; 1; 6; 6; 21]; [1; 6; 6; 21; 21]; [6; 6; 21; 21; 21]; [6; 21; 21; 21;
  21]; [21; 21; 21; 21; 21]]; [[0; 11; 11; 11; 0]; [11; 11; 11; 11; 0]; [6; 6; 21; 21; 0]; [6; 21; 21; 21;
  0]; [21; 21; 21; 21; 0]]; [[0; 16; 6; 6; 21]; [16; 16; 6; 21; 21]; [16; 16; 21; 21; 21]; [16; 16; 21; 21;
  21]; [0; 0; 0; 0; 0]]; [[0; 11; 11; 11; 11]; [11; 11; 11; 11; 11]; [6; 6; 21; 21; 21]; [6; 21; 21; 21; 21];
  [21; 21; 21; 21; 21]]; [[0; 16; 6; 6; 21]; [16; 16; 6; 21; 21]; [16; 16; 21; 21; 21]; [16; 16; 21; 21; 21];
  [16; 16; 21; 21; 21]]; [[0; 11; 11; 11; 11]; [11; 11; 11; 11; 11]; [6; 6; 21; 21; 21]; [6; 21; 21; 21; 21];
  [21; 21; 21; 21; 21]]; [[0; 16; 6; 6; 21]; [16; 16; 6; 21; 21]; [16; 16; 21; 21; 21]; [16; 16; 21; 21; 21];
  [16; 16; 21; 21; 21]]; [[0; 11; 11; 11; 11]; [11; 11; 11; 11; 11]; [6; 6; 21; 21; 21]; [6; 21; 21; 21; 21];
  [21; 21; 21; 21; 21]]; [[0; 16; 6; 6; 21]; [16; 16; 6; 21; 21]; [16; 16; 21; 21; 21]; [16; 16; 21; 21; 21];
  [16; 16; 21; 21; 21]]; [[0; 11; 11; 11; 0]; [11; 11; 11; 11; 0]; [6; 6; 21; 21; 0]; [6; 21; 21; 21; 0];
  [21; 21; 21; 21; 0]]; [[0; 16; 6; 6; 21]; [16; 16; 6; 21; 21]; [16; 16; 21; 21; 21]; [16; 16; 21; 21; 21];
  [0; 0; 0; 0; 0]]; [[0; 11; 11; 11; 11]; [11; 11; 11; 11; 11]; [6; 6; 21; 21; 21]; [6; 21; 21; 21; 21]; [21;
  21; 21; 21; 21]]; [[0; 16; 6; 6; 21]; [16; 16; 6; 21; 21]; [16; 16; 21; 21; 21]; [16; 16; 21; 21; 21]; [16;
  16; 21; 21; 21]]; [[0; 11; 11; 11; 11]; [11; 11; 11; 11; 11]; [6; 6; 21; 21; 21]; [6; 21; 21; 21; 21]; [21;
  21; 21; 21; 21]]; [[0; 16; 6; 6; 21]; [16; 16; 6; 21; 21]; [16; 16; 21; 21; 21]; [16; 16; 21; 21; 21]; [16;
  16; 21; 21; 21]]].

(** constants.rs 623-627. *)
Definition coeff_base_pos_ctx_offset : list Z := [26; 31; 36].

(** constants.rs 1002-1007. *)
Definition sgr_params : list (list Z) := [[2; 12; 1; 4]; [2; 15; 1; 6]; [2; 18; 1; 8]; [2; 21; 1; 9]; [2; 24;
  1; 10]; [2; 29; 1; 11]; [2; 36; 1; 12]; [2; 45; 1; 13]; [2; 56; 1; 14]; [2; 68; 1; 15]; [0; 0; 1; 5]; [0;
  0; 1; 8]; [0; 0; 1; 11]; [0; 0; 1; 14]; [2; 30; 0; 0]; [2; 75; 0; 0]].

(** constants.rs 1009-1011. *)
Definition sgrproj_xqd_min : list Z := [(-96); (-32)].

(** constants.rs 1013-1015. *)
Definition sgrproj_xqd_max : list Z := [31; 95].

(** constants.rs 1018-1020. *)
Definition segmentation_feature_bits : list Z := [8; 6; 6; 6; 6; 3; 0; 0].

(** constants.rs 1022-1024. *)
Definition segmentation_feature_signed : list Z := [1; 1; 1; 1; 1; 0; 0; 0].

(** constants.rs 1026-1028. *)
Definition segmentation_feature_max : list Z := [255; 63; 63; 63; 63; 7; 0; 0].

(** constants.rs 1030-1035. *)
Definition remap_lr_type : list Z := [0; 3; 1; 2].

(** constants.rs 1037-1037. *)
Definition wiener_taps_mid : list Z := [3; (-7); 15].

(** constants.rs 1038-1038. *)
Definition sgrproj_xqd_mid : list Z := [(-32); 31].

(** constants.rs 1040-1047. *)
Definition max_tx_depth : list Z := [0; 1; 1; 1; 2; 2; 2; 3; 3; 3; 4; 4; 4; 4; 4; 4; 2; 2; 3; 3; 4; 4].

(** constants.rs 1055-1078. *)
Definition subsampled_size : list (list (list Z)) := [[[0; 0]; [0; 0]]; [[1; 0]; [22; 0]]; [[2; 22]; [0; 0]];
  [[3; 2]; [1; 0]]; [[4; 3]; [22; 1]]; [[5; 22]; [3; 2]]; [[6; 5]; [4; 3]]; [[7; 6]; [22; 4]]; [[8; 22]; [6;
  5]]; [[9; 8]; [7; 6]]; [[10; 9]; [22; 7]]; [[11; 22]; [9; 8]]; [[12; 11]; [10; 9]]; [[13; 12]; [22; 10]];
  [[14; 22]; [12; 11]]; [[15; 14]; [13; 12]]; [[16; 1]; [22; 1]]; [[17; 22]; [2; 2]]; [[18; 4]; [22; 16]];
  [[19; 22]; [5; 17]]; [[20; 7]; [22; 18]]; [[21; 22]; [8; 19]]].

(** constants.rs 1080-1090. *)
Definition tx_type_in_set_intra : list (list Z) := [[1; 0; 0; 0; 0; 0; 0; 0; 0; 0; 0; 0; 0; 0; 0; 0]; [1; 1;
  1; 1; 0; 0; 0; 0; 0; 1; 1; 1; 0; 0; 0; 0]; [1; 1; 1; 1; 0; 0; 0; 0; 0; 1; 0; 0; 0; 0; 0; 0]].

(** constants.rs 1092-1105. *)
Definition tx_type_in_set_inter : list (list Z) := [[1; 0; 0; 0; 0; 0; 0; 0; 0; 0; 0; 0; 0; 0; 0; 0]; [1; 1;
  1; 1; 1; 1; 1; 1; 1; 1; 1; 1; 1; 1; 1; 1]; [1; 1; 1; 1; 1; 1; 1; 1; 1; 1; 1; 1; 0; 0; 0; 0]; [1; 0; 0; 0;
  0; 0; 0; 0; 0; 1; 0; 0; 0; 0; 0; 0]].

(** constants.rs 1107-1109. *)
Definition tx_type_intra_inv_set1 : list Z := [9; 0; 10; 11; 3; 1; 2].

(** constants.rs 1111-1113. *)
Definition tx_type_intra_inv_set2 : list Z := [9; 0; 3; 1; 2].

(** constants.rs 1115-1119. *)
Definition tx_type_inter_inv_set1 : list Z := [9; 10; 11; 12; 13; 14; 15; 0; 1; 2; 4; 5; 3; 6; 7; 8].

(** constants.rs 1121-1125. *)
Definition tx_type_inter_inv_set12 : list Z := [9; 10; 11; 0; 1; 2; 4; 5; 3; 6; 7; 8].

(** constants.rs 1127-1129. *)
Definition tx_type_inter_inv_set3 : list Z := [9; 0].

(** constants.rs 1131-1131. *)
Definition wiener_taps_min : list Z := [(-5); (-23); (-17)].

(** constants.rs 1132-1132. *)
Definition wiener_taps_max : list Z := [10; 8; 46].

(** constants.rs 1133-1133. *)
Definition wiener_taps_k : list Z := [1; 2; 3].

(** constants.rs 1138-1140. *)
Definition intra_mode_context : list Z := [0; 1; 2; 3; 4; 4; 4; 4; 3; 0; 1; 2; 0].

(** constants.rs 1142-1145. *)
Definition size_group : list Z := [0; 0; 0; 1; 1; 1; 2; 2; 2; 3; 3; 3; 3; 3; 3; 3; 0; 0; 1; 1; 2; 2].

(** constants.rs 1147-1149. *)
Definition block_width : list Z := [4; 4; 8; 8; 8; 16; 16; 16; 32; 32; 32; 64; 64; 64; 128; 128; 4; 16; 8;
  32; 16; 64].

(** constants.rs 1151-1153. *)
Definition block_height : list Z := [4; 8; 4; 8; 16; 8; 16; 32; 16; 32; 64; 32; 64; 128; 64; 128; 16; 4; 32;
  8; 64; 16].

(** constants.rs 1155-1157. *)
Definition mi_width_log2 : list Z := [2; 2; 3; 3; 3; 4; 4; 4; 5; 5; 5; 6; 6; 6; 7; 7; 2; 4; 3; 5; 4; 6].

(** constants.rs 1159-1161. *)
Definition mi_height_log2 : list Z := [2; 3; 2; 3; 4; 3; 4; 5; 4; 5; 6; 5; 6; 7; 6; 7; 4; 2; 5; 3; 6; 4].

(** constants.rs 1163-1166. *)
Definition num_4x4_blocks_wide : list Z := [1; 1; 2; 2; 2; 3; 3; 3; 8; 8; 8; 16; 16; 16; 32; 32; 1; 4; 2; 8;
  4; 16].

(** constants.rs 1168-1171. *)
Definition num_4x4_blocks_high : list Z := [1; 2; 1; 2; 4; 2; 4; 8; 4; 8; 16; 8; 16; 32; 16; 32; 4; 1; 8; 2;
  16; 4].

(** constants.rs 1173-1175. *)
Definition tx_width : list Z := [4; 8; 16; 32; 64; 4; 8; 8; 16; 16; 32; 32; 64; 4; 16; 8; 32; 16; 64].

(** constants.rs 1177-1179. *)
Definition tx_width_log2 : list Z := [2; 3; 4; 5; 6; 2; 3; 3; 4; 4; 5; 5; 6; 2; 4; 3; 5; 4; 6].

(** constants.rs 1181-1183. *)
Definition tx_height : list Z := [4; 8; 16; 32; 64; 8; 4; 16; 8; 32; 16; 64; 32; 16; 4; 32; 8; 64; 16].

(** constants.rs 1185-1187. *)
Definition tx_height_log2 : list Z := [2; 3; 4; 5; 6; 3; 2; 4; 3; 5; 4; 6; 5; 4; 2; 5; 3; 6; 4].

(** constants.rs 1213-1234. *)
Definition tx_size_sqr : list Z := [0; 1; 2; 3; 4; 0; 0; 1; 1; 2; 2; 3; 3; 0; 0; 1; 1; 2; 2; 19].

(** constants.rs 1236-1257. *)
Definition tx_size_sqr_up : list Z := [0; 1; 2; 3; 4; 1; 1; 2; 2; 3; 3; 4; 4; 2; 2; 3; 3; 4; 4; 19].

(** constants.rs 1287-1305. *)
Definition mode_to_txfm : list Z := [0; 1; 2; 0; 3; 1; 2; 2; 1; 3; 1; 2; 3; 0; 0; 0; 0].

(** constants.rs 1307-1327. *)
Definition adjusted_tx_size : list Z := [0; 1; 2; 3; 3; 5; 6; 7; 8; 9; 10; 3; 3; 13; 14; 15; 16; 9; 10].

(** constants.rs 1329-1339. *)
Definition sig_ref_diff_offset : list (list (list Z)) := [[[0; 1]; [1; 0]; [1; 1]; [0; 2]; [2; 0]]; [[0; 1];
  [1; 0]; [0; 2]; [0; 3]; [0; 4]]; [[0; 1]; [1; 0]; [2; 0]; [3; 0]; [4; 0]]].

(** constants.rs 1341-1345. *)
Definition mag_ref_offset_with_tx_class : list (list (list Z)) := [[[0; 1]; [1; 0]; [1; 1]]; [[0; 1]; [1; 0];
  [0; 2]]; [[0; 1]; [1; 0]; [2; 0]]].

(** constants.rs 1347-1349. *)
Definition palette_color_context : list Z := [(-1); (-1); 0; (-1); (-1); 4; 3; 2; 1].

(** constants.rs 1352-1354. *)
Definition filter_intra_mode_to_intra_dir : list Z := [0; 1; 2; 6; 0].

(** constants.rs 1356-1448. *)
Definition partition_subsize : list (list Z) := [[0; 22; 22; 3; 22; 22; 6; 22; 22; 9; 22; 22; 12; 22; 22; 15;
  22; 22; 22; 22; 22; 22]; [22; 22; 22; 2; 22; 22; 5; 22; 22; 8; 22; 22; 11; 22; 22; 14; 22; 22; 22; 22; 22;
  22]; [22; 22; 22; 1; 22; 22; 4; 22; 22; 7; 22; 22; 10; 22; 22; 13; 22; 22; 22; 22; 22; 22]; [22; 22; 22; 0;
  22; 22; 3; 22; 22; 6; 22; 22; 9; 22; 22; 12; 22; 22; 22; 22; 22; 22]; [22; 22; 22; 2; 22; 22; 5; 22; 22; 8;
  22; 22; 11; 22; 22; 14; 22; 22; 22; 22; 22; 22]; [22; 22; 22; 2; 22; 22; 5; 22; 22; 8; 22; 22; 11; 22; 22;
  14; 22; 22; 22; 22; 22; 22]; [22; 22; 22; 1; 22; 22; 4; 22; 22; 7; 22; 22; 10; 22; 22; 13; 22; 22; 22; 22;
  22; 22]; [22; 22; 22; 1; 22; 22; 4; 22; 22; 7; 22; 22; 10; 22; 22; 13; 22; 22; 22; 22; 22; 22]; [22; 22;
  22; 22; 22; 22; 17; 22; 22; 19; 22; 22; 21; 22; 22; 22; 22; 22; 22; 22; 22; 22]; [22; 22; 22; 22; 22; 22;
  16; 22; 22; 18; 22; 22; 20; 22; 22; 22; 22; 22; 22; 22; 22; 22]].
