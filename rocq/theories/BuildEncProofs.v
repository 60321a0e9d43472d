(** Proofs about BuildEncModel: the debug reading is the model, and whatever the
    debug build returns, the release build returns too. Written by
    tools/gen_build_enc.py. *)
From Coq Require Import String ZArith List Bool.
From Verif Require Import Base UtilModel RangeCoderModel BitCodecModel SessionModel BlockTables CdfTables CdfTableSpec.
From Verif Require Import FieldModel WriterModel SeqModel ObuModel ElementModel GeomModel TileModel ContextModel MvStackModel
  ModeInfoModel FrameParamModel FrameModel LrModel WholeTileModel StreamModel OptionModel MainModel.
From Verif Require Import BuildProofs.
From Verif Require BuildModel BuildEncModel.
Import ListNotations.
Open Scope Z_scope.

Ltac le_if :=
  match goal with |- le ?l _ => match l with context [if ?b then _ else _] => destruct b end end.
(** Functions that take another as argument, see below. *)
Ltac le_hof := fail.
Ltac le_go' := le_go; repeat (first [le_hof | le_if]; le_go).
Ltac le_fix f := cbn [f]; le_go'.
Ltac le_def f ::= unfold f; le_go'.

Lemma le_write_field : forall out f, 
  le (@BuildEncModel.write_field Debug out f)
     (@BuildEncModel.write_field Release out f).
Proof. intros; le_def BuildEncModel.write_field. Qed.
#[global] Hint Resolve le_write_field : le.
Lemma le_write_fields : forall out l, 
  le (@BuildEncModel.write_fields Debug out l)
     (@BuildEncModel.write_fields Release out l).
Proof. intros out l; revert out; induction l; intros; le_fix BuildEncModel.write_fields. Qed.
#[global] Hint Resolve le_write_fields : le.
Lemma le_read_field : forall nb q s, 
  le (@BuildEncModel.read_field Debug nb q s)
     (@BuildEncModel.read_field Release nb q s).
Proof. intros; le_def BuildEncModel.read_field. Qed.
#[global] Hint Resolve le_read_field : le.
Lemma le_read_fields : forall nb q l, 
  le (@BuildEncModel.read_fields Debug nb q l)
     (@BuildEncModel.read_fields Release nb q l).
Proof. intros nb q l; revert nb q; induction l; intros; le_fix BuildEncModel.read_fields. Qed.
#[global] Hint Resolve le_read_fields : le.
Lemma le_write_bit : forall w bit, 
  le (@BuildEncModel.write_bit Debug w bit)
     (@BuildEncModel.write_bit Release w bit).
Proof. intros; le_def BuildEncModel.write_bit. Qed.
#[global] Hint Resolve le_write_bit : le.
Lemma le_write_bits : forall w bits, 
  le (@BuildEncModel.write_bits Debug w bits)
     (@BuildEncModel.write_bits Release w bits).
Proof. intros w bits; revert w; induction bits; intros; le_fix BuildEncModel.write_bits. Qed.
#[global] Hint Resolve le_write_bits : le.
Lemma le_byte_align : forall w, 
  le (@BuildEncModel.byte_align Debug w)
     (@BuildEncModel.byte_align Release w).
Proof. intros; le_def BuildEncModel.byte_align. Qed.
#[global] Hint Resolve le_byte_align : le.
Lemma le_write_call : forall w c, 
  le (@BuildEncModel.write_call Debug w c)
     (@BuildEncModel.write_call Release w c).
Proof. intros; le_def BuildEncModel.write_call. Qed.
#[global] Hint Resolve le_write_call : le.
Lemma le_write_calls : forall w l, 
  le (@BuildEncModel.write_calls Debug w l)
     (@BuildEncModel.write_calls Release w l).
Proof. intros w l; revert w; induction l; intros; le_fix BuildEncModel.write_calls. Qed.
#[global] Hint Resolve le_write_calls : le.
Lemma le_enc_ops : forall out l, 
  le (@BuildEncModel.enc_ops Debug out l)
     (@BuildEncModel.enc_ops Release out l).
Proof. intros out l; revert out; induction l; intros; le_fix BuildEncModel.enc_ops. Qed.
#[global] Hint Resolve le_enc_ops : le.
Lemma le_enc_size : forall out h, 
  le (@BuildEncModel.enc_size Debug out h)
     (@BuildEncModel.enc_size Release out h).
Proof. intros; le_def BuildEncModel.enc_size. Qed.
#[global] Hint Resolve le_enc_size : le.
Lemma le_enc_frame_id : forall out e h, 
  le (@BuildEncModel.enc_frame_id Debug out e h)
     (@BuildEncModel.enc_frame_id Release out e h).
Proof. intros; le_def BuildEncModel.enc_frame_id. Qed.
#[global] Hint Resolve le_enc_frame_id : le.
Lemma le_enc_tools : forall out e h, 
  le (@BuildEncModel.enc_tools Debug out e h)
     (@BuildEncModel.enc_tools Release out e h).
Proof. intros; le_def BuildEncModel.enc_tools. Qed.
#[global] Hint Resolve le_enc_tools : le.
Lemma le_enc_color : forall out e profile, 
  le (@BuildEncModel.enc_color Debug out e profile)
     (@BuildEncModel.enc_color Release out e profile).
Proof. intros; le_def BuildEncModel.enc_color. Qed.
#[global] Hint Resolve le_enc_color : le.
Lemma le_enc_timing : forall out e h, 
  le (@BuildEncModel.enc_timing Debug out e h)
     (@BuildEncModel.enc_timing Release out e h).
Proof. intros; le_def BuildEncModel.enc_timing. Qed.
#[global] Hint Resolve le_enc_timing : le.
Lemma le_enc_opm : forall out dm l, 
  le (@BuildEncModel.enc_opm Debug out dm l)
     (@BuildEncModel.enc_opm Release out dm l).
Proof. intros out dm l; revert out dm; induction l; intros; le_fix BuildEncModel.enc_opm. Qed.
#[global] Hint Resolve le_enc_opm : le.
Lemma le_enc_seq : forall out e h, 
  le (@BuildEncModel.enc_seq Debug out e h)
     (@BuildEncModel.enc_seq Release out e h).
Proof. intros; le_def BuildEncModel.enc_seq. Qed.
#[global] Hint Resolve le_enc_seq : le.
Lemma le_encode_obu_header : forall o out, 
  le (@BuildEncModel.encode_obu_header Debug o out)
     (@BuildEncModel.encode_obu_header Release o out).
Proof. intros; le_def BuildEncModel.encode_obu_header. Qed.
#[global] Hint Resolve le_encode_obu_header : le.
Lemma le_push_all : forall out l n, 
  le (@BuildEncModel.push_all Debug out l n)
     (@BuildEncModel.push_all Release out l n).
Proof. intros out l n; revert out n; induction l; intros; le_fix BuildEncModel.push_all. Qed.
#[global] Hint Resolve le_push_all : le.
Lemma le_push_dims : forall out l, 
  le (@BuildEncModel.push_dims Debug out l)
     (@BuildEncModel.push_dims Release out l).
Proof. intros out l; revert out; induction l; intros; le_fix BuildEncModel.push_dims. Qed.
#[global] Hint Resolve le_push_dims : le.
Lemma le_push_groups : forall out l, 
  le (@BuildEncModel.push_groups Debug out l)
     (@BuildEncModel.push_groups Release out l).
Proof. intros out l; revert out; induction l; intros; le_fix BuildEncModel.push_groups. Qed.
#[global] Hint Resolve le_push_groups : le.
Lemma le_encode_metadata : forall m out, 
  le (@BuildEncModel.encode_metadata Debug m out)
     (@BuildEncModel.encode_metadata Release m out).
Proof. intros; le_def BuildEncModel.encode_metadata. Qed.
#[global] Hint Resolve le_encode_metadata : le.
Lemma le_encode_payload : forall e o, 
  le (@BuildEncModel.encode_payload Debug e o)
     (@BuildEncModel.encode_payload Release e o).
Proof. intros; le_def BuildEncModel.encode_payload. Qed.
#[global] Hint Resolve le_encode_payload : le.
Lemma le_encode_obu : forall w e o out, 
  le (@BuildEncModel.encode_obu Debug w e o out)
     (@BuildEncModel.encode_obu Release w e o out).
Proof. intros; le_def BuildEncModel.encode_obu. Qed.
#[global] Hint Resolve le_encode_obu : le.
Lemma le_encode_temporal_unit : forall w e o, 
  le (@BuildEncModel.encode_temporal_unit Debug w e o)
     (@BuildEncModel.encode_temporal_unit Release w e o).
Proof. intros; le_def BuildEncModel.encode_temporal_unit. Qed.
#[global] Hint Resolve le_encode_temporal_unit : le.
Lemma le_encode_units : forall w e l, 
  le (@BuildEncModel.encode_units Debug w e l)
     (@BuildEncModel.encode_units Release w e l).
Proof. intros w e l; revert w e; induction l; intros; le_fix BuildEncModel.encode_units. Qed.
#[global] Hint Resolve le_encode_units : le.
Lemma le_get_relative_dist : forall a b enable_order_hint order_hint_bits, 
  le (@BuildEncModel.get_relative_dist Debug a b enable_order_hint order_hint_bits)
     (@BuildEncModel.get_relative_dist Release a b enable_order_hint order_hint_bits).
Proof. intros; le_def BuildEncModel.get_relative_dist. Qed.
#[global] Hint Resolve le_get_relative_dist : le.
Lemma le_lower_mv_precision : forall force_integer_mv v, 
  le (@BuildEncModel.lower_mv_precision Debug force_integer_mv v)
     (@BuildEncModel.lower_mv_precision Release force_integer_mv v).
Proof. intros; le_def BuildEncModel.lower_mv_precision. Qed.
#[global] Hint Resolve le_lower_mv_precision : le.
Lemma le_neg_interleave : forall v rf max, 
  le (@BuildEncModel.neg_interleave Debug v rf max)
     (@BuildEncModel.neg_interleave Release v rf max).
Proof. intros; le_def BuildEncModel.neg_interleave. Qed.
#[global] Hint Resolve le_neg_interleave : le.
Lemma le_delta_q_ops : forall ctx q_index cur delta_q_res, 
  le (@BuildEncModel.delta_q_ops Debug ctx q_index cur delta_q_res)
     (@BuildEncModel.delta_q_ops Release ctx q_index cur delta_q_res).
Proof. intros; le_def BuildEncModel.delta_q_ops. Qed.
#[global] Hint Resolve le_delta_q_ops : le.
Lemma le_delta_lf_ops : forall ctx lf cur delta_lf_res, 
  le (@BuildEncModel.delta_lf_ops Debug ctx lf cur delta_lf_res)
     (@BuildEncModel.delta_lf_ops Release ctx lf cur delta_lf_res).
Proof. intros; le_def BuildEncModel.delta_lf_ops. Qed.
#[global] Hint Resolve le_delta_lf_ops : le.
Lemma le_inverse_recenter : forall r v, 
  le (@BuildEncModel.inverse_recenter Debug r v)
     (@BuildEncModel.inverse_recenter Release r v).
Proof. intros; le_def BuildEncModel.inverse_recenter. Qed.
#[global] Hint Resolve le_inverse_recenter : le.
Lemma le_encode_subexp_loop : forall fuel out tv num_syms i mk, 
  le (@BuildEncModel.encode_subexp_loop Debug fuel out tv num_syms i mk)
     (@BuildEncModel.encode_subexp_loop Release fuel out tv num_syms i mk).
Proof. intros fuel out tv num_syms i mk; revert out tv num_syms i mk; induction fuel; intros; le_fix BuildEncModel.encode_subexp_loop. Qed.
#[global] Hint Resolve le_encode_subexp_loop : le.
Lemma le_encode_subexp : forall out v num_syms, 
  le (@BuildEncModel.encode_subexp Debug out v num_syms)
     (@BuildEncModel.encode_subexp Release out v num_syms).
Proof. intros; le_def BuildEncModel.encode_subexp. Qed.
#[global] Hint Resolve le_encode_subexp : le.
Lemma le_encode_unsigned_subexp_with_ref : forall out v mx r, 
  le (@BuildEncModel.encode_unsigned_subexp_with_ref Debug out v mx r)
     (@BuildEncModel.encode_unsigned_subexp_with_ref Release out v mx r).
Proof. intros; le_def BuildEncModel.encode_unsigned_subexp_with_ref. Qed.
#[global] Hint Resolve le_encode_unsigned_subexp_with_ref : le.
Lemma le_encode_signed_subexp_with_ref : forall out v low high r, 
  le (@BuildEncModel.encode_signed_subexp_with_ref Debug out v low high r)
     (@BuildEncModel.encode_signed_subexp_with_ref Release out v low high r).
Proof. intros; le_def BuildEncModel.encode_signed_subexp_with_ref. Qed.
#[global] Hint Resolve le_encode_signed_subexp_with_ref : le.
Lemma le_encode_global_param : forall out translation hp idx gm prev, 
  le (@BuildEncModel.encode_global_param Debug out translation hp idx gm prev)
     (@BuildEncModel.encode_global_param Release out translation hp idx gm prev).
Proof. intros; le_def BuildEncModel.encode_global_param. Qed.
#[global] Hint Resolve le_encode_global_param : le.
Lemma le_code_partition : forall c t out bsize above left p, 
  le (@BuildEncModel.code_partition Debug c t out bsize above left p)
     (@BuildEncModel.code_partition Release c t out bsize above left p).
Proof. intros; le_def BuildEncModel.code_partition. Qed.
#[global] Hint Resolve le_code_partition : le.
Lemma le_psum_term : forall cdf acc x, 
  le (@BuildEncModel.psum_term Debug cdf acc x)
     (@BuildEncModel.psum_term Release cdf acc x).
Proof. intros; le_def BuildEncModel.psum_term. Qed.
#[global] Hint Resolve le_psum_term : le.
Lemma le_psum_terms : forall cdf acc xs, 
  le (@BuildEncModel.psum_terms Debug cdf acc xs)
     (@BuildEncModel.psum_terms Release cdf acc xs).
Proof. intros cdf acc xs; revert cdf acc; induction xs; intros; le_fix BuildEncModel.psum_terms. Qed.
#[global] Hint Resolve le_psum_terms : le.
Lemma le_split_cdf : forall cdf bsize terms, 
  le (@BuildEncModel.split_cdf Debug cdf bsize terms)
     (@BuildEncModel.split_cdf Release cdf bsize terms).
Proof. intros; le_def BuildEncModel.split_cdf. Qed.
#[global] Hint Resolve le_split_cdf : le.
Lemma le_code_split_or_horz : forall c t out bsize above left s, 
  le (@BuildEncModel.code_split_or_horz Debug c t out bsize above left s)
     (@BuildEncModel.code_split_or_horz Release c t out bsize above left s).
Proof. intros; le_def BuildEncModel.code_split_or_horz. Qed.
#[global] Hint Resolve le_code_split_or_horz : le.
Lemma le_code_split_or_vert : forall c t out bsize above left s, 
  le (@BuildEncModel.code_split_or_vert Debug c t out bsize above left s)
     (@BuildEncModel.code_split_or_vert Release c t out bsize above left s).
Proof. intros; le_def BuildEncModel.code_split_or_vert. Qed.
#[global] Hint Resolve le_code_split_or_vert : le.
Section Search.
Variable S : Type.
Variables mode_info mode_info' : tstate S -> block_env -> list Z -> res (tstate S * list Z).
Hypothesis Hmode_info : forall x0 x1 x2, le (mode_info x0 x1 x2) (mode_info' x0 x1 x2).
Variable e : tile_env.
Lemma le_encode_block : forall st r c bsize out, 
  le (@BuildEncModel.encode_block S mode_info e st r c bsize out)
     (@BuildEncModel.encode_block S mode_info' e st r c bsize out).
Proof. intros; le_def BuildEncModel.encode_block. Qed.
#[local] Hint Resolve le_encode_block : le.
Lemma le_signal_partition : forall st bsize has_rows has_cols p, 
  le (@BuildEncModel.signal_partition Debug S st bsize has_rows has_cols p)
     (@BuildEncModel.signal_partition Release S st bsize has_rows has_cols p).
Proof. intros; le_def BuildEncModel.signal_partition. Qed.
#[local] Hint Resolve le_signal_partition : le.
Lemma le_run_calls : forall f st out calls f', (forall x0 x1 x2 x3 x4, le (f x0 x1 x2 x3 x4) (f' x0 x1 x2 x3 x4)) -> 
  le (@BuildEncModel.run_calls S f st out calls)
     (@BuildEncModel.run_calls S f' st out calls).
Proof. intros f st out calls f'; revert f st out f'; induction calls; intros; le_fix BuildEncModel.run_calls. Qed.
#[local] Hint Resolve le_run_calls : le.
Lemma le_leaf_call : forall st r c b out, 
  le (@BuildEncModel.leaf_call S mode_info e st r c b out)
     (@BuildEncModel.leaf_call S mode_info' e st r c b out).
Proof. intros; le_def BuildEncModel.leaf_call. Qed.
#[local] Hint Resolve le_leaf_call : le.
Lemma le_try_all : forall rec st r c bsize has_rows has_cols best ps rec', (forall x0 x1 x2 x3 x4, le (rec x0 x1 x2 x3 x4) (rec' x0 x1 x2 x3 x4)) -> 
  le (@BuildEncModel.try_all Debug S mode_info e rec st r c bsize has_rows has_cols best ps)
     (@BuildEncModel.try_all Release S mode_info' e rec' st r c bsize has_rows has_cols best ps).
Proof. intros rec st r c bsize has_rows has_cols best ps rec'; revert rec st r c bsize has_rows has_cols best rec'; induction ps; intros; le_fix BuildEncModel.try_all. Qed.
#[local] Hint Resolve le_try_all : le.
Lemma le_encode_partition : forall fuel st r c bsize out, 
  le (@BuildEncModel.encode_partition Debug S mode_info e fuel st r c bsize out)
     (@BuildEncModel.encode_partition Release S mode_info' e fuel st r c bsize out).
Proof. intros fuel st r c bsize out; revert st r c bsize out; induction fuel; intros; le_fix BuildEncModel.encode_partition. Qed.
#[local] Hint Resolve le_encode_partition : le.
Lemma le_encode_superblock : forall fuel st sb_size x y out, 
  le (@BuildEncModel.encode_superblock Debug S mode_info e fuel st sb_size x y out)
     (@BuildEncModel.encode_superblock Release S mode_info' e fuel st sb_size x y out).
Proof. intros; le_def BuildEncModel.encode_superblock. Qed.
#[local] Hint Resolve le_encode_superblock : le.
End Search.
#[global] Hint Resolve le_encode_block : le.
#[global] Hint Resolve le_signal_partition : le.
#[global] Hint Resolve le_run_calls : le.
#[global] Hint Resolve le_leaf_call : le.
#[global] Hint Resolve le_try_all : le.
#[global] Hint Resolve le_encode_partition : le.
#[global] Hint Resolve le_encode_superblock : le.
Lemma le_tiles_log2 : forall n, 
  le (@BuildEncModel.tiles_log2 Debug n)
     (@BuildEncModel.tiles_log2 Release n).
Proof. intros; le_def BuildEncModel.tiles_log2. Qed.
#[global] Hint Resolve le_tiles_log2 : le.
Lemma le_encode_tile_info : forall out mi_cols mi_rows use128 uniform tile_cols tile_rows update_id size_bytes cs rs, 
  le (@BuildEncModel.encode_tile_info Debug out mi_cols mi_rows use128 uniform tile_cols tile_rows update_id size_bytes cs rs)
     (@BuildEncModel.encode_tile_info Release out mi_cols mi_rows use128 uniform tile_cols tile_rows update_id size_bytes cs rs).
Proof. intros; le_def BuildEncModel.encode_tile_info. Qed.
#[global] Hint Resolve le_encode_tile_info : le.
Section Tile.
Variable T : Type.
Variables superblock superblock' : T -> list (list Z) -> Z -> Z -> Z -> list Z -> res (T * list (list Z) * list Z).
Hypothesis Hsuperblock : forall x0 x1 x2 x3 x4 x5, le (superblock x0 x1 x2 x3 x4 x5) (superblock' x0 x1 x2 x3 x4 x5).
Lemma le_sb_row : forall fuel use128 sb_size sb4 r c col_end st cdef out, 
  le (@BuildEncModel.sb_row T superblock fuel use128 sb_size sb4 r c col_end st cdef out)
     (@BuildEncModel.sb_row T superblock' fuel use128 sb_size sb4 r c col_end st cdef out).
Proof. intros fuel use128 sb_size sb4 r c col_end st cdef out; revert use128 sb_size sb4 r c col_end st cdef out; induction fuel; intros; le_fix BuildEncModel.sb_row. Qed.
#[local] Hint Resolve le_sb_row : le.
Lemma le_sb_rows : forall fuel use128 sb_size sb4 r row_end col_start col_end st cdef out, 
  le (@BuildEncModel.sb_rows T superblock fuel use128 sb_size sb4 r row_end col_start col_end st cdef out)
     (@BuildEncModel.sb_rows T superblock' fuel use128 sb_size sb4 r row_end col_start col_end st cdef out).
Proof. intros fuel use128 sb_size sb4 r row_end col_start col_end st cdef out; revert use128 sb_size sb4 r row_end col_start col_end st cdef out; induction fuel; intros; le_fix BuildEncModel.sb_rows. Qed.
#[local] Hint Resolve le_sb_rows : le.
Lemma le_encode_tile : forall borrowed use128 tile_num tile_cols tile_rows cs rs st cdef out, 
  le (@BuildEncModel.encode_tile T superblock borrowed use128 tile_num tile_cols tile_rows cs rs st cdef out)
     (@BuildEncModel.encode_tile T superblock' borrowed use128 tile_num tile_cols tile_rows cs rs st cdef out).
Proof. intros; le_def BuildEncModel.encode_tile. Qed.
#[local] Hint Resolve le_encode_tile : le.
Lemma le_tile_loop : forall k n tg_end use128 tile_cols tile_rows size_bytes cs rs st cdef out, 
  le (@BuildEncModel.tile_loop Debug T superblock k n tg_end use128 tile_cols tile_rows size_bytes cs rs st cdef out)
     (@BuildEncModel.tile_loop Release T superblock' k n tg_end use128 tile_cols tile_rows size_bytes cs rs st cdef out).
Proof. intros k n tg_end use128 tile_cols tile_rows size_bytes cs rs st cdef out; revert n tg_end use128 tile_cols tile_rows size_bytes cs rs st cdef out; induction k; intros; le_fix BuildEncModel.tile_loop. Qed.
#[local] Hint Resolve le_tile_loop : le.
Lemma le_encode_tile_group : forall out use128 tile_cols tile_rows groups tg_start tg_end size_bytes cs rs st cdef, 
  le (@BuildEncModel.encode_tile_group Debug T superblock out use128 tile_cols tile_rows groups tg_start tg_end size_bytes cs rs st cdef)
     (@BuildEncModel.encode_tile_group Release T superblock' out use128 tile_cols tile_rows groups tg_start tg_end size_bytes cs rs st cdef).
Proof. intros; le_def BuildEncModel.encode_tile_group. Qed.
#[local] Hint Resolve le_encode_tile_group : le.
End Tile.
#[global] Hint Resolve le_sb_row : le.
#[global] Hint Resolve le_sb_rows : le.
#[global] Hint Resolve le_encode_tile : le.
#[global] Hint Resolve le_tile_loop : le.
#[global] Hint Resolve le_encode_tile_group : le.
Lemma le_run_writer : forall c s out w w', le w w' -> 
  le (@BuildEncModel.run_writer Debug c s out w)
     (@BuildEncModel.run_writer Release c s out w').
Proof. intros; le_def BuildEncModel.run_writer. Qed.
#[global] Hint Resolve le_run_writer : le.
Lemma le_abs_i64 : forall v, 
  le (@BuildEncModel.abs_i64 Debug v)
     (@BuildEncModel.abs_i64 Release v).
Proof. intros; le_def BuildEncModel.abs_i64. Qed.
#[global] Hint Resolve le_abs_i64 : le.
Lemma le_sum_mag l : forall r c bwl width height quant v v' acc,
  (forall q, le (v q) (v' q)) ->
  le (sum_mag l r c bwl width height quant v acc) (sum_mag l r c bwl width height quant v' acc).
Proof. induction l; intros; cbn [sum_mag]; le_go. Qed.
Ltac le_hof ::= apply le_sum_mag; intros.
Lemma le_base_ctx : forall tx_size tx_type pos c is_eob quant, 
  le (@BuildEncModel.base_ctx Debug tx_size tx_type pos c is_eob quant)
     (@BuildEncModel.base_ctx Release tx_size tx_type pos c is_eob quant).
Proof. intros; le_def BuildEncModel.base_ctx. Qed.
#[global] Hint Resolve le_base_ctx : le.
Lemma le_get_coeff_base_ctx : forall tx_size plane block_x block_y pos c is_eob f lossless is_inter reduced uv_mode r col quant, 
  le (@BuildEncModel.get_coeff_base_ctx Debug tx_size plane block_x block_y pos c is_eob f lossless is_inter reduced uv_mode r col quant)
     (@BuildEncModel.get_coeff_base_ctx Release tx_size plane block_x block_y pos c is_eob f lossless is_inter reduced uv_mode r col quant).
Proof. intros; le_def BuildEncModel.get_coeff_base_ctx. Qed.
#[global] Hint Resolve le_get_coeff_base_ctx : le.
Lemma le_encode_angle_delta : forall s mode, 
  le (@BuildEncModel.encode_angle_delta Debug s mode)
     (@BuildEncModel.encode_angle_delta Release s mode).
Proof. intros; le_def BuildEncModel.encode_angle_delta. Qed.
#[global] Hint Resolve le_encode_angle_delta : le.
Lemma le_encode_txfm_split : forall s row col r c f tx_size mi_size, 
  le (@BuildEncModel.encode_txfm_split Debug s row col r c f tx_size mi_size)
     (@BuildEncModel.encode_txfm_split Release s row col r c f tx_size mi_size).
Proof. intros; le_def BuildEncModel.encode_txfm_split. Qed.
#[global] Hint Resolve le_encode_txfm_split : le.
Lemma le_encode_coeff_base : forall s tx_size tx_size_ctx ptype plane x4 y4 pos ci f lossless is_inter reduced uv_mode r c quant, 
  le (@BuildEncModel.encode_coeff_base Debug s tx_size tx_size_ctx ptype plane x4 y4 pos ci f lossless is_inter reduced uv_mode r c quant)
     (@BuildEncModel.encode_coeff_base Release s tx_size tx_size_ctx ptype plane x4 y4 pos ci f lossless is_inter reduced uv_mode r c quant).
Proof. intros; le_def BuildEncModel.encode_coeff_base. Qed.
#[global] Hint Resolve le_encode_coeff_base : le.
Lemma le_encode_coeff_base_eob : forall s tx_size tx_size_ctx ptype plane x4 y4 pos ci f lossless is_inter reduced uv_mode r c quant, 
  le (@BuildEncModel.encode_coeff_base_eob Debug s tx_size tx_size_ctx ptype plane x4 y4 pos ci f lossless is_inter reduced uv_mode r c quant)
     (@BuildEncModel.encode_coeff_base_eob Release s tx_size tx_size_ctx ptype plane x4 y4 pos ci f lossless is_inter reduced uv_mode r c quant).
Proof. intros; le_def BuildEncModel.encode_coeff_base_eob. Qed.
#[global] Hint Resolve le_encode_coeff_base_eob : le.
Lemma le_encode_compound_idx : forall s order_hints order_hint ref0 ref1 f r c enable_order_hint order_hint_bits, 
  le (@BuildEncModel.encode_compound_idx Debug s order_hints order_hint ref0 ref1 f r c enable_order_hint order_hint_bits)
     (@BuildEncModel.encode_compound_idx Release s order_hints order_hint ref0 ref1 f r c enable_order_hint order_hint_bits).
Proof. intros; le_def BuildEncModel.encode_compound_idx. Qed.
#[global] Hint Resolve le_encode_compound_idx : le.
Lemma le_encode_cfl_alpha_v : forall s signs, 
  le (@BuildEncModel.encode_cfl_alpha_v Debug s signs)
     (@BuildEncModel.encode_cfl_alpha_v Release s signs).
Proof. intros; le_def BuildEncModel.encode_cfl_alpha_v. Qed.
#[global] Hint Resolve le_encode_cfl_alpha_v : le.
Lemma le_Round2 : forall x n, 
  le (@BuildEncModel.Round2 Debug x n)
     (@BuildEncModel.Round2 Release x n).
Proof. intros; le_def BuildEncModel.Round2. Qed.
#[global] Hint Resolve le_Round2 : le.
Lemma le_Round2Signed : forall x n, 
  le (@BuildEncModel.Round2Signed Debug x n)
     (@BuildEncModel.Round2Signed Release x n).
Proof. intros; le_def BuildEncModel.Round2Signed. Qed.
#[global] Hint Resolve le_Round2Signed : le.
Lemma le_lower_mv : forall e m, 
  le (@BuildEncModel.lower_mv Debug e m)
     (@BuildEncModel.lower_mv Release e m).
Proof. intros; le_def BuildEncModel.lower_mv. Qed.
#[global] Hint Resolve le_lower_mv : le.
Lemma le_global_mv : forall e rf, 
  le (@BuildEncModel.global_mv Debug e rf)
     (@BuildEncModel.global_mv Release e rf).
Proof. intros; le_def BuildEncModel.global_mv. Qed.
#[global] Hint Resolve le_global_mv : le.
Lemma le_setup_global_mvs : forall e is_compound s, 
  le (@BuildEncModel.setup_global_mvs Debug e is_compound s)
     (@BuildEncModel.setup_global_mvs Release e is_compound s).
Proof. intros; le_def BuildEncModel.setup_global_mvs. Qed.
#[global] Hint Resolve le_setup_global_mvs : le.
Lemma le_stack_add : forall is_compound m weight s, 
  le (@BuildEncModel.stack_add Debug is_compound m weight s)
     (@BuildEncModel.stack_add Release is_compound m weight s).
Proof. intros; le_def BuildEncModel.stack_add. Qed.
#[global] Hint Resolve le_stack_add : le.
Lemma le_count_new : forall mode s, 
  le (@BuildEncModel.count_new Debug mode s)
     (@BuildEncModel.count_new Release mode s).
Proof. intros; le_def BuildEncModel.count_new. Qed.
#[global] Hint Resolve le_count_new : le.
Lemma le_search_stack : forall e b m weight s, 
  le (@BuildEncModel.search_stack Debug e b m weight s)
     (@BuildEncModel.search_stack Release e b m weight s).
Proof. intros; le_def BuildEncModel.search_stack. Qed.
#[global] Hint Resolve le_search_stack : le.
Lemma le_compound_search_stack : forall e b weight s, 
  le (@BuildEncModel.compound_search_stack Debug e b weight s)
     (@BuildEncModel.compound_search_stack Release e b weight s).
Proof. intros; le_def BuildEncModel.compound_search_stack. Qed.
#[global] Hint Resolve le_compound_search_stack : le.
Lemma le_add_ref_mv_candidate : forall e is_compound weight b s, 
  le (@BuildEncModel.add_ref_mv_candidate Debug e is_compound weight b s)
     (@BuildEncModel.add_ref_mv_candidate Release e is_compound weight b s).
Proof. intros; le_def BuildEncModel.add_ref_mv_candidate. Qed.
#[global] Hint Resolve le_add_ref_mv_candidate : le.
Lemma le_scan_row_loop : forall fuel e is_compound bw4 end4 i s, 
  le (@BuildEncModel.scan_row_loop Debug fuel e is_compound bw4 end4 i s)
     (@BuildEncModel.scan_row_loop Release fuel e is_compound bw4 end4 i s).
Proof. intros fuel e is_compound bw4 end4 i s; revert e is_compound bw4 end4 i s; induction fuel; intros; le_fix BuildEncModel.scan_row_loop. Qed.
#[global] Hint Resolve le_scan_row_loop : le.
Lemma le_scan_row : forall e is_compound s, 
  le (@BuildEncModel.scan_row Debug e is_compound s)
     (@BuildEncModel.scan_row Release e is_compound s).
Proof. intros; le_def BuildEncModel.scan_row. Qed.
#[global] Hint Resolve le_scan_row : le.
Lemma le_scan_col_loop : forall fuel e is_compound bh4 end4 i s, 
  le (@BuildEncModel.scan_col_loop Debug fuel e is_compound bh4 end4 i s)
     (@BuildEncModel.scan_col_loop Release fuel e is_compound bh4 end4 i s).
Proof. intros fuel e is_compound bh4 end4 i s; revert e is_compound bh4 end4 i s; induction fuel; intros; le_fix BuildEncModel.scan_col_loop. Qed.
#[global] Hint Resolve le_scan_col_loop : le.
Lemma le_scan_col : forall e is_compound s, 
  le (@BuildEncModel.scan_col Debug e is_compound s)
     (@BuildEncModel.scan_col Release e is_compound s).
Proof. intros; le_def BuildEncModel.scan_col. Qed.
#[global] Hint Resolve le_scan_col : le.
Lemma le_scan_point : forall e is_compound bw4 s, 
  le (@BuildEncModel.scan_point Debug e is_compound bw4 s)
     (@BuildEncModel.scan_point Release e is_compound bw4 s).
Proof. intros; le_def BuildEncModel.scan_point. Qed.
#[global] Hint Resolve le_scan_point : le.
Lemma le_add_level : forall n i ws, 
  le (@BuildEncModel.add_level Debug n i ws)
     (@BuildEncModel.add_level Release n i ws).
Proof. intros n i ws; revert i ws; induction n; intros; le_fix BuildEncModel.add_level. Qed.
#[global] Hint Resolve le_add_level : le.
Lemma le_far : forall m g, 
  le (@BuildEncModel.far Debug m g)
     (@BuildEncModel.far Release m g).
Proof. intros; le_def BuildEncModel.far. Qed.
#[global] Hint Resolve le_far : le.
Lemma le_temporal_sample : forall e is_compound dr dc s, 
  le (@BuildEncModel.temporal_sample Debug e is_compound dr dc s)
     (@BuildEncModel.temporal_sample Release e is_compound dr dc s).
Proof. intros; le_def BuildEncModel.temporal_sample. Qed.
#[global] Hint Resolve le_temporal_sample : le.
Lemma le_temporal_cols : forall fuel e is_compound dr step lim dc s, 
  le (@BuildEncModel.temporal_cols Debug fuel e is_compound dr step lim dc s)
     (@BuildEncModel.temporal_cols Release fuel e is_compound dr step lim dc s).
Proof. intros fuel e is_compound dr step lim dc s; revert e is_compound dr step lim dc s; induction fuel; intros; le_fix BuildEncModel.temporal_cols. Qed.
#[global] Hint Resolve le_temporal_cols : le.
Lemma le_temporal_rows : forall fuel e is_compound stepr limr stepc limc dr s, 
  le (@BuildEncModel.temporal_rows Debug fuel e is_compound stepr limr stepc limc dr s)
     (@BuildEncModel.temporal_rows Release fuel e is_compound stepr limr stepc limc dr s).
Proof. intros fuel e is_compound stepr limr stepc limc dr s; revert e is_compound stepr limr stepc limc dr s; induction fuel; intros; le_fix BuildEncModel.temporal_rows. Qed.
#[global] Hint Resolve le_temporal_rows : le.
Lemma le_find_mv_stack : forall e is_compound s, 
  le (@BuildEncModel.find_mv_stack Debug e is_compound s)
     (@BuildEncModel.find_mv_stack Release e is_compound s).
Proof. intros; le_def BuildEncModel.find_mv_stack. Qed.
#[global] Hint Resolve le_find_mv_stack : le.
Lemma le_inter_mode : forall is_compound compound_mode new_mv zero_mv ref_mv ref_ctx new_ctx zero_ctx y_mode es, 
  le (@BuildEncModel.inter_mode Debug is_compound compound_mode new_mv zero_mv ref_mv ref_ctx new_ctx zero_ctx y_mode es)
     (@BuildEncModel.inter_mode Release is_compound compound_mode new_mv zero_mv ref_mv ref_ctx new_ctx zero_ctx y_mode es).
Proof. intros; le_def BuildEncModel.inter_mode. Qed.
#[global] Hint Resolve le_inter_mode : le.
Lemma le_intrabc_pred : forall x, 
  le (@BuildEncModel.intrabc_pred Debug x)
     (@BuildEncModel.intrabc_pred Release x).
Proof. intros; le_def BuildEncModel.intrabc_pred. Qed.
#[global] Hint Resolve le_intrabc_pred : le.
Lemma le_pred_mvs : forall x i mode pred, 
  le (@BuildEncModel.pred_mvs Debug x i mode pred)
     (@BuildEncModel.pred_mvs Release x i mode pred).
Proof. intros; le_def BuildEncModel.pred_mvs. Qed.
#[global] Hint Resolve le_pred_mvs : le.
Lemma le_assign_mv_loop : forall is x mvs pred mode es, 
  le (@BuildEncModel.assign_mv_loop Debug is x mvs pred mode es)
     (@BuildEncModel.assign_mv_loop Release is x mvs pred mode es).
Proof. intros is x mvs pred mode es; revert x mvs pred mode es; induction is; intros; le_fix BuildEncModel.assign_mv_loop. Qed.
#[global] Hint Resolve le_assign_mv_loop : le.
Lemma le_assign_mv : forall is_compound x mvs pred mode es, 
  le (@BuildEncModel.assign_mv Debug is_compound x mvs pred mode es)
     (@BuildEncModel.assign_mv Release is_compound x mvs pred mode es).
Proof. intros; le_def BuildEncModel.assign_mv. Qed.
#[global] Hint Resolve le_assign_mv : le.
Lemma le_code_segment_id : forall avail_u avail_l ids r c skip last_active_seg_id segment_id es, 
  le (@BuildEncModel.code_segment_id Debug avail_u avail_l ids r c skip last_active_seg_id segment_id es)
     (@BuildEncModel.code_segment_id Release avail_u avail_l ids r c skip last_active_seg_id segment_id es).
Proof. intros; le_def BuildEncModel.code_segment_id. Qed.
#[global] Hint Resolve le_code_segment_id : le.
Lemma le_intra_segment_id : forall x b t es, 
  le (@BuildEncModel.intra_segment_id Debug x b t es)
     (@BuildEncModel.intra_segment_id Release x b t es).
Proof. intros; le_def BuildEncModel.intra_segment_id. Qed.
#[global] Hint Resolve le_intra_segment_id : le.
Lemma le_code_delta_lf : forall n i x lf cur es, 
  le (@BuildEncModel.code_delta_lf Debug n i x lf cur es)
     (@BuildEncModel.code_delta_lf Release n i x lf cur es).
Proof. intros n i x lf cur es; revert i x lf cur es; induction n; intros; le_fix BuildEncModel.code_delta_lf. Qed.
#[global] Hint Resolve le_code_delta_lf : le.
Lemma le_code_deltas : forall x b t es, 
  le (@BuildEncModel.code_deltas Debug x b t es)
     (@BuildEncModel.code_deltas Release x b t es).
Proof. intros; le_def BuildEncModel.code_deltas. Qed.
#[global] Hint Resolve le_code_deltas : le.
Lemma le_code_inter : forall x b t es, 
  le (@BuildEncModel.code_inter Debug x b t es)
     (@BuildEncModel.code_inter Release x b t es).
Proof. intros; le_def BuildEncModel.code_inter. Qed.
#[global] Hint Resolve le_code_inter : le.
Lemma le_encode_mode_info : forall x b t es, 
  le (@BuildEncModel.encode_mode_info Debug x b t es)
     (@BuildEncModel.encode_mode_info Release x b t es).
Proof. intros; le_def BuildEncModel.encode_mode_info. Qed.
#[global] Hint Resolve le_encode_mode_info : le.
Lemma le_enc_delta_q : forall out d, 
  le (@BuildEncModel.enc_delta_q Debug out d)
     (@BuildEncModel.enc_delta_q Release out d).
Proof. intros; le_def BuildEncModel.enc_delta_q. Qed.
#[global] Hint Resolve le_enc_delta_q : le.
Lemma le_enc_quant : forall out planes sep q d, 
  le (@BuildEncModel.enc_quant Debug out planes sep q d)
     (@BuildEncModel.enc_quant Release out planes sep q d).
Proof. intros; le_def BuildEncModel.enc_quant. Qed.
#[global] Hint Resolve le_enc_quant : le.
Lemma le_enc_feature : forall out j v, 
  le (@BuildEncModel.enc_feature Debug out j v)
     (@BuildEncModel.enc_feature Release out j v).
Proof. intros; le_def BuildEncModel.enc_feature. Qed.
#[global] Hint Resolve le_enc_feature : le.
Lemma le_enc_features : forall out js row, 
  le (@BuildEncModel.enc_features Debug out js row)
     (@BuildEncModel.enc_features Release out js row).
Proof. intros out js row; revert out row; induction js; intros; le_fix BuildEncModel.enc_features. Qed.
#[global] Hint Resolve le_enc_features : le.
Lemma le_enc_segments : forall out is m, 
  le (@BuildEncModel.enc_segments Debug out is m)
     (@BuildEncModel.enc_segments Release out is m).
Proof. intros out is m; revert out m; induction is; intros; le_fix BuildEncModel.enc_segments. Qed.
#[global] Hint Resolve le_enc_segments : le.
Lemma le_enc_seg : forall out primary s, 
  le (@BuildEncModel.enc_seg Debug out primary s)
     (@BuildEncModel.enc_seg Release out primary s).
Proof. intros; le_def BuildEncModel.enc_seg. Qed.
#[global] Hint Resolve le_enc_seg : le.
Lemma le_enc_delta : forall out base intrabc p, 
  le (@BuildEncModel.enc_delta Debug out base intrabc p)
     (@BuildEncModel.enc_delta Release out base intrabc p).
Proof. intros; le_def BuildEncModel.enc_delta. Qed.
#[global] Hint Resolve le_enc_delta : le.
Lemma le_get_qindex : forall ignore seg cur present base s, 
  le (@BuildEncModel.get_qindex Debug ignore seg cur present base s)
     (@BuildEncModel.get_qindex Release ignore seg cur present base s).
Proof. intros; le_def BuildEncModel.get_qindex. Qed.
#[global] Hint Resolve le_get_qindex : le.
Lemma le_enc_lossless : forall segs cur present q d s coded arr lv, 
  le (@BuildEncModel.enc_lossless Debug segs cur present q d s coded arr lv)
     (@BuildEncModel.enc_lossless Release segs cur present q d s coded arr lv).
Proof. intros segs cur present q d s coded arr lv; revert cur present q d s coded arr lv; induction segs; intros; le_fix BuildEncModel.enc_lossless. Qed.
#[global] Hint Resolve le_enc_lossless : le.
Lemma le_enc_lf_deltas : forall out is flag guard delta, 
  le (@BuildEncModel.enc_lf_deltas Debug out is flag guard delta)
     (@BuildEncModel.enc_lf_deltas Release out is flag guard delta).
Proof. intros out is flag guard delta; revert out flag guard delta; induction is; intros; le_fix BuildEncModel.enc_lf_deltas. Qed.
#[global] Hint Resolve le_enc_lf_deltas : le.
Lemma le_enc_lf : forall out planes off p, 
  le (@BuildEncModel.enc_lf Debug out planes off p)
     (@BuildEncModel.enc_lf Release out planes off p).
Proof. intros; le_def BuildEncModel.enc_lf. Qed.
#[global] Hint Resolve le_enc_lf : le.
Lemma le_enc_strength : forall out i pri sec, 
  le (@BuildEncModel.enc_strength Debug out i pri sec)
     (@BuildEncModel.enc_strength Release out i pri sec).
Proof. intros; le_def BuildEncModel.enc_strength. Qed.
#[global] Hint Resolve le_enc_strength : le.
Lemma le_enc_strengths : forall out is planes p, 
  le (@BuildEncModel.enc_strengths Debug out is planes p)
     (@BuildEncModel.enc_strengths Release out is planes p).
Proof. intros out is planes p; revert out planes p; induction is; intros; le_fix BuildEncModel.enc_strengths. Qed.
#[global] Hint Resolve le_enc_strengths : le.
Lemma le_enc_cdef : forall out planes off p, 
  le (@BuildEncModel.enc_cdef Debug out planes off p)
     (@BuildEncModel.enc_cdef Release out planes off p).
Proof. intros; le_def BuildEncModel.enc_cdef. Qed.
#[global] Hint Resolve le_enc_cdef : le.
Lemma le_enc_lr_types : forall out is typ types uses chroma, 
  le (@BuildEncModel.enc_lr_types Debug out is typ types uses chroma)
     (@BuildEncModel.enc_lr_types Release out is typ types uses chroma).
Proof. intros out is typ types uses chroma; revert out typ types uses chroma; induction is; intros; le_fix BuildEncModel.enc_lr_types. Qed.
#[global] Hint Resolve le_enc_lr_types : le.
Lemma le_enc_lr : forall out planes off sb128 ss p c, 
  le (@BuildEncModel.enc_lr Debug out planes off sb128 ss p c)
     (@BuildEncModel.enc_lr Release out planes off sb128 ss p c).
Proof. intros; le_def BuildEncModel.enc_lr. Qed.
#[global] Hint Resolve le_enc_lr : le.
Lemma le_rel_dist : forall a b enable bits, 
  le (@BuildEncModel.rel_dist Debug a b enable bits)
     (@BuildEncModel.rel_dist Release a b enable bits).
Proof. intros; le_def BuildEncModel.rel_dist. Qed.
#[global] Hint Resolve le_rel_dist : le.
Lemma le_skip_scan : forall is hints ref_idx cur enable bits st, 
  le (@BuildEncModel.skip_scan Debug is hints ref_idx cur enable bits st)
     (@BuildEncModel.skip_scan Release is hints ref_idx cur enable bits st).
Proof. intros is hints ref_idx cur enable bits st; revert hints ref_idx cur enable bits st; induction is; intros; le_fix BuildEncModel.skip_scan. Qed.
#[global] Hint Resolve le_skip_scan : le.
Lemma le_skip_scan2 : forall is hints ref_idx fh enable bits st, 
  le (@BuildEncModel.skip_scan2 Debug is hints ref_idx fh enable bits st)
     (@BuildEncModel.skip_scan2 Release is hints ref_idx fh enable bits st).
Proof. intros is hints ref_idx fh enable bits st; revert hints ref_idx fh enable bits st; induction is; intros; le_fix BuildEncModel.skip_scan2. Qed.
#[global] Hint Resolve le_skip_scan2 : le.
Lemma le_skip_mode : forall intra select enable bits hints ref_idx cur, 
  le (@BuildEncModel.skip_mode Debug intra select enable bits hints ref_idx cur)
     (@BuildEncModel.skip_mode Release intra select enable bits hints ref_idx cur).
Proof. intros; le_def BuildEncModel.skip_mode. Qed.
#[global] Hint Resolve le_skip_mode : le.
Lemma le_enc_gm_one : forall out hp typ par prev, 
  le (@BuildEncModel.enc_gm_one Debug out hp typ par prev)
     (@BuildEncModel.enc_gm_one Release out hp typ par prev).
Proof. intros; le_def BuildEncModel.enc_gm_one. Qed.
#[global] Hint Resolve le_enc_gm_one : le.
Lemma le_enc_gm_loop : forall out rfs hp p types par prev, 
  le (@BuildEncModel.enc_gm_loop Debug out rfs hp p types par prev)
     (@BuildEncModel.enc_gm_loop Release out rfs hp p types par prev).
Proof. intros out rfs hp p types par prev; revert out hp p types par prev; induction rfs; intros; le_fix BuildEncModel.enc_gm_loop. Qed.
#[global] Hint Resolve le_enc_gm_loop : le.
Lemma le_enc_gm : forall out intra hp p types par prev, 
  le (@BuildEncModel.enc_gm Debug out intra hp p types par prev)
     (@BuildEncModel.enc_gm Release out intra hp p types par prev).
Proof. intros; le_def BuildEncModel.enc_gm. Qed.
#[global] Hint Resolve le_enc_gm : le.
Lemma le_enc_points : forall out is vs ss, 
  le (@BuildEncModel.enc_points Debug out is vs ss)
     (@BuildEncModel.enc_points Release out is vs ss).
Proof. intros out is vs ss; revert out vs ss; induction is; intros; le_fix BuildEncModel.enc_points. Qed.
#[global] Hint Resolve le_enc_points : le.
Lemma le_enc_coeffs : forall out is cs, 
  le (@BuildEncModel.enc_coeffs Debug out is cs)
     (@BuildEncModel.enc_coeffs Release out is cs).
Proof. intros out is cs; revert out cs; induction is; intros; le_fix BuildEncModel.enc_coeffs. Qed.
#[global] Hint Resolve le_enc_coeffs : le.
Lemma le_enc_mult : forall out n m l o, 
  le (@BuildEncModel.enc_mult Debug out n m l o)
     (@BuildEncModel.enc_mult Release out n m l o).
Proof. intros; le_def BuildEncModel.enc_mult. Qed.
#[global] Hint Resolve le_enc_mult : le.
Lemma le_enc_grain_params : forall out mono ss g, 
  le (@BuildEncModel.enc_grain_params Debug out mono ss g)
     (@BuildEncModel.enc_grain_params Release out mono ss g).
Proof. intros; le_def BuildEncModel.enc_grain_params. Qed.
#[global] Hint Resolve le_enc_grain_params : le.
Lemma le_enc_grain : forall out fg refs show showable inter mono ss, 
  le (@BuildEncModel.enc_grain Debug out fg refs show showable inter mono ss)
     (@BuildEncModel.enc_grain Release out fg refs show showable inter mono ss).
Proof. intros; le_def BuildEncModel.enc_grain. Qed.
#[global] Hint Resolve le_enc_grain : le.
Lemma le_enc_point : forall out c f, 
  le (@BuildEncModel.enc_point Debug out c f)
     (@BuildEncModel.enc_point Release out c f).
Proof. intros; le_def BuildEncModel.enc_point. Qed.
#[global] Hint Resolve le_enc_point : le.
Lemma le_id_length : forall c, 
  le (@BuildEncModel.id_length Debug c)
     (@BuildEncModel.id_length Release c).
Proof. intros; le_def BuildEncModel.id_length. Qed.
#[global] Hint Resolve le_id_length : le.
Lemma le_enc_existing : forall out id_len c f, 
  le (@BuildEncModel.enc_existing Debug out id_len c f)
     (@BuildEncModel.enc_existing Release out id_len c f).
Proof. intros; le_def BuildEncModel.enc_existing. Qed.
#[global] Hint Resolve le_enc_existing : le.
Lemma le_enc_top : forall out c f, 
  le (@BuildEncModel.enc_top Debug out c f)
     (@BuildEncModel.enc_top Release out c f).
Proof. intros; le_def BuildEncModel.enc_top. Qed.
#[global] Hint Resolve le_enc_top : le.
Lemma le_mark_refs : forall is cur id_len diff ids valid, 
  le (@BuildEncModel.mark_refs Debug is cur id_len diff ids valid)
     (@BuildEncModel.mark_refs Release is cur id_len diff ids valid).
Proof. intros is cur id_len diff ids valid; revert cur id_len diff ids valid; induction is; intros; le_fix BuildEncModel.mark_refs. Qed.
#[global] Hint Resolve le_mark_refs : le.
Lemma le_enc_ids : forall out id_len c valid, 
  le (@BuildEncModel.enc_ids Debug out id_len c valid)
     (@BuildEncModel.enc_ids Release out id_len c valid).
Proof. intros; le_def BuildEncModel.enc_ids. Qed.
#[global] Hint Resolve le_enc_ids : le.
Lemma le_enc_primary : forall out f t, 
  le (@BuildEncModel.enc_primary Debug out f t)
     (@BuildEncModel.enc_primary Release out f t).
Proof. intros; le_def BuildEncModel.enc_primary. Qed.
#[global] Hint Resolve le_enc_primary : le.
Lemma le_enc_removal_loop : forall out l tid sid d, 
  le (@BuildEncModel.enc_removal_loop Debug out l tid sid d)
     (@BuildEncModel.enc_removal_loop Release out l tid sid d).
Proof. intros out l tid sid d; revert out tid sid d; induction l; intros; le_fix BuildEncModel.enc_removal_loop. Qed.
#[global] Hint Resolve le_enc_removal_loop : le.
Lemma le_enc_removal : forall out c f, 
  le (@BuildEncModel.enc_removal Debug out c f)
     (@BuildEncModel.enc_removal Release out c f).
Proof. intros; le_def BuildEncModel.enc_removal. Qed.
#[global] Hint Resolve le_enc_removal : le.
Lemma le_enc_refresh : forall out c t, 
  le (@BuildEncModel.enc_refresh Debug out c t)
     (@BuildEncModel.enc_refresh Release out c t).
Proof. intros; le_def BuildEncModel.enc_refresh. Qed.
#[global] Hint Resolve le_enc_refresh : le.
Lemma le_enc_frame_size : forall out override d, 
  le (@BuildEncModel.enc_frame_size Debug out override d)
     (@BuildEncModel.enc_frame_size Release out override d).
Proof. intros; le_def BuildEncModel.enc_frame_size. Qed.
#[global] Hint Resolve le_enc_frame_size : le.
Lemma le_enc_superres : forall out enable d, 
  le (@BuildEncModel.enc_superres Debug out enable d)
     (@BuildEncModel.enc_superres Release out enable d).
Proof. intros; le_def BuildEncModel.enc_superres. Qed.
#[global] Hint Resolve le_enc_superres : le.
Lemma le_enc_render : forall out d, 
  le (@BuildEncModel.enc_render Debug out d)
     (@BuildEncModel.enc_render Release out d).
Proof. intros; le_def BuildEncModel.enc_render. Qed.
#[global] Hint Resolve le_enc_render : le.
Lemma le_enc_sizes : forall out override enable d, 
  le (@BuildEncModel.enc_sizes Debug out override enable d)
     (@BuildEncModel.enc_sizes Release out override enable d).
Proof. intros; le_def BuildEncModel.enc_sizes. Qed.
#[global] Hint Resolve le_enc_sizes : le.
Lemma le_enc_refs : forall out is short id_len cur c f expected, 
  le (@BuildEncModel.enc_refs Debug out is short id_len cur c f expected)
     (@BuildEncModel.enc_refs Release out is short id_len cur c f expected).
Proof. intros out is short id_len cur c f expected; revert out short id_len cur c f expected; induction is; intros; le_fix BuildEncModel.enc_refs. Qed.
#[global] Hint Resolve le_enc_refs : le.
Lemma le_enc_mid : forall out id_len cur sct imv override c f t, 
  le (@BuildEncModel.enc_mid Debug out id_len cur sct imv override c f t)
     (@BuildEncModel.enc_mid Release out id_len cur sct imv override c f t).
Proof. intros; le_def BuildEncModel.enc_mid. Qed.
#[global] Hint Resolve le_enc_mid : le.
Lemma le_set_order_hints : forall is c f hint hints bias, 
  le (@BuildEncModel.set_order_hints Debug is c f hint hints bias)
     (@BuildEncModel.set_order_hints Release is c f hint hints bias).
Proof. intros is c f hint hints bias; revert c f hint hints bias; induction is; intros; le_fix BuildEncModel.set_order_hints. Qed.
#[global] Hint Resolve le_set_order_hints : le.
Lemma le_encode_frame_header : forall out c f, 
  le (@BuildEncModel.encode_frame_header Debug out c f)
     (@BuildEncModel.encode_frame_header Release out c f).
Proof. intros; le_def BuildEncModel.encode_frame_header. Qed.
#[global] Hint Resolve le_encode_frame_header : le.
Lemma le_subexp_bool_loop : forall fuel es v num_syms k i mk, 
  le (@BuildEncModel.subexp_bool_loop Debug fuel es v num_syms k i mk)
     (@BuildEncModel.subexp_bool_loop Release fuel es v num_syms k i mk).
Proof. intros fuel es v num_syms k i mk; revert es v num_syms k i mk; induction fuel; intros; le_fix BuildEncModel.subexp_bool_loop. Qed.
#[global] Hint Resolve le_subexp_bool_loop : le.
Lemma le_encode_subexp_bool : forall es v num_syms k, 
  le (@BuildEncModel.encode_subexp_bool Debug es v num_syms k)
     (@BuildEncModel.encode_subexp_bool Release es v num_syms k).
Proof. intros; le_def BuildEncModel.encode_subexp_bool. Qed.
#[global] Hint Resolve le_encode_subexp_bool : le.
Lemma le_encode_unsigned_subexp_bool : forall es v mx k r, 
  le (@BuildEncModel.encode_unsigned_subexp_bool Debug es v mx k r)
     (@BuildEncModel.encode_unsigned_subexp_bool Release es v mx k r).
Proof. intros; le_def BuildEncModel.encode_unsigned_subexp_bool. Qed.
#[global] Hint Resolve le_encode_unsigned_subexp_bool : le.
Lemma le_encode_signed_subexp_bool : forall es v low high k r, 
  le (@BuildEncModel.encode_signed_subexp_bool Debug es v low high k r)
     (@BuildEncModel.encode_signed_subexp_bool Release es v low high k r).
Proof. intros; le_def BuildEncModel.encode_signed_subexp_bool. Qed.
#[global] Hint Resolve le_encode_signed_subexp_bool : le.
Lemma le_wiener_taps : forall js plane row col pass u s es, 
  le (@BuildEncModel.wiener_taps Debug js plane row col pass u s es)
     (@BuildEncModel.wiener_taps Release js plane row col pass u s es).
Proof. intros js plane row col pass u s es; revert plane row col pass u s es; induction js; intros; le_fix BuildEncModel.wiener_taps. Qed.
#[global] Hint Resolve le_wiener_taps : le.
Lemma le_wiener_passes : forall ps plane row col u s es, 
  le (@BuildEncModel.wiener_passes Debug ps plane row col u s es)
     (@BuildEncModel.wiener_passes Release ps plane row col u s es).
Proof. intros ps plane row col u s es; revert plane row col u s es; induction ps; intros; le_fix BuildEncModel.wiener_passes. Qed.
#[global] Hint Resolve le_wiener_passes : le.
Lemma le_sgr_weights : forall is plane row col u s es, 
  le (@BuildEncModel.sgr_weights Debug is plane row col u s es)
     (@BuildEncModel.sgr_weights Release is plane row col u s es).
Proof. intros is plane row col u s es; revert plane row col u s es; induction is; intros; le_fix BuildEncModel.sgr_weights. Qed.
#[global] Hint Resolve le_sgr_weights : le.
Lemma le_sgr_unit : forall plane row col u s es, 
  le (@BuildEncModel.sgr_unit Debug plane row col u s es)
     (@BuildEncModel.sgr_unit Release plane row col u s es).
Proof. intros; le_def BuildEncModel.sgr_unit. Qed.
#[global] Hint Resolve le_sgr_unit : le.
Lemma le_lr_unit : forall typ plane row col u s es, 
  le (@BuildEncModel.lr_unit Debug typ plane row col u s es)
     (@BuildEncModel.lr_unit Release typ plane row col u s es).
Proof. intros; le_def BuildEncModel.lr_unit. Qed.
#[global] Hint Resolve le_lr_unit : le.
Lemma le_div_up : forall a unit_size, 
  le (@BuildEncModel.div_up Debug a unit_size)
     (@BuildEncModel.div_up Release a unit_size).
Proof. intros; le_def BuildEncModel.div_up. Qed.
#[global] Hint Resolve le_div_up : le.
Lemma le_count_units : forall unit_size tile_size, 
  le (@BuildEncModel.count_units Debug unit_size tile_size)
     (@BuildEncModel.count_units Release unit_size tile_size).
Proof. intros; le_def BuildEncModel.count_units. Qed.
#[global] Hint Resolve le_count_units : le.
Lemma le_round2_u : forall x n, 
  le (@BuildEncModel.round2_u Debug x n)
     (@BuildEncModel.round2_u Release x n).
Proof. intros; le_def BuildEncModel.round2_u. Qed.
#[global] Hint Resolve le_round2_u : le.
Lemma le_unit_range : forall pos size num den units, 
  le (@BuildEncModel.unit_range Debug pos size num den units)
     (@BuildEncModel.unit_range Release pos size num den units).
Proof. intros; le_def BuildEncModel.unit_range. Qed.
#[global] Hint Resolve le_unit_range : le.
Lemma le_lr_area : forall x plane r c w h unit_size, 
  le (@BuildEncModel.lr_area Debug x plane r c w h unit_size)
     (@BuildEncModel.lr_area Release x plane r c w h unit_size).
Proof. intros; le_def BuildEncModel.lr_area. Qed.
#[global] Hint Resolve le_lr_area : le.
Section Lr.
Variable T : Type.
Variables unit unit' : Z -> Z -> Z -> Z -> Z -> T -> res T.
Hypothesis Hunit : forall x0 x1 x2 x3 x4 x5, le (unit x0 x1 x2 x3 x4 x5) (unit' x0 x1 x2 x3 x4 x5).
Lemma le_lr_cols : forall cols plane row row0 col0 t, 
  le (@BuildEncModel.lr_cols T unit cols plane row row0 col0 t)
     (@BuildEncModel.lr_cols T unit' cols plane row row0 col0 t).
Proof. intros cols plane row row0 col0 t; revert plane row row0 col0 t; induction cols; intros; le_fix BuildEncModel.lr_cols. Qed.
#[local] Hint Resolve le_lr_cols : le.
Lemma le_lr_rows : forall rows plane row0 cols t, 
  le (@BuildEncModel.lr_rows T unit rows plane row0 cols t)
     (@BuildEncModel.lr_rows T unit' rows plane row0 cols t).
Proof. intros rows plane row0 cols t; revert plane row0 cols t; induction rows; intros; le_fix BuildEncModel.lr_rows. Qed.
#[local] Hint Resolve le_lr_rows : le.
Lemma le_lr_planes : forall planes x r c w h t, 
  le (@BuildEncModel.lr_planes Debug T unit planes x r c w h t)
     (@BuildEncModel.lr_planes Release T unit' planes x r c w h t).
Proof. intros planes x r c w h t; revert x r c w h t; induction planes; intros; le_fix BuildEncModel.lr_planes. Qed.
#[local] Hint Resolve le_lr_planes : le.
End Lr.
#[global] Hint Resolve le_lr_cols : le.
#[global] Hint Resolve le_lr_rows : le.
#[global] Hint Resolve le_lr_planes : le.
Ltac le_hof ::= first [apply le_sum_mag; intros | apply le_lr_planes; intros].
Lemma le_encode_lr : forall x sbs r c bsize s es, 
  le (@BuildEncModel.encode_lr Debug x sbs r c bsize s es)
     (@BuildEncModel.encode_lr Release x sbs r c bsize s es).
Proof. intros; le_def BuildEncModel.encode_lr. Qed.
#[global] Hint Resolve le_encode_lr : le.
Lemma le_run_levs : forall c out es, 
  le (@BuildEncModel.run_levs Debug c out es)
     (@BuildEncModel.run_levs Release c out es).
Proof. intros c out es; revert c out; induction es; intros; le_fix BuildEncModel.run_levs. Qed.
#[global] Hint Resolve le_run_levs : le.
Section Whole.
Variable S : Type.
Variables mode_info mode_info' : tstate (rest S) -> block_env -> list Z -> res (tstate (rest S) * list Z).
Hypothesis Hmode_info : forall x0 x1 x2, le (mode_info x0 x1 x2) (mode_info' x0 x1 x2).
Lemma le_superblock : forall x e st cdef r c sb_size out, 
  le (@BuildEncModel.superblock Debug S mode_info x e st cdef r c sb_size out)
     (@BuildEncModel.superblock Release S mode_info' x e st cdef r c sb_size out).
Proof. intros; le_def BuildEncModel.superblock. Qed.
#[local] Hint Resolve le_superblock : le.
Lemma le_encode_whole_tile : forall borrowed x tile_num st out, 
  le (@BuildEncModel.encode_whole_tile Debug S mode_info borrowed x tile_num st out)
     (@BuildEncModel.encode_whole_tile Release S mode_info' borrowed x tile_num st out).
Proof. intros; le_def BuildEncModel.encode_whole_tile. Qed.
#[local] Hint Resolve le_encode_whole_tile : le.
End Whole.
#[global] Hint Resolve le_superblock : le.
#[global] Hint Resolve le_encode_whole_tile : le.
Section Stream.
Variable T : Type.
Variables superblock superblock' : T -> list (list Z) -> Z -> Z -> Z -> list Z -> res (T * list (list Z) * list Z).
Hypothesis Hsuperblock : forall x0 x1 x2 x3 x4 x5, le (superblock x0 x1 x2 x3 x4 x5) (superblock' x0 x1 x2 x3 x4 x5).
Lemma le_tile_group : forall x f groups st cdef, 
  le (@BuildEncModel.tile_group Debug T superblock x f groups st cdef)
     (@BuildEncModel.tile_group Release T superblock' x f groups st cdef).
Proof. intros; le_def BuildEncModel.tile_group. Qed.
#[local] Hint Resolve le_tile_group : le.
Lemma le_payload : forall x o, 
  le (@BuildEncModel.payload Debug T superblock x o)
     (@BuildEncModel.payload Release T superblock' x o).
Proof. intros; le_def BuildEncModel.payload. Qed.
#[local] Hint Resolve le_payload : le.
Lemma le_stream_obu : forall w x o out,
  le (BuildEncModel.stream_obu Debug T superblock w x o out)
     (BuildEncModel.stream_obu Release T superblock' w x o out).
Proof.
  intros. unfold BuildEncModel.stream_obu. apply le_bind; [|intros ? _; le_go].
  unfold BuildEncModel.encode_obu_header. cbv zeta.
  assert (E : obu_type (BuildEncModel.variant Release T superblock' x o)
              = obu_type (BuildEncModel.variant Debug T superblock x o))
    by (unfold BuildEncModel.variant; destruct o; cbv beta iota zeta delta [obu_type]; reflexivity).
  rewrite E. le_go.
Qed.
#[local] Hint Resolve le_stream_obu : le.
Lemma le_stream_unit : forall w x o, 
  le (@BuildEncModel.stream_unit Debug T superblock w x o)
     (@BuildEncModel.stream_unit Release T superblock' w x o).
Proof. intros; le_def BuildEncModel.stream_unit. Qed.
#[local] Hint Resolve le_stream_unit : le.
Lemma le_run_stream : forall w x l, 
  le (@BuildEncModel.run_stream Debug T superblock w x l)
     (@BuildEncModel.run_stream Release T superblock' w x l).
Proof. intros w x l; revert w x; induction l; intros; le_fix BuildEncModel.run_stream. Qed.
#[local] Hint Resolve le_run_stream : le.
Lemma le_payloads : forall x l, 
  le (@BuildEncModel.payloads Debug T superblock x l)
     (@BuildEncModel.payloads Release T superblock' x l).
Proof. intros x l; revert x; induction l; intros; le_fix BuildEncModel.payloads. Qed.
#[local] Hint Resolve le_payloads : le.
End Stream.
#[global] Hint Resolve le_tile_group : le.
#[global] Hint Resolve le_payload : le.
#[global] Hint Resolve le_stream_obu : le.
#[global] Hint Resolve le_stream_unit : le.
#[global] Hint Resolve le_run_stream : le.
#[global] Hint Resolve le_payloads : le.
Lemma le_main_loop : forall n fr rep input cw ch w e read_so_far, 
  le (@BuildEncModel.main_loop Debug n fr rep input cw ch w e read_so_far)
     (@BuildEncModel.main_loop Release n fr rep input cw ch w e read_so_far).
Proof. intros n fr rep input cw ch w e read_so_far; revert fr rep input cw ch w e read_so_far; induction n; intros; le_fix BuildEncModel.main_loop. Qed.
#[global] Hint Resolve le_main_loop : le.
Lemma le_main : forall args rep input, 
  le (@BuildEncModel.main Debug args rep input)
     (@BuildEncModel.main Release args rep input).
Proof. intros; le_def BuildEncModel.main. Qed.
#[global] Hint Resolve le_main : le.

(** ** The debug reading *)

Lemma coder_FloorLog2 : BuildModel.FloorLog2 Debug = UtilModel.FloorLog2.
Proof. reflexivity. Qed.
Lemma coder_adapt_loop : BuildModel.adapt_loop Debug = RangeCoderModel.adapt_loop.
Proof. reflexivity. Qed.
Lemma coder_bump_last : BuildModel.bump_last Debug = RangeCoderModel.bump_last.
Proof. reflexivity. Qed.
Lemma coder_carry_step : BuildModel.carry_step Debug = RangeCoderModel.carry_step.
Proof. reflexivity. Qed.
Lemma coder_cdf_p : BuildModel.cdf_p Debug = RangeCoderModel.cdf_p.
Proof. reflexivity. Qed.
Lemma coder_chk_i32 : BuildModel.chk_i32 Debug = Base.chk_i32.
Proof. reflexivity. Qed.
Lemma coder_chk_i64 : BuildModel.chk_i64 Debug = Base.chk_i64.
Proof. reflexivity. Qed.
Lemma coder_chk_u16 : BuildModel.chk_u16 Debug = Base.chk_u16.
Proof. reflexivity. Qed.
Lemma coder_chk_u32 : BuildModel.chk_u32 Debug = Base.chk_u32.
Proof. reflexivity. Qed.
Lemma coder_chk_u64 : BuildModel.chk_u64 Debug = Base.chk_u64.
Proof. reflexivity. Qed.
Lemma coder_chk_u8 : BuildModel.chk_u8 Debug = Base.chk_u8.
Proof. reflexivity. Qed.
Lemma coder_dec_adapt_loop : BuildModel.dec_adapt_loop Debug = RangeCoderModel.dec_adapt_loop.
Proof. reflexivity. Qed.
Lemma coder_dec_bump_last : BuildModel.dec_bump_last Debug = RangeCoderModel.dec_bump_last.
Proof. reflexivity. Qed.
Lemma coder_dec_update_cdf : BuildModel.dec_update_cdf Debug = RangeCoderModel.dec_update_cdf.
Proof. reflexivity. Qed.
Lemma coder_decode_adaptive : BuildModel.decode_adaptive Debug = SessionModel.decode_adaptive.
Proof. reflexivity. Qed.
Lemma coder_decode_le : BuildModel.decode_le Debug = BitCodecModel.decode_le.
Proof. reflexivity. Qed.
Lemma coder_decode_le_loop : BuildModel.decode_le_loop Debug = BitCodecModel.decode_le_loop.
Proof. reflexivity. Qed.
Lemma coder_decode_leb128 : BuildModel.decode_leb128 Debug = BitCodecModel.decode_leb128.
Proof. reflexivity. Qed.
Lemma coder_decode_leb128_loop : BuildModel.decode_leb128_loop Debug = BitCodecModel.decode_leb128_loop.
Proof. reflexivity. Qed.
Lemma coder_decode_literal : BuildModel.decode_literal Debug = RangeCoderModel.decode_literal.
Proof. reflexivity. Qed.
Lemma coder_decode_literal_loop : BuildModel.decode_literal_loop Debug = RangeCoderModel.decode_literal_loop.
Proof. reflexivity. Qed.
Lemma coder_decode_ns : BuildModel.decode_ns Debug = BitCodecModel.decode_ns.
Proof. reflexivity. Qed.
Lemma coder_decode_op : BuildModel.decode_op Debug = SessionModel.decode_op.
Proof. reflexivity. Qed.
Lemma coder_decode_ops : BuildModel.decode_ops Debug = SessionModel.decode_ops.
Proof. reflexivity. Qed.
Lemma coder_decode_session : BuildModel.decode_session Debug = SessionModel.decode_session.
Proof. reflexivity. Qed.
Lemma coder_decode_su : BuildModel.decode_su Debug = BitCodecModel.decode_su.
Proof. reflexivity. Qed.
Lemma coder_decode_symbol : BuildModel.decode_symbol Debug = RangeCoderModel.decode_symbol.
Proof. reflexivity. Qed.
Lemma coder_decode_symbolp : BuildModel.decode_symbolp Debug = RangeCoderModel.decode_symbolp.
Proof. reflexivity. Qed.
Lemma coder_decode_symbols : BuildModel.decode_symbols Debug = RangeCoderModel.decode_symbols.
Proof. reflexivity. Qed.
Lemma coder_decode_symbols_loop : BuildModel.decode_symbols_loop Debug = RangeCoderModel.decode_symbols_loop.
Proof. reflexivity. Qed.
Lemma coder_decode_uvlc : BuildModel.decode_uvlc Debug = BitCodecModel.decode_uvlc.
Proof. reflexivity. Qed.
Lemma coder_emit : BuildModel.emit Debug = RangeCoderModel.emit.
Proof. reflexivity. Qed.
Lemma coder_emit_n : BuildModel.emit_n Debug = RangeCoderModel.emit_n.
Proof. reflexivity. Qed.
Lemma coder_encode_le : BuildModel.encode_le Debug = BitCodecModel.encode_le.
Proof. reflexivity. Qed.
Lemma coder_encode_le_loop : BuildModel.encode_le_loop Debug = BitCodecModel.encode_le_loop.
Proof. reflexivity. Qed.
Lemma coder_encode_leb128 : BuildModel.encode_leb128 Debug = BitCodecModel.encode_leb128.
Proof. reflexivity. Qed.
Lemma coder_encode_leb128_loop : BuildModel.encode_leb128_loop Debug = BitCodecModel.encode_leb128_loop.
Proof. reflexivity. Qed.
Lemma coder_encode_literal : BuildModel.encode_literal Debug = RangeCoderModel.encode_literal.
Proof. reflexivity. Qed.
Lemma coder_encode_ns : BuildModel.encode_ns Debug = BitCodecModel.encode_ns.
Proof. reflexivity. Qed.
Lemma coder_encode_op : BuildModel.encode_op Debug = SessionModel.encode_op.
Proof. reflexivity. Qed.
Lemma coder_encode_ops : BuildModel.encode_ops Debug = SessionModel.encode_ops.
Proof. reflexivity. Qed.
Lemma coder_encode_session : BuildModel.encode_session Debug = SessionModel.encode_session.
Proof. reflexivity. Qed.
Lemma coder_encode_su : BuildModel.encode_su Debug = BitCodecModel.encode_su.
Proof. reflexivity. Qed.
Lemma coder_encode_symbol : BuildModel.encode_symbol Debug = RangeCoderModel.encode_symbol.
Proof. reflexivity. Qed.
Lemma coder_encode_symbol_fuel : BuildModel.encode_symbol_fuel Debug = RangeCoderModel.encode_symbol_fuel.
Proof. reflexivity. Qed.
Lemma coder_encode_symbolp : BuildModel.encode_symbolp Debug = RangeCoderModel.encode_symbolp.
Proof. reflexivity. Qed.
Lemma coder_encode_symbols : BuildModel.encode_symbols Debug = RangeCoderModel.encode_symbols.
Proof. reflexivity. Qed.
Lemma coder_encode_symbols_loop : BuildModel.encode_symbols_loop Debug = RangeCoderModel.encode_symbols_loop.
Proof. reflexivity. Qed.
Lemma coder_encode_uvlc : BuildModel.encode_uvlc Debug = BitCodecModel.encode_uvlc.
Proof. reflexivity. Qed.
Lemma coder_exit_encoder : BuildModel.exit_encoder Debug = RangeCoderModel.exit_encoder.
Proof. reflexivity. Qed.
Lemma coder_find_symbol : BuildModel.find_symbol Debug = RangeCoderModel.find_symbol.
Proof. reflexivity. Qed.
Lemma coder_init_decoder : BuildModel.init_decoder Debug = RangeCoderModel.init_decoder.
Proof. reflexivity. Qed.
Lemma coder_msb16 : BuildModel.msb16 Debug = UtilModel.msb16.
Proof. reflexivity. Qed.
Lemma coder_msb32 : BuildModel.msb32 Debug = UtilModel.msb32.
Proof. reflexivity. Qed.
Lemma coder_msb64 : BuildModel.msb64 Debug = UtilModel.msb64.
Proof. reflexivity. Qed.
Lemma coder_push_bits_with_size : BuildModel.push_bits_with_size Debug = BitCodecModel.push_bits_with_size.
Proof. reflexivity. Qed.
Lemma coder_push_range : BuildModel.push_range Debug = BitCodecModel.push_range.
Proof. reflexivity. Qed.
Lemma coder_read_bits : BuildModel.read_bits Debug = RangeCoderModel.read_bits.
Proof. reflexivity. Qed.
Lemma coder_read_u64 : BuildModel.read_u64 Debug = BitCodecModel.read_u64.
Proof. reflexivity. Qed.
Lemma coder_read_u8 : BuildModel.read_u8 Debug = BitCodecModel.read_u8.
Proof. reflexivity. Qed.
Lemma coder_refill : BuildModel.refill Debug = RangeCoderModel.refill.
Proof. reflexivity. Qed.
Lemma coder_renorm_loop : BuildModel.renorm_loop Debug = RangeCoderModel.renorm_loop.
Proof. reflexivity. Qed.
Lemma coder_shift_ok : BuildModel.shift_ok Debug = Base.shift_ok.
Proof. reflexivity. Qed.
Lemma coder_update_cdf : BuildModel.update_cdf Debug = RangeCoderModel.update_cdf.
Proof. reflexivity. Qed.
Lemma coder_uvlc_zeros : BuildModel.uvlc_zeros Debug = BitCodecModel.uvlc_zeros.
Proof. reflexivity. Qed.
Lemma debug_write_field : @BuildEncModel.write_field Debug = @FieldModel.write_field.
Proof.
  unfold BuildEncModel.write_field, FieldModel.write_field; cbv beta delta [BuildModel.shift_amt] iota. rewrite ?coder_encode_le, ?coder_encode_leb128, ?coder_encode_ns, ?coder_encode_su, ?coder_encode_uvlc, ?coder_push_bits_with_size. reflexivity.
Qed.
Lemma debug_write_fields : @BuildEncModel.write_fields Debug = @FieldModel.write_fields.
Proof.
  unfold BuildEncModel.write_fields, FieldModel.write_fields; cbv beta delta [BuildModel.shift_amt] iota. rewrite ?debug_write_field. reflexivity.
Qed.
Lemma debug_read_field : @BuildEncModel.read_field Debug = @FieldModel.read_field.
Proof.
  unfold BuildEncModel.read_field, FieldModel.read_field; cbv beta delta [BuildModel.shift_amt] iota. rewrite ?coder_decode_le, ?coder_decode_leb128, ?coder_decode_ns, ?coder_decode_su, ?coder_decode_uvlc. reflexivity.
Qed.
Lemma debug_read_fields : @BuildEncModel.read_fields Debug = @FieldModel.read_fields.
Proof.
  unfold BuildEncModel.read_fields, FieldModel.read_fields; cbv beta delta [BuildModel.shift_amt] iota. rewrite ?debug_read_field. reflexivity.
Qed.
Lemma debug_write_bit : @BuildEncModel.write_bit Debug = @WriterModel.write_bit.
Proof.
  unfold BuildEncModel.write_bit, WriterModel.write_bit; cbv beta delta [BuildModel.shift_amt] iota. rewrite ?coder_chk_u64, ?coder_chk_u8. reflexivity.
Qed.
Lemma debug_write_bits : @BuildEncModel.write_bits Debug = @WriterModel.write_bits.
Proof.
  unfold BuildEncModel.write_bits, WriterModel.write_bits; cbv beta delta [BuildModel.shift_amt] iota. rewrite ?debug_write_bit. reflexivity.
Qed.
Lemma debug_byte_align : @BuildEncModel.byte_align Debug = @WriterModel.byte_align.
Proof.
  unfold BuildEncModel.byte_align, WriterModel.byte_align; cbv beta delta [BuildModel.shift_amt] iota. rewrite ?coder_chk_u64, ?debug_write_bits. reflexivity.
Qed.
Lemma debug_write_call : @BuildEncModel.write_call Debug = @WriterModel.write_call.
Proof.
  unfold BuildEncModel.write_call, WriterModel.write_call; cbv beta delta [BuildModel.shift_amt] iota. rewrite ?debug_write_bit, ?debug_write_bits, ?debug_byte_align. reflexivity.
Qed.
Lemma debug_write_calls : @BuildEncModel.write_calls Debug = @WriterModel.write_calls.
Proof.
  unfold BuildEncModel.write_calls, WriterModel.write_calls; cbv beta delta [BuildModel.shift_amt] iota. rewrite ?debug_write_call. reflexivity.
Qed.
Lemma debug_enc_ops : @BuildEncModel.enc_ops Debug = @SeqModel.enc_ops.
Proof.
  unfold BuildEncModel.enc_ops, SeqModel.enc_ops; cbv beta delta [BuildModel.shift_amt] iota. rewrite ?coder_push_bits_with_size. reflexivity.
Qed.
Lemma debug_enc_size : @BuildEncModel.enc_size Debug = @SeqModel.enc_size.
Proof.
  unfold BuildEncModel.enc_size, SeqModel.enc_size; cbv beta delta [BuildModel.shift_amt] iota. rewrite ?coder_chk_u64, ?coder_chk_u8, ?coder_msb16, ?coder_push_bits_with_size. reflexivity.
Qed.
Lemma debug_enc_frame_id : @BuildEncModel.enc_frame_id Debug = @SeqModel.enc_frame_id.
Proof.
  unfold BuildEncModel.enc_frame_id, SeqModel.enc_frame_id; cbv beta delta [BuildModel.shift_amt] iota. rewrite ?coder_chk_u8, ?coder_push_bits_with_size. reflexivity.
Qed.
Lemma debug_enc_tools : @BuildEncModel.enc_tools Debug = @SeqModel.enc_tools.
Proof.
  unfold BuildEncModel.enc_tools, SeqModel.enc_tools; cbv beta delta [BuildModel.shift_amt] iota. rewrite ?coder_chk_u64, ?coder_push_bits_with_size. reflexivity.
Qed.
Lemma debug_enc_color : @BuildEncModel.enc_color Debug = @SeqModel.enc_color.
Proof.
  unfold BuildEncModel.enc_color, SeqModel.enc_color; cbv beta delta [BuildModel.shift_amt] iota. rewrite ?coder_push_bits_with_size. reflexivity.
Qed.
Lemma debug_enc_timing : @BuildEncModel.enc_timing Debug = @SeqModel.enc_timing.
Proof.
  unfold BuildEncModel.enc_timing, SeqModel.enc_timing; cbv beta delta [BuildModel.shift_amt] iota. rewrite ?coder_chk_u32, ?coder_chk_u8, ?coder_encode_uvlc, ?coder_push_bits_with_size. reflexivity.
Qed.
Lemma debug_enc_opm : @BuildEncModel.enc_opm Debug = @SeqModel.enc_opm.
Proof.
  unfold BuildEncModel.enc_opm, SeqModel.enc_opm; cbv beta delta [BuildModel.shift_amt] iota. rewrite ?coder_chk_u32, ?coder_chk_u8, ?coder_encode_uvlc, ?coder_push_bits_with_size. reflexivity.
Qed.
Lemma debug_enc_seq : @BuildEncModel.enc_seq Debug = @SeqModel.enc_seq.
Proof.
  unfold BuildEncModel.enc_seq, SeqModel.enc_seq; cbv beta delta [BuildModel.shift_amt] iota. rewrite ?coder_push_bits_with_size, ?debug_enc_ops, ?debug_enc_size, ?debug_enc_frame_id, ?debug_enc_tools, ?debug_enc_color, ?debug_enc_timing, ?debug_enc_opm. reflexivity.
Qed.
Lemma debug_encode_obu_header : @BuildEncModel.encode_obu_header Debug = @ObuModel.encode_obu_header.
Proof.
  unfold BuildEncModel.encode_obu_header, ObuModel.encode_obu_header; cbv beta delta [BuildModel.shift_amt] iota. rewrite ?coder_push_bits_with_size. reflexivity.
Qed.
Lemma debug_push_all : @BuildEncModel.push_all Debug = @ObuModel.push_all.
Proof.
  unfold BuildEncModel.push_all, ObuModel.push_all; cbv beta delta [BuildModel.shift_amt] iota. rewrite ?coder_push_bits_with_size. reflexivity.
Qed.
Lemma debug_push_dims : @BuildEncModel.push_dims Debug = @ObuModel.push_dims.
Proof.
  unfold BuildEncModel.push_dims, ObuModel.push_dims; cbv beta delta [BuildModel.shift_amt] iota. rewrite ?coder_push_bits_with_size. reflexivity.
Qed.
Lemma debug_push_groups : @BuildEncModel.push_groups Debug = @ObuModel.push_groups.
Proof.
  unfold BuildEncModel.push_groups, ObuModel.push_groups; cbv beta delta [BuildModel.shift_amt] iota. rewrite ?coder_push_bits_with_size, ?debug_push_all. reflexivity.
Qed.
Lemma debug_encode_metadata : @BuildEncModel.encode_metadata Debug = @ObuModel.encode_metadata.
Proof.
  unfold BuildEncModel.encode_metadata, ObuModel.encode_metadata; cbv beta delta [BuildModel.shift_amt] iota. rewrite ?coder_chk_u64, ?coder_encode_leb128, ?coder_push_bits_with_size, ?debug_push_all, ?debug_push_dims, ?debug_push_groups. reflexivity.
Qed.
Lemma debug_encode_payload : @BuildEncModel.encode_payload Debug = @ObuModel.encode_payload.
Proof.
  unfold BuildEncModel.encode_payload, ObuModel.encode_payload; cbv beta delta [BuildModel.shift_amt] iota. rewrite ?debug_enc_seq, ?debug_push_all, ?debug_encode_metadata. reflexivity.
Qed.
Lemma debug_encode_obu : @BuildEncModel.encode_obu Debug = @ObuModel.encode_obu.
Proof.
  unfold BuildEncModel.encode_obu, ObuModel.encode_obu; cbv beta delta [BuildModel.shift_amt] iota. rewrite ?debug_write_bits, ?debug_byte_align, ?debug_encode_obu_header, ?debug_encode_payload. reflexivity.
Qed.
Lemma debug_encode_temporal_unit : @BuildEncModel.encode_temporal_unit Debug = @ObuModel.encode_temporal_unit.
Proof.
  unfold BuildEncModel.encode_temporal_unit, ObuModel.encode_temporal_unit; cbv beta delta [BuildModel.shift_amt] iota. rewrite ?coder_encode_leb128, ?debug_write_bits, ?debug_encode_obu. reflexivity.
Qed.
Lemma debug_encode_units : @BuildEncModel.encode_units Debug = @ObuModel.encode_units.
Proof.
  unfold BuildEncModel.encode_units, ObuModel.encode_units; cbv beta delta [BuildModel.shift_amt] iota. rewrite ?debug_encode_temporal_unit. reflexivity.
Qed.
Lemma debug_get_relative_dist : @BuildEncModel.get_relative_dist Debug = @ElementModel.get_relative_dist.
Proof.
  unfold BuildEncModel.get_relative_dist, ElementModel.get_relative_dist; cbv beta delta [BuildModel.shift_amt] iota. rewrite ?coder_chk_i64, ?coder_chk_u64, ?coder_shift_ok. reflexivity.
Qed.
Lemma debug_lower_mv_precision : @BuildEncModel.lower_mv_precision Debug = @ElementModel.lower_mv_precision.
Proof.
  unfold BuildEncModel.lower_mv_precision, ElementModel.lower_mv_precision; cbv beta delta [BuildModel.shift_amt] iota. rewrite ?coder_chk_i64. reflexivity.
Qed.
Lemma debug_neg_interleave : @BuildEncModel.neg_interleave Debug = @ElementModel.neg_interleave.
Proof.
  unfold BuildEncModel.neg_interleave, ElementModel.neg_interleave; cbv beta delta [BuildModel.shift_amt] iota. rewrite ?coder_chk_u64. reflexivity.
Qed.
Lemma debug_delta_q_ops : @BuildEncModel.delta_q_ops Debug = @ElementModel.delta_q_ops.
Proof.
  unfold BuildEncModel.delta_q_ops, ElementModel.delta_q_ops; cbv beta delta [BuildModel.shift_amt] iota. rewrite ?coder_chk_i64, ?coder_chk_u64, ?coder_chk_u8, ?coder_msb16, ?coder_shift_ok. reflexivity.
Qed.
Lemma debug_delta_lf_ops : @BuildEncModel.delta_lf_ops Debug = @ElementModel.delta_lf_ops.
Proof.
  unfold BuildEncModel.delta_lf_ops, ElementModel.delta_lf_ops; cbv beta delta [BuildModel.shift_amt] iota. rewrite ?coder_chk_i64, ?coder_chk_u64, ?coder_chk_u8, ?coder_msb16, ?coder_shift_ok. reflexivity.
Qed.
Lemma debug_inverse_recenter : @BuildEncModel.inverse_recenter Debug = @ElementModel.inverse_recenter.
Proof.
  unfold BuildEncModel.inverse_recenter, ElementModel.inverse_recenter; cbv beta delta [BuildModel.shift_amt] iota. rewrite ?coder_chk_u64. reflexivity.
Qed.
Lemma debug_encode_subexp_loop : @BuildEncModel.encode_subexp_loop Debug = @ElementModel.encode_subexp_loop.
Proof.
  unfold BuildEncModel.encode_subexp_loop, ElementModel.encode_subexp_loop; cbv beta delta [BuildModel.shift_amt] iota. rewrite ?coder_chk_u64, ?coder_chk_u8, ?coder_encode_ns, ?coder_push_bits_with_size, ?coder_shift_ok. reflexivity.
Qed.
Lemma debug_encode_subexp : @BuildEncModel.encode_subexp Debug = @ElementModel.encode_subexp.
Proof.
  unfold BuildEncModel.encode_subexp, ElementModel.encode_subexp; cbv beta delta [BuildModel.shift_amt] iota. rewrite ?debug_encode_subexp_loop. reflexivity.
Qed.
Lemma debug_encode_unsigned_subexp_with_ref : @BuildEncModel.encode_unsigned_subexp_with_ref Debug = @ElementModel.encode_unsigned_subexp_with_ref.
Proof.
  unfold BuildEncModel.encode_unsigned_subexp_with_ref, ElementModel.encode_unsigned_subexp_with_ref; cbv beta delta [BuildModel.shift_amt] iota. rewrite ?coder_chk_u64, ?debug_inverse_recenter, ?debug_encode_subexp. reflexivity.
Qed.
Lemma debug_encode_signed_subexp_with_ref : @BuildEncModel.encode_signed_subexp_with_ref Debug = @ElementModel.encode_signed_subexp_with_ref.
Proof.
  unfold BuildEncModel.encode_signed_subexp_with_ref, ElementModel.encode_signed_subexp_with_ref; cbv beta delta [BuildModel.shift_amt] iota. rewrite ?coder_chk_i64, ?debug_encode_unsigned_subexp_with_ref. reflexivity.
Qed.
Lemma debug_encode_global_param : @BuildEncModel.encode_global_param Debug = @ElementModel.encode_global_param.
Proof.
  unfold BuildEncModel.encode_global_param, ElementModel.encode_global_param; cbv beta delta [BuildModel.shift_amt] iota. rewrite ?coder_chk_i64, ?debug_encode_signed_subexp_with_ref. reflexivity.
Qed.
Lemma debug_code_partition : @BuildEncModel.code_partition Debug = @GeomModel.code_partition.
Proof.
  unfold BuildEncModel.code_partition, GeomModel.code_partition; cbv beta delta [BuildModel.shift_amt] iota. rewrite ?coder_encode_symbol. reflexivity.
Qed.
Lemma debug_psum_term : @BuildEncModel.psum_term Debug = @GeomModel.psum_term.
Proof.
  unfold BuildEncModel.psum_term, GeomModel.psum_term; cbv beta delta [BuildModel.shift_amt] iota. rewrite ?coder_chk_i32. reflexivity.
Qed.
Lemma debug_psum_terms : @BuildEncModel.psum_terms Debug = @GeomModel.psum_terms.
Proof.
  unfold BuildEncModel.psum_terms, GeomModel.psum_terms; cbv beta delta [BuildModel.shift_amt] iota. rewrite ?debug_psum_term. reflexivity.
Qed.
Lemma debug_split_cdf : @BuildEncModel.split_cdf Debug = @GeomModel.split_cdf.
Proof.
  unfold BuildEncModel.split_cdf, GeomModel.split_cdf; cbv beta delta [BuildModel.shift_amt] iota. rewrite ?coder_chk_i32, ?coder_shift_ok, ?debug_psum_terms. reflexivity.
Qed.
Lemma debug_code_split_or_horz : @BuildEncModel.code_split_or_horz Debug = @GeomModel.code_split_or_horz.
Proof.
  unfold BuildEncModel.code_split_or_horz, GeomModel.code_split_or_horz; cbv beta delta [BuildModel.shift_amt] iota. rewrite ?coder_encode_symbol, ?debug_split_cdf. reflexivity.
Qed.
Lemma debug_code_split_or_vert : @BuildEncModel.code_split_or_vert Debug = @GeomModel.code_split_or_vert.
Proof.
  unfold BuildEncModel.code_split_or_vert, GeomModel.code_split_or_vert; cbv beta delta [BuildModel.shift_amt] iota. rewrite ?coder_encode_symbol, ?debug_split_cdf. reflexivity.
Qed.
Lemma debug_encode_block : @BuildEncModel.encode_block = @GeomModel.encode_block.
Proof.
  unfold BuildEncModel.encode_block, GeomModel.encode_block; cbv beta delta [BuildModel.shift_amt] iota. reflexivity.
Qed.
Lemma debug_signal_partition : @BuildEncModel.signal_partition Debug = @GeomModel.signal_partition.
Proof.
  unfold BuildEncModel.signal_partition, GeomModel.signal_partition; cbv beta delta [BuildModel.shift_amt] iota. rewrite ?debug_code_partition, ?debug_code_split_or_horz, ?debug_code_split_or_vert. reflexivity.
Qed.
Lemma debug_run_calls : @BuildEncModel.run_calls = @GeomModel.run_calls.
Proof.
  unfold BuildEncModel.run_calls, GeomModel.run_calls; cbv beta delta [BuildModel.shift_amt] iota. reflexivity.
Qed.
Lemma debug_leaf_call : @BuildEncModel.leaf_call = @GeomModel.leaf_call.
Proof.
  unfold BuildEncModel.leaf_call, GeomModel.leaf_call; cbv beta delta [BuildModel.shift_amt] iota. rewrite ?debug_encode_block. reflexivity.
Qed.
Lemma debug_try_all : @BuildEncModel.try_all Debug = @GeomModel.try_all.
Proof.
  unfold BuildEncModel.try_all, GeomModel.try_all; cbv beta delta [BuildModel.shift_amt] iota. rewrite ?debug_signal_partition, ?debug_run_calls, ?debug_leaf_call. reflexivity.
Qed.
Lemma debug_partitions_in_order : @BuildEncModel.partitions_in_order = @GeomModel.partitions_in_order.
Proof.
  unfold BuildEncModel.partitions_in_order, GeomModel.partitions_in_order; cbv beta delta [BuildModel.shift_amt] iota. reflexivity.
Qed.
Lemma debug_encode_partition : @BuildEncModel.encode_partition Debug = @GeomModel.encode_partition.
Proof.
  unfold BuildEncModel.encode_partition, GeomModel.encode_partition; cbv beta delta [BuildModel.shift_amt] iota. rewrite ?debug_try_all, ?debug_partitions_in_order. reflexivity.
Qed.
Lemma debug_encode_superblock : @BuildEncModel.encode_superblock Debug = @GeomModel.encode_superblock.
Proof.
  unfold BuildEncModel.encode_superblock, GeomModel.encode_superblock; cbv beta delta [BuildModel.shift_amt] iota. rewrite ?debug_encode_partition. reflexivity.
Qed.
Lemma debug_tiles_log2 : @BuildEncModel.tiles_log2 Debug = @TileModel.tiles_log2.
Proof.
  unfold BuildEncModel.tiles_log2, TileModel.tiles_log2; cbv beta delta [BuildModel.shift_amt] iota. rewrite ?coder_msb16. reflexivity.
Qed.
Lemma debug_encode_tile_info : @BuildEncModel.encode_tile_info Debug = @TileModel.encode_tile_info.
Proof.
  unfold BuildEncModel.encode_tile_info, TileModel.encode_tile_info; cbv beta delta [BuildModel.shift_amt] iota. rewrite ?coder_chk_u64, ?coder_push_bits_with_size, ?coder_shift_ok, ?debug_tiles_log2. reflexivity.
Qed.
Lemma debug_sb_row : @BuildEncModel.sb_row = @TileModel.sb_row.
Proof.
  unfold BuildEncModel.sb_row, TileModel.sb_row; cbv beta delta [BuildModel.shift_amt] iota. rewrite ?debug_superblock. reflexivity.
Qed.
Lemma debug_sb_rows : @BuildEncModel.sb_rows = @TileModel.sb_rows.
Proof.
  unfold BuildEncModel.sb_rows, TileModel.sb_rows; cbv beta delta [BuildModel.shift_amt] iota. rewrite ?debug_sb_row. reflexivity.
Qed.
Lemma debug_encode_tile : @BuildEncModel.encode_tile = @TileModel.encode_tile.
Proof.
  unfold BuildEncModel.encode_tile, TileModel.encode_tile; cbv beta delta [BuildModel.shift_amt] iota. rewrite ?debug_sb_rows. reflexivity.
Qed.
Lemma debug_tile_loop : @BuildEncModel.tile_loop Debug = @TileModel.tile_loop.
Proof.
  unfold BuildEncModel.tile_loop, TileModel.tile_loop; cbv beta delta [BuildModel.shift_amt] iota. rewrite ?coder_chk_u64, ?coder_encode_le, ?debug_encode_tile. reflexivity.
Qed.
Lemma debug_encode_tile_group : @BuildEncModel.encode_tile_group Debug = @TileModel.encode_tile_group.
Proof.
  unfold BuildEncModel.encode_tile_group, TileModel.encode_tile_group; cbv beta delta [BuildModel.shift_amt] iota. rewrite ?coder_chk_u64, ?coder_push_bits_with_size, ?debug_tiles_log2, ?debug_tile_loop. reflexivity.
Qed.
Lemma debug_run_writer : @BuildEncModel.run_writer Debug = @ContextModel.run_writer.
Proof.
  unfold BuildEncModel.run_writer, ContextModel.run_writer; cbv beta delta [BuildModel.shift_amt] iota. rewrite ?coder_encode_symbol. reflexivity.
Qed.
Lemma debug_abs_i64 : @BuildEncModel.abs_i64 Debug = @ContextModel.abs_i64.
Proof.
  unfold BuildEncModel.abs_i64, ContextModel.abs_i64; cbv beta delta [BuildModel.shift_amt] iota. rewrite ?coder_chk_i64. reflexivity.
Qed.
Lemma debug_base_ctx : @BuildEncModel.base_ctx Debug = @ContextModel.base_ctx.
Proof.
  unfold BuildEncModel.base_ctx, ContextModel.base_ctx; cbv beta delta [BuildModel.shift_amt] iota. rewrite ?debug_abs_i64. reflexivity.
Qed.
Lemma debug_get_coeff_base_ctx : @BuildEncModel.get_coeff_base_ctx Debug = @ContextModel.get_coeff_base_ctx.
Proof.
  unfold BuildEncModel.get_coeff_base_ctx, ContextModel.get_coeff_base_ctx; cbv beta delta [BuildModel.shift_amt] iota. rewrite ?debug_base_ctx. reflexivity.
Qed.
Lemma debug_encode_angle_delta : @BuildEncModel.encode_angle_delta Debug = @ContextModel.encode_angle_delta.
Proof.
  unfold BuildEncModel.encode_angle_delta, ContextModel.encode_angle_delta; cbv beta delta [BuildModel.shift_amt] iota. rewrite ?coder_chk_u64. reflexivity.
Qed.
Lemma debug_encode_txfm_split : @BuildEncModel.encode_txfm_split Debug = @ContextModel.encode_txfm_split.
Proof.
  unfold BuildEncModel.encode_txfm_split, ContextModel.encode_txfm_split; cbv beta delta [BuildModel.shift_amt] iota. rewrite ?coder_chk_u64. reflexivity.
Qed.
Lemma debug_encode_coeff_base : @BuildEncModel.encode_coeff_base Debug = @ContextModel.encode_coeff_base.
Proof.
  unfold BuildEncModel.encode_coeff_base, ContextModel.encode_coeff_base; cbv beta delta [BuildModel.shift_amt] iota. rewrite ?debug_get_coeff_base_ctx. reflexivity.
Qed.
Lemma debug_encode_coeff_base_eob : @BuildEncModel.encode_coeff_base_eob Debug = @ContextModel.encode_coeff_base_eob.
Proof.
  unfold BuildEncModel.encode_coeff_base_eob, ContextModel.encode_coeff_base_eob; cbv beta delta [BuildModel.shift_amt] iota. rewrite ?coder_chk_u64, ?debug_get_coeff_base_ctx. reflexivity.
Qed.
Lemma debug_encode_compound_idx : @BuildEncModel.encode_compound_idx Debug = @ContextModel.encode_compound_idx.
Proof.
  unfold BuildEncModel.encode_compound_idx, ContextModel.encode_compound_idx; cbv beta delta [BuildModel.shift_amt] iota. rewrite ?debug_get_relative_dist, ?debug_abs_i64. reflexivity.
Qed.
Lemma debug_encode_cfl_alpha_v : @BuildEncModel.encode_cfl_alpha_v Debug = @ContextModel.encode_cfl_alpha_v.
Proof.
  unfold BuildEncModel.encode_cfl_alpha_v, ContextModel.encode_cfl_alpha_v; cbv beta delta [BuildModel.shift_amt] iota. rewrite ?coder_chk_u64. reflexivity.
Qed.
Lemma debug_Round2 : @BuildEncModel.Round2 Debug = @MvStackModel.Round2.
Proof.
  unfold BuildEncModel.Round2, MvStackModel.Round2; cbv beta delta [BuildModel.shift_amt] iota. rewrite ?coder_chk_i64. reflexivity.
Qed.
Lemma debug_Round2Signed : @BuildEncModel.Round2Signed Debug = @MvStackModel.Round2Signed.
Proof.
  unfold BuildEncModel.Round2Signed, MvStackModel.Round2Signed; cbv beta delta [BuildModel.shift_amt] iota. rewrite ?coder_chk_i64, ?debug_Round2. reflexivity.
Qed.
Lemma debug_lower_mv : @BuildEncModel.lower_mv Debug = @MvStackModel.lower_mv.
Proof.
  unfold BuildEncModel.lower_mv, MvStackModel.lower_mv; cbv beta delta [BuildModel.shift_amt] iota. rewrite ?debug_lower_mv_precision. reflexivity.
Qed.
Lemma debug_global_mv : @BuildEncModel.global_mv Debug = @MvStackModel.global_mv.
Proof.
  unfold BuildEncModel.global_mv, MvStackModel.global_mv; cbv beta delta [BuildModel.shift_amt] iota. rewrite ?coder_chk_i64, ?debug_Round2Signed, ?debug_lower_mv. reflexivity.
Qed.
Lemma debug_setup_global_mvs : @BuildEncModel.setup_global_mvs Debug = @MvStackModel.setup_global_mvs.
Proof.
  unfold BuildEncModel.setup_global_mvs, MvStackModel.setup_global_mvs; cbv beta delta [BuildModel.shift_amt] iota. rewrite ?debug_global_mv. reflexivity.
Qed.
Lemma debug_stack_add : @BuildEncModel.stack_add Debug = @MvStackModel.stack_add.
Proof.
  unfold BuildEncModel.stack_add, MvStackModel.stack_add; cbv beta delta [BuildModel.shift_amt] iota. rewrite ?coder_chk_u64. reflexivity.
Qed.
Lemma debug_count_new : @BuildEncModel.count_new Debug = @MvStackModel.count_new.
Proof.
  unfold BuildEncModel.count_new, MvStackModel.count_new; cbv beta delta [BuildModel.shift_amt] iota. rewrite ?coder_chk_u64. reflexivity.
Qed.
Lemma debug_search_stack : @BuildEncModel.search_stack Debug = @MvStackModel.search_stack.
Proof.
  unfold BuildEncModel.search_stack, MvStackModel.search_stack; cbv beta delta [BuildModel.shift_amt] iota. rewrite ?debug_lower_mv, ?debug_stack_add, ?debug_count_new. reflexivity.
Qed.
Lemma debug_compound_search_stack : @BuildEncModel.compound_search_stack Debug = @MvStackModel.compound_search_stack.
Proof.
  unfold BuildEncModel.compound_search_stack, MvStackModel.compound_search_stack; cbv beta delta [BuildModel.shift_amt] iota. rewrite ?debug_lower_mv, ?debug_stack_add, ?debug_count_new. reflexivity.
Qed.
Lemma debug_add_ref_mv_candidate : @BuildEncModel.add_ref_mv_candidate Debug = @MvStackModel.add_ref_mv_candidate.
Proof.
  unfold BuildEncModel.add_ref_mv_candidate, MvStackModel.add_ref_mv_candidate; cbv beta delta [BuildModel.shift_amt] iota. rewrite ?debug_search_stack, ?debug_compound_search_stack. reflexivity.
Qed.
Lemma debug_scan_row_loop : @BuildEncModel.scan_row_loop Debug = @MvStackModel.scan_row_loop.
Proof.
  unfold BuildEncModel.scan_row_loop, MvStackModel.scan_row_loop; cbv beta delta [BuildModel.shift_amt] iota. rewrite ?debug_add_ref_mv_candidate. reflexivity.
Qed.
Lemma debug_scan_row : @BuildEncModel.scan_row Debug = @MvStackModel.scan_row.
Proof.
  unfold BuildEncModel.scan_row, MvStackModel.scan_row; cbv beta delta [BuildModel.shift_amt] iota. rewrite ?coder_chk_u64, ?debug_scan_row_loop. reflexivity.
Qed.
Lemma debug_scan_col_loop : @BuildEncModel.scan_col_loop Debug = @MvStackModel.scan_col_loop.
Proof.
  unfold BuildEncModel.scan_col_loop, MvStackModel.scan_col_loop; cbv beta delta [BuildModel.shift_amt] iota. rewrite ?debug_add_ref_mv_candidate. reflexivity.
Qed.
Lemma debug_scan_col : @BuildEncModel.scan_col Debug = @MvStackModel.scan_col.
Proof.
  unfold BuildEncModel.scan_col, MvStackModel.scan_col; cbv beta delta [BuildModel.shift_amt] iota. rewrite ?coder_chk_u64, ?debug_scan_col_loop. reflexivity.
Qed.
Lemma debug_scan_point : @BuildEncModel.scan_point Debug = @MvStackModel.scan_point.
Proof.
  unfold BuildEncModel.scan_point, MvStackModel.scan_point; cbv beta delta [BuildModel.shift_amt] iota. rewrite ?debug_add_ref_mv_candidate. reflexivity.
Qed.
Lemma debug_add_level : @BuildEncModel.add_level Debug = @MvStackModel.add_level.
Proof.
  unfold BuildEncModel.add_level, MvStackModel.add_level; cbv beta delta [BuildModel.shift_amt] iota. rewrite ?coder_chk_u64. reflexivity.
Qed.
Lemma debug_far : @BuildEncModel.far Debug = @MvStackModel.far.
Proof.
  unfold BuildEncModel.far, MvStackModel.far; cbv beta delta [BuildModel.shift_amt] iota. rewrite ?coder_chk_i64. reflexivity.
Qed.
Lemma debug_temporal_sample : @BuildEncModel.temporal_sample Debug = @MvStackModel.temporal_sample.
Proof.
  unfold BuildEncModel.temporal_sample, MvStackModel.temporal_sample; cbv beta delta [BuildModel.shift_amt] iota. rewrite ?debug_lower_mv, ?debug_stack_add, ?debug_far. reflexivity.
Qed.
Lemma debug_temporal_cols : @BuildEncModel.temporal_cols Debug = @MvStackModel.temporal_cols.
Proof.
  unfold BuildEncModel.temporal_cols, MvStackModel.temporal_cols; cbv beta delta [BuildModel.shift_amt] iota. rewrite ?debug_temporal_sample. reflexivity.
Qed.
Lemma debug_temporal_rows : @BuildEncModel.temporal_rows Debug = @MvStackModel.temporal_rows.
Proof.
  unfold BuildEncModel.temporal_rows, MvStackModel.temporal_rows; cbv beta delta [BuildModel.shift_amt] iota. rewrite ?debug_temporal_cols. reflexivity.
Qed.
Lemma debug_find_mv_stack : @BuildEncModel.find_mv_stack Debug = @MvStackModel.find_mv_stack.
Proof.
  unfold BuildEncModel.find_mv_stack, MvStackModel.find_mv_stack; cbv beta delta [BuildModel.shift_amt] iota. rewrite ?debug_setup_global_mvs, ?debug_scan_row, ?debug_scan_col, ?debug_scan_point, ?debug_add_level, ?debug_temporal_rows. reflexivity.
Qed.
Lemma debug_inter_mode : @BuildEncModel.inter_mode Debug = @ModeInfoModel.inter_mode.
Proof.
  unfold BuildEncModel.inter_mode, ModeInfoModel.inter_mode; cbv beta delta [BuildModel.shift_amt] iota. rewrite ?coder_chk_u64. reflexivity.
Qed.
Lemma debug_intrabc_pred : @BuildEncModel.intrabc_pred Debug = @ModeInfoModel.intrabc_pred.
Proof.
  unfold BuildEncModel.intrabc_pred, ModeInfoModel.intrabc_pred; cbv beta delta [BuildModel.shift_amt] iota. rewrite ?coder_chk_u64. reflexivity.
Qed.
Lemma debug_pred_mvs : @BuildEncModel.pred_mvs Debug = @ModeInfoModel.pred_mvs.
Proof.
  unfold BuildEncModel.pred_mvs, ModeInfoModel.pred_mvs; cbv beta delta [BuildModel.shift_amt] iota. rewrite ?debug_intrabc_pred. reflexivity.
Qed.
Lemma debug_assign_mv_loop : @BuildEncModel.assign_mv_loop Debug = @ModeInfoModel.assign_mv_loop.
Proof.
  unfold BuildEncModel.assign_mv_loop, ModeInfoModel.assign_mv_loop; cbv beta delta [BuildModel.shift_amt] iota. rewrite ?coder_chk_i64, ?debug_pred_mvs. reflexivity.
Qed.
Lemma debug_assign_mv : @BuildEncModel.assign_mv Debug = @ModeInfoModel.assign_mv.
Proof.
  unfold BuildEncModel.assign_mv, ModeInfoModel.assign_mv; cbv beta delta [BuildModel.shift_amt] iota. rewrite ?debug_assign_mv_loop. reflexivity.
Qed.
Lemma debug_code_segment_id : @BuildEncModel.code_segment_id Debug = @ModeInfoModel.code_segment_id.
Proof.
  unfold BuildEncModel.code_segment_id, ModeInfoModel.code_segment_id; cbv beta delta [BuildModel.shift_amt] iota. rewrite ?debug_neg_interleave. reflexivity.
Qed.
Lemma debug_intra_segment_id : @BuildEncModel.intra_segment_id Debug = @ModeInfoModel.intra_segment_id.
Proof.
  unfold BuildEncModel.intra_segment_id, ModeInfoModel.intra_segment_id; cbv beta delta [BuildModel.shift_amt] iota. rewrite ?debug_code_segment_id. reflexivity.
Qed.
Lemma debug_code_delta_lf : @BuildEncModel.code_delta_lf Debug = @ModeInfoModel.code_delta_lf.
Proof.
  unfold BuildEncModel.code_delta_lf, ModeInfoModel.code_delta_lf; cbv beta delta [BuildModel.shift_amt] iota. rewrite ?debug_delta_lf_ops. reflexivity.
Qed.
Lemma debug_code_deltas : @BuildEncModel.code_deltas Debug = @ModeInfoModel.code_deltas.
Proof.
  unfold BuildEncModel.code_deltas, ModeInfoModel.code_deltas; cbv beta delta [BuildModel.shift_amt] iota. rewrite ?debug_delta_q_ops, ?debug_code_delta_lf. reflexivity.
Qed.
Lemma debug_code_inter : @BuildEncModel.code_inter Debug = @ModeInfoModel.code_inter.
Proof.
  unfold BuildEncModel.code_inter, ModeInfoModel.code_inter; cbv beta delta [BuildModel.shift_amt] iota. rewrite ?debug_find_mv_stack, ?debug_inter_mode, ?debug_assign_mv. reflexivity.
Qed.
Lemma debug_encode_mode_info : @BuildEncModel.encode_mode_info Debug = @ModeInfoModel.encode_mode_info.
Proof.
  unfold BuildEncModel.encode_mode_info, ModeInfoModel.encode_mode_info; cbv beta delta [BuildModel.shift_amt] iota. rewrite ?debug_intra_segment_id, ?debug_code_deltas, ?debug_code_inter. reflexivity.
Qed.
Lemma debug_enc_delta_q : @BuildEncModel.enc_delta_q Debug = @FrameParamModel.enc_delta_q.
Proof.
  unfold BuildEncModel.enc_delta_q, FrameParamModel.enc_delta_q; cbv beta delta [BuildModel.shift_amt] iota. rewrite ?coder_encode_su. reflexivity.
Qed.
Lemma debug_enc_quant : @BuildEncModel.enc_quant Debug = @FrameParamModel.enc_quant.
Proof.
  unfold BuildEncModel.enc_quant, FrameParamModel.enc_quant; cbv beta delta [BuildModel.shift_amt] iota. rewrite ?coder_push_bits_with_size, ?debug_enc_delta_q. reflexivity.
Qed.
Lemma debug_enc_feature : @BuildEncModel.enc_feature Debug = @FrameParamModel.enc_feature.
Proof.
  unfold BuildEncModel.enc_feature, FrameParamModel.enc_feature; cbv beta delta [BuildModel.shift_amt] iota. rewrite ?coder_chk_u8, ?coder_encode_su. reflexivity.
Qed.
Lemma debug_enc_features : @BuildEncModel.enc_features Debug = @FrameParamModel.enc_features.
Proof.
  unfold BuildEncModel.enc_features, FrameParamModel.enc_features; cbv beta delta [BuildModel.shift_amt] iota. rewrite ?debug_enc_feature. reflexivity.
Qed.
Lemma debug_enc_segments : @BuildEncModel.enc_segments Debug = @FrameParamModel.enc_segments.
Proof.
  unfold BuildEncModel.enc_segments, FrameParamModel.enc_segments; cbv beta delta [BuildModel.shift_amt] iota. rewrite ?debug_enc_features. reflexivity.
Qed.
Lemma debug_enc_seg : @BuildEncModel.enc_seg Debug = @FrameParamModel.enc_seg.
Proof.
  unfold BuildEncModel.enc_seg, FrameParamModel.enc_seg; cbv beta delta [BuildModel.shift_amt] iota. rewrite ?debug_enc_segments. reflexivity.
Qed.
Lemma debug_enc_delta : @BuildEncModel.enc_delta Debug = @FrameParamModel.enc_delta.
Proof.
  unfold BuildEncModel.enc_delta, FrameParamModel.enc_delta; cbv beta delta [BuildModel.shift_amt] iota. rewrite ?coder_push_bits_with_size. reflexivity.
Qed.
Lemma debug_get_qindex : @BuildEncModel.get_qindex Debug = @FrameParamModel.get_qindex.
Proof.
  unfold BuildEncModel.get_qindex, FrameParamModel.get_qindex; cbv beta delta [BuildModel.shift_amt] iota. rewrite ?coder_chk_i64. reflexivity.
Qed.
Lemma debug_enc_lossless : @BuildEncModel.enc_lossless Debug = @FrameParamModel.enc_lossless.
Proof.
  unfold BuildEncModel.enc_lossless, FrameParamModel.enc_lossless; cbv beta delta [BuildModel.shift_amt] iota. rewrite ?debug_get_qindex. reflexivity.
Qed.
Lemma debug_enc_lf_deltas : @BuildEncModel.enc_lf_deltas Debug = @FrameParamModel.enc_lf_deltas.
Proof.
  unfold BuildEncModel.enc_lf_deltas, FrameParamModel.enc_lf_deltas; cbv beta delta [BuildModel.shift_amt] iota. rewrite ?coder_encode_su. reflexivity.
Qed.
Lemma debug_enc_lf : @BuildEncModel.enc_lf Debug = @FrameParamModel.enc_lf.
Proof.
  unfold BuildEncModel.enc_lf, FrameParamModel.enc_lf; cbv beta delta [BuildModel.shift_amt] iota. rewrite ?coder_push_bits_with_size, ?debug_enc_lf_deltas. reflexivity.
Qed.
Lemma debug_enc_strength : @BuildEncModel.enc_strength Debug = @FrameParamModel.enc_strength.
Proof.
  unfold BuildEncModel.enc_strength, FrameParamModel.enc_strength; cbv beta delta [BuildModel.shift_amt] iota. rewrite ?coder_push_bits_with_size. reflexivity.
Qed.
Lemma debug_enc_strengths : @BuildEncModel.enc_strengths Debug = @FrameParamModel.enc_strengths.
Proof.
  unfold BuildEncModel.enc_strengths, FrameParamModel.enc_strengths; cbv beta delta [BuildModel.shift_amt] iota. rewrite ?debug_enc_strength. reflexivity.
Qed.
Lemma debug_enc_cdef : @BuildEncModel.enc_cdef Debug = @FrameParamModel.enc_cdef.
Proof.
  unfold BuildEncModel.enc_cdef, FrameParamModel.enc_cdef; cbv beta delta [BuildModel.shift_amt] iota. rewrite ?coder_chk_u8, ?coder_push_bits_with_size, ?coder_shift_ok, ?debug_enc_strengths. reflexivity.
Qed.
Lemma debug_enc_lr_types : @BuildEncModel.enc_lr_types Debug = @FrameParamModel.enc_lr_types.
Proof.
  unfold BuildEncModel.enc_lr_types, FrameParamModel.enc_lr_types; cbv beta delta [BuildModel.shift_amt] iota. rewrite ?coder_push_bits_with_size. reflexivity.
Qed.
Lemma debug_enc_lr : @BuildEncModel.enc_lr Debug = @FrameParamModel.enc_lr.
Proof.
  unfold BuildEncModel.enc_lr, FrameParamModel.enc_lr; cbv beta delta [BuildModel.shift_amt] iota. rewrite ?coder_chk_u64, ?coder_shift_ok, ?debug_enc_lr_types. reflexivity.
Qed.
Lemma debug_rel_dist : @BuildEncModel.rel_dist Debug = @FrameParamModel.rel_dist.
Proof.
  unfold BuildEncModel.rel_dist, FrameParamModel.rel_dist; cbv beta delta [BuildModel.shift_amt] iota. rewrite ?coder_chk_i64, ?coder_chk_u8, ?coder_shift_ok. reflexivity.
Qed.
Lemma debug_skip_scan : @BuildEncModel.skip_scan Debug = @FrameParamModel.skip_scan.
Proof.
  unfold BuildEncModel.skip_scan, FrameParamModel.skip_scan; cbv beta delta [BuildModel.shift_amt] iota. rewrite ?debug_rel_dist. reflexivity.
Qed.
Lemma debug_skip_scan2 : @BuildEncModel.skip_scan2 Debug = @FrameParamModel.skip_scan2.
Proof.
  unfold BuildEncModel.skip_scan2, FrameParamModel.skip_scan2; cbv beta delta [BuildModel.shift_amt] iota. rewrite ?debug_rel_dist. reflexivity.
Qed.
Lemma debug_skip_mode : @BuildEncModel.skip_mode Debug = @FrameParamModel.skip_mode.
Proof.
  unfold BuildEncModel.skip_mode, FrameParamModel.skip_mode; cbv beta delta [BuildModel.shift_amt] iota. rewrite ?debug_skip_scan, ?debug_skip_scan2. reflexivity.
Qed.
Lemma debug_enc_gm_one : @BuildEncModel.enc_gm_one Debug = @FrameParamModel.enc_gm_one.
Proof.
  unfold BuildEncModel.enc_gm_one, FrameParamModel.enc_gm_one; cbv beta delta [BuildModel.shift_amt] iota. rewrite ?coder_chk_i64, ?debug_encode_global_param. reflexivity.
Qed.
Lemma debug_enc_gm_loop : @BuildEncModel.enc_gm_loop Debug = @FrameParamModel.enc_gm_loop.
Proof.
  unfold BuildEncModel.enc_gm_loop, FrameParamModel.enc_gm_loop; cbv beta delta [BuildModel.shift_amt] iota. rewrite ?debug_enc_gm_one. reflexivity.
Qed.
Lemma debug_enc_gm : @BuildEncModel.enc_gm Debug = @FrameParamModel.enc_gm.
Proof.
  unfold BuildEncModel.enc_gm, FrameParamModel.enc_gm; cbv beta delta [BuildModel.shift_amt] iota. rewrite ?debug_enc_gm_loop. reflexivity.
Qed.
Lemma debug_enc_points : @BuildEncModel.enc_points Debug = @FrameParamModel.enc_points.
Proof.
  unfold BuildEncModel.enc_points, FrameParamModel.enc_points; cbv beta delta [BuildModel.shift_amt] iota. rewrite ?coder_push_bits_with_size. reflexivity.
Qed.
Lemma debug_enc_coeffs : @BuildEncModel.enc_coeffs Debug = @FrameParamModel.enc_coeffs.
Proof.
  unfold BuildEncModel.enc_coeffs, FrameParamModel.enc_coeffs; cbv beta delta [BuildModel.shift_amt] iota. rewrite ?coder_push_bits_with_size. reflexivity.
Qed.
Lemma debug_enc_mult : @BuildEncModel.enc_mult Debug = @FrameParamModel.enc_mult.
Proof.
  unfold BuildEncModel.enc_mult, FrameParamModel.enc_mult; cbv beta delta [BuildModel.shift_amt] iota. rewrite ?coder_push_bits_with_size. reflexivity.
Qed.
Lemma debug_enc_grain_params : @BuildEncModel.enc_grain_params Debug = @FrameParamModel.enc_grain_params.
Proof.
  unfold BuildEncModel.enc_grain_params, FrameParamModel.enc_grain_params; cbv beta delta [BuildModel.shift_amt] iota. rewrite ?coder_chk_u64, ?coder_push_bits_with_size, ?debug_enc_points, ?debug_enc_coeffs, ?debug_enc_mult. reflexivity.
Qed.
Lemma debug_enc_grain : @BuildEncModel.enc_grain Debug = @FrameParamModel.enc_grain.
Proof.
  unfold BuildEncModel.enc_grain, FrameParamModel.enc_grain; cbv beta delta [BuildModel.shift_amt] iota. rewrite ?coder_push_bits_with_size, ?debug_enc_grain_params. reflexivity.
Qed.
Lemma debug_enc_point : @BuildEncModel.enc_point Debug = @FrameModel.enc_point.
Proof.
  unfold BuildEncModel.enc_point, FrameModel.enc_point; cbv beta delta [BuildModel.shift_amt] iota. rewrite ?coder_push_bits_with_size. reflexivity.
Qed.
Lemma debug_id_length : @BuildEncModel.id_length Debug = @FrameModel.id_length.
Proof.
  unfold BuildEncModel.id_length, FrameModel.id_length; cbv beta delta [BuildModel.shift_amt] iota. rewrite ?coder_chk_u64. reflexivity.
Qed.
Lemma debug_enc_existing : @BuildEncModel.enc_existing Debug = @FrameModel.enc_existing.
Proof.
  unfold BuildEncModel.enc_existing, FrameModel.enc_existing; cbv beta delta [BuildModel.shift_amt] iota. rewrite ?coder_push_bits_with_size, ?debug_enc_point. reflexivity.
Qed.
Lemma debug_enc_top : @BuildEncModel.enc_top Debug = @FrameModel.enc_top.
Proof.
  unfold BuildEncModel.enc_top, FrameModel.enc_top; cbv beta delta [BuildModel.shift_amt] iota. rewrite ?coder_push_bits_with_size, ?debug_enc_point. reflexivity.
Qed.
Lemma debug_mark_refs : @BuildEncModel.mark_refs Debug = @FrameModel.mark_refs.
Proof.
  unfold BuildEncModel.mark_refs, FrameModel.mark_refs; cbv beta delta [BuildModel.shift_amt] iota. rewrite ?coder_chk_u64, ?coder_shift_ok. reflexivity.
Qed.
Lemma debug_enc_ids : @BuildEncModel.enc_ids Debug = @FrameModel.enc_ids.
Proof.
  unfold BuildEncModel.enc_ids, FrameModel.enc_ids; cbv beta delta [BuildModel.shift_amt] iota. rewrite ?coder_push_bits_with_size, ?debug_mark_refs. reflexivity.
Qed.
Lemma debug_enc_primary : @BuildEncModel.enc_primary Debug = @FrameModel.enc_primary.
Proof.
  unfold BuildEncModel.enc_primary, FrameModel.enc_primary; cbv beta delta [BuildModel.shift_amt] iota. rewrite ?coder_push_bits_with_size. reflexivity.
Qed.
Lemma debug_enc_removal_loop : @BuildEncModel.enc_removal_loop Debug = @FrameModel.enc_removal_loop.
Proof.
  unfold BuildEncModel.enc_removal_loop, FrameModel.enc_removal_loop; cbv beta delta [BuildModel.shift_amt] iota. rewrite ?coder_chk_u64, ?coder_push_bits_with_size, ?coder_shift_ok. reflexivity.
Qed.
Lemma debug_enc_removal : @BuildEncModel.enc_removal Debug = @FrameModel.enc_removal.
Proof.
  unfold BuildEncModel.enc_removal, FrameModel.enc_removal; cbv beta delta [BuildModel.shift_amt] iota. rewrite ?debug_enc_removal_loop. reflexivity.
Qed.
Lemma debug_enc_refresh : @BuildEncModel.enc_refresh Debug = @FrameModel.enc_refresh.
Proof.
  unfold BuildEncModel.enc_refresh, FrameModel.enc_refresh; cbv beta delta [BuildModel.shift_amt] iota. rewrite ?coder_push_bits_with_size. reflexivity.
Qed.
Lemma debug_enc_frame_size : @BuildEncModel.enc_frame_size Debug = @FrameModel.enc_frame_size.
Proof.
  unfold BuildEncModel.enc_frame_size, FrameModel.enc_frame_size; cbv beta delta [BuildModel.shift_amt] iota. rewrite ?coder_chk_u64, ?coder_msb16, ?coder_push_bits_with_size. reflexivity.
Qed.
Lemma debug_enc_superres : @BuildEncModel.enc_superres Debug = @FrameModel.enc_superres.
Proof.
  unfold BuildEncModel.enc_superres, FrameModel.enc_superres; cbv beta delta [BuildModel.shift_amt] iota. rewrite ?coder_chk_u64, ?coder_push_bits_with_size. reflexivity.
Qed.
Lemma debug_enc_render : @BuildEncModel.enc_render Debug = @FrameModel.enc_render.
Proof.
  unfold BuildEncModel.enc_render, FrameModel.enc_render; cbv beta delta [BuildModel.shift_amt] iota. rewrite ?coder_chk_u64, ?coder_push_bits_with_size. reflexivity.
Qed.
Lemma debug_enc_sizes : @BuildEncModel.enc_sizes Debug = @FrameModel.enc_sizes.
Proof.
  unfold BuildEncModel.enc_sizes, FrameModel.enc_sizes; cbv beta delta [BuildModel.shift_amt] iota. rewrite ?debug_enc_frame_size, ?debug_enc_superres, ?debug_enc_render. reflexivity.
Qed.
Lemma debug_enc_refs : @BuildEncModel.enc_refs Debug = @FrameModel.enc_refs.
Proof.
  unfold BuildEncModel.enc_refs, FrameModel.enc_refs; cbv beta delta [BuildModel.shift_amt] iota. rewrite ?coder_chk_u64, ?coder_push_bits_with_size, ?coder_shift_ok. reflexivity.
Qed.
Lemma debug_enc_mid : @BuildEncModel.enc_mid Debug = @FrameModel.enc_mid.
Proof.
  unfold BuildEncModel.enc_mid, FrameModel.enc_mid; cbv beta delta [BuildModel.shift_amt] iota. rewrite ?coder_push_bits_with_size, ?debug_enc_superres, ?debug_enc_sizes, ?debug_enc_refs. reflexivity.
Qed.
Lemma debug_set_order_hints : @BuildEncModel.set_order_hints Debug = @FrameModel.set_order_hints.
Proof.
  unfold BuildEncModel.set_order_hints, FrameModel.set_order_hints; cbv beta delta [BuildModel.shift_amt] iota. rewrite ?coder_chk_u64, ?coder_chk_u8, ?coder_shift_ok. reflexivity.
Qed.
Lemma debug_encode_frame_header : @BuildEncModel.encode_frame_header Debug = @FrameModel.encode_frame_header.
Proof.
  unfold BuildEncModel.encode_frame_header, FrameModel.encode_frame_header; cbv beta delta [BuildModel.shift_amt] iota. rewrite ?coder_push_bits_with_size, ?debug_tiles_log2, ?debug_encode_tile_info, ?debug_enc_quant, ?debug_enc_seg, ?debug_enc_delta, ?debug_enc_lossless, ?debug_enc_lf, ?debug_enc_cdef, ?debug_enc_lr, ?debug_skip_mode, ?debug_enc_gm, ?debug_enc_grain, ?debug_id_length, ?debug_enc_existing, ?debug_enc_top, ?debug_enc_ids, ?debug_enc_primary, ?debug_enc_removal, ?debug_enc_refresh, ?debug_enc_mid, ?debug_set_order_hints. reflexivity.
Qed.
Lemma debug_subexp_bool_loop : @BuildEncModel.subexp_bool_loop Debug = @LrModel.subexp_bool_loop.
Proof.
  unfold BuildEncModel.subexp_bool_loop, LrModel.subexp_bool_loop; cbv beta delta [BuildModel.shift_amt] iota. rewrite ?coder_chk_u64, ?coder_encode_ns, ?coder_shift_ok. reflexivity.
Qed.
Lemma debug_encode_subexp_bool : @BuildEncModel.encode_subexp_bool Debug = @LrModel.encode_subexp_bool.
Proof.
  unfold BuildEncModel.encode_subexp_bool, LrModel.encode_subexp_bool; cbv beta delta [BuildModel.shift_amt] iota. rewrite ?debug_subexp_bool_loop. reflexivity.
Qed.
Lemma debug_encode_unsigned_subexp_bool : @BuildEncModel.encode_unsigned_subexp_bool Debug = @LrModel.encode_unsigned_subexp_bool.
Proof.
  unfold BuildEncModel.encode_unsigned_subexp_bool, LrModel.encode_unsigned_subexp_bool; cbv beta delta [BuildModel.shift_amt] iota. rewrite ?coder_chk_u64, ?debug_inverse_recenter, ?debug_encode_subexp_bool. reflexivity.
Qed.
Lemma debug_encode_signed_subexp_bool : @BuildEncModel.encode_signed_subexp_bool Debug = @LrModel.encode_signed_subexp_bool.
Proof.
  unfold BuildEncModel.encode_signed_subexp_bool, LrModel.encode_signed_subexp_bool; cbv beta delta [BuildModel.shift_amt] iota. rewrite ?coder_chk_i64, ?debug_encode_unsigned_subexp_bool. reflexivity.
Qed.
Lemma debug_wiener_taps : @BuildEncModel.wiener_taps Debug = @LrModel.wiener_taps.
Proof.
  unfold BuildEncModel.wiener_taps, LrModel.wiener_taps; cbv beta delta [BuildModel.shift_amt] iota. rewrite ?debug_encode_signed_subexp_bool. reflexivity.
Qed.
Lemma debug_wiener_passes : @BuildEncModel.wiener_passes Debug = @LrModel.wiener_passes.
Proof.
  unfold BuildEncModel.wiener_passes, LrModel.wiener_passes; cbv beta delta [BuildModel.shift_amt] iota. rewrite ?debug_wiener_taps. reflexivity.
Qed.
Lemma debug_sgr_weights : @BuildEncModel.sgr_weights Debug = @LrModel.sgr_weights.
Proof.
  unfold BuildEncModel.sgr_weights, LrModel.sgr_weights; cbv beta delta [BuildModel.shift_amt] iota. rewrite ?coder_chk_i64, ?debug_encode_signed_subexp_bool. reflexivity.
Qed.
Lemma debug_sgr_unit : @BuildEncModel.sgr_unit Debug = @LrModel.sgr_unit.
Proof.
  unfold BuildEncModel.sgr_unit, LrModel.sgr_unit; cbv beta delta [BuildModel.shift_amt] iota. rewrite ?debug_sgr_weights. reflexivity.
Qed.
Lemma debug_lr_unit : @BuildEncModel.lr_unit Debug = @LrModel.lr_unit.
Proof.
  unfold BuildEncModel.lr_unit, LrModel.lr_unit; cbv beta delta [BuildModel.shift_amt] iota. rewrite ?debug_wiener_passes, ?debug_sgr_unit. reflexivity.
Qed.
Lemma debug_div_up : @BuildEncModel.div_up Debug = @LrModel.div_up.
Proof.
  unfold BuildEncModel.div_up, LrModel.div_up; cbv beta delta [BuildModel.shift_amt] iota. rewrite ?coder_chk_u64. reflexivity.
Qed.
Lemma debug_count_units : @BuildEncModel.count_units Debug = @LrModel.count_units.
Proof.
  unfold BuildEncModel.count_units, LrModel.count_units; cbv beta delta [BuildModel.shift_amt] iota. rewrite ?coder_chk_u64. reflexivity.
Qed.
Lemma debug_round2_u : @BuildEncModel.round2_u Debug = @LrModel.round2_u.
Proof.
  unfold BuildEncModel.round2_u, LrModel.round2_u; cbv beta delta [BuildModel.shift_amt] iota. rewrite ?coder_chk_u64. reflexivity.
Qed.
Lemma debug_unit_range : @BuildEncModel.unit_range Debug = @LrModel.unit_range.
Proof.
  unfold BuildEncModel.unit_range, LrModel.unit_range; cbv beta delta [BuildModel.shift_amt] iota. rewrite ?coder_chk_u64, ?debug_div_up. reflexivity.
Qed.
Lemma debug_lr_area : @BuildEncModel.lr_area Debug = @LrModel.lr_area.
Proof.
  unfold BuildEncModel.lr_area, LrModel.lr_area; cbv beta delta [BuildModel.shift_amt] iota. rewrite ?coder_chk_u64, ?debug_count_units, ?debug_round2_u, ?debug_unit_range. reflexivity.
Qed.
Lemma debug_lr_cols : @BuildEncModel.lr_cols = @LrModel.lr_cols.
Proof.
  unfold BuildEncModel.lr_cols, LrModel.lr_cols; cbv beta delta [BuildModel.shift_amt] iota. reflexivity.
Qed.
Lemma debug_lr_rows : @BuildEncModel.lr_rows = @LrModel.lr_rows.
Proof.
  unfold BuildEncModel.lr_rows, LrModel.lr_rows; cbv beta delta [BuildModel.shift_amt] iota. rewrite ?debug_lr_cols. reflexivity.
Qed.
Lemma debug_lr_planes : @BuildEncModel.lr_planes Debug = @LrModel.lr_planes.
Proof.
  unfold BuildEncModel.lr_planes, LrModel.lr_planes; cbv beta delta [BuildModel.shift_amt] iota. rewrite ?debug_lr_area, ?debug_lr_rows. reflexivity.
Qed.
Lemma debug_encode_lr : @BuildEncModel.encode_lr Debug = @LrModel.encode_lr.
Proof.
  unfold BuildEncModel.encode_lr, LrModel.encode_lr; cbv beta delta [BuildModel.shift_amt] iota. rewrite ?debug_lr_unit, ?debug_lr_planes. reflexivity.
Qed.
Lemma debug_run_levs : @BuildEncModel.run_levs Debug = @LrModel.run_levs.
Proof.
  unfold BuildEncModel.run_levs, LrModel.run_levs; cbv beta delta [BuildModel.shift_amt] iota. rewrite ?coder_encode_symbolp. reflexivity.
Qed.
Lemma debug_superblock : @BuildEncModel.superblock Debug = @WholeTileModel.superblock.
Proof.
  unfold BuildEncModel.superblock, WholeTileModel.superblock; cbv beta delta [BuildModel.shift_amt] iota. rewrite ?debug_encode_superblock, ?debug_encode_lr, ?debug_run_levs. reflexivity.
Qed.
Lemma debug_encode_whole_tile : @BuildEncModel.encode_whole_tile Debug = @WholeTileModel.encode_whole_tile.
Proof.
  unfold BuildEncModel.encode_whole_tile, WholeTileModel.encode_whole_tile; cbv beta delta [BuildModel.shift_amt] iota. rewrite ?debug_encode_tile, ?debug_superblock. reflexivity.
Qed.
Lemma debug_first_tile_state : @BuildEncModel.first_tile_state = @WholeTileModel.first_tile_state.
Proof.
  unfold BuildEncModel.first_tile_state, WholeTileModel.first_tile_state; cbv beta delta [BuildModel.shift_amt] iota. reflexivity.
Qed.
Lemma debug_tile_group : @BuildEncModel.tile_group Debug = @StreamModel.tile_group.
Proof.
  unfold BuildEncModel.tile_group, StreamModel.tile_group; cbv beta delta [BuildModel.shift_amt] iota. rewrite ?coder_chk_u64, ?debug_encode_tile_group, ?debug_superblock. reflexivity.
Qed.
Lemma debug_payload : @BuildEncModel.payload Debug = @StreamModel.payload.
Proof.
  unfold BuildEncModel.payload, StreamModel.payload; cbv beta delta [BuildModel.shift_amt] iota. rewrite ?debug_enc_seq, ?debug_push_all, ?debug_encode_metadata, ?debug_encode_frame_header, ?debug_tile_group. reflexivity.
Qed.
Lemma debug_variant : @BuildEncModel.variant Debug = @StreamModel.variant.
Proof.
  unfold BuildEncModel.variant, StreamModel.variant; cbv beta delta [BuildModel.shift_amt] iota. rewrite ?debug_payload. reflexivity.
Qed.
Lemma debug_stream_obu : @BuildEncModel.stream_obu Debug = @StreamModel.stream_obu.
Proof.
  unfold BuildEncModel.stream_obu, StreamModel.stream_obu; cbv beta delta [BuildModel.shift_amt] iota. rewrite ?debug_write_bits, ?debug_byte_align, ?debug_encode_obu_header, ?debug_payload, ?debug_variant. reflexivity.
Qed.
Lemma debug_stream_unit : @BuildEncModel.stream_unit Debug = @StreamModel.stream_unit.
Proof.
  unfold BuildEncModel.stream_unit, StreamModel.stream_unit; cbv beta delta [BuildModel.shift_amt] iota. rewrite ?coder_encode_leb128, ?debug_write_bits, ?debug_stream_obu. reflexivity.
Qed.
Lemma debug_keep_private : @BuildEncModel.keep_private = @StreamModel.keep_private.
Proof.
  unfold BuildEncModel.keep_private, StreamModel.keep_private; cbv beta delta [BuildModel.shift_amt] iota. reflexivity.
Qed.
Lemma debug_run_stream : @BuildEncModel.run_stream Debug = @StreamModel.run_stream.
Proof.
  unfold BuildEncModel.run_stream, StreamModel.run_stream; cbv beta delta [BuildModel.shift_amt] iota. rewrite ?debug_stream_unit, ?debug_keep_private. reflexivity.
Qed.
Lemma debug_payloads : @BuildEncModel.payloads Debug = @StreamModel.payloads.
Proof.
  unfold BuildEncModel.payloads, StreamModel.payloads; cbv beta delta [BuildModel.shift_amt] iota. rewrite ?debug_payload, ?debug_keep_private. reflexivity.
Qed.
Lemma debug_main_loop : @BuildEncModel.main_loop Debug = @MainModel.main_loop.
Proof.
  unfold BuildEncModel.main_loop, MainModel.main_loop; cbv beta delta [BuildModel.shift_amt] iota. rewrite ?debug_encode_temporal_unit. reflexivity.
Qed.
Lemma debug_main : @BuildEncModel.main Debug = @MainModel.main.
Proof.
  unfold BuildEncModel.main, MainModel.main; cbv beta delta [BuildModel.shift_amt] iota. rewrite ?debug_main_loop. reflexivity.
Qed.
