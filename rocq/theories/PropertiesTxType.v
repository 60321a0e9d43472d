(** C102: the transform type of a block is the one a decoder reads. *)
From Coq Require Import ZArith List Bool Lia String.
From Verif Require Import Base BitsSpec RangeCoderModel RangeCoderSpec SessionModel SessionSpec BlockTables ContextModel ContextSpec CdfTableSpec CdfTableProofs CdfTables TxTypeSpec TxTypeProofs.
Import ListNotations.
Open Scope Z_scope.

(** C102: the lists of the crate that say which type a symbol stands for are those of
    the standard, and name each type of the set once. The writers do not use them. *)
Theorem C102_lists :
  tx_type_intra_inv_set1 = std_symbols false 1 /\ tx_type_intra_inv_set2 = std_symbols false 2 /\
  tx_type_inter_inv_set1 = std_symbols true 1 /\ tx_type_inter_inv_set12 = std_symbols true 2 /\ tx_type_inter_inv_set3 = std_symbols true 3 /\
  forall (is_inter : bool) set, 1 <= set <= (if is_inter then 3 else 2) ->
    NoDup (std_symbols is_inter set) /\ forall ty, In ty (std_symbols is_inter set) <-> In ty (spec_set_types is_inter set).
Proof. repeat (split; [reflexivity|]). exact symbols_set. Qed.
Print Assumptions C102_lists.

(** C102: the writers take a CDF with as many symbols as the set has types, and code
    the number of the type. *)
Theorem C102_written_inter : forall t red ty, 0 <= t < 19 -> spec_tx_set t true red <> 0 ->
  exists set name path, get_tx_set t true red = Ok set /\ encode_inter_tx_type ty t set = Ok (name, path, ty) /\
    In (name, [4]%nat, List.length (std_symbols true (spec_tx_set t true red))) cdf_shapes.
Proof. exact inter_written. Qed.
Print Assumptions C102_written_inter.
Theorem C102_written_intra : forall t red ty use fm y, 0 <= t < 19 -> spec_tx_set t false red <> 0 -> (use = true -> 0 <= fm < 5) ->
  exists set name path, get_tx_set t false red = Ok set /\ encode_intra_tx_type ty set t use fm y = Ok (name, path, ty) /\
    In (name, [4; 13]%nat, List.length (std_symbols false (spec_tx_set t false red))) cdf_shapes.
Proof. exact intra_written. Qed.
Print Assumptions C102_written_intra.

(** C102: but the symbol with the number of a type never stands for that type. *)
Theorem C102_never_read_back : forall (is_inter : bool) set ty, 1 <= set <= (if is_inter then 3 else 2) -> In ty (spec_set_types is_inter set) ->
  nth_error (std_symbols is_inter set) (Z.to_nat ty) <> Some ty.
Proof. exact never_same. Qed.
Print Assumptions C102_never_read_back.

(** C102: so for every type of a set, and every CDF with as many symbols, coding the
    type either panics or is read by the decoder as another type of the set. *)
Theorem C102_outcome : forall (is_inter : bool) set ty cdf c d out sz tail, 1 <= set <= (if is_inter then 3 else 2) -> In ty (spec_set_types is_inter set) ->
  valid_cdf (List.length (std_symbols is_inter set)) cdf -> 0 <= bit_count c < 2 ^ 62 -> 0 <= sz < 2 ^ 28 -> is_bits tail ->
  encode_session c [cdf] out [OSym 0 (Z.to_nat ty)] = Panic \/
  exists c' t' D s d' t'' rest, encode_session c [cdf] out [OSym 0 (Z.to_nat ty)] = Ok (c', t', (out ++ D)%list) /\
    decode_session d [cdf] (D ++ tail)%list sz [SSym 0] = Ok ([OSym 0 s], d', t'', rest) /\
    exists ty', nth_error (std_symbols is_inter set) s = Some ty' /\ In ty' (spec_set_types is_inter set) /\ ty' <> ty.
Proof.
  intros i set ty cdf c d out sz tail S I V C Z T. destruct (none_far i set ty S I) as [L|L].
  - right. exact (read_other i set ty cdf c d out sz tail S I L V C Z T).
  - left. exact (outcome_beyond _ _ _ _ _ V L).
Qed.
Print Assumptions C102_outcome.

(** C102: the identity (9) panics in every set but the two largest of inter blocks. *)
Theorem C102_identity : forall (is_inter : bool) set cdf c out, 1 <= set <= (if is_inter then 3 else 2) -> ~ (is_inter = true /\ set <= 2) ->
  valid_cdf (List.length (std_symbols is_inter set)) cdf -> In 9 (spec_set_types is_inter set) /\ encode_op c [cdf] out (OSym 0 9) = Panic.
Proof. exact identity_panics. Qed.
Print Assumptions C102_identity.

Theorem C102_refuted : exists t red ty set name path, 0 <= t < 19 /\ In ty (spec_set_types false (spec_tx_set t false red)) /\
  get_tx_set t false red = Ok set /\ encode_intra_tx_type ty set t false 0 0 = Ok (name, path, ty) /\
  nth_error (std_symbols false (spec_tx_set t false red)) (Z.to_nat ty) = Some 9 /\ ty = 0.
Proof. exists 0, false, 0, 1, "intra_tx_type_set1"%string, [0; 0]. repeat split; try lia. left. reflexivity. Qed.
Print Assumptions C102_refuted.

(** A 4x4 intra block: the set has seven types; its first CDF in the crate is valid. *)
Example C102_case : spec_tx_set 0 false false = 1 /\ List.length (std_symbols false 1) = 7%nat /\ get_tx_set 0 false false = Ok 1 /\
  encode_intra_tx_type 3 1 0 false 0 2 = Ok ("intra_tx_type_set1"%string, [0; 2], 3) /\ nth_error (std_symbols false 1) 3 = Some 11.
Proof. repeat split. Qed.
Example C102_cdf : valid_cdf 7 [1535; 8035; 9461; 12751; 23467; 27825; 32768; 0].
Proof. apply row_okb_ok. reflexivity. Qed.
