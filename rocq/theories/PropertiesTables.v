(** Property C35: the default CDFs. *)
From Coq Require Import String ZArith List Lia.
From Verif Require Import Base BitsSpec RangeCoderModel RangeCoderSpec SessionModel SessionSpec SegmentProofs
  CdfTables CdfTableSpec CdfTableProofs SessionProofs.
Import ListNotations.
Open Scope list_scope.
Open Scope Z_scope.

(** C35. Every table has the contexts and the alphabet of its syntax element, and
    each of its rows is a valid CDF. *)
Theorem C35_default_tables_valid : forall name dims N, In (name, dims, N) cdf_shapes ->
  exists t, In (name, t) default_cdf /\ table_ok t dims N.
Proof. exact default_tables_ok. Qed.
Print Assumptions C35_default_tables_valid.

(** No field is missing from the list of shapes, and none occurs twice. *)
Theorem C35_no_table_missing :
  map fst default_cdf = map (fun s => fst (fst s)) cdf_shapes /\ NoDup (map fst default_cdf).
Proof. exact default_names. Qed.
Print Assumptions C35_no_table_missing.

(** So a tile may start from the default CDFs: every session of calls on them
    with values in range is coded without a panic and decodes. *)
Theorem C35_default_state_is_safe : forall ops c d out sz tail,
  Forall (valid_op default_sizes) ops -> fits ops ->
  0 <= bit_count c < 2 ^ 62 -> 0 <= sz < 2 ^ 28 -> is_bits tail ->
  exists c' t' D d' used rest,
    encode_session c default_table out ops = Ok (c', t', out ++ D) /\
    D = used ++ rest /\ is_bits D /\
    decode_session d default_table (D ++ tail) sz (map shape_of ops) = Ok (ops, d', t', rest ++ tail).
Proof. exact (fun ops c d out sz tail => session_round_trip default_sizes default_table ops c d out sz tail default_table_valid). Qed.
Print Assumptions C35_default_state_is_safe.

(** The coefficient table at its last index; the whole
    default state has several thousand CDFs. *)
Example C35_instance :
  In ("coeff_base"%string, [4; 5; 2; 42]%nat, 4%nat) cdf_shapes /\
  tab_at cdf_coeff_base [3; 4; 1; 41]%nat <> None /\
  Z.of_nat (List.length default_table) > 3000 /\
  Forall (valid_op default_sizes) [OSym 0 12; OSym 3000 1; OLit 5 17].
Proof.
  split; [|split; [|split]].
  - unfold cdf_shapes. repeat (first [left; reflexivity | right]).
  - vm_compute. discriminate.
  - vm_compute. reflexivity.
  - apply Forall_cons; [exists 13%nat; split; [vm_compute; reflexivity|lia]|].
    apply Forall_cons; [exists 4%nat; split; [vm_compute; reflexivity|lia]|].
    apply Forall_cons; [cbn; lia|]. apply Forall_nil.
Qed.
