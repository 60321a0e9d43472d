(** Property C118: the decoders on bits that no encoder made. *)
From Coq Require Import ZArith List Bool Lia Sorted.
From Verif Require Import Base BitsSpec RangeCoderSpec RangeCoderModel SessionModel SessionSpec BitCodecModel DamageSpec DamageProofs DamageFieldProofs DamageSizeProofs DamageExitProofs.
Import ListNotations.
Open Scope Z_scope.

(** Whatever the bits, the calls give values of their alphabets, leave the tables valid and
    depend on nothing beyond the bits they use, or the bits are cut short. *)
Theorem C118_any_bits : forall sizes d t q sz ss, valid_table sizes t -> Forall (shape_ok sizes) ss -> few_symbols ss -> is_bits q -> 0 <= sz < 2 ^ 28 ->
  (exists used q' ops t', q = used ++ q' /\ session_reads sizes d t sz ss used ops t') \/
  (decode_session d t q sz ss = Panic /\ exists more ops t', more <> [] /\ is_bits more /\ session_reads sizes d t sz ss (q ++ more) ops t').
Proof. exact any_session. Qed.
Print Assumptions C118_any_bits.
Theorem C118_panics_iff_cut_short : forall sizes d t q sz ss, valid_table sizes t -> Forall (shape_ok sizes) ss -> few_symbols ss -> is_bits q -> 0 <= sz < 2 ^ 28 ->
  (decode_session d t q sz ss = Panic <-> exists more ops t', more <> [] /\ is_bits more /\ session_reads sizes d t sz ss (q ++ more) ops t').
Proof. exact session_panics_iff. Qed.
Print Assumptions C118_panics_iff_cut_short.

(** The same for every parser that chooses its next call by the values read so far. *)
Theorem C118_any_parser : forall sizes d t q sz n m f, valid_table sizes t -> (forall h, Forall (valid_op sizes) h -> shape_ok sizes (f h) /\ (shape_symbols (f h) <= m)%nat) ->
  Z.of_nat (n * m) <= 2 ^ 26 -> is_bits q -> 0 <= sz < 2 ^ 28 ->
  (exists used q' ops t', q = used ++ q' /\ parser_reads sizes d t sz n f used ops t') \/
  (('(c, q) <- init_decoder d q sz ;; decode_adaptive n f [] c t q) = Panic /\ exists more ops t', more <> [] /\ is_bits more /\ parser_reads sizes d t sz n f (q ++ more) ops t').
Proof. exact any_parser. Qed.
Print Assumptions C118_any_parser.

(** The fields of headers. *)
Theorem C118_any_fields :
  (forall n, 0 <= n <= 8 -> reads_any (fun v => 0 <= v < 256 ^ n) (fun q => decode_le q n)) /\
  (forall nb, 0 <= nb < 2 ^ 64 - 8 -> reads_any (fun a => 0 <= fst a < 2 ^ 56 /\ nb + 1 <= snd a <= nb + 8) (fun q => '(v, nb, q) <- decode_leb128 nb q ;; Ok ((v, nb), q))) /\
  (forall n, 1 <= n <= 62 -> reads_any (fun v => - 2 ^ (n - 1) <= v < 2 ^ (n - 1)) (fun q => decode_su q n)) /\
  (forall n, 1 <= n < 2 ^ 63 -> reads_any (fun v => 0 <= v < n) (fun q => decode_ns q n)).
Proof. split; [exact any_le|]. split; [exact any_leb|]. split; [exact any_su|exact any_ns]. Qed.
Print Assumptions C118_any_fields.
(** uvlc, for which bits without a one do not end (C15). *)
Theorem C118_any_uvlc : forall q, is_bits q -> Z.of_nat (length q) < 2 ^ 31 -> In 1 q ->
  (exists v used q', q = used ++ q' /\ 0 <= v < 2 ^ 32 /\ forall tail, decode_uvlc (used ++ tail) = Ok (v, tail)) \/
  (decode_uvlc q = Panic /\ exists v more, more <> [] /\ is_bits more /\ 0 <= v < 2 ^ 32 /\ forall tail, decode_uvlc (q ++ more ++ tail) = Ok (v, tail)).
Proof. exact any_uvlc. Qed.
Print Assumptions C118_any_uvlc.

(** Three symbols of an alphabet of four and a literal of three bits; 24 bits, then 20. *)
Definition ex_table : cdf_table := [[8192; 16384; 24576; 32768; 0]].
Definition ex_shapes : list shape := [SSym 0; SSym 0; SSym 0; SLit 3].
Definition ex_bits : list Z := [1; 0; 1; 1; 1; 0; 0; 1; 0; 1; 1; 0; 1; 1; 1; 0; 1; 0; 0; 1; 1; 1; 1; 0].
Lemma ex_table_valid : valid_table [4%nat] ex_table.
Proof.
  repeat constructor. exists [8192; 16384; 24576; 32768], 0. split; [reflexivity|]. split; [reflexivity|]. split; [lia|]. split; [repeat constructor; lia|]. split; [reflexivity|lia].
Qed.
Lemma ex_bits_bits : is_bits ex_bits.
Proof. unfold is_bits, ex_bits, is_bit. repeat (apply Forall_cons; [lia|]). apply Forall_nil. Qed.
Example C118_case : Forall (shape_ok [4%nat]) ex_shapes /\ few_symbols ex_shapes /\
  match decode_session new_coder ex_table ex_bits 2 ex_shapes with Ok (ops, _, _, q) => ops = [OSym 0 2; OSym 0 3; OSym 0 2; OLit 3 3] /\ q = [] | _ => False end /\
  decode_session new_coder ex_table (firstn 20 ex_bits) 2 ex_shapes = Panic.
Proof.
  split; [repeat constructor; cbn; lia|]. split; [unfold few_symbols; cbn; lia|]. split; vm_compute; [split|]; reflexivity.
Qed.

(** The size given to the decoder does not stop it: told that the segment has two bytes,
    it reads on in what follows them. *)
Theorem C118_past_end_refuted : exists t ss q used q' ops t', valid_table [4%nat] t /\ is_bits q /\ q = used ++ q' /\
  session_reads [4%nat] new_coder t 2 ss used ops t' /\ 8 * 2 < Z.of_nat (length used).
Proof.
  exists ex_table, ex_shapes, ex_bits.
  destruct (C118_any_bits [4%nat] new_coder ex_table ex_bits 2 ex_shapes ex_table_valid) as [(used & q' & ops & t' & E & R)|(P & _)].
  - repeat constructor; cbn; lia.
  - unfold few_symbols; cbn; lia.
  - exact ex_bits_bits.
  - lia.
  - exists used, q', ops, t'. split; [exact ex_table_valid|]. split; [exact ex_bits_bits|]. split; [exact E|]. split; [exact R|].
    destruct R as (_ & _ & _ & d' & R). specialize (R q'). rewrite <- E in R.
    assert (L : match decode_session new_coder ex_table ex_bits 2 ex_shapes with Ok (_, _, _, r) => length r = 0%nat | _ => False end) by (vm_compute; reflexivity).
    rewrite R in L. assert (length ex_bits = 24%nat) by reflexivity. rewrite E, app_length in H. lia.
  - assert (L : decode_session new_coder ex_table ex_bits 2 ex_shapes <> Panic) by (vm_compute; discriminate). contradiction.
Qed.
Print Assumptions C118_past_end_refuted.

(** A parser that reads a symbol and then as many literal bits as the symbol says. *)
Definition ex_parser (h : list op) : shape := match last h (OLit 0 0) with OSym _ s => SLit (Nat.min s 3) | _ => SSym 0 end.
Example C118_parser_case : (forall h, Forall (valid_op [4%nat]) h -> shape_ok [4%nat] (ex_parser h) /\ (shape_symbols (ex_parser h) <= 3)%nat) /\
  match '(c, q) <- init_decoder new_coder ex_bits 2 ;; decode_adaptive 4 ex_parser [] c ex_table q with
  | Ok (ops, _, _, q) => ops = [OSym 0 2; OLit 2 3; OSym 0 2; OLit 2 1] /\ length q = 1%nat | _ => False end.
Proof.
  split.
  - intros h _. unfold ex_parser. destruct (last h (OLit 0 0)); cbn; lia.
  - vm_compute. split; reflexivity.
Qed.
Example C118_fields_case : decode_le [0; 0; 0; 0; 0; 0; 1; 1; 1; 0] 1 = Ok (3, [1; 0]) /\ decode_ns [1; 1] 5 = Panic /\ decode_ns [1; 1; 0] 5 = Ok (3, []) /\
  decode_uvlc [0; 0; 1; 1] = Panic /\ decode_uvlc [0; 0; 1; 1; 0] = Ok (5, []).
Proof. repeat split. Qed.

(** The size has no influence at all on what is read, nor has anything the coder was used
    for before: two sizes and two coders give the same values, tables and remaining bits,
    or both panic. *)
Theorem C118_size_ignored : forall sizes d1 d2 t q sz1 sz2 ss, valid_table sizes t -> Forall (shape_ok sizes) ss -> few_symbols ss -> is_bits q -> 0 <= sz1 < 2 ^ 28 -> 0 <= sz2 < 2 ^ 28 ->
  match decode_session d1 t q sz1 ss, decode_session d2 t q sz2 ss with
  | Ok (o1, _, t1, q1), Ok (o2, _, t2, q2) => o1 = o2 /\ t1 = t2 /\ q1 = q2
  | Panic, Panic => True
  | _, _ => False
  end.
Proof. exact size_ignored. Qed.
Print Assumptions C118_size_ignored.
(** The same without a bound on the calls, for sessions that end. *)
Theorem C118_size_ignored_long : forall d1 d2 t q sz1 sz2 ss o1 c1 t1 q1 o2 c2 t2 q2,
  decode_session d1 t q sz1 ss = Ok (o1, c1, t1, q1) -> decode_session d2 t q sz2 ss = Ok (o2, c2, t2, q2) -> o1 = o2 /\ t1 = t2 /\ q1 = q2.
Proof. exact session_alike. Qed.
Print Assumptions C118_size_ignored_long.
Example C118_size_case : match decode_session new_coder ex_table ex_bits 2 ex_shapes, decode_session new_coder ex_table ex_bits 1000 ex_shapes with
  | Ok (o1, c1, _, _), Ok (o2, c2, _, _) => o1 = o2 /\ bool_max_bits c1 <> bool_max_bits c2 | _, _ => False end.
Proof. vm_compute. split; [reflexivity|discriminate]. Qed.
(** The same for a parser. *)
Theorem C118_size_ignored_parser : forall n f d1 d2 t q sz1 sz2 o1 c1 t1 q1 o2 c2 t2 q2,
  ('(c, q) <- init_decoder d1 q sz1 ;; decode_adaptive n f [] c t q) = Ok (o1, c1, t1, q1) ->
  ('(c, q) <- init_decoder d2 q sz2 ;; decode_adaptive n f [] c t q) = Ok (o2, c2, t2, q2) -> o1 = o2 /\ t1 = t2 /\ q1 = q2.
Proof. exact parser_alike. Qed.
Print Assumptions C118_size_ignored_parser.

(** Where the decoder leaves the queue after [exit_decoder], for any bits: the count of
    bits left is lowered twice for each bit read, so it is the end of the segment exactly
    if nothing was read after the first 15 bits, or all of the segment. *)
Theorem C118_exit_exactly : forall d t q sz ss o c t' q', 2 <= sz < 2 ^ 28 -> 8 * sz <= len q -> decode_session d t q sz ss = Ok (o, c, t', q') ->
  exists used, q = used ++ q' /\ snd (exit_decoder c q') = skipn (Z.to_nat (Z.max (len used) (8 * sz + 15 - len used))) q /\
    (snd (exit_decoder c q') = skipn (Z.to_nat (8 * sz)) q <-> len used = 15 \/ len used = 8 * sz).
Proof. exact exit_exactly. Qed.
Print Assumptions C118_exit_exactly.
(** One symbol read from a segment of three bytes: the decoder stops short of its end. *)
Example C118_exit_case : match decode_session new_coder ex_table ex_bits 3 [SSym 0] with
  | Ok (_, c, _, q) => (length q, length (snd (exit_decoder c q))) = (7%nat, 2%nat) | _ => False end.
Proof. vm_compute. reflexivity. Qed.
