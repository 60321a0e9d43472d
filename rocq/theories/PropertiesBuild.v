(** C105, C106: the release build. *)
From Coq Require Import ZArith List Bool Lia.
From Verif Require Import Base BitsSpec BitCodecSpec UtilModel RangeCoderModel RangeCoderSpec BitCodecModel
  SessionModel SessionSpec BuildSpec BuildProofs BuildProofs2.
From Verif Require BuildModel.
Import ListNotations.
Open Scope Z_scope.

(** C105. First, reading the two-profile text as a debug build gives the
    functions every other property speaks of. *)
Theorem C105_debug_is_the_model :
  (forall c t out ops, BuildModel.encode_session Debug c t out ops = encode_session c t out ops) /\
  (forall c t q sz ss, BuildModel.decode_session Debug c t q sz ss = decode_session c t q sz ss) /\
  (forall out b n, BuildModel.push_bits_with_size Debug out b n = push_bits_with_size out b n) /\
  (forall out v, BuildModel.encode_uvlc Debug out v = encode_uvlc out v) /\
  (forall q, BuildModel.decode_uvlc Debug q = decode_uvlc q) /\
  (forall out v n, BuildModel.encode_le Debug out v n = encode_le out v n) /\
  (forall q n, BuildModel.decode_le Debug q n = decode_le q n) /\
  (forall out v, BuildModel.encode_leb128 Debug out v = encode_leb128 out v) /\
  (forall nb q, BuildModel.decode_leb128 Debug nb q = decode_leb128 nb q) /\
  (forall out v n, BuildModel.encode_su Debug out v n = encode_su out v n) /\
  (forall q n, BuildModel.decode_su Debug q n = decode_su q n) /\
  (forall out v n, BuildModel.encode_ns Debug out v n = encode_ns out v n) /\
  (forall q n, BuildModel.decode_ns Debug q n = decode_ns q n).
Proof.
  repeat split; intros; auto using debug_encode_session, debug_push_bits_with_size, debug_encode_uvlc,
    debug_encode_le, debug_decode_le, debug_encode_leb128, debug_encode_su, debug_decode_su, debug_encode_ns,
    debug_decode_ns.
Qed.
Print Assumptions C105_debug_is_the_model.

(** Every coding session, valid or not, on any coder and any CDFs. *)
Theorem C105_sessions_agree : forall c t,
  (forall out ops, same_unless_panic (encode_session c t out ops) (BuildModel.encode_session Release c t out ops)) /\
  (forall q sz ss, same_unless_panic (decode_session c t q sz ss) (BuildModel.decode_session Release c t q sz ss)).
Proof.
  intros c t; split; intros.
  - rewrite <- debug_encode_session. apply le_same, le_encode_session.
  - apply le_same, (le_decode_session c t q sz ss).
Qed.
Print Assumptions C105_sessions_agree.

(** Every header codec on every argument. *)
Theorem C105_codecs_agree :
  (forall out b n, same_unless_panic (push_bits_with_size out b n) (BuildModel.push_bits_with_size Release out b n)) /\
  (forall out v, same_unless_panic (encode_uvlc out v) (BuildModel.encode_uvlc Release out v)) /\
  (forall q, same_unless_panic (decode_uvlc q) (BuildModel.decode_uvlc Release q)) /\
  (forall out v n, same_unless_panic (encode_le out v n) (BuildModel.encode_le Release out v n)) /\
  (forall q n, same_unless_panic (decode_le q n) (BuildModel.decode_le Release q n)) /\
  (forall out v, same_unless_panic (encode_leb128 out v) (BuildModel.encode_leb128 Release out v)) /\
  (forall nb q, same_unless_panic (decode_leb128 nb q) (BuildModel.decode_leb128 Release nb q)) /\
  (forall out v n, same_unless_panic (encode_su out v n) (BuildModel.encode_su Release out v n)) /\
  (forall q n, same_unless_panic (decode_su q n) (BuildModel.decode_su Release q n)) /\
  (forall out v n, same_unless_panic (encode_ns out v n) (BuildModel.encode_ns Release out v n)) /\
  (forall q n, same_unless_panic (decode_ns q n) (BuildModel.decode_ns Release q n)).
Proof.
  repeat match goal with |- _ /\ _ => split end; intros;
    rewrite <- ?debug_push_bits_with_size, <- ?debug_encode_uvlc, <- ?debug_encode_le, <- ?debug_decode_le,
      <- ?debug_encode_leb128, <- ?debug_encode_su, <- ?debug_decode_su, <- ?debug_encode_ns, <- ?debug_decode_ns;
    apply le_same.
  - apply le_push_bits_with_size.
  - apply le_encode_uvlc.
  - apply (le_decode_uvlc q).
  - apply le_encode_le.
  - apply le_decode_le.
  - apply le_encode_leb128.
  - apply (le_decode_leb128 nb q).
  - apply le_encode_su.
  - apply le_decode_su.
  - apply le_encode_ns.
  - apply le_decode_ns.
Qed.
Print Assumptions C105_codecs_agree.

(** So sessions round-trip in a release build too, and there even with literals
    wider than 64 bits, which make a debug build panic. *)
Theorem C105_release_round_trip : forall sizes t ops c d out sz tail,
  valid_table sizes t -> Forall (wide_op sizes) ops -> fits ops ->
  0 <= bit_count c < 2 ^ 62 -> 0 <= sz < 2 ^ 28 -> is_bits tail ->
  exists c' t' D d' q',
    BuildModel.encode_session Release c t out ops = Ok (c', t', out ++ D) /\
    BuildModel.decode_session Release d t (D ++ tail) sz (map shape_of ops) = Ok (ops, d', t', q').
Proof. exact rel_session. Qed.
Print Assumptions C105_release_round_trip.

Definition ex_wide_ops : list op := [OSym 0 2; OLit 70 (2 ^ 63 + 5); OBit 128 1; OLit 3 6; OSym 0 0].
Definition ex_wide_table : cdf_table := [[8000; 20000; 32768; 0]].
Example C105_case : Forall2 valid_cdf [3%nat] ex_wide_table /\ Forall (wide_op [3%nat]) ex_wide_ops /\ fits ex_wide_ops /\
  encode_session new_coder ex_wide_table [1] ex_wide_ops = Panic /\
  match BuildModel.encode_session Release new_coder ex_wide_table [1] ex_wide_ops with
  | Ok (_, _, o) =>
      match BuildModel.decode_session Release new_coder ex_wide_table (skipn 1 o ++ [1; 0; 1]) 12 (map shape_of ex_wide_ops) with
      | Ok (os, _, _, _) => (length o, os)
      | _ => (0%nat, [])
      end
  | _ => (0%nat, [])
  end = (97%nat, ex_wide_ops) /\
  BuildModel.decode_uvlc Release [0; 0] = Hang /\ BuildModel.encode_leb128 Release [] (2 ^ 56) = Panic.
Proof.
  split.
  { constructor; [|constructor]. exists [8000; 20000; 32768], 0.
    repeat split; try reflexivity; try lia. repeat constructor; lia. }
  split.
  { unfold ex_wide_ops. repeat (apply Forall_cons; [|]); try apply Forall_nil; cbn [wide_op valid_op];
      try (eexists; split; [reflexivity|lia]); (split; [lia|]); try (right; reflexivity); cbn; lia. }
  split; [unfold fits; cbn; lia|]. repeat split; vm_compute; reflexivity.
Qed.

(** C106 is false of [uvlc]: a release build writes the largest [u32] as the code
    of zero. Every other value is read back. *)
Theorem C106_uvlc : forall v out, 0 <= v < 2 ^ 32 ->
  exists D, BuildModel.encode_uvlc Release out v = Ok (out ++ D) /\
    forall tail, BuildModel.decode_uvlc Release (D ++ tail) = Ok (if v =? 2 ^ 32 - 1 then 0 else v, tail).
Proof. exact rel_uvlc. Qed.
Print Assumptions C106_uvlc.
Theorem C106_silent_uvlc_refuted : exists v D, 0 <= v < 2 ^ 32 /\ BuildModel.encode_uvlc Release [] v = Ok D /\
  exists w, BuildModel.decode_uvlc Release D = Ok (w, []) /\ w <> v.
Proof. exists (2 ^ 32 - 1), [1]. split; [cbn; lia|]. split; [reflexivity|]. exists 0. split; [reflexivity|lia]. Qed.
Print Assumptions C106_silent_uvlc_refuted.

(** [su(n)] works for every width up to 64, also where a debug build panics. *)
Theorem C106_su : forall v n out, 1 <= n <= 64 -> - 2 ^ (n - 1) <= v < 2 ^ (n - 1) ->
  exists D, BuildModel.encode_su Release out v n = Ok (out ++ D) /\ Z.of_nat (length D) = n /\ twos_val D = v /\
    forall tail, BuildModel.decode_su Release (D ++ tail) n = Ok (v, tail).
Proof. exact rel_su. Qed.
Print Assumptions C106_su.
Example C106_su_case : (1 <= 64 <= 64) /\ - 2 ^ (64 - 1) <= - 2 ^ 63 < 2 ^ (64 - 1) /\
  encode_su [] (- 2 ^ 63) 64 = Panic /\ BuildModel.encode_su Release [] (- 2 ^ 63) 64 = Ok (1 :: repeat 0 63) /\
  encode_su [] (-1) 63 = Panic /\ BuildModel.encode_su Release [] (-1) 63 = Ok (repeat 1 63).
Proof. repeat split; try (cbn; lia); vm_compute; reflexivity. Qed.

(** [ns(n)] for the [n] that need 64 bits: all values but the largest are read
    back; the largest is read as zero and one bit too few is consumed. *)
Theorem C106_ns : forall v n out, 2 ^ 63 <= n < 2 ^ 64 -> 0 <= v < n ->
  exists D, BuildModel.encode_ns Release out v n = Ok (out ++ D) /\
    ((v < n - 1 \/ n = 2 ^ 63) -> forall tail, BuildModel.decode_ns Release (D ++ tail) n = Ok (v, tail)) /\
    (v = n - 1 -> 2 ^ 63 < n -> forall tail, BuildModel.decode_ns Release (D ++ tail) n = Ok (0, 0 :: tail)).
Proof.
  intros v n out Hn Hv. destruct (Z.eq_dec v (n - 1)) as [E|E]; [destruct (Z.eq_dec n (2 ^ 63)) as [F|F]|].
  - destruct (rel_ns v n out Hn Hv (or_intror F)) as (D & A & B). exists D. repeat split; [exact A|intros _; exact B|lia].
  - destruct (rel_ns_last n out ltac:(lia)) as [A B]. exists (repeat 0 64). subst v.
    repeat split; [exact A|lia|intros _ _; exact B].
  - destruct (rel_ns v n out Hn Hv ltac:(lia)) as (D & A & B). exists D. repeat split; [exact A|intros _; exact B|lia].
Qed.
Print Assumptions C106_ns.
Theorem C106_silent_ns_refuted : exists n v D, 0 <= v < n /\ n < 2 ^ 64 /\ BuildModel.encode_ns Release [] v n = Ok D /\
  BuildModel.decode_ns Release D n = Ok (0, [0]) /\ v <> 0.
Proof.
  exists (2 ^ 64 - 1), (2 ^ 64 - 2), (repeat 0 64).
  split; [cbn; lia|]. split; [lia|]. split; [vm_compute; reflexivity|]. split; [vm_compute; reflexivity|lia].
Qed.
Print Assumptions C106_silent_ns_refuted.

(** [le(n)] with more than eight bytes: the bytes are written again and again and
    the reader adds them up. *)
Theorem C106_le : forall v n out, 0 <= n <= 255 -> 0 <= v < 2 ^ 64 ->
  exists D, BuildModel.encode_le Release out v n = Ok (out ++ D) /\ Z.of_nat (length D) = 8 * n /\
    forall tail, BuildModel.decode_le Release (D ++ tail) n =
      Ok ((n / 8 * v + v mod 256 ^ (n mod 8)) mod 2 ^ 64, tail).
Proof. exact rel_le. Qed.
Print Assumptions C106_le.
(** Up to 15 bytes that is the value itself exactly when its low bytes are zero. *)
Theorem C106_le_exactly : forall v n out, 8 < n < 16 -> 0 <= v < 2 ^ 64 ->
  exists D w, BuildModel.encode_le Release out v n = Ok (out ++ D) /\
    (forall tail, BuildModel.decode_le Release (D ++ tail) n = Ok (w, tail)) /\
    (w = v <-> v mod 256 ^ (n - 8) = 0).
Proof.
  intros v n out Hn Hv. destruct (rel_le v n out ltac:(lia) Hv) as (D & A & _ & B).
  eexists D, _. split; [exact A|]. split; [exact B|]. exact (rel_le_exact v n Hn Hv).
Qed.
Print Assumptions C106_le_exactly.
Example C106_le_case : encode_le [] 7 9 = Panic /\
  match BuildModel.encode_le Release [] 7 9 with
  | Ok D => (length D, BuildModel.decode_le Release D 9)
  | _ => (0%nat, Panic)
  end = (72%nat, Ok (14, [])).
Proof. split; vm_compute; reflexivity. Qed.
