(** Properties C13-C23 and C46: header codecs and integer helpers. *)
From Coq Require Import ZArith List Bool Lia.
From Verif Require Import Base BitsSpec UtilModel UtilSpec UtilProofs BitCodecModel BitCodecSpec FieldModel FieldProofs.
Import ListNotations.
Open Scope Z_scope.

(** C13. *)
Theorem C13_uvlc_round_trip : forall v out k, 0 <= v < 2 ^ 32 - 1 -> is_floor_log2 (v + 1) k ->
  exists D, encode_uvlc out v = Ok (out ++ D) /\ Z.of_nat (length D) = 2 * k + 1 /\
    forall tail, decode_uvlc (D ++ tail) = Ok (v, tail).
Proof. exact uvlc_round_trip. Qed.
Print Assumptions C13_uvlc_round_trip.
Example C13_case : (0 <= 4294967294 < 2 ^ 32 - 1) /\ is_floor_log2 (4294967294 + 1) 31 /\
  encode_uvlc [1] 5 = Ok [1; 0; 0; 1; 1; 0].
Proof. repeat split; cbn; lia. Qed.

(** C14 is false: the largest u32 makes [encode_uvlc] panic ([val + 1]), although
    [decode_uvlc] can return it. *)
Theorem C14_uvlc_every_u32_refuted : exists v, 0 <= v < 2 ^ 32 /\ (forall out, encode_uvlc out v = Panic) /\
  exists q, is_bits q /\ decode_uvlc q = Ok (v, []).
Proof.
  exists (2 ^ 32 - 1). split; [cbn; lia|]. split; [exact uvlc_max|]. exists (repeat 0 32 ++ [1]).
  split; [repeat constructor; ((left; reflexivity) || (right; reflexivity))|exact (uvlc_escape 32 [] ltac:(lia) ltac:(cbn; lia))].
Qed.
Print Assumptions C14_uvlc_every_u32_refuted.

(** C15 is false: [decode_uvlc] runs for ever exactly when the queue holds no one
    bit, e.g. on an empty queue. (Queues below 2^31 bits: beyond that the i32
    counter of zeros overflows first.) *)
Theorem C15_uvlc_decode_hangs_iff : forall q, is_bits q -> Z.of_nat (length q) < 2 ^ 31 ->
  (decode_uvlc q = Hang <-> ~ In 1 q).
Proof. exact decode_uvlc_hang. Qed.
Print Assumptions C15_uvlc_decode_hangs_iff.
Theorem C15_uvlc_decode_terminates_refuted : exists q, is_bits q /\ decode_uvlc q = Hang.
Proof. exists [0; 0; 0]. split; [repeat constructor; left; reflexivity|reflexivity]. Qed.
Print Assumptions C15_uvlc_decode_terminates_refuted.

(** C16. *)
Theorem C16_leb128_round_trip : forall v out nb s, 0 <= v < 2 ^ 56 -> is_leb_size v s -> 0 <= nb -> nb + s < 2 ^ 64 ->
  1 <= s <= 8 /\
  exists D, encode_leb128 out v = Ok (out ++ D) /\ Z.of_nat (length D) = 8 * s /\
    forall tail, decode_leb128 nb (D ++ tail) = Ok (v, nb + s, tail).
Proof. exact leb_round_trip. Qed.
Print Assumptions C16_leb128_round_trip.
(** No bit string that decodes to [v] is shorter. *)
Theorem C16_leb128_shortest : forall v s q nb nb' q', is_bits q -> is_leb_size v s -> 0 <= nb < 2 ^ 64 - 8 ->
  decode_leb128 nb q = Ok (v, nb', q') -> 8 * s + Z.of_nat (length q') <= Z.of_nat (length q).
Proof. exact leb_shortest. Qed.
Print Assumptions C16_leb128_shortest.
(** Larger values are rejected by the assertion. *)
Theorem C16_leb128_limit : forall out v, 2 ^ 56 <= v -> encode_leb128 out v = Panic.
Proof. exact LebProofs.encode_leb128_big. Qed.
Print Assumptions C16_leb128_limit.
Example C16_case : 0 <= 300 < 2 ^ 56 /\ is_leb_size 300 2 /\
  encode_leb128 [] 300 = Ok [1; 0; 1; 0; 1; 1; 0; 0; 0; 0; 0; 0; 0; 0; 1; 0].
Proof. unfold is_leb_size. cbn. repeat split; lia. Qed.
Example C16_shortest_case :
  decode_leb128 7 [1; 0; 1; 0; 1; 1; 0; 0; 1; 0; 0; 0; 0; 0; 1; 0; 0; 0; 0; 0; 0; 0; 0; 0; 1] = Ok (300, 10, [1]).
Proof. reflexivity. Qed.

(** C17. *)
Theorem C17_le_round_trip : forall v n out, 0 <= n <= 8 -> 0 <= v < 256 ^ n ->
  exists D, encode_le out v n = Ok (out ++ D) /\ Z.of_nat (length D) = 8 * n /\ le_val (Z.to_nat n) D = v /\
    forall tail, decode_le (D ++ tail) n = Ok (v, tail).
Proof. exact le_round_trip. Qed.
Print Assumptions C17_le_round_trip.
Example C17_case : 0 <= 513 < 256 ^ 2 /\ encode_le [] 513 2 = Ok [0; 0; 0; 0; 0; 0; 0; 1; 0; 0; 0; 0; 0; 0; 1; 0].
Proof. cbn. repeat split; lia. Qed.

(** C18. *)
Theorem C18_su_round_trip : forall v n out, 1 <= n <= 62 -> - 2 ^ (n - 1) <= v < 2 ^ (n - 1) ->
  exists D, encode_su out v n = Ok (out ++ D) /\ Z.of_nat (length D) = n /\ twos_val D = v /\
    forall tail, decode_su (D ++ tail) n = Ok (v, tail).
Proof. exact su_round_trip. Qed.
Print Assumptions C18_su_round_trip.
(** Nothing outside the range is ever decoded. *)
Theorem C18_su_only_range : forall q n v q', is_bits q -> 1 <= n <= 62 -> decode_su q n = Ok (v, q') ->
  - 2 ^ (n - 1) <= v < 2 ^ (n - 1).
Proof. exact su_range. Qed.
Print Assumptions C18_su_only_range.
Example C18_case : - 2 ^ (7 - 1) <= -64 < 2 ^ (7 - 1) /\ encode_su [] (-64) 7 = Ok [1; 0; 0; 0; 0; 0; 0] /\
  decode_su [1; 1; 1; 0; 1; 0] 4 = Ok (-2, [1; 0]).
Proof. cbn. repeat split; lia. Qed.

(** C19. *)
Theorem C19_ns_round_trip : forall v n out k, 1 <= n < 2 ^ 63 -> 0 <= v < n -> is_floor_log2 n k ->
  exists D, encode_ns out v n = Ok (out ++ D) /\
    Z.of_nat (length D) = (if v <? 2 ^ (k + 1) - n then k else k + 1) /\
    forall tail, decode_ns (D ++ tail) n = Ok (v, tail).
Proof. exact ns_round_trip. Qed.
Print Assumptions C19_ns_round_trip.
Theorem C19_ns_prefix_free : forall n a b A B x, 1 <= n < 2 ^ 63 -> 0 <= a < n -> 0 <= b < n ->
  encode_ns [] a n = Ok A -> encode_ns [] b n = Ok B -> B = A ++ x -> a = b /\ x = [].
Proof. exact ns_prefix_free. Qed.
Print Assumptions C19_ns_prefix_free.
Example C19_case : (1 <= 5 < 2 ^ 63) /\ is_floor_log2 5 2 /\
  map (fun v => encode_ns [] v 5) [0; 1; 2; 3; 4] = map Ok [[0; 0]; [0; 1]; [1; 0]; [1; 1; 0]; [1; 1; 1]].
Proof. repeat split; cbn; lia. Qed.

(** C20. *)
Theorem C20_headers_parse_back : forall l out, Forall field_ok l -> exists D, write_fields out l = Ok (out ++ D) /\
  forall nb tail, 0 <= nb -> nb + 8 * Z.of_nat (length l) < 2 ^ 64 -> exists nb',
    read_fields nb (D ++ tail) (map syntax_of l) = Ok (l, nb', tail).
Proof. exact fields_round_trip. Qed.
Print Assumptions C20_headers_parse_back.
Definition ex_fields : list field := [FBits 5 3; FUvlc 9; FNs 3 5; FSu (-7) 4; FLeb 1000; FLe 70000 3; FBits 0 1].
Example C20_case : Forall field_ok ex_fields /\
  match write_fields [1; 1] ex_fields with Ok o => length o | _ => 0%nat end = 60%nat.
Proof. split; [repeat constructor; cbn; lia|vm_compute; reflexivity]. Qed.

(** C21. *)
Theorem C21_uvlc_canonical : forall q v q', is_bits q -> decode_uvlc q = Ok (v, q') -> v <> 2 ^ 32 - 1 ->
  exists D, q = D ++ q' /\ encode_uvlc [] v = Ok D.
Proof. exact uvlc_canonical. Qed.
Print Assumptions C21_uvlc_canonical.
(** The excluded value is what 32 or more leading zeros decode to. *)
Theorem C21_uvlc_escape : forall k q, (32 <= k)%nat -> Z.of_nat k < 2 ^ 31 ->
  decode_uvlc (repeat 0 k ++ 1 :: q) = Ok (2 ^ 32 - 1, q).
Proof. exact uvlc_escape. Qed.
Print Assumptions C21_uvlc_escape.
Theorem C21_le_canonical : forall q n v q', is_bits q -> 0 <= n <= 8 -> decode_le q n = Ok (v, q') ->
  exists D, q = D ++ q' /\ encode_le [] v n = Ok D.
Proof. exact le_canonical. Qed.
Print Assumptions C21_le_canonical.
Theorem C21_su_canonical : forall q n v q', is_bits q -> 1 <= n <= 62 -> decode_su q n = Ok (v, q') ->
  exists D, q = D ++ q' /\ encode_su [] v n = Ok D.
Proof. exact su_canonical. Qed.
Print Assumptions C21_su_canonical.
Theorem C21_ns_canonical : forall q n v q', is_bits q -> 1 <= n < 2 ^ 63 -> decode_ns q n = Ok (v, q') ->
  v < n /\ exists D, q = D ++ q' /\ encode_ns [] v n = Ok D.
Proof. exact ns_canonical. Qed.
Print Assumptions C21_ns_canonical.
Theorem C21_leb128_canonical : forall nb q v nb' q', is_bits q -> 0 <= nb < 2 ^ 64 - 8 ->
  decode_leb128 nb q = Ok (v, nb', q') ->
  exists D, q = D ++ q' /\ Z.of_nat (length D) = 8 * (nb' - nb) /\ 0 <= v < 2 ^ 56 /\
    (leb_minimal D <-> encode_leb128 [] v = Ok D).
Proof. exact LebProofs.decode_leb128_canonical. Qed.
Print Assumptions C21_leb128_canonical.
Example C21_case :
  decode_uvlc [0; 0; 1; 1; 0; 1] = Ok (5, [1]) /\ decode_le [0; 0; 0; 0; 0; 1; 0; 0; 1] 1 = Ok (4, [1]) /\
  decode_su [1; 0; 1; 1] 3 = Ok (-3, [1]) /\ decode_ns [1; 1; 0; 1] 5 = Ok (3, [1]) /\
  decode_leb128 0 [1; 0; 0; 0; 0; 0; 0; 1; 0; 0; 0; 0; 0; 0; 0; 0] = Ok (1, 2, []) /\
  encode_leb128 [] 1 = Ok [0; 0; 0; 0; 0; 0; 0; 1].
Proof. repeat split; reflexivity. Qed.

(** C22. [0] is returned for [0]. *)
Theorem C22_msb16 : forall n, 0 <= n < 2 ^ 16 -> exists k, msb16 n = Ok k /\
  (n = 0 -> k = 0) /\ (0 < n -> is_floor_log2 n k).
Proof.
  intros n H. exists (Z.log2 n). split; [exact (msb16_log2 n H)|].
  split; [intros ->; reflexivity|exact (log2_is_floor n)].
Qed.
Print Assumptions C22_msb16.
Theorem C22_msb32 : forall n, 0 <= n < 2 ^ 32 -> exists k, msb32 n = Ok k /\
  (n = 0 -> k = 0) /\ (0 < n -> is_floor_log2 n k).
Proof.
  intros n H. exists (Z.log2 n). split; [exact (msb32_log2 n H)|].
  split; [intros ->; reflexivity|exact (log2_is_floor n)].
Qed.
Print Assumptions C22_msb32.
Theorem C22_msb64 : forall n, 0 <= n < 2 ^ 64 -> exists k, msb64 n = Ok k /\
  (n = 0 -> k = 0) /\ (0 < n -> is_floor_log2 n k).
Proof.
  intros n H. exists (Z.log2 n). split; [exact (msb64_log2 n H)|].
  split; [intros ->; reflexivity|exact (log2_is_floor n)].
Qed.
Print Assumptions C22_msb64.
Example C22_case : msb64 (2 ^ 64 - 1) = Ok 63 /\ msb32 65536 = Ok 16 /\ msb16 255 = Ok 7.
Proof. repeat split; reflexivity. Qed.

(** C23. *)
Theorem C23_floor_log2 : forall n, 0 < n < 2 ^ 64 -> exists k, FloorLog2 n = Ok k /\ is_floor_log2 n k.
Proof. intros n H. exists (Z.log2 n). split; [exact (FloorLog2_ok n H)|apply log2_is_floor; lia]. Qed.
Print Assumptions C23_floor_log2.
Theorem C23_clip3 : forall lo hi z, lo <= hi -> lo <= Clip3 lo hi z <= hi /\
  forall y, lo <= y <= hi -> Z.abs (z - Clip3 lo hi z) <= Z.abs (z - y).
Proof. exact clip3_spec. Qed.
Print Assumptions C23_clip3.
Theorem C23_round2 : forall x n, 0 <= n ->
  is_rounded x n (Round2 x n) /\ forall r, is_rounded x n r -> r = Round2 x n.
Proof.
  intros x n H. split; [exact (Round2_rounded x n H)|].
  intros r Hr. exact (is_rounded_unique x n r _ H Hr (Round2_rounded x n H)).
Qed.
Print Assumptions C23_round2.
(** The last part is false: [Round2Signed] does not negate its result. It is odd
    exactly at the arguments that round to zero. *)
Theorem C23_round2signed_odd_refuted : exists x n, 0 <= n /\ Round2Signed (- x) n <> - Round2Signed x n.
Proof. exists 3, 1. split; [lia|]. vm_compute. discriminate. Qed.
Print Assumptions C23_round2signed_odd_refuted.
Theorem C23_round2signed_odd_iff : forall x n, 0 <= n ->
  (Round2Signed (- x) n = - Round2Signed x n <-> 2 * Z.abs x < 2 ^ n).
Proof. exact round2signed_odd_iff. Qed.
Print Assumptions C23_round2signed_odd_iff.
Example C23_case : Round2 5 1 = 3 /\ Round2 (-5) 1 = -2 /\ Clip3 0 255 300 = 255 /\ FloorLog2 1023 = Ok 9.
Proof. repeat split; reflexivity. Qed.

(** C46. *)
Theorem C46_padding : forall out, exists k, push_bits_align out = out ++ repeat 0 k /\ (k < 8)%nat /\
  Z.of_nat (length (push_bits_align out)) mod 8 = 0.
Proof. exact push_bits_align_ok. Qed.
Print Assumptions C46_padding.
Theorem C46_push_bits : forall l out, push_bits out l = out ++ l.
Proof. exact push_bits_ok. Qed.
Print Assumptions C46_push_bits.
Example C46_case : push_bits_align (push_bits [1] [1; 0]) = [1; 1; 0; 0; 0; 0; 0; 0].
Proof. reflexivity. Qed.
