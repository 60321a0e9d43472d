(** Properties C47, C52 and C53: agreement with the AV1 specification. *)
From Coq Require Import ZArith List Bool Lia Sorted.
From Verif Require Import Base BitsSpec RangeCoderModel RangeCoderSpec SessionModel SessionSpec BitCodecModel
  SeqSpec SyntaxSpec SyntaxProofs.
Import ListNotations.
Open Scope Z_scope.

(** C47. The exact rule, for the encoder and for the decoder. *)
Theorem C47_encoder_adaptation_rule : forall N cdf s c out c' out' cdf', valid_cdf N cdf -> 0 <= s ->
  encode_symbol c s out cdf = Ok (c', out', cdf') -> draft_adapted N s cdf cdf'.
Proof. exact encode_adapts. Qed.
Print Assumptions C47_encoder_adaptation_rule.
Theorem C47_decoder_adaptation_rule : forall N cdf c q s c' q' cdf', valid_cdf N cdf ->
  decode_symbol c q cdf = Ok (s, c', q', cdf') -> draft_adapted N s cdf cdf'.
Proof. exact decode_adapts. Qed.
Print Assumptions C47_decoder_adaptation_rule.
Lemma even_cdf : valid_cdf 2 [16384; 32768; 0].
Proof. exists [16384; 32768], 0. repeat split; try reflexivity; try lia. repeat constructor; lia. Qed.
Example C47_case : exists c o, encode_symbol (init_encoder new_coder) 2 [] [100; 200; 32000; 32768; 31] =
  Ok (c, o, [99; 198; 32012; 32768; 32]).
Proof. eexists. eexists. vm_compute. reflexivity. Qed.
Example C47_decoder_case : exists c q, decode_symbol (set_vr new_coder 20000 32768) (repeat 0 20) [16384; 32768; 0] =
  Ok (0, c, q, [16895; 32768; 1]).
Proof. eexists. eexists. vm_compute. reflexivity. Qed.
(** It is not the rule of the published standard. *)
Theorem C47_standard_adaptation_refuted : exists N cdf s c out c' out' cdf', valid_cdf N cdf /\ (0 <= s < Z.of_nat N) /\
  encode_symbol c s out cdf = Ok (c', out', cdf') /\ cdf' <> av1_adapt s cdf.
Proof.
  exists 2%nat, [16384; 32768; 0], 0, (init_encoder new_coder), [],
    (mkCoder 0 32768 0 false 0 false 0 0), [], [16895; 32768; 1].
  split; [exact even_cdf|]. split; [lia|]. split; [vm_compute; reflexivity|]. vm_compute. discriminate.
Qed.
Print Assumptions C47_standard_adaptation_refuted.

(** C52. Every code word is read back by the reader of the specification. *)
Theorem C52_uvlc_conforms : forall v out, 0 <= v < 2 ^ 32 - 1 ->
  exists D, encode_uvlc out v = Ok (out ++ D) /\ forall tail, rd_uvlc (D ++ tail) = Some (v, tail).
Proof. exact uvlc_conforms. Qed.
Print Assumptions C52_uvlc_conforms.
Theorem C52_leb128_conforms : forall v out, 0 <= v < 2 ^ 56 ->
  exists D, encode_leb128 out v = Ok (out ++ D) /\ forall tail, rd_leb_bits 8 (D ++ tail) = Some (v, tail).
Proof. exact leb_conforms. Qed.
Print Assumptions C52_leb128_conforms.
Theorem C52_le_conforms : forall v n out, (n <= 8)%nat -> 0 <= v < 256 ^ Z.of_nat n ->
  exists D, encode_le out v (Z.of_nat n) = Ok (out ++ D) /\ forall tail, rd_le n (D ++ tail) = Some (v, tail).
Proof. exact le_conforms. Qed.
Print Assumptions C52_le_conforms.
Theorem C52_su_conforms : forall v n out, (1 <= n <= 62)%nat -> - 2 ^ (Z.of_nat n - 1) <= v < 2 ^ (Z.of_nat n - 1) ->
  exists D, encode_su out v (Z.of_nat n) = Ok (out ++ D) /\ forall tail, rd_su n (D ++ tail) = Some (v, tail).
Proof. exact su_conforms. Qed.
Print Assumptions C52_su_conforms.
Theorem C52_ns_conforms : forall v n out, Zpos n < 2 ^ 63 -> 0 <= v < Zpos n ->
  exists D, encode_ns out v (Zpos n) = Ok (out ++ D) /\ forall tail, rd_ns n (D ++ tail) = Some (v, tail).
Proof. exact ns_conforms. Qed.
Print Assumptions C52_ns_conforms.
Theorem C52_fixed_conforms : forall v n out, (n <= 32)%nat -> 0 <= v < 2 ^ Z.of_nat n ->
  exists D, push_bits_with_size out v (Z.of_nat n) = Ok (out ++ D) /\ forall tail, rd n (D ++ tail) = Some (v, tail).
Proof. exact fixed_conforms. Qed.
Print Assumptions C52_fixed_conforms.
Example C52_case : rd_leb_bits 8 [1; 0; 1; 0; 1; 1; 0; 0; 0; 0; 0; 0; 0; 0; 1; 0; 1; 1] = Some (300, [1; 1]) /\
  rd_su 4 [1; 1; 1; 0; 1; 0] = Some (-2, [1; 0]) /\ rd_ns 5 [1; 1; 0; 1] = Some (3, [1]) /\
  rd_le 2 [0; 0; 0; 0; 0; 0; 0; 1; 0; 0; 0; 0; 0; 0; 1; 0] = Some (513, []) /\
  rd_uvlc [0; 0; 1; 1; 0] = Some (5, []) /\ (1 <= 4 <= 62)%nat /\ - 2 ^ (Z.of_nat 4 - 1) <= -2 < 2 ^ (Z.of_nat 4 - 1).
Proof. repeat split; try reflexivity; try lia; cbn; lia. Qed.

(** C53 is false: a decoder following section 8.2 reads other symbols than were
    coded, in as little as a two bit literal, and in two symbols coded with an
    adaptive even CDF. *)
Theorem C53_standard_decoder_literal_refuted : exists n v c' t' D,
  (n <= 64)%nat /\ 0 <= v < 2 ^ Z.of_nat n /\
  encode_session new_coder [] [] [OLit n v] = Ok (c', t', D) /\
  bits_val (sd_run_static n (sd_init D (Z.of_nat (length D) / 8)) [16384; 32768; 0]) <> v.
Proof.
  exists 2%nat, 1.
  assert (X : exists c' t' D, encode_session new_coder [] [] [OLit 2 1] = Ok (c', t', D) /\
    bits_val (sd_run_static 2 (sd_init D (Z.of_nat (length D) / 8)) [16384; 32768; 0]) = 0).
  { eexists. eexists. eexists. split; [vm_compute; reflexivity|]. vm_compute. reflexivity. }
  destruct X as (c' & t' & D & E & B). exists c', t', D. split; [lia|]. split; [cbn; lia|]. split; [exact E|]. rewrite B. lia.
Qed.
Print Assumptions C53_standard_decoder_literal_refuted.
Theorem C53_standard_decoder_symbols_refuted : exists cdf ss c' t' D,
  valid_cdf 2 cdf /\ Forall (fun s => s < 2)%nat ss /\
  encode_session new_coder [cdf] [] (map (OSym 0) ss) = Ok (c', t', D) /\
  sd_run (length ss) (sd_init D (Z.of_nat (length D) / 8)) cdf <> map Z.of_nat ss.
Proof.
  exists [16384; 32768; 0], [0; 1]%nat.
  assert (X : exists c' t' D, encode_session new_coder [[16384; 32768; 0]] [] (map (OSym 0) [0; 1]%nat) = Ok (c', t', D) /\
    sd_run 2 (sd_init D (Z.of_nat (length D) / 8)) [16384; 32768; 0] = [0; 0]).
  { eexists. eexists. eexists. split; [vm_compute; reflexivity|]. vm_compute. reflexivity. }
  destruct X as (c' & t' & D & E & B). exists c', t', D. split; [exact even_cdf|].
  split; [repeat constructor|]. split; [exact E|]. cbn [length]. rewrite B. discriminate.
Qed.
Print Assumptions C53_standard_decoder_symbols_refuted.
(** The reader itself does work: it reads a segment made for it. *)
Example C53_reader_case :
  sd_run 3 (sd_init [1; 1; 0; 1; 1; 1; 0; 1; 0; 0; 1; 1; 1; 1; 0; 1; 1; 0; 0; 0; 0; 0; 0; 0] 3) [16384; 32768; 0] = [1; 1; 1].
Proof. vm_compute. reflexivity. Qed.
