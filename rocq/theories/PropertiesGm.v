(** C79, continued: what a decoder reads from the global motion parameters. *)
From Coq Require Import ZArith List Bool Lia.
From Verif Require Import Base ElementSpec FrameParamModel FrameSpec FrameProofs4 GmProofs.
Import ListNotations.
Open Scope Z_scope.

(** If only identities and translations are asked for, the bits for LAST to ALTREF2 are
    read as models of these types: the identity as it is, a translation with what
    [gm_misread] says of the two predictions, the first for the first parameter and the
    second for the second. ([gm_low]: the prediction is not positive, to the precision
    coded, and in the range of the code.) A decoder reads one reference more. *)
Theorem C79_read_as : forall out hp p types par prev, length types = 8%nat -> length par = 8%nat -> length prev = 8%nat ->
  (forall i, (1 <= i <= 6)%nat -> gm_asks p i /\ gm_typ p i <= 1 /\ (2 <= length (nth i prev []))%nat /\
     gm_low hp (nth 0 (nth i prev []) 0) /\ gm_low hp (nth 1 (nth i prev []) 0)) ->
  exists bits types' par', enc_gm out false hp p types par prev = Ok (out ++ bits, types', par') /\
    (forall tail, rd_gm hp (firstn 6 (skipn 1 prev)) (bits ++ tail) = Some (map (fun i => gm_read hp p i (nth i prev [])) (seq 1 6), tail)) /\
    forall v, never_decodes bits (rd_gm hp (skipn 1 prev)) v.
Proof. exact gm_read_as. Qed.
Print Assumptions C79_read_as.
(** With the predictions of the encoder, which are 0, a translation by 48 samples is
    read for every translation asked for, and every other model panics. *)
Theorem C79_translation_refuted : forall hp p i, gm_typ p i = 1 ->
  gm_read hp p i (repeat 0 6) = (1, [48 * 2 ^ 16; 48 * 2 ^ 16; 65536; 0; 0; 65536]).
Proof. intros hp p i H. unfold gm_read. rewrite H. cbn [repeat nth]. rewrite misread_zero. reflexivity. Qed.
Print Assumptions C79_translation_refuted.
Theorem C79_models_panic : forall out hp p types par prev i, length types = 8%nat -> length par = 8%nat ->
  (forall j, (1 <= j <= 6)%nat -> nth_error prev j = Some (repeat 0 6) /\ gm_asks p j) -> (1 <= i <= 6)%nat -> 2 <= gm_typ p i ->
  enc_gm out false hp p types par prev = Panic.
Proof. exact gm_models_panic. Qed.
Print Assumptions C79_models_panic.

Definition C79_ask : gmp := mkGM [false; false; true; true; false; false; true; false] (repeat false 8) (repeat true 8).
Definition C79_prev : list (list Z) := repeat [-16384; -49152; 0; 0; 0; 0] 8.
Example C79_hypotheses : (forall i, (1 <= i <= 6)%nat -> gm_asks C79_ask i /\ gm_typ C79_ask i <= 1 /\ (2 <= length (nth i C79_prev []))%nat /\
     gm_low true (nth 0 (nth i C79_prev []) 0) /\ gm_low true (nth 1 (nth i C79_prev []) 0)) /\
  map (gm_typ C79_ask) (seq 1 6) = [0; 1; 1; 0; 0; 1] /\ gm_misread true (-16384) = 3121152 /\ gm_misread true (-49152) = 3072000.
Proof.
  split; [|repeat split; vm_compute; reflexivity]. intros i H.
  assert (i = 1 \/ i = 2 \/ i = 3 \/ i = 4 \/ i = 5 \/ i = 6)%nat as K by lia.
  repeat (destruct K as [->|K]); try subst i; unfold gm_asks, gm_low; cbn; lia.
Qed.
Example C79_panic_case : 2 <= gm_typ (mkGM (repeat true 8) (repeat true 8) (repeat false 8)) 3.
Proof. vm_compute. discriminate. Qed.
