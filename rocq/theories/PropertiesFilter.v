(** The properties C97 and C98: the prediction and filter tables. *)
From Coq Require Import ZArith List Lia.
From Verif Require Import FilterTables FilterSpec FilterProofs BlockTables LrModel.
Import ListNotations.
Open Scope Z_scope.

(** C97. Every filter leaves a flat area as it is, is the mirror of the filter for the
    mirrored position, and stays in bounds. *)
Theorem C97_interpolation : forall kind k, 0 <= kind < 6 -> 0 <= k < 16 -> exists t f, row subpel_filters kind = Some t /\ row t k = Some f /\ length f = 8%nat /\
  (forall v, (filtered f (repeat v 8) + 64) / 128 = v) /\
  (forall m x, 0 <= m -> length x = 8%nat -> Forall (fun s => 0 <= s <= m) x -> -56 * m <= filtered f x <= 184 * m) /\
  (1 <= k -> exists g, row t (16 - k) = Some g /\ forall x, length x = 8%nat -> filtered f x = filtered g (rev x)).
Proof. exact subpel. Qed.
Print Assumptions C97_interpolation.
Theorem C97_warp : forall k, 0 <= k < 193 -> exists f, row warped_filters k = Some f /\ length f = 8%nat /\
  (forall v, (filtered f (repeat v 8) + 64) / 128 = v) /\
  (forall m x, 0 <= m -> length x = 8%nat -> Forall (fun s => 0 <= s <= m) x -> -47 * m <= filtered f x <= 175 * m) /\
  (1 <= k < 192 -> exists g, row warped_filters (192 - k) = Some g /\ forall x, length x = 8%nat -> filtered f x = filtered g (rev x)).
Proof. exact warped. Qed.
Print Assumptions C97_warp.
Theorem C97_upscaling : forall k, 0 <= k < 64 -> exists f, row upscale_filter k = Some f /\ length f = 8%nat /\
  (forall v, (filtered f (repeat v 8) + 64) / 128 = v) /\
  (forall m x, 0 <= m -> length x = 8%nat -> Forall (fun s => 0 <= s <= m) x -> -44 * m <= filtered f x <= 172 * m) /\
  (1 <= k -> exists g, row upscale_filter (64 - k) = Some g /\ forall x, length x = 8%nat -> filtered f x = filtered g (rev x)).
Proof. exact upscale. Qed.
Print Assumptions C97_upscaling.
(** The bounds are reached. *)
Example C97_case : exists t f, row subpel_filters 2 = Some t /\ row t 8 = Some f /\
  filtered f [0; 255; 0; 255; 255; 0; 255; 0] = 184 * 255 /\ filtered f [255; 0; 255; 0; 0; 255; 0; 255] = -56 * 255.
Proof. do 2 eexists. split; [reflexivity|]. split; [reflexivity|]. split; vm_compute; reflexivity. Qed.

(** C98. The reciprocals are rounded to nearest. *)
Theorem C98_reciprocal : forall i, 0 <= i <= 256 -> exists d, row div_lut i = Some d /\ 2 * Z.abs (d * (256 + i) - 2 ^ 22) <= 256 + i.
Proof. exact reciprocal. Qed.
Print Assumptions C98_reciprocal.
(** The masks grow between 0 and 64; a mask and its mirror add up to 64. *)
Theorem C98_wedge : mask wedge_master_vertical 64 /\ mask wedge_master_oblique_odd 64 /\ mask wedge_master_oblique_even 64 /\
  forall i, 0 <= i < 64 -> exists v v' o e, row wedge_master_vertical i = Some v /\ row wedge_master_vertical (63 - i) = Some v' /\
    row wedge_master_oblique_odd i = Some o /\ row wedge_master_oblique_even (63 - i) = Some e /\ v + v' = 64 /\ o + e = 64.
Proof. exact wedge_masks. Qed.
Print Assumptions C98_wedge.
Theorem C98_overlap : forall l n, In (l, n) [(obmc_mask_2, 2); (obmc_mask_4, 4); (obmc_mask_8, 8); (obmc_mask_16, 16); (obmc_mask_32, 32)] ->
  mask l n /\ row l (n - 1) = Some 64 /\ exists x, row l 0 = Some x /\ 32 < x.
Proof. exact overlap_masks. Qed.
Print Assumptions C98_overlap.
Theorem C98_inter_intra : mask (rev ii_weights_1d) 128 /\ row ii_weights_1d 0 = Some 60 /\ row ii_weights_1d 127 = Some 1.
Proof. exact intra_weights. Qed.
Print Assumptions C98_inter_intra.
Theorem C98_distance : forall i, 0 <= i < 4 -> exists a b, row quant_dist_lookup i = Some [a; b] /\ a + b = 16 /\ 0 < b < a.
Proof. exact distance_weights. Qed.
Print Assumptions C98_distance.
(** The cosines satisfy the addition theorem up to the error of rounding, fall from 4096
    to 0 in the first quarter. *)
Theorem C98_cosine_addition : forall a b, exists p q s d, cos128 cos128_lookup a = Some p /\ cos128 cos128_lookup b = Some q /\
  cos128 cos128_lookup (a + b) = Some s /\ cos128 cos128_lookup (a - b) = Some d /\ Z.abs (2 * p * q - 4096 * (s + d)) <= 9696.
Proof. exact addition. Qed.
Print Assumptions C98_cosine_addition.
Theorem C98_cosine_falls : forall a b, 0 <= a < b -> b <= 64 -> exists p q, cos128 cos128_lookup a = Some p /\ cos128 cos128_lookup b = Some q /\ 0 <= q < p /\ p <= 4096.
Proof. exact cos_falls. Qed.
Print Assumptions C98_cosine_falls.
Theorem C98_cosine_ends : cos128 cos128_lookup 0 = Some 4096 /\ cos128 cos128_lookup 64 = Some 0.
Proof. exact cos_ends. Qed.
Print Assumptions C98_cosine_ends.
(** The parameters of the self guided filter are those of the standard; the code keeps the
    noise level [e] from which the standard's strength 2^20 / (n^2 e), n = (2 r + 1)^2, is
    computed. *)
Theorem C98_self_guided : forall set i, 0 <= set < 16 -> 0 <= i < 2 ->
  exists p s r e strength, row sgr_params set = Some p /\ row av1_sgr_params set = Some s /\ length p = 4%nat /\
    row p (2 * i) = Some r /\ row p (2 * i + 1) = Some e /\ row s i = Some (r, strength) /\
    (r = 0 -> e = 0) /\ (0 < r -> 0 < e /\ 2 * Z.abs (strength * ((2 * r + 1) ^ 4 * e) - 2 ^ 20) <= (2 * r + 1) ^ 4 * e).
Proof. exact self_guided. Qed.
Print Assumptions C98_self_guided.
Example C98_case : cos128 cos128_lookup 32 = Some 2896 /\ cos128 cos128_lookup (-96) = Some (-2896) /\ row div_lut 128 = Some 10923.
Proof. repeat split. Qed.
