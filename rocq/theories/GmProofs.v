(** What a decoder reads from the global motion parameters of a header. *)
From Coq Require Import ZArith List Bool Lia ZifyBool ZifyNat.
From Verif Require Import Base BaseProofs TableLemmas UtilModel BitsSpec BitsProofs SessionModel SeqModel SeqSpec SeqProofs ElementModel ElementProofs
  ElementSpec FrameParamModel FrameSpec FrameBits FrameProofs FrameProofs2 FrameProofs3 FrameProofs4.
Import ListNotations.
Open Scope Z_scope.

(** What a decoder makes of a translation parameter of 0 written with the prediction
    [prev]. *)
Definition gm_misread (hp : bool) (prev : Z) : Z :=
  let mx := if hp then 512 else 256 in
  let u := if hp then 8192 else 16384 in
  let p := prev / u + mx in
  (av1_inverse_recenter p (av1_inverse_recenter p mx) - mx) * u.
Definition gm_read (hp : bool) (p : gmp) (i : nat) (prev : list Z) : Z * list Z :=
  if gm_typ p i =? 0 then (0, av1_identity)
  else (1, [gm_misread hp (nth 0 prev 0); gm_misread hp (nth 1 prev 0); 65536; 0; 0; 65536]).

Definition gm_low (hp : bool) (v : Z) : Prop := if hp then - 512 * 8192 <= v <= 8191 else - 256 * 16384 <= v <= 16383.

Lemma param_low out hp k prev : k = 0 \/ k = 1 -> gm_low hp prev ->
  exists D, encode_global_param out true hp k 0 prev = Ok (out ++ D) /\
    forall tail, rd_global_param true hp k prev (D ++ tail) = Some (gm_misread hp prev, tail).
Proof.
  intros K L. pose proof (global_param_low out true hp k 0 prev ltac:(lia)) as H. unfold gm_low in L.
  destruct hp; cbn [trans_bits] in H.
  - change (2 ^ (16 - 3)) with 8192 in H. change (2 ^ 9) with 512 in H. cbn zeta in H. rewrite Z.div_0_l in H by lia.
    destruct H as (D & E & R); [lia|clear - L; Z.div_mod_to_equations; lia|]. exists D. split; [exact E|]. exact R.
  - change (2 ^ (16 - 2)) with 16384 in H. change (2 ^ 8) with 256 in H. cbn zeta in H. rewrite Z.div_0_l in H by lia.
    destruct H as (D & E & R); [lia|clear - L; Z.div_mod_to_equations; lia|]. exists D. split; [exact E|]. exact R.
Qed.

Definition gm_asks (p : gmp) (i : nat) : Prop := (i < length (gm_global p))%nat /\ (i < length (gm_rot p))%nat /\ (i < length (gm_trans p))%nat.
Lemma type_ok out p i : gm_asks p i -> gm_typ p i <= 1 ->
  exists D, enc_gm_type out (Z.of_nat i) p = Ok (out ++ D, gm_typ p i) /\ forall tail, rd_gm_type (D ++ tail) = Some (gm_typ p i, tail).
Proof.
  intros (G & R & T) H. unfold enc_gm_type, gm_typ in *.
  rewrite (idx_nth _ _ _ _ (nth_error_nth' (gm_global p) false G)). cbn [bind].
  destruct (nth i (gm_global p) false).
  2:{ exists [0]. rewrite pbit_app. split; [reflexivity|]. reflexivity. }
  rewrite (idx_nth _ _ _ _ (nth_error_nth' (gm_rot p) false R)). cbn [bind]. destruct (nth i (gm_rot p) false); [lia|].
  rewrite (idx_nth _ _ _ _ (nth_error_nth' (gm_trans p) false T)). cbn [bind]. destruct (nth i (gm_trans p) false); [|lia].
  exists [1; 0; 1]. rewrite !pbit_app, <- !app_assoc. split; reflexivity.
Qed.

Lemma one_ok out hp p i prev : gm_typ p i <= 1 -> (2 <= length prev)%nat -> gm_low hp (nth 0 prev 0) -> gm_low hp (nth 1 prev 0) ->
  exists D, enc_gm_one out hp (gm_typ p i) identity_params prev = Ok (out ++ D, identity_params) /\
    forall T tail, (forall k, rd_gm_type (T ++ k) = Some (gm_typ p i, k)) -> rd_gm_one hp prev (T ++ D ++ tail) = Some (gm_read hp p i prev, tail).
Proof.
  intros H L L0 L1. destruct (gm_typ_cases p i) as [E|[E|[E|E]]]; try lia; rewrite E in *; unfold gm_read; rewrite E.
  - exists []. rewrite app_nil_r. split; [reflexivity|]. intros T tail R. unfold rd_gm_one. rewrite R. reflexivity.
  - destruct (param_low out hp 0 (nth 0 prev 0) (or_introl eq_refl) L0) as (D0 & E0 & R0).
    destruct (param_low (out ++ D0) hp 1 (nth 1 prev 0) (or_intror eq_refl) L1) as (D1 & E1 & R1).
    exists (D0 ++ D1). split.
    + unfold enc_gm_one. change (ROTZOOM <=? 1) with false. change (TRANSLATION <=? 1) with true. change (1 =? TRANSLATION) with true. cbv iota. cbn [bind].
      assert (I0 : idx prev 0 = Ok (nth 0 prev 0)) by (destruct prev as [|x [|y r]]; try (cbn in L; lia); reflexivity).
      assert (I1 : idx prev 1 = Ok (nth 1 prev 0)) by (destruct prev as [|x [|y r]]; try (cbn in L; lia); reflexivity).
      change (idx identity_params 0) with (@Ok Z 0). change (idx identity_params 1) with (@Ok Z 0). cbn [bind].
      rewrite I0. cbn [bind]. rewrite E0. cbn [bind]. rewrite I1. cbn [bind]. rewrite E1. cbn [bind].
      rewrite app_assoc. reflexivity.
    + intros T tail R. unfold rd_gm_one. rewrite R. cbn [obind]. change (2 <=? 1) with false. change (1 <=? 1) with true. change (1 =? 1) with true. cbv iota. cbn [obind].
      cbn [Z.of_nat]. rewrite <- app_assoc, R0. cbn [obind]. change (Z.of_nat 1) with 1. rewrite R1. reflexivity.
Qed.

Lemma loop_ok hp p prev : forall rfs out types par, NoDup rfs ->
  (forall i, In i rfs -> gm_asks p i /\ gm_typ p i <= 1 /\ (i < length types)%nat /\ (i < length prev)%nat /\ nth_error par i = Some identity_params /\
     (2 <= length (nth i prev []))%nat /\ gm_low hp (nth 0 (nth i prev []) 0) /\ gm_low hp (nth 1 (nth i prev []) 0)) ->
  exists bits types' par', enc_gm_loop out rfs hp p types par prev = Ok (out ++ bits, types', par') /\
    forall tail, rd_each (map (fun i => nth i prev []) rfs) (rd_gm_one hp) (bits ++ tail) =
      Some (map (fun i => gm_read hp p i (nth i prev [])) rfs, tail).
Proof.
  induction rfs as [|a rfs IH]; intros out types par ND I.
  - exists [], types, par. rewrite app_nil_r. split; reflexivity.
  - inversion ND as [|? ? Na ND']. subst. destruct (I a (or_introl eq_refl)) as (A & Ty & Lt & Lp & Q & L2 & G0 & G1). cbn [enc_gm_loop].
    destruct (type_ok out p a A Ty) as (T & ET & RT). rewrite ET. cbn [bind]. rewrite put_ok by exact Lt. cbn [bind].
    rewrite (idx_nth _ _ _ _ Q). cbn [bind]. rewrite (idx_nth _ _ _ _ (nth_error_nth' prev [] Lp)). cbn [bind].
    destruct (one_ok (out ++ T) hp p a (nth a prev []) Ty L2 G0 G1) as (D & EO & RO). rewrite EO. cbn [bind].
    rewrite put_ok by (apply nth_error_Some; congruence). cbn [bind].
    destruct (IH ((out ++ T) ++ D) (set_nth a (gm_typ p a) types) (set_nth a identity_params par) ND') as (bits & t' & p' & E & R).
    { intros i J. destruct (I i (or_intror J)) as (A' & Ty' & Lt' & Lp' & Q' & X). rewrite set_nth_length. split; [exact A'|]. split; [exact Ty'|].
      split; [exact Lt'|]. split; [exact Lp'|]. split; [|exact X]. rewrite nth_set_other by (intros ->; contradiction). exact Q'. }
    exists (T ++ D ++ bits), t', p'. rewrite E. split; [rewrite <- !app_assoc; reflexivity|]. intros tail. cbn [map rd_each].
    replace ((T ++ D ++ bits) ++ tail) with (T ++ D ++ (bits ++ tail)) by (rewrite <- !app_assoc; reflexivity).
    rewrite (RO T _ RT). cbn [obind]. rewrite R. reflexivity.
Qed.

Lemma rd_each_app {A B} (r : B -> list Z -> option (A * list Z)) : forall l1 l2 q, rd_each (l1 ++ l2) r q =
  obind (rd_each l1 r q) (fun '(m1, q) => obind (rd_each l2 r q) (fun '(m2, q) => Some (m1 ++ m2, q))).
Proof.
  induction l1 as [|b l1 IH]; intros l2 q; cbn [app rd_each obind].
  - destruct (rd_each l2 r q) as [[m k]|]; reflexivity.
  - destruct (r b q) as [[a q1]|]; cbn [obind]; [|reflexivity]. rewrite IH. destruct (rd_each l1 r q1) as [[m1 q2]|]; cbn [obind]; [|reflexivity].
    destruct (rd_each l2 r q2) as [[m2 q3]|]; reflexivity.
Qed.

Lemma gm_read_as out hp p types par prev : length types = 8%nat -> length par = 8%nat -> length prev = 8%nat ->
  (forall i, (1 <= i <= 6)%nat -> gm_asks p i /\ gm_typ p i <= 1 /\ (2 <= length (nth i prev []))%nat /\
     gm_low hp (nth 0 (nth i prev []) 0) /\ gm_low hp (nth 1 (nth i prev []) 0)) ->
  exists bits types' par', enc_gm out false hp p types par prev = Ok (out ++ bits, types', par') /\
    (forall tail, rd_gm hp (firstn 6 (skipn 1 prev)) (bits ++ tail) = Some (map (fun i => gm_read hp p i (nth i prev [])) (seq 1 6), tail)) /\
    forall v, never_decodes bits (rd_gm hp (skipn 1 prev)) v.
Proof.
  intros L L' Lp I.
  assert (P : map (fun i => nth i prev []) gm_refs = firstn 6 (skipn 1 prev)).
  { do 9 (destruct prev as [|? prev]; try discriminate). reflexivity. }
  assert (P2 : skipn 1 prev = firstn 6 (skipn 1 prev) ++ [nth 7 prev []]).
  { do 9 (destruct prev as [|? prev]; try discriminate). reflexivity. }
  set (six := firstn 6 (skipn 1 prev)) in *. set (seven := skipn 1 prev) in *. clearbody six seven. subst seven.
  unfold enc_gm. rewrite gm_reset_ok by assumption. cbn [bind].
  do 9 (destruct types as [|? types]; try discriminate). do 9 (destruct par as [|? par]; try discriminate). cbn [firstn skipn repeat app].
  match goal with |- context [enc_gm_loop _ _ _ _ ?t ?q _] => pose proof (loop_ok hp p prev gm_refs out t q) as X end.
  destruct X as (bits & t' & p' & E & R).
  { unfold gm_refs. repeat constructor; cbn; lia. }
  { intros i J. destruct (I i) as (A & T & Y); [unfold gm_refs in J; cbn [In] in J; lia|]. split; [exact A|]. split; [exact T|].
    unfold gm_refs in J. cbn [In] in J. repeat (destruct J as [<-|J]; [cbn [length]; rewrite Lp; repeat split; try lia; apply Y|]). destruct J. }
  exists bits, t', p'. split; [exact E|].
  rewrite P in R. split; [exact R|]. intros v k H.
  unfold rd_gm in *. rewrite rd_each_app, R in H. cbn [obind rd_each] in H.
  destruct (rd_gm_one hp (nth 7 prev []) k) as [[w k']|] eqn:E7; [|discriminate H]. cbn [obind] in H. injection H as _ ->.
  apply rd_gm_one_less in E7. lia.
Qed.

(** With nothing predicted, as the encoder leaves it, a translation asked for is read
    as another one, and anything more panics. *)
Lemma misread_zero hp : gm_misread hp 0 = 3145728.
Proof. destruct hp; reflexivity. Qed.

Lemma loop_panics hp p prev : (forall i, (1 <= i <= 6)%nat -> nth_error prev i = Some (repeat 0 6)) ->
  forall rfs out types par i, NoDup rfs -> In i rfs -> 2 <= gm_typ p i ->
  (forall j, In j rfs -> (1 <= j <= 6)%nat /\ gm_asks p j /\ (j < length types)%nat /\ nth_error par j = Some identity_params) ->
  enc_gm_loop out rfs hp p types par prev = Panic.
Proof.
  intros Z0. induction rfs as [|a rfs IH]; intros out types par i ND J Ti I; [destruct J|]. inversion ND as [|? ? Na ND']. subst.
  destruct (I a (or_introl eq_refl)) as (Ra & A & Lt & Q). cbn [enc_gm_loop].
  destruct (Z_le_gt_dec (gm_typ p a) 1) as [T|T].
  - destruct J as [->|J]; [lia|]. destruct (type_ok out p a A T) as (D & ET & _). rewrite ET. cbn [bind]. rewrite put_ok by exact Lt. cbn [bind].
    rewrite (idx_nth _ _ _ _ Q), (idx_nth _ _ _ _ (Z0 a Ra)). cbn [bind].
    destruct (one_ok (out ++ D) hp p a (repeat 0 6) T) as (D' & EO & _); [cbn; lia|destruct hp; cbn; lia|destruct hp; cbn; lia|]. rewrite EO. cbn [bind].
    rewrite put_ok by (apply nth_error_Some; congruence). cbn [bind]. apply (IH _ _ _ i ND' J Ti).
    intros j K. destruct (I j (or_intror K)) as (Rj & Aj & Lj & Qj). rewrite set_nth_length. split; [exact Rj|]. split; [exact Aj|]. split; [exact Lj|].
    rewrite nth_set_other by (intros ->; contradiction). exact Qj.
  - assert (ET : exists o, enc_gm_type out (Z.of_nat a) p = Ok (o, gm_typ p a)).
    { destruct A as (G & R & U). unfold enc_gm_type, gm_typ.
      rewrite (idx_nth _ _ _ _ (nth_error_nth' (gm_global p) false G)). cbn [bind]. destruct (nth a (gm_global p) false); [|eexists; reflexivity].
      rewrite (idx_nth _ _ _ _ (nth_error_nth' (gm_rot p) false R)). cbn [bind]. destruct (nth a (gm_rot p) false); [eexists; reflexivity|].
      rewrite (idx_nth _ _ _ _ (nth_error_nth' (gm_trans p) false U)). cbn [bind]. destruct (nth a (gm_trans p) false); eexists; reflexivity. }
    destruct ET as (o & ->). cbn [bind]. rewrite put_ok by exact Lt. cbn [bind].
    rewrite (idx_nth _ _ _ _ Q), (idx_nth _ _ _ _ (Z0 a Ra)). cbn [bind].
    unfold enc_gm_one. destruct (ROTZOOM <=? gm_typ p a) eqn:E; [|unfold ROTZOOM in E; lia].
    change (idx identity_params 2) with (@Ok Z 65536). change (idx (repeat 0 6) 2) with (@Ok Z 0). cbn [bind].
    rewrite global_param_diagonal by lia. reflexivity.
Qed.
Lemma gm_models_panic out hp p types par prev i : length types = 8%nat -> length par = 8%nat ->
  (forall j, (1 <= j <= 6)%nat -> nth_error prev j = Some (repeat 0 6) /\ gm_asks p j) -> (1 <= i <= 6)%nat -> 2 <= gm_typ p i ->
  enc_gm out false hp p types par prev = Panic.
Proof.
  intros L L' P I T. unfold enc_gm. rewrite gm_reset_ok by assumption. cbn [bind].
  do 9 (destruct types as [|? types]; try discriminate). do 9 (destruct par as [|? par]; try discriminate). cbn [firstn skipn repeat app].
  apply (loop_panics hp p prev (fun j J => proj1 (P j J)) gm_refs out _ _ i).
  - unfold gm_refs. repeat constructor; cbn; lia.
  - unfold gm_refs. cbn [In]. lia.
  - exact T.
  - intros j J. assert (1 <= j <= 6)%nat as K by (unfold gm_refs in J; cbn [In] in J; lia). split; [exact K|]. split; [exact (proj2 (P j K))|].
    unfold gm_refs in J. cbn [In] in J. repeat (destruct J as [<-|J]; [cbn [length]; split; [lia|reflexivity]|]). destruct J.
Qed.
