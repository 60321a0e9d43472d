(** Exact conditions for the contexts of the interpolation filter and the all-zero flag. *)
From Coq Require Import String ZArith List Lia Bool ZifyBool ZifyNat.
From Verif Require Import BitsSpec Base BaseProofs GeomModel ElementModel ContextModel ContextSpec ContextEdgeSpec ContextCallSpec
  ContextRunProofs ContextProofs ContextCoefProofs ContextWriterProofs.
Import ListNotations.
Open Scope string_scope.
Open Scope list_scope.
Open Scope Z_scope.

Definition mix (l u : Z) : Z := if l =? u then l else if l =? 3 then u else if u =? 3 then l else 3.
Lemma mix_only : forall l u v, 0 <= l <= 3 -> 0 <= u <= 3 -> v <> 3 -> (mix l u = v <-> only_filter v u l).
Proof. intros l u v L U V. unfold mix, only_filter. destruct (Z.eqb_spec l u), (Z.eqb_spec l 3), (Z.eqb_spec u 3); lia. Qed.
Lemma mix_range : forall l u, 0 <= l <= 3 -> 0 <= u <= 3 -> 0 <= mix l u <= 3.
Proof. intros l u L U. unfold mix. destruct (Z.eqb_spec l u), (Z.eqb_spec l 3), (Z.eqb_spec u 3); lia. Qed.
Lemma mix_eq : forall l u l' u', 0 <= l <= 3 -> 0 <= u <= 3 -> 0 <= l' <= 3 -> 0 <= u' <= 3 ->
  (mix l u = mix l' u' <-> forall v, 0 <= v < 3 -> (only_filter v u l <-> only_filter v u' l')).
Proof.
  intros l u l' u' A B C D. split.
  - intros E v V. rewrite <- !mix_only by lia. rewrite E. tauto.
  - intros H. pose proof (mix_range l u A B). pose proof (mix_range l' u' C D).
    destruct (Z.eq_dec (mix l u) 3) as [E|N]; destruct (Z.eq_dec (mix l' u') 3) as [E'|N']; [lia| | |].
    + apply mix_only; [assumption..|]. apply H; [lia|]. apply mix_only; [assumption..|reflexivity].
    + symmetry. apply mix_only; [assumption..|]. apply H; [lia|]. apply mix_only; [assumption..|reflexivity].
    + symmetry. apply mix_only; [assumption..|]. apply H; [lia|]. apply mix_only; [assumption..|reflexivity].
Qed.
Lemma taken_range : forall f r c dir p n, frame_ok f r c -> 0 <= dir <= 1 -> n = cell f r c \/ (forall m, n = Some m -> mi_ok m) ->
  0 <= taken_filter dir p n <= 3.
Proof.
  intros f r c dir p n F D N.
  assert (X : forall m, n = Some m -> mi_ok m).
  { destruct N as [->|N]; [|exact N]. intros m E. destruct F as (R & C & ? & ? & ? & ? & K). exact (K _ _ _ E). }
  destruct n as [m|]; [|unfold taken_filter; cbn; lia]. specialize (X m eq_refl).
  unfold taken_filter. destruct (Avail (Some m) && p (Some m)); [|lia].
  destruct (ok_filter m X) as (a & b & E & Ha & Hb). cbn [at_nb]. rewrite E.
  assert (dir = 0 \/ dir = 1) as [-> | ->] by lia; [change (0 <= a <= 3)|change (0 <= b <= 3)]; assumption.
Qed.
Lemma nbs_ok : forall f r0 c0 r c, frame_ok f r c ->
  (forall m, above_of f r0 r c = Some m -> mi_ok m) /\ (forall m, left_of f c0 r c = Some m -> mi_ok m).
Proof.
  intros f r0 c0 r c (R & C & ? & ? & ? & ? & K). unfold above_of, left_of. split; intros m.
  - destruct (r0 <? r); [apply K|discriminate].
  - destruct (c0 <? c); [apply K|discriminate].
Qed.
Lemma interp_filter_exactly : forall f r0 c0 r c s dir m, frame_ok f r c -> inner r0 c0 r c -> cell f r c = Some m -> 0 <= dir <= 1 ->
  let ours n := taken_filter dir (fun n => (Ref0 n =? m_ref0 m) || (Ref1 n =? m_ref1 m)) n in
  let theirs n := taken_filter dir (fun n => (Ref0 n =? m_ref0 m) || (Ref1 n =? m_ref0 m)) n in
  let u := above_of f r0 r c in let l := left_of f c0 r c in
  (encode_interp_filter s f r c dir = Ok ("interp_filter", [spec_interp_filter dir (m_ref0 m) (m_ref1 m) u l], s) <->
   forall v, 0 <= v < 3 -> (only_filter v (ours u) (ours l) <-> only_filter v (theirs u) (theirs l))).
Proof.
  intros f r0 c0 r c s dir m F I Hm D ours theirs u l.
  destruct (nbs_ok f r0 c0 r c F) as [Ku Kl].
  assert (RU : forall p, 0 <= taken_filter dir p u <= 3) by (intros p; apply (taken_range f r c); auto).
  assert (RL : forall p, 0 <= taken_filter dir p l <= 3) by (intros p; apply (taken_range f r c); auto).
  rewrite <- (mix_eq (ours l) (ours u) (theirs l) (theirs u)) by (unfold ours, theirs; auto).
  rewrite (proj1 (interp_filter_val f r0 c0 r c s dir m F I Hm D)).
  unfold spec_interp_filter, INTRA_FRAME. fold u l.
  set (B := (dir mod 2 * 2 + b2z (0 <? m_ref1 m)) * 4).
  change (Ok ("interp_filter", [B + mix (ours l) (ours u)], s) = Ok ("interp_filter", [B + mix (theirs l) (theirs u)], s) <-> mix (ours l) (ours u) = mix (theirs l) (theirs u)).
  generalize (mix (ours l) (ours u)) (mix (theirs l) (theirs u)). intros a b. split; [|intros ->; reflexivity].
  intros E. apply (f_equal (fun x => match x with Ok (_, q, _) => nth 0 q 0 | _ => 0 end)) in E. cbn [nth] in E. lia.
Qed.

Lemma in_edge : forall pos n limit x, 0 <= n -> (In x (edge_units pos n limit) <-> pos <= x < Z.min limit (pos + n)).
Proof.
  intros pos n limit x N. unfold edge_units. rewrite filter_In, in_map_iff. split.
  - intros [(k & <- & K) L]. apply in_seq in K. lia.
  - intros H. split; [|lia]. exists (Z.to_nat (x - pos)). split; [lia|]. apply in_seq. lia.
Qed.
Lemma fold_max_nonneg : forall l, 0 <= fold_right Z.max 0 l.
Proof. induction l; cbn [fold_right]; lia. Qed.

Lemma all_zero_class : forall a b c d, 0 <= a -> 0 <= b -> 0 <= c -> 0 <= d ->
  (spec_all_zero_luma false a b = spec_all_zero_luma false c d <-> same_two (level_class a) (level_class b) (level_class c) (level_class d)).
Proof.
  assert (V : forall a b, 0 <= a -> 0 <= b -> spec_all_zero_luma false a b =
     match level_class a, level_class b with
     | 0, 0 => 1 | 0, 1 | 1, 0 => 2 | 0, _ | _, 0 => 3 | 1, 1 => 4 | 1, _ | _, 1 => 5 | _, _ => 6 end).
  { intros a b A B. unfold spec_all_zero_luma, level_class.
    destruct (Z.leb_spec a 0), (Z.leb_spec b 0), (Z.leb_spec a 3), (Z.leb_spec b 3); try lia;
    rewrite ?(proj2 (Z.ltb_lt 0 a)), ?(proj2 (Z.ltb_lt 0 b)), ?(proj2 (Z.ltb_ge 0 a)), ?(proj2 (Z.ltb_ge 0 b)) by lia;
    repeat match goal with |- context [if ?x then _ else _] => let E := fresh in destruct x eqn:E end; lia. }
  assert (C : forall a, level_class a = 0 \/ level_class a = 1 \/ level_class a = 2).
  { intros a. unfold level_class. destruct (a <=? 0); [auto|]. destruct (a <=? 3); auto. }
  intros a b c d Ha Hb Hc Hd. rewrite !V by assumption. unfold same_two.
  destruct (C a) as [-> |[-> | ->]], (C b) as [-> |[-> | ->]], (C c) as [-> |[-> | ->]], (C d) as [-> |[-> | ->]]; lia.
Qed.

Lemma lvl_nonneg : forall f r0 c0 r c plane, frame_ok f r c -> 0 <= plane <= 2 ->
  0 <= lvl plane (above_of f r0 r c) /\ 0 <= lvl plane (left_of f c0 r c) /\ 0 <= dcs plane (above_of f r0 r c) /\ 0 <= dcs plane (left_of f c0 r c).
Proof.
  intros f r0 c0 r c plane F P. destruct (nbs_ok f r0 c0 r c F) as [U L].
  assert (G : forall n, (forall m, n = Some m -> mi_ok m) -> 0 <= lvl plane n /\ 0 <= dcs plane n).
  { intros [m|] K; [|unfold lvl, dcs; cbn; lia]. specialize (K m eq_refl). unfold lvl, dcs. cbn [at_nb].
    destruct (ok_level m K) as (a & b & d & -> & Q1). destruct (ok_dc m K) as (a' & b' & d' & -> & Q2).
    assert (plane = 0 \/ plane = 1 \/ plane = 2) as [-> |[-> | ->]] by lia;
    [change (0 <= a /\ 0 <= a')|change (0 <= b /\ 0 <= b')|change (0 <= d /\ 0 <= d')]; lia. }
  destruct (G _ U), (G _ L). auto.
Qed.
Lemma seen_nonneg : forall n p l v, 0 <= v -> 0 <= seen n p l v.
Proof. intros. unfold seen. destruct (0 <? _); lia. Qed.

Lemma all_zero_luma_exactly : forall s t tc f b r0 c0 r c w4 h4 x4 y4 A L, transform_size t -> block_size b -> frame_ok f r c -> inner r0 c0 r c ->
  0 <= w4 -> 0 <= h4 -> 0 <= x4 -> 0 <= y4 ->
  let whole := (Block_Width b =? Tx_Width t) && (Block_Height b =? Tx_Height t) in
  let top := edge_level A x4 w4 (f_mi_cols f) in let left := edge_level L y4 h4 (f_mi_rows f) in
  (encode_all_zero s 0 t tc f b r c w4 h4 x4 y4 = Ok ("txb_skip", [0; tc; spec_all_zero_luma whole top left], s) <->
   whole = true \/
   same_two (level_class (seen w4 x4 (f_mi_cols f) (lvl 0 (above_of f r0 r c)))) (level_class (seen h4 y4 (f_mi_rows f) (lvl 0 (left_of f c0 r c))))
            (level_class top) (level_class left)).
Proof.
  intros s t tc f b r0 c0 r c w4 h4 x4 y4 A L T B F I W H X Y whole top left.
  rewrite (all_zero_luma_ok s t tc f b r0 c0 r c w4 h4 x4 y4 T B F I W H X Y). fold whole.
  destruct (lvl_nonneg f r0 c0 r c 0 F ltac:(lia)) as (U1 & U2 & _ & _).
  destruct whole; [split; [auto|reflexivity]|].
  rewrite <- all_zero_class by (try apply seen_nonneg; try assumption; apply fold_max_nonneg).
  split.
  - intros E. right. apply (f_equal (fun x => match x with Ok (_, q, _) => nth 2 q 0 | _ => 0 end)) in E. exact E.
  - intros [E|E]; [discriminate|]. rewrite E. reflexivity.
Qed.

Lemma edge_same : forall level pos n limit v, 0 <= v -> (forall x, pos <= x < Z.min limit (pos + n) -> level x = v) ->
  0 <= n -> edge_level level pos n limit = seen n pos limit v.
Proof.
  intros level pos n limit v V H N. unfold edge_level, seen.
  assert (E : forall l, (forall x, In x l -> level x = v) -> fold_right Z.max 0 (map level l) = match l with [] => 0 | _ => v end).
  { induction l as [|a l IH]; intros K; [reflexivity|]. cbn [map fold_right]. rewrite IH by (intros; apply K; right; assumption). rewrite K by (left; reflexivity).
    destruct l; lia. }
  rewrite E by (intros x K; apply H, in_edge; assumption).
  destruct (edge_units pos n limit) as [|a l] eqn:U.
  - destruct (0 <? inside n pos limit) eqn:S; [|reflexivity]. exfalso. apply Z.ltb_lt in S. unfold inside in S.
    assert (K : In pos (edge_units pos n limit)) by (apply in_edge; lia). rewrite U in K. destruct K.
  - assert (K : In a (edge_units pos n limit)) by (rewrite U; left; reflexivity). apply in_edge in K; [|assumption].
    rewrite (proj2 (Z.ltb_lt 0 (inside n pos limit))); [reflexivity|]. unfold inside. lia.
Qed.

(** In particular if all the units of an edge have the level of the block looked at. *)
Lemma all_zero_luma_alike : forall s t tc f b r0 c0 r c w4 h4 x4 y4 A L, transform_size t -> block_size b -> frame_ok f r c -> inner r0 c0 r c ->
  0 <= w4 -> 0 <= h4 -> 0 <= x4 -> 0 <= y4 ->
  (forall x, x4 <= x < Z.min (f_mi_cols f) (x4 + w4) -> A x = lvl 0 (above_of f r0 r c)) ->
  (forall y, y4 <= y < Z.min (f_mi_rows f) (y4 + h4) -> L y = lvl 0 (left_of f c0 r c)) ->
  encode_all_zero s 0 t tc f b r c w4 h4 x4 y4 =
  Ok ("txb_skip", [0; tc; spec_all_zero_luma ((Block_Width b =? Tx_Width t) && (Block_Height b =? Tx_Height t))
                          (edge_level A x4 w4 (f_mi_cols f)) (edge_level L y4 h4 (f_mi_rows f))], s).
Proof.
  intros s t tc f b r0 c0 r c w4 h4 x4 y4 A L T B F I W H X Y HA HL.
  destruct (lvl_nonneg f r0 c0 r c 0 F ltac:(lia)) as (U1 & U2 & _ & _).
  rewrite (edge_same A x4 w4 _ _ U1 HA W), (edge_same L y4 h4 _ _ U2 HL H). apply all_zero_luma_ok; assumption.
Qed.

Lemma all_zero_chroma_exactly : forall s plane t tc f b r0 c0 r c w4 h4 x4 y4 A DA L DL, transform_size t -> block_size b -> frame_ok f r c -> inner r0 c0 r c ->
  0 <= w4 -> 0 <= h4 -> 0 <= x4 -> 0 <= y4 -> 1 <= plane -> chroma_ok f plane b ->
  let smaller := Tx_Width t * Tx_Height t <? Z.max 4 (if f_subx f then Block_Width b / 2 else Block_Width b) * Z.max 4 (if f_suby f then Block_Height b / 2 else Block_Height b) in
  let top := edge_coded A DA x4 w4 (plane_units (f_mi_cols f) (f_subx f)) in
  let left := edge_coded L DL y4 h4 (plane_units (f_mi_rows f) (f_suby f)) in
  let coded n := negb (lvl plane n =? 0) || negb (dcs plane n =? 0) in
  let top' := (0 <? inside w4 x4 (f_mi_cols f / 2 ^ b2z (f_subx f))) && coded (above_of f r0 r c) in
  let left' := (0 <? inside h4 y4 (f_mi_rows f / 2 ^ b2z (f_suby f))) && coded (left_of f c0 r c) in
  (encode_all_zero s plane t tc f b r c w4 h4 x4 y4 = Ok ("txb_skip", [0; tc; spec_all_zero_chroma smaller top left], s) <->
   b2z top' + b2z left' = b2z top + b2z left).
Proof.
  intros s plane t tc f b r0 c0 r c w4 h4 x4 y4 A DA L DL T B F I W H X Y P C smaller top left coded top' left'.
  rewrite (all_zero_chroma_ok s plane t tc f b r0 c0 r c w4 h4 x4 y4 T B F I W H X Y P C). fold smaller.
  assert (PP : 0 <= plane <= 2) by (destruct C; lia).
  assert (K : forall n p l v d, 0 <= v -> 0 <= d -> negb (seen n p l (Z.lor v d) =? 0) = (0 <? inside n p l) && (negb (v =? 0) || negb (d =? 0))).
  { intros n p l v d V D. unfold seen. destruct (0 <? inside n p l); [|reflexivity]. cbn [andb].
    destruct (Z.eqb_spec (Z.lor v d) 0) as [E|E].
    - apply Z.lor_eq_0_iff in E. destruct E as [-> ->]. reflexivity.
    - destruct (Z.eqb_spec v 0) as [->|]; [|reflexivity]. destruct (Z.eqb_spec d 0) as [->|]; [|reflexivity]. exfalso. apply E. reflexivity. }
  destruct (lvl_nonneg f r0 c0 r c plane F PP) as (U1 & U2 & U3 & U4).
  unfold all_zero_chroma. rewrite !K by assumption. fold (coded (above_of f r0 r c)) (coded (left_of f c0 r c)). fold top' left'.
  unfold spec_all_zero_chroma. split.
  - intros E. apply (f_equal (fun x => match x with Ok (_, q, _) => nth 2 q 0 | _ => 0 end)) in E. cbn [nth] in E. lia.
  - intros E. do 6 f_equal. lia.
Qed.
