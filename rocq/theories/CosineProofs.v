(** The table of cosines against the real cosine: enclosures of the cosines of all
    multiples of pi / 128 by halving angles. *)
From Coq Require Import ZArith List Lia Bool Reals Lra.
From Verif Require Import FilterTables FilterSpec.
Import ListNotations.
Open Scope Z_scope.

(** Enclosures of cos (k pi / 128) in units of 2^-40, for k = 0 .. 64. *)
Definition scale : Z := 2 ^ 40.
Definition enclosures : list (Z * Z) :=
  [(1099511627776, 1099511627776); (1099180475430, 1099180475431); (1098187217867, 1098187217868); (1096532453388, 1096532453389);
   (1094217178760, 1094217178762); (1091242788620, 1091242788622); (1087611074629, 1087611074630); (1083324224394, 1083324224395);
   (1078384820154, 1078384820156); (1072795837222, 1072795837224); (1066560642193, 1066560642194); (1059682990914, 1059682990915);
   (1052167026225, 1052167026226); (1044017275462, 1044017275464); (1035238647732, 1035238647733); (1025836430949, 1025836430951);
   (1015816288660, 1015816288661); (1005184256621, 1005184256623); (993946739173, 993946739175); (982110505376, 982110505377);
   (969682684933, 969682684935); (956670763900, 956670763901); (943082580171, 943082580172); (928926318759, 928926318761);
   (914210506868, 914210506870); (898944008753, 898944008754); (883136020379, 883136020381); (866796063890, 866796063892);
   (849933981864, 849933981865); (832559931388, 832559931390); (814684377940, 814684377943); (796318089086, 796318089091);
   (777472127993, 777472127994); (758157846759, 758157846764); (738386879590, 738386879593); (718171135774, 718171135776);
   (697522792520, 697522792522); (676454287618, 676454287620); (654978311946, 654978311949); (633107801831, 633107801833);
   (610855931250, 610855931252); (588236103898, 588236103900); (565261945111, 565261945113); (541947293665, 541947293667);
   (518306193435, 518306193437); (494352884934, 494352884936); (470101796740, 470101796742); (445567536802, 445567536805);
   (420764883642, 420764883644); (395708777448, 395708777451); (370414311084, 370414311086); (344896720988, 344896720991);
   (319171378005, 319171378008); (293253778119, 293253778121); (267159533121, 267159533124); (240904361211, 240904361215);
   (214504077522, 214504077524); (187974584597, 187974584599); (161331862811, 161331862814); (134591960744, 134591960747);
   (107770985510, 107770985516); (80885093067, 80885093071); (53950478466, 53950478477); (26983366114, 26983366126);
   (0, 0)].
Definition enclosure (k : Z) : Z * Z := nth (Z.to_nat k) enclosures (1, 0).
Definition angle (k : Z) : R := (IZR k * PI / 128)%R.
Definition enclosed (k : Z) : Prop :=
  (IZR (fst (enclosure k)) <= IZR scale * cos (angle k) <= IZR (snd (enclosure k)))%R.

(** The enclosure of the double angle, folded back into the first quarter. *)
Definition double (k : Z) : Z * Z :=
  if 2 * k <=? 64 then enclosure (2 * k) else (- snd (enclosure (128 - 2 * k)), - fst (enclosure (128 - 2 * k))).
Definition half_ok (k : Z) : bool :=
  let '(a, b) := double k in let '(l, h) := enclosure k in
  (0 <=? l) && (0 <=? h) && (2 * l * l <=? scale * (scale + a)) && (scale * (scale + b) <=? 2 * h * h).
Definition below (n : nat) : list Z := map Z.of_nat (seq 0 n).
Lemma below_in n i : 0 <= i < Z.of_nat n -> In i (below n).
Proof. intros I. apply in_map_iff. exists (Z.to_nat i). split; [lia|]. apply in_seq. lia. Qed.
Lemma halves : forallb half_ok (below 65) = true.
Proof. vm_compute. reflexivity. Qed.

Lemma first_quarter k : 0 <= k <= 64 -> (0 <= angle k <= PI / 2)%R.
Proof.
  intros [A B]. apply IZR_le in A, B. unfold angle. pose proof PI_RGT_0 as P. split.
  - apply Rmult_le_pos; [apply Rmult_le_pos; lra|lra].
  - assert (IZR k * PI <= 64 * PI)%R by (apply Rmult_le_compat_r; lra). lra.
Qed.
Lemma cos_pos k : 0 <= k <= 64 -> (0 <= cos (angle k))%R.
Proof. intros K. pose proof (first_quarter k K) as Q. pose proof PI_RGT_0. apply cos_ge_0; lra. Qed.
Lemma angle_fold k : angle (128 - k) = (PI - angle k)%R.
Proof. unfold angle. rewrite minus_IZR. field. Qed.
Lemma cos_fold k : cos (angle (128 - k)) = (- cos (angle k))%R.
Proof. rewrite angle_fold, cos_minus, cos_PI, sin_PI. ring. Qed.
Lemma cos_double k : cos (angle (2 * k)) = (2 * (cos (angle k) * cos (angle k)) - 1)%R.
Proof.
  replace (angle (2 * k)) with (2 * angle k)%R by (unfold angle; rewrite mult_IZR; field).
  rewrite cos_2a_cos. ring.
Qed.
Lemma squares a b : (0 <= b -> a * a <= b * b -> a <= b)%R.
Proof. intros B Q. destruct (Rle_lt_dec a b) as [L|L]; [exact L|]. exfalso. nra. Qed.
Lemma scale_pos : (0 < IZR scale)%R.
Proof. apply IZR_lt. reflexivity. Qed.

Lemma halve k : 0 <= k <= 64 -> enclosed (if 2 * k <=? 64 then 2 * k else 128 - 2 * k) -> enclosed k.
Proof.
  intros K E. pose proof (proj1 (forallb_forall _ _) halves k (below_in 65 k ltac:(lia))) as H. unfold half_ok in H.
  assert (D : (IZR (fst (double k)) <= IZR scale * cos (angle (2 * k)) <= IZR (snd (double k)))%R).
  { unfold double. destruct (2 * k <=? 64); [exact E|]. unfold enclosed in E. rewrite cos_fold in E. cbn [fst snd]. rewrite !opp_IZR. lra. }
  clear E. destruct (double k) as [a b]. unfold enclosed. destruct (enclosure k) as [l h]. cbn [fst snd] in *.
  repeat (apply andb_prop in H; destruct H as [H ?]).
  repeat match goal with H : (_ <=? _) = true |- _ => apply Z.leb_le in H; apply IZR_le in H; rewrite ?mult_IZR, ?plus_IZR, ?mult_IZR in H end.
  rewrite cos_double in D. pose proof scale_pos as P. pose proof (cos_pos k K) as C. set (s := IZR scale) in *. set (c := cos (angle k)) in *.
  assert (Q : (s * s * (2 * (c * c)) - s * s = s * (s * (2 * (c * c) - 1)))%R) by ring.
  assert (D1 : (s * IZR a <= s * (s * (2 * (c * c) - 1)))%R) by (apply Rmult_le_compat_l; lra).
  assert (D2 : (s * (s * (2 * (c * c) - 1)) <= s * IZR b)%R) by (apply Rmult_le_compat_l; lra).
  assert (SC : (0 <= s * c)%R) by (apply Rmult_le_pos; lra).
  split; apply squares; try lra; lra.
Qed.

Lemma level n : (n < 6)%nat -> (forall k, 0 <= k <= 64 -> (2 ^ Z.of_nat (S n) | k) -> enclosed k) ->
  forall k, 0 <= k <= 64 -> (2 ^ Z.of_nat n | k) -> enclosed k.
Proof.
  intros N IH k K [j J]. apply halve; [exact K|]. destruct (2 * k <=? 64) eqn:L; apply IH; try lia.
  - exists j. rewrite Nat2Z.inj_succ, Z.pow_succ_r by lia. rewrite J. ring.
  - exists (2 ^ (6 - Z.of_nat n) - j). rewrite Z.mul_sub_distr_r, <- Z.pow_add_r by lia. replace (6 - Z.of_nat n + Z.of_nat (S n)) with 7 by lia.
    rewrite Nat2Z.inj_succ, Z.pow_succ_r by lia. change (2 ^ 7) with 128. rewrite J. ring.
Qed.
Lemma all_enclosed k : 0 <= k <= 64 -> enclosed k.
Proof.
  intros K. cut (forall n, (n <= 6)%nat -> forall k, 0 <= k <= 64 -> (2 ^ Z.of_nat (6 - n) | k) -> enclosed k).
  { intros X. apply (X 6%nat); [lia|exact K|]. apply Z.divide_1_l. }
  clear k K. induction n as [|n IH]; intros N k K D.
  - destruct D as [j J]. change (2 ^ Z.of_nat (6 - 0)) with 64 in J. assert (k = 0 \/ k = 64) as [->| ->] by lia; unfold enclosed, angle.
    + replace (0 * PI / 128)%R with 0%R by field. rewrite cos_0. change (enclosure 0) with (scale, scale). cbn [fst snd]. lra.
    + replace (64 * PI / 128)%R with (PI / 2)%R by field. rewrite cos_PI2. change (enclosure 64) with (0, 0). cbn [fst snd]. lra.
  - apply (level (6 - S n)); [lia| |exact K|exact D]. replace (S (6 - S n)) with (6 - n)%nat by lia. apply IH. lia.
Qed.

(** The table. *)
Definition near (k : Z) : bool :=
  match row cos128_lookup k with
  | Some v => let '(l, h) := enclosure k in ((2 * v - 1) * scale <=? 8192 * l) && (8192 * h <=? (2 * v + 1) * scale)
  | None => false end.
Lemma nears : forallb near (below 65) = true.
Proof. vm_compute. reflexivity. Qed.
Lemma quarter k : 0 <= k <= 64 -> exists v, row cos128_lookup k = Some v /\ (Rabs (4096 * cos (angle k) - IZR v) <= / 2)%R.
Proof.
  intros K. pose proof (proj1 (forallb_forall _ _) nears k (below_in 65 k ltac:(lia))) as H. unfold near in H.
  destruct (row cos128_lookup k) as [v|]; [|discriminate]. exists v. split; [reflexivity|].
  pose proof (all_enclosed k K) as E. unfold enclosed in E. destruct (enclosure k) as [l h]. cbn [fst snd] in E.
  apply andb_prop in H. destruct H as [A B]. apply Z.leb_le in A, B. apply IZR_le in A, B.
  rewrite !mult_IZR, minus_IZR, mult_IZR in A. rewrite !mult_IZR, plus_IZR, mult_IZR in B. pose proof scale_pos as P. set (s := IZR scale) in *. set (c := cos (angle k)) in *.
  assert (X : ((2 * IZR v - 1) * s <= 8192 * c * s)%R) by lra. assert (Y : (8192 * c * s <= (2 * IZR v + 1) * s)%R) by lra.
  apply Rmult_le_reg_r in X; [|exact P]. apply Rmult_le_reg_r in Y; [|exact P]. apply Rabs_le. lra.
Qed.
Lemma angle_turn k n : cos (angle (k + 256 * n)) = cos (angle k).
Proof.
  assert (N : forall k m, cos (angle (k + 256 * Z.of_nat m)) = cos (angle k)).
  { clear. intros k m. replace (angle (k + 256 * Z.of_nat m)) with (angle k + 2 * INR m * PI)%R; [apply cos_period|].
    unfold angle. rewrite plus_IZR, mult_IZR, <- INR_IZR_INZ. field. }
  destruct (Z_le_gt_dec 0 n) as [L|L]; [rewrite <- (Z2Nat.id n) by lia; apply N|].
  rewrite <- (N (k + 256 * n) (Z.to_nat (- n))). f_equal. f_equal. lia.
Qed.
Lemma cosine x : exists v, cos128 cos128_lookup x = Some v /\ (Rabs (4096 * cos (2 * PI * IZR x / 256) - IZR v) <= / 2)%R.
Proof.
  replace (2 * PI * IZR x / 256)%R with (angle x) by (unfold angle; field).
  assert (M : cos (angle x) = cos (angle (x mod 256))).
  { rewrite (Z.div_mod x 256) at 1 by lia. rewrite Z.add_comm. apply angle_turn. }
  rewrite M. clear M. unfold cos128. pose proof (Z.mod_pos_bound x 256 eq_refl) as B. set (y := x mod 256) in *. clearbody y.
  destruct (Z.leb_spec y 64) as [A|A]; [apply quarter; lia|].
  destruct (Z.leb_spec y 128) as [A2|A2].
  { destruct (quarter (128 - y) ltac:(lia)) as (v & E & V). exists (- v). rewrite E. split; [reflexivity|]. rewrite cos_fold in V.
    rewrite opp_IZR. replace (4096 * cos (angle y) - - IZR v)%R with (- (4096 * - cos (angle y) - IZR v))%R by ring. rewrite Rabs_Ropp. exact V. }
  assert (T : cos (angle y) = (cos (angle (256 - y)))).
  { rewrite <- (cos_neg (angle y)), <- (angle_turn (256 - y) (-1)). f_equal. unfold angle. replace (256 - y + 256 * -1) with (- y) by lia. rewrite opp_IZR. field. }
  destruct (Z.leb_spec y 192) as [A3|A3].
  { destruct (quarter (y - 128) ltac:(lia)) as (v & E & V). exists (- v). rewrite E. split; [reflexivity|].
    rewrite T. replace (y - 128) with (128 - (256 - y)) in V by lia. rewrite cos_fold in V.
    rewrite opp_IZR. replace (4096 * cos (angle (256 - y)) - - IZR v)%R with (- (4096 * - cos (angle (256 - y)) - IZR v))%R by ring. rewrite Rabs_Ropp. exact V. }
  rewrite T. apply quarter. lia.
Qed.
