(** Proofs about the block geometry. *)
From Coq Require Import ZArith List Bool Lia ZifyBool.
From Verif Require Import Base BaseProofs UtilModel RangeCoderModel BitCodecModel SessionModel BlockTables GeomModel GeomSpec.
Import ListNotations.
Open Scope Z_scope.
Ltac Zify.zify_post_hook ::= Z.div_mod_to_equations.

(** Finite case analysis on a table index. *)
Lemma dims_range b p : dims b = Some p -> 0 <= b < 22.
Proof.
  unfold dims. destruct (b <? 0) eqn:E; [discriminate|]. intros H.
  assert (Z.to_nat b < 22)%nat by (apply (nth_error_Some block_dims); rewrite H; discriminate). lia.
Qed.

Lemma txdims_range b p : txdims b = Some p -> 0 <= b < 19.
Proof.
  unfold txdims. destruct (b <? 0) eqn:E; [discriminate|]. intros H.
  assert (Z.to_nat b < 19)%nat by (apply (nth_error_Some tx_dims); rewrite H; discriminate). lia.
Qed.

Lemma range_cases (n : nat) b (P : Z -> Prop) :
  Forall P (map Z.of_nat (seq 0 n)) -> 0 <= b < Z.of_nat n -> P b.
Proof.
  intros F B. rewrite Forall_forall in F. apply F. apply in_map_iff. exists (Z.to_nat b).
  split; [lia|]. apply in_seq. lia.
Qed.

Ltac each_index n b :=
  pattern b; apply (range_cases n); [| assumption || lia];
  cbn [seq map Z.of_nat Pos.of_succ_nat Pos.succ]; repeat (apply Forall_cons; [| try apply Forall_nil]).

Lemma block_tables b w h : dims b = Some (w, h) ->
  idx block_width b = Ok w /\ idx block_height b = Ok h /\ idx num_4x4_blocks_high b = Ok (h / 4) /\
  idx num_4x4_blocks_wide b = Ok (if (b =? 5) || (b =? 6) || (b =? 7) then 3 else w / 4) /\
  exists lw lh, idx mi_width_log2 b = Ok lw /\ idx mi_height_log2 b = Ok lh /\ 2 ^ lw = w /\ 2 ^ lh = h.
Proof.
  intros H. pose proof (dims_range _ _ H) as B. revert w h H.
  each_index 22%nat b; intros w h H; injection H as <- <-;
    (repeat split; do 2 eexists; repeat split; reflexivity).
Qed.

Lemma wide_iff b w h : dims b = Some (w, h) ->
  (idx num_4x4_blocks_wide b = Ok (w / 4) <-> ~ (b = 5 \/ b = 6 \/ b = 7)).
Proof.
  intros H. pose proof (dims_range _ _ H) as B. revert w h H.
  each_index 22%nat b; intros w h H; injection H as <- <-; vm_compute idx; vm_compute Z.div;
    (split; [intros Q; try discriminate Q; lia | intros Q; try reflexivity; exfalso; apply Q; tauto]).
Qed.

Lemma subsize_table p b w h : 0 <= p < 10 -> dims b = Some (w, h) ->
  exists s, idx2 partition_subsize p b = Ok s /\
    (s = 22 \/ dims s = Some (sub_dims p w h)) /\
    (s <> 22 <-> w = h /\ (p = 0 \/ 8 <= w) /\ (8 <= p -> 16 <= w <= 64)).
Proof.
  intros P H. pose proof (dims_range _ _ H) as B. revert w h H.
  each_index 10%nat p; each_index 22%nat b; intros w h H; injection H as <- <-;
    (eexists; split; [reflexivity|]; split; [first [left; reflexivity | right; reflexivity] | lia]).
Qed.

Lemma residual_table b w h plane subx suby : dims b = Some (w, h) -> 0 <= plane ->
  let sx := negb (plane =? 0) && subx in
  let sy := negb (plane =? 0) && suby in
  exists s, get_plane_residual_size b plane subx suby = Ok s /\
    (s = 22 \/ dims s = Some (Z.max 4 (if sx then w / 2 else w), Z.max 4 (if sy then h / 2 else h))) /\
    (s = 22 <-> (sx = true /\ sy = false /\ w < h) \/ (sx = false /\ sy = true /\ h < w)).
Proof.
  intros H P. pose proof (dims_range _ _ H) as B. unfold get_plane_residual_size.
  assert (E : plane = 0 \/ 0 < plane) by lia.
  revert w h H. each_index 22%nat b; intros w h H; injection H as <- <-;
  (destruct E as [E|E];
   [ subst plane; cbn [Z.ltb Z.compare Z.eqb negb andb]
   | replace (0 <? plane) with true by lia; replace (plane =? 0) with false by lia; cbn [negb andb];
     destruct subx, suby; cbn [b2z] ];
   (eexists; split; [reflexivity|]; split; [first [left; reflexivity | right; reflexivity] | lia])).
Qed.

Lemma tx_tables t w h : txdims t = Some (w, h) ->
  idx tx_width t = Ok w /\ idx tx_height t = Ok h /\
  (exists lw lh, idx tx_width_log2 t = Ok lw /\ idx tx_height_log2 t = Ok lh /\ 2 ^ lw = w /\ 2 ^ lh = h) /\
  (exists s, idx tx_size_sqr t = Ok s /\ txdims s = Some (Z.min w h, Z.min w h)) /\
  (exists s, idx tx_size_sqr_up t = Ok s /\ txdims s = Some (Z.max w h, Z.max w h)) /\
  (exists s, idx adjusted_tx_size t = Ok s /\ txdims s = Some (Z.min 32 w, Z.min 32 h)).
Proof.
  intros H. pose proof (txdims_range _ _ H) as B. revert w h H.
  each_index 19%nat t; intros w h H; injection H as <- <-;
    (split; [reflexivity|]; split; [reflexivity|]; split; [do 2 eexists; repeat split; reflexivity|];
     repeat split; eexists; split; reflexivity).
Qed.

Lemma find_tx_ok w h :
  exists t, find_tx_size w h = Ok t /\
    ((0 <= t < 19 /\ txdims t = Some (w, h)) \/ (t = 19 /\ forall t', txdims t' <> Some (w, h))).
Proof.
  unfold find_tx_size. change (Z.to_nat TX_SIZES_ALL) with 19%nat.
  assert (G : forall k t, Z.of_nat k + t = 19 -> 0 <= t ->
    (forall t', t' < t -> txdims t' <> Some (w, h)) ->
    exists u, find_tx_loop k t w h = Ok u /\
      ((0 <= u < 19 /\ txdims u = Some (w, h)) \/ (u = 19 /\ forall t', txdims t' <> Some (w, h)))).
  { induction k as [|k IH]; intros t K T N; cbn [find_tx_loop].
    - exists 19. split; [reflexivity|]. right. split; [reflexivity|]. intros t' Q.
      pose proof (txdims_range _ _ Q). apply (N t'); [lia|exact Q].
    - assert (D : exists tw th, txdims t = Some (tw, th)).
      { assert (B : 0 <= t < 19) by lia. clear - B. each_index 19%nat t; do 2 eexists; reflexivity. }
      destruct D as (tw & th & D). destruct (tx_tables _ _ _ D) as (W & Hh & _).
      rewrite W, Hh. cbn [bind].
      assert (Step : (tw =? w) && (th =? h) = false -> forall t', t' < t + 1 -> txdims t' <> Some (w, h)).
      { intros E t' L Q. assert (C : t' = t \/ t' < t) by lia. destruct C as [->|C].
        - rewrite D in Q. injection Q as -> ->. rewrite !Z.eqb_refl in E. discriminate.
        - exact (N _ C Q). }
      destruct (tw =? w) eqn:E1; [destruct (th =? h) eqn:E2|].
      + exists t. split; [reflexivity|]. left. split; [lia|]. rewrite D. repeat f_equal; lia.
      + apply IH; [lia|lia|]. apply Step. reflexivity.
      + apply IH; [lia|lia|]. apply Step. reflexivity. }
  apply (G 19%nat 0); [reflexivity|lia|]. intros t' L. unfold txdims.
  replace (t' <? 0) with true by lia. discriminate.
Qed.

(** ** Partition geometry. *)

Definition holdsb (blk : Z * Z * Z) (y x : Z) : bool :=
  let '(r, c, b) := blk in
  match dims b with
  | Some (w, h) => (r <=? y) && (y <? r + h / 4) && (c <=? x) && (x <? c + w / 4)
  | None => false
  end.

Lemma holdsb_iff blk y x : holdsb blk y x = true <-> holds blk y x.
Proof.
  destruct blk as ((r, c), b). unfold holdsb, holds. destruct (dims b) as [(w, h)|] eqn:E.
  - split.
    + intros H. exists w, h. split; [reflexivity|]. clear E. set (a := w / 4) in *. set (d := h / 4) in *. lia.
    + intros (w' & h' & Q & P). injection Q as <- <-. clear E. set (a := w / 4) in *. set (d := h / 4) in *. lia.
  - split; [discriminate|]. intros (w' & h' & Q & P). discriminate.
Qed.

Definition count (l : list (Z * Z * Z)) (y x : Z) : Z :=
  fold_right (fun blk n => (if holdsb blk y x then 1 else 0) + n) 0 l.

Lemma count_nonneg l y x : 0 <= count l y x.
Proof. induction l as [|a l IH]; cbn [count fold_right]; [lia|]. fold (count l y x). destruct (holdsb a y x); lia. Qed.

Lemma count_pos l y x i blk : nth_error l i = Some blk -> holds blk y x -> 1 <= count l y x.
Proof.
  revert i. induction l as [|a l IH]; intros i N H; [destruct i; discriminate|].
  cbn [count fold_right]. fold (count l y x). destruct i; cbn [nth_error] in N.
  - injection N as ->. apply holdsb_iff in H. rewrite H. pose proof (count_nonneg l y x). lia.
  - specialize (IH _ N H). destruct (holdsb a y x); lia.
Qed.

Lemma count_once l y x : held_once l y x <-> count l y x = 1.
Proof.
  unfold held_once. induction l as [|a l IH]; cbn [count fold_right]; [|fold (count l y x)].
  - split; [|discriminate]. intros (i & blk & N & _). destruct i; discriminate.
  - split.
    + intros (i & blk & N & H & U). destruct i as [|i]; cbn [nth_error] in N.
      * injection N as ->. pose proof H as H'. apply holdsb_iff in H'. rewrite H'.
        pose proof (count_nonneg l y x). destruct (Z.eq_dec (count l y x) 0) as [E|E]; [lia|].
        exfalso. assert (X : exists j b, nth_error l j = Some b /\ holds b y x).
        { clear - E. induction l as [|b l IH]; [cbn in E; lia|]. cbn [count fold_right] in E. fold (count l y x) in E.
          destruct (holdsb b y x) eqn:Q.
          - exists 0%nat, b. split; [reflexivity|]. apply holdsb_iff, Q.
          - destruct (IH E) as (j & b' & N & Hb). exists (S j), b'. split; assumption. }
        destruct X as (j & b & N & Hb). specialize (U (S j) b N Hb). discriminate.
      * assert (Hl : count l y x = 1).
        { apply IH. exists i, blk. split; [exact N|]. split; [exact H|]. intros j b Nb Hb.
          specialize (U (S j) b Nb Hb). lia. }
        destruct (holdsb a y x) eqn:Q; [|lia]. apply holdsb_iff in Q.
        specialize (U 0%nat a eq_refl Q). discriminate.
    + intros C. destruct (holdsb a y x) eqn:Q.
      * exists 0%nat, a. split; [reflexivity|]. split; [apply holdsb_iff, Q|]. intros j b N Hb. destruct j; [reflexivity|].
        cbn [nth_error] in N. pose proof (count_pos _ _ _ _ _ N Hb). lia.
      * assert (Hl : count l y x = 1) by lia. apply IH in Hl. destruct Hl as (i & blk & N & H & U).
        exists (S i), blk. split; [exact N|]. split; [exact H|]. intros j b Nb Hb. destruct j.
        -- injection Nb as ->. apply holdsb_iff in Hb. congruence.
        -- f_equal. exact (U j b Nb Hb).
Qed.

Lemma tiles_of_bool l r c b rows cols :
  (forallb (fun blk => match dims (snd blk) with Some _ => true | None => false end) l = true) ->
  (forall blk y x, In blk l -> holdsb blk y x = true -> holdsb (r, c, b) y x = true) ->
  (forall y x, holdsb (r, c, b) y x = true -> y < rows -> x < cols -> count l y x = 1) ->
  tiles l r c b rows cols.
Proof.
  intros V I C. split; [|split].
  - intros ((rr, cc), s) Hin. rewrite forallb_forall in V. specialize (V _ Hin). cbn [snd] in V.
    destruct (dims s); [discriminate|exfalso; discriminate].
  - intros blk y x Hin H. apply holdsb_iff. apply (I blk); [exact Hin|]. apply holdsb_iff, H.
  - intros y x H Y X. apply count_once. apply C; [apply holdsb_iff, H|exact Y|exact X].
Qed.

Ltac val e := let v := eval vm_compute in e in change e with v.

Ltac blocks :=
  unfold sub_blocks;
  repeat match goal with
  | |- context [idx num_4x4_blocks_wide ?b] => val (idx num_4x4_blocks_wide b)
  | |- context [idx2 partition_subsize ?p ?b] => val (idx2 partition_subsize p b)
  end;
  cbn [bind];
  repeat match goal with
  | |- context [Z.shiftr ?a 1] => let v := eval vm_compute in (Z.shiftr a 1) in change (Z.shiftr a 1) with v
  end;
  unfold sub_calls;
  repeat match goal with
  | |- context [?p =? ?q] => let v := eval vm_compute in (p =? q) in
      match v with true => change (p =? q) with true | false => change (p =? q) with false end
  end;
  cbn [app].

Lemma Ok_inj (A : Type) (a b : A) : Ok a = Ok b -> a = b.
Proof. congruence. Qed.

Ltac dimval := repeat match goal with
  | |- context [dims ?b] => val (dims b)
  | H : context [dims ?b] |- _ => let v := eval vm_compute in (dims b) in change (dims b) with v in H
  end.
Ltac divval := repeat match goal with
  | |- context [?a / 4] => let v := eval vm_compute in (a / 4) in change (a / 4) with v
  | H : context [?a / 4] |- _ => let v := eval vm_compute in (a / 4) in change (a / 4) with v in H
  end.

Ltac prove_tiles :=
  apply tiles_of_bool;
  [ repeat match goal with |- context [if ?b then _ else _] => destruct b eqn:? end; reflexivity
  | let blk := fresh in let y := fresh "y" in let x := fresh "x" in let I := fresh "I" in let H := fresh "H" in
    intros blk y x I; 
    repeat match goal with J : context [if ?b then _ else _] |- _ => destruct b eqn:? end;
    cbn [In] in I; intros H;
    repeat (destruct I as [I|I]; [subst blk; unfold holdsb in H |- *; dimval; cbv beta iota in H |- *; divval; lia|]);
    try destruct I
  | let y := fresh "y" in let x := fresh "x" in let H := fresh "H" in
    intros y x H ? ?; unfold holdsb in H; dimval; cbv beta iota in H; divval;
    repeat match goal with |- context [if ?b then _ :: _ else _] => destruct b eqn:? end;
    cbn [count fold_right]; unfold holdsb; dimval; cbv beta iota; divval;
    repeat match goal with |- context [if ?b then 1 else 0] => destruct b eqn:? end; lia ].

Lemma not_tiles_count l r c b rows cols y x :
  holdsb (r, c, b) y x = true -> y < rows -> x < cols -> count l y x <> 1 -> ~ tiles l r c b rows cols.
Proof.
  intros H Y X C (_ & _ & T). apply C. apply count_once. apply T; [|exact Y|exact X]. apply holdsb_iff, H.
Qed.

Lemma not_tiles_out l r c b rows cols blk y x :
  In blk l -> holdsb blk y x = true -> holdsb (r, c, b) y x = false -> ~ tiles l r c b rows cols.
Proof.
  intros I H N (_ & T & _). specialize (T blk y x I). rewrite <- !holdsb_iff in T. specialize (T H). congruence.
Qed.

Ltac refute y x :=
  apply (not_tiles_count _ _ _ _ _ _ y x);
  [ unfold holdsb; dimval; cbv beta iota; divval; lia | lia | lia |
    repeat match goal with |- context [if ?b then _ :: _ else _] => destruct b eqn:? end;
    cbn [count fold_right]; unfold holdsb; dimval; cbv beta iota; divval;
    repeat match goal with |- context [if ?b then 1 else 0] => destruct b eqn:? end; lia ].

Lemma even2 z : Z.even z = true -> exists k, z = 2 * k.
Proof. intros H. apply Z.even_spec in H. destruct H as (k & ->). exists k. reflexivity. Qed.

Lemma partition_exact p b r c rows cols w h :
  In b [3; 6; 9; 12; 15] -> 0 <= p < 10 -> dims b = Some (w, h) -> (8 <= p -> 16 <= w <= 64) ->
  Z.even r = true -> Z.even c = true -> Z.even rows = true -> Z.even cols = true ->
  0 <= r < rows -> 0 <= c < cols ->
  (exists n, idx num_4x4_blocks_wide b = Ok n /\
     partition_tried b (r + Z.shiftr n 1 <? rows) (c + Z.shiftr n 1 <? cols) p = true) ->
  exists l, sub_blocks p b r c rows cols = Ok l /\
    (tiles l r c b rows cols <-> 
       (p = 0 \/ (b <> 6 /\ (In p [1; 2; 3; 4; 6; 8] \/ (p = 9 /\ cols <= c + 3 * (w / 16)))))).
Proof.
  intros B P D V E1 E2 E3 E4 R C (n & N & T).
  apply even2 in E1, E2, E3, E4. destruct E1 as (r2 & E1), E2 as (c2 & E2), E3 as (rows2 & E3), E4 as (cols2 & E4).
  cbn [In] in B.
  destruct B as [B|[B|[B|[B|[B|[]]]]]]; subst b; 
  (revert T V; each_index 10%nat p; intros T V;
   injection D as <- <-;
   match type of N with idx ?t ?b = Ok ?n => let v := eval vm_compute in (idx t b) in change (idx t b) with v in N end;
   injection N as <-;
   repeat match goal with H : context [Z.shiftr ?a 1] |- _ => let v := eval vm_compute in (Z.shiftr a 1) in change (Z.shiftr a 1) with v in H end;
   try (exfalso; specialize (V ltac:(lia)); lia);
   match goal with
   | H : partition_tried ?b ?hr ?hc ?p = true |- _ =>
       unfold partition_tried in H;
       destruct hr eqn:?, hc eqn:?; cbn in H; try discriminate H
   end; try (exfalso; lia);
   eexists; (split; [blocks; reflexivity|])).
  all: match goal with
    | |- tiles _ _ _ 6 _ _ <-> (0 = 0 \/ _) => split; [intros _; left; reflexivity | intros _; prove_tiles]
    | |- tiles _ _ _ 6 _ _ <-> _ =>
        split; [intros TT; exfalso; revert TT |
          intros [G|[G _]]; [discriminate G | exfalso; apply G; reflexivity]];
        first [ refute (r + 1) c | refute r (c + 1) | refute r c ]
    | |- tiles _ _ _ _ _ _ <-> (9 = 0 \/ _) =>
        split;
        [ intros TT; right; split; [discriminate|right; split; [reflexivity|]];
          match goal with |- ?cc <= ?a + 3 * ?q => let v := eval vm_compute in q in change q with v end;
          match goal with |- ?cc <= ?a => destruct (Z_le_gt_dec cc a) as [LE|GT]; [exact LE|exfalso] end;
          revert TT;
          match goal with |- context [if ?b then _ else _] => replace b with true by lia end;
          match goal with |- tiles [_; _; _; ((?rr, ?cc), ?s)] _ _ ?b _ _ -> False =>
            apply (not_tiles_out _ _ _ _ _ _ ((rr, cc), s) (r + match b with 6 => 4 | 9 => 8 | _ => 16 end) cc);
            [cbn [In]; auto | unfold holdsb; dimval; cbv beta iota; divval; lia
            | unfold holdsb; dimval; cbv beta iota; divval; lia] end
        | intros [G|[_ [G|[_ G]]]]; [discriminate G | cbn [In] in G; exfalso; lia |
          match type of G with ?cc <= ?a + 3 * ?q => let v := eval vm_compute in q in change q with v in G end;
          match goal with |- context [if ?b then _ else _] => replace b with false by lia end; prove_tiles ] ]
    | |- tiles _ _ _ _ _ _ <-> (5 = 0 \/ _) => idtac
    | |- tiles _ _ _ _ _ _ <-> (7 = 0 \/ _) => idtac
    | |- _ => split; [intros _; first [left; reflexivity | right; split; [discriminate|left; cbn [In]; tauto]]
                     | intros _; prove_tiles]
    end.
  all: split; [intros TT; exfalso; revert TT | 
    intros [G|[_ [G|[G _]]]]; [discriminate G | cbn [In] in G; exfalso; lia | discriminate G]].
  all: match goal with |- tiles [_; (?a, ?d, _); (?a', ?d', _)] _ _ _ _ _ -> False =>
         first [refute a d' | refute a' d] end.
Qed.

Lemma partition_conforms p b r c rows cols w : 
  In b [3; 9; 12; 15] -> In p [0; 1; 2; 3; 4; 6; 8] -> dims b = Some (w, w) ->
  exists sub split, dims sub = Some (sub_dims p w w) /\ dims split = Some (sub_dims 3 w w) /\
    sub_blocks p b r c rows cols = Ok (av1_blocks p r c (w / 4) rows cols sub split) \/
  (8 <= p /\ ~ 16 <= w <= 64).
Proof.
  intros B P D. cbn [In] in B, P.
  destruct B as [B|[B|[B|[B|[]]]]]; subst b; injection D as <-;
  destruct P as [P|[P|[P|[P|[P|[P|[P|[]]]]]]]]; subst p;
  (first [ exists 0, 0; right; split; lia | idtac ]);
  match goal with |- context [sub_blocks ?p ?b] =>
    let s := eval vm_compute in (match idx2 partition_subsize p b with Ok v => v | _ => 0 end) in
    let t := eval vm_compute in (match idx2 partition_subsize 3 b with Ok v => v | _ => 0 end) in
    exists s, t; left; split; [reflexivity|split; [reflexivity|]] end;
  blocks; unfold av1_blocks; divval;
  repeat match goal with |- context [?a / 2] => let v := eval vm_compute in (a / 2) in change (a / 2) with v end;
  cbn [app];
  repeat match goal with |- context [r + ?a * ?b] => let v := eval vm_compute in (a * b) in change (a * b) with v end;
  divval; rewrite ?Z.add_0_r; reflexivity.
Qed.

(** ** Chroma. *)
Lemma odd_cell r n : 1 <= n -> ((exists y, r <= y < r + n /\ Z.odd y = true) <-> (n <> 1 \/ Z.odd r = true)).
Proof.
  intros N. split.
  - intros (y & Y & O). destruct (Z.eq_dec n 1) as [->|]; [right|left; assumption]. replace r with y by lia. exact O.
  - intros H. destruct (Z.odd r) eqn:O.
    + exists r. split; [lia|exact O].
    + destruct H as [H|H]; [|discriminate]. exists (r + 1). split; [lia|]. rewrite Z.odd_add, O. reflexivity.
Qed.

Lemma land1_even z : (Z.land z 1 =? 0) = negb (Z.odd z).
Proof. rewrite land_1. pose proof (Zmod_odd z). destruct (Z.odd z); lia. Qed.

Lemma has_chroma_iff e r c w4 h4 : 1 <= w4 -> 1 <= h4 ->
  (has_chroma e r c w4 h4 = true <-> 1 < e_num_planes e /\ carries_chroma (e_subx e) (e_suby e) r c w4 h4).
Proof.
  intros W H. unfold has_chroma, carries_chroma. rewrite !odd_cell by assumption. rewrite !land1_even.
  destruct (e_subx e), (e_suby e), (Z.odd r), (Z.odd c); cbn [negb andb];
  rewrite ?andb_true_r, ?andb_false_r;
  destruct (h4 =? 1) eqn:E1, (w4 =? 1) eqn:E2;
  (split; [intros Q; try discriminate Q; (split; [lia|(split; intros X; try discriminate X; lia)])
          |intros [Q [X Y]]; first [apply Z.ltb_lt; lia
             | exfalso; destruct (X eq_refl) as [X'|X']; [lia|discriminate X']
             | exfalso; destruct (Y eq_refl) as [Y'|Y']; [lia|discriminate Y']]]).
Qed.

Lemma block_chroma S (mode_info : tstate S -> block_env -> list Z -> res (tstate S * list Z)) e st r c b w h out :
  dims b = Some (w, h) -> (h = 4 \/ Z.even r = true) -> (w = 4 \/ Z.even c = true) ->
  exists hc uc lc,
    encode_block S mode_info e st r c b out =
      mode_info (mkT (t_coder st) (t_cdf st) (is_inside e (r - 1) c) (is_inside e r (c - 1)) (t_rest st))
        (mkBlk r c b hc uc lc) out /\
    (hc = true <-> 1 < e_num_planes e /\ carries_chroma (e_subx e) (e_suby e) r c (w / 4) (h / 4)) /\
    uc = hc && is_inside e ((if e_suby e then 2 * (r / 2) else r) - 1) c /\
    lc = hc && is_inside e r ((if e_subx e then 2 * (c / 2) else c) - 1).
Proof.
  intros D A1 A2. destruct (block_tables _ _ _ D) as (_ & _ & Hh & Hw & _).
  unfold encode_block. rewrite Hh, Hw. cbn [bind].
  set (bw := if (b =? 5) || (b =? 6) || (b =? 7) then 3 else w / 4).
  assert (Q : 4 <= w /\ 4 <= h /\ (bw =? 1) = (w =? 4) /\ (h / 4 =? 1) = (h =? 4) /\ (bw = 1 <-> w / 4 = 1)).
  { subst bw. pose proof (dims_range _ _ D) as B. clear - D B. revert w h D.
    each_index 22%nat b; intros w h D; injection D as <- <-; vm_compute; repeat split; intros; try discriminate; lia. }
  destruct Q as (W4 & H4 & Q1 & Q2 & Q3).
  assert (HC : has_chroma e r c bw (h / 4) = has_chroma e r c (w / 4) (h / 4)).
  { unfold has_chroma. replace (w / 4 =? 1) with (bw =? 1) by lia. reflexivity. }
  eexists (has_chroma e r c bw (h / 4)), _, _. split; [reflexivity|]. split; [rewrite HC; apply has_chroma_iff; lia|].
  rewrite Q1, Q2.
  assert (HX : has_chroma e r c bw (h / 4) = true ->
     (e_suby e = true -> h = 4 -> Z.odd r = true) /\ (e_subx e = true -> w = 4 -> Z.odd c = true)).
  { unfold has_chroma. rewrite Q1, Q2, !land1_even. 
    destruct (e_suby e), (e_subx e), (Z.odd r), (Z.odd c), (h =? 4) eqn:X1, (w =? 4) eqn:X2; cbn [andb negb];
      intros; split; intros; try reflexivity; try discriminate; lia. }
  destruct (has_chroma e r c bw (h / 4)) eqn:E; cbn [andb]; [|split; reflexivity].
  destruct (HX eq_refl) as (Xr & Xc). 
  assert (Er : Z.odd r = true -> 2 * (r / 2) - 1 = r - 2) by (intros O; pose proof (Zmod_odd r); rewrite O in *; lia).
  assert (Er' : Z.even r = true -> 2 * (r / 2) = r) by (intros O; pose proof (Zmod_even r); rewrite O in *; lia).
  assert (Ec : Z.odd c = true -> 2 * (c / 2) - 1 = c - 2) by (intros O; pose proof (Zmod_odd c); rewrite O in *; lia).
  assert (Ec' : Z.even c = true -> 2 * (c / 2) = c) by (intros O; pose proof (Zmod_even c); rewrite O in *; lia).
  split.
  - destruct (e_suby e); cbn [andb]; [|reflexivity]. destruct (h =? 4) eqn:X.
    + rewrite Er; [reflexivity|]. apply Xr; [reflexivity|lia].
    + rewrite Er'; [reflexivity|]. destruct A1; [lia|assumption].
  - destruct (e_subx e); cbn [andb]; [|reflexivity]. destruct (w =? 4) eqn:X.
    + rewrite Ec; [reflexivity|]. apply Xc; [reflexivity|lia].
    + rewrite Ec'; [reflexivity|]. destruct A2; [lia|assumption].
Qed.

(** ** The partition search never returns. *)
Section Never.
Variable S : Type.
Variable mode_info : tstate S -> block_env -> list Z -> res (tstate S * list Z).
Variable e : tile_env.

Lemma run_calls_first f st out r c b rest v :
  run_calls S f st out ((r, c, b) :: rest) = Ok v -> exists u, f st r c b out = Ok u.
Proof.
  cbn [run_calls]. intros H. apply bind_inv in H. destruct H as (u & U & _). exists u. exact U.
Qed.

Lemma signal_some st b hr hc p v : partition_tried b hr hc p = true ->
  signal_partition S st b hr hc p = Ok v -> exists u, v = Some u.
Proof.
  intros T H. unfold signal_partition in H. rewrite T in H. cbn [negb] in H.
  destruct (b <? BLOCK_8X8); [injection H as <-; eexists; reflexivity|].
  destruct (hr && hc).
  - apply bind_inv in H. destruct H as (((c1, t1), o1) & _ & H). injection H as <-. eexists; reflexivity.
  - destruct hc; [|destruct hr].
    + apply bind_inv in H. destruct H as ((c1, o1) & _ & H). injection H as <-. eexists; reflexivity.
    + apply bind_inv in H. destruct H as ((c1, o1) & _ & H). injection H as <-. eexists; reflexivity.
    + injection H as <-. eexists; reflexivity.
Qed.

Lemma try_all_reaches rec r c b hr hc p ps : forall st best v,
  try_all S mode_info e rec st r c b hr hc best ps = Ok v -> In p ps -> partition_tried b hr hc p = true ->
  exists st1 bits calls u, sub_blocks p b r c (e_mi_rows e) (e_mi_cols e) = Ok calls /\
    run_calls S (if p =? PARTITION_SPLIT then rec else leaf_call S mode_info e) st1 bits calls = Ok u.
Proof.
  induction ps as [|q ps IH]; intros st best v H I T; [destruct I|].
  cbn [try_all] in H. apply bind_inv in H. destruct H as (sg & Sg & H).
  destruct (Z.eq_dec q p) as [->|N].
  - destruct (signal_some _ _ _ _ _ _ T Sg) as ((st1, bits) & ->).
    apply bind_inv in H. destruct H as (calls & C & H).
    apply bind_inv in H. destruct H as (u & U & H).
    exists st1, bits, calls, u. split; assumption.
  - destruct I as [I|I]; [congruence|]. destruct sg as [(st1, bits)|].
    + apply bind_inv in H. destruct H as (calls & C & H).
      apply bind_inv in H. destruct H as (((st2, bits2), ts) & U & H).
      exact (IH _ _ _ H I T).
    + exact (IH _ _ _ H I T).
Qed.

Lemma partition_inv fuel st r c b out v : encode_partition S mode_info e fuel st r c b out = Ok v ->
  r < e_mi_rows e -> c < e_mi_cols e ->
  exists fuel' n st' w, fuel = Datatypes.S fuel' /\ idx num_4x4_blocks_wide b = Ok n /\
    try_all S mode_info e (encode_partition S mode_info e fuel') st' r c b
      (r + Z.shiftr n 1 <? e_mi_rows e) (c + Z.shiftr n 1 <? e_mi_cols e) None partitions_in_order = Ok w.
Proof.
  intros H R C. destruct fuel as [|fuel']; cbn [encode_partition] in H; [discriminate|].
  replace ((e_mi_rows e <=? r) || (e_mi_cols e <=? c)) with false in H by lia.
  apply bind_inv in H. destruct H as (n & N & H). apply bind_inv in H. destruct H as (w & W & _).
  exists fuel', n. do 2 eexists. split; [reflexivity|]. split; [exact N|exact W].
Qed.

Lemma block_invalid st r c out : encode_block S mode_info e st r c 22 out = Panic.
Proof. reflexivity. Qed.

Lemma never_8x8 fuel st r c out v :
  Z.even r = true -> Z.even c = true -> Z.even (e_mi_rows e) = true -> Z.even (e_mi_cols e) = true ->
  r < e_mi_rows e -> c < e_mi_cols e -> encode_partition S mode_info e fuel st r c 3 out <> Ok v.
Proof.
  intros E1 E2 E3 E4 R C H.
  destruct (partition_inv _ _ _ _ _ _ _ H R C) as (f' & n & st' & w & _ & N & T).
  apply Ok_inj in N. change (2 = n) in N. subst n. change (Z.shiftr 2 1) with 1 in T.
  apply even2 in E1, E2, E3, E4. destruct E1 as (r2 & E1), E2 as (c2 & E2), E3 as (rows2 & E3), E4 as (cols2 & E4).
  apply (try_all_reaches _ _ _ _ _ _ 8) in T.
  - destruct T as (st1 & bits & calls & u & Cl & Ru). revert Cl. blocks. intros Cl. injection Cl as <-.
    change (8 =? PARTITION_SPLIT) with false in Ru. cbv iota in Ru.
    apply run_calls_first in Ru. destruct Ru as (x & X). unfold leaf_call in X. rewrite block_invalid in X. discriminate.
  - vm_compute. tauto.
  - replace (r + 1 <? e_mi_rows e) with true by lia. replace (c + 1 <? e_mi_cols e) with true by lia. reflexivity.
Qed.

Lemma tried_split b hr hc : 3 <= b -> partition_tried b hr hc 3 = true.
Proof.
  intros B. unfold partition_tried. replace (b <? BLOCK_8X8) with false by (unfold BLOCK_8X8; lia).
  destruct hr, hc; reflexivity.
Qed.

Lemma never_split b s : 3 <= b -> idx2 partition_subsize 3 b = Ok s ->
  (forall fuel st r c out v,
    Z.even r = true -> Z.even c = true -> Z.even (e_mi_rows e) = true -> Z.even (e_mi_cols e) = true ->
    r < e_mi_rows e -> c < e_mi_cols e -> encode_partition S mode_info e fuel st r c s out <> Ok v) ->
  forall fuel st r c out v,
    Z.even r = true -> Z.even c = true -> Z.even (e_mi_rows e) = true -> Z.even (e_mi_cols e) = true ->
    r < e_mi_rows e -> c < e_mi_cols e -> encode_partition S mode_info e fuel st r c b out <> Ok v.
Proof.
  intros B Sb IH fuel st r c out v E1 E2 E3 E4 R C H.
  destruct (partition_inv _ _ _ _ _ _ _ H R C) as (f' & n & st' & w & _ & N & T).
  apply (try_all_reaches _ _ _ _ _ _ 3) in T.
  - destruct T as (st1 & bits & calls & u & Cl & Ru). unfold sub_blocks in Cl. rewrite N in Cl.
    change PARTITION_SPLIT with 3 in Cl. rewrite Sb in Cl. cbn [bind] in Cl. apply Ok_inj in Cl.
    unfold sub_calls in Cl. cbn [Z.eqb PARTITION_NONE PARTITION_HORZ PARTITION_VERT PARTITION_SPLIT Pos.eqb] in Cl.
    subst calls. change (3 =? PARTITION_SPLIT) with true in Ru. cbv iota in Ru.
    apply run_calls_first in Ru. destruct Ru as (x & X). exact (IH _ _ _ _ _ _ E1 E2 E3 E4 R C X).
  - vm_compute. tauto.
  - apply tried_split, B.
Qed.

Lemma never_partition fuel st r c b out v : In b [3; 6; 9; 12; 15] ->
  Z.even r = true -> Z.even c = true -> Z.even (e_mi_rows e) = true -> Z.even (e_mi_cols e) = true ->
  r < e_mi_rows e -> c < e_mi_cols e -> encode_partition S mode_info e fuel st r c b out <> Ok v.
Proof.
  pose proof never_8x8 as N3.
  pose proof (never_split 6 3 ltac:(lia) eq_refl N3) as N6.
  pose proof (never_split 9 6 ltac:(lia) eq_refl N6) as N9.
  pose proof (never_split 12 9 ltac:(lia) eq_refl N9) as N12.
  pose proof (never_split 15 12 ltac:(lia) eq_refl N12) as N15.
  cbn [In]. intros [<-|[<-|[<-|[<-|[<-|[]]]]]]; auto.
Qed.

End Never.

Lemma mi_units_even n : Z.even (mi_units n) = true.
Proof. unfold mi_units. rewrite Z.even_mul. reflexivity. Qed.

(** Which types are tried: those that can be coded, and where the whole block is in the
    frame also those that 8x8 and 128x128 blocks do not have. *)
Lemma tried_iff : forall b w hr hc p, In b [0; 3; 6; 9; 12; 15] -> 0 <= p < 10 -> dims b = Some (w, w) ->
  (partition_tried b hr hc p = true <->
   av1_codable w hr hc p \/ hr = true /\ hc = true /\ (w = 8 /\ 4 <= p \/ w = 128 /\ 8 <= p)).
Proof.
  intros b w hr hc p B P D. unfold partition_tried, av1_codable, BLOCK_8X8, PARTITION_NONE, PARTITION_SPLIT, PARTITION_HORZ, PARTITION_VERT.
  cbn [In] in B. decompose [or] B; try contradiction; subst b; vm_compute in D; injection D as <-; cbn [Z.ltb Z.compare Pos.compare Pos.compare_cont Z.eqb Pos.eqb];
    destruct hr, hc; cbn [andb]; lia.
Qed.

Lemma tx_depth_table b w h : dims b = Some (w, h) ->
  exists d, idx max_tx_depth b = Ok (Z.of_nat d) /\ forall k, (k <= d)%nat -> (tx_at_depth w h k = (4, 4) <-> k = d).
Proof.
  intros D. exists (Z.to_nat (nth (Z.to_nat b) max_tx_depth 0)). pose proof (dims_range _ _ D) as B. revert w h D.
  each_index 22%nat b; intros w h D; injection D as <- <-; (split; [reflexivity|]); intros k K;
    (do 5 (destruct k as [|k]; [vm_compute; vm_compute in K; split; intros X; first [reflexivity|discriminate X|exfalso; lia]|])); exfalso; vm_compute in K; lia.
Qed.
Lemma mode_transform_table m : 0 <= m < 14 ->
  idx mode_to_txfm m = Ok ((if fst (mode_edges m) then 1 else 0) + (if snd (mode_edges m) then 2 else 0)).
Proof. intros H. each_index 14%nat m; reflexivity. Qed.
