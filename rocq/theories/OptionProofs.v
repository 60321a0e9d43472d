(** Proofs about option.rs. *)
From Coq Require Import ZArith List Bool Ascii String Lia ZifyBool.
From Verif Require Import Base OptionModel OptionSpec.
Import ListNotations.
Open Scope list_scope.
Open Scope Z_scope.

Lemma str_eqb_eq : forall a b, str_eqb a b = true <-> a = b.
Proof.
  induction a as [|x a IH]; destruct b as [|y b]; cbn [str_eqb]; split; intros H; try reflexivity; try discriminate.
  - apply andb_true_iff in H. destruct H as [H1 H2]. apply Ascii.eqb_eq in H1. apply IH in H2. congruence.
  - injection H as -> ->. rewrite Ascii.eqb_refl. cbn. apply IH. reflexivity.
Qed.

(** ** Numbers *)
Lemma code_inj_digit : forall c d, code c = code d -> c = d.
Proof.
  unfold code. intros c d H. apply N2Z.inj in H. rewrite <- (ascii_N_embedding c), <- (ascii_N_embedding d). congruence.
Qed.
Lemma digit_some : forall c d, digit c = Some d <-> is_digit c /\ d = code c - 48.
Proof.
  intros c d. unfold digit, is_digit. destruct ((48 <=? code c) && (code c <=? 57)) eqn:E.
  - split; [intros H; injection H as <-; lia|]. intros [_ ->]. reflexivity.
  - split; [discriminate|]. lia.
Qed.

Lemma fold_dec_mono : forall ds a, Forall is_digit ds -> 0 <= a -> a <= fold_left (fun a c => 10 * a + (code c - 48)) ds a.
Proof.
  induction ds as [|c r IH]; intros a H Ha; cbn [fold_left]; [lia|]. inversion H; subst. unfold is_digit in *.
  specialize (IH (10 * a + (code c - 48)) H3 ltac:(lia)). lia.
Qed.

Lemma from_digits_ok : forall ds a n, 0 <= a < 2 ^ 64 ->
  from_digits a ds = Some n <->
  Forall is_digit ds /\ n = fold_left (fun a c => 10 * a + (code c - 48)) ds a /\ n < 2 ^ 64.
Proof.
  induction ds as [|c r IH]; intros a n Ha; cbn [from_digits fold_left].
  - split; [intros H; injection H as <-; repeat split; [constructor|lia]|]. intros (_ & -> & _). reflexivity.
  - destruct (digit c) as [d|] eqn:D.
    + apply digit_some in D. destruct D as [D ->]. unfold is_digit in D.
      replace (10 * a + (code c - 48)) with (a * 10 + (code c - 48)) by lia.
      destruct (2 ^ 64 <=? a * 10) eqn:E1; [|destruct (2 ^ 64 <=? a * 10 + (code c - 48)) eqn:E2].
      * split; [discriminate|]. intros (F & -> & L). exfalso. inversion F; subst.
        pose proof (fold_dec_mono r (a * 10 + (code c - 48)) H2 ltac:(lia)). lia.
      * split; [discriminate|]. intros (F & -> & L). exfalso. inversion F; subst.
        pose proof (fold_dec_mono r (a * 10 + (code c - 48)) H2 ltac:(lia)). lia.
      * rewrite IH by lia. split; intros (F & E & L).
        -- repeat split; [constructor; assumption|assumption..].
        -- inversion F; subst. repeat split; assumption.
    + split; [discriminate|]. intros (F & _). inversion F; subst.
      assert (digit c = Some (code c - 48)) by (apply digit_some; auto). congruence.
Qed.

Lemma plus_not_digit : ~ is_digit "+"%char.
Proof. unfold is_digit. vm_compute. intros [H _]. apply H. reflexivity. Qed.

Lemma from_str_ok : forall s n, from_str s = Some n <-> number s n.
Proof.
  intros s n. unfold from_str, number. destruct s as [|c r].
  - split; [discriminate|]. intros (ds & [->|H] & N & _); [contradiction|discriminate].
  - destruct (Ascii.eqb c "+"%char) eqn:E.
    + apply Ascii.eqb_eq in E. subst c. split.
      * intros H. destruct r as [|c2 r]; [discriminate|]. apply from_digits_ok in H; [|lia].
        exists (c2 :: r). split; [right; reflexivity|]. split; [discriminate|]. assumption.
      * intros (ds & [H|H] & N & F & E & L).
        -- subst ds. inversion F; subst. exfalso. exact (plus_not_digit H1).
        -- injection H as ->. destruct ds; [contradiction|]. apply from_digits_ok; [lia|]. auto.
    + split.
      * intros H. apply from_digits_ok in H; [|lia]. exists (c :: r). split; [left; reflexivity|]. split; [discriminate|assumption].
      * intros (ds & [H|H] & N & F & E' & L).
        -- subst ds. apply from_digits_ok; [lia|]. auto.
        -- injection H as -> _. discriminate.
Qed.

Lemma number_range : forall s n, number s n -> 0 <= n < 2 ^ 64.
Proof.
  intros s n (ds & _ & _ & F & -> & L). split; [|assumption]. apply (fold_dec_mono ds 0 F). lia.
Qed.

Lemma number_chars : forall s n c, number s n -> In c s -> is_digit c \/ c = "+"%char.
Proof.
  intros s n c (ds & [->| ->] & _ & F & _) I.
  - left. rewrite Forall_forall in F. auto.
  - destruct I as [<-|I]; [right; reflexivity|]. left. rewrite Forall_forall in F. auto.
Qed.
Lemma number_notin : forall s n c, number s n -> ~ is_digit c -> c <> "+"%char -> ~ In c s.
Proof. intros s n c N D P I. destruct (number_chars s n c N I); contradiction. Qed.
Lemma number_det : forall s n m, number s n -> number s m -> n = m.
Proof. intros s n m H1 H2. apply from_str_ok in H1, H2. congruence. Qed.

(** ** Splitting *)
Lemma split_cons : forall sep s, exists p ps, split sep s = p :: ps.
Proof.
  intros sep s. destruct s as [|c r]; cbn [split]; [eauto|]. destruct (Ascii.eqb c sep); [eauto|]. destruct (split sep r); eauto.
Qed.
Lemma split_none : forall sep s, ~ In sep s -> split sep s = [s].
Proof.
  induction s as [|c r IH]; intros N; cbn [split]; [reflexivity|].
  destruct (Ascii.eqb c sep) eqn:E; [apply Ascii.eqb_eq in E; subst; exfalso; apply N; left; reflexivity|].
  rewrite IH by (intros I; apply N; right; assumption). reflexivity.
Qed.
Lemma split_app : forall sep a b, ~ In sep a -> split sep (a ++ sep :: b) = a :: split sep b.
Proof.
  induction a as [|c r IH]; intros b N; cbn [split app].
  - rewrite Ascii.eqb_refl. reflexivity.
  - destruct (Ascii.eqb c sep) eqn:E; [apply Ascii.eqb_eq in E; subst; exfalso; apply N; left; reflexivity|].
    rewrite IH by (intros I; apply N; right; assumption). reflexivity.
Qed.
Lemma split_one : forall sep s p, split sep s = [p] -> s = p.
Proof.
  induction s as [|c r IH]; intros p H; cbn [split] in H; [congruence|].
  destruct (Ascii.eqb c sep); [destruct (split_cons sep r) as (q & qs & E); rewrite E in H; discriminate|].
  destruct (split sep r) as [|q qs] eqn:E; [destruct (split_cons sep r) as (q & qs & E2); congruence|].
  injection H as <- ->. f_equal. apply IH. reflexivity.
Qed.
Lemma split_two : forall sep s p q, split sep s = [p; q] -> s = p ++ sep :: q.
Proof.
  induction s as [|c r IH]; intros p q H; cbn [split] in H; [discriminate|].
  destruct (Ascii.eqb c sep) eqn:E.
  - apply Ascii.eqb_eq in E. subst c. injection H as <- H. apply split_one in H. subst. reflexivity.
  - destruct (split sep r) as [|p2 ps] eqn:E2; [discriminate|]. injection H as <- ->. cbn. f_equal. apply IH. reflexivity.
Qed.

(** ** One option *)
Definition dispatch (arg : str) (tail : list str) (c : config) : res (config * presult) :=
  a <- slice arg 0 1 ;;
  if str_eqb a (lit "-") then
    b <- slice arg 1 2 ;;
    (if str_eqb b (lit "-")
     then name <- slice_from arg 2 ;; set_by_name options name tail c
     else name <- slice_from arg 1 ;; set_by_short_name options name tail c)
  else Ok (c, PErr).

Lemma parse_fuel_cons : forall fuel arg tail c,
  parse_fuel (S fuel) (arg :: tail) c =
  '(c, p) <- dispatch arg tail c ;;
  match p with POk v => parse_fuel fuel v c | PErr => Ok (c, PErr) | PExit => Ok (c, PExit) end.
Proof.
  intros. cbn [parse_fuel]. unfold dispatch. destruct (slice arg 0 1) as [a| |]; try reflexivity. cbn [bind].
  destruct (str_eqb a (lit "-")); [|reflexivity]. destruct (slice arg 1 2) as [b| |]; reflexivity.
Qed.

(** The configuration after one item. *)
Definition apply_item (i : item) (c : config) : config :=
  match i with
  | IInput s => set_input c s
  | IOutput s => set_output c s
  | IFrames n => set_frames c n
  | ISize w h => set_height (set_width c w) h
  | IRate n => set_rate c (n, 1)
  | IFrac n d => set_rate c (n / Z.gcd n d, d / Z.gcd n d)
  end.

Lemma meaning_fold : forall its c c', meaning its c c' <-> c' = fold_left (fun c i => apply_item i c) its c.
Proof.
  induction its as [|i its IH]; intros c c'.
  - unfold meaning, latest. cbn [fold_left]. destruct c, c'; cbn. split; [intros (?&?&?&?&?&?); congruence|intros H; injection H; auto 10].
  - cbn [fold_left]. rewrite <- IH. unfold meaning, latest. destruct i; cbn [fold_left apply_item]; reflexivity.
Qed.

Lemma dispatch_unsliceable : forall s tail c, unsliceable s -> dispatch s tail c = Panic.
Proof.
  intros s tail c [->|[->|[(a & b & r & -> & K)|(b & e & r & -> & K)]]].
  - reflexivity.
  - reflexivity.
  - unfold dispatch, slice. cbn [Nat.leb boundary Nat.eqb nth_error andb].
    unfold is_cont, continuation in *. replace (negb _) with false by lia. reflexivity.
  - unfold dispatch, slice. cbn [Nat.leb boundary Nat.eqb nth_error andb]. unfold is_cont, continuation in *.
    destruct (negb ((128 <=? code b) && (code b <? 192))); [|reflexivity]. cbn [bind firstn skipn Nat.sub].
    change (str_eqb ["-"%char] (lit "-")) with true. cbn iota. replace (negb _) with false by lia. reflexivity.
Qed.

Definition is_help (s : str) : Prop := flag s "--help" "-h".
Lemma dispatch_help : forall s tail c, is_help s -> dispatch s tail c = Ok (c, PExit).
Proof. intros s tail c [->| ->]; reflexivity. Qed.

Lemma dispatch_input : forall f tail c, flag f "--input" "-i" -> dispatch f tail c = parse_string set_input tail c.
Proof. intros f tail c [->| ->]; reflexivity. Qed.
Lemma dispatch_output : forall f tail c, flag f "--output" "-o" -> dispatch f tail c = parse_string set_output tail c.
Proof. intros f tail c [->| ->]; reflexivity. Qed.
Lemma dispatch_frames : forall f tail c, flag f "--frames" "-fr" -> dispatch f tail c = parse_frames tail c.
Proof. intros f tail c [->| ->]; reflexivity. Qed.
Lemma dispatch_size : forall f tail c, flag f "--size" "-s" -> dispatch f tail c = parse_size tail c.
Proof. intros f tail c [->| ->]; reflexivity. Qed.
Lemma dispatch_rate : forall f tail c, flag f "--framerate" "-r" -> dispatch f tail c = parse_rate tail c.
Proof. intros f tail c [->| ->]; reflexivity. Qed.

Lemma dispatch_item : forall f v it rest c, denotes f v it -> dispatch f (v :: rest) c =
  match it with
  | IFrac n d => if d =? 0 then Panic else Ok (apply_item it c, POk [])
  | _ => Ok (apply_item it c, POk rest)
  end.
Proof.
  intros f v it rest c D. destruct D as [f v F|f v F|f v n F N|f a b w h F N1 N2|f v n F N|f a b n d F N1 N2].
  - rewrite dispatch_input by assumption. reflexivity.
  - rewrite dispatch_output by assumption. reflexivity.
  - rewrite dispatch_frames by assumption. unfold parse_frames, parse_tuple.
    rewrite split_none by (apply (number_notin v n); [assumption|unfold is_digit; vm_compute; intuition congruence|discriminate]).
    cbn [List.length Nat.eqb assign]. apply from_str_ok in N. rewrite N. reflexivity.
  - rewrite dispatch_size by assumption. unfold parse_size, parse_tuple.
    rewrite split_app by (apply (number_notin a w); [assumption|unfold is_digit; vm_compute; intuition congruence|discriminate]).
    rewrite split_none by (apply (number_notin b h); [assumption|unfold is_digit; vm_compute; intuition congruence|discriminate]).
    cbn [List.length Nat.eqb assign]. apply from_str_ok in N1, N2. rewrite N1, N2. reflexivity.
  - rewrite dispatch_rate by assumption. unfold parse_rate. apply from_str_ok in N. rewrite N.
    unfold ratio_new. cbn [Z.eqb bind apply_item]. rewrite Z.gcd_1_r, Z.div_1_r. reflexivity.
  - rewrite dispatch_rate by assumption. unfold parse_rate.
    destruct (from_str (a ++ "/"%char :: b)) as [m|] eqn:E.
    { exfalso. apply from_str_ok in E. apply (number_notin _ _ "/"%char E); [unfold is_digit; vm_compute; intuition congruence|discriminate|].
      apply in_or_app. right. left. reflexivity. }
    rewrite split_app by (apply (number_notin a n); [assumption|unfold is_digit; vm_compute; intuition congruence|discriminate]).
    rewrite split_none by (apply (number_notin b d); [assumption|unfold is_digit; vm_compute; intuition congruence|discriminate]).
    apply from_str_ok in N1, N2. rewrite N1, N2. unfold ratio_new. destruct (d =? 0); reflexivity.
Qed.

Inductive classified (f : str) (tail : list str) (c : config) : Prop :=
| cs_bad : unsliceable f -> classified f tail c
| cs_help : is_help f -> classified f tail c
| cs_item : forall v rest it, tail = v :: rest -> denotes f v it -> classified f tail c
| cs_err : forall c', dispatch f tail c = Ok (c', PErr) -> classified f tail c.

Lemma slice01 : forall f, (slice f 0 1 = Panic /\ unsliceable f) \/ (exists a r, f = a :: r /\ slice f 0 1 = Ok [a] /\
  match r with b :: _ => ~ continuation b | [] => True end).
Proof.
  intros [|a [|b r]].
  - left. split; [reflexivity|left; reflexivity].
  - right. exists a, []. auto.
  - unfold slice. cbn [Nat.leb boundary Nat.eqb nth_error andb]. destruct (is_cont b) eqn:E; cbn [negb].
    + left. split; [reflexivity|]. right. right. left. exists a, b, r. split; [reflexivity|]. unfold is_cont, continuation in *. lia.
    + right. exists a, (b :: r). repeat split. unfold is_cont, continuation in *. lia.
Qed.

Lemma dispatch_flag : forall f tail c, unsliceable f \/ is_help f \/ flag f "--input" "-i" \/ flag f "--output" "-o" \/
  flag f "--frames" "-fr" \/ flag f "--size" "-s" \/ flag f "--framerate" "-r" \/ dispatch f tail c = Ok (c, PErr).
Proof.
  intros f tail c. destruct (slice01 f) as [[_ U]|(a & r & -> & S & K)]; [left; assumption|].
  unfold dispatch. rewrite S. cbn [bind]. cbn [lit list_ascii_of_string str_eqb]. destruct (Ascii.eqb a "-"%char) eqn:E; cbn [andb];
    [|do 7 right; reflexivity].
  apply Ascii.eqb_eq in E. subst a. destruct r as [|b r]; [left; right; left; reflexivity|].
  destruct r as [|e r'] eqn:R.
  - cbn [slice Nat.leb boundary Nat.eqb nth_error andb List.length negb]. unfold slice. cbn [Nat.leb boundary Nat.eqb nth_error andb List.length].
    unfold continuation in K. assert (is_cont b = false) as Hb by (unfold is_cont; lia). rewrite Hb. cbn [negb firstn skipn Nat.sub bind].
    cbn [str_eqb]. destruct (Ascii.eqb b "-"%char) eqn:Eb; cbn [andb].
    + apply Ascii.eqb_eq in Eb. subst b. do 7 right. reflexivity.
    + unfold slice_from, boundary. cbn [Nat.eqb nth_error]. rewrite Hb. cbn [negb bind skipn options set_by_short_name o_short o_parser].
      repeat (match goal with |- context [str_eqb ?x [b]] => destruct (str_eqb x [b]) eqn:?Q end;
        [match goal with H : str_eqb _ _ = true |- _ => apply str_eqb_eq in H; cbn in H; try discriminate H; injection H as <- end;
         unfold is_help, flag; cbn; tauto|]).
      do 7 right. cbn [str_eqb]. rewrite ?Eb. reflexivity.
  - subst r. destruct (is_cont e) eqn:Ee.
    { left. right. right. right. exists b, e, r'. split; [reflexivity|]. unfold is_cont, continuation in *. lia. }
    unfold slice. cbn [Nat.leb boundary Nat.eqb nth_error andb List.length].
    unfold continuation in K. assert (is_cont b = false) as Hb by (unfold is_cont; lia). rewrite Hb, Ee. cbn [negb firstn skipn Nat.sub bind].
    cbn [str_eqb]. destruct (Ascii.eqb b "-"%char) eqn:Eb; cbn [andb].
    + apply Ascii.eqb_eq in Eb. subst b. unfold slice_from, boundary. cbn [Nat.eqb nth_error]. rewrite Ee.
      cbn [negb bind skipn options set_by_name o_name o_parser].
      repeat (match goal with |- context [str_eqb ?x (e :: r')] => destruct (str_eqb x (e :: r')) eqn:?Q end;
        [match goal with H : str_eqb _ _ = true |- _ => apply str_eqb_eq in H; rewrite <- H end;
         unfold is_help, flag; cbn; tauto|]).
      do 7 right. cbn [str_eqb]. rewrite ?Eb. reflexivity.
    + unfold slice_from, boundary. cbn [Nat.eqb nth_error]. rewrite Hb. cbn [negb bind skipn options set_by_short_name o_short o_parser].
      repeat (match goal with |- context [str_eqb ?x (b :: e :: r')] => destruct (str_eqb x (b :: e :: r')) eqn:?Q end;
        [match goal with H : str_eqb _ _ = true |- _ => apply str_eqb_eq in H; rewrite <- H end;
         unfold is_help, flag; cbn; tauto|]).
      do 7 right. cbn [str_eqb]. rewrite ?Eb. reflexivity.
Qed.

Lemma classify : forall f tail c, classified f tail c.
Proof.
  intros f tail c. destruct (dispatch_flag f tail c) as [H|[H|[H|[H|[H|[H|[H|H]]]]]]].
  - apply cs_bad; assumption.
  - apply cs_help; assumption.
  - destruct tail as [|v rest]; [eapply cs_err; rewrite dispatch_input by assumption; reflexivity|].
    eapply cs_item; [reflexivity|apply d_input; assumption].
  - destruct tail as [|v rest]; [eapply cs_err; rewrite dispatch_output by assumption; reflexivity|].
    eapply cs_item; [reflexivity|apply d_output; assumption].
  - destruct tail as [|v rest]; [eapply cs_err; rewrite dispatch_frames by assumption; reflexivity|].
    destruct (split " "%char v) as [|p [|q l]] eqn:S.
    + eapply cs_err. rewrite dispatch_frames by assumption. unfold parse_frames, parse_tuple. rewrite S. reflexivity.
    + pose proof (split_one _ _ _ S). subst p. destruct (from_str v) as [n|] eqn:E.
      * eapply cs_item; [reflexivity|]. apply d_frames; [assumption|apply from_str_ok; eassumption].
      * eapply cs_err. rewrite dispatch_frames by assumption. unfold parse_frames, parse_tuple. rewrite S.
        cbn [List.length Nat.eqb assign]. rewrite E. reflexivity.
    + eapply cs_err. rewrite dispatch_frames by assumption. unfold parse_frames, parse_tuple. rewrite S. reflexivity.
  - destruct tail as [|v rest]; [eapply cs_err; rewrite dispatch_size by assumption; reflexivity|].
    destruct (split "x"%char v) as [|p [|q [|? l]]] eqn:S;
      try (eapply cs_err; rewrite dispatch_size by assumption; unfold parse_size, parse_tuple; rewrite S; reflexivity).
    destruct (from_str p) as [w|] eqn:E1; [destruct (from_str q) as [h|] eqn:E2|].
    + eapply cs_item; [reflexivity|]. rewrite (split_two _ _ _ _ S). apply d_size; [assumption|apply from_str_ok; eassumption..].
    + eapply cs_err. rewrite dispatch_size by assumption. unfold parse_size, parse_tuple. rewrite S.
      cbn [List.length Nat.eqb assign]. rewrite E1, E2. reflexivity.
    + eapply cs_err. rewrite dispatch_size by assumption. unfold parse_size, parse_tuple. rewrite S.
      cbn [List.length Nat.eqb assign]. rewrite E1. reflexivity.
  - destruct tail as [|v rest]; [eapply cs_err; rewrite dispatch_rate by assumption; reflexivity|].
    destruct (from_str v) as [n|] eqn:E.
    { eapply cs_item; [reflexivity|]. apply d_rate; [assumption|apply from_str_ok; eassumption]. }
    destruct (split "/"%char v) as [|p [|q [|? l]]] eqn:S;
      try (eapply cs_err; rewrite dispatch_rate by assumption; unfold parse_rate; rewrite E, S; reflexivity).
    destruct (from_str p) as [w|] eqn:E1; [destruct (from_str q) as [h|] eqn:E2|].
    + eapply cs_item; [reflexivity|]. rewrite (split_two _ _ _ _ S). apply d_frac; [assumption|apply from_str_ok; eassumption..].
    + eapply cs_err. rewrite dispatch_rate by assumption. unfold parse_rate. rewrite E, S, E1, E2. reflexivity.
    + eapply cs_err. rewrite dispatch_rate by assumption. unfold parse_rate. rewrite E, S, E1. reflexivity.
  - eapply cs_err; eassumption.
Qed.

(** ** Whole command lines *)
Definition whole (its : list item) : Prop := Forall (fun i => is_frac i = false) its.
Definition applied (its : list item) (c : config) : config := fold_left (fun c i => apply_item i c) its c.

(** How a command line can end. *)
Inductive ending : list str -> config -> res (config * presult) -> Prop :=
| en_done : forall c, ending [] c (Ok (c, POk []))
| en_frac : forall f v n d junk c, denotes f v (IFrac n d) -> d <> 0 ->
    ending (f :: v :: junk) c (Ok (apply_item (IFrac n d) c, POk []))
| en_frac0 : forall f v n junk c, denotes f v (IFrac n 0) -> ending (f :: v :: junk) c Panic
| en_bad : forall s junk c, unsliceable s -> ending (s :: junk) c Panic
| en_help : forall s junk c, is_help s -> ending (s :: junk) c (Ok (c, PExit))
| en_err : forall s junk c c', dispatch s junk c = Ok (c', PErr) -> ending (s :: junk) c (Ok (c', PErr)).

Lemma parse_ending : forall tail c r k, ending tail c r -> parse_fuel (S (S k)) tail c = r.
Proof.
  intros tail c r k E. destruct E.
  - reflexivity.
  - rewrite parse_fuel_cons, (dispatch_item _ _ _ _ _ H). destruct (d =? 0) eqn:D; [lia|]. reflexivity.
  - rewrite parse_fuel_cons, (dispatch_item _ _ _ _ _ H). reflexivity.
  - rewrite parse_fuel_cons, dispatch_unsliceable by assumption. reflexivity.
  - rewrite parse_fuel_cons, dispatch_help by assumption. reflexivity.
  - rewrite parse_fuel_cons, H. reflexivity.
Qed.

Lemma parse_app : forall its a1, cmdline its a1 -> whole its -> forall tail c r k, ending tail c r -> forall c0,
  c = applied its c0 -> (List.length a1 <= k)%nat -> parse_fuel (S (S k)) (a1 ++ tail) c0 = r.
Proof.
  induction 1 as [|f v it its rest D CL IH]; intros W tail c r k E c0 -> L.
  - apply (parse_ending _ _ _ _ E).
  - inversion W; subst. cbn [app]. rewrite parse_fuel_cons, (dispatch_item _ _ _ _ _ D).
    destruct it; try discriminate H1; cbn [bind]; (destruct k as [|k]; [cbn in L; lia|]);
      eapply IH; try eassumption; try reflexivity; cbn in L; lia.
Qed.

Lemma parse_decompose : forall k args c, (List.length args <= k)%nat ->
  exists its a1 tail r, args = a1 ++ tail /\ cmdline its a1 /\ whole its /\ ending tail (applied its c) r.
Proof.
  induction k as [|k IH]; intros args c L.
  - destruct args; [|cbn in L; lia]. exists [], [], []. eexists. split; [reflexivity|]. split; [constructor|]. split; [constructor|]. constructor.
  - destruct args as [|f tail].
    { exists [], [], []. eexists. split; [reflexivity|]. split; [constructor|]. split; [constructor|]. constructor. }
    destruct (classify f tail c) as [U|H|v rest it -> D|c' E].
    + exists [], [], (f :: tail). eexists. split; [reflexivity|]. split; [constructor|]. split; [constructor|]. apply en_bad. assumption.
    + exists [], [], (f :: tail). eexists. split; [reflexivity|]. split; [constructor|]. split; [constructor|]. apply en_help. assumption.
    + destruct (is_frac it) eqn:F.
      * exists [], [], (f :: v :: rest). destruct it as [| | | | |n d]; try discriminate F.
        destruct (Z.eq_dec d 0) as [->|N].
        -- eexists. split; [reflexivity|]. split; [constructor|]. split; [constructor|]. eapply en_frac0. eassumption.
        -- eexists. split; [reflexivity|]. split; [constructor|]. split; [constructor|]. eapply en_frac; eassumption.
      * destruct (IH rest (apply_item it c)) as (its & a1 & tail & r & -> & C & W & E); [cbn in L; lia|].
        exists (it :: its), (f :: v :: a1), tail, r. split; [reflexivity|]. split; [constructor; assumption|].
        split; [constructor; assumption|]. exact E.
    + exists [], [], (f :: tail). eexists. split; [reflexivity|]. split; [constructor|]. split; [constructor|]. eapply en_err. exact E.
Qed.

Lemma parse_iff : forall args c r, parse args c = r <->
  exists its a1 tail, args = a1 ++ tail /\ cmdline its a1 /\ whole its /\ ending tail (applied its c) r.
Proof.
  intros args c r. unfold parse. split.
  - intros <-. destruct (parse_decompose _ args c (le_n _)) as (its & a1 & tail & r & -> & C & W & E).
    exists its, a1, tail. repeat (split; [try assumption; reflexivity|]).
    destruct tail as [|t tail].
    + inversion E; subst. destruct a1 as [|x a1]; [inversion C; subst; constructor|].
      replace (parse_fuel _ _ _) with (Ok (applied its c, POk [])); [assumption|]. symmetry.
      rewrite app_nil_r. cbn [List.length].
      assert (forall its a1, cmdline its a1 -> whole its -> forall c0 k, (List.length a1 <= k)%nat ->
        parse_fuel (S k) a1 c0 = Ok (applied its c0, POk [])) as G.
      { clear. induction 1 as [|f v it its rest D CL IH]; intros W c0 k L; [reflexivity|].
        inversion W; subst. destruct k as [|k]; [cbn in L; lia|]. rewrite parse_fuel_cons, (dispatch_item _ _ _ _ _ D).
        cbn [List.length] in L. destruct it; try discriminate H1; cbn [bind]; rewrite IH by (try assumption; lia); reflexivity. }
      apply (G its (x :: a1)); [assumption..|reflexivity].
    + rewrite app_length. cbn [List.length]. rewrite Nat.add_succ_r.
      erewrite (parse_app its a1 C W _ _ _ _ E) by (try reflexivity; lia). assumption.
  - intros (its & a1 & tail & -> & C & W & E). destruct tail as [|t tail].
    + inversion E; subst. rewrite app_nil_r.
      assert (forall its a1, cmdline its a1 -> whole its -> forall c0 k, (List.length a1 <= k)%nat ->
        parse_fuel (S k) a1 c0 = Ok (applied its c0, POk [])) as G.
      { clear. induction 1 as [|f v it its rest D CL IH]; intros W c0 k L; [reflexivity|].
        inversion W; subst. destruct k as [|k]; [cbn in L; lia|]. rewrite parse_fuel_cons, (dispatch_item _ _ _ _ _ D).
        cbn [List.length] in L. destruct it; try discriminate H1; cbn [bind]; rewrite IH by (try assumption; lia); reflexivity. }
      apply G; [assumption..|reflexivity].
    + rewrite app_length. cbn [List.length]. rewrite Nat.add_succ_r. eapply parse_app; try eassumption; try reflexivity; lia.
Qed.

(** ** The statements used by the properties *)
Lemma whole_app : forall a b, whole (a ++ b) <-> whole a /\ whole b.
Proof. intros. unfold whole. apply Forall_app. Qed.
Lemma cmdline_app : forall i1 a1 i2 a2, cmdline i1 a1 -> cmdline i2 a2 -> cmdline (i1 ++ i2) (a1 ++ a2).
Proof. induction 1; intros H2; cbn [app]; [assumption|]. constructor; [assumption|]. auto. Qed.
Lemma cmdline_snoc : forall its it args, cmdline (its ++ [it]) args ->
  exists a1 f v, args = a1 ++ [f; v] /\ cmdline its a1 /\ denotes f v it.
Proof.
  induction its as [|i its IH]; intros it args H; cbn [app] in H; inversion H; subst.
  - inversion H4; subst. exists [], f, v. split; [reflexivity|]. split; [constructor|assumption].
  - destruct (IH _ _ H4) as (a1 & f2 & v2 & -> & C & D). exists (f :: v :: a1), f2, v2. split; [reflexivity|].
    split; [constructor; assumption|assumption].
Qed.
Lemma applied_snoc : forall its it c, applied (its ++ [it]) c = apply_item it (applied its c).
Proof. intros. unfold applied. rewrite fold_left_app. reflexivity. Qed.

Lemma parse_success : forall args c c' r, parse args c = Ok (c', POk r) <->
  r = [] /\
  ((exists its, whole its /\ cmdline its args /\ meaning its c c') \/
   (exists its n d a1 junk, whole its /\ d <> 0 /\ cmdline (its ++ [IFrac n d]) a1 /\ args = a1 ++ junk /\
      meaning (its ++ [IFrac n d]) c c')).
Proof.
  intros args c c' r. rewrite parse_iff. split.
  - intros (its & a1 & tail & -> & C & W & E). inversion E; subst.
    + split; [reflexivity|]. left. exists its. rewrite app_nil_r. split; [assumption|]. split; [assumption|]. apply meaning_fold. reflexivity.
    + split; [reflexivity|]. right. exists its, n, d, (a1 ++ [f; v]), junk. split; [assumption|]. split; [assumption|].
      split; [apply cmdline_app; [assumption|constructor; [assumption|constructor]]|]. split; [rewrite <- app_assoc; reflexivity|].
      apply meaning_fold. symmetry. apply applied_snoc.
  - intros (-> & [(its & W & C & M)|(its & n & d & a1 & junk & W & D & C & -> & M)]).
    + exists its, args, []. split; [rewrite app_nil_r; reflexivity|]. split; [assumption|]. split; [assumption|].
      apply meaning_fold in M. fold (applied its c) in M. rewrite M. constructor.
    + apply cmdline_snoc in C. destruct C as (a0 & f & v & -> & C & Dn). exists its, a0, (f :: v :: junk).
      split; [rewrite <- app_assoc; reflexivity|]. split; [assumption|]. split; [assumption|].
      apply meaning_fold in M. fold (applied (its ++ [IFrac n d]) c) in M. rewrite M, applied_snoc. apply en_frac with (1 := Dn). assumption.
Qed.

Lemma parse_panics : forall args c, parse args c = Panic <->
  exists its a1 tail, whole its /\ cmdline its a1 /\ args = a1 ++ tail /\
   ((exists s junk, tail = s :: junk /\ unsliceable s) \/
    (exists f v n junk, tail = f :: v :: junk /\ denotes f v (IFrac n 0))).
Proof.
  intros args c. rewrite parse_iff. split.
  - intros (its & a1 & tail & -> & C & W & E). exists its, a1, tail. split; [assumption|]. split; [assumption|]. split; [reflexivity|].
    inversion E; subst; [right|left]; eauto 8.
  - intros (its & a1 & tail & W & C & -> & [(s & junk & -> & U)|(f & v & n & junk & -> & D)]); exists its, a1; eexists;
      (split; [reflexivity|]; split; [assumption|]; split; [assumption|]).
    + apply en_bad. assumption.
    + eapply en_frac0. eassumption.
Qed.

Lemma parse_exits : forall args c c', parse args c = Ok (c', PExit) <->
  exists its a1 s junk, whole its /\ cmdline its a1 /\ args = a1 ++ s :: junk /\ flag s "--help" "-h" /\ meaning its c c'.
Proof.
  intros args c c'. rewrite parse_iff. split.
  - intros (its & a1 & tail & -> & C & W & E). inversion E; subst. exists its, a1, s, junk. repeat (split; [try assumption; reflexivity|]).
    apply meaning_fold. reflexivity.
  - intros (its & a1 & s & junk & W & C & -> & H & M). exists its, a1, (s :: junk). repeat (split; [try assumption; reflexivity|]).
    apply meaning_fold in M. fold (applied its c) in M. rewrite M. apply en_help. assumption.
Qed.

Lemma parse_never_hangs : forall args c, parse args c <> Hang.
Proof. intros args c H. apply parse_iff in H. destruct H as (its & a1 & tail & _ & _ & _ & E). inversion E. Qed.

(** ** Accepted configurations *)
Definition sane (c : config) : Prop :=
  (forall n, cf_frames c = Some n -> 0 <= n < 2 ^ 64) /\
  (forall n d, cf_rate c = Some (n, d) -> 0 <= n < 2 ^ 64 /\ 0 < d < 2 ^ 64 /\ Z.gcd n d = 1).

Lemma sane_item : forall f v it c, denotes f v it -> sane c -> (forall n, it <> IFrac n 0) -> sane (apply_item it c).
Proof.
  intros f v it c D [S1 S2] NZ. destruct D; split; cbn [apply_item set_input set_output set_frames set_width set_height set_rate cf_frames cf_rate]; auto.
  - intros m E. injection E as <-. eapply number_range; eassumption.
  - intros m k E. injection E as <- <-. apply number_range in H0. rewrite Z.gcd_1_r. lia.
  - intros m k E. injection E as <- <-. apply number_range in H0, H1. assert (d <> 0) by (intros ->; apply (NZ n); reflexivity).
    pose proof (Z.gcd_nonneg n d). assert (Z.gcd n d <> 0) by (intros Q; apply Z.gcd_eq_0 in Q; lia).
    pose proof (Z.div_le_upper_bound n (Z.gcd n d) n ltac:(lia) ltac:(nia)).
    pose proof (Z.div_le_upper_bound d (Z.gcd n d) d ltac:(lia) ltac:(nia)).
    pose proof (Z.div_pos n (Z.gcd n d) ltac:(lia) ltac:(lia)). pose proof (Z.div_pos d (Z.gcd n d) ltac:(lia) ltac:(lia)).
    assert (d / Z.gcd n d <> 0).
    { intros Q. pose proof (Z.gcd_divide_r n d) as [q Hq]. rewrite Hq in Q at 1. rewrite Z.div_mul in Q by lia. subst q. lia. }
    split; [lia|]. split; [lia|]. apply Z.gcd_div_gcd; [lia|reflexivity].
Qed.
Lemma sane_applied : forall its a1, cmdline its a1 -> whole its -> forall c, sane c -> sane (applied its c).
Proof.
  induction 1 as [|f v it its rest D CL IH]; intros W c S; [assumption|]. inversion W; subst. cbn [applied fold_left].
  apply IH; [assumption|]. eapply sane_item; [eassumption..|]. intros n ->. discriminate.
Qed.

Definition initial : config := mkConfig None None None None (Some (30, 1)) (Some 4294967295).
Lemma init_config_ok : init_config config_default = Ok initial.
Proof. vm_compute. reflexivity. Qed.
Lemma sane_initial : sane initial.
Proof.
  split; cbn [initial cf_frames cf_rate]; [intros n E; injection E as <-; lia|intros n d E; injection E as <- <-]. cbn. lia.
Qed.

Lemma accepted_usable : forall args c0 c r, init_config config_default = Ok c0 -> parse args c0 = Ok (c, POk r) ->
  validate_config c = true ->
  exists i o w h n d f, c = mkConfig (Some i) (Some o) (Some w) (Some h) (Some (n, d)) (Some f) /\
    0 < w < 8192 /\ 0 < h < 8192 /\ 0 < n /\ 0 < d /\ Z.gcd n d = 1 /\ 0 <= f < 2 ^ 64.
Proof.
  intros args c0 c r I P V. rewrite init_config_ok in I. injection I as <-.
  assert (sane c) as [S1 S2].
  { apply parse_iff in P. destruct P as (its & a1 & tail & _ & C & W & E). pose proof (sane_applied _ _ C W _ sane_initial) as S.
    inversion E; subst; [assumption|]. apply (sane_item f v (IFrac n d)); [assumption..|]. intros m Q. injection Q as -> ->. contradiction. }
  unfold validate_config, options in V. cbn [forallb o_validator] in V.
  destruct c as [i o w h rt f]. unfold val_size, val_rate in V. cbn [cf_input cf_output cf_width cf_height cf_rate cf_frames has] in *.
  destruct i as [i|]; [|discriminate V]. destruct o as [o|]; [|discriminate V]. destruct f as [f|]; [|discriminate V].
  destruct w as [w|]; [|discriminate V]. destruct h as [h|]; [|discriminate V]. destruct rt as [[n d]|]; [|rewrite ?andb_false_r in V; discriminate V].
  cbn [has andb] in V. specialize (S1 f eq_refl). specialize (S2 n d eq_refl).
  exists i, o, w, h, n, d, f. split; [reflexivity|]. lia.
Qed.
