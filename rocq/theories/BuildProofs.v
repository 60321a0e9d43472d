(** Proofs about BuildModel: the debug reading is the model used everywhere else,
    and whatever the debug build returns, the release build returns too. *)
From Coq Require Import ZArith List Bool Lia.
From Verif Require Import Base UtilModel RangeCoderModel BitCodecModel SessionModel.
From Verif Require Import BaseProofs.
From Verif Require BuildModel.
Import ListNotations.
Open Scope Z_scope.

Notation Debug := BuildModel.Debug.
Notation Release := BuildModel.Release.

(** ** The debug reading *)

Lemma debug_push_range : BuildModel.push_range Debug = push_range.
Proof. reflexivity. Qed.
Lemma debug_encode_symbol : BuildModel.encode_symbol Debug = encode_symbol.
Proof. reflexivity. Qed.
Lemma debug_decode_symbol : BuildModel.decode_symbol Debug = decode_symbol.
Proof. reflexivity. Qed.
Lemma debug_exit_encoder : BuildModel.exit_encoder Debug = exit_encoder.
Proof. reflexivity. Qed.
Lemma debug_init_decoder : BuildModel.init_decoder Debug = init_decoder.
Proof. reflexivity. Qed.
Lemma debug_encode_symbolp : BuildModel.encode_symbolp Debug = encode_symbolp.
Proof. reflexivity. Qed.
Lemma debug_decode_symbolp : BuildModel.decode_symbolp Debug = decode_symbolp.
Proof. reflexivity. Qed.
Lemma debug_encode_symbols : BuildModel.encode_symbols Debug = encode_symbols.
Proof. reflexivity. Qed.
Lemma debug_decode_symbols : BuildModel.decode_symbols Debug = decode_symbols.
Proof. reflexivity. Qed.
Lemma debug_decode_literal : BuildModel.decode_literal Debug = decode_literal.
Proof. reflexivity. Qed.
Lemma debug_encode_literal : BuildModel.encode_literal Debug = encode_literal.
Proof. reflexivity. Qed.
Lemma debug_encode_op : BuildModel.encode_op Debug = encode_op.
Proof. reflexivity. Qed.
Lemma debug_encode_ops : BuildModel.encode_ops Debug = encode_ops.
Proof. reflexivity. Qed.
Lemma debug_encode_session : BuildModel.encode_session Debug = encode_session.
Proof. reflexivity. Qed.
Lemma debug_decode_session : BuildModel.decode_session Debug = decode_session.
Proof. reflexivity. Qed.
Lemma debug_push_bits_with_size : BuildModel.push_bits_with_size Debug = push_bits_with_size.
Proof. reflexivity. Qed.
Lemma debug_encode_uvlc : BuildModel.encode_uvlc Debug = encode_uvlc.
Proof. reflexivity. Qed.
Lemma debug_decode_uvlc : BuildModel.decode_uvlc Debug = decode_uvlc.
Proof. reflexivity. Qed.
Lemma debug_encode_le_loop : BuildModel.encode_le_loop Debug = encode_le_loop.
Proof. reflexivity. Qed.
Lemma debug_encode_le : BuildModel.encode_le Debug = encode_le.
Proof. reflexivity. Qed.
Lemma debug_decode_le_loop : BuildModel.decode_le_loop Debug = decode_le_loop.
Proof. reflexivity. Qed.
Lemma debug_decode_le : BuildModel.decode_le Debug = decode_le.
Proof. reflexivity. Qed.
Lemma debug_encode_leb128_loop : BuildModel.encode_leb128_loop Debug = encode_leb128_loop.
Proof. reflexivity. Qed.
Lemma debug_encode_leb128 : BuildModel.encode_leb128 Debug = encode_leb128.
Proof. reflexivity. Qed.
Lemma debug_decode_leb128 : BuildModel.decode_leb128 Debug = decode_leb128.
Proof. reflexivity. Qed.
Lemma debug_encode_su : BuildModel.encode_su Debug = encode_su.
Proof. reflexivity. Qed.
Lemma debug_decode_su : BuildModel.decode_su Debug = decode_su.
Proof. reflexivity. Qed.
Lemma debug_encode_ns : BuildModel.encode_ns Debug = encode_ns.
Proof. reflexivity. Qed.
Lemma debug_decode_ns : BuildModel.decode_ns Debug = decode_ns.
Proof. reflexivity. Qed.

Lemma floorlog2_pos fuel : forall t s r, 0 <= s -> floorlog2_loop fuel t s = Ok r -> 0 <= r.
Proof.
  induction fuel as [|f IH]; intros t s r Hs; cbn [floorlog2_loop]; [discriminate|].
  destruct (t =? 0); [intros [= <-]; lia|]. apply IH; lia.
Qed.

Lemma chk_u64_sub f w : Base.chk_u64 f = Ok f -> Base.chk_u64 (f + 1) = Ok w ->
  Base.chk_u64 (w - 1) = Ok (w - 1).
Proof.
  intros Hf H. unfold Base.chk_u64 in *. unfold chk in *.
  destruct (_ && _) eqn:E in H; [|discriminate]. injection H as <-.
  destruct (_ && _) eqn:E2 in Hf; [|discriminate].
  now replace ((0 <=? f + 1 - 1) && (f + 1 - 1 <=? 2 ^ 64 - 1)) with true by lia.
Qed.

Lemma floorlog2_u64 n f : FloorLog2 n = Ok f -> Base.chk_u64 f = Ok f.
Proof.
  unfold FloorLog2. destruct (floorlog2_loop 65 n 0); cbn [bind]; try discriminate.
  intros H. unfold Base.chk_u64, chk in *. destruct (_ && _) eqn:E in H; [|discriminate].
  injection H as <-. now rewrite E.
Qed.

(** ** What the debug build returns, the release build returns *)

Definition le {A} (a b : res A) : Prop := a = Panic \/ b = a.

Lemma le_ok {A} (a b : res A) v : le a b -> a = Ok v -> b = Ok v.
Proof. intros [H|H]; congruence. Qed.

Lemma le_refl {A} (a : res A) : le a a.
Proof. now right. Qed.

Lemma le_bind {A B} (a a' : res A) (k k' : A -> res B) :
  le a a' -> (forall x, a = Ok x -> le (k x) (k' x)) -> le (bind a k) (bind a' k').
Proof.
  intros [-> | ->] Hk; [now left|]. destruct a as [x| |]; cbn; [exact (Hk x eq_refl)|now left|now right].
Qed.

Lemma le_panic {A} (a : res A) : le Panic a.
Proof. now left. Qed.

Ltac le_chk :=
  unfold le; match goal with |- context [chk ?a ?b ?z] => unfold chk; destruct (_ && _) eqn:E end;
  [right; f_equal|now left].

Lemma le_i32 z : le (BuildModel.chk_i32 Debug z) (BuildModel.chk_i32 Release z).
Proof. cbn [BuildModel.chk_i32]. unfold Base.chk_i32. le_chk. apply as_i32_id. lia. Qed.
Lemma le_i64 z : le (BuildModel.chk_i64 Debug z) (BuildModel.chk_i64 Release z).
Proof. cbn [BuildModel.chk_i64]. unfold Base.chk_i64. le_chk. apply as_i64_id. lia. Qed.
Lemma le_u8 z : le (BuildModel.chk_u8 Debug z) (BuildModel.chk_u8 Release z).
Proof. cbn [BuildModel.chk_u8]. unfold Base.chk_u8. le_chk. apply as_u8_id. lia. Qed.
Lemma le_u32 z : le (BuildModel.chk_u32 Debug z) (BuildModel.chk_u32 Release z).
Proof. cbn [BuildModel.chk_u32]. unfold Base.chk_u32. le_chk. apply as_u32_id. lia. Qed.
Lemma le_u64 z : le (BuildModel.chk_u64 Debug z) (BuildModel.chk_u64 Release z).
Proof. cbn [BuildModel.chk_u64]. unfold Base.chk_u64. le_chk. apply as_u64_id. lia. Qed.
Lemma le_u16 z : le (BuildModel.chk_u16 Debug z) (BuildModel.chk_u16 Release z).
Proof. cbn [BuildModel.chk_u16]. unfold Base.chk_u16. le_chk. apply as_u16_id. lia. Qed.

(** Behind a check of a shift amount that succeeds, both builds shift alike. *)
Lemma le_shift {A} w a (k k' : unit -> res A) :
  (BuildModel.shift_amt Release w a = BuildModel.shift_amt Debug w a -> le (k tt) (k' tt)) ->
  le (bind (BuildModel.shift_ok Debug w a) k) (bind (BuildModel.shift_ok Release w a) k').
Proof.
  intros H. cbn [BuildModel.shift_ok bind]. unfold Base.shift_ok.
  destruct (_ && _) eqn:E; cbn [bind]; [|now left]. apply H. cbn. apply Z.mod_small. lia.
Qed.

Create HintDb le.
#[global] Hint Resolve le_i32 le_i64 le_u8 le_u16 le_u32 le_u64 : le.

Ltac le1 :=
  match goal with
  | |- le (bind (BuildModel.shift_ok _ _ _) _) (bind (BuildModel.shift_ok _ _ _) _) =>
      apply le_shift; let H := fresh in intros H; rewrite ?H; clear H
  | |- le (bind _ _) (bind _ _) => apply le_bind; [|intros ? _]
  | |- le ?a ?a => apply le_refl
  | |- le Panic _ => apply le_panic
  | |- le (match ?x with _ => _ end) (match ?x with _ => _ end) => destruct x
  | |- le _ _ => solve [auto with le]
  end.
Ltac le_go := repeat (cbv zeta beta; le1).

Ltac le_def f := unfold f; le_go.

Lemma le_msb16 n : le (BuildModel.msb16 Debug n) (BuildModel.msb16 Release n).
Proof. le_def BuildModel.msb16. Qed.
Lemma le_msb64 n : le (BuildModel.msb64 Debug n) (BuildModel.msb64 Release n).
Proof. le_def BuildModel.msb64. Qed.
Lemma le_FloorLog2 n : le (BuildModel.FloorLog2 Debug n) (BuildModel.FloorLog2 Release n).
Proof. le_def BuildModel.FloorLog2. Qed.
Lemma le_emit c out b : le (BuildModel.emit Debug c out b) (BuildModel.emit Release c out b).
Proof. le_def BuildModel.emit. Qed.
#[global] Hint Resolve le_msb16 le_msb64 le_FloorLog2 le_emit : le.

Lemma le_emit_n k : forall c out b,
  le (BuildModel.emit_n Debug k c out b) (BuildModel.emit_n Release k c out b).
Proof. induction k; intros; cbn [BuildModel.emit_n]; le_go. Qed.
#[global] Hint Resolve le_emit_n : le.

Lemma le_adapt_loop k : forall i symbol tmp diff rate l,
  le (BuildModel.adapt_loop Debug k i symbol tmp diff rate l)
     (BuildModel.adapt_loop Release k i symbol tmp diff rate l).
Proof. induction k; intros; cbn [BuildModel.adapt_loop]; le_go. Qed.
Lemma le_bump_last l : le (BuildModel.bump_last Debug l) (BuildModel.bump_last Release l).
Proof.
  induction l as [|c [|d l] IH]; cbn [BuildModel.bump_last].
  - le_go.
  - le_go.
  - apply le_bind; [exact IH|]. intros r _. le_go.
Qed.
#[global] Hint Resolve le_adapt_loop le_bump_last : le.
Lemma le_update_cdf s cdf : le (BuildModel.update_cdf Debug s cdf) (BuildModel.update_cdf Release s cdf).
Proof. le_def BuildModel.update_cdf. Qed.
Lemma le_carry_step c out : le (BuildModel.carry_step Debug c out) (BuildModel.carry_step Release c out).
Proof. le_def BuildModel.carry_step. Qed.
Lemma le_renorm_loop f : forall c out,
  le (BuildModel.renorm_loop Debug f c out) (BuildModel.renorm_loop Release f c out).
Proof. induction f; intros; cbn [BuildModel.renorm_loop]; le_go. Qed.
#[global] Hint Resolve le_update_cdf le_carry_step le_renorm_loop : le.
Lemma le_encode_symbol c s out cdf :
  le (BuildModel.encode_symbol Debug c s out cdf) (BuildModel.encode_symbol Release c s out cdf).
Proof. unfold BuildModel.encode_symbol. le_def BuildModel.encode_symbol_fuel. Qed.
Lemma le_exit_encoder c out :
  le (BuildModel.exit_encoder Debug c out) (BuildModel.exit_encoder Release c out).
Proof. le_def BuildModel.exit_encoder. Qed.
Lemma le_read_bits k : forall a q,
  le (BuildModel.read_bits Debug k a q) (BuildModel.read_bits Release k a q).
Proof. induction k; intros; cbn [BuildModel.read_bits]; le_go. Qed.
#[global] Hint Resolve le_encode_symbol le_exit_encoder le_read_bits : le.
Lemma le_init_decoder c q sz :
  le (BuildModel.init_decoder Debug c q sz) (BuildModel.init_decoder Release c q sz).
Proof. le_def BuildModel.init_decoder. Qed.
Lemma le_find_symbol k : forall rg v cdf s p,
  le (BuildModel.find_symbol Debug k rg v cdf s p) (BuildModel.find_symbol Release k rg v cdf s p).
Proof. induction k; intros; cbn [BuildModel.find_symbol]; le_go. Qed.
Lemma le_refill k : forall nd mb q,
  le (BuildModel.refill Debug k nd mb q) (BuildModel.refill Release k nd mb q).
Proof. induction k; intros; cbn [BuildModel.refill]; le_go. Qed.
Lemma le_dec_adapt_loop k : forall i symbol tmp diff rate l,
  le (BuildModel.dec_adapt_loop Debug k i symbol tmp diff rate l)
     (BuildModel.dec_adapt_loop Release k i symbol tmp diff rate l).
Proof. induction k; intros; cbn [BuildModel.dec_adapt_loop]; le_go. Qed.
Lemma le_dec_bump_last l : le (BuildModel.dec_bump_last Debug l) (BuildModel.dec_bump_last Release l).
Proof.
  induction l as [|c [|d l] IH]; cbn [BuildModel.dec_bump_last].
  - le_go.
  - le_go.
  - apply le_bind; [exact IH|]. intros r _. le_go.
Qed.
#[global] Hint Resolve le_init_decoder le_find_symbol le_refill le_dec_adapt_loop le_dec_bump_last : le.
Lemma le_dec_update_cdf s cdf :
  le (BuildModel.dec_update_cdf Debug s cdf) (BuildModel.dec_update_cdf Release s cdf).
Proof. le_def BuildModel.dec_update_cdf. Qed.
#[global] Hint Resolve le_dec_update_cdf : le.
Lemma le_decode_symbol c q cdf :
  le (BuildModel.decode_symbol Debug c q cdf) (BuildModel.decode_symbol Release c q cdf).
Proof. le_def BuildModel.decode_symbol. Qed.
Lemma le_cdf_p p : le (BuildModel.cdf_p Debug p) (BuildModel.cdf_p Release p).
Proof. le_def BuildModel.cdf_p. Qed.
#[global] Hint Resolve le_decode_symbol le_cdf_p : le.
Lemma le_encode_symbolp c b out p :
  le (BuildModel.encode_symbolp Debug c b out p) (BuildModel.encode_symbolp Release c b out p).
Proof. le_def BuildModel.encode_symbolp. Qed.
Lemma le_decode_symbolp c q p :
  le (BuildModel.decode_symbolp Debug c q p) (BuildModel.decode_symbolp Release c q p).
Proof. le_def BuildModel.decode_symbolp. Qed.
#[global] Hint Resolve le_encode_symbolp le_decode_symbolp : le.
Lemma le_encode_symbols_loop bits : forall c out cdf,
  le (BuildModel.encode_symbols_loop Debug c bits out cdf)
     (BuildModel.encode_symbols_loop Release c bits out cdf).
Proof. induction bits; intros; cbn [BuildModel.encode_symbols_loop]; le_go. Qed.
Lemma le_decode_symbols_loop n : forall c q cdf,
  le (BuildModel.decode_symbols_loop Debug n c q cdf)
     (BuildModel.decode_symbols_loop Release n c q cdf).
Proof. induction n; intros; cbn [BuildModel.decode_symbols_loop]; le_go. Qed.
#[global] Hint Resolve le_encode_symbols_loop le_decode_symbols_loop : le.
Lemma le_encode_symbols c bits out p :
  le (BuildModel.encode_symbols Debug c bits out p) (BuildModel.encode_symbols Release c bits out p).
Proof. le_def BuildModel.encode_symbols. Qed.
Lemma le_decode_symbols c q n p :
  le (BuildModel.decode_symbols Debug c q n p) (BuildModel.decode_symbols Release c q n p).
Proof. le_def BuildModel.decode_symbols. Qed.
Lemma le_encode_literal n : forall c out v,
  le (BuildModel.encode_literal Debug c out v n) (BuildModel.encode_literal Release c out v n).
Proof. induction n; intros; cbn [BuildModel.encode_literal]; le_go. Qed.
Lemma le_decode_literal_loop n : forall x c q,
  le (BuildModel.decode_literal_loop Debug n x c q) (BuildModel.decode_literal_loop Release n x c q).
Proof. induction n; intros; cbn [BuildModel.decode_literal_loop]; le_go. Qed.
#[global] Hint Resolve le_encode_symbols le_decode_symbols le_encode_literal le_decode_literal_loop : le.
Lemma le_decode_literal c q n :
  le (BuildModel.decode_literal Debug c q n) (BuildModel.decode_literal Release c q n).
Proof. le_def BuildModel.decode_literal. Qed.
#[global] Hint Resolve le_decode_literal : le.

Lemma le_encode_op c t out o :
  le (BuildModel.encode_op Debug c t out o) (BuildModel.encode_op Release c t out o).
Proof. destruct o; cbn [BuildModel.encode_op]; le_go. Qed.
Lemma le_decode_op c t q s :
  le (BuildModel.decode_op Debug c t q s) (BuildModel.decode_op Release c t q s).
Proof. destruct s; cbn [BuildModel.decode_op]; le_go. Qed.
#[global] Hint Resolve le_encode_op le_decode_op : le.
Lemma le_encode_ops ops : forall c t out,
  le (BuildModel.encode_ops Debug c t out ops) (BuildModel.encode_ops Release c t out ops).
Proof. induction ops; intros; cbn [BuildModel.encode_ops]; le_go. Qed.
Lemma le_decode_ops ss : forall c t q,
  le (BuildModel.decode_ops Debug c t q ss) (BuildModel.decode_ops Release c t q ss).
Proof. induction ss; intros; cbn [BuildModel.decode_ops]; le_go. Qed.
#[global] Hint Resolve le_encode_ops le_decode_ops : le.
Lemma le_encode_session c t out ops :
  le (BuildModel.encode_session Debug c t out ops) (BuildModel.encode_session Release c t out ops).
Proof. le_def BuildModel.encode_session. Qed.
Lemma le_decode_session c t q sz ss :
  le (BuildModel.decode_session Debug c t q sz ss) (BuildModel.decode_session Release c t q sz ss).
Proof. le_def BuildModel.decode_session. Qed.

Lemma le_push_range w k : forall out v lo,
  le (BuildModel.push_range Debug w out v lo k) (BuildModel.push_range Release w out v lo k).
Proof. induction k; intros; cbn [BuildModel.push_range]; le_go. Qed.
#[global] Hint Resolve le_push_range : le.
Lemma le_push_bits_with_size out bits size :
  le (BuildModel.push_bits_with_size Debug out bits size)
     (BuildModel.push_bits_with_size Release out bits size).
Proof. le_def BuildModel.push_bits_with_size. Qed.
Lemma le_encode_uvlc out val :
  le (BuildModel.encode_uvlc Debug out val) (BuildModel.encode_uvlc Release out val).
Proof. le_def BuildModel.encode_uvlc. Qed.
Lemma le_uvlc_zeros q : forall lz,
  le (BuildModel.uvlc_zeros Debug q lz) (BuildModel.uvlc_zeros Release q lz).
Proof. induction q; intros; cbn [BuildModel.uvlc_zeros]; le_go. Qed.
Lemma le_read_u64 k : forall v q,
  le (BuildModel.read_u64 Debug k v q) (BuildModel.read_u64 Release k v q).
Proof. induction k; intros; cbn [BuildModel.read_u64]; le_go. Qed.
Lemma le_read_u8 k : forall v q,
  le (BuildModel.read_u8 Debug k v q) (BuildModel.read_u8 Release k v q).
Proof. induction k; intros; cbn [BuildModel.read_u8]; le_go. Qed.
#[global] Hint Resolve le_uvlc_zeros le_read_u64 le_read_u8 : le.
Lemma le_decode_uvlc q : le (BuildModel.decode_uvlc Debug q) (BuildModel.decode_uvlc Release q).
Proof. le_def BuildModel.decode_uvlc. Qed.
Lemma le_encode_le_loop k : forall i out val,
  le (BuildModel.encode_le_loop Debug k i out val) (BuildModel.encode_le_loop Release k i out val).
Proof. induction k; intros; cbn [BuildModel.encode_le_loop]; le_go. Qed.
Lemma le_decode_le_loop k : forall i t q,
  le (BuildModel.decode_le_loop Debug k i t q) (BuildModel.decode_le_loop Release k i t q).
Proof. induction k; intros; cbn [BuildModel.decode_le_loop]; le_go. Qed.
#[global] Hint Resolve le_encode_le_loop le_decode_le_loop : le.
Lemma le_encode_le out val n :
  le (BuildModel.encode_le Debug out val n) (BuildModel.encode_le Release out val n).
Proof. le_def BuildModel.encode_le. Qed.
Lemma le_decode_le q n : le (BuildModel.decode_le Debug q n) (BuildModel.decode_le Release q n).
Proof. le_def BuildModel.decode_le. Qed.
Lemma le_encode_leb128_loop f : forall out v,
  le (BuildModel.encode_leb128_loop Debug f out v) (BuildModel.encode_leb128_loop Release f out v).
Proof. induction f; intros; cbn [BuildModel.encode_leb128_loop]; le_go. Qed.
Lemma le_decode_leb128_loop k : forall i v nb q,
  le (BuildModel.decode_leb128_loop Debug k i v nb q) (BuildModel.decode_leb128_loop Release k i v nb q).
Proof. induction k; intros; cbn [BuildModel.decode_leb128_loop]; le_go. Qed.
#[global] Hint Resolve le_encode_leb128_loop le_decode_leb128_loop : le.
Lemma le_encode_leb128 out val :
  le (BuildModel.encode_leb128 Debug out val) (BuildModel.encode_leb128 Release out val).
Proof. le_def BuildModel.encode_leb128. Qed.
Lemma le_decode_leb128 nb q :
  le (BuildModel.decode_leb128 Debug nb q) (BuildModel.decode_leb128 Release nb q).
Proof. le_def BuildModel.decode_leb128. Qed.
Lemma le_encode_su out val n :
  le (BuildModel.encode_su Debug out val n) (BuildModel.encode_su Release out val n).
Proof. le_def BuildModel.encode_su. Qed.
Lemma le_decode_su q n : le (BuildModel.decode_su Debug q n) (BuildModel.decode_su Release q n).
Proof. le_def BuildModel.decode_su. Qed.
Lemma le_sub_u64 n f w :
  BuildModel.FloorLog2 Debug n = Ok f -> BuildModel.chk_u64 Debug (f + 1) = Ok w ->
  BuildModel.sub_u64 Release w 1 = BuildModel.sub_u64 Debug w 1.
Proof.
  intros F W. pose proof (chk_u64_sub f w (floorlog2_u64 n f F) W) as H.
  unfold Base.chk_u64, chk in H. destruct (_ && _) eqn:E in H; [|discriminate].
  cbn. apply as_u64_id. lia.
Qed.
Lemma le_encode_ns out val n :
  le (BuildModel.encode_ns Debug out val n) (BuildModel.encode_ns Release out val n).
Proof.
  unfold BuildModel.encode_ns. apply le_bind; [auto with le|intros f F].
  apply le_bind; [auto with le|intros w W]. rewrite (le_sub_u64 n f w F W). le_go.
Qed.
Lemma le_decode_ns q n : le (BuildModel.decode_ns Debug q n) (BuildModel.decode_ns Release q n).
Proof.
  unfold BuildModel.decode_ns. apply le_bind; [auto with le|intros f F].
  apply le_bind; [auto with le|intros w W]. rewrite (le_sub_u64 n f w F W). le_go.
Qed.
#[global] Hint Resolve le_push_bits_with_size le_encode_uvlc le_decode_uvlc le_encode_le le_decode_le
  le_encode_leb128 le_decode_leb128 le_encode_su le_decode_su le_encode_ns le_decode_ns le_encode_session
  le_decode_session : le.
