(** Property C113: the colours of a palette block. *)
From Coq Require Import String ZArith List Bool Lia ZifyBool.
From Verif Require Import BitsSpec Base TableLemmas RangeCoderModel CdfTables CdfTableSpec ContextModel ContextSpec ContextCallSpec ContextProofs ContextWriterProofs PropertiesContext
  PaletteSpec PaletteProofs.
Import ListNotations.
Open Scope string_scope.
Open Scope list_scope.
Open Scope Z_scope.

(** The order of the specification visits every position but the first exactly once, after
    the positions its context depends on. *)
Theorem C113_order : forall w h, 1 <= w -> 1 <= h ->
  NoDup (wave w h) /\ (forall r c, In (r, c) (wave w h) <-> 0 <= r < h /\ 0 <= c < w /\ (r, c) <> (0, 0)).
Proof. intros w h W H. split; [apply wave_once; assumption|apply in_wave]. Qed.
Print Assumptions C113_order.

(** Whatever the colours around a position, the hash is one of the five the encoder
    accepts, every colour has a place in the order, and the call is legal. *)
Theorem C113_calls_legal : forall luma n w h m, 2 <= n <= 8 -> (forall r c, 0 <= r < h -> 0 <= c < w -> 0 <= m r c < n) ->
  Forall legal (colour_calls luma n w h m).
Proof.
  intros luma n w h m N M. unfold colour_calls. apply Forall_forall. intros x X. apply in_map_iff in X. destruct X as (p & <- & P).
  exact (call_legal luma n w h m p N M P).
Qed.
Print Assumptions C113_calls_legal.

(** So every block of colours, written call by call, is read back by a decoder that derives
    hash, order and context from what it has read: the colours, the CDFs afterwards, and
    what follows. *)
Theorem C113_round_trip : forall luma n w h m s c d out sz tail,
  2 <= n <= 8 -> 1 <= w <= 4096 -> 1 <= h <= 4096 -> (forall r c, 0 <= r < h -> 0 <= c < w -> 0 <= m r c < n) ->
  state_ok s -> 0 <= bit_count c < 2 ^ 62 -> 0 <= sz < 2 ^ 28 -> is_bits tail ->
  exists c' s' D m' d' rest,
    write_session c s out (colour_calls luma n w h m) = Ok (c', s', out ++ D) /\ is_bits D /\
    decode_colour_block luma n w h (m 0 0) d s (D ++ tail) sz = Ok (m', d', s', rest ++ tail) /\
    forall r c, 0 <= r < h -> 0 <= c < w -> m' r c = m r c.
Proof. exact block_round_trip. Qed.
Print Assumptions C113_round_trip.

(** A hash no neighbourhood has is refused, not coded with a wrong context: the colours
    of a caller that computes another hash are never written. *)
Theorem C113_wrong_hash : forall luma n h s, 0 <= h <= 8 -> 2 <= n <= 8 ->
  (~ In h [2; 5; 6; 7; 8] <-> (if luma : bool then encode_palette_color_idx_y else encode_palette_color_idx_uv) s h n = Panic).
Proof.
  intros luma n h s H N. pose proof (C57_palette_contexts s h n N H) as C. split.
  - intros X. destruct (spec_color_context h) as [ctx|] eqn:E; [|destruct luma; apply C]. exfalso. apply X.
    assert (A : h = 0 \/ h = 1 \/ h = 2 \/ h = 3 \/ h = 4 \/ h = 5 \/ h = 6 \/ h = 7 \/ h = 8) by lia.
    repeat (destruct A as [->|A]; [first [discriminate E|cbn; tauto]|]). subst. cbn. tauto.
  - intros P X. destruct (hash_context h X) as (ctx & E). rewrite E in C. destruct luma; rewrite (proj1 C) in P || rewrite (proj2 C) in P; discriminate P.
Qed.
Print Assumptions C113_wrong_hash.

(** A block of 3 x 2 with three colours. *)
Definition ex_colours (r c : Z) : Z := (r + 2 * c) mod 3.
Example C113_case :
  wave 3 2 = [(0, 1); (1, 0); (0, 2); (1, 1); (1, 2)] /\
  (forall r c, 0 <= r < 2 -> 0 <= c < 3 -> 0 <= ex_colours r c < 3) /\
  map (fun p => colour_hash 3 (around ex_colours (fst p) (snd p))) (wave 3 2) = [2; 2; 2; 8; 8] /\
  (exists D, match write_session new_coder default_cdf [] (colour_calls true 3 3 2 ex_colours) with Ok (_, _, out) => out = D | _ => False end /\
    match decode_colour_block true 3 3 2 0 new_coder default_cdf D 3 with
    | Ok (m, _, _, _) => map (fun p => m (fst p) (snd p)) [(0, 0); (0, 1); (0, 2); (1, 0); (1, 1); (1, 2)] = [0; 2; 1; 1; 0; 2] | _ => False end).
Proof.
  split; [vm_compute; reflexivity|]. split; [intros; unfold ex_colours; lia|]. split; [vm_compute; reflexivity|].
  eexists. split; [vm_compute; reflexivity|]. vm_compute. reflexivity.
Qed.
