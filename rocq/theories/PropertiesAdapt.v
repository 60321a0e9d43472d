(** A syntax element adapts its own distribution and no other: property C120. *)
From Coq Require Import String ZArith List Lia Bool.
From Verif Require Import Base RangeCoderModel RangeCoderSpec SyntaxSpec CdfTables CdfTableSpec ContextModel ContextSpec ContextCallSpec ContextRunProofs
  PropertiesContext AdaptSpec AdaptProofs.
Import ListNotations.
Open Scope string_scope.
Open Scope list_scope.
Open Scope Z_scope.

(** ** C120 *)

(** A call codes its symbol with one row, adapts that row to the symbol, and leaves every
    other row of every table as it is. *)
Theorem C120_own_row : forall w s c out c' s' out', legal w -> state_ok s -> run_writer c s out w = Ok (c', s', out') ->
  exists name path v row row', w = Ok (name, path, v) /\ entry s name (map Z.to_nat path) = Some row /\
    encode_symbol c v out row = Ok (c', out', row') /\ draft_adapted (List.length row - 1) v row row' /\
    entry s' name (map Z.to_nat path) = Some row' /\
    forall m q, m <> name \/ q <> map Z.to_nat path -> entry s' m q = entry s m q.
Proof. exact call_own_row. Qed.
Print Assumptions C120_own_row.
Example C120_own_row_case : legal (encode_new_mv 1 2) /\ state_ok default_cdf /\
  match run_writer (init_encoder new_coder) default_cdf [] (encode_new_mv 1 2) with
  | Ok (_, s, _) => entry default_cdf "new_mv" [2%nat] <> entry s "new_mv" [2%nat] /\ entry default_cdf "new_mv" [1%nat] = entry s "new_mv" [1%nat]
  | _ => False
  end.
Proof. split; [apply L_new_mv; [unfold bit; lia|lia]|]. split; [exact C45_default_state|]. vm_compute. split; [discriminate|reflexivity]. Qed.

(** So after any number of calls each row is the one at the start, adapted to just the
    symbols coded with it, in order. *)
Theorem C120_history : forall ws s c out c' s' out', Forall legal ws -> state_ok s -> write_session c s out ws = Ok (c', s', out') ->
  exists es, ws = map (@Ok element) es /\ forall name path,
    match entry s name path with
    | Some row => exists row', entry s' name path = Some row' /\ adapted_over (symbols_of es name path) row row'
    | None => entry s' name path = None /\ symbols_of es name path = []
    end.
Proof. exact calls_history. Qed.
Print Assumptions C120_history.

Example C120_history_case : match write_session new_coder default_cdf [] [encode_new_mv 1 2; encode_zero_mv 0 1; encode_new_mv 0 2] with
  | Ok (_, s, _) => symbols_of [("new_mv", [2], 1); ("zero_mv", [1], 0); ("new_mv", [2], 0)] "new_mv" [2%nat] = [1; 0] /\
      entry s "new_mv" [2%nat] <> entry default_cdf "new_mv" [2%nat] /\ entry s "new_mv" [6%nat] = None
  | _ => False
  end.
Proof. vm_compute. repeat split. discriminate. Qed.

(** How the calls for different rows are interleaved, and what the coder was used for
    before, makes no difference to the rows. *)
Theorem C120_order : forall ws1 ws2 s ca cb outa outb c1 s1 out1 c2 s2 out2, Forall legal ws1 -> Forall legal ws2 -> state_ok s ->
  write_session ca s outa ws1 = Ok (c1, s1, out1) -> write_session cb s outb ws2 = Ok (c2, s2, out2) ->
  (forall es1 es2, ws1 = map (@Ok element) es1 -> ws2 = map (@Ok element) es2 -> forall name path, symbols_of es1 name path = symbols_of es2 name path) ->
  forall name path, entry s1 name path = entry s2 name path.
Proof. exact calls_order. Qed.
Print Assumptions C120_order.
(** Two calls in both orders: other bits, the same rows. *)
Example C120_order_case : Forall legal [encode_new_mv 1 2; encode_zero_mv 0 1] /\ Forall legal [encode_zero_mv 0 1; encode_new_mv 1 2] /\
  (forall name path, symbols_of [("new_mv", [2], 1); ("zero_mv", [1], 0)] name path = symbols_of [("zero_mv", [1], 0); ("new_mv", [2], 1)] name path) /\
  match write_session new_coder default_cdf [] [encode_new_mv 1 2; encode_zero_mv 0 1], write_session new_coder default_cdf [] [encode_zero_mv 0 1; encode_new_mv 1 2] with
  | Ok (_, s1, o1), Ok (_, s2, o2) => o1 <> o2 /\ entry s1 "new_mv" [2%nat] = entry s2 "new_mv" [2%nat] /\ entry s1 "new_mv" [2%nat] <> entry default_cdf "new_mv" [2%nat]
  | _, _ => False
  end.
Proof.
  assert (A : legal (encode_new_mv 1 2)) by (apply L_new_mv; [unfold bit; lia|lia]). assert (B : legal (encode_zero_mv 0 1)) by (apply L_zero_mv; [unfold bit; lia|lia]).
  split; [auto|]. split; [auto|]. split.
  - intros name path. unfold symbols_of. cbn [filter]. destruct (String.eqb_spec "new_mv" name) as [<-|]; cbn [andb].
    + change (String.eqb "zero_mv" "new_mv") with false. cbn [andb]. reflexivity.
    + reflexivity.
  - vm_compute. repeat split; discriminate.
Qed.

(** The same holds for the decoder on any bits, damaged ones too, with the symbols it
    reads. *)
Theorem C120_decoder : forall es s c q sz vs c' s' q', state_ok s -> Forall selects es -> read_session c s q sz es = Ok (vs, c', s', q') ->
  List.length vs = List.length es /\ forall name path,
    match entry s name path with
    | Some row => exists row', entry s' name path = Some row' /\ adapted_over (symbols_of (combine es vs) name path) row row'
    | None => entry s' name path = None /\ symbols_of (combine es vs) name path = []
    end.
Proof. exact session_reader_history. Qed.
Print Assumptions C120_decoder.
Example C120_decoder_case : Forall selects [("new_mv", [2]); ("y_mode", [3])] /\
  match read_session new_coder default_cdf (repeat 1 30) 4 [("new_mv", [2]); ("y_mode", [3])] with
  | Ok (vs, _, s, _) => vs = [1; 12] /\ entry s "y_mode" [3%nat] <> entry default_cdf "y_mode" [3%nat] /\ entry s "y_mode" [2%nat] = entry default_cdf "y_mode" [2%nat]
  | _ => False
  end.
Proof.
  split.
  - constructor; [exists [6%nat], 2%nat; split; [vm_compute; tauto|repeat constructor; cbn; lia]|]. constructor; [exists [4%nat], 13%nat; split; [vm_compute; tauto|repeat constructor; cbn; lia]|constructor].
  - vm_compute. repeat split; discriminate.
Qed.
