(** Independent specification of the OBU layer, from the AV1 bitstream
    specification: obu_header() (5.3.2), the length-delimited format (annex B) and
    metadata types (6.7.1). *)
From Coq Require Import ZArith List Bool.
From Verif Require Import Base BitsSpec WriterSpec SeqModel SeqSpec ObuModel.
Import ListNotations.
Open Scope Z_scope.

(** obu_header(): (forbidden bit, type, extension flag, has_size flag, reserved bit). *)
Definition rd_obu_header (byte : Z) : Z * Z * Z * Z * Z :=
  ((byte / 128) mod 2, (byte / 8) mod 16, (byte / 4) mod 2, (byte / 2) mod 2, byte mod 2).

(** leb128() on bytes: at most [n] bytes, least significant group first. *)
Fixpoint rd_leb (n : nat) (q : list Z) : option (Z * list Z) :=
  match n, q with
  | S n', b :: r =>
      if b <? 128 then Some (b, r)
      else LET (v, r) := rd_leb n' r IN Some (b - 128 + 128 * v, r)
  | _, _ => None
  end.

(** temporal_unit() holding one frame_unit() holding one OBU without a size field:
    the sizes must reach exactly the end. Returns the header byte and the payload. *)
Definition rd_temporal_unit (q : list Z) : option (Z * list Z) :=
  LET (tu, q) := rd_leb 8 q IN
  if negb (tu =? Z.of_nat (length q)) then None else
  LET (fu, q) := rd_leb 8 q IN
  if negb (fu =? Z.of_nat (length q)) then None else
  LET (ol, q) := rd_leb 8 q IN
  if negb (ol =? Z.of_nat (length q)) then None else
  match q with [] => None | h :: p => Some (h, p) end.

(** The bytes of a bit string, zero padded at the end. *)
Definition packs (bits bytes : list Z) : Prop :=
  Forall is_byte bytes /\ unpack bytes = bits ++ repeat 0 (pad8 (length bits)).

(** What a sequence of [encode_temporal_unit] calls emits: for each OBU its payload
    bytes followed by four bytes. *)
Inductive units_bytes : enc -> list obu -> list Z -> enc -> Prop :=
| ub_nil : forall e, units_bytes e [] [] e
| ub_cons : forall e o P e1 r pb bs e2, encode_payload e o = Ok (P, e1) -> packs P pb ->
    units_bytes e1 r bs e2 -> units_bytes e (o :: r) (pb ++ [24; 16; 8; 8 * obu_type o] ++ bs) e2.
