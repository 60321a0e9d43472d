(** The symbols that say how a block is divided: what the AV1 specification asks for
    (8.3.2, "the cdf for partition", "split_or_horz", "split_or_vert"), and sessions of
    the writer. *)
From Coq Require Import ZArith List Bool.
From Verif Require Import Base RangeCoderModel RangeCoderSpec SessionModel GeomModel.
Import ListNotations.
Open Scope Z_scope.

(** The square block sizes (numbers of the enumeration) and their widths. *)
Definition square (b w : Z) : Prop := In (b, w) [(3, 8); (6, 16); (9, 32); (12, 64); (15, 128)].

(** All 20 CDFs in one list: four contexts for each of the widths 8, 16, 32, 64, 128. *)
Definition flat (t : part_cdfs) : cdf_table :=
  partition_w8 t ++ partition_w16 t ++ partition_w32 t ++ partition_w64 t ++ partition_w128 t.
Definition part_sizes : list nat := repeat 4%nat 4 ++ repeat 10%nat 12 ++ repeat 8%nat 4.
(** Five tables of four CDFs with the alphabets of the standard, each satisfying [P]. *)
Definition parts (P : nat -> list Z -> Prop) (t : part_cdfs) : Prop :=
  Forall2 P (repeat 4%nat 4) (partition_w8 t) /\ Forall2 P (repeat 10%nat 4) (partition_w16 t) /\
  Forall2 P (repeat 10%nat 4) (partition_w32 t) /\ Forall2 P (repeat 10%nat 4) (partition_w64 t) /\
  Forall2 P (repeat 8%nat 4) (partition_w128 t).

(** The CDF of the standard for a block of width [w]; [above] and [left] say that the
    neighbour is narrower (lower) than the block. *)
Definition context (above left : bool) : nat := ((if left then 2 else 0) + (if above then 1 else 0))%nat.
Definition std_index (w : Z) (above left : bool) : nat :=
  (4 * (if (w =? 8)%Z then 0 else if (w =? 16)%Z then 1 else if (w =? 32)%Z then 2 else if (w =? 64)%Z then 3 else 4) + context above left)%nat.
(** [above] and [left] of the standard, from the neighbour's availability and size. *)
Definition std_flag (available : bool) (neighbour size : Z) : bool := available && (neighbour <? size).

(** One decision: block size, flags and partition type. *)
Record choice : Type := mkChoice { ch_size : Z; ch_above : bool; ch_left : bool; ch_type : nat }.
Fixpoint write_choices (c : coder) (t : part_cdfs) (out : list Z) (l : list choice) : res (coder * part_cdfs * list Z) :=
  match l with
  | [] => Ok (c, t, out)
  | x :: l =>
      '(c, t, out) <- code_partition c t out (ch_size x) (ch_above x) (ch_left x) (Z.of_nat (ch_type x)) ;;
      write_choices c t out l
  end.
Definition choice_session (c : coder) (t : part_cdfs) (out : list Z) (l : list choice) : res (coder * part_cdfs * list Z) :=
  '(c, t, out) <- write_choices (init_encoder c) t out l ;;
  '(c, out) <- exit_encoder c out ;;
  Ok (c, t, out).

(** The probability, of 32768, that a forced division is a split: the types of the
    partition CDF that divide along the other direction too. *)
Definition total (cdf : list Z) (types : list nat) : Z := fold_right (fun k a => prob cdf k + a) 0 types.
Definition std_split_or_horz (w : Z) (cdf : list Z) : Z := total cdf ([2; 3; 4; 6; 7] ++ (if (w =? 128)%Z then [] else [9]))%nat.
Definition std_split_or_vert (w : Z) (cdf : list Z) : Z := total cdf ([1; 3; 4; 5; 6] ++ (if (w =? 128)%Z then [] else [8]))%nat.

(** The table the code takes: that of a block four times as wide, but at most 128. *)
Definition used_index (w : Z) (above left : bool) : nat :=
  (4 * (if (w =? 8)%Z then 2 else if (w =? 16)%Z then 3 else 4) + context above left)%nat.

(** Choices the code can write: types below the size of the CDF taken. *)
Definition choice_ok (x : choice) : Prop := exists w, square (ch_size x) w /\ (ch_type x < if ((w =? 8) || (w =? 16))%Z then 10 else 8)%nat.
Definition width_of (b : Z) : Z := if b =? 3 then 8 else if b =? 6 then 16 else if b =? 9 then 32 else if b =? 12 then 64 else 128.
Definition used_choice (x : choice) : nat * nat := (used_index (width_of (ch_size x)) (ch_above x) (ch_left x), ch_type x).

(** What the writers of forced divisions do with the row [row] of the table. *)
Definition split_outcome (w : Z) (row : list Z) (types : list nat) (c : coder) (out : list Z) (s : Z) : res (coder * list Z) :=
  if (w =? 32) || (w =? 64) then Panic
  else
    let q := total row types + (if w =? 128 then 0 else prob row 9) in
    if 15 <? q then Panic
    else match encode_symbol c s out [2 ^ (15 - q); 32768; 0] with Ok (c', out', _) => Ok (c', out') | Panic => Panic | Hang => Hang end.

