(** Model of the OBU layer: /repo/src/obu.rs, and from /repo/src/obu_encoder.rs the
    header (59-87), the small payloads (314-317, 1405-1407, 1453-1572) and the
    framing (1575-1604). *)
From Coq Require Import ZArith List Bool.
From Verif Require Import Base UtilModel RangeCoderModel BitCodecModel WriterModel SeqModel.
Import ListNotations.
Open Scope Z_scope.

(** obu.rs 7-21 and 43-47. *)
Record temporal_group : Type := mkTG { tg_id : Z; tg_temporal_up : Z; tg_spatial_up : Z; tg_diffs : list Z }.
Record scal_structure : Type := mkScal {
  ss_dims : list (Z * Z); ss_refs : list Z; ss_groups : list temporal_group }.

(** obu.rs 49-73, enum [MetaData]. The scalability mode is its position in the
    enum of obu.rs 23-40 ([SCALABILITY_SS] is 14). *)
Inductive metadata : Type :=
| T35 (country : Z) (payload : list Z)
| HdrCll (max_cll max_fall : Z)
| HdrMdcv (px py : list Z) (wx wy lmax lmin : Z)
| Scalability (mode : Z) (st : option scal_structure)
| Timecode (counting : Z) (seconds minutes hours : option Z) (off_len off_val : Z).

(** obu.rs 75-86, enum [OBU]. Simplification: the frame header and tile group
    payloads are not produced here; the variant carries the effect of the code of
    lines 318-1404 and 1408-1452 on the output and the state (any effect). The
    streams of StreamModel put the real code here. *)
Inductive obu : Type :=
| SequenceHeader (h : seqhdr)
| TemporalDelimiter
| FrameHeader (run : enc -> res (list Z * enc))
| RedundantFrameHeader
| TileGroup (run : enc -> res (list Z * enc))
| Metadata (m : metadata)
| FrameObu
| Padding (n : Z).

(** obu_encoder.rs 62-71. *)
Definition obu_type (o : obu) : Z :=
  match o with
  | SequenceHeader _ => 1
  | TemporalDelimiter => 2
  | FrameHeader _ => 3
  | RedundantFrameHeader => 7
  | TileGroup _ => 4
  | Metadata _ => 5
  | FrameObu => 6
  | Padding _ => 15
  end.

(** obu_encoder.rs 59-87, [encode_obu_header]; the extension part (79-86) is dead
    code because the flag is the constant 0. *)
Definition encode_obu_header (o : obu) (out : list Z) : res (list Z) :=
  let out := push out 0 in
  out <- push_bits_with_size out (obu_type o) 4 ;;
  let out := push out 0 in
  let out := push out 0 in
  Ok (push out 0).

(** [for x in l { push_bits_with_size(x, n) }]. *)
Fixpoint push_all (out : list Z) (l : list Z) (n : Z) : res (list Z) :=
  match l with
  | [] => Ok out
  | x :: r => out <- push_bits_with_size out x n ;; push_all out r n
  end.

(** obu_encoder.rs 1493-1496. *)
Fixpoint push_dims (out : list Z) (l : list (Z * Z)) : res (list Z) :=
  match l with
  | [] => Ok out
  | (w, h) :: r =>
      out <- push_bits_with_size out w 16 ;;
      out <- push_bits_with_size out h 16 ;;
      push_dims out r
  end.
(** obu_encoder.rs 1502-1510. *)
Fixpoint push_groups (out : list Z) (l : list temporal_group) : res (list Z) :=
  match l with
  | [] => Ok out
  | g :: r =>
      out <- push_bits_with_size out (tg_id g) 3 ;;
      let out := push out (tg_temporal_up g) in
      let out := push out (tg_spatial_up g) in
      out <- push_bits_with_size out (as_u32 (len (tg_diffs g))) 3 ;;
      out <- push_all out (tg_diffs g) 8 ;;
      push_groups out r
  end.

(** obu_encoder.rs 1453-1563. *)
Definition encode_metadata (m : metadata) (out : list Z) : res (list Z) :=
  match m with
  | T35 cc pb =>
      out <- encode_leb128 out 4 ;;
      out <- push_bits_with_size out cc 8 ;;
      if cc =? 255 then push_bits_with_size out 0 8 else Ok out
  | HdrCll mc mf =>
      out <- encode_leb128 out 1 ;;
      out <- push_bits_with_size out mc 16 ;;
      push_bits_with_size out mf 16
  | HdrMdcv px py wx wy lmax lmin =>
      out <- encode_leb128 out 2 ;;
      x0 <- idx px 0 ;; y0 <- idx py 0 ;;
      out <- push_bits_with_size out x0 16 ;;
      out <- push_bits_with_size out y0 16 ;;
      x1 <- idx px 1 ;; y1 <- idx py 1 ;;
      out <- push_bits_with_size out x1 16 ;;
      out <- push_bits_with_size out y1 16 ;;
      x2 <- idx px 2 ;; y2 <- idx py 2 ;;
      out <- push_bits_with_size out x2 16 ;;
      out <- push_bits_with_size out y2 16 ;;
      out <- push_bits_with_size out wx 16 ;;
      out <- push_bits_with_size out wy 16 ;;
      out <- push_bits_with_size out lmax 32 ;;
      push_bits_with_size out lmin 32
  | Scalability mi st =>
      out <- encode_leb128 out 3 ;;
      out <- push_bits_with_size out mi 8 ;;
      if mi =? 14 then
        match st with
        | None => Panic
        | Some s =>
            n <- chk_u64 (Z.max (len (ss_dims s)) (len (ss_refs s)) - 1) ;;
            out <- push_bits_with_size out (as_u32 n) 2 ;;
            let out := push out (b2z (0 <? len (ss_dims s))) in
            let out := push out (b2z (0 <? len (ss_refs s))) in
            let out := push out (b2z (0 <? len (ss_groups s))) in
            out <- push_bits_with_size out 0 3 ;;
            out <- push_dims out (ss_dims s) ;;
            out <- push_all out (ss_refs s) 8 ;;
            if 0 <? len (ss_groups s) then
              out <- push_bits_with_size out (as_u32 (len (ss_groups s))) 8 ;;
              push_groups out (ss_groups s)
            else Ok out
        end
      else Ok out
  | Timecode ct secs mins hrs tol tov =>
      out <- encode_leb128 out 3 ;;
      out <- push_bits_with_size out ct 5 ;;
      out <- match secs, mins, hrs with
             | Some s, Some m, Some h =>
                 let out := push out 1 in
                 out <- push_bits_with_size out s 6 ;;
                 out <- push_bits_with_size out m 6 ;;
                 push_bits_with_size out h 5
             | _, _, _ =>
                 let out := push out 0 in
                 match secs with
                 | None => Ok (push out 0)
                 | Some s =>
                     out <- push_bits_with_size (push out 1) s 6 ;;
                     match mins with
                     | None => Ok (push out 0)
                     | Some m =>
                         out <- push_bits_with_size (push out 1) m 6 ;;
                         match hrs with
                         | None => Ok (push out 0)
                         | Some h => push_bits_with_size (push out 1) h 5
                         end
                     end
                 end
             end ;;
      out <- push_bits_with_size out tol 5 ;;
      push_bits_with_size out tov tol
  end.

(** obu_encoder.rs 89-1573, [encode_obu_payload]: the payload bits and the new
    encoder state; the header inside a sequence header OBU is dropped afterwards. *)
Definition encode_payload (e : enc) (o : obu) : res (list Z * enc) :=
  match o with
  | SequenceHeader h => '(out, e, _) <- enc_seq [] e h ;; Ok (out, e)
  | TemporalDelimiter => Ok ([], e)
  | FrameHeader run => run e
  | RedundantFrameHeader => Ok ([], e)
  | TileGroup run => run e
  | Metadata m => out <- encode_metadata m [] ;; Ok (out, e)
  | FrameObu => Ok ([], e)
  | Padding n => out <- push_all [] (repeat 0 (Z.to_nat n)) 8 ;; Ok (out, e)
  end.

(** obu_encoder.rs 1575-1585, [encode_obu]: the header goes to [out], the payload
    goes straight to the writer. *)
Definition encode_obu (w : writer) (e : enc) (o : obu) (out : list Z) : res (writer * enc * list Z) :=
  out <- encode_obu_header o out ;;
  '(p, e) <- encode_payload e o ;;
  w <- write_bits w p ;;
  w <- byte_align w ;;
  Ok (w, e, out).

(** obu_encoder.rs 1587-1603, [encode_temporal_unit]. *)
Definition encode_temporal_unit (w : writer) (e : enc) (o : obu) : res (writer * enc) :=
  '(w, e, obu_bits) <- encode_obu w e o [] ;;
  fu <- encode_leb128 [] (len obu_bits) ;;
  let fu := push_bits fu obu_bits in
  tu <- encode_leb128 [] (len fu) ;;
  let tu := push_bits tu fu in
  sz <- encode_leb128 [] (len tu) ;;
  w <- write_bits w sz ;;
  w <- write_bits w tu ;;
  Ok (w, e).

(** A caller's sequence of [encode_temporal_unit] calls. *)
Fixpoint encode_units (w : writer) (e : enc) (l : list obu) : res (writer * enc) :=
  match l with
  | [] => Ok (w, e)
  | o :: r => '(w, e) <- encode_temporal_unit w e o ;; encode_units w e r
  end.
