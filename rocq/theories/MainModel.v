(** Model of /repo/src/binary_reader.rs, of the plane sizes of [Frame::new]
    (frame.rs 239-256) and of /repo/src/main.rs.

    Simplifications: opening the files succeeds; text printed on the terminal is
    left out; [Frame::new] is reduced to its three planes, the other fields are
    never used by [main]; the sink is the list of bytes handed to the writer. *)
From Coq Require Import ZArith List Bool.
From Verif Require Import Base WriterModel SeqModel ObuModel OptionModel.
Import ListNotations.
Open Scope list_scope.
Open Scope Z_scope.

(** The answer of one [Read::read] call: an I/O error, or at most [k] bytes. *)
Inductive reply : Type := Fail | Got (k : nat).

(** [Read::read] into a buffer of [n] bytes: the bytes delivered and those left. *)
Definition read (r : reply) (n : nat) (input : list Z) : option (list Z * list Z) :=
  match r with
  | Fail => None
  | Got k => let k := Nat.min k n in Some (firstn k input, skipn k input)
  end.

(** binary_reader.rs 27-39, [read_to_vec] on a vector of length [n]: [None] is
    [Err]; otherwise the count returned, the new vector and the bytes left. *)
Definition read_to_vec (r : reply) (n : nat) (input : list Z) : option (Z * list Z * list Z) :=
  match read r n input with
  | None => None
  | Some (got, rest) => Some (len got, got ++ repeat 0 (n - length got), rest)
  end.

(** A client's sequence of [read_to_vec] calls, one answer and one length per call. *)
Fixpoint read_vecs (reps : list reply) (ns : list nat) (input : list Z) : option (list (Z * list Z) * list Z) :=
  match reps, ns with
  | r :: reps, n :: ns =>
      match read_to_vec r n input with
      | None => None
      | Some (k, v, input) =>
          match read_vecs reps ns input with
          | None => None
          | Some (l, input) => Some ((k, v) :: l, input)
          end
      end
  | _, _ => Some ([], input)
  end.

(** [std::io::BufReader] with its buffer of 8192 bytes over a file (used by
    [BinaryReader::file], 20-25): a read of at least that size with an empty buffer
    goes to the file, any other is served from the buffer, which is filled by one
    read of the file when empty. [file_read] is the read of the file. *)
Record bufreader : Type := mkBuf { br_buf : list Z; br_file : list Z }.
Definition capacity : nat := Z.to_nat 8192.
Definition buf_read (file_read : nat -> reply) (n : nat) (b : bufreader) : option (list Z * bufreader) :=
  match br_buf b with
  | [] =>
      if Nat.leb capacity n then
        match read (file_read n) n (br_file b) with
        | None => None
        | Some (got, rest) => Some (got, mkBuf [] rest)
        end
      else
        match read (file_read capacity) capacity (br_file b) with
        | None => None
        | Some (got, rest) => Some (firstn n got, mkBuf (skipn n got) rest)
        end
  | buf => Some (firstn n buf, mkBuf (skipn n buf) (br_file b))
  end.
(** [read_to_vec] over it. *)
Definition buf_read_to_vec (file_read : nat -> reply) (n : nat) (b : bufreader) : option (Z * list Z * bufreader) :=
  match buf_read file_read n b with
  | None => None
  | Some (got, b) => Some (len got, got ++ repeat 0 (n - length got), b)
  end.

(** frame.rs 254-256: the planes of [Frame::new] for a width and height. *)
Definition plane_y (w h : Z) : nat := Z.to_nat (w * h).
Definition plane_uv (w h : Z) : nat := Z.to_nat (w * h / 4).

(** A frame as read: the three planes. *)
Record planes : Type := mkPlanes { p_y : list Z; p_u : list Z; p_v : list Z }.

(** main.rs 103-118, the loop from frame number [fr] on with [n] frames to go. The
    answers of the operating system are a stream, one per read. Returns the writer,
    the frames read so far and whether [process::exit] was called. *)
Fixpoint main_loop (n : nat) (fr : nat) (rep : nat -> reply) (input : list Z) (cw ch : Z) (w : writer) (e : enc)
    (read_so_far : list planes) : res (writer * list planes * bool) :=
  match n with
  | O => Ok (w, read_so_far, false)
  | S n =>
      match read_to_vec (rep 0%nat) (plane_y 176 144) input with
      | None => Ok (w, read_so_far, true)
      | Some (_, y, input) =>
      match read_to_vec (rep 1%nat) (plane_uv 176 144) input with
      | None => Ok (w, read_so_far, true)
      | Some (_, u, input) =>
      match read_to_vec (rep 2%nat) (plane_uv 176 144) input with
      | None => Ok (w, read_so_far, true)
      | Some (_, v, input) =>
          '(w, e) <- (if Nat.eqb fr 0
                      then encode_temporal_unit w e (SequenceHeader (seq_new cw ch))
                      else Ok (w, e)) ;;
          main_loop n (S fr) (fun i => rep (3 + i)%nat) input cw ch w e (read_so_far ++ [mkPlanes y u v])
      end end end
  end.

(** What a run amounts to. *)
Inductive run : Type :=
| Refused                                        (* a message, no output *)
| Ran (bytes : list Z) (frames : list planes) (exited : bool).

(** main.rs 43-119, [main] on the arguments after the program name. *)
Definition main (args : list str) (rep : nat -> reply) (input : list Z) : res run :=
  match args with
  | [] => Ok Refused
  | _ =>
      c <- init_config config_default ;;
      '(c, p) <- parse args c ;;
      match p with
      | PErr | PExit => Ok Refused
      | POk _ =>
          if validate_config c then
            match cf_input c, cf_output c, cf_frames c, cf_width c, cf_height c with
            | Some _, Some _, Some n, Some cw, Some ch =>
                '(w, fs, ex) <- main_loop (Z.to_nat n) 0 rep input cw ch new_writer enc_new [] ;;
                Ok (Ran (w_bytes w) fs ex)
            | _, _, _, _, _ => Panic
            end
          else Ok Refused
      end
  end.
