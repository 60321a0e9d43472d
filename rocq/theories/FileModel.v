(** Model of the file behind a [BinaryWriter] (binary_writer.rs 22-28): a
    [BufWriter], which holds bytes back until more than 8192 are waiting or it is
    dropped. Simplification: the file accepts every byte. *)
From Coq Require Import ZArith List Bool.
From Verif Require Import Base MainModel.
Import ListNotations.
Open Scope list_scope.
Open Scope Z_scope.

(** [std::io::BufWriter]: the bytes waiting and the bytes in the file. *)
Record bufwriter : Type := mkBw { bw_held : list Z; bw_file : list Z }.

(** [BufWriter::write] with the capacity of [BufWriter::new]: what is waiting goes to
    the file first if the new bytes do not fit; large data is not held at all. *)
Definition bw_write (b : bufwriter) (data : list Z) : bufwriter :=
  let b := if 8192 <? len (bw_held b) + len data then mkBw [] (bw_file b ++ bw_held b) else b in
  if 8192 <=? len data then mkBw (bw_held b) (bw_file b ++ data) else mkBw (bw_held b ++ data) (bw_file b).

(** binary_writer.rs 34-38: the bytes are written one by one. *)
Definition bw_bytes (b : bufwriter) (bytes : list Z) : bufwriter := fold_left (fun b x => bw_write b [x]) bytes b.

(** [Drop] of [BufWriter]: what is waiting goes to the file. *)
Definition bw_drop (b : bufwriter) : bufwriter := mkBw [] (bw_file b ++ bw_held b).

(** The output file after a run of [main] that opened it. At the end of [main] (main.rs
    119) the writer is dropped; [process::exit] (main.rs 105-107) drops nothing. *)
Definition output_file (r : res run) : option (list Z) :=
  match r with
  | Ok (Ran bytes _ exited) =>
      let b := bw_bytes (mkBw [] []) bytes in
      Some (bw_file (if exited then b else bw_drop b))
  | _ => None
  end.
