(** What a decoder of a stream knows, written from the AV1 specification and
    independently of the encoder's state. *)
From Coq Require Import ZArith List Bool.
From Verif Require Import BitsSpec SeqSpec FrameSpec.
Import ListNotations.
Open Scope Z_scope.

(** What the sequence header [v] that was read last tells about the frame headers that
    follow (5.9.2). The OBU headers have no extension, so temporal_id and spatial_id are
    0 (5.3.1). [nw] and [nh] are the lengths of the frame size fields, [types] the types
    of the frames in the reference slots. *)
Definition p_decoder_model (v : p_seq) : option p_dm :=
  match ps_timing v with Some t => pm_dm t | None => None end.
Definition av1_seq_of (v : p_seq) (nw nh : nat) (types : list Z) : av1_seq :=
  let t := ps_tools v in let c := ps_color v in
  mkASeq false
    (match ps_frame_id v with Some _ => true | None => false end)
    (match ps_frame_id v with Some (d, a) => Z.to_nat (a + d) | None => O end)
    (match p_decoder_model v with Some d => Some (Z.to_nat (pd_present_len d), Z.to_nat (pd_removal_len d)) | None => None end)
    (match ps_timing v with Some t => match pm_ticks t with Some _ => true | None => false end | None => false end)
    (map pq_idc (filter (fun o => match pq_params o with Some _ => true | None => false end) (ps_opm v)))
    0 0
    (pt_sct t) (pt_imv t) (pt_order_hint t) (Z.to_nat (pt_ohb t))
    nw nh (ps_width_minus_1 v + 1, ps_height_minus_1 v + 1) (pt_superres t) (pt_sb128 t) (pt_cdef t) (pt_restoration t) (ps_grain v)
    (pc_mono c) (pc_ssx c) (pc_ssy c) (pc_sep c) types.

(** SeenFrameHeader (5.9.1, 5.11.1, 5.6): a temporal delimiter clears it, a frame header
    sets it unless it shows an existing frame, the tile group with the last tile clears
    it. *)
Inductive told : Type :=
| ADelimiter
| AHeader (existing : bool)
| ATiles (last : bool)
| AOther.
Definition seen_after (seen : bool) (t : told) : bool :=
  match t with
  | ADelimiter => false
  | AHeader existing => seen || negb existing
  | ATiles last => seen && negb last
  | AOther => seen
  end.

(** The flag before each of the OBUs, and after all of them. *)
Fixpoint flags (seen : bool) (l : list told) : list bool :=
  match l with [] => [] | t :: r => seen :: flags (seen_after seen t) r end.
Definition flag_after (seen : bool) (l : list told) : bool := fold_left seen_after l seen.
