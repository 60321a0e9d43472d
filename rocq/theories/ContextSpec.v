(** What the syntax writers must do.

    First the use of the CDF arrays: an element is in range if its indices are below
    the bounds of its array and its symbol is in the alphabet; a decoder reads it by
    looking up the same entry of its own arrays. Second, the CDF selection process of
    the AV1 specification (section 8.3.2), written from the specification in terms of
    the blocks above and to the left of the current block. *)
From Coq Require Import String ZArith List Bool.
From Verif Require Import Base RangeCoderModel RangeCoderSpec CdfTables CdfTableSpec ContextModel.
Import ListNotations.
Open Scope string_scope.
Open Scope list_scope.
Open Scope Z_scope.

(** ** CDF arrays *)

(** One field per syntax element, each with its bounds and valid CDFs. *)
Definition state_ok (s : cdfs) : Prop :=
  Forall2 (fun (e : string * tab) sh => fst e = fst (fst sh) /\ table_ok (snd e) (snd (fst sh)) (snd sh)) s cdf_shapes.

Definition element : Type := (string * list Z * Z)%type.
Definition in_range (e : element) : Prop :=
  let '(name, path, s) := e in
  exists dims N, In (name, dims, N) cdf_shapes /\
    Forall2 (fun i d => 0 <= i < Z.of_nat d) path dims /\ 0 <= s < Z.of_nat N.

(** A writer call that selects an existing CDF and codes a symbol of its alphabet. *)
Definition sound (w : wr) : Prop := exists e, w = Ok e /\ in_range e.

Fixpoint run_writers (c : coder) (s : cdfs) (out : list Z) (ws : list wr) : res (coder * cdfs * list Z) :=
  match ws with
  | [] => Ok (c, s, out)
  | w :: r => '(c, s, out) <- run_writer c s out w ;; run_writers c s out r
  end.
Definition write_session (c : coder) (s : cdfs) (out : list Z) (ws : list wr) : res (coder * cdfs * list Z) :=
  '(c, s, out) <- run_writers (init_encoder c) s out ws ;;
  '(c, out) <- exit_encoder c out ;;
  Ok (c, s, out).

(** The decoder's side: the CDF array and the indices are known from the context. *)
Fixpoint read_elements (c : coder) (s : cdfs) (q : list Z) (es : list (string * list Z))
  : res (list Z * coder * cdfs * list Z) :=
  match es with
  | [] => Ok ([], c, s, q)
  | (name, path) :: r =>
      t <- field s name ;;
      row <- tab_get t path ;;
      '(v, c, q, row) <- decode_symbol c q row ;;
      '(vs, c, s, q) <- read_elements c (set_field s name (tab_set t path row)) q r ;;
      Ok (v :: vs, c, s, q)
  end.
Definition read_session (c : coder) (s : cdfs) (q : list Z) (sz : Z) (es : list (string * list Z))
  : res (list Z * coder * cdfs * list Z) :=
  '(c, q) <- init_decoder c q sz ;; read_elements c s q es.

(** ** Blocks *)

Definition NONE := -1.
Definition INTRA_FRAME := 0.

(** The values a decoded block can have. *)
Record mi_ok (m : mi) : Prop := {
  ok_size : 0 <= m_size m < 22;
  ok_tx_size : 0 <= m_tx_size m < 19;
  ok_tx_type : 0 <= m_tx_type m < 16;
  ok_predicted : 0 <= m_seg_id_predicted m <= 1;
  ok_skip_mode : 0 <= m_skip_mode m <= 1;
  ok_ref0 : INTRA_FRAME <= m_ref0 m <= 7;
  ok_ref1 : NONE <= m_ref1 m <= 7;
  ok_intra : m_intra m = (m_ref0 m <=? INTRA_FRAME);
  ok_single : m_single m = (m_ref1 m <=? INTRA_FRAME);
  ok_filter : exists a b, m_filter m = [a; b] /\ 0 <= a <= 3 /\ 0 <= b <= 3;
  ok_level : exists a b d, m_level m = [a; b; d] /\ 0 <= a /\ 0 <= b /\ 0 <= d;
  ok_dc : exists a b d, m_dc m = [a; b; d] /\ 0 <= a <= 2 /\ 0 <= b <= 2 /\ 0 <= d <= 2;
  ok_palette : exists a b d, m_palette m = [a; b; d] /\ 0 <= a <= 8 /\ 0 <= b <= 8 /\ 0 <= d <= 8;
  ok_comp_group_idx : 0 <= m_comp_group_idx m <= 1;
  ok_compound_idx : 0 <= m_compound_idx m <= 1
}.

(** The block covering a position, if it has been coded. *)
Definition cell (f : frame) (r c : Z) : option mi :=
  match nth_error (f_mis f) (Z.to_nat r) with
  | Some row => match nth_error row (Z.to_nat c) with Some m => m | None => None end
  | None => None
  end.

(** A frame of R x C units with such blocks; (r, c) is one of its positions. *)
Definition frame_ok (f : frame) (r c : Z) : Prop :=
  exists R C,
    len (f_mis f) = R /\ (forall row, In row (f_mis f) -> len row = C) /\
    0 <= r < R /\ 0 <= c < C /\
    (forall i j m, cell f i j = Some m -> mi_ok m).

(** The blocks above and to the left that the specification lets a block at (r, c) in
    a tile starting at (r0, c0) refer to. *)
Definition above_of (f : frame) (r0 r c : Z) : option mi := if r0 <? r then cell f (r - 1) c else None.
Definition left_of (f : frame) (c0 r c : Z) : option mi := if c0 <? c then cell f r (c - 1) else None.

(** Variables of section 5.11.5 (decode_block) of the specification. *)
Definition Avail (n : option mi) : bool := match n with Some _ => true | None => false end.
Definition Ref0 (n : option mi) : Z := match n with Some m => m_ref0 m | None => INTRA_FRAME end.
Definition Ref1 (n : option mi) : Z := match n with Some m => m_ref1 m | None => NONE end.
Definition Intra (n : option mi) : bool := Ref0 n <=? INTRA_FRAME.
Definition Single (n : option mi) : bool := Ref1 n <=? INTRA_FRAME.

(** An array of the specification at a neighbour, with a value if there is none. *)
Definition at_nb {A : Type} (g : mi -> A) (d : A) (n : option mi) : A := match n with Some m => g m | None => d end.

(** ** 8.3.2 *)

Definition spec_is_inter (u l : option mi) : Z :=
  if Avail u && Avail l then (if Intra l && Intra u then 3 else if Intra l || Intra u then 1 else 0)
  else if Avail u then 2 * b2z (Intra u)
  else if Avail l then 2 * b2z (Intra l)
  else 0.

(** BWDREF_FRAME, ALTREF2_FRAME, ALTREF_FRAME *)
Definition backward (rf : Z) : bool := existsb (Z.eqb rf) [5; 6; 7].

Definition spec_comp_mode (u l : option mi) : Z :=
  match Avail u, Avail l with
  | true, true =>
      match Single u, Single l with
      | true, true => if Bool.eqb (backward (Ref0 u)) (backward (Ref0 l)) then 0 else 1
      | true, false => if backward (Ref0 u) || Intra u then 3 else 2
      | false, true => if backward (Ref0 l) || Intra l then 3 else 2
      | false, false => 4
      end
  | true, false => if Single u then b2z (backward (Ref0 u)) else 3
  | false, true => if Single l then b2z (backward (Ref0 l)) else 3
  | false, false => 1
  end.

(** Neighbouring uses of the references in two groups are counted and compared. *)
Definition nb_refs (u l : option mi) : list Z :=
  (if Avail u then [Ref0 u; Ref1 u] else []) ++ (if Avail l then [Ref0 l; Ref1 l] else []).
Definition uses_of (group : list Z) (u l : option mi) : Z :=
  len (filter (fun rf => existsb (Z.eqb rf) group) (nb_refs u l)).
Definition spec_counts (g0 g1 : list Z) (u l : option mi) : Z :=
  match Z.compare (uses_of g0 u l) (uses_of g1 u l) with Lt => 0 | Eq => 1 | Gt => 2 end.

Definition same_dir (a b : Z) : bool := (0 <? a) && (0 <? b) && Bool.eqb (5 <=? a) (5 <=? b).
Definition spec_comp_ref_type (u l : option mi) : Z :=
  let comp n := Avail n && negb (Intra n) && negb (Single n) in
  let uni n := comp n && same_dir (Ref0 n) (Ref1 n) in
  if Avail u && Avail l then
    if negb (Intra u) && negb (Intra l) then
      match comp u, comp l with
      | false, false => if same_dir (Ref0 u) (Ref0 l) then 3 else 1
      | false, true => if uni l then 3 + b2z (same_dir (Ref0 u) (Ref0 l)) else 1
      | true, false => if uni u then 3 + b2z (same_dir (Ref0 u) (Ref0 l)) else 1
      | true, true =>
          match uni u, uni l with
          | false, false => 0
          | true, true => 3 + b2z (Bool.eqb (Ref0 u =? 5) (Ref0 l =? 5))
          | _, _ => 2
          end
      end
    else if comp u then (if uni u then 3 else 1)
    else if comp l then (if uni l then 3 else 1)
    else 2
  else if comp u then (if uni u then 4 else 0)
  else if comp l then (if uni l then 4 else 0)
  else 2.

Definition spec_comp_group_idx (u l : option mi) : Z :=
  let part n := if negb (Single n) then at_nb m_comp_group_idx 0 n else if Ref0 n =? 7 then 3 else 0 in
  Z.min 5 (part u + part l).

(** [fwd], [bwd]: distances of the two references. *)
Definition spec_compound_idx (fwd bwd : Z) (u l : option mi) : Z :=
  let part n := if negb (Single n) then at_nb m_compound_idx 0 n else if Ref0 n =? 7 then 1 else 0 in
  (if Z.abs fwd =? Z.abs bwd then 3 else 0) + part u + part l.

(** [ref0], [ref1] are the references of the current block. *)
Definition spec_interp_filter (dir ref0 ref1 : Z) (u l : option mi) : Z :=
  let kind n := if Avail n && ((Ref0 n =? ref0) || (Ref1 n =? ref0))
                then nth (Z.to_nat dir) (at_nb m_filter [] n) 3 else 3 in
  (dir mod 2 * 2 + b2z (INTRA_FRAME <? ref1)) * 4 +
  (if kind l =? kind u then kind l
   else if kind l =? 3 then kind u
   else if kind u =? 3 then kind l
   else 3).

(** Block and transform dimensions, by block size and transform size. *)
Definition Block_Width (b : Z) : Z :=
  nth (Z.to_nat b) [4; 4; 8; 8; 8; 16; 16; 16; 32; 32; 32; 64; 64; 64; 128; 128; 4; 16; 8; 32; 16; 64] 0.
Definition Block_Height (b : Z) : Z :=
  nth (Z.to_nat b) [4; 8; 4; 8; 16; 8; 16; 32; 16; 32; 64; 32; 64; 128; 64; 128; 16; 4; 32; 8; 64; 16] 0.
Definition Tx_Width (t : Z) : Z := nth (Z.to_nat t) [4; 8; 16; 32; 64; 4; 8; 8; 16; 16; 32; 32; 64; 4; 16; 8; 32; 16; 64] 0.
Definition Tx_Height (t : Z) : Z := nth (Z.to_nat t) [4; 8; 16; 32; 64; 8; 4; 16; 8; 32; 16; 64; 32; 16; 4; 32; 8; 64; 16] 0.

Definition spec_tx_depth (max_rect : Z) (u l : option mi) : Z :=
  let above_w := at_nb (fun m => if m_is_inter m then Block_Width (m_size m) else Tx_Width (m_tx_size m)) 0 u in
  let left_h := at_nb (fun m => if m_is_inter m then Block_Height (m_size m) else Tx_Height (m_tx_size m)) 0 l in
  b2z (Tx_Width max_rect <=? above_w) + b2z (Tx_Height max_rect <=? left_h).

(** Transform split of a transform block at the edge of its block. *)
Definition spec_txfm_split (tx_size mi_size : Z) (u l : option mi) : Z :=
  let above_w := at_nb (fun m => if m_skip m && m_is_inter m then Block_Width (m_size m) else Tx_Width (m_tx_size m)) 64 u in
  let left_h := at_nb (fun m => if m_skip m && m_is_inter m then Block_Height (m_size m) else Tx_Height (m_tx_size m)) 64 l in
  let log2size := Z.log2 (Z.min 64 (Z.max (Block_Width mi_size) (Block_Height mi_size))) - 2 in
  let log2up := Z.log2 (Z.max (Tx_Width tx_size) (Tx_Height tx_size)) - 2 in
  (if (log2up =? log2size) || (log2size <=? 1) then 0 else 3) + (4 - log2size) * 6 +
  b2z (above_w <? Tx_Width tx_size) + b2z (left_h <? Tx_Height tx_size).

(** The segment ids above left, above and left; negative if not available. *)
Definition spec_segment_id (ul u l : Z) : Z :=
  if ul <? 0 then 0
  else if (ul =? u) && (u =? l) then 2
  else if (ul =? u) || (ul =? l) || (u =? l) then 1
  else 0.

(** Level contexts along the edge of a transform block: [top], [left] are the largest
    of the contexts above and to the left. *)
Definition spec_all_zero_luma (whole_block : bool) (top left : Z) : Z :=
  if whole_block then 0
  else match (0 <? top), (0 <? left) with
       | false, false => 1
       | true, true => if Z.max top left <=? 3 then 4 else if Z.min top left <=? 3 then 5 else 6
       | _, _ => if 3 <? Z.max top left then 3 else 2
       end.

(** Coefficient contexts. A transform larger than 32 codes its first 32 columns or rows. *)
Definition coded_width (t : Z) : Z := Z.min 32 (Tx_Width t).
Definition coded_height (t : Z) : Z := Z.min 32 (Tx_Height t).
(** 0: two-dimensional transforms, 1: horizontal, 2: vertical; by transform type. *)
Definition tx_class (ty : Z) : Z := if ty <? 10 then 0 else if Z.even ty then 2 else 1.

(** Neighbours of a coefficient: (row, column) offsets. *)
Definition base_nbrs (class : Z) : list (Z * Z) :=
  if class =? 0 then [(0, 1); (1, 0); (1, 1); (0, 2); (2, 0)]
  else if class =? 1 then [(0, 1); (1, 0); (0, 2); (0, 3); (0, 4)]
  else [(0, 1); (1, 0); (2, 0); (3, 0); (4, 0)].
Definition br_nbrs (class : Z) : list (Z * Z) :=
  if class =? 0 then [(0, 1); (1, 0); (1, 1)]
  else if class =? 1 then [(0, 1); (1, 0); (0, 2)]
  else [(0, 1); (1, 0); (2, 0)].

(** Sum of the magnitudes, each cut off at [top], of the neighbours that exist. *)
Definition nbr_sum (t row col top : Z) (nbrs : list (Z * Z)) (q : Z -> Z -> Z) : Z :=
  fold_right Z.add 0
    (map (fun d => let r := row + fst d in let c := col + snd d in
                   if (r <? coded_height t) && (c <? coded_width t) then Z.min (Z.abs (q r c)) top else 0) nbrs).

Definition spec_coeff_base (t ty row col : Z) (q : Z -> Z -> Z) : Z :=
  let class := tx_class ty in
  let m := Z.min 4 ((nbr_sum t row col 3 (base_nbrs class) q + 1) / 2) in
  if class =? 0 then
    if (row =? 0) && (col =? 0) then 0
    else if (Tx_Width t <? Tx_Height t) && (row <? 2) then m + 11
    else if (Tx_Height t <? Tx_Width t) && (col <? 2) then m + 16
    else if row + col <? 2 then m + 1
    else if row + col <? 4 then m + 6
    else m + 21
  else m + 26 + 5 * Z.min 2 (if class =? 2 then row else col).

Definition spec_coeff_br (t ty row col : Z) (q : Z -> Z -> Z) : Z :=
  let class := tx_class ty in
  let m := Z.min 6 ((nbr_sum t row col 15 (br_nbrs class) q + 1) / 2) in
  if (row =? 0) && (col =? 0) then m
  else if (if class =? 0 then (row <? 2) && (col <? 2) else if class =? 1 then col =? 0 else row =? 0) then m + 7
  else m + 14.

(** Context of the last coefficient, number [c] in scan order. *)
Definition spec_coeff_base_eob (t c : Z) : Z :=
  let n := coded_width t * coded_height t in
  if c =? 0 then 0 else if c <=? n / 8 then 1 else if c <=? n / 4 then 2 else 3.

(** Chroma from luma: signs 0 zero, 1 negative, 2 positive of U and V, coded as
    3 * sign_u + sign_v - 1 (both zero does not occur). *)
Definition spec_cfl_u (sign_u sign_v : Z) : Z := (sign_u - 1) * 3 + sign_v.
Definition spec_cfl_v (sign_u sign_v : Z) : Z := (sign_v - 1) * 3 + sign_u.

(** Transform types a block may use, by the sets of the specification: 0 the DCT only;
    1 the seven and 2 the five types of intra blocks; 1 all, 2 the twelve and 3 the two
    types of inter blocks. *)
Definition spec_tx_set (tx_size : Z) (is_inter reduced : bool) : Z :=
  let small := Z.min (Tx_Width tx_size) (Tx_Height tx_size) in
  let large := Z.max (Tx_Width tx_size) (Tx_Height tx_size) in
  if 32 <? large then 0
  else if is_inter then (if reduced || (large =? 32) then 3 else if small =? 16 then 2 else 1)
  else (if large =? 32 then 0 else if reduced || (small =? 16) then 2 else 1).
Definition spec_set_types (is_inter : bool) (set : Z) : list Z :=
  if set =? 0 then [0]
  else if is_inter then
    (if set =? 1 then [0; 1; 2; 3; 4; 5; 6; 7; 8; 9; 10; 11; 12; 13; 14; 15]
     else if set =? 2 then [0; 1; 2; 3; 4; 5; 6; 7; 8; 9; 10; 11] else [0; 9])
  else (if set =? 1 then [0; 1; 2; 3; 9; 10; 11] else [0; 1; 2; 3; 9]).
(** The transform type that applies if [ty] is stored for the block. *)
Definition spec_tx_type (tx_size : Z) (lossless is_inter reduced : bool) (ty : Z) : Z :=
  if lossless then 0
  else if existsb (Z.eqb ty) (spec_set_types is_inter (spec_tx_set tx_size is_inter reduced)) then ty else 0.

(** ** Elements whose CDF depends on the block or the call only *)

(** The size group of a block: by its smaller side. *)
Definition spec_size_group (b : Z) : Z :=
  let m := Z.min (Block_Width b) (Block_Height b) in if m =? 4 then 0 else if m =? 8 then 1 else if m =? 16 then 2 else 3.

(** Intra_Mode_Context: DC, smooth and Paeth like modes, vertical, horizontal, ... *)
Definition spec_mode_context (m : Z) : Z :=
  match m with
  | 0 | 9 | 12 => 0
  | 1 | 10 => 1
  | 2 | 11 => 2
  | 3 | 8 => 3
  | _ => 4
  end.

(** Compound_Mode_Ctx_Map. *)
Definition spec_compound_mode (ref_ctx new_ctx : Z) : Z :=
  match ref_ctx / 2, Z.min new_ctx 4 with
  | 0, 0 => 0
  | 0, _ => 1
  | 1, 4 => 4
  | 1, n => n + 1
  | _, 0 | _, 1 => 4
  | _, n => n + 3
  end.

(** Palette_Color_Context of the hash of the neighbouring colours. *)
Definition spec_color_context (hash : Z) : option Z :=
  match hash with 2 => Some 0 | 5 => Some 4 | 6 => Some 3 | 7 => Some 2 | 8 => Some 1 | _ => None end.

(** Which of the four sets of default coefficient CDFs is loaded (7.20,
    init_coeff_cdfs), by base_q_idx. *)
Definition spec_coef_set (base_q_idx : Z) : Z :=
  if base_q_idx <=? 20 then 0 else if base_q_idx <=? 60 then 1 else if base_q_idx <=? 120 then 2 else 3.
