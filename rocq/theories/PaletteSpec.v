(** How a decoder reads the colours of a palette block: the AV1 specification, 5.11.49
    (palette_tokens), 5.11.50 (get_palette_color_context) and the tables of the contexts;
    and which calls of the writers of bool_coder.rs code a given block of colours. *)
From Coq Require Import String ZArith List Bool.
From Verif Require Import Base RangeCoderModel CdfTableSpec ContextModel ContextSpec.
Import ListNotations.
Open Scope string_scope.
Open Scope list_scope.
Open Scope Z_scope.

(** The colours of a block: row, column. *)
Definition colours := Z -> Z -> Z.
Definition set_colour (m : colours) (r c k : Z) : colours := fun r' c' => if (r' =? r) && (c' =? c) then k else m r' c'.

(** [lo], ..., [hi]. *)
Definition between (lo hi : Z) : list Z := map (fun k => lo + Z.of_nat k) (seq 0 (Z.to_nat (hi - lo + 1))).

(** The order of the colours after the first: by diagonals, each from the right to the left. *)
Definition diagonal (w h i : Z) : list (Z * Z) := map (fun j => (i - j, j)) (rev (between (Z.max 0 (i - h + 1)) (Z.min i (w - 1)))).
Definition wave (w h : Z) : list (Z * Z) := flat_map (diagonal w h) (between 1 (w + h - 2)).

(** The neighbours of a position with their weights. *)
Definition around (m : colours) (r c : Z) : list (Z * Z) :=
  (if 0 <? c then [(m r (c - 1), 2)] else []) ++ (if (0 <? r) && (0 <? c) then [(m (r - 1) (c - 1), 1)] else []) ++
  (if 0 <? r then [(m (r - 1) c, 2)] else []).

(** The score of each colour, and the three best moved to the front, the others staying in order. *)
Fixpoint score (ns : list (Z * Z)) (k : Z) : Z :=
  match ns with [] => 0 | (x, weight) :: ns => (if x =? k then weight else 0) + score ns k end.
Fixpoint best (x : Z * Z) (l : list (Z * Z)) : (Z * Z) * list (Z * Z) :=
  match l with
  | [] => (x, [])
  | y :: l' => let '(b, r) := best y l' in if fst x <? fst b then (b, x :: r) else (x, l)
  end.
Fixpoint arranged (k : nat) (l : list (Z * Z)) : list (Z * Z) :=
  match k, l with S k, x :: l => let '(b, r) := best x l in b :: arranged k r | _, _ => l end.
Definition ranking (n : Z) (ns : list (Z * Z)) : list (Z * Z) := arranged 3 (map (fun k => (score ns k, k)) (between 0 (n - 1))).
Definition colour_order (n : Z) (ns : list (Z * Z)) : list Z := map snd (ranking n ns).
Fixpoint weighted (ws ss : list Z) : Z := match ws, ss with w :: ws, s :: ss => w * s + weighted ws ss | _, _ => 0 end.
Definition colour_hash (n : Z) (ns : list (Z * Z)) : Z := weighted [1; 2; 2] (map fst (ranking n ns)).

(** The arrays of CDFs, by plane type and number of colours. *)
Definition colour_cdf (luma : bool) (n : Z) : string :=
  nth (Z.to_nat (n - 2))
    (if luma then ["palette_size_2_y_color"; "palette_size_3_y_color"; "palette_size_4_y_color"; "palette_size_5_y_color";
                   "palette_size_6_y_color"; "palette_size_7_y_color"; "palette_size_8_y_color"]
     else ["palette_size_2_uv_color"; "palette_size_3_uv_color"; "palette_size_4_uv_color"; "palette_size_5_uv_color";
           "palette_size_6_uv_color"; "palette_size_7_uv_color"; "palette_size_8_uv_color"]) "".

(** The decoder, on bits: every context comes from the colours read so far, the CDFs
    adapt. [Panic]: no such context or colour. *)
Fixpoint decode_colours (luma : bool) (n : Z) (ps : list (Z * Z)) (m : colours) (c : coder) (s : cdfs) (q : list Z)
  : res (colours * coder * cdfs * list Z) :=
  match ps with
  | [] => Ok (m, c, s, q)
  | (row, col) :: ps =>
      let ns := around m row col in
      match spec_color_context (colour_hash n ns) with
      | None => Panic
      | Some ctx =>
          let name := colour_cdf luma n in
          t <- field s name ;;
          cdf <- tab_get t [ctx] ;;
          '(v, c, q, cdf) <- decode_symbol c q cdf ;;
          match nth_error (colour_order n ns) (Z.to_nat v) with
          | None => Panic
          | Some k => decode_colours luma n ps (set_colour m row col k) c (set_field s name (tab_set t [ctx] cdf)) q
          end
      end
  end.
Definition decode_colour_block (luma : bool) (n w h : Z) (first : Z) (c : coder) (s : cdfs) (q : list Z) (sz : Z)
  : res (colours * coder * cdfs * list Z) :=
  '(c, q) <- init_decoder c q sz ;; decode_colours luma n (wave w h) (fun _ _ => first) c s q.

(** The calls for a block of colours: the place of each colour in the order, and the hash. *)
Fixpoint place (k : Z) (l : list Z) : Z := match l with [] => 0 | x :: l => if x =? k then 0 else 1 + place k l end.
Definition colour_call (luma : bool) (n : Z) (m : colours) (p : Z * Z) : wr :=
  let ns := around m (fst p) (snd p) in
  (if luma then encode_palette_color_idx_y else encode_palette_color_idx_uv) (place (m (fst p) (snd p)) (colour_order n ns)) (colour_hash n ns) n.
Definition colour_calls (luma : bool) (n w h : Z) (m : colours) : list wr := map (colour_call luma n m) (wave w h).
