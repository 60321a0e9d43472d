(** From elements to bits. The readers of ModeInfoSpec, DeltaSpec, MotionSpec and PairSpec
    work on lists of elements; a decoder works on bits. Here a reader is given as a
    program - the next element to read depends on the values read so far - with both
    meanings, and the elements are written with the writers of bool_coder.rs. *)
From Coq Require Import String ZArith List Bool.
From Verif Require Import Base SeqSpec RangeCoderModel CdfTableSpec ContextModel ContextSpec ContextCallSpec ModeInfoModel ModeInfoSpec.
Import ListNotations.
Open Scope string_scope.
Open Scope list_scope.
Open Scope Z_scope.

Inductive prog (A : Type) : Type :=
| Done (a : A)
| Fail
| Sym (name : string) (path : list Z) (k : Z -> prog A)
| Lit (n : Z) (k : Z -> prog A).
Arguments Done {A}. Arguments Fail {A}. Arguments Sym {A}. Arguments Lit {A}.

(** On elements. *)
Fixpoint on_elements {A : Type} (p : prog A) (q : list ev) : option (A * list ev) :=
  match p with
  | Done a => Some (a, q)
  | Fail => None
  | Sym name path k => LET (v, q) := sym name path q IN on_elements (k v) q
  | Lit n k => LET (v, q) := lit n q IN on_elements (k v) q
  end.

(** On bits: symbols with the CDF named, which adapts; literals bit by bit. *)
Fixpoint on_bits {A : Type} (p : prog A) (c : coder) (s : cdfs) (q : list Z) : res (A * coder * cdfs * list Z) :=
  match p with
  | Done a => Ok (a, c, s, q)
  | Fail => Panic
  | Sym name path k =>
      t <- field s name ;;
      row <- tab_get t path ;;
      '(v, c, q, row) <- decode_symbol c q row ;;
      on_bits (k v) c (set_field s name (tab_set t path row)) q
  | Lit n k => '(v, c, q) <- decode_literal c q (Z.to_nat n) ;; on_bits (k v) c s q
  end.
Definition decode_bits {A : Type} (p : prog A) (c : coder) (s : cdfs) (q : list Z) (sz : Z) : res (A * coder * cdfs * list Z) :=
  '(c, q) <- init_decoder c q sz ;; on_bits p c s q.

(** A reader of elements that looks at them one by one: it is a program. *)
Definition bitwise {A : Type} (rd : list ev -> option (A * list ev)) : Prop := exists p, forall q, rd q = on_elements p q.

(** The elements written: the arithmetic coder is called for each. *)
Definition write_element (c : coder) (s : cdfs) (out : list Z) (e : ev) : res (coder * cdfs * list Z) :=
  match e with
  | ESym name path v => run_writer c s out (Ok (name, path, v))
  | ELit n v => '(c, out) <- encode_literal c out v (Z.to_nat n) ;; Ok (c, s, out)
  end.
Fixpoint write_elements (c : coder) (s : cdfs) (out : list Z) (es : list ev) : res (coder * cdfs * list Z) :=
  match es with
  | [] => Ok (c, s, out)
  | e :: es => '(c, s, out) <- write_element c s out e ;; write_elements c s out es
  end.
Definition element_session (c : coder) (s : cdfs) (out : list Z) (es : list ev) : res (coder * cdfs * list Z) :=
  '(c, s, out) <- write_elements (init_encoder c) s out es ;;
  '(c, out) <- exit_encoder c out ;;
  Ok (c, s, out).

(** Elements with an existing CDF and a symbol of its alphabet; literals of at most 64
    bits that hold their value. *)
Definition codable_element (e : ev) : Prop :=
  match e with
  | ESym name path v => in_range (name, path, v)
  | ELit n v => 0 <= n <= 64 /\ 0 <= v < 2 ^ n
  end.
(** Arithmetic coded symbols; see [fits] of SessionSpec for the bound put on it. *)
Definition symbols_of (es : list ev) : Z := fold_right (fun e a => match e with ESym _ _ _ => 1 | ELit n _ => n end + a) 0 es.

(** The values a block and the contexts of an encoder have. *)
Record motion_ranges (x : mode_env) (b : blk) (t : mode_state) : Prop := {
  mr_frame : frame_ok (x_frame x) (x_row x) (x_col x);
  mr_comp : bit (p_comp_mode b); mr_type : bit (p_comp_ref_type b); mr_mode : p_comp_mode b = 1 -> 18 <= p_mode b <= 25;
  mr_drl : Forall bit (p_drl b); mr_drl_ctx : Forall (fun c => 0 <= c < 3) (t_drl_ctx t); mr_drl_len : (3 <= List.length (t_drl_ctx t))%nat;
  mr_ref : 0 <= t_ref_ctx t < 6; mr_new : 0 <= t_new_ctx t < 6
}.
