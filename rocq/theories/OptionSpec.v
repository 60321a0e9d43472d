(** Independent specification of the command line of option.rs: what each pair of
    arguments asks for and what a whole command line means. *)
From Coq Require Import ZArith List Bool Ascii String.
From Verif Require Import Base OptionModel.
Import ListNotations.
Open Scope list_scope.
Open Scope Z_scope.

(** A decimal number below 2^64, optionally with a plus sign. *)
Definition is_digit (c : ascii) : Prop := 48 <= code c <= 57.
Definition decimal (ds : str) : Z := fold_left (fun a c => 10 * a + (code c - 48)) ds 0.
Definition number (s : str) (n : Z) : Prop :=
  exists ds, (s = ds \/ s = "+"%char :: ds) /\ ds <> [] /\ Forall is_digit ds /\ n = decimal ds /\ n < 2 ^ 64.

(** What one option asks for. *)
Inductive item : Type :=
| IInput (s : str) | IOutput (s : str) | IFrames (n : Z) | ISize (w h : Z) | IRate (n : Z) | IFrac (n d : Z).

Definition flag (f : str) (long short : string) : Prop := f = lit long \/ f = lit short.

(** An option name and its value ask for an item. *)
Inductive denotes : str -> str -> item -> Prop :=
| d_input : forall f v, flag f "--input" "-i" -> denotes f v (IInput v)
| d_output : forall f v, flag f "--output" "-o" -> denotes f v (IOutput v)
| d_frames : forall f v n, flag f "--frames" "-fr" -> number v n -> denotes f v (IFrames n)
| d_size : forall f a b w h, flag f "--size" "-s" -> number a w -> number b h -> denotes f (a ++ "x"%char :: b) (ISize w h)
| d_rate : forall f v n, flag f "--framerate" "-r" -> number v n -> denotes f v (IRate n)
| d_frac : forall f a b n d, flag f "--framerate" "-r" -> number a n -> number b d -> denotes f (a ++ "/"%char :: b) (IFrac n d).

(** A well formed command line. *)
Inductive cmdline : list item -> list str -> Prop :=
| cl_nil : cmdline [] []
| cl_cons : forall f v it its rest, denotes f v it -> cmdline its rest -> cmdline (it :: its) (f :: v :: rest).

(** Its meaning: each setting has the value asked for last, or the old one. *)
Definition latest {A : Type} (get : item -> option A) (its : list item) (old : option A) : option A :=
  fold_left (fun acc it => match get it with Some a => Some a | None => acc end) its old.
Definition meaning (its : list item) (c c' : config) : Prop :=
  cf_input c' = latest (fun i => match i with IInput s => Some s | _ => None end) its (cf_input c) /\
  cf_output c' = latest (fun i => match i with IOutput s => Some s | _ => None end) its (cf_output c) /\
  cf_frames c' = latest (fun i => match i with IFrames n => Some n | _ => None end) its (cf_frames c) /\
  cf_width c' = latest (fun i => match i with ISize w _ => Some w | _ => None end) its (cf_width c) /\
  cf_height c' = latest (fun i => match i with ISize _ h => Some h | _ => None end) its (cf_height c) /\
  cf_rate c' = latest (fun i => match i with
                                | IRate n => Some (n, 1)
                                | IFrac n d => Some (n / Z.gcd n d, d / Z.gcd n d)
                                | _ => None end) its (cf_rate c).

Definition is_frac (i : item) : bool := match i with IFrac _ _ => true | _ => false end.

(** An argument in option position that the code cannot slice: empty, a lone
    hyphen, or one whose first character, or second after a hyphen, takes more than
    one byte. *)
Definition continuation (c : ascii) : Prop := 128 <= code c < 192.
Definition unsliceable (s : str) : Prop :=
  s = [] \/ s = lit "-" \/ (exists a b r, s = a :: b :: r /\ continuation b) \/
  (exists b c r, s = "-"%char :: b :: c :: r /\ continuation c).
