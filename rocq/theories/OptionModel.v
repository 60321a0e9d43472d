(** Model of /repo/src/option.rs. A Rust string is the list of its bytes.

    Simplifications: error messages are dropped ([PErr] carries none); the usage
    text printed by [show_help_and_exit] is in HelpModel ([PExit] is [process::exit]);
    recursion depth is not limited (the code recurses once per option). *)
From Coq Require Import ZArith List Bool Ascii String.
From Verif Require Import Base.
Import ListNotations.
Open Scope list_scope.
Open Scope Z_scope.

Definition str : Type := list ascii.
Definition lit (s : string) : str := list_ascii_of_string s.

Fixpoint str_eqb (a b : str) : bool :=
  match a, b with
  | [], [] => true
  | x :: a, y :: b => Ascii.eqb x y && str_eqb a b
  | _, _ => false
  end.

(** [str::is_char_boundary]: the index is 0, the length, or that of a byte that is
    not a UTF-8 continuation byte. *)
Definition code (c : ascii) : Z := Z.of_N (N_of_ascii c).
Definition is_cont (c : ascii) : bool := (128 <=? code c) && (code c <? 192).
Definition boundary (s : str) (i : nat) : bool :=
  if Nat.eqb i 0 then true
  else match nth_error s i with
       | Some c => negb (is_cont c)
       | None => Nat.eqb i (List.length s)
       end.
(** [&s[a..b]] and [&s[a..]]: a panic unless both ends are boundaries. *)
Definition slice (s : str) (a b : nat) : res str :=
  if Nat.leb a b && boundary s a && boundary s b then Ok (firstn (b - a) (skipn a s)) else Panic.
Definition slice_from (s : str) (a : nat) : res str :=
  if boundary s a then Ok (skipn a s) else Panic.

(** [str::split] by an ASCII character. *)
Fixpoint split (sep : ascii) (s : str) : list str :=
  match s with
  | [] => [[]]
  | c :: r =>
      if Ascii.eqb c sep then [] :: split sep r
      else match split sep r with
           | [] => [[c]]
           | p :: ps => (c :: p) :: ps
           end
  end.

(** [usize::from_str]: an optional plus sign, then decimal digits; [None] is the
    error. Overflow of the accumulator is an error too. *)
Definition digit (c : ascii) : option Z :=
  if (48 <=? code c) && (code c <=? 57) then Some (code c - 48) else None.
Fixpoint from_digits (acc : Z) (s : str) : option Z :=
  match s with
  | [] => Some acc
  | c :: r =>
      match digit c with
      | None => None
      | Some d =>
          if 2 ^ 64 <=? acc * 10 then None
          else if 2 ^ 64 <=? acc * 10 + d then None
          else from_digits (acc * 10 + d) r
      end
  end.
Definition from_str (s : str) : option Z :=
  match s with
  | [] => None
  | c :: r =>
      let digits := if Ascii.eqb c "+"%char then r else s in
      match digits with [] => None | _ => from_digits 0 digits end
  end.

(** option.rs 7-14, struct [Config]; the framerate is numerator and denominator. *)
Record config : Type := mkConfig {
  cf_input : option str; cf_output : option str;
  cf_width : option Z; cf_height : option Z;
  cf_rate : option (Z * Z); cf_frames : option Z }.

(** option.rs 16-25, [Config::default]. *)
Definition config_default : config := mkConfig None None None None None None.

Definition set_input c v := mkConfig (Some v) (cf_output c) (cf_width c) (cf_height c) (cf_rate c) (cf_frames c).
Definition set_output c v := mkConfig (cf_input c) (Some v) (cf_width c) (cf_height c) (cf_rate c) (cf_frames c).
Definition set_width c v := mkConfig (cf_input c) (cf_output c) (Some v) (cf_height c) (cf_rate c) (cf_frames c).
Definition set_height c v := mkConfig (cf_input c) (cf_output c) (cf_width c) (Some v) (cf_rate c) (cf_frames c).
Definition set_rate c v := mkConfig (cf_input c) (cf_output c) (cf_width c) (cf_height c) (Some v) (cf_frames c).
Definition set_frames c v := mkConfig (cf_input c) (cf_output c) (cf_width c) (cf_height c) (cf_rate c) (Some v).

(** [num::rational::Ratio::new]: panics on a zero denominator, reduces otherwise. *)
Definition ratio_new (n d : Z) : res (Z * Z) :=
  if d =? 0 then Panic else Ok (n / Z.gcd n d, d / Z.gcd n d).

(** What a parser returns besides the updated configuration: the remaining
    arguments, an error, or the end of the process. *)
Inductive presult : Type := POk (rest : list str) | PErr | PExit.

(** option.rs 36-48, [parse_tuple]: every target is assigned as soon as its part is
    read, also when a later part is wrong. *)
Fixpoint assign (parts : list str) (targets : list (config -> Z -> config)) (c : config) : config * bool :=
  match parts, targets with
  | p :: ps, t :: ts =>
      match from_str p with
      | Some v => assign ps ts (t c v)
      | None => (c, false)
      end
  | _, _ => (c, true)
  end.
Definition parse_tuple (arg : str) (sep : ascii) (n : nat) (targets : list (config -> Z -> config)) (c : config) : config * bool :=
  let v := split sep arg in
  if Nat.eqb (List.length v) n then assign v targets c else (c, false).

(** option.rs 85-169, the [parser] fields. *)
Definition parser_t : Type := list str -> config -> res (config * presult).
(** 92-95 *)
Definition parse_help : parser_t := fun _ c => Ok (c, PExit).
(** 50-58, macro [parser_string] *)
Definition parse_string (set : config -> str -> config) : parser_t := fun args c =>
  match args with
  | [] => Ok (c, PErr)
  | a :: rest => Ok (set c a, POk rest)
  end.
(** 60-68, macro [parser_num] *)
Definition parse_frames : parser_t := fun args c =>
  match args with
  | [] => Ok (c, PErr)
  | a :: rest =>
      let (c, ok) := parse_tuple a " "%char 1 [set_frames] c in
      Ok (c, if ok then POk rest else PErr)
  end.
(** 127-131 *)
Definition parse_size : parser_t := fun args c =>
  match args with
  | [] => Ok (c, PErr)
  | a :: rest =>
      let (c, ok) := parse_tuple a "x"%char 2 [set_width; set_height] c in
      Ok (c, if ok then POk rest else PErr)
  end.
(** 145-158. The local variables [numer] and [denom] are the two parts when both
    parse; [Ok(vec![])] drops the remaining arguments. *)
Definition parse_rate : parser_t := fun args c =>
  match args with
  | [] => Ok (c, PErr)
  | a :: rest =>
      match from_str a with
      | Some n => r <- ratio_new n 1 ;; Ok (set_rate c r, POk rest)
      | None =>
          match split "/"%char a with
          | [p; q] =>
              match from_str p, from_str q with
              | Some n, Some d => r <- ratio_new n d ;; Ok (set_rate c r, POk [])
              | _, _ => Ok (c, PErr)
              end
          | _ => Ok (c, PErr)
          end
      end
  end.

(** The [validator] fields; [true] is [Ok]. *)
Definition has {A : Type} (o : option A) : bool := match o with Some _ => true | None => false end.
Definition val_size (c : config) : bool :=
  match cf_width c, cf_height c with
  | Some w, Some h => (0 <? w) && (w <? 8192) && (0 <? h) && (h <? 8192)
  | _, _ => false
  end.
Definition val_rate (c : config) : bool :=
  match cf_rate c with
  | Some (n, d) => (0 <? n) && (0 <? d)
  | None => false
  end.

(** option.rs 27-34, struct [CommandOption], without the usage text. *)
Record command_option : Type := mkOption {
  o_name : str; o_short : option str; o_default : option str; o_parser : parser_t; o_validator : config -> bool }.

(** option.rs 85-169, [OPTIONS]. *)
Definition options : list command_option := [
  mkOption (lit "help") (Some (lit "h")) None parse_help (fun _ => true);
  mkOption (lit "input") (Some (lit "i")) None (parse_string set_input) (fun c => has (cf_input c));
  mkOption (lit "output") (Some (lit "o")) None (parse_string set_output) (fun c => has (cf_output c));
  mkOption (lit "frames") (Some (lit "fr")) (Some (lit "4294967295")) parse_frames (fun c => has (cf_frames c));
  mkOption (lit "size") (Some (lit "s")) None parse_size val_size;
  mkOption (lit "framerate") (Some (lit "r")) (Some (lit "30/1")) parse_rate val_rate ].

(** option.rs 172-185, [set_option_by_name]. *)
Fixpoint set_by_name (opts : list command_option) (name : str) (args : list str) (c : config) : res (config * presult) :=
  match opts with
  | [] => Ok (c, PErr)
  | o :: r => if str_eqb (o_name o) name then o_parser o args c else set_by_name r name args c
  end.
(** option.rs 187-200, [set_option_by_short_name]. *)
Fixpoint set_by_short_name (opts : list command_option) (name : str) (args : list str) (c : config) : res (config * presult) :=
  match opts with
  | [] => Ok (c, PErr)
  | o :: r =>
      if match o_short o with Some s => str_eqb s name | None => false end
      then o_parser o args c else set_by_short_name r name args c
  end.

(** option.rs 202-208, [init_config]; [assert!(false)] on an error. *)
Fixpoint init_config_loop (opts : list command_option) (c : config) : res config :=
  match opts with
  | [] => Ok c
  | o :: r =>
      match o_default o with
      | None => init_config_loop r c
      | Some d =>
          '(c, p) <- o_parser o [d] c ;;
          match p with PErr => Panic | _ => init_config_loop r c end
      end
  end.
Definition init_config (c : config) : res config := init_config_loop options c.

(** option.rs 210-215, [validate_config]. *)
Definition validate_config (c : config) : bool := forallb (fun o => o_validator o c) options.

(** option.rs 217-223 and 225-240, [parse]. One unit of fuel per call; [Hang] when
    it runs out. *)
Fixpoint parse_fuel (fuel : nat) (args : list str) (c : config) : res (config * presult) :=
  match fuel with
  | O => Hang
  | S fuel =>
      match args with
      | [] => Ok (c, POk [])
      | arg :: tail =>
          a <- slice arg 0 1 ;;
          if str_eqb a (lit "-") then
            b <- slice arg 1 2 ;;
            '(c, p) <- (if str_eqb b (lit "-")
                        then name <- slice_from arg 2 ;; set_by_name options name tail c
                        else name <- slice_from arg 1 ;; set_by_short_name options name tail c) ;;
            match p with
            | POk v => parse_fuel fuel v c
            | PErr => Ok (c, PErr)
            | PExit => Ok (c, PExit)
            end
          else Ok (c, PErr)
      end
  end.
Definition parse (args : list str) (c : config) : res (config * presult) := parse_fuel (S (List.length args)) args c.
