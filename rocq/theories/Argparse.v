(** Model of parser.parse_args (cli.py:433) for every command line: the algorithm of
    argparse (ArgumentParser.parse_args, _parse_known_args, _parse_optional,
    _get_option_tuples, consume_optional, consume_positionals, as in Python 3.11) on the
    parsers of create_parser (cli.py:232-427).  [Parser.v] has the same for command lines
    that spell options in full.  Versions of argparse differ in '-f=x' (earlier ones read
    it as '-f -x'), in '--' before the subcommand, and in files with options between
    them (later ones take the second file as output file). *)
From Verif Require Import Base PyVal Checksums Headers Pretty Args FileIO Append Files Cli Parser.

Definition table := list (string * dest).

(** s.partition('=') *)
Fixpoint partition_eq (s : string) : string * option string :=
  match s with
  | EmptyString => (""%string, None)
  | String c r => if Ascii.eqb c "=" then (""%string, Some r)
                  else let '(a, b) := partition_eq r in (String c a, b)
  end.
Fixpoint has_char (c : ascii) (s : string) : bool :=
  match s with EmptyString => false | String x r => Ascii.eqb x c || has_char c r end.
Fixpoint starts_with (p s : string) : bool :=
  match p, s with
  | EmptyString, _ => true
  | String a p', String b s' => Ascii.eqb a b && starts_with p' s'
  | _, EmptyString => false
  end.
(** _negative_number_matcher: ^-\d+$|^-\d*\.\d+$ ('$' also before a last newline). *)
Definition is_digit (c : ascii) : bool := match digit_val c with Some _ => true | None => false end.
Fixpoint digits_end (some : bool) (s : string) : bool :=
  match s with
  | EmptyString => some
  | String c r => if is_digit c then digits_end true r else some && String.eqb s (String "010" "")
  end.
Fixpoint digits_dot (s : string) : bool :=
  match s with
  | EmptyString => false
  | String c r => if is_digit c then digits_dot r else Ascii.eqb c "." && digits_end false r
  end.
Definition negative_number (s : string) : bool :=
  match s with String c r => Ascii.eqb c "-" && (digits_end false r || digits_dot r) | EmptyString => false end.

(** An argument: a word ('A'), the first '--' ('-'), or an option ('O'): the action and
    the option string it has (if any), and the value that came with it (and whether
    after a '='). *)
Inductive kind := KA | KD | KO (a : option (dest * string)) (x : option (bool * string)).

(** _get_option_tuples *)
Definition option_tuples (t : table) (s : string) : list (dest * string * option (bool * string)) :=
  if starts_with "--" s then
    let '(p, x) := partition_eq s in
    map (fun o => (snd o, fst o, match x with Some e => Some (true, e) | None => None end))
        (filter (fun o => starts_with p (fst o)) t)
  else
    let short := substring 0 2 s in
    let rest := substring 2 (String.length s - 2) s in
    flat_map (fun o => if String.eqb (fst o) short then [(snd o, fst o, Some (false, rest))]
                       else if starts_with s (fst o) then [(snd o, fst o, None)] else []) t.
(** _parse_optional; None is parser.error. *)
Definition parse_optional (t : table) (s : string) : option kind :=
  match s with
  | EmptyString => Some KA
  | String c r =>
      if negb (Ascii.eqb c "-") then Some KA
      else
        match option_named t s with
        | Some d => Some (KO (Some (d, s)) None)
        | None =>
            if String.eqb r "" then Some KA
            else
              let '(p, x) := partition_eq s in
              match (match x with
                     | Some e => match option_named t p with Some d => Some (d, p, e) | None => None end
                     | None => None
                     end) with
              | Some (d, p, e) => Some (KO (Some (d, p)) (Some (true, e)))
              | None =>
                  match option_tuples t s with
                  | _ :: _ :: _ => None
                  | [(d, o, x)] => Some (KO (Some (d, o)) x)
                  | [] => if negative_number s then Some KA
                          else if has_char " " s then Some KA
                          else Some (KO None None)
                  end
              end
        end
  end.
(** The first loop of _parse_known_args. *)
Fixpoint classify (t : table) (l : list string) : option (list (string * kind)) :=
  match l with
  | [] => Some []
  | s :: r =>
      if String.eqb s "--" then Some ((s, KD) :: map (fun w => (w, KA)) r)
      else match parse_optional t s, classify t r with
           | Some k, Some q => Some ((s, k) :: q)
           | _, _ => None
           end
  end.

(** Positional arguments: one word (nargs None), at most one ('?'), a word and all that
    follows (PARSER), each with any '--' around the word.  The regular expressions of
    _get_nargs_pattern need no backtracking here, and each is matched after the other
    (_match_arguments_partial); '--' is taken out by _get_values, except for PARSER. *)
Inductive nargs := One | Maybe | Rest.
Fixpoint dashes (l : list (string * kind)) : list (string * kind) :=
  match l with (_, KD) :: r => dashes r | _ => l end.
Definition consume_one (p : nargs) (l : list (string * kind)) : option (list string * list (string * kind)) :=
  match p, dashes l with
  | One, (w, KA) :: r => Some ([w], dashes r)
  | One, _ => None
  | Maybe, (w, KA) :: r => Some ([w], dashes r)
  | Maybe, r => Some ([], r)
  | Rest, (_, KA) :: _ => Some (map fst l, [])
  | Rest, _ => None
  end.
(** consume_positionals: what was taken, the positionals left, the arguments left *)
Fixpoint consume_positionals (ps : list nargs) (l : list (string * kind)) : list string * list nargs * list (string * kind) :=
  match ps with
  | [] => ([], [], l)
  | p :: q => match consume_one p l with
              | Some (w, l') => let '(ws, ps', l'') := consume_positionals q l' in (w ++ ws, ps', l'')
              | None => ([], ps, l)
              end
  end.

(** consume_optional: the actions with their values, and whether something is left over
    ('extras'); None is an ArgumentError.  [bundled] goes through '-xyz'. *)
Definition is_short (o : string) : bool :=
  match o with String _ (String c _) => negb (Ascii.eqb c "-") | _ => false end.
Fixpoint bundled (t : table) (d : dest) (e : string) : option (list (dest * string) * option dest * bool) :=
  match e with
  | EmptyString => None
  | String c e' =>
      if Ascii.eqb c "-" then None
      else
        match option_named t (String "-" (String c "")) with
        | None => Some ([(d, ""%string)], None, true)
        | Some d' =>
            match e' with
            | EmptyString => Some ([(d, ""%string)], Some d', false)
            | String c' e'' =>
                if Ascii.eqb c' "=" then
                  if takes d' then Some ([(d, ""%string); (d', e'')], None, false) else None
                else if takes d' then Some ([(d, ""%string); (d', e')], None, false)
                     else match bundled t d' e' with
                          | Some (a, p, x) => Some ((d, ""%string) :: a, p, x)
                          | None => None
                          end
            end
        end
  end.
(** The option without value that is left takes its value from the arguments that follow. *)
Definition with_next (d : dest) (r : list (string * kind)) : option (list (dest * string) * list (string * kind)) :=
  if takes d then match r with (v, KA) :: r' => Some ([(d, v)], r') | _ => None end
  else Some ([(d, ""%string)], r).
Definition consume_optional (t : table) (a : option (dest * string)) (x : option (bool * string)) (r : list (string * kind))
    : option (list (dest * string) * list (string * kind) * bool) :=
  match a with
  | None => Some ([], r, true)
  | Some (d, o) =>
      match x with
      | None => match with_next d r with Some (l, r') => Some (l, r', false) | None => None end
      | Some (eq, e) =>
          if takes d then Some ([(d, e)], r, false)
          else if is_short o && negb eq then
            match bundled t d e with
            | Some (l, None, ex) => Some (l, r, ex)
            | Some (l, Some d', ex) =>
                match with_next d' r with Some (l', r') => Some (l ++ l', r', ex) | None => None end
            | None => None
            end
          else None
      end
  end.
Definition has_option (l : list (string * kind)) : bool :=
  existsb (fun p => match snd p with KO _ _ => true | _ => false end) l.
Fixpoint to_option (l : list (string * kind)) : list (string * kind) :=
  match l with
  | (_, KO _ _) :: _ => l
  | _ :: r => to_option r
  | [] => []
  end.

Section WithEnv.
Variable E : Env.

Fixpoint take_actions (l : list (dest * string)) (n : ns) : res ns :=
  match l with
  | [] => Ok n
  | (d, v) :: r => n' <~ act E d v n ;; take_actions r n'
  end.

(** The second loop of _parse_known_args, and what follows it.  Every round takes
    something, [fuel] does not run out (RuntimeError). *)
Record parsed := mkP { p_ns : ns; p_words : list string; p_left : list nargs; p_extras : bool }.
Definition finish (ps : list nargs) (l : list (string * kind)) (n : ns) (ws : list string) (ex : bool) : parsed :=
  let '(w, ps', l') := consume_positionals ps l in
  mkP n (ws ++ w) ps' (ex || match l' with [] => false | _ => true end).
Fixpoint loop (fuel : nat) (t : table) (ps : list nargs) (l : list (string * kind)) (n : ns) (ws : list string) (ex : bool) : res parsed :=
  match fuel with
  | O => Raise RuntimeError
  | S fuel' =>
      let optional ps l ws ex :=
        match l with
        | (_, KO a x) :: r =>
            match consume_optional t a x r with
            | None => Raise (SystemExit 2)
            | Some (acts, r', ex') => n' <~ take_actions acts n ;; loop fuel' t ps r' n' ws (ex || ex')
            end
        | _ => Raise RuntimeError
        end in
      if has_option l then
        match l with
        | (_, KO _ _) :: _ => optional ps l ws ex
        | _ => let '(w, ps', l') := consume_positionals ps l in
               if (List.length l' <? List.length l)%nat then loop fuel' t ps' l' n (ws ++ w) ex
               else optional ps' (to_option l) (ws ++ w) true
        end
      else Ok (finish ps l n ws ex)
  end.
(** parse_known_args; a positional that is left over is an error unless it is the
    subcommand or an optional one. *)
Definition parse_known (t : table) (ps : list nargs) (l : list string) (n : ns) : res parsed :=
  match classify t l with
  | None => Raise (SystemExit 2)
  | Some k => p <~ loop (S (List.length k)) t ps k n [] false ;;
              if existsb (fun a => match a with One => true | _ => false end) (p_left p) then Raise (SystemExit 2) else Ok p
  end.
Definition positionals (c : subcommand) : list nargs :=
  match c with SubCompress | SubDecompress => [One; Maybe] | SubAppend => [One; One] | SubInfo => [One] end.

(** parse_args: the main parser calls the one of the subcommand when it comes to it. *)
Definition parse_args (l : list string) : res command :=
  p <~ parse_known main_options [Rest] l ns0 ;;
  match p_words p with
  | [] => if p_extras p then Raise (SystemExit 2) else Ok CmdNone
  | s :: r =>
      match sub_of s with
      | None => Raise (SystemExit 2)
      | Some c =>
          q <~ parse_known (options_of c) (positionals c) r (p_ns p) ;;
          if p_extras p || p_extras q then Raise (SystemExit 2)
          else command_of c (p_ns q) (p_words q)
      end
  end.
(** main (cli.py:430-533) on a command line *)
Definition command_line (l : list string) (s : fs) : fs * res unit :=
  match parse_args l with
  | Raise e => (s, Raise e)
  | Ok c => main E c s
  end.
End WithEnv.
