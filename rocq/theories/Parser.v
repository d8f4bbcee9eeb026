(** Model of the command line of 'blpk': create_parser (cli.py:232-427) and
    parser.parse_args (cli.py:433), as far as command lines go that spell options in
    full, with the value of an option in an argument of its own.  [Outside] is
    the answer for other command lines (abbreviated options, '-z1M', '--force=..', '--',
    and, since versions of argparse differ there, input and output file with options
    between them). *)
From Verif Require Import Base PyVal Checksums Headers Pretty Args FileIO Append Files Cli.

Definition BLOSC_MAX_THREADS : Z := 256.

(** The options; [takes] says which have a value (nargs). *)
Inductive dest :=
| Help | Version | Verbose | Debug | Force | Threads
| Typesize | Clevel | NoShuffle | Cname | ChunkSize | Checksum | NoOffsets | Metadata | NoCheck.
Definition takes (d : dest) : bool :=
  match d with Threads | Typesize | Clevel | Cname | ChunkSize | Checksum | Metadata => true | _ => false end.

(** The main parser (cli.py:235-281), the 'blosc settings' (cli.py:204-229), and the
    parsers of the subcommands (cli.py:283-427); '-h' is argparse's own. *)
Definition help_options : list (string * dest) := [("-h", Help); ("--help", Help)]%string.
Definition main_options : list (string * dest) := help_options ++
  [("--version", Version); ("-v", Verbose); ("--verbose", Verbose); ("-d", Debug); ("--debug", Debug);
   ("-f", Force); ("--force", Force); ("-n", Threads); ("--nthreads", Threads)]%string.
Definition blosc_options : list (string * dest) :=
  [("-t", Typesize); ("--typesize", Typesize); ("-l", Clevel); ("--clevel", Clevel);
   ("-s", NoShuffle); ("--no-shuffle", NoShuffle); ("-c", Cname); ("--codec", Cname)]%string.
Definition compress_options : list (string * dest) := help_options ++ blosc_options ++
  [("-z", ChunkSize); ("--chunk-size", ChunkSize); ("-k", Checksum); ("--checksum", Checksum);
   ("-o", NoOffsets); ("--no-offsets", NoOffsets); ("-m", Metadata); ("--metadata", Metadata)]%string.
Definition decompress_options : list (string * dest) := help_options ++
  [("-e", NoCheck); ("--no-check-extension", NoCheck)]%string.
Definition append_options : list (string * dest) := help_options ++ blosc_options ++
  [("-e", NoCheck); ("--no-check-extension", NoCheck); ("-m", Metadata); ("--metadata", Metadata)]%string.

(** The subcommands and their aliases. *)
Inductive subcommand := SubCompress | SubDecompress | SubAppend | SubInfo.
Definition sub_of (s : string) : option subcommand :=
  if mem_str s ["compress"; "c"]%string then Some SubCompress
  else if mem_str s ["decompress"; "d"]%string then Some SubDecompress
  else if mem_str s ["append"; "a"]%string then Some SubAppend
  else if mem_str s ["info"; "i"]%string then Some SubInfo else None.
Definition options_of (c : subcommand) : list (string * dest) :=
  match c with
  | SubCompress => compress_options | SubDecompress => decompress_options
  | SubAppend => append_options | SubInfo => help_options
  end.

(** argparse's view of one argument (_parse_optional): a word, also if it is '-' or a
    negative number; an option; or something not covered. *)
Definition all_digits (s : string) : bool :=
  forallb (fun c => match digit_val c with Some _ => true | None => false end) (list_ascii_of_string s).
Definition is_word (s : string) : bool :=
  match s with
  | EmptyString => true
  | String c r => negb (Ascii.eqb c "-") || String.eqb r "" || all_digits r
  end.
Definition option_named (t : list (string * dest)) (s : string) : option dest :=
  match find (fun p => String.eqb s (fst p)) t with Some p => Some (snd p) | None => None end.

Definition all_options : list (string * dest) :=
  main_options ++ compress_options ++ decompress_options ++ append_options.
(** The arguments covered: words, and options spelled in full. *)
Definition known (s : string) : bool :=
  is_word s || match option_named all_options s with Some _ => true | None => false end.
Inductive item := Opt (d : dest) (v : string) | Word (w : string) | Lacking | Foreign.
(** A result, an exception (mostly SystemExit), or a case not covered. *)
Inductive outcome (A : Type) := Done (a : A) | Fail (e : exn) | Outside.
Arguments Done {A}. Arguments Fail {A}. Arguments Outside {A}.

(** The namespace, with the defaults of create_parser. *)
Record ns := mkNS {
  n_verbose : bool; n_debug : bool; n_force : bool; n_threads : option Z;
  n_typesize : Z; n_clevel : Z; n_shuffle : bool; n_cname : string;
  n_chunk : option string; n_checksum : string; n_offsets : bool; n_meta : option string; n_nocheck : bool }.
Definition ns0 : ns := mkNS false false false None 8 7 true "blosclz" None "adler32" true None false.

Section WithEnv.
Variable E : Env.

(** Conversion of the value (type=..), its choices, and the action.  argparse's
    errors exit with 2, '-h' and '--version' with 0, the two custom actions with 1. *)
Definition int_value (v : string) : res Z :=
  match int_of_text v with Ok z => Ok z | Raise _ => Raise (SystemExit 2) end.
Definition act (d : dest) (v : string) (n : ns) : res ns :=
  let '(mkNS vb db fo th ts cl sh cn ch ck off me nc) := n in
  match d with
  | Help | Version => Raise (SystemExit 0)
  | Verbose => if db then Raise (SystemExit 2) else Ok (mkNS true db fo th ts cl sh cn ch ck off me nc)
  | Debug => if vb then Raise (SystemExit 2) else Ok (mkNS vb true fo th ts cl sh cn ch ck off me nc)
  | Force => Ok (mkNS vb db true th ts cl sh cn ch ck off me nc)
  | Threads => z <~ int_value v ;;
      if (1 <=? z) && (z <=? BLOSC_MAX_THREADS) then Ok (mkNS vb db fo (Some z) ts cl sh cn ch ck off me nc)
      else Raise (SystemExit 1)
  | Typesize => z <~ int_value v ;; Ok (mkNS vb db fo th z cl sh cn ch ck off me nc)
  | Clevel => z <~ int_value v ;;
      if (MIN_CLEVEL <=? z) && (z <=? MAX_CLEVEL) then Ok (mkNS vb db fo th ts z sh cn ch ck off me nc)
      else Raise (SystemExit 2)
  | NoShuffle => Ok (mkNS vb db fo th ts cl false cn ch ck off me nc)
  | Cname => if e_cname_ok E v then Ok (mkNS vb db fo th ts cl sh v ch ck off me nc) else Raise (SystemExit 2)
  | ChunkSize => _ <~ chunk_size_option v ;; Ok (mkNS vb db fo th ts cl sh cn (Some v) ck off me nc)
  | Checksum => match check_valid_checksum v with
                | Ok _ => Ok (mkNS vb db fo th ts cl sh cn ch v off me nc)
                | Raise _ => Raise (SystemExit 2)
                end
  | NoOffsets => Ok (mkNS vb db fo th ts cl sh cn ch ck false me nc)
  | Metadata => Ok (mkNS vb db fo th ts cl sh cn ch ck off (Some v) nc)
  | NoCheck => Ok (mkNS vb db fo th ts cl sh cn ch ck off me true)
  end.

(** What an argument is to a parser with the options [t]; [Lacking] is an option
    without its value, [Foreign] an option of another parser.  The main parser stops
    at the first word ([stop]). *)
Fixpoint items (stop : bool) (t : list (string * dest)) (l : list string) : list item * list string :=
  match l with
  | [] => ([], [])
  | s :: r =>
      match option_named t s with
      | Some d =>
          if takes d then
            match r with
            | v :: r' => if is_word v then let '(i, q) := items stop t r' in (Opt d v :: i, q) else ([Lacking], [])
            | [] => ([Lacking], [])
            end
          else let '(i, q) := items stop t r in (Opt d "" :: i, q)
      | None => if is_word s then
                  if stop then ([], l) else let '(i, q) := items stop t r in (Word s :: i, q)
                else ([Foreign], [])
      end
  end.

(** The actions, from left to right; the first error ends it. *)
Fixpoint perform (l : list item) (n : ns) : outcome ns :=
  match l with
  | [] => Done n
  | Opt d v :: r => match act d v n with Ok n' => perform r n' | Raise e => Fail e end
  | Word _ :: r => perform r n
  | Lacking :: _ => Fail (SystemExit 2)
  | Foreign :: _ => Outside
  end.
Fixpoint words (l : list item) : list string :=
  match l with [] => [] | Word w :: r => w :: words r | _ :: r => words r end.
(** Whether the words stand together. *)
Fixpoint after_words (l : list item) : list item := match l with Word _ :: r => after_words r | _ => l end.
Fixpoint after_options (l : list item) : list item := match l with Opt _ _ :: r => after_options r | _ => l end.
Definition together (l : list item) : bool :=
  match words (after_words (after_options l)) with [] => true | _ => false end.

Definition command_of (c : subcommand) (n : ns) (ws : list string) : res command :=
  match c, ws with
  | SubCompress, [i] => Ok (CmdCompress (mkCO i None (n_force n) (n_typesize n) (n_clevel n) (n_shuffle n) (n_cname n)
                                             (n_chunk n) (n_checksum n) (n_offsets n) (n_meta n)))
  | SubCompress, [i; o] => Ok (CmdCompress (mkCO i (Some o) (n_force n) (n_typesize n) (n_clevel n) (n_shuffle n) (n_cname n)
                                             (n_chunk n) (n_checksum n) (n_offsets n) (n_meta n)))
  | SubDecompress, [i] => Ok (CmdDecompress (mkDO i None (n_force n) (n_nocheck n)))
  | SubDecompress, [i; o] => Ok (CmdDecompress (mkDO i (Some o) (n_force n) (n_nocheck n)))
  | SubAppend, [i; o] => Ok (CmdAppend (mkAO i o (n_nocheck n) (n_typesize n) (n_clevel n) (n_shuffle n) (n_cname n) (n_meta n)))
  | SubInfo, [i] => Ok (CmdInfo i)
  | _, _ => Raise (SystemExit 2)
  end.
Definition optional_second (c : subcommand) : bool := match c with SubCompress | SubDecompress => true | _ => false end.

Definition parse_sub (c : subcommand) (l : list string) (n : ns) : outcome command :=
  let i := fst (items false (options_of c) l) in
  match perform i n with
  | Done n' => if optional_second c && negb (together i) then Outside
               else match command_of c n' (words i) with Ok x => Done x | Raise e => Fail e end
  | Fail e => Fail e
  | Outside => Outside
  end.
Definition parse (l : list string) : outcome command :=
  if negb (forallb known l) then Outside
  else
    let '(i, rest) := items true main_options l in
    match perform i ns0 with
    | Fail e => Fail e
    | Outside => Outside
    | Done n =>
        match rest with
        | [] => Done CmdNone
        | s :: r => match sub_of s with
                    | None => Fail (SystemExit 2)
                    | Some c => parse_sub c r n
                    end
        end
    end.

(** main (cli.py:430-533) on a command line.  The number of threads does not change
    what Blosc writes, and the level of messages does not change what is done. *)
Definition blpk (l : list string) (s : fs) : option (fs * res unit) :=
  match parse l with
  | Outside => None
  | Fail e => Some (s, Raise e)
  | Done c => Some (main E c s)
  end.
End WithEnv.
