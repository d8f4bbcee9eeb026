(** Specification vocabulary: the command lines of 'blpk'. *)
From Verif Require Import Base Checksums Pretty Args FileIO Append Files Cli Parser Spec PrettyProofs OptionProofs.

(** The options, by what they are for. *)
Definition names (d : dest) : list string :=
  match d with
  | Help => ["-h"; "--help"] | Version => ["--version"] | Verbose => ["-v"; "--verbose"] | Debug => ["-d"; "--debug"]
  | Force => ["-f"; "--force"] | Threads => ["-n"; "--nthreads"] | Typesize => ["-t"; "--typesize"] | Clevel => ["-l"; "--clevel"]
  | NoShuffle => ["-s"; "--no-shuffle"] | Cname => ["-c"; "--codec"] | ChunkSize => ["-z"; "--chunk-size"]
  | Checksum => ["-k"; "--checksum"] | NoOffsets => ["-o"; "--no-offsets"] | Metadata => ["-m"; "--metadata"]
  | NoCheck => ["-e"; "--no-check-extension"]
  end%string.
Definition valued : list dest := [Threads; Typesize; Clevel; Cname; ChunkSize; Checksum; Metadata].
Definition main_set : list dest := [Help; Version; Verbose; Debug; Force; Threads].
Definition sub_set (c : subcommand) : list dest :=
  match c with
  | SubCompress => [Help; Typesize; Clevel; NoShuffle; Cname; ChunkSize; Checksum; NoOffsets; Metadata]
  | SubDecompress => [Help; NoCheck]
  | SubAppend => [Help; Typesize; Clevel; NoShuffle; Cname; NoCheck; Metadata]
  | SubInfo => [Help]
  end.
Definition sub_names (c : subcommand) : list string :=
  match c with
  | SubCompress => ["compress"; "c"] | SubDecompress => ["decompress"; "d"]
  | SubAppend => ["append"; "a"] | SubInfo => ["info"; "i"]
  end%string.

(** Arguments that are not options: what does not begin with '-', '-' alone, and
    negative numbers. *)
Definition plain (s : string) : Prop :=
  (forall r, s <> String "-" r) \/ exists r, s = String "-" r /\ forallb digit (list_ascii_of_string r) = true.
Definition known_arg (s : string) : Prop := plain s \/ exists d, In s (names d).

(** A command line as a list of options with their values, and files; and the texts
    it is spelled with. *)
Inductive arg := Given (d : dest) (name v : string) | File (w : string).
Definition spells (allowed : list dest) (a : arg) (l : list string) : Prop :=
  match a with
  | Given d name v => In d allowed /\ In name (names d) /\
      (In d valued /\ plain v /\ l = [name; v] \/ ~ In d valued /\ v = ""%string /\ l = [name])
  | File w => plain w /\ l = [w]
  end.
Inductive spelling (allowed : list dest) : list arg -> list string -> Prop :=
| sp_nil : spelling allowed [] []
| sp_cons a l q r : spells allowed a l -> spelling allowed q r -> spelling allowed (a :: q) (l ++ r).

Fixpoint files (l : list arg) : list string :=
  match l with [] => [] | File w :: r => w :: files r | Given _ _ _ :: r => files r end.
(** The value given last for an option. *)
Definition dest_eq (a b : dest) : {a = b} + {a <> b}. Proof. decide equality. Defined.
Fixpoint last_given (d : dest) (l : list arg) : option string :=
  match l with
  | [] => None
  | Given d' _ v :: r => match last_given d r with Some x => Some x | None => if dest_eq d d' then Some v else None end
  | File _ :: r => last_given d r
  end.
Definition is_given (d : dest) (l : list arg) : bool := match last_given d l with Some _ => true | None => false end.

(** The values an option may have, and what becomes of others. *)
Definition is_int (v : string) (z : Z) : Prop := int_literal (list_ascii_of_string v) z.
Definition good_size (v : string) : Prop :=
  v = "max"%string \/ v <> ""%string /\ exists z, 0 <= z /\ (ends_in_unit v /\ reverse_pretty v = Ok z \/ ~ ends_in_unit v /\ is_int v z).
Definition good_value (E : Env) (d : dest) (v : string) : Prop :=
  match d with
  | Help | Version => False
  | Threads => exists z, is_int v z /\ 1 <= z <= 256
  | Typesize => exists z, is_int v z
  | Clevel => exists z, is_int v z /\ 0 <= z <= 9
  | Cname => e_cname_ok E v = true
  | Checksum => In v checksum_names
  | ChunkSize => good_size v
  | _ => True
  end.
Definition bad_size (v : string) (e : exn) : Prop :=
  v = ""%string /\ e = IndexError \/
  v <> ""%string /\ ends_in_unit v /\ reverse_pretty v = Raise OverflowError /\ e = OverflowError \/
  v <> ""%string /\ ~ good_size v /\ ~ (ends_in_unit v /\ reverse_pretty v = Raise OverflowError) /\ e = SystemExit 1.
Definition bad_value (E : Env) (d : dest) (v : string) (e : exn) : Prop :=
  match d with
  | Help | Version => e = SystemExit 0
  | Threads => (forall z, ~ is_int v z) /\ e = SystemExit 2 \/ exists z, is_int v z /\ ~ 1 <= z <= 256 /\ e = SystemExit 1
  | ChunkSize => bad_size v e
  | _ => ~ good_value E d v /\ e = SystemExit 2
  end.
(** '-v' and '-d' exclude each other. *)
Definition clash (d : dest) (prev : list arg) : Prop :=
  d = Verbose /\ is_given Debug prev = true \/ d = Debug /\ is_given Verbose prev = true.

(** Every option in the list is in order... *)
Definition in_order (E : Env) (l : list arg) : Prop :=
  (forall d n v, In (Given d n v) l -> good_value E d v) /\ ~ (is_given Verbose l = true /\ is_given Debug l = true).
(** ... and the first of the texts [l], after the arguments [prev], is refused with [e]. *)
Definition refused (E : Env) (allowed : list dest) (prev : list arg) (l : list string) (e : exn) : Prop :=
  exists d name r, In d allowed /\ In name (names d) /\ l = name :: r /\
    (In d valued /\ (exists v r', r = v :: r' /\ plain v /\ bad_value E d v e) \/
     In d valued /\ e = SystemExit 2 /\ (r = [] \/ exists v r', r = v :: r' /\ ~ plain v) \/
     (d = Help \/ d = Version) /\ e = SystemExit 0 \/
     clash d prev /\ e = SystemExit 2).

(** How many files there are to be, and where: no option between input and output
    file of 'compress' and 'decompress'. *)
Definition file_count (c : subcommand) (k : Z) : Prop :=
  match c with SubCompress | SubDecompress => k = 1 \/ k = 2 | SubAppend => k = 2 | SubInfo => k = 1 end.
Definition placed (c : subcommand) (l : list arg) : Prop :=
  match c with
  | SubCompress | SubDecompress => exists l1 w l3, l = l1 ++ map File w ++ l3 /\ files l1 = [] /\ files l3 = []
  | _ => True
  end.

(** The command a command line stands for: options given after the subcommand are
    [l], those given before it [g]. *)
Definition int_or (o : option string) (dflt z : Z) : Prop := match o with None => z = dflt | Some v => is_int v z end.
Definition text_or (o : option string) (dflt : string) : string := match o with None => dflt | Some v => v end.
Definition one_or_two (l : list string) (i : string) (o : option string) : Prop :=
  l = [i] /\ o = None \/ exists p, l = [i; p] /\ o = Some p.
Definition stands_for (c : subcommand) (g l : list arg) (x : command) : Prop :=
  match c, x with
  | SubCompress, CmdCompress o =>
      one_or_two (files l) (co_in o) (co_out o) /\ co_force o = is_given Force g /\
      int_or (last_given Typesize l) 8 (co_typesize o) /\ int_or (last_given Clevel l) 7 (co_clevel o) /\
      co_shuffle o = negb (is_given NoShuffle l) /\ co_cname o = text_or (last_given Cname l) "blosclz" /\
      co_chunk o = last_given ChunkSize l /\ co_checksum o = text_or (last_given Checksum l) "adler32" /\
      co_offsets o = negb (is_given NoOffsets l) /\ co_meta o = last_given Metadata l
  | SubDecompress, CmdDecompress o =>
      one_or_two (files l) (do_in o) (do_out o) /\ do_force o = is_given Force g /\ do_no_check o = is_given NoCheck l
  | SubAppend, CmdAppend o =>
      files l = [ao_orig o; ao_new o] /\ ao_no_check o = is_given NoCheck l /\
      int_or (last_given Typesize l) 8 (ao_typesize o) /\ int_or (last_given Clevel l) 7 (ao_clevel o) /\
      ao_shuffle o = negb (is_given NoShuffle l) /\ ao_cname o = text_or (last_given Cname l) "blosclz" /\
      ao_meta o = last_given Metadata l
  | SubInfo, CmdInfo p => files l = [p]
  | _, _ => False
  end.
