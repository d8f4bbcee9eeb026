(** C73: the command line. *)
From Verif Require Import Base PyVal Checksums Headers Pretty Args FileIO Append Files Cli Parser Spec Json Toy Archive Unprotected PrettyProofs OptionProofs
  ParserSpec ParserProofs ParserMain PropsPack PropsAppend PropsFiles.

(** A command line whose options are all in order, with as many files as the
    subcommand wants, is carried out: each option has the value given last, or its
    default. *)
Theorem C73_accepted : forall E g lg c name q lq, spelling main_set g lg -> files g = [] -> In name (sub_names c) -> spelling (sub_set c) q lq ->
  in_order E g -> in_order E q -> file_count c (zlen (files q)) -> placed c q ->
  exists x, stands_for c g q x /\ forall s, blpk E (lg ++ name :: lq) s = Some (main E x s).
Proof. exact accepted. Qed.
Print Assumptions C73_accepted.
Theorem C73_one_meaning : forall c g q x x', stands_for c g q x -> stands_for c g q x' -> x = x'.
Proof. exact stands_for_one. Qed.
Print Assumptions C73_one_meaning.
(** Only such a command line has an effect or succeeds. *)
Theorem C73_carried_out : forall E l s s' r, blpk E l s = Some (s', r) -> s' <> s \/ r = Ok tt ->
  exists g lg c name q lq x, l = lg ++ name :: lq /\ spelling main_set g lg /\ files g = [] /\ In name (sub_names c) /\ spelling (sub_set c) q lq /\
    in_order E g /\ in_order E q /\ file_count c (zlen (files q)) /\ placed c q /\ stands_for c g q x /\ main E x s = (s', r).
Proof. exact carried_out. Qed.
Print Assumptions C73_carried_out.
(** The first option that is not in order decides how the program ends, and no file
    is touched. *)
Theorem C73_refused_main : forall E g lg bad e, spelling main_set g lg -> files g = [] -> in_order E g -> refused E main_set g bad e -> Forall known_arg bad ->
  forall s, blpk E (lg ++ bad) s = Some (s, Raise e).
Proof. exact refused_main. Qed.
Print Assumptions C73_refused_main.
Theorem C73_refused_sub : forall E g lg c name q lq bad e, spelling main_set g lg -> files g = [] -> In name (sub_names c) -> spelling (sub_set c) q lq ->
  in_order E g -> in_order E q -> refused E (sub_set c) q bad e -> Forall known_arg bad ->
  forall s, blpk E (lg ++ name :: lq ++ bad) s = Some (s, Raise e).
Proof. exact refused_sub. Qed.
Print Assumptions C73_refused_sub.
(** Without a subcommand, with one that does not exist, or with too few or too many
    files the program ends with 2. *)
Theorem C73_wrong_files : forall E g lg c name q lq, spelling main_set g lg -> files g = [] -> In name (sub_names c) -> spelling (sub_set c) q lq ->
  in_order E g -> in_order E q -> ~ file_count c (zlen (files q)) -> placed c q ->
  forall s, blpk E (lg ++ name :: lq) s = Some (s, Raise (SystemExit 2)).
Proof. exact wrong_files. Qed.
Print Assumptions C73_wrong_files.
Theorem C73_no_subcommand : forall E g lg, spelling main_set g lg -> files g = [] -> in_order E g -> forall s, blpk E lg s = Some (s, Raise (SystemExit 2)).
Proof. exact no_subcommand. Qed.
Print Assumptions C73_no_subcommand.
Theorem C73_unknown_subcommand : forall E g lg name l, spelling main_set g lg -> files g = [] -> in_order E g -> plain name ->
  (forall c, ~ In name (sub_names c)) -> Forall known_arg l ->
  forall s, blpk E (lg ++ name :: l) s = Some (s, Raise (SystemExit 2)).
Proof. exact unknown_subcommand. Qed.
Print Assumptions C73_unknown_subcommand.

(** 'blpk c file' is pack_file_to_file with the defaults of the library. *)
Theorem C73_plain_compress : forall E s f d, plain f -> e_cname_ok E "blosclz" = true -> s f = Some d -> s (f ++ ".blp")%string = None ->
  blpk E ["c"%string; f] s = Some
    (match pack_file_to_file E f (f ++ ".blp") (CSStr "1M") PNone (Some default_bargs) (Some default_bpargs) (Some default_margs) s with
     | (s', Ok _) => (s', Ok tt)
     | (s', Raise ChunkingException) => (s', Raise (SystemExit 1))
     | (s', Raise e) => (s', Raise e)
     end).
Proof. exact plain_compress. Qed.
Print Assumptions C73_plain_compress.
(** 'blpk c' with whatever options, if it succeeds, and 'blpk d' give the file back. *)
Theorem C73_compress_and_back : forall E, EnvOK E -> forall g lg name q lq f b s s1 out,
  spelling main_set g lg -> files g = [] -> In name (sub_names SubCompress) -> spelling (sub_set SubCompress) q lq -> in_order E g -> in_order E q ->
  files q = [f] -> placed SubCompress q -> s f = Some b -> blpk E (lg ++ name :: lq) s = Some (s1, Ok tt) ->
  plain (f ++ ".blp")%string -> plain out -> out <> ""%string -> out <> (f ++ ".blp")%string -> s1 out = None ->
  exists s2, blpk E ["d"%string; (f ++ ".blp")%string; out] s1 = Some (s2, Ok tt) /\ s2 out = Some b /\
    forall p, p <> (f ++ ".blp")%string -> p <> out -> s2 p = s p.
Proof. exact compress_and_back. Qed.
Print Assumptions C73_compress_and_back.
(** 'blpk a file new' makes its chunks with type size 8, whatever the header says
    (append() without arguments takes the type size of the header). *)
Theorem C73_plain_append : forall E, EnvOK E -> forall base q s f b m x s',
  plain (base ++ ".blp")%string -> plain q -> e_cname_ok E "blosclz" = true -> s (base ++ ".blp")%string = Some f -> s q = Some x ->
  archive E f b m -> sizable f x -> blpk E ["a"%string; (base ++ ".blp")%string; q] s = Some (s', Ok tt) ->
  exists f' k, append_bytes E f x (obargs_of default_bargs) = (f', Ok k) /\ s' (base ++ ".blp")%string = Some f' /\
  forall i, F_n f - 1 <= i < F_n f' -> exists c ck,
    e_compress E (mkBA 8 7 true "blosclz") (sub (i * F_chunk f) (F_chunk f) (b ++ x)) = Ok c /\ piece f' i = c ++ digest E ck c.
Proof. exact plain_append. Qed.
Print Assumptions C73_plain_append.

(** Cases.  -z twice, level 9; the file is forced over an existing one. *)
Definition ex_line : list string := ["-v"; "-f"; "-n"; "4"; "c"; "-z"; "1K"; "data"; "old"; "--clevel"; "9"; "-z"; "0.01K"; "-o"]%string.
Definition ex_g : list arg := [Given Verbose "-v" ""; Given Force "-f" ""; Given Threads "-n" "4"].
Definition ex_q : list arg := [Given ChunkSize "-z" "1K"; File "data"; File "old"; Given Clevel "--clevel" "9"; Given ChunkSize "-z" "0.01K"; Given NoOffsets "-o" ""].
Example C73_case : exists lg lq, ex_line = lg ++ "c"%string :: lq /\ spelling main_set ex_g lg /\ spelling (sub_set SubCompress) ex_q lq /\
  stands_for SubCompress ex_g ex_q (CmdCompress (mkCO "data" (Some "old"%string) true 8 9 true "blosclz" (Some "0.01K"%string) "adler32" false None)) /\
  parse toy_env ex_line = Done (CmdCompress (mkCO "data" (Some "old"%string) true 8 9 true "blosclz" (Some "0.01K"%string) "adler32" false None)) /\
  placed SubCompress ex_q /\
  match blpk toy_env ex_line ex_fs with Some (s', Ok _) => match s' "old"%string with Some f => F_n f = 5 /\ has_offsets f = false | None => False end | _ => False end.
Proof.
  exists ["-v"; "-f"; "-n"; "4"]%string, ["-z"; "1K"; "data"; "old"; "--clevel"; "9"; "-z"; "0.01K"; "-o"]%string.
  assert (W : forall s, is_word s = true -> plain s) by (intros s; apply is_word_iff).
  assert (NV : forall d, takes d = false -> ~ In d valued) by (intros d; apply takes_not).
  split; [reflexivity|]. split; [|split].
  - apply (sp_cons _ _ ["-v"%string]); [cbn; split; [tauto|]; split; [tauto|]; right; split; [apply (NV Verbose); reflexivity|auto]|].
    apply (sp_cons _ _ ["-f"%string]); [cbn; split; [tauto|]; split; [tauto|]; right; split; [apply (NV Force); reflexivity|auto]|].
    apply (sp_cons _ _ ["-n"; "4"]%string); [cbn; split; [tauto|]; split; [tauto|]; left; split; [tauto|]; split; [apply W|]; reflexivity|]. constructor.
  - apply (sp_cons _ _ ["-z"; "1K"]%string); [cbn; split; [tauto|]; split; [tauto|]; left; split; [tauto|]; split; [apply W|]; reflexivity|].
    apply (sp_cons _ _ ["data"]%string); [split; [apply W|]; reflexivity|]. apply (sp_cons _ _ ["old"]%string); [split; [apply W|]; reflexivity|].
    apply (sp_cons _ _ ["--clevel"; "9"]%string); [cbn; split; [tauto|]; split; [tauto|]; left; split; [tauto|]; split; [apply W|]; reflexivity|].
    apply (sp_cons _ _ ["-z"; "0.01K"]%string); [cbn; split; [tauto|]; split; [tauto|]; left; split; [tauto|]; split; [apply W|]; reflexivity|].
    apply (sp_cons _ _ ["-o"%string]); [cbn; split; [tauto|]; split; [tauto|]; right; split; [apply (NV NoOffsets); reflexivity|auto]|]. constructor.
  - split; [|split; [vm_compute; reflexivity|split]].
    + cbn. split; [right; eauto|]. split; [reflexivity|]. split; [reflexivity|]. split; [apply int_of_text_iff; vm_compute; reflexivity|]. repeat split.
    + exists [Given ChunkSize "-z" "1K"], ["data"; "old"]%string, [Given Clevel "--clevel" "9"; Given ChunkSize "-z" "0.01K"; Given NoOffsets "-o" ""]. auto.
    + vm_compute. auto.
Qed.
(** Refusals: a level of 10, 257 threads, a negative chunk size (the first of two
    errors), '-v' with '-d', '-t' without a value, two files for 'info'. *)
Definition ended (l : list string) (s : fs) : option exn := match blpk toy_env l s with Some (_, Raise e) => Some e | _ => None end.
Example C73_case_refused :
  ended ["c"; "-l"; "10"; "data"]%string ex_fs = Some (SystemExit 2) /\ ended ["-n"; "257"; "c"; "data"]%string ex_fs = Some (SystemExit 1) /\
  ended ["c"; "-z"; "-1"; "-l"; "10"]%string ex_fs = Some (SystemExit 1) /\ ended ["-v"; "--debug"; "c"; "data"]%string ex_fs = Some (SystemExit 2) /\
  ended ["a"; "ex.blp"; "new"; "-t"]%string ex_fs = Some (SystemExit 2) /\ ended ["i"; "ex.blp"; "new"]%string ex_fs = Some (SystemExit 2) /\
  ended ["c"; "-z"; ""; "data"]%string ex_fs = Some IndexError /\ ended ["c"; "-h"]%string ex_fs = Some (SystemExit 0) /\
  ended ["x"]%string ex_fs = Some (SystemExit 2) /\ ended [] ex_fs = Some (SystemExit 2) /\
  refused toy_env (sub_set SubCompress) [] ["-z"; "-1"; "-l"; "10"]%string (SystemExit 1).
Proof.
  do 10 (split; [vm_compute; reflexivity|]). exists ChunkSize, "-z"%string, ["-1"; "-l"; "10"]%string. split; [cbn; tauto|]. split; [cbn; tauto|]. split; [reflexivity|]. left.
  split; [cbn; tauto|]. eexists _, _. split; [reflexivity|]. split; [apply is_word_iff; reflexivity|]. cbn [bad_value].
  destruct (size_outcome "-1") as [[(z & H) _]|(e & H & B & _)]; vm_compute in H; [discriminate|]. injection H as <-. exact B.
Qed.
(** Appending to a file of type size 4: 'blpk a' and append() make different chunks. *)
Definition ex_four : bytes :=
  match pack_bytes_to_bytes toy_env ex_data (CSInt 20) PNone (Some (mkBA 4 7 true "blosclz")) None None with Ok f => f | _ => [] end.
Definition ex_fs4 : fs := fun p => if String.eqb p "f.blp" then Some ex_four else if String.eqb p "new" then Some ex_new1 else None.
Example C73_case_append : F_typesize ex_four = 4 /\
  match blpk toy_env ["a"; "f.blp"; "new"]%string ex_fs4, append_file toy_env "f.blp" "new" no_obargs ex_fs4 with
  | Some (s1, Ok _), (s2, Ok _) =>
      match s1 "f.blp"%string, s2 "f.blp"%string with
      | Some f1, Some f2 => f1 <> f2 /\ F_typesize f1 = 4 /\ u8 3 (piece f1 3) = 8 /\ u8 3 (piece f2 3) = 4
      | _, _ => False
      end
  | _, _ => False
  end.
Proof. split; [vm_compute; reflexivity|]. vm_compute. repeat split; discriminate. Qed.
