(** C84: every command line. *)
From Verif Require Import Base PyVal Checksums Headers Pretty Args FileIO Append Files Cli Parser Argparse Spec Json Toy Archive Unprotected PrettyProofs OptionProofs
  ParserSpec ParserProofs ParserMain ArgSpec ArgProofs ArgOptions ArgLoop ArgMain ArgRefuse ArgSame PropsPack PropsAppend PropsFiles PropsParser.

(** However it is written - options abbreviated, bundled, with their value in the same
    argument or the next, files after '--' - a command line with all options in order
    and its files in place is carried out. *)
Theorem C84_accepted : forall E g lg c name q lq, run main_set g lg -> files g = [] -> In name (sub_names c) -> line (sub_set c) q lq ->
  in_order E g -> in_order E q -> file_count c (zlen (files q)) -> placed c q ->
  exists x, stands_for c g q x /\ forall s, command_line E (lg ++ name :: lq) s = main E x s.
Proof. exact line_accepted. Qed.
Print Assumptions C84_accepted.
(** No other command line has an effect or succeeds. *)
Theorem C84_carried_out : forall E l s s' r, command_line E l s = (s', r) -> s' <> s \/ r = Ok tt ->
  exists g lg c name q lq x, l = lg ++ name :: lq /\ run main_set g lg /\ files g = [] /\ In name (sub_names c) /\ line (sub_set c) q lq /\
    in_order E g /\ in_order E q /\ file_count c (zlen (files q)) /\ placed c q /\ stands_for c g q x /\ main E x s = (s', r).
Proof. exact line_carried_out. Qed.
Print Assumptions C84_carried_out.
(** The first fault decides how the program ends, and no file is touched. *)
Theorem C84_refused_main : forall E g lg bad e, run main_set g lg -> files g = [] -> in_order E g -> stops E main_set g bad e -> clear main_set bad ->
  forall s, command_line E (lg ++ bad) s = (s, Raise e).
Proof. exact line_refused_main. Qed.
Print Assumptions C84_refused_main.
Theorem C84_refused_sub : forall E g lg c name q lq bad e, run main_set g lg -> files g = [] -> In name (sub_names c) -> run (sub_set c) q lq ->
  in_order E g -> in_order E q -> stops E (sub_set c) q bad e -> clear main_set (lq ++ bad) -> clear (sub_set c) bad ->
  forall s, command_line E (lg ++ name :: lq ++ bad) s = (s, Raise e).
Proof. exact line_refused_sub. Qed.
Print Assumptions C84_refused_sub.
Theorem C84_wrong_files : forall E g lg c name q lq, run main_set g lg -> files g = [] -> In name (sub_names c) -> line (sub_set c) q lq ->
  in_order E g -> in_order E q -> ~ (file_count c (zlen (files q)) /\ placed c q) ->
  forall s, command_line E (lg ++ name :: lq) s = (s, Raise (SystemExit 2)).
Proof. exact line_wrong_files. Qed.
Print Assumptions C84_wrong_files.
Theorem C84_no_subcommand : forall E g lg, run main_set g lg -> files g = [] -> in_order E g -> forall s, command_line E lg s = (s, Raise (SystemExit 2)).
Proof. exact line_no_subcommand. Qed.
Print Assumptions C84_no_subcommand.
Theorem C84_unknown_subcommand : forall E g lg name l, run main_set g lg -> files g = [] -> in_order E g -> name = "--"%string \/ word main_set name ->
  (forall c, ~ In name (sub_names c)) -> forall s, command_line E (lg ++ name :: l) s = (s, Raise (SystemExit 2)).
Proof. exact line_unknown_subcommand. Qed.
Print Assumptions C84_unknown_subcommand.
(** An abbreviation of two options is an error, in front of everything else; one that
    is ambiguous for the program is an error even among the arguments of a subcommand,
    where it abbreviates nothing or only one. *)
Theorem C84_ambiguous : forall E l1 x l2, ~ In "--"%string l1 -> x <> "--"%string -> ambiguous main_set x ->
  forall s, command_line E (l1 ++ x :: l2) s = (s, Raise (SystemExit 2)).
Proof. exact line_ambiguous. Qed.
Print Assumptions C84_ambiguous.
Theorem C84_vague : forall x, vague x <-> ambiguous main_set x.
Proof. exact vague_ambiguous. Qed.
Print Assumptions C84_vague.
Theorem C84_ambiguous_sub : forall E g lg c name l1 x l2, run main_set g lg -> files g = [] -> in_order E g -> In name (sub_names c) -> ~ In "--"%string l1 ->
  x <> "--"%string -> ambiguous (sub_set c) x -> forall s, command_line E (lg ++ name :: l1 ++ x :: l2) s = (s, Raise (SystemExit 2)).
Proof. exact line_ambiguous_sub. Qed.
Print Assumptions C84_ambiguous_sub.
(** Whatever is written, what is not carried out ends in one of these ways, the last
    two being accidents (a chunk size of '' or 'infM'). *)
Theorem C84_endings : forall E l s,
  (exists g lg c name q lq x, l = lg ++ name :: lq /\ run main_set g lg /\ files g = [] /\ In name (sub_names c) /\ line (sub_set c) q lq /\
    in_order E g /\ in_order E q /\ file_count c (zlen (files q)) /\ placed c q /\ stands_for c g q x /\ command_line E l s = main E x s) \/
  exists e, command_line E l s = (s, Raise e) /\ In e [SystemExit 0; SystemExit 1; SystemExit 2; IndexError; OverflowError].
Proof. exact line_outcomes. Qed.
Print Assumptions C84_endings.
(** Where options are spelled in full this is what C73 says. *)
Theorem C84_same : forall E l s r, blpk E l s = Some r -> command_line E l s = r.
Proof. exact same. Qed.
Print Assumptions C84_same.
Theorem C84_refused_only : forall E l e, parse E l = Fail e -> Forall known_arg l /\
  exists g lg, spelling main_set g lg /\ files g = [] /\
    ((exists bad, l = lg ++ bad /\ in_order E g /\ refused E main_set g bad e) \/
     (in_order E g /\ e = SystemExit 2 /\ exists name r, l = lg ++ name :: r /\ plain name /\ forall c, ~ In name (sub_names c)) \/
     exists c name q lq, in_order E g /\ In name (sub_names c) /\ spelling (sub_set c) q lq /\ in_order E q /\
       ((exists bad, l = lg ++ name :: lq ++ bad /\ refused E (sub_set c) q bad e) \/
        (l = lg ++ name :: lq /\ e = SystemExit 2 /\ ~ file_count c (zlen (files q))))).
Proof. exact refused_only. Qed.
Print Assumptions C84_refused_only.
(** What one command line compresses, another decompresses to what it was. *)
Theorem C84_compress_and_back : forall E, EnvOK E -> forall g lg name q lq g' lg' name' q' lq' f a out b s s1,
  run main_set g lg -> files g = [] -> In name (sub_names SubCompress) -> line (sub_set SubCompress) q lq -> in_order E g -> in_order E q -> placed SubCompress q ->
  files q = [f] /\ a = (f ++ ".blp")%string \/ files q = [f; a] /\ a <> ""%string /\ a <> f ->
  s f = Some b -> command_line E (lg ++ name :: lq) s = (s1, Ok tt) ->
  run main_set g' lg' -> files g' = [] -> In name' (sub_names SubDecompress) -> line (sub_set SubDecompress) q' lq' -> in_order E g' -> in_order E q' -> placed SubDecompress q' ->
  files q' = [a; out] -> out <> ""%string -> out <> a -> is_given NoCheck q' = true \/ (exists r, a = (r ++ ".blp")%string) -> is_given Force g' = true \/ s1 out = None ->
  exists s2, command_line E (lg' ++ name' :: lq') s1 = (s2, Ok tt) /\ s2 out = Some b /\ forall p, p <> a -> p <> out -> s2 p = s p.
Proof. exact line_and_back. Qed.
Print Assumptions C84_compress_and_back.

(** Cases.  '-vfn4 c -oz=1K data old --cle=9 -z0.01K' stands for what C73_case has;
    'c --no-o -z 1K -4 -- -x' compresses the file '-4' to '-x'. *)
Definition ex_bundled : list string := ["-vfn4"; "c"; "-oz=1K"; "data"; "old"; "--cle=9"; "-z0.01K"]%string.
Definition ex_bundled_q : list arg :=
  [Given NoOffsets "-o" ""; Given ChunkSize "-z" "1K"; File "data"; File "old"; Given Clevel "--cle" "9"; Given ChunkSize "-z" "0.01K"].
Definition ex_dashes : list string := ["c"; "--no-o"; "-z"; "1K"; "-4"; "--"; "-x"]%string.
Definition ex_dashes_q : list arg := [Given NoOffsets "--no-o" ""; Given ChunkSize "-z" "1K"; File "-4"; File "-x"].
Ltac is_short := split; [cbn; tauto|cbn; tauto].
Lemma ex_long set p d : In d set -> (exists c r, p = String "-" (String "-" (String c r))) -> (exists n, In n (names d) /\ prefix p n) ->
  forallb (fun d' => forallb (fun n => negb (starts_with p n) || (if dest_eq d' d then true else false)) (names d')) set = true -> long set p d.
Proof.
  intros D P N F. split; [exact D|]. split; [exact P|]. split; [exact N|]. intros d' n D' N' [r ->]. rewrite forallb_forall in F. specialize (F d' D'). rewrite forallb_forall in F. specialize (F _ N').
  replace (starts_with p (p ++ r)) with true in F by (symmetry; apply starts_iff; exists r; reflexivity). cbn [negb orb] in F. destruct (dest_eq d' d); [assumption|discriminate].
Qed.
Example C84_case : exists lg lq lq2, ex_bundled = lg ++ "c"%string :: lq /\ run main_set ex_g lg /\ line (sub_set SubCompress) ex_bundled_q lq /\
  parse_args toy_env ex_bundled = Ok (CmdCompress (mkCO "data" (Some "old"%string) true 8 9 true "blosclz" (Some "0.01K"%string) "adler32" false None)) /\
  parse toy_env ex_bundled = Outside /\
  ex_dashes = "c"%string :: lq2 /\ line (sub_set SubCompress) ex_dashes_q lq2 /\
  parse_args toy_env ex_dashes = Ok (CmdCompress (mkCO "-4" (Some "-x"%string) false 8 7 true "blosclz" (Some "1K"%string) "adler32" false None)).
Proof.
  exists ["-vfn4"]%string, ["-oz=1K"; "data"; "old"; "--cle=9"; "-z0.01K"]%string, ["--no-o"; "-z"; "1K"; "-4"; "--"; "-x"]%string.
  assert (NV : forall d, takes d = false -> ~ In d valued) by (intros d; apply takes_not).
  assert (W : forall set s, is_word s = true -> word set s) by (intros set s H; apply plain_word, is_word_iff, H).
  split; [reflexivity|]. split; [|split; [|split; [vm_compute; reflexivity|split; [vm_compute; reflexivity|split; [reflexivity|split; [|vm_compute; reflexivity]]]]]].
  - apply (r_cons main_set ex_g ["-vfn4"%string] [] []); [|constructor]. apply (w_short main_set ex_g "vfn4").
    apply (b_more main_set Verbose "v"); [cbn; tauto|cbn; tauto|apply (NV Verbose); reflexivity|]. apply (b_more main_set Force "f"); [cbn; tauto|cbn; tauto|apply (NV Force); reflexivity|].
    apply (b_value main_set Threads "n" "4" ""); [cbn; tauto|cbn; tauto|cbn; tauto|discriminate].
  - apply (l_cons _ [Given NoOffsets "-o" ""; Given ChunkSize "-z" "1K"] ["-oz=1K"%string]).
    { apply (w_short _ _ "oz=1K"), (b_more _ NoOffsets "o"); [cbn; tauto|cbn; tauto|apply (NV NoOffsets); reflexivity|]. apply (b_equals _ ChunkSize "z" "1K"); cbn; tauto. }
    apply (l_cons _ [File "data"] ["data"%string]); [apply w_file, W; reflexivity|]. apply (l_cons _ [File "old"] ["old"%string]); [apply w_file, W; reflexivity|].
    apply (l_cons _ [Given Clevel "--cle" "9"] ["--cle=9"%string]).
    { apply (w_equals _ "--cle" Clevel "9"); [|cbn; tauto]. apply ex_long; [cbn; tauto|do 2 eexists; reflexivity|exists "--clevel"%string; split; [cbn; tauto|exists "vel"%string; reflexivity]|vm_compute; reflexivity]. }
    apply (l_cons _ [Given ChunkSize "-z" "0.01K"] ["-z0.01K"%string] [] []); [|constructor]. apply (w_short _ _ "z0.01K"), (b_value _ ChunkSize "z" "0" ".01K"); [cbn; tauto|cbn; tauto|cbn; tauto|discriminate].
  - apply (l_cons _ [Given NoOffsets "--no-o" ""] ["--no-o"%string]).
    { apply w_flag; [|apply (NV NoOffsets); reflexivity]. apply ex_long; [cbn; tauto|do 2 eexists; reflexivity|exists "--no-offsets"%string; split; [cbn; tauto|exists "ffsets"%string; reflexivity]|vm_compute; reflexivity]. }
    apply (l_cons _ [Given ChunkSize "-z" "1K"] ["-z"; "1K"]%string). { apply (w_short_next _ [] "z" ChunkSize "-z"); [apply b_next; cbn; tauto|apply W; reflexivity]. }
    apply (l_end _ ["-4"%string] ["-x"%string]); [|discriminate]. constructor; [apply W; reflexivity|constructor].
Qed.
(** It is carried out, and another command line gives the file back. *)
Example C84_case_back :
  match command_line toy_env ex_bundled ex_fs with
  | (s1, Ok _) => match command_line toy_env ["--force"; "d"; "-e"; "old"; "--"; "back"]%string s1 with (s2, Ok _) => s2 "back"%string = ex_fs "data"%string /\ ex_fs "data"%string <> None | _ => False end
  | _ => False
  end.
Proof. vm_compute. split; [reflexivity|discriminate]. Qed.
(** Refusals: '-z' without a value, also at the end of a bundle; a value for an option
    that takes none; an ambiguous abbreviation, also where only '--ver...' of the
    program is meant; an option of another subcommand; '--' for a subcommand; an option
    between the files; help within a bundle; a chunk size of 'infM'. *)
Definition ended_line (l : list string) (s : fs) : option exn := match command_line toy_env l s with (_, Raise e) => Some e | _ => None end.
Example C84_case_refused :
  ended_line ["c"; "data"; "-oz"]%string ex_fs = Some (SystemExit 2) /\ ended_line ["c"; "data"; "-o=1"]%string ex_fs = Some (SystemExit 2) /\
  ended_line ["c"; "data"; "--no-offsets=1"]%string ex_fs = Some (SystemExit 2) /\ ended_line ["c"; "data"; "--c=1"]%string ex_fs = Some (SystemExit 2) /\
  ended_line ["c"; "data"; "--ver"]%string ex_fs = Some (SystemExit 2) /\ ended_line ["d"; "ex.blp"; "-l9"]%string ex_fs = Some (SystemExit 2) /\
  ended_line ["--"; "c"; "data"]%string ex_fs = Some (SystemExit 2) /\ ended_line ["c"; "data"; "-o"; "old"]%string ex_fs = Some (SystemExit 2) /\
  ended_line ["c"; "-oh"; "data"]%string ex_fs = Some (SystemExit 0) /\ ended_line ["c"; "-zinfM"; "data"]%string ex_fs = Some OverflowError /\
  ended_line ["-n0"; "c"]%string ex_fs = Some (SystemExit 1) /\ ended_line ["c"; "--chunk-size="; "data"]%string ex_fs = Some IndexError /\
  stops toy_env (sub_set SubCompress) [File "data"] ["-oz"]%string (SystemExit 2) /\ ambiguous (sub_set SubCompress) "--c=1" /\ ambiguous main_set "--ver".
Proof.
  do 12 (split; [vm_compute; reflexivity|]). split; [|split].
  - apply (st_lacking _ _ _ [Given NoOffsets "-o" ""] "oz" ChunkSize []); [|left; reflexivity]. apply (b_more _ NoOffsets "o"); [cbn; tauto|cbn; tauto|apply (proj1 (takes_not NoOffsets)); reflexivity|]. apply b_next; cbn; tauto.
  - exists "--c"%string, Clevel, "--clevel"%string, Cname, "--codec"%string. split; [split; [cbn; intuition discriminate|right; eexists; reflexivity]|]. split; [eexists; reflexivity|]. split; [cbn; tauto|]. split; [cbn; tauto|].
    split; [eexists; reflexivity|]. split; [cbn; tauto|]. split; [cbn; tauto|]. split; [eexists; reflexivity|discriminate].
  - apply C84_vague. exists "--ver"%string. split; [split; [cbn; intuition discriminate|left; reflexivity]|cbn; tauto].
Qed.
