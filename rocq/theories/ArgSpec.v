(** Specification vocabulary: every way to write a command line of 'blpk'. *)
From Verif Require Import Base Checksums Pretty Args FileIO Append Files Cli Parser Spec PrettyProofs OptionProofs ParserSpec.

Definition chars (s : string) : list ascii := list_ascii_of_string s.
Definition prefix (p s : string) : Prop := exists r, s = (p ++ r)%string.
(** [p] is what [s] has before the first '='. *)
Definition before_equals (p s : string) : Prop :=
  ~ In "="%char (chars p) /\ (s = p \/ exists e, s = (p ++ String "=" e)%string).

(** '-c' *)
Definition short (d : dest) (c : ascii) : Prop := In (String "-" (String c "")) (names d).
(** '--name' or a beginning of it that fits no other option *)
Definition long (allowed : list dest) (p : string) (d : dest) : Prop :=
  In d allowed /\ (exists c r, p = String "-" (String "-" (String c r))) /\ (exists n, In n (names d) /\ prefix p n) /\
  forall d' n, In d' allowed -> In n (names d') -> prefix p n -> d' = d.

(** A negative number: '-5', '-.5', '-1.5', also with a newline at the end. *)
Definition newline : ascii := "010".
Definition negative (s : string) : Prop := exists a b nl, chars s = "-"%char :: a ++ b ++ nl /\ forallb digit a = true /\
  (nl = [] \/ nl = [newline]) /\ (b = [] /\ a <> [] \/ exists c, b = "."%char :: c /\ c <> [] /\ forallb digit c = true).
(** It begins as an option does. *)
Definition option_like (allowed : list dest) (s : string) : Prop :=
  (exists p d n, before_equals p s /\ prefix "--" p /\ In d allowed /\ In n (names d) /\ prefix p n) \/
  (exists c r d, s = String "-" (String c r) /\ In d allowed /\ short d c).
(** It could be '--version' as well as '--verbose'. *)
Definition vague (s : string) : Prop := exists p, before_equals p s /\ In p ["--"; "--v"; "--ve"; "--ver"]%string.
(** What is taken as a file or a value, not as an option. *)
Definition word (allowed : list dest) (s : string) : Prop :=
  (forall r, s <> String "-" r) \/ s = "-"%string \/ negative s \/
  In " "%char (chars s) /\ ~ option_like allowed s /\ ~ vague s.

(** Options in one argument, as '-of', '-oz1M', '-oz=1M' or '-oz' with the value to
    follow; the text is what comes after the '-'. *)
Inductive bundle (allowed : list dest) : list arg -> string -> option dest -> Prop :=
| b_flag d c : In d allowed -> short d c -> ~ In d valued -> bundle allowed [Given d (String "-" (String c "")) ""] (String c "") None
| b_more d c q s p : In d allowed -> short d c -> ~ In d valued -> bundle allowed q s p ->
    bundle allowed (Given d (String "-" (String c "")) "" :: q) (String c s) p
| b_value d c x v : In d allowed -> short d c -> In d valued -> x <> "="%char ->
    bundle allowed [Given d (String "-" (String c "")) (String x v)] (String c (String x v)) None
| b_equals d c v : In d allowed -> short d c -> In d valued ->
    bundle allowed [Given d (String "-" (String c "")) v] (String c (String "=" v)) None
| b_next d c : In d allowed -> short d c -> In d valued -> bundle allowed [] (String c "") (Some d).

(** Arguments, and the texts they are written with. *)
Inductive written (allowed : list dest) : list arg -> list string -> Prop :=
| w_file w : word allowed w -> written allowed [File w] [w]
| w_short q s : bundle allowed q s None -> written allowed q [String "-" s]
| w_short_next q s d n v : bundle allowed q s (Some d) -> word allowed v -> written allowed (q ++ [Given d n v]) [String "-" s; v]
| w_flag p d : long allowed p d -> ~ In d valued -> written allowed [Given d p ""] [p]
| w_value p d v : long allowed p d -> In d valued -> word allowed v -> written allowed [Given d p v] [p; v]
| w_equals p d v : long allowed p d -> In d valued -> written allowed [Given d p v] [(p ++ String "=" v)%string].
(** ... up to the end, or up to '--', after which everything is a file. *)
Inductive line (allowed : list dest) : list arg -> list string -> Prop :=
| l_nil : line allowed [] []
| l_cons a t q r : written allowed a t -> line allowed q r -> line allowed (a ++ q) (t ++ r)
| l_end w1 w2 : Forall (word allowed) w1 -> w1 ++ w2 <> [] -> line allowed (map File (w1 ++ w2)) (w1 ++ "--"%string :: w2).
(** The same without '--'. *)
Inductive run (allowed : list dest) : list arg -> list string -> Prop :=
| r_nil : run allowed [] []
| r_cons a t q r : written allowed a t -> run allowed q r -> run allowed (a ++ q) (t ++ r).

(** An abbreviation of two options. *)
Definition ambiguous (allowed : list dest) (s : string) : Prop := exists p d1 n1 d2 n2, before_equals p s /\ prefix "--" p /\
  In d1 allowed /\ In n1 (names d1) /\ prefix p n1 /\ In d2 allowed /\ In n2 (names d2) /\ prefix p n2 /\ d1 <> d2.
(** No such thing in front of '--'. *)
Definition clear (allowed : list dest) (l : list string) : Prop := exists l1 l2, l = l1 ++ l2 /\
  Forall (fun s => s <> "--"%string /\ ~ ambiguous allowed s) l1 /\ (l2 = [] \/ exists r, l2 = "--"%string :: r).
(** The first of the texts [l], after the arguments [prev], ends the program with [e]:
    an option with a bad value (or '-h', or '-v' with '-d'), without the value it needs,
    or with a value it does not take. *)
Definition no_value (allowed : list dest) (l : list string) : Prop := l = [] \/ exists v r, l = v :: r /\ ~ word allowed v.
Inductive stops (E : Env) (allowed : list dest) (prev : list arg) : list string -> exn -> Prop :=
| st_value a d n v b t r e : written allowed (a ++ Given d n v :: b) t -> in_order E (prev ++ a) ->
    bad_value E d v e \/ clash d (prev ++ a) /\ e = SystemExit 2 -> stops E allowed prev (t ++ r) e
| st_lacking q s d r : bundle allowed q s (Some d) -> no_value allowed r -> stops E allowed prev (String "-" s :: r) (SystemExit 2)
| st_lacking_long p d r : long allowed p d -> In d valued -> no_value allowed r -> stops E allowed prev (p :: r) (SystemExit 2)
| st_unwanted q s v r : bundle allowed q s None -> (forall d n x, In (Given d n x) q -> ~ In d valued) ->
    stops E allowed prev (String "-" (s ++ String "=" v) :: r) (SystemExit 2)
| st_unwanted_long p d v r : long allowed p d -> ~ In d valued -> stops E allowed prev ((p ++ String "=" v)%string :: r) (SystemExit 2).
