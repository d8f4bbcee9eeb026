(** C44: human readable sizes. *)
From Verif Require Import Base Pretty PrettyProofs.

(** An integer and a suffix is exactly integer * 1024**k. *)
Theorem C44_integer_exact : forall l c w, l <> [] -> forallb digit l = true -> decimal l < 2 ^ 53 -> In (c, w) units ->
  reverse_pretty (string_of_list_ascii (l ++ [c])) = Ok (decimal l * w) /\
  reverse_pretty (string_of_list_ascii ("+"%char :: l ++ [c])) = Ok (decimal l * w) /\
  reverse_pretty (string_of_list_ascii ("-"%char :: l ++ [c])) = Ok (- (decimal l * w)).
Proof. exact integer_suffix. Qed.
Print Assumptions C44_integer_exact.
Example C44_integer_exact_case :
  let l := list_ascii_of_string "9007199254740991" in
  (l <> [] /\ forallb digit l = true /\ decimal l = 2 ^ 53 - 1 /\ In ("M"%char, 1048576) units) /\
  reverse_pretty "9007199254740991M" = Ok ((2 ^ 53 - 1) * 1024 * 1024) /\ reverse_pretty "-3T" = Ok (-3298534883328).
Proof. vm_compute. repeat split; try discriminate. tauto. Qed.

(** From 2**53 on the integer itself no longer fits a double. *)
Theorem C44_integer_exact_limit_refuted :
  exists s, s = "9007199254740993B"%string /\ reverse_pretty s = Ok 9007199254740992.
Proof. eexists. split; [reflexivity|]. vm_compute. reflexivity. Qed.
Print Assumptions C44_integer_exact_limit_refuted.

(** A decimal fraction and a suffix (b = 10**digits after the point): within
    one byte of the exact product. *)
Theorem C44_decimal_near : forall ip fp c w, ip ++ fp <> [] -> forallb digit (ip ++ fp) = true -> zlen fp <= 300 ->
  In (c, w) units -> let v := decimal (ip ++ fp) in let b := 10 ^ zlen fp in v * w < b * 2 ^ 53 ->
  exists r, Z.abs (r * b - v * w) <= b /\ 0 <= r /\
    reverse_pretty (string_of_list_ascii (ip ++ "."%char :: fp ++ [c])) = Ok r /\
    reverse_pretty (string_of_list_ascii ("+"%char :: ip ++ "."%char :: fp ++ [c])) = Ok r /\
    reverse_pretty (string_of_list_ascii ("-"%char :: ip ++ "."%char :: fp ++ [c])) = Ok (- r).
Proof. exact decimal_suffix. Qed.
Print Assumptions C44_decimal_near.
Example C44_decimal_near_case :
  let ip := list_ascii_of_string "976" in let fp := list_ascii_of_string "563" in
  (ip ++ fp <> [] /\ forallb digit (ip ++ fp) = true /\ zlen fp = 3 /\ decimal (ip ++ fp) = 976563) /\
  reverse_pretty "976.563K" = Ok 1000000 /\ reverse_pretty "-.5K" = Ok (-512) /\
  976563 * 1024 = 1000000512.
Proof. vm_compute. repeat split; try discriminate. Qed.

(** pretty_size and back: off by at most half a hundredth of the unit, plus one byte. *)
Theorem C44_round_trip : forall n, 0 <= n < 2 ^ 53 -> exists r,
  reverse_pretty (pretty_size n) = Ok r /\ 200 * Z.abs (r - n) <= unit_of n + 200.
Proof. exact pretty_round_trip. Qed.
Print Assumptions C44_round_trip.
Example C44_round_trip_case : pretty_size 1000000 = "976.56K"%string /\ reverse_pretty (pretty_size 1000000) = Ok 999997 /\
  unit_of 1000000 = 1024 /\ unit_of (2 ^ 52) = 2 ^ 40 /\ unit_of 0 = 1 /\ unit_of 1023 = 1.
Proof. vm_compute. repeat split. Qed.

(** Whole numbers of units, so in particular every size below 1 KiB, come back exactly. *)
Theorem C44_round_trip_exact : forall n, 0 <= n < 2 ^ 53 -> n mod unit_of n = 0 -> reverse_pretty (pretty_size n) = Ok n.
Proof. exact pretty_round_trip_exact. Qed.
Print Assumptions C44_round_trip_exact.
Example C44_round_trip_exact_case : (37 * 2 ^ 30) mod unit_of (37 * 2 ^ 30) = 0 /\ 999 mod unit_of 999 = 0 /\
  pretty_size (37 * 2 ^ 30) = "37.0G"%string /\ pretty_size 999 = "999.0B"%string.
Proof. vm_compute. repeat split. Qed.

(** Any text that does not end in one of the five letters is refused. *)
Theorem C44_bad_suffix : forall s, (forall l c, list_ascii_of_string s = l ++ [c] -> ~ In c (map fst units)) ->
  reverse_pretty s = Raise (match s with EmptyString => IndexError | _ => ValueError end).
Proof. exact bad_suffix. Qed.
Print Assumptions C44_bad_suffix.
Example C44_bad_suffix_case : reverse_pretty "" = Raise IndexError /\ reverse_pretty "10" = Raise ValueError /\
  reverse_pretty "10k" = Raise ValueError /\ ~ In "k"%char (map fst units).
Proof. vm_compute. repeat split. intuition discriminate. Qed.

(** White space around the number does not matter. *)
Theorem C44_blanks : forall a l b c, forallb blank a = true -> forallb blank b = true ->
  reverse_pretty (string_of_list_ascii ((a ++ l ++ b) ++ [c])) = reverse_pretty (string_of_list_ascii (l ++ [c])).
Proof. exact pretty_blanks. Qed.
Print Assumptions C44_blanks.
(** Underscores between digits do not matter; anywhere else they are refused. *)
Theorem C44_underscores : forall l c,
  (between_digits l -> reverse_pretty (string_of_list_ascii (l ++ [c])) = reverse_pretty (string_of_list_ascii (filter not_underscore l ++ [c]))) /\
  (~ between_digits l -> reverse_pretty (string_of_list_ascii (l ++ [c])) = Raise ValueError).
Proof. exact pretty_underscores. Qed.
Print Assumptions C44_underscores.
(** An infinite size is an OverflowError, which is not a ValueError. *)
Theorem C44_infinite : forall sgn l c, In sgn [[]; ["+"%char]; ["-"%char]] -> In c (map fst units) ->
  (any_case "inf" l \/ any_case "infinity" l -> reverse_pretty (string_of_list_ascii ((sgn ++ l) ++ [c])) = Raise OverflowError) /\
  (any_case "nan" l -> reverse_pretty (string_of_list_ascii ((sgn ++ l) ++ [c])) = Raise ValueError).
Proof. exact pretty_special. Qed.
Print Assumptions C44_infinite.
Example C44_text_case : reverse_pretty " 1_0.5 K" = Ok 10752 /\ reverse_pretty "1__0K" = Raise ValueError /\ reverse_pretty "_1K" = Raise ValueError /\
  reverse_pretty "1_K" = Raise ValueError /\ reverse_pretty "-InFB" = Raise OverflowError /\ reverse_pretty "nanT" = Raise ValueError /\
  reverse_pretty "infiniteB" = Raise ValueError /\ any_case "inf" (list_ascii_of_string "iNF").
Proof.
  repeat (split; [vm_compute; reflexivity|]). unfold any_case. cbn [list_ascii_of_string].
  repeat (constructor; [first [left; reflexivity|right; reflexivity]|]). constructor.
Qed.
