(** C69: the -z option of the command line. *)
From Verif Require Import Base Checksums Headers Pretty Args FileIO Append Files Cli Spec PrettyProofs OptionProofs.

(** int() accepts exactly the integer literals. *)
Theorem C69_int : forall t z, int_of_text t = Ok z <-> int_literal (list_ascii_of_string t) z.
Proof. exact int_of_text_iff. Qed.
Print Assumptions C69_int.
(** A text that ends in a unit letter is a human readable size, any other text an
    integer.  What is neither, or negative, ends the program with 1; an infinite
    size is an OverflowError instead. *)
Theorem C69_chunk_size : forall t, t <> "max"%string -> t <> ""%string ->
  (forall z, ends_in_unit t -> reverse_pretty t = Ok z -> chunk_size_option t = if z <? 0 then Raise (SystemExit 1) else Ok z) /\
  (forall z, ~ ends_in_unit t -> int_literal (list_ascii_of_string t) z -> chunk_size_option t = if z <? 0 then Raise (SystemExit 1) else Ok z) /\
  (ends_in_unit t -> reverse_pretty t = Raise ValueError -> chunk_size_option t = Raise (SystemExit 1)) /\
  (ends_in_unit t -> reverse_pretty t = Raise OverflowError -> chunk_size_option t = Raise OverflowError) /\
  (~ ends_in_unit t -> (forall z, ~ int_literal (list_ascii_of_string t) z) -> chunk_size_option t = Raise (SystemExit 1)).
Proof. exact chunk_size_option_outcome. Qed.
Print Assumptions C69_chunk_size.
(** These are all the outcomes there are. *)
Theorem C69_outcomes : forall t, chunk_size_option "max" = Ok (2 ^ 31 - 17) /\ chunk_size_option "" = Raise IndexError /\
  match chunk_size_option t with
  | Ok z => 0 <= z
  | Raise e => e = SystemExit 1 \/ (e = IndexError /\ t = ""%string) \/ (e = OverflowError /\ reverse_pretty t = Raise OverflowError)
  end.
Proof. exact chunk_size_option_total. Qed.
Print Assumptions C69_outcomes.
(** With an option that is refused no file is touched. *)
Theorem C69_untouched : forall E o t e s, blosc_choices E (co_clevel o) (co_cname o) = Ok tt -> co_chunk o = Some t -> chunk_size_option t = Raise e ->
  main E (CmdCompress o) s = (s, Raise e).
Proof. exact refused_option. Qed.
Print Assumptions C69_untouched.
Example C69_case : chunk_size_option " +1_000 " = Ok 1000 /\ int_literal (list_ascii_of_string " +1_000 ") 1000 /\ ~ ends_in_unit " +1_000 " /\
  chunk_size_option "1.5M" = Ok 1572864 /\ chunk_size_option "-1" = Raise (SystemExit 1) /\ chunk_size_option "1k" = Raise (SystemExit 1) /\
  chunk_size_option "1M " = Raise (SystemExit 1) /\ chunk_size_option "infB" = Raise OverflowError /\ chunk_size_option "1e309T" = Raise OverflowError.
Proof.
  split; [vm_compute; reflexivity|]. split; [apply int_of_text_iff; vm_compute; reflexivity|]. split.
  - intros (l & c & L & I). apply (f_equal (@rev ascii)) in L. rewrite rev_app_distr in L. cbn [rev app] in L. injection L as <- _. vm_compute in I. intuition discriminate.
  - vm_compute. repeat split.
Qed.
