(** C83: what 'blpk --verbose' prints. *)
From Verif Require Import Base PyVal Checksums Headers Pretty Args FileIO Append Files Cli Objects Log ObjectsSpec ReprSpec Report ReportSpec Spec Archive Json Toy Verbose VerbSpec
  VerbProofs VerbArchive RatioProofs ReportProofs ReportToy PropsPack PropsAppend PropsFiles PropsReport.

(** The functions with their messages do, at the verbosity NORMAL, exactly what C71 says
    of 'blpk' without the option. *)
Theorem C83_normal : forall E T n c s l, NoExit E -> 1 <= n -> l_level l = "NORMAL"%string ->
  v_main E T n c (s, l) = r_main E T c (s, l).
Proof. exact verbose_normal. Qed.
Print Assumptions C83_normal.
(** With --verbose the same is done to the files, and with the same result.  The lines
    printed are those of the messages the command has to tell, then what is printed
    without the option, then 'done' if nothing was raised. *)
Theorem C83_output : forall E T n c s l, NoExit E -> 1 <= n -> l_level l = "VERBOSE"%string -> exists l' ms told out,
  v_main E T n c (s, l) = ((fst (main E c s), l'), snd (main E c s)) /\
  command_told E n c s (fst (main E c s)) (snd (main E c s)) ms /\ all_lines ms told /\
  (forall l0, l_level l0 = "NORMAL"%string -> adds l0 (snd (fst (r_main E T c (s, l0)))) out) /\
  adds l l' (told ++ out ++ match snd (main E c s) with Ok _ => [t_ ": done"] | Raise _ => [] end).
Proof. exact verbose_output. Qed.
Print Assumptions C83_output.
(** The free space that 'append' reckons with is, for an archive, what its header says. *)
Theorem C83_free : forall E, EnvOK E -> forall f b m, archive E f b m -> has_offsets f = true ->
  free_in_last E f = Ok (F_chunk f, F_chunk f - F_last f).
Proof. exact free_archive. Qed.
Print Assumptions C83_free.
(** A ratio is printed with six decimals, from the quotient rounded to a binary64: it is
    off by half a millionth and one part in 2^53 at most. *)
Theorem C83_ratio : forall a b, 0 <= a -> 0 < b < 2 ^ 1000 -> exists w d n,
  ratio_text a b = w ++ t_ "." ++ d /\ w <> [] /\ List.length d = 6%nat /\ read_digits 0 (w ++ d) = Some n /\
  Z.abs (n * b - 10 ^ 6 * a) * 2 ^ 53 <= 2 ^ 52 * b + 10 ^ 6 * a.
Proof. exact ratio_reads. Qed.
Print Assumptions C83_ratio.
Theorem C83_ratio_sign : forall a b, 0 < a -> ratio_text (- a) b = t_ "-" ++ ratio_text a b.
Proof. exact ratio_sign. Qed.
Print Assumptions C83_ratio_sign.

Definition ex_verbose : logst := mkLog "VERBOSE" (t_ "blpk") [].
Definition ex_said (c : command) (s : fs) : list text := l_out (snd (fst (v_main toy_env toy_texts 4 c (s, ex_verbose)))).
Example C83_case_hyp : NoExit toy_env /\ EnvOK toy_env /\ has_offsets ex_file = true /\ archive toy_env ex_file ex_data (norm ex_meta).
Proof. exact (conj toy_no_exit (conj toy_env_ok (conj eq_refl ex_file_archive))). Qed.
Example C83_case_decompress : ex_said (CmdDecompress (mkDO "ex.blp" None false false)) ex_fs = map t_
  ["blpk: using 4 threads"; "blpk: getting ready for decompression";
   "blpk: input file is: 'ex.blp'"; "blpk: output file is: 'ex'";
   "blpk: input file size: 704.0B"; "blpk: read uncompressed metadata of size: '49'";
   "blpk: output file size: 47.0B"; "blpk: decompression ratio: 0.066761";
   "blpk: Metadata:"; "blpk: {""dtype"":""<f8"",""shape"":[3,-4],""note"":[null,true]}"; "blpk: done"]%string.
Proof. vm_compute. reflexivity. Qed.
Example C83_case_compress : ex_said (CmdCompress (mkCO "data" (Some "old"%string) true 8 7 true "blosclz" (Some "1M"%string) "adler32" true None)) ex_fs = map t_
  ["blpk: using 4 threads"; "blpk: getting ready for compression"; "blpk: overwriting existing file: 'old'";
   "blpk: input file is: 'data'"; "blpk: output file is: 'old'"; "blpk: input file size: 47.0B (47B)";
   "blpk: Input was smaller than the given 'chunk_size': 1.0M (1048576B) using: 47.0B (47B)";
   "blpk: nchunks: 1"; "blpk: chunk_size: 47.0B (47B)"; "blpk: last_chunk_size: 47.0B (47B)";
   "blpk: output file size: 186.0B (186B)"; "blpk: compression ratio: 0.252688"; "blpk: done"]%string.
Proof. vm_compute. reflexivity. Qed.
Example C83_case_append : ex_said (CmdAppend (mkAO "ex.blp" "data" false 8 7 true "blosclz" (Some "meta"%string))) ex_fs = map t_
  ["blpk: using 4 threads"; "blpk: getting ready for append"; "blpk: original file is: 'ex.blp'"; "blpk: new file is: 'data'";
   "blpk: orig file size before append: 704.0B (704B)"; "blpk: new file size: 47.0B (47B)";
   "blpk: read uncompressed metadata of size: '49'";
   "blpk: nchunks: 2"; "blpk: chunk_size: 20.0B (20B)"; "blpk: last_chunk_size: 14.0B (14B)";
   "blpk: orig file size after append: 791.0B (791B)"; "blpk: Approximate compression ratio of appended data: 1.851064";
   "blpk: read uncompressed metadata of size: '49'"; "blpk: done"]%string.
Proof. vm_compute. reflexivity. Qed.
Example C83_case_info : firstn 3 (ex_said (CmdInfo "ex.blp") ex_fs) = map t_
  ["blpk: using 4 threads"; "blpk: read uncompressed metadata of size: '49'"; "blpk: BloscpackHeader:"]%string.
Proof. vm_compute. reflexivity. Qed.
Example C83_case_missing : ex_said (CmdCompress (mkCO "nothere" None false 8 7 true "blosclz" None "adler32" true None)) ex_fs = map t_
  ["blpk: using 4 threads"; "blpk: getting ready for compression"; "blpk: error: input file 'nothere' does not exist!"]%string.
Proof. vm_compute. reflexivity. Qed.
(** Nothing is said of the chunks of an empty input: the message for it stands behind the
    return statement (args.py:182-183). *)
Example C83_case_empty : ex_said (CmdCompress (mkCO "none" (Some "o"%string) false 8 7 true "blosclz" (Some "16"%string) "adler32" true None)) ex_fs = map t_
  ["blpk: using 4 threads"; "blpk: getting ready for compression"; "blpk: input file is: 'none'"; "blpk: output file is: 'o'";
   "blpk: input file size: 0B (0B)"; "blpk: output file size: 140.0B (140B)"; "blpk: compression ratio: 0.000000"; "blpk: done"]%string.
Proof. vm_compute. reflexivity. Qed.
Example C83_case_ratio : map (fun ab => ratio_text (fst ab) (snd ab)) [(160000000, 3000000); (-5, 3); (0, 3); (1, 3); (2000001, 2000000)] = map t_
  ["53.333333"; "-1.666667"; "0.000000"; "0.333333"; "1.000001"]%string.
Proof. vm_compute. reflexivity. Qed.
(** The 'compression ratio' of 'compress' is the original size over the stored one; that of
    'append' is not: it is the stored size over the original one (append.py:222-223). *)
Theorem C83_append_ratio_refuted : exists E T n o s s' l f f' x, EnvOK E /\ NoExit E /\ s (ao_orig o) = Some f /\ s (ao_new o) = Some x /\
  main E (CmdAppend o) s = (s', Ok tt) /\ s' (ao_orig o) = Some f' /\ l_level l = "VERBOSE"%string /\
  ratio_text (size x) (size f' - size f) <> ratio_text (size f' - size f) (size x) /\
  In (l_prefix l ++ t_ ": Approximate compression ratio of appended data: " ++ ratio_text (size f' - size f) (size x))
     (l_out (snd (fst (v_main E T n (CmdAppend o) (s, l))))).
Proof.
  exists toy_env, toy_texts, 4, (mkAO "ex.blp" "data" false 8 7 true "blosclz" None), ex_fs.
  exists (fst (main toy_env (CmdAppend (mkAO "ex.blp" "data" false 8 7 true "blosclz" None)) ex_fs)), ex_verbose, ex_file.
  exists (match fst (main toy_env (CmdAppend (mkAO "ex.blp" "data" false 8 7 true "blosclz" None)) ex_fs) "ex.blp"%string with Some d => d | None => [] end), ex_data.
  split; [exact toy_env_ok|]. split; [exact toy_no_exit|]. split; [reflexivity|]. split; [reflexivity|].
  assert (X : snd (main toy_env (CmdAppend (mkAO "ex.blp" "data" false 8 7 true "blosclz" None)) ex_fs) = Ok tt) by (vm_compute; reflexivity).
  split. { rewrite <- X. destruct (main toy_env _ ex_fs). reflexivity. }
  split. { vm_compute. reflexivity. }
  split; [reflexivity|]. split; [vm_compute; discriminate|]. vm_compute. tauto.
Qed.
Print Assumptions C83_append_ratio_refuted.
