(** C92: what each command does to any files. *)
From Verif Require Import Base PyVal Checksums Headers Pretty Args FileIO Append Files Cli Spec Archive CrcSpec FormatSpec EqSpec ReadSpec ReadProofs ReviseSpec WriteSpec CmdSpec CmdProofs Json Toy
  EqProofs PropsPack PropsAppend PropsExc PropsFiles PropsRead.

(** ** C92.  The [reference_...] functions of CmdSpec.v say, for all files there may
    be and all arguments of a command, what contents which file has afterwards
    and with what the command ends.  [dg] gives the digests, [eqv] decides
    equality of values as Python does ([alike], C85). *)
Theorem C92_compress : forall E dg, (forall code d, 0 <= code < 9 -> is_digest E code d (dg code d)) -> EnvOK E ->
  forall o s, let r := cli_compress E o s in let w := reference_compress E dg s o in
  snd r = snd w /\ forall p, fst r p = files_after s (fst w) p.
Proof. exact (fun E dg HD EK => compress_exact E dg HD pyeq pyeq_alike EK). Qed.
Print Assumptions C92_compress.
Theorem C92_decompress : forall E dg, (forall code d, 0 <= code < 9 -> is_digest E code d (dg code d)) ->
  forall o s, let r := cli_decompress E o s in let w := reference_decompress E dg s o in
  snd r = snd w /\ forall p, fst r p = files_after s (fst w) p.
Proof. exact decompress_exact. Qed.
Print Assumptions C92_decompress.
(** Only two different files can be named (the model does not cover a file appended to itself). *)
Theorem C92_append : forall E dg, (forall code d, 0 <= code < 9 -> is_digest E code d (dg code d)) ->
  forall eqv, (forall a b, eqv a b = true <-> alike a b) ->
  forall o s, ao_orig o <> ao_new o -> let r := cli_append E o s in let w := reference_append_cmd E dg eqv s o in
  snd r = snd w /\ forall p, fst r p = files_after s (fst w) p.
Proof. exact (fun E dg HD eqv HQ o s _ => append_cmd_exact E dg HD eqv HQ o s). Qed.
Print Assumptions C92_append.
(** Nothing changes; what is shown is as [info_of] says. *)
Theorem C92_info : forall E dg, (forall code d, 0 <= code < 9 -> is_digest E code d (dg code d)) ->
  forall p s, let r := cli_info E p s in fst r = s /\
  match reference_info E dg s p with
  | Raise e => snd r = Raise e
  | Ok (f, m, q, q') => exists i, snd r = Ok i /\ info_of f m q q' i
  end.
Proof. exact info_exact. Qed.
Print Assumptions C92_info.

(** The specifications themselves, run on the files of PropsFiles.v. *)
Definition ref_files (d : change) : option (string * Z) := option_map (fun x => (fst x, size (snd x))) d.
Definition ref_compress (i : string) (o : option string) (force : bool) (z : option string) (ck : string) (meta : option string) :=
  let w := reference_compress toy_env ref_dg ex_fs (mkCO i o force 8 7 true "blosclz" z ck true meta) in (ref_files (fst w), snd w).
Example C92_case_compress :
  ref_compress "data" None false (Some "20"%string) "crc32" (Some "meta"%string) = (Some ("data.blp"%string, 528), Ok tt) /\
  ref_compress "data" (Some "data"%string) true (Some "20"%string) "crc32" None = (Some ("data"%string, 356), Ok tt) /\
  map (fun x => snd (ref_compress (fst (fst x)) (snd (fst x)) false (snd x) "crc32" None))
    [("nothere", None, None); ("data", Some "old", None); ("data", None, Some "x"); ("data", None, Some "infK"); ("data", None, Some "0")]%string =
    map Raise [SystemExit 1; SystemExit 1; SystemExit 1; OverflowError; ValueError] /\
  ref_compress "data" None false None "md4" None = (None, Raise (SystemExit 2)) /\
  ref_compress "data" None false None "crc32" (Some "nothere"%string) = (None, Raise AttributeError) /\
  ref_compress "data" None false None "crc32" (Some "data"%string) = (None, Raise JSONError).
Proof. vm_compute. repeat split. Qed.
Definition ref_decompress (i : string) (o : option string) (force nocheck : bool) (s : fs) :=
  reference_decompress toy_env ref_dg s (mkDO i o force nocheck).
Example C92_case_decompress :
  ref_decompress "ex.blp" None false false ex_fs = (Some ("ex"%string, ex_data), Ok (norm ex_meta)) /\
  ref_decompress "ex.blp" (Some "ex.blp"%string) true false ex_fs = (Some ("ex.blp"%string, []), Raise ValueError) /\
  ref_decompress "ex.blp" None false false (fs_set ex_fs "ex.blp" (edit 700 [x00] ex_file)) = (Some ("ex"%string, firstn 40 ex_data), Raise AttributeError) /\
  ref_decompress ".blp" None false false (fs_set ex_fs ".blp" ex_file) = (None, Raise OSError) /\
  map (fun x => snd (ref_decompress (fst (fst x)) (snd (fst x)) false (snd x) ex_fs))
    [("data", None, false); ("data", None, true); ("ex.blp", Some "old", false); ("no.blp", None, false); ("data", Some "x", true)]%string =
    map Raise [SystemExit 1; SystemExit 1; SystemExit 1; SystemExit 1; ValueError].
Proof. vm_compute. repeat split. Qed.
Definition ref_append_cmd (i n : string) (meta : option string) :=
  reference_append_cmd toy_env ref_dg pyeq ex_fs (mkAO i n false 8 7 true "blosclz" meta).
Example C92_case_append :
  (let w := ref_append_cmd "ex.blp" "data" (Some "meta"%string) in
   snd w = Ok tt /\ match fst w with
                    | Some (p, f) => p = "ex.blp"%string /\ reference toy_env ref_dg f = (ex_data ++ ex_data, Ok (PDict [(u "k", PList [PInt 1])]))
                    | None => False
                    end) /\
  ref_append_cmd "ex.blp" "none" None = (Some ("ex.blp"%string, fst (reference_append toy_env ref_dg ex_file [] (mkOBA (Some 8) (Some 7) (Some true) (Some "blosclz"%string)))), Raise ZeroDivisionError) /\
  map (fun x => ref_append_cmd (fst x) (snd x) None) [("data", "new"); ("ex.blp", "nothere"); ("no.blp", "data")]%string =
    repeat (None, Raise (SystemExit 1)) 3.
Proof. vm_compute. repeat split. Qed.
Example C92_case_info :
  match reference_info toy_env ref_dg ex_fs "ex.blp" with Ok (_, m, q, q') => m = norm ex_meta /\ q = 558 /\ q' = 598 | Raise _ => False end /\
  map (fun f => match reference_info toy_env ref_dg (fs_set ex_fs "x" f) "x" with Ok _ => None | Raise e => Some e end)
    [[]; edit 4 [x02] ex_file; edit 6 [x09] ex_file; firstn 598 ex_file; firstn 602 ex_file; edit 600 [xff] ex_file; edit 64 [x00] ex_file] =
    map Some [SystemExit 1; FormatVersionMismatch; IndexError; IndexError; StructError; KeyError; ChecksumMismatch].
Proof. vm_compute. repeat split. Qed.
