(** C71: what 'blpk' prints. *)
From Verif Require Import Base PyVal Checksums Headers Pretty Args FileIO Append Files Cli Objects Log ObjectsSpec ReprSpec Report ReportSpec Spec Json Toy
  ReportProofs ReportInj ReportToy PropsPack PropsAppend PropsFiles.

(** The program does to the files, and ends as, C39-C41, C54, C55 say of it; and it
    adds to the output: nothing for a successful 'compress' or 'append', the metadata
    for 'decompress', the report for 'info'; for each ending with status 1 the error
    message, whose reason holds; and nothing for any other exception, except for the
    first lines of the report of 'info' when the codec of the first chunk is unknown. *)
Theorem C71_output : forall E T, NoExit E -> forall c s l, l_level l = "NORMAL"%string -> exists l' out,
  r_main E T c (s, l) = ((fst (main E c s), l'), snd (main E c s)) /\ adds l l' out /\
  match snd (main E c s) with
  | Ok _ => match c with
            | CmdCompress _ | CmdAppend _ => out = []
            | CmdDecompress o => exists m, snd (cli_decompress E o s) = Ok m /\ decompress_report T m out
            | CmdInfo p => exists i, snd (cli_info E p s) = Ok i /\ info_report T i out
            | CmdNone => False
            end
  | Raise e =>
      (exists m, complaint E T s c m /\ e = SystemExit 1 /\ message_lines ": error: " m out) \/
      (e <> SystemExit 1 /\ (c = CmdNone -> e = SystemExit 2 /\ out = [t_ ": error: too few arguments"]) /\
       (c <> CmdNone -> out = [] \/ (exists p, c = CmdInfo p) /\ e = KeyError /\ exists h lo m omh b, info_head T h lo m omh b out))
  end.
Proof. exact report_outcome_normal. Qed.
Print Assumptions C71_output.
(** The program does not give up with status 1 in silence. *)
Theorem C71_status_one : forall E T c s l l' out, NoExit E -> TextsOK T -> l_level l = "NORMAL"%string ->
  snd (main E c s) = Raise (SystemExit 1) -> snd (fst (r_main E T c (s, l))) = l' -> adds l l' out ->
  out <> [] /\ Forall (fun x => exists y, y <> [] /\ x = t_ ": error: " ++ y) out.
Proof. exact status_one_normal. Qed.
Print Assumptions C71_status_one.
(** The report of 'info' can be read back: header, first offsets, metadata header,
    and the Blosc header and flags of the first chunk. *)
Theorem C71_info_determines : forall T i i' out, info_report T i out -> info_report T i' out ->
  i_header i = i_header i' /\ i_offsets i = i_offsets i' /\ i_mheader i = i_mheader i' /\ i_blosc i = i_blosc i' /\ i_flags i = i_flags i' /\
  forall pp pp', lines (t_pprint T (i_meta i)) pp -> lines (t_pprint T (i_meta i')) pp' -> filter has_text pp = filter has_text pp'.
Proof. exact info_report_inj. Qed.
Print Assumptions C71_info_determines.
Definition ex_log : logst := mkLog "NORMAL" (t_ "blpk") [].
Example C71_case_hyp : NoExit toy_env /\ TextsOK toy_texts /\ EnvOK toy_env.
Proof. exact (conj toy_no_exit (conj toy_texts_ok toy_env_ok)). Qed.
Example C71_case_info : l_out (snd (fst (r_main toy_env toy_texts (CmdInfo "ex.blp") (ex_fs, ex_log)))) = map t_
  ["blpk: BloscpackHeader:";
   "blpk:     format_version: 3";
   "blpk:     offsets: True"; "blpk:     metadata: True";
   "blpk:     checksum: 'adler32'";
   "blpk:     typesize: 8";
   "blpk:     chunk_size: 20.0B (20B)";
   "blpk:     last_chunk: 7.0B (7B)";
   "blpk:     nchunks: 3"; "blpk:     max_app_chunks: 2";
   "blpk: 'offsets':"; "blpk: [598,638,678,...]";
   "blpk: Metadata:";
   "blpk: {""dtype"":""<f8"",""shape"":[3,-4],""note"":[null,true]}";
   "blpk: MetadataHeader:";
   "blpk:     magic_format: b'JSON'";
   "blpk:     meta_options: '00000000'";
   "blpk:     meta_checksum: 'adler32'";
   "blpk:     meta_codec: 'None'";
   "blpk:     meta_level: 6";
   "blpk:     meta_size: 49.0B (49B)";
   "blpk:     max_meta_size: 490.0B (490B)";
   "blpk:     meta_comp_size: 49.0B (49B)";
   "blpk:     user_codec: b''";
   "blpk: First chunk blosc header:";
   "blpk: OrderedDict([('version', 2), ('versionlz', 1), ('flags', 1), ('typesize', 8), ('nbytes', 20), ('blocksize', 20), ('ctbytes', 36)])";
   "blpk: First chunk blosc flags: ";
   "blpk: OrderedDict([('byte_shuffle', True), ('pure_memcpy', False), ('bit_shuffle', False), ('split_blocks', False), ('codec', 'blosclz')])"]%string.
Proof. vm_compute. reflexivity. Qed.
Example C71_case_decompress : l_out (snd (fst (r_main toy_env toy_texts (CmdDecompress (mkDO "ex.blp" None false false)) (ex_fs, ex_log)))) = map t_
  ["blpk: Metadata:";
   "blpk: {""dtype"":""<f8"",""shape"":[3,-4],""note"":[null,true]}"]%string.
Proof. vm_compute. reflexivity. Qed.
Example C71_case_error : r_main toy_env toy_texts (CmdCompress (mkCO "data" (Some "old"%string) false 8 7 true "blosclz" None "adler32" true None)) (ex_fs, ex_log) =
  ((ex_fs, mkLog "NORMAL" (t_ "blpk") [t_ "blpk: error: output file 'old' exists!"]), Raise (SystemExit 1)).
Proof. vm_compute. reflexivity. Qed.
