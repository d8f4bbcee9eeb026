(** C98: everything said while a file is packed. *)
From Verif Require Import Base PyVal Checksums Headers Pretty Args FileIO Append Objects Log Chatter Opening Closing Spec Archive ObjectsSpec FormatSpec ReadSpec ReviseSpec WriteSpec ChatSpec OpeningSpec ClosingSpec
  IOProofs ReadProofs ClosingProofs Json Toy PropsPack PropsRead PropsChat.

(** ** C98.  [told_pack] lists what is said: the arguments, the header, the metadata
    section and its raw header, of each chunk what C96 says, and the table of offsets;
    all of it from the arguments and from the reference for the bytes of the file.
    For all data, arguments and metadata exactly these messages are printed, a line
    each, up to where packing fails if it does, at the verbosity DEBUG and at no
    other; and the talking changes nothing of what is written, returned or raised. *)
Theorem C98_pack : forall E dg, (forall code d, 0 <= code < 9 -> is_digest E code d (dg code d)) -> EnvOK E ->
  forall nm_app nm_meta, lacks nl nm_app -> lacks nl nm_meta ->
  forall b n c l m oba obp oma lg, 1 <= n < 2 ^ 63 -> 0 <= l <= c -> c <= BUFMAX -> In (l_level lg) ["NORMAL"; "VERBOSE"; "DEBUG"]%string ->
  w_pack E nm_app nm_meta n c l m oba obp oma ((fp_of b, cfs_of (fp_of [])), lg) =
  let r := pack (fp_source E) (fp_sink E) n c l m oba obp oma (fp_of b, cfs_of (fp_of [])) in
  ((fst r, heard lg (map (pair 2) (told_pack E dg nm_app nm_meta n c l (pieces n c l b) m oba obp oma))), snd r).
Proof. exact pack_told. Qed.
Print Assumptions C98_pack.
(** Of the metadata section alone, wherever it is written. *)
Theorem C98_section : forall E dg, (forall code d, 0 <= code < 9 -> is_digest E code d (dg code d)) -> EnvOK E ->
  forall m a f lg, In (l_level lg) ["NORMAL"; "VERBOSE"; "DEBUG"]%string ->
  w_metadata E m a (f, lg) =
  ((fst (write_metadata E m a f), heard lg (map (pair 2) (section_said E dg m a))), snd (write_metadata E m a f)).
Proof. exact section_told. Qed.
Print Assumptions C98_section.

(** The specification itself, run on data in two chunks with metadata. *)
Definition ex_names (s : string) : text := t_ "<function " ++ t_ s ++ t_ ">".
Definition ex_says (lv : string) (m : pyval) (obp : option bpargs) (oma : option margs) : list string :=
  said (heard (ex_log lv) (map (pair 2) (told_pack toy_env ref_dg (ex_names "app") (ex_names "meta") 2 20 7 (pieces 2 20 7 (firstn 27 ex_data)) m None obp oma))).
Example C98_case : (forall code d, 0 <= code < 9 -> is_digest toy_env code d (ref_dg code d)) /\ EnvOK toy_env /\ lacks nl (ex_names "app") /\ lacks nl (ex_names "meta") /\
  ex_says "DEBUG" (PDict [([97], PInt 1)]) None None =
  [
   "blpk: BloscArgs:";
   "blpk:     typesize: 8";
   "blpk:     clevel: 7";
   "blpk:     shuffle: True";
   "blpk:     cname: 'blosclz'";
   "blpk: BloscpackArgs:";
   "blpk:     offsets: True";
   "blpk:     checksum: 'adler32'";
   "blpk:     max_app_chunks: <function app>";
   "blpk: MetadataArgs:";
   "blpk:     magic_format: b'JSON'";
   "blpk:     meta_checksum: 'adler32'";
   "blpk:     meta_codec: 'zlib'";
   "blpk:     meta_level: 6";
   "blpk:     max_meta_size: <function meta>";
   "blpk: max_app_chunks is a callable";
   "blpk: max_app_chunks was set to: 20";
   "blpk: BloscpackHeader:";
   "blpk:     format_version: 3";
   "blpk:     offsets: True";
   "blpk:     metadata: True";
   "blpk:     checksum: 'adler32'";
   "blpk:     typesize: 8";
   "blpk:     chunk_size: 20.0B (20B)";
   "blpk:     last_chunk: 7.0B (7B)";
   "blpk:     nchunks: 2";
   "blpk:     max_app_chunks: 20";
   "blpk: raw_bloscpack_header: b'blpk\x03\x03\x01\x08\x14\x00\x00\x00\x07\x00\x00\x00\x02\x00\x00\x00\x00\x00\x00\x00\x14\x00\x00\x00\x00\x00\x00\x00'";
   "blpk: metadata compression requested, but it was not beneficial, deactivating (raw: '7' vs. compressed: '8') ";
   "blpk: Raw uncompressed metadata of size '7': b'{""a"":1}'";
   "blpk: max meta size is deemed to be: 70";
   "blpk: raw_metadata_header: b'JSON\x00\x00\x00\x00\x00\x01\x00\x06\x07\x00\x00\x00F\x00\x00\x00\x07\x00\x00\x00\x00\x00\x00\x00\x00\x00\x00\x00'";
   "blpk: metadata has 63 preallocated empty bytes";
   "blpk: metadata checksum (adler32): b'\t\x02*\x08'";
   "blpk: metadata section occupies a total of 106.0B (106B)";
   "blpk: Handle chunk '0'";
   "blpk: checksum (adler32): b'\x8c\x07\x17V'";
   "blpk: chunk handled, in: 20.0B (20B) out: 36.0B (36B)";
   "blpk: Handle chunk '1' (last)";
   "blpk: checksum (adler32): b'\xf0\x02\x88\x0e'";
   "blpk: chunk handled, in: 7.0B (7B) out: 23.0B (23B)";
   "blpk: Writing '2' offsets: '[314, 354]'";
   "blpk: Raw offsets: b':\x01\x00\x00\x00\x00\x00\x00b\x01\x00\x00\x00\x00\x00\x00'"]%string.
Proof.
  split; [apply the_digest_is|]. split; [exact toy_env_ok|]. split; [cbv; intuition discriminate|]. split; [cbv; intuition discriminate|]. vm_compute. reflexivity.
Qed.
(** Arguments for metadata without any; metadata that do not fit, of a header without offsets. *)
Example C98_case_ignored : ex_says "DEBUG" PNone (Some (mkBPA true "crc32" (MAInt 4))) (Some (mkMA (b_of_string "JSON") "adler32" "zlib" 6 (MMInt 3))) =
  [
   "blpk: BloscArgs:";
   "blpk:     typesize: 8";
   "blpk:     clevel: 7";
   "blpk:     shuffle: True";
   "blpk:     cname: 'blosclz'";
   "blpk: BloscpackArgs:";
   "blpk:     offsets: True";
   "blpk:     checksum: 'crc32'";
   "blpk:     max_app_chunks: 4";
   "blpk: metadata_args will be silently ignored";
   "blpk: max_app_chunks is an int";
   "blpk: max_app_chunks was set to: 4";
   "blpk: BloscpackHeader:";
   "blpk:     format_version: 3";
   "blpk:     offsets: True";
   "blpk:     metadata: False";
   "blpk:     checksum: 'crc32'";
   "blpk:     typesize: 8";
   "blpk:     chunk_size: 20.0B (20B)";
   "blpk:     last_chunk: 7.0B (7B)";
   "blpk:     nchunks: 2";
   "blpk:     max_app_chunks: 4";
   "blpk: raw_bloscpack_header: b'blpk\x03\x01\x02\x08\x14\x00\x00\x00\x07\x00\x00\x00\x02\x00\x00\x00\x00\x00\x00\x00\x04\x00\x00\x00\x00\x00\x00\x00'";
   "blpk: Handle chunk '0'";
   "blpk: checksum (crc32): b'\xb4\x051}'";
   "blpk: chunk handled, in: 20.0B (20B) out: 36.0B (36B)";
   "blpk: Handle chunk '1' (last)";
   "blpk: checksum (crc32): b'\x83\x81g\xbc'";
   "blpk: chunk handled, in: 7.0B (7B) out: 23.0B (23B)";
   "blpk: Writing '2' offsets: '[80, 120]'";
   "blpk: Raw offsets: b'P\x00\x00\x00\x00\x00\x00\x00x\x00\x00\x00\x00\x00\x00\x00'"]%string.
Proof. vm_compute. reflexivity. Qed.
Example C98_case_small : ex_says "DEBUG" (PDict []) (Some (mkBPA false "None" MAOther)) (Some (mkMA (b_of_string "JSON") "None" "None" 6 (MMInt 1))) =
  [
   "blpk: BloscArgs:";
   "blpk:     typesize: 8";
   "blpk:     clevel: 7";
   "blpk:     shuffle: True";
   "blpk:     cname: 'blosclz'";
   "blpk: BloscpackArgs:";
   "blpk:     offsets: False";
   "blpk:     checksum: 'None'";
   "blpk:     max_app_chunks: <function app>";
   "blpk: MetadataArgs:";
   "blpk:     magic_format: b'JSON'";
   "blpk:     meta_checksum: 'None'";
   "blpk:     meta_codec: 'None'";
   "blpk:     meta_level: 6";
   "blpk:     max_meta_size: 1";
   "blpk: max_app_chunks will be silently ignored";
   "blpk: max_app_chunks was set to: 0";
   "blpk: BloscpackHeader:";
   "blpk:     format_version: 3";
   "blpk:     offsets: False";
   "blpk:     metadata: True";
   "blpk:     checksum: 'None'";
   "blpk:     typesize: 8";
   "blpk:     chunk_size: 20.0B (20B)";
   "blpk:     last_chunk: 7.0B (7B)";
   "blpk:     nchunks: 2";
   "blpk:     max_app_chunks: 0";
   "blpk: raw_bloscpack_header: b'blpk\x03\x02\x00\x08\x14\x00\x00\x00\x07\x00\x00\x00\x02\x00\x00\x00\x00\x00\x00\x00\x00\x00\x00\x00\x00\x00\x00\x00'";
   "blpk: Raw uncompressed metadata of size '2': b'{}'";
   "blpk: max meta size is deemed to be: 1"]%string.
Proof. vm_compute. reflexivity. Qed.
Example C98_case_quiet : ex_says "VERBOSE" (PDict [([97], PInt 1)]) None None = [] /\ ex_says "NORMAL" (PDict [([97], PInt 1)]) None None = [].
Proof. vm_compute. split; reflexivity. Qed.
(** Room for more chunks than there can be; None where there is no table. *)
Example C98_case_room : map string_of_list_ascii (room_said (ex_names "app") true (MACall (fun n => Ok (Some (2 ^ 63 * n)))) 2) =
  ["max_app_chunks is a callable"; "max_app_chunks was too large, setting to max value: 9223372036854775805"; "max_app_chunks was set to: 9223372036854775805"]%string /\
  map string_of_list_ascii (room_said (t_ "None") false MAOther 2) = ["max_app_chunks was set to: 0"]%string /\
  map string_of_list_ascii (room_said (ex_names "app") true (MAInt (-1)) 2) = ["max_app_chunks is an int"]%string.
Proof. vm_compute. repeat split. Qed.
