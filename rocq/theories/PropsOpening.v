(** C97: what is said of the beginning of a file. *)
From Verif Require Import Base PyVal Checksums Headers Pretty Args FileIO Append Objects Log Chatter Opening Spec Archive FormatSpec ReadSpec ReviseSpec WriteSpec ChatSpec OpeningSpec ReadProofs OpeningProofs Json Toy
  PropsPack PropsRead PropsChat.

(** ** C97.  [told_opening] lists what is said of the header, the metadata and the table
    of offsets, from the places in the file, with the verbosity each message takes.
    For every byte string exactly the messages that the verbosity lets through are
    printed, a line each, up to where reading fails if it does; and the talking
    changes nothing of what is read or raised. *)
Theorem C97_opening : forall E dg, (forall code d, 0 <= code < 9 -> is_digest E code d (dg code d)) ->
  forall f lg, In (l_level lg) ["NORMAL"; "VERBOSE"; "DEBUG"]%string ->
  o_read_beginning E (fp_of f, lg) =
  ((fst (read_beginning E (fp_of f)), heard lg (told_opening E dg f)), snd (read_beginning E (fp_of f))).
Proof. exact opening_told. Qed.
Print Assumptions C97_opening.
(** With what C96 says of the chunks: everything that is printed while a byte string is unpacked. *)
Theorem C97_unpack : forall E dg, (forall code d, 0 <= code < 9 -> is_digest E code d (dg code d)) ->
  forall f lg, In (l_level lg) ["NORMAL"; "VERBOSE"; "DEBUG"]%string ->
  o_unpack E f lg =
  (fst (unpack_core E f), heard lg (told_opening E dg f ++ map (pair 2) (told_unpacking E dg f)), snd (unpack_core E f)).
Proof. exact unpack_told. Qed.
Print Assumptions C97_unpack.

(** The specification itself, run on a file with metadata and offsets. *)
Example C97_case : (forall code d, 0 <= code < 9 -> is_digest toy_env code d (ref_dg code d)) /\
  said (heard (ex_log "DEBUG") (told_opening toy_env ref_dg ex_file)) =
  [
   "blpk: reading bloscpack header";
   "blpk: bloscpack_header_raw: b'blpk\x03\x03\x01\x08\x14\x00\x00\x00\x07\x00\x00\x00\x03\x00\x00\x00\x00\x00\x00\x00\x02\x00\x00\x00\x00\x00\x00\x00'";
   "blpk: bloscpack header: BloscpackHeader(format_version=3, offsets=True, metadata=True, checksum='adler32', typesize=8, chunk_size=20, last_chunk=7, nchunks=3, max_app_chunks=2)";
   "blpk: raw metadata header: b'JSON\x00\x00\x00\x00\x00\x01\x00\x061\x00\x00\x00\xea\x01\x00\x001\x00\x00\x00\x00\x00\x00\x00\x00\x00\x00\x00'";
   "blpk: MetadataHeader:";
   "blpk:     magic_format: b'JSON'";
   "blpk:     meta_options: '00000000'";
   "blpk:     meta_checksum: 'adler32'";
   "blpk:     meta_codec: 'None'";
   "blpk:     meta_level: 6";
   "blpk:     meta_size: 49.0B (49B)";
   "blpk:     max_meta_size: 490.0B (490B)";
   "blpk:     meta_comp_size: 49.0B (49B)";
   "blpk:     user_codec: b''";
   "blpk: metadata checksum OK (adler32): b'\xad\x0fUu'";
   "blpk: read uncompressed metadata of size: '49'";
   "blpk: Read raw offsets: b'V\x02\x00\x00\x00\x00\x00\x00~\x02\x00\x00\x00\x00\x00\x00\xa6\x02\x00\x00\x00\x00\x00\x00\xff\xff\xff\xff\xff\xff\xff\xff\xff\xff\xff\xff\xff\xff\xff\xff'";
   "blpk: Offsets: [598, 638, 678]"]%string.
Proof. split; [apply the_digest_is|]. vm_compute. reflexivity. Qed.
Example C97_case_verbose : said (heard (ex_log "VERBOSE") (told_opening toy_env ref_dg ex_file)) = [
   "blpk: read uncompressed metadata of size: '49'"]%string /\
  said (heard (ex_log "NORMAL") (told_opening toy_env ref_dg ex_file)) = [].
Proof. vm_compute. split; reflexivity. Qed.
(** A version that is not 3 is still described; a file cut off within the metadata is not described beyond their header. *)
Example C97_case_version : said (heard (ex_log "DEBUG") (told_opening toy_env ref_dg (firstn 4 ex_file ++ [x07] ++ skipn 5 ex_file))) =
  [
   "blpk: reading bloscpack header";
   "blpk: bloscpack_header_raw: b'blpk\x07\x03\x01\x08\x14\x00\x00\x00\x07\x00\x00\x00\x03\x00\x00\x00\x00\x00\x00\x00\x02\x00\x00\x00\x00\x00\x00\x00'";
   "blpk: bloscpack header: BloscpackHeader(format_version=7, offsets=True, metadata=True, checksum='adler32', typesize=8, chunk_size=20, last_chunk=7, nchunks=3, max_app_chunks=2)"]%string.
Proof. vm_compute. reflexivity. Qed.
Example C97_case_cut : said (heard (ex_log "DEBUG") (told_opening toy_env ref_dg (firstn 70 ex_file))) =
  [
   "blpk: reading bloscpack header";
   "blpk: bloscpack_header_raw: b'blpk\x03\x03\x01\x08\x14\x00\x00\x00\x07\x00\x00\x00\x03\x00\x00\x00\x00\x00\x00\x00\x02\x00\x00\x00\x00\x00\x00\x00'";
   "blpk: bloscpack header: BloscpackHeader(format_version=3, offsets=True, metadata=True, checksum='adler32', typesize=8, chunk_size=20, last_chunk=7, nchunks=3, max_app_chunks=2)";
   "blpk: raw metadata header: b'JSON\x00\x00\x00\x00\x00\x01\x00\x061\x00\x00\x00\xea\x01\x00\x001\x00\x00\x00\x00\x00\x00\x00\x00\x00\x00\x00'";
   "blpk: MetadataHeader:";
   "blpk:     magic_format: b'JSON'";
   "blpk:     meta_options: '00000000'";
   "blpk:     meta_checksum: 'adler32'";
   "blpk:     meta_codec: 'None'";
   "blpk:     meta_level: 6";
   "blpk:     meta_size: 49.0B (49B)";
   "blpk:     max_meta_size: 490.0B (490B)";
   "blpk:     meta_comp_size: 49.0B (49B)";
   "blpk:     user_codec: b''"]%string.
Proof. vm_compute. reflexivity. Qed.
