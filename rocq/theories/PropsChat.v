(** C96: what is said of each chunk at the verbosity DEBUG. *)
From Verif Require Import Base PyVal Checksums Headers Pretty Args FileIO Append NumpyIO Objects Log Chatter Spec NumpySpec Archive FormatSpec ReadSpec ReviseSpec WriteSpec ArraySpec ChatSpec ReadProofs ChatProofs Json Toy ToyNumpy
  PropsPack PropsRead PropsNumpy PropsArray.

(** ** C96.  [told_packing] and [told_unpacking] list what is said of the chunks, from
    the pieces of the data and from the places in the file.  At the verbosity DEBUG
    exactly that is printed, a line each, up to the chunk that fails if one does; at
    the others nothing is; and the talking changes neither what is written nor what
    is returned or raised. *)
Theorem C96_pack : forall E dg, (forall code d, 0 <= code < 9 -> is_digest E code d (dg code d)) -> EnvOK E ->
  forall b cs m oba obp oma lg, In (l_level lg) ["NORMAL"; "VERBOSE"; "DEBUG"]%string ->
  d_pack_bytes E b cs m oba obp oma lg =
  let r := pack_bytes_core E b cs m oba obp oma in
  (fdata (s_fp (fst r)),
   spoken lg (match chunking (size b) cs with
              | Ok (n, c, l) => told_packing E dg size n c l (Ok (pieces n c l b)) m oba obp oma
              | Raise _ => []
              end), snd r).
Proof. exact pack_bytes_told. Qed.
Print Assumptions C96_pack.
Theorem C96_unpack : forall E dg, (forall code d, 0 <= code < 9 -> is_digest E code d (dg code d)) ->
  forall f lg, d_unpack E f lg = (fst (unpack_core E f), spoken lg (told_unpacking E dg f), snd (unpack_core E f)).
Proof. exact unpack_says. Qed.
Print Assumptions C96_unpack.
(** Packing an array says the same, but that every chunk is said to have been of 2 bytes. *)
Theorem C96_array : forall E dg, (forall code d, 0 <= code < 9 -> is_digest E code d (dg code d)) -> EnvOK E ->
  forall N a cs oba obp oma lg, nd_ok a -> In (l_level lg) ["NORMAL"; "VERBOSE"; "DEBUG"]%string ->
  let it := dt_itemsize (nd_dtype a) in
  let ba := match oba with Some x => x | None => mkBA 8 7 true "blosclz" end in
  d_pack_ndarray E N a cs oba obp oma lg =
  let r := pack_ndarray E N a (fp_sink E) cs oba obp oma (cfs_of (fp_of [])) in
  (fdata (s_fp (fst r)),
   spoken lg (if dt_hasobject (nd_dtype a) then [] else
              match chunking (size (array_bytes a)) cs with
              | Ok (n, c, l) => told_packing E dg (fun _ => 2) n c l
                  (if it =? 0 then Raise ZeroDivisionError else if negb (c mod it =? 0) then Raise ChunkSizeTypeSizeMismatch
                   else Ok (pieces n c l (array_bytes a)))
                  (ndarray_meta N a) (Some (mkBA it (ba_clevel ba) (ba_shuffle ba) (ba_cname ba))) obp oma
              | Raise _ => []
              end), snd r).
Proof. exact pack_array_told. Qed.
Print Assumptions C96_array.
(** Appending any bytes to any byte string. *)
Theorem C96_append : forall E dg, (forall code d, 0 <= code < 9 -> is_digest E code d (dg code d)) ->
  forall f new oa lg, In (l_level lg) ["NORMAL"; "VERBOSE"; "DEBUG"]%string ->
  d_append E f new oa lg = (fst (append_bytes E f new oa), spoken lg (told_appending E dg f new oa), snd (append_bytes E f new oa)).
Proof. exact append_told. Qed.
Print Assumptions C96_append.

(** The specification itself, run. *)
Definition ex_log (level : string) : logst := mkLog level (t_ "blpk") [].
Definition said (l : logst) : list string := map string_of_list_ascii (l_out l).
Example C96_case : (forall code d, 0 <= code < 9 -> is_digest toy_env code d (ref_dg code d)) /\
  said (spoken (ex_log "DEBUG") (told_packing toy_env ref_dg size 2 20 7 (Ok (pieces 2 20 7 (firstn 27 ex_data))) PNone None (Some ex_bp) None)) =
  ["blpk: Handle chunk '0'"; "blpk: checksum (adler32): b'\x8c\x07\x17V'"; "blpk: chunk handled, in: 20.0B (20B) out: 36.0B (36B)";
   "blpk: Handle chunk '1' (last)"; "blpk: checksum (adler32): b'\xf0\x02\x88\x0e'"; "blpk: chunk handled, in: 7.0B (7B) out: 23.0B (23B)"]%string.
Proof. split; [apply the_digest_is|]. vm_compute. reflexivity. Qed.
(** Unpacking, and from a file with one byte of the second chunk changed. *)
Definition ex_small : bytes := match pack_bytes_to_bytes toy_env (firstn 27 ex_data) (CSInt 20) PNone None (Some (mkBPA false "crc32" (MAInt 0))) None with Ok f => f | _ => [] end.
Definition ex_bad : bytes := firstn 90 ex_small ++ [x00] ++ skipn 91 ex_small.
Definition ex_told : list string := [
   "blpk: blosc_header: OrderedDict([('version', 2), ('versionlz', 1), ('flags', 1), ('typesize', 8), ('nbytes', 20), ('blocksize', 20), ('ctbytes', 36)])";
   "blpk: decompressing chunk '0'";
   "blpk: checksum OK (crc32): b'\xb4\x051}'";
   "blpk: chunk handled, in: 36.0B (36B) out: 20.0B (20B)";
   "blpk: blosc_header: OrderedDict([('version', 2), ('versionlz', 1), ('flags', 1), ('typesize', 8), ('nbytes', 7), ('blocksize', 7), ('ctbytes', 23)])";
   "blpk: decompressing chunk '1' (last)";
   "blpk: checksum OK (crc32): b'\x83\x81g\xbc'";
   "blpk: chunk handled, in: 23.0B (23B) out: 7.0B (7B)"]%string.
Example C96_case_unpack :
  said (spoken (ex_log "DEBUG") (told_unpacking toy_env ref_dg ex_small)) = ex_told /\
  said (spoken (ex_log "DEBUG") (told_unpacking toy_env ref_dg ex_bad)) = firstn 6 ex_told /\
  said (spoken (ex_log "VERBOSE") (told_unpacking toy_env ref_dg ex_small)) = [].
Proof. vm_compute. repeat split. Qed.
(** That the sizes are those of the chunks is false of arrays. *)
Theorem C96_array_refuted : exists E N a cs lg, EnvOK E /\ nd_ok a /\ l_level lg = "DEBUG"%string /\
  (exists r, snd (d_pack_ndarray E N a cs None None None lg) = Ok r) /\
  match chunking (size (array_bytes a)) cs with
  | Ok (n, c, l) => snd (fst (d_pack_ndarray E N a cs None None None lg)) <>
      spoken lg (told_packing E (the_digest E) size n c l (Ok (pieces n c l (array_bytes a))) (ndarray_meta N a)
                              (Some (mkBA (dt_itemsize (nd_dtype a)) 7 true "blosclz")) None None)
  | Raise _ => False
  end.
Proof.
  exists toy_env, ex_np1, ex_view, (CSInt 16), (ex_log "DEBUG"). split; [exact toy_env_ok|]. split; [apply C93_case_hyps|]. split; [reflexivity|].
  split; [vm_compute; eauto|]. vm_compute. intros H. discriminate H.
Qed.
Print Assumptions C96_array_refuted.
Example C96_case_array : said (snd (fst (d_pack_ndarray toy_env ex_np1 ex_view (CSInt 16) None None None (ex_log "DEBUG")))) =
  ["blpk: Handle chunk '0'"; "blpk: checksum (adler32): b'\x11\x083O'"; "blpk: chunk handled, in: 2.0B (2B) out: 32.0B (32B)";
   "blpk: Handle chunk '1' (last)"; "blpk: checksum (adler32): b'\xa7\x03\xa6\x17'"; "blpk: chunk handled, in: 2.0B (2B) out: 24.0B (24B)"]%string.
Proof. vm_compute. reflexivity. Qed.
(** Appending: the chunk that is filled up, and two more. *)
Example C96_case_append :
  said (spoken (ex_log "DEBUG") (told_appending toy_env ref_dg ex_file (firstn 40 ex_data) no_obargs)) =
  ["blpk: blosc_header: OrderedDict([('version', 2), ('versionlz', 1), ('flags', 1), ('typesize', 8), ('nbytes', 7), ('blocksize', 7), ('ctbytes', 22)])";
   "blpk: Handle chunk '0' "; "blpk: checksum (adler32): b'\xd2\x073X'"; "blpk: Handle chunk '1' (last)"; "blpk: checksum (adler32): b'\x97\x02\x9e\x0c'"]%string /\
  said (spoken (ex_log "DEBUG") (told_appending toy_env ref_dg ex_file [x41] no_obargs)) =
  ["blpk: blosc_header: OrderedDict([('version', 2), ('versionlz', 1), ('flags', 1), ('typesize', 8), ('nbytes', 7), ('blocksize', 7), ('ctbytes', 22)])"]%string /\
  told_appending toy_env ref_dg ex_small [x41] no_obargs = [].
Proof. vm_compute. repeat split. Qed.
