(** The project's own tests (/repo/test, /repo/test_cmdline), evaluated in the model.
    These are tests: they say nothing about other inputs and no property rests on
    them.  They compare the model with what the authors of the code expect of it.
    Left out are the tests that need the real Blosc, zlib, hashlib or numpy; where a
    test works on 16 MB of data, the model gets a few kB. *)
From Verif Require Import Base PyVal Checksums Headers Pretty Args FileIO MemoryIO Append Files Cli Parser Objects Log Report Json
  NumpyIO Toy ToyNumpy.

(* ------------------------------------------------------------------ *)
(** * test/test_headers.py *)

(** BloscpackHeader() with all defaults (headers.py:268-277), and its raw form
    (test_headers.py:286-297). *)
Definition raw0 : bytes := MAGIC ++ le_enc 1 FORMAT_VERSION ++ [x00; x00; x00] ++ zrep 16 xff ++ zrep 8 x00.
Definition mod_raw (offset : Z) (x : bytes) : bytes := ztake offset raw0 ++ x ++ zdrop (offset + zlen x) raw0.
Definition hdr (ver : Z) (off meta : bool) (ck : string) (ts cs lc n m : Z) : res header := mk_header ver off meta ck ts cs lc n m.

Definition raises {A} (e : exn) (r : res A) : Prop := r = Raise e.
Definition raises_value_error {A} (r : res A) : bool := match r with Raise e => is_ValueError e | Ok _ => false end.

(** test_check_range (39-45), ints only *)
Example test_check_range : map (fun v => check_range v 0 1) [-1; 2] = [Raise ValueError; Raise ValueError].
Proof. vm_compute. reflexivity. Qed.

(** test_create_options (48-61) *)
Example test_create_options :
  create_options true false = "00000001"%string /\ create_options false false = "00000000"%string /\
  create_options true true = "00000011"%string /\ create_options false true = "00000010"%string.
Proof. vm_compute. auto. Qed.

(** test_decode_options, test_decode_options_exceptions (64-85) *)
Example test_decode_options :
  map decode_options ["00000000"; "00000001"; "00000010"; "00000011"]%string =
  [Ok (false, false); Ok (true, false); Ok (false, true); Ok (true, true)] /\
  forallb (fun s => raises_value_error (decode_options s))
    ["0000000"; "000000000"; "0000000a"; "abc"; "00000100"; "00001100"; "11111100"]%string = true.
Proof. vm_compute. auto. Qed.

(** test_check_options_exceptions (89-111), strings only *)
Example test_check_options :
  forallb (fun s => raises_value_error (check_options s))
    ["0"; "1"; "0000000"; "000000000"; "1111111"; "111111111"; "0000000a"; "aaaaaaaa"]%string = true.
Proof. vm_compute. reflexivity. Qed.

(** test_create_metadata_options .. test_decode_metadata_options_exceptions (114-134) *)
Example test_metadata_options :
  create_metadata_options = "00000000"%string /\ decode_metadata_options "00000000" = Ok tt /\
  forallb (fun s => raises_value_error (decode_metadata_options s))
    ["0000000"; "000000000"; "0000000a"; "abc"; "00000001"; "00001111"; "11111111"]%string = true.
Proof. vm_compute. auto. Qed.

(** test_decode_blosc_flags (202-225) *)
Example test_decode_blosc_flags :
  map decode_blosc_flags [0; 1; 2; 4; 16; 32; 64; 96; 128] =
  map Ok [mkBF false false false false "blosclz"; mkBF true false false false "blosclz";
          mkBF false true false false "blosclz"; mkBF false false true false "blosclz";
          mkBF false false false true "blosclz"; mkBF false false false false "lz4";
          mkBF false false false false "snappy"; mkBF false false false false "zlib";
          mkBF false false false false "zstd"].
Proof. vm_compute. reflexivity. Qed.

(** test_BloscPackHeader_constructor_exceptions (228-266), ints and strings only *)
Example test_header_constructor :
  forallb raises_value_error
    [hdr (-1) false false "None" 0 (-1) (-1) (-1) 0; hdr (MAX_FORMAT_VERSION + 1) false false "None" 0 (-1) (-1) (-1) 0;
     hdr 3 false false "None" (-1) (-1) (-1) (-1) 0; hdr 3 false false "None" (BLOSC_MAX_TYPESIZE + 1) (-1) (-1) (-1) 0;
     hdr 3 false false "None" 0 (BLOSC_MAX_BUFFERSIZE + 1) (-1) (-1) 0; hdr 3 false false "None" 0 (-2) (-1) (-1) 0;
     hdr 3 false false "None" 0 (-1) (BLOSC_MAX_BUFFERSIZE + 1) (-1) 0; hdr 3 false false "None" 0 (-1) (-2) (-1) 0;
     hdr 3 false false "None" 0 (-1) (-1) (MAX_CHUNKS + 1) 0; hdr 3 false false "None" 0 (-1) (-1) (-2) 0;
     hdr 3 false false "None" 0 (-1) (-1) (-1) (MAX_CHUNKS + 1); hdr 3 false false "None" 0 (-1) (-1) (-1) (-1);
     hdr 3 false false "None" 0 (-1) (-1) (MAX_CHUNKS / 2 + 1) (MAX_CHUNKS / 2 + 1);
     hdr 3 false false "None" 0 (-1) (-1) (-1) 1; hdr 3 false false "None" 0 1 2 (-1) 0] = true /\
  hdr 3 false false "foo" 0 (-1) (-1) (-1) 0 = Raise NoSuchChecksum.
Proof. vm_compute. auto. Qed.

(** test_BloscPackHeader_total_prospective_entries (269-283) *)
Example test_total_prospective :
  forallb (fun t => match t with
    | (expected, (n, m)) =>
        match hdr 3 false false "None" 0 (-1) (-1) n m with
        | Ok h => match total_prospective_chunks h, expected with
                  | None, None => true | Some a, Some b => a =? b | _, _ => false end
        | Raise _ => false
        end
    end)
    [(Some 0, (0, 0)); (Some 1, (1, 0)); (Some 1, (0, 1)); (None, (-1, 0)); (Some 65, (42, 23));
     (Some (MAX_CHUNKS - 1), (MAX_CHUNKS / 2, MAX_CHUNKS / 2)); (Some MAX_CHUNKS, (MAX_CHUNKS - 1, 1));
     (Some MAX_CHUNKS, (1, MAX_CHUNKS - 1))] = true.
Proof. vm_compute. reflexivity. Qed.

(** test_BloscpackHeader_encode and _decode (286-411) *)
Definition encoded : list (res header * Z * bytes) :=
  [(hdr 3 false false "None" 0 (-1) (-1) (-1) 0, 0, []);
   (hdr 23 false false "None" 0 (-1) (-1) (-1) 0, 4, [x17]);
   (hdr 3 true false "None" 0 (-1) (-1) (-1) 0, 5, [x01]);
   (hdr 3 false true "None" 0 (-1) (-1) (-1) 0, 5, [x02]);
   (hdr 3 true true "None" 0 (-1) (-1) (-1) 0, 5, [x03]);
   (hdr 3 false false "adler32" 0 (-1) (-1) (-1) 0, 6, [x01]);
   (hdr 3 false false "sha384" 0 (-1) (-1) (-1) 0, 6, [x07]);
   (hdr 3 false false "sha512" 0 (-1) (-1) (-1) 0, 6, [x08]);
   (hdr 3 false false "None" 1 (-1) (-1) (-1) 0, 7, [x01]);
   (hdr 3 false false "None" 2 (-1) (-1) (-1) 0, 7, [x02]);
   (hdr 3 false false "None" 4 (-1) (-1) (-1) 0, 7, [x04]);
   (hdr 3 false false "None" 8 (-1) (-1) (-1) 0, 7, [x08]);
   (hdr 3 false false "None" 16 (-1) (-1) (-1) 0, 7, [x10]);
   (hdr 3 false false "None" 255 (-1) (-1) (-1) 0, 7, [xff]);
   (hdr 3 false false "None" 0 (-1) (-1) (-1) 0, 8, [xff; xff; xff; xff]);
   (hdr 3 false false "None" 0 1 (-1) (-1) 0, 8, [x01; x00; x00; x00]);
   (hdr 3 false false "None" 0 1048576 (-1) (-1) 0, 8, [x00; x00; x10; x00]);
   (hdr 3 false false "None" 0 BLOSC_MAX_BUFFERSIZE (-1) (-1) 0, 8, [xef; xff; xff; x7f]);
   (hdr 3 false false "None" 0 (-1) (-1) (-1) 0, 12, [xff; xff; xff; xff]);
   (hdr 3 false false "None" 0 (-1) 1 (-1) 0, 12, [x01; x00; x00; x00]);
   (hdr 3 false false "None" 0 (-1) 1048576 (-1) 0, 12, [x00; x00; x10; x00]);
   (hdr 3 false false "None" 0 (-1) BLOSC_MAX_BUFFERSIZE (-1) 0, 12, [xef; xff; xff; x7f]);
   (hdr 3 false false "None" 0 (-1) (-1) (-1) 0, 16, [xff; xff; xff; xff; xff; xff; xff; xff]);
   (hdr 3 false false "None" 0 (-1) (-1) 0 0, 16, [x00; x00; x00; x00; x00; x00; x00; x00]);
   (hdr 3 false false "None" 0 (-1) (-1) 1 0, 16, [x01; x00; x00; x00; x00; x00; x00; x00]);
   (hdr 3 false false "None" 0 (-1) (-1) 127 0, 16, [x7f; x00; x00; x00; x00; x00; x00; x00]);
   (hdr 3 false false "None" 0 (-1) (-1) 1048576 0, 16, [x00; x00; x10; x00; x00; x00; x00; x00]);
   (hdr 3 false false "None" 0 (-1) (-1) MAX_CHUNKS 0, 16, [xff; xff; xff; xff; xff; xff; xff; x7f]);
   (hdr 3 false false "None" 0 (-1) (-1) 1 0, 16, [x01; x00; x00; x00; x00; x00; x00; x00; x00; x00; x00; x00; x00; x00; x00; x00]);
   (hdr 3 false false "None" 0 (-1) (-1) 1 1, 16, [x01; x00; x00; x00; x00; x00; x00; x00; x01; x00; x00; x00; x00; x00; x00; x00]);
   (hdr 3 false false "None" 0 (-1) (-1) 1 127, 16, [x01; x00; x00; x00; x00; x00; x00; x00; x7f; x00; x00; x00; x00; x00; x00; x00]);
   (hdr 3 false false "None" 0 (-1) (-1) 1 1048576, 16, [x01; x00; x00; x00; x00; x00; x00; x00; x00; x00; x10; x00; x00; x00; x00; x00]);
   (hdr 3 false false "None" 0 (-1) (-1) 1 (MAX_CHUNKS - 1), 16,
     [x01; x00; x00; x00; x00; x00; x00; x00; xfe; xff; xff; xff; xff; xff; xff; x7f])].
Example test_header_encode : map (fun t => rbind (fst (fst t)) header_encode) encoded =
  map (fun t => Ok (mod_raw (snd (fst t)) (snd t))) encoded.
Proof. vm_compute. reflexivity. Qed.
Example test_header_decode : map (fun t => fst (fst t)) encoded =
  map (fun t => header_decode (mod_raw (snd (fst t)) (snd t))) encoded.
Proof. vm_compute. reflexivity. Qed.

(** test_BloscpackHeader_accessor_exceptions (414-424) *)
Example test_accessors : forall h, hdr 3 false false "None" 0 (-1) (-1) (-1) 0 = Ok h ->
  snd (o_getitem "foo" (header_obj h)) = Raise KeyError /\
  snd (o_setitem "foo" (OStr (t_ "bar")) (header_obj h)) = Raise KeyError /\
  snd (o_delitem "foo" (header_obj h)) = Raise NotImplementedError.
Proof. intros h H. injection H as <-. vm_compute. auto. Qed.

(** test_MetadataHeader_encode and _decode (427-500) *)
Definition mh (magic : bytes) (ck co : string) (lvl sz mx cm : Z) (user : bytes) : res mheader :=
  mk_mheader magic create_metadata_options ck co lvl sz mx cm user.
Definition mod_meta (offset : Z) (x : bytes) : bytes := ztake offset (zrep 32 x00) ++ x ++ zdrop (offset + zlen x) (zrep 32 x00).
Definition mencoded : list (res mheader * Z * bytes) :=
  [(mh [] "None" "None" 0 0 0 0 [], 0, []);
   (mh (b_of_string "JSON") "None" "None" 0 0 0 0 [], 0, b_of_string "JSON");
   (mh [] "adler32" "None" 0 0 0 0 [], 9, [x01]);
   (mh [] "None" "zlib" 0 0 0 0 [], 10, [x01]);
   (mh [] "None" "None" 1 0 0 0 [], 11, [x01]);
   (mh [] "None" "None" 0 1 0 0 [], 12, [x01]);
   (mh [] "None" "None" 0 MAX_META_SIZE 0 0 [], 12, [xff; xff; xff; xff]);
   (mh [] "None" "None" 0 0 1 0 [], 16, [x01]);
   (mh [] "None" "None" 0 0 MAX_META_SIZE 0 [], 16, [xff; xff; xff; xff]);
   (mh [] "None" "None" 0 0 0 1 [], 20, [x01]);
   (mh [] "None" "None" 0 0 0 MAX_META_SIZE [], 20, [xff; xff; xff; xff]);
   (mh [] "None" "None" 0 0 0 0 (b_of_string "sesame"), 24, b_of_string "sesame")].
Example test_mheader_encode : map (fun t => rbind (fst (fst t)) mheader_encode) mencoded =
  map (fun t => Ok (mod_meta (snd (fst t)) (snd t))) mencoded.
Proof. vm_compute. reflexivity. Qed.
Example test_mheader_decode : map (fun t => fst (fst t)) mencoded =
  map (fun t => mheader_decode (mod_meta (snd (fst t)) (snd t))) mencoded.
Proof. vm_compute. reflexivity. Qed.

(* ------------------------------------------------------------------ *)
(** * test/test_args.py *)

(** test_check_*_arguments (33-68) *)
Example test_check_arguments :
  check_blosc_args ["clevel"; "shuffle"; "cname"]%string = Raise ValueError /\
  check_blosc_args ["typesize"; "clevel"; "shuffle"; "cname"; "wtf"]%string = Raise ValueError /\
  check_bloscpack_args ["checksum"; "max_app_chunks"]%string = Raise ValueError /\
  check_bloscpack_args ["offsets"; "checksum"; "max_app_chunks"; "wtf"]%string = Raise ValueError /\
  check_metadata_arguments ["meta_checksum"; "meta_codec"; "meta_level"; "max_meta_size"]%string = Raise ValueError /\
  check_metadata_arguments ["magic_format"; "meta_checksum"; "meta_codec"; "meta_level"; "max_meta_size"; "wtf"]%string = Raise ValueError.
Proof. vm_compute. repeat split. Qed.
(** test_check_bloscpack_arguments_accpets_None_as_checksum (55-57) *)
Example test_checksum_none : bp_checksum (mk_bpargs true None (MAInt 0)) = "None"%string.
Proof. reflexivity. Qed.

(** test_calculate_nchunks (71-110) *)
Example test_calculate_nchunks :
  calculate_nchunks 23 (CSInt 0) = Raise ValueError /\ calculate_nchunks 23 (CSInt (-1)) = Raise ValueError /\
  map (fun c => calculate_nchunks 9 (CSInt c)) [1; 2; 3; 4; 5; 6; 7; 8; 9] =
    map Ok [(9, 1, 1); (5, 2, 1); (3, 3, 3); (3, 4, 1); (2, 5, 4); (2, 6, 3); (2, 7, 2); (2, 8, 1); (1, 9, 9)] /\
  calculate_nchunks 23 (CSInt 24) = Ok (1, 23, 23) /\ calculate_nchunks 1 (CSInt 1) = Ok (1, 1, 1) /\
  calculate_nchunks 0 (CSInt 1) = Ok (1, 0, 0) /\ calculate_nchunks 0 (CSInt 512) = Ok (1, 0, 0) /\
  calculate_nchunks (-1) (CSStr "1M") = Raise ValueError /\
  calculate_nchunks (MAX_CHUNKS + 1) (CSInt 1) = Raise ChunkingException /\
  rbind (reverse_pretty "5.2M") (fun z => calculate_nchunks z (CSStr "1M")) = Ok (6, 1048576, 209715) /\
  rbind (reverse_pretty "5.2M") (fun z => calculate_nchunks z (CSStr "2M")) = Ok (3, 2097152, 1258291).
Proof. vm_compute. repeat split. Qed.

(** test_handle_max_apps (113-126) *)
Example test_handle_max_apps :
  handle_max_apps true 10 (MAInt 10) = Ok 10 /\ handle_max_apps true 10 (MACall (fun x => Ok (Some (x * 10)))) = Ok 100 /\
  handle_max_apps true 1 (MACall (fun _ => Ok (Some MAX_CHUNKS))) = Ok (MAX_CHUNKS - 1) /\
  handle_max_apps true 1 (MACall (fun _ => Ok (Some (MAX_CHUNKS + 10)))) = Ok (MAX_CHUNKS - 1) /\
  handle_max_apps true 1 (MAInt MAX_CHUNKS) = Ok (MAX_CHUNKS - 1) /\
  handle_max_apps true 10 (MAInt MAX_CHUNKS) = Ok (MAX_CHUNKS - 10) /\
  handle_max_apps true 10 MAOther = Raise TypeError /\
  handle_max_apps true 10 (MACall (fun _ => Ok (Some (-1)))) = Raise ValueError /\
  handle_max_apps true 10 (MACall (fun _ => Ok None)) = Raise ValueError.
Proof. vm_compute. repeat split. Qed.

(* ------------------------------------------------------------------ *)
(** * test/test_pretty.py, test_checksums.py, test_metacodecs.py, test_serializers.py, test_log.py *)

(** test_pretty_filesieze (13-29) *)
Example test_pretty :
  map pretty_size [0; 9898989898879; 5129898234; 12898234; 989898; 128] =
    ["0B"; "9.0T"; "4.78G"; "12.3M"; "966.7K"; "128.0B"]%string /\
  map reverse_pretty ["0B"; "8B"; "8K"; "128M"; "2G"; "2T"]%string = map Ok [0; 8; 8192; 134217728; 2147483648; 2199023255552] /\
  reverse_pretty "2P" = Raise ValueError.
Proof. vm_compute. auto. Qed.

(** test_checksusm_exist, test_checksusm_are_sane (7-45), the two checksums that the
    model computes and the sizes of the others *)
Example test_checksums :
  map cks_name cks_avail = ["None"; "adler32"; "crc32"; "md5"; "sha1"; "sha224"; "sha256"; "sha384"; "sha512"]%string /\
  map (fun c => cks_digest toy_hash c [x23; x42; xbe; xef]) [CkNone; CkAdler32; CkCrc32] =
    [[]; [x13; x02; xc1; x03]; [xbd; xfa; x2e; xaa]] /\
  map cks_size cks_avail = [0; 4; 4; 16; 20; 28; 32; 48; 64].
Proof. vm_compute. auto. Qed.

(** test_codecs (11-16) *)
Example test_codecs : map codec_name codec_avail = ["None"; "zlib"]%string /\
  forallb (fun c => match rbind (codec_compress toy_env c (b_of_string "4KzGCl7SxTsYLaerommsMWyZg1TXbV6wsR9Xk") 6) (codec_decompress toy_env c) with
                    | Ok x => bytes_eqb x (b_of_string "4KzGCl7SxTsYLaerommsMWyZg1TXbV6wsR9Xk") | Raise _ => false end) codec_avail = true.
Proof. vm_compute. auto. Qed.

(** test_serializers (16-24) *)
Definition test_metadata : pyval :=
  PDict [(u "dtype", PStr (u "float64")); (u "shape", PList [PInt 1024]); (u "others", PList [])].
Definition test_output : bytes := b_of_string "{""dtype"":""float64"",""shape"":[1024],""others"":[]}".
Example test_serializers : dumps test_metadata = Ok test_output /\ loads test_output = Ok test_metadata.
Proof. vm_compute. auto. Qed.

(** test_verbose, test_error, test_set_level_exception (8-25) *)
Example test_log : let s := mkLog "NORMAL" (t_ "blpk") [] in
  snd (verbose (t_ "message") "MAXIMUM" s) = Raise TypeError /\
  snd (@error unit (t_ "error") 1 s) = Raise (SystemExit 1) /\
  snd (set_level "NO_SUCH_LEVEL" s) = Raise ValueError /\ snd (set_level "DEBUG" s) = Ok tt.
Proof. vm_compute. auto. Qed.

(* ------------------------------------------------------------------ *)
(** * test/test_file_io.py, test_memory_io.py, test_append.py *)

(** Data that compresses a little (instead of numpy.linspace). *)
Definition test_array (n : Z) : bytes := map (fun k => bZ (Z.of_nat k / 3)) (seq 0 (Z.to_nat n)).
Definition packed (r : res bytes) : bytes := match r with Ok f => f | Raise _ => [] end.

(** test_offsets (57-99): 16000000 bytes in chunks of 2M are 8 chunks; with the
    default reserve the first offset is 736, without it is 96. *)
Example test_offsets :
  calculate_nchunks 16000000 (CSStr "2M") = Ok (8, 2097152, 1319936) /\
  handle_max_apps true 8 (bp_max_app default_bpargs) = Ok 80 /\
  BLOSCPACK_HEADER_LENGTH + 8 * (8 + 80) = 736 /\ BLOSCPACK_HEADER_LENGTH + 8 * 8 = 96.
Proof. vm_compute. repeat split. Qed.
Definition test_begin (r : res bytes) : res beginning := snd (read_beginning toy_env (fp_of (packed r))).
Example test_offsets_small :
  match test_begin (pack_bytes_to_bytes toy_env (test_array 1600) (CSInt 210) PNone None None None),
        test_begin (pack_bytes_to_bytes toy_env (test_array 1600) (CSInt 210) PNone None (Some (mkBPA true "adler32" (MAInt 0))) None) with
  | Ok a, Ok b => (hd 0 (b_offsets a), h_max_app (b_header b), hd 0 (b_offsets b)) = (736, 0, 96)
  | _, _ => False
  end.
Proof. vm_compute. reflexivity. Qed.

(** test_metadata (102-108), test_pack_unpack* (186-259) *)
Example test_pack_unpack :
  map (fun c => unpack_bytes_from_bytes toy_env (packed (pack_bytes_to_bytes toy_env (test_array 400) (CSInt c) test_metadata None None None)))
      [25; 50; 100; 200; 400] = repeat (Ok (test_array 400, test_metadata)) 5.
Proof. vm_compute. reflexivity. Qed.

(** test_metadata_opportunisitic_compression (111-129), with a text that the toy zlib
    compresses *)
Example test_opportunistic :
  match test_begin (pack_bytes_to_bytes toy_env [] (CSInt 1) (PStr (u "abc")) None None None),
        test_begin (pack_bytes_to_bytes toy_env [] (CSInt 1) (PInt 121212121212) None None None) with
  | Ok a, Ok b => option_map mh_codec (b_mheader a) = Some CoNone /\ option_map mh_codec (b_mheader b) = Some CoZlib
  | _, _ => False
  end.
Proof. vm_compute. auto. Qed.

(** test_disable_offsets (132-148) *)
Example test_disable_offsets :
  match test_begin (pack_bytes_to_bytes toy_env (test_array 100) (CSInt 10) PNone None (Some (mkBPA false "adler32" (MAInt 3))) None) with
  | Ok a => b_offsets a = [] /\ h_nchunks (b_header a) = 10 | Raise _ => False end.
Proof. vm_compute. auto. Qed.

(** test_invalid_format (151-157) and test_file_corruption (160-183) *)
Definition poke (p : Z) (f : byte -> byte) (d : bytes) : bytes :=
  ztake p d ++ match zdrop p d with [] => [] | x :: r => f x :: r end.
Definition flip (x : byte) : byte := if Byte.eqb x xff then x00 else xff.
Example test_corruption :
  let f := packed (pack_bytes_to_bytes toy_env (test_array 100) (CSInt 10) PNone None None None) in
  unpack_bytes_from_bytes toy_env (poke 4 (fun _ => xff) f) = Raise FormatVersionMismatch /\
  unpack_bytes_from_bytes toy_env (poke (32 + 8 * 110 + BLOSC_HEADER_LENGTH + 4) flip f) = Raise ChecksumMismatch.
Proof. vm_compute. auto. Qed.

(** pack_unpack_mem (test_memory_io.py:29-60), the first half *)
Example test_memory :
  let s := snd (fst (pack (fp_source toy_env) (mem_sink toy_env) 4 30 10 test_metadata None None None (fp_of (test_array 100), cms_new))) in
  let r := mem_unpack toy_env s (0%nat, pms_new None) in
  cm_meta s = test_metadata /\ snd r = Ok tt /\
  pms_chunks (snd (fst r)) = map (fun k => Some (slice (30 * k) (30 * k + 30) (test_array 100))) [0; 1; 2; 3].
Proof. vm_compute. auto. Qed.

(** test_append_fp (90-145): the arithmetic for 16000000 bytes packed and appended
    again, then the same with 160 bytes in chunks of 17. *)
Example test_append_numbers :
  calculate_nchunks 16000000 (CSStr "1M") = Ok (16, 1048576, 271360) /\
  BLOSCPACK_HEADER_LENGTH + 8 * (16 + 160) = 1440 /\
  calculate_nchunks (16000000 - (1048576 - 271360)) (CSInt 1048576) = Ok (15, 1048576, 542720) /\ 16 + 15 = 31 /\ 160 - 15 = 145.
Proof. vm_compute. repeat split. Qed.
Definition append_to (f new : bytes) (n : Z) (o : obargs) : bytes * res Z :=
  let '((_, g), r) := append_fp toy_env n o (fp_of new, fp_of f) in (fdata g, r).
Example test_append :
  let a := test_array 160 in
  let f := packed (pack_bytes_to_bytes toy_env a (CSInt 11) PNone None None None) in
  let g := append_to f a 160 no_obargs in
  let g2 := append_to (fst g) a 160 no_obargs in
  let look x := rbind (test_begin (Ok x)) (fun bg => Ok (b_header bg, hd 0 (b_offsets bg))) in
  snd g = Ok 15 /\
  look f = Ok (mkH 3 true false CkAdler32 8 11 6 15 150, 1352) /\
  look (fst g) = Ok (mkH 3 true false CkAdler32 8 11 1 30 135, 1352) /\
  rbind (unpack_bytes_from_bytes toy_env (fst g)) (fun x => Ok (fst x)) = Ok (a ++ a) /\
  (** test_double_append (233-244) *)
  rbind (unpack_bytes_from_bytes toy_env (fst g2)) (fun x => Ok (fst x)) = Ok (a ++ a ++ a).
Proof. vm_compute. repeat split. Qed.
(** test_append_into_last_chunk (160-194) *)
Example test_append_last_chunk :
  let a := test_array 300 in
  let f := packed (pack_bytes_to_bytes toy_env a (CSInt 300) PNone None None None) in
  let g := append_to f (ztake 103 a) 103 no_obargs in
  let g2 := append_to (fst g) (ztake 103 a) 103 no_obargs in
  let last x := rbind (test_begin (Ok x)) (fun bg => Ok (h_last_chunk (b_header bg))) in
  snd g = Ok 1 /\ last (fst g) = Ok 103 /\ snd g2 = Ok 0 /\ last (fst g2) = Ok 206 /\
  rbind (unpack_bytes_from_bytes toy_env (fst g2)) (fun x => Ok (fst x)) = Ok (a ++ ztake 103 a ++ ztake 103 a).
Proof. vm_compute. repeat split. Qed.
(** test_append_single_chunk (197-230), whose last append announces one byte more than
    there is *)
Example test_append_single_chunk :
  let a := test_array 300 in
  let n x := rbind (test_begin (Ok x)) (fun bg => Ok (h_nchunks (b_header bg))) in
  let f := packed (pack_bytes_to_bytes toy_env a (CSInt 300) PNone None None None) in
  let g1 := fst (append_to f a 300 no_obargs) in
  let g2 := fst (append_to g1 (a ++ a) 600 no_obargs) in
  let g3 := fst (append_to g2 a 150 no_obargs) in
  let g4 := fst (append_to g3 (ztake 103 a) 104 no_obargs) in
  map n [g1; g2; g3; g4] = map Ok [2; 4; 5; 5].
Proof. vm_compute. reflexivity. Qed.
(** test_append_metadata (247-270), test_append_fp_no_offsets, test_append_fp_not_enough_space (273-284) *)
Example test_append_more :
  let a := test_array 60 in
  let f := packed (pack_bytes_to_bytes toy_env a (CSInt 60) test_metadata None None None) in
  rbind (unpack_bytes_from_bytes toy_env (fst (append_to f a 60 no_obargs))) (fun x => Ok x) = Ok (a ++ a, test_metadata) /\
  snd (append_to (packed (pack_bytes_to_bytes toy_env a (CSInt 10) PNone None (Some (mkBPA false "adler32" (MAInt 0))) None)) a 60 no_obargs)
    = Raise RuntimeError /\
  snd (append_to (packed (pack_bytes_to_bytes toy_env a (CSInt 10) PNone None (Some (mkBPA true "adler32" (MAInt 0))) None)) a 60 no_obargs)
    = Raise NotEnoughSpace.
Proof. vm_compute. auto. Qed.
(** test_append_mix_shuffle (334-382): flags of the first and of the last chunk *)
Example test_mix_shuffle :
  let a := test_array 60 in
  let f := packed (pack_bytes_to_bytes toy_env a (CSInt 10) PNone None None None) in
  let g := fst (append_to f (zrep 60 x00) 60 (mkOBA None (Some 9) (Some false) None)) in
  let flags k := match snd (read_beginning toy_env (fp_of g)) with
    | Ok bg => match decode_blosc_header (slice (nth k (b_offsets bg) 0) (nth k (b_offsets bg) 0 + 16) g) with
               | Ok bh => bh_flags bh | Raise _ => -1 end
    | Raise _ => -1 end in
  flags 0%nat = 1 /\ flags 11%nat = 0 /\ rbind (unpack_bytes_from_bytes toy_env g) (fun x => Ok (fst x)) = Ok (a ++ zrep 60 x00).
Proof. vm_compute. auto. Qed.

(** test_recreate_metadata (385-402) *)
Example test_recreate_metadata : forall h, mh [] "None" "None" 0 0 0 0 [] = Ok h ->
  recreate_metadata h (mkOv (Some (b_of_string "NOSUCHSERIALIZER")) None (Some "zlib"%string) (Some 6)) = Raise NoSuchSerializer /\
  recreate_metadata h (mkOv None None (Some "NOSUCHCODEC"%string) (Some 6)) = Raise NoSuchCodec /\
  recreate_metadata h (mkOv None (Some "adler32"%string) (Some "zlib"%string) (Some 6)) = Raise ChecksumLengthMismatch.
Proof. intros h H. injection H as <-. vm_compute. auto. Qed.

(** test_rewrite_metadata (405-463) *)
Definition with_keys (l : list (string * string)) : pyval :=
  match test_metadata with PDict d => PDict (d ++ map (fun kv => (u (fst kv), PStr (u (snd kv)))) l) | v => v end.
Definition rewrite_margs : margs := mkMA (b_of_string "JSON") "None" "None" 6 (MMInt 1000).
Definition keep : overrides := mkOv None None None None.
Definition num (k : nat) : string := string_of_list_ascii (dec_of (Z.of_nat k)).
Example test_rewrite_metadata :
  let t0 := fdata (fst (write_metadata toy_env test_metadata rewrite_margs (fp_of []))) in
  let m1 := with_keys [("container", "numpy"); ("data_origin", "LHC")]%string in
  let r1 := rewrite_metadata_fp toy_env m1 keep (fp_of t0) in
  let t1 := fdata (fst r1) in
  let m2 := with_keys [("container", "numpy"); ("data_origin", "LHC"); ("fluxcompensator", "back to the future")]%string in
  let m3 := with_keys [("container", "numpy"); ("data_origin", "LHC"); ("fluxcompensator", "back to the future");
                       ("hoverboard", "back to the future 2")]%string in
  let m4 := with_keys ([("container", "numpy"); ("data_origin", "LHC"); ("fluxcompensator", "back to the future");
                       ("hoverboard", "back to the future 2")]%string ++ map (fun k => (num k, num k)) (seq 0 100)) in
  zlen t0 = METADATA_HEADER_LENGTH + 1000 /\
  snd r1 = Ok tt /\
  match snd (read_metadata toy_env (fp_of t1)), dumps m1 with
  | Ok (m, h), Ok raw => m = m1 /\ mh_comp h = zlen raw
  | _, _ => False end /\
  snd (rewrite_metadata_fp toy_env m1 keep (fp_of t1)) = Raise NoChangeInMetadata /\
  snd (rewrite_metadata_fp toy_env m2 (mkOv None (Some "sha512"%string) None None) (fp_of t1)) = Raise ChecksumLengthMismatch /\
  snd (rewrite_metadata_fp toy_env m3 (mkOv None None None (Some 6)) (fp_of t1)) = Ok tt /\
  snd (rewrite_metadata_fp toy_env m4 keep (fp_of t1)) = Raise MetadataSectionTooSmall.
Proof. vm_compute. repeat split. Qed.

(* ------------------------------------------------------------------ *)
(** * test/test_numpy_io.py *)

(** test_conv (71-79) *)
Example test_conv :
  map conv [PList [PList [PStr (u "a"); PStr (u "f8")]];
            PList [PList [PStr (u "a"); PStr (u "f8"); PInt 2]];
            PList [PList [PStr (u "a"); PList [PList [PStr (u "b"); PStr (u "f8")]]]]] =
  map Ok [PList [PTuple [PStr (u "a"); PStr (u "f8")]];
          PList [PTuple [PStr (u "a"); PStr (u "f8"); PInt 2]];
          PList [PTuple [PStr (u "a"); PList [PTuple [PStr (u "b"); PStr (u "f8")]]]]].
Proof. vm_compute. reflexivity. Qed.

(** test_unpack_exception (82-90), test_reject_object_array, test_reject_nested_object_array (165-174),
    test_itemsize_chunk_size_mismatch (203-208) *)
Definition np : NpEnv := toy_np 1000 (fun _ => x55).
Definition arange (desc : pyval) (shape : list Z) (n : Z) : ndarray := nd_of false (toy_dtype desc) shape 0 (test_array n).
Definition i8 : pyval := PStr (u "<i8").
Definition with_object : pyval := PList [PTuple [PStr (u "a"); PStr (u "<i8")]; PTuple [PStr (u "b"); PStr (u "|O8")]].
Definition pack_np (a : ndarray) (c : Z) : res bytes := pack_ndarray_to_bytes toy_env np a (CSInt c) None None None.
Example test_numpy_exceptions :
  match unpack_ndarray_from_bytes toy_env np (packed (pack_bytes_to_bytes toy_env (test_array 400) (CSStr "1M") PNone None None None)) with
  | Raise NotANumpyArray => True | _ => False end /\
  pack_np (arange (PStr (u "|O8")) [3; 2] 48) 1048576 = Raise ObjectNumpyArrayRejection /\
  pack_np (arange with_object [3] 48) 1048576 = Raise ObjectNumpyArrayRejection /\
  map (pack_np (arange i8 [100] 800)) [1; 2; 3; 5; 6; 7; 9; 10; 11; 13; 14; 15] = repeat (Raise ChunkSizeTypeSizeMismatch) 12.
Proof. vm_compute. auto. Qed.

(** test_typesize_is_set_correctly_* (240-254) *)
Example test_typesize : let a := arange (PStr (u "|u1")) [3] 3 in
  np_bargs a None = mkBA 1 7 true "blosclz" /\ np_bargs a (Some (mkBA 8 9 true "blosclz")) = mkBA 1 9 true "blosclz".
Proof. vm_compute. auto. Qed.

(** test_numpy_dtypes_shapes_order (100-162), test_roundtrip_slice (257-260): the
    elements, in row-major order, of the array that comes back *)
Definition elements (a : ndarray) : list bytes := map (nd_elem a) (indices (nd_shape a)).
Definition comes_back (a : ndarray) : bool :=
  match rbind (pack_np a 1048576) (unpack_ndarray_from_bytes toy_env np) with
  | Ok b => bytes_eqb (concat (elements a)) (concat (elements b)) &&
            zs_eqb (nd_shape a) (nd_shape b) && pyeq (dt_desc (nd_dtype a)) (dt_desc (nd_dtype b)) && Bool.eqb (isfortran a) (isfortran b)
  | Raise _ => false
  end.
Definition nested : pyval :=
  PList [PTuple [PStr (u "year"); PStr (u "<i4")];
         PTuple [PStr (u "countries");
                 PList [PTuple [PStr (u "c1"); PList [PTuple [PStr (u "iso"); PStr (u "|S3")]; PTuple [PStr (u "value"); PStr (u "<f4")]]];
                        PTuple [PStr (u "c2"); PList [PTuple [PStr (u "iso"); PStr (u "|S3")]; PTuple [PStr (u "value"); PStr (u "<f4")]]]]]].
Example test_numpy_roundtrips : forallb comes_back
  [arange i8 [50] 400; arange i8 [64] 512; arange i8 [8; 8] 512; arange i8 [4; 16] 512; arange i8 [4; 4; 4] 512;
   asfortranarray 0 (arange i8 [4; 4; 4] 512); arange (PStr (u "<U3")) [3] 9;
   arange (PList [PTuple [PStr (u "a"); PStr (u "|S1")]; PTuple [PStr (u "b"); PStr (u "<f8")]]) [2] 18;
   arange nested [2] 36; arange (PStr (u ">i8")) [10] 80; arange (PStr (u "<f8")) [0] 0;
   (** a[3:5, 3:5] of a 10 x 10 array *)
   mkND (toy_dtype i8) [2; 2] [80; 8] 264 (nd_mem (arange i8 [10; 10] 800))] = true.
Proof. vm_compute. reflexivity. Qed.

(* ------------------------------------------------------------------ *)
(** * test/test_cli.py, test_cmdline/*.cram *)

Definition disk (l : list (string * bytes)) : fs := fun p => option_map snd (find (fun x => String.eqb p (fst x)) l).
Definition data : bytes := test_array 200.
(** exit code of 'blpk', and whether a file is there afterwards *)
Definition code (r : res unit) : option Z := match r with Ok _ => Some 0 | Raise (SystemExit c) => Some c | Raise _ => None end.
Definition run (l : list string) (s : fs) : fs * option Z :=
  match blpk toy_env l s with None => (s, None) | Some (s', r) => (s', code r) end.
Definition data_dat : fs := disk [("data.dat", data)]%string.

(** test_non_existing_input_file_raises_exception .. test_check_files_force_works (test_cli.py:17-39);
    in the model with the handler of main around it *)
Example test_check_files :
  snd (check_files "nosuchfile" "nosuchfile" false data_dat) = Raise (SystemExit 1) /\
  snd (check_files "data.dat" "data.dat" false data_dat) = Raise (SystemExit 1) /\
  snd (check_files "data.dat" "data.dat" true data_dat) = Ok tt.
Proof. vm_compute. auto. Qed.

(** test_codec.cram, test_checksum.cram, test_chunk_size.cram, test_no_offsets.cram, test_help.cram, test_threads.cram *)
Example cram_codes :
  map (fun l => snd (run l data_dat))
    [["compress"; "--checksum"; "sha512"; "data.dat"]; ["compress"; "--checksum"; "NO_SUCH_CHECKSUM"; "data.dat"];
     ["compress"; "--chunk-size"; "64K"; "data.dat"]; ["compress"; "--chunk-size"; "65536"; "data.dat"];
     ["compress"; "--chunk-size"; "max"; "data.dat"]; ["compress"; "--chunk-size"; "-1"; "data.dat"];
     ["compress"; "--chunk-size"; "NO_SUCH_VALUE"; "data.dat"];
     ["compress"; "data.dat"]; ["c"; "data.dat"]; ["compress"; "--codec"; "lz4"; "data.dat"];
     ["compress"; "--codec"; "NO_SUCH_CODEC"; "data.dat"];
     ["info"; "data.dat.blp"]; ["i"; "data.dat"]; ["compress"; "--no-offsets"; "data.dat"];
     []; ["NO_SUCH_SUBCOMMAND"]; ["--help"]; ["compress"; "--help"]; ["--version"];
     ["-n"; "1"; "compress"; "data.dat"]; ["-n"; "257"]]%string =
  map Some [0; 2; 0; 0; 0; 1; 1; 0; 0; 0; 2; 1; 1; 0; 2; 2; 0; 0; 0; 0; 1].
Proof. vm_compute. reflexivity. Qed.

(** test_codec.cram, test_force.cram: the sequences of commands, with the exit codes and
    the files that exist at the end *)
Fixpoint session (l : list (list string)) (s : fs) : fs * list (option Z) :=
  match l with
  | [] => (s, [])
  | c :: r => let '(s1, x) := run c s in let '(s2, y) := session r s1 in (s2, x :: y)
  end.
Example cram_roundtrip :
  let '(s, codes) := session [["compress"; "data.dat"]; ["compress"; "data.dat"; "packed.blp"]; ["decompress"; "data.dat.blp"; "data.dat.dcmp"]]%string data_dat in
  codes = map Some [0; 0; 0] /\ s "data.dat.dcmp"%string = Some data /\ map (fs_exists s) ["data.dat"; "data.dat.blp"; "packed.blp"]%string = [true; true; true].
Proof. vm_compute. auto. Qed.
Example cram_force :
  snd (session [["compress"; "data.dat"]; ["compress"; "data.dat"]; ["--force"; "compress"; "data.dat"];
                ["decompress"; "data.dat.blp"]; ["--force"; "decompress"; "data.dat.blp"]]%string data_dat) = map Some [0; 1; 0; 1; 0] /\
  (let s := fst (session [["compress"; "data.dat"; "data.dat.bla"]]%string data_dat) in
   snd (session [["decompress"; "data.dat.bla"; "data.dat.dcmp"]; ["decompress"; "--no-check-extension"; "data.dat.bla"];
                 ["decompress"; "--no-check-extension"; "data.dat.bla"; "data.dat.dcmp"];
                 ["decompress"; "-e"; "data.dat.bla"; "data.dat.dcmp2"]]%string s) = map Some [1; 1; 0; 0]).
Proof. vm_compute. auto. Qed.
(** test_append.cram *)
Example cram_append :
  let '(s, codes) := session [["compress"; "data.dat"]; ["append"; "data.dat.blp"; "data.dat"]; ["d"; "data.dat.blp"; "back"]]%string data_dat in
  codes = map Some [0; 0; 0] /\ s "back"%string = Some (data ++ data).
Proof. vm_compute. auto. Qed.

(** test_zero_length_file.cram *)
Example cram_zero_length :
  let '(s, codes) := session [["compress"; "data.dat"]; ["decompress"; "data.dat.blp"; "data.dat.dcmp"]]%string (disk [("data.dat", [])]%string) in
  codes = map Some [0; 0] /\ option_map zlen (s "data.dat.blp"%string) = Some 140 /\ s "data.dat.dcmp"%string = Some [].
Proof. vm_compute. auto. Qed.

(** The messages of test_force.cram and test_info.cram. *)
Definition texts : Texts := mkTexts (fun _ => t_ "..")
  (fun _ => t_ "the magic marker b'blpk' is missing from the bloscpack header, instead we found: b'\x00\x00\x00\x00'")
  (fun _ => t_ "--chunk-size must be > 0").
Definition said (c : command) (s : fs) : list string :=
  map string_of_list_ascii (l_out (snd (fst (r_main toy_env texts c (s, mkLog "NORMAL" (t_ "blpk") []))))).
Definition compress_cmd (i : string) : command := CmdCompress (mkCO i None false 8 7 true "blosclz" None "adler32" true None).
Definition packed_disk : fs := fst (run ["compress"; "data.dat"]%string data_dat).
Example cram_messages :
  said (compress_cmd "data.dat") packed_disk = ["blpk: error: output file 'data.dat.blp' exists!"]%string /\
  said (CmdDecompress (mkDO "data.dat.blp" None false false)) packed_disk = ["blpk: error: output file 'data.dat' exists!"]%string /\
  said (CmdDecompress (mkDO "data.dat.bla" (Some "data.dat.dcmp"%string) false false)) packed_disk =
    ["blpk: error: input file 'data.dat.bla' does not end with '.blp'"]%string /\
  said (CmdDecompress (mkDO "data.dat.bla" None false true)) packed_disk =
    ["blpk: error: --no-check-extension requires use of <out_file>"]%string /\
  said (CmdInfo "data.dat.blp") data_dat = ["blpk: error: file 'data.dat.blp' does not exist!"]%string /\
  said (CmdInfo "data.dat") data_dat =
    ["blpk: error: the magic marker b'blpk' is missing from the bloscpack header, instead we found: b'\x00\x00\x00\x00'";
     "blpk: error: This might not be a bloscpack compressed file."]%string.
Proof. vm_compute. repeat split. Qed.
(** test_info.cram: the header of 160000000 bytes in chunks of 1M *)
Example cram_info_header :
  calculate_nchunks 160000000 (CSStr "1M") = Ok (153, 1048576, 616448) /\
  handle_max_apps true 153 (bp_max_app default_bpargs) = Ok 1530 /\ BLOSCPACK_HEADER_LENGTH + 8 * (153 + 1530) = 13496 /\
  map string_of_list_ascii (split_nl (header_text (mkH 3 true false CkAdler32 8 1048576 616448 153 1530))) =
  ["BloscpackHeader:"; "    format_version: 3"; "    offsets: True"; "    metadata: False"; "    checksum: 'adler32'"; "    typesize: 8";
   "    chunk_size: 1.0M (1048576B)"; "    last_chunk: 602.0K (616448B)"; "    nchunks: 153"; "    max_app_chunks: 1530"]%string.
Proof. vm_compute. repeat split. Qed.
(** test_info.cram, test_codec.cram: the Blosc header and flags of the first chunk *)
Example cram_info_blosc :
  string_of_list_ascii (blosc_header_text (mkBH 2 1 33 8 1048576 1 2)) =
    "OrderedDict([('version', 2), ('versionlz', 1), ('flags', 33), ('typesize', 8), ('nbytes', 1048576), ('blocksize', 1), ('ctbytes', 2)])"%string /\
  rbind (decode_blosc_flags 33) (fun f => Ok (string_of_list_ascii (blosc_flags_text f))) =
    Ok "OrderedDict([('byte_shuffle', True), ('pure_memcpy', False), ('bit_shuffle', False), ('split_blocks', False), ('codec', 'lz4')])"%string.
Proof. vm_compute. auto. Qed.
(** test_metadata.cram: the metadata header, and where the first chunk starts *)
Definition cram_meta : pyval :=
  PDict [(u "dtype", PStr (u "'<f8'")); (u "shape", PList [PInt 20000000]); (u "order", PStr (u "C")); (u "container", PStr (u "numpy"))].
Example cram_metadata :
  rbind (dumps cram_meta) (fun r => Ok (zlen r)) = Ok 68 /\
  effective_max_meta_size default_margs 68 = Ok 680 /\
  METADATA_HEADER_LENGTH + 680 + cks_size CkAdler32 = 716 /\ 13496 + 716 = 14212 /\
  match mk_mheader (b_of_string "JSON") create_metadata_options "adler32" "zlib" 6 68 680 63 [] with
  | Ok h => map string_of_list_ascii (split_nl (mheader_text h)) =
      ["MetadataHeader:"; "    magic_format: b'JSON'"; "    meta_options: '00000000'"; "    meta_checksum: 'adler32'"; "    meta_codec: 'zlib'";
       "    meta_level: 6"; "    meta_size: 68.0B (68B)"; "    max_meta_size: 680.0B (680B)"; "    meta_comp_size: 63.0B (63B)"; "    user_codec: b''"]%string
  | Raise _ => False
  end.
Proof. vm_compute. repeat split. Qed.
(** test_verbose_debug.cram: repr of the header *)
Example cram_debug_header :
  snd (o_repr (header_obj (mkH 3 true false CkAdler32 8 52428800 2713600 4 40))) =
  Ok (t_ "BloscpackHeader(format_version=3, offsets=True, metadata=False, checksum='adler32', typesize=8, chunk_size=52428800, last_chunk=2713600, nchunks=4, max_app_chunks=40)") /\
  calculate_nchunks 160000000 (CSInt 52428800) = Ok (4, 52428800, 2713600) /\ BLOSCPACK_HEADER_LENGTH + 8 * 44 = 384 /\ 384 + 716 = 1100.
Proof. vm_compute. repeat split. Qed.
