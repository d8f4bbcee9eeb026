(** Header constructors with arguments of any type (headers.py:42-96, 152-161,
    268-317, 336-360, 405-474), and packing with any value as 'offsets'.  Python
    checks types at run time; [Headers] models well-typed arguments only. *)
From Verif Require Import Base PyVal Checksums Headers Pretty Args FileIO Cli Objects.

(** A Python value, as far as the code looks at it.  [DNum t i] is a number that is
    not an int (a float, a numpy scalar, a Fraction ..) with truth value [t], of which
    int() makes [i]; [DTuple n] is a tuple of n elements; [DObj t] anything else
    (list, dict, ..) with truth value [t].  Strings are ASCII. *)
Inductive dyn :=
| DNone | DBool (b : bool) | DInt (z : Z) | DNum (t : bool) (i : res Z) | DStr (s : text) | DBytes (b : bytes)
| DTuple (n : nat) | DObj (t : bool).

(** isinstance(value, integer_types): bool is a subclass of int. *)
Definition as_int (v : dyn) : option Z :=
  match v with DInt z => Some z | DBool b => Some (if b then 1 else 0) | _ => None end.
Definition int_or_0 (v : dyn) : Z := match as_int v with Some z => z | None => 0 end.

(** check_range (headers.py:42-49). *)
Definition d_check_range (v : dyn) (lo hi : Z) : res unit :=
  match as_int v with None => Raise TypeError | Some z => check_range z lo hi end.
(** _check_str (headers.py:52-57). *)
Definition d_check_str (v : dyn) (max_len : Z) : res unit :=
  match v with DBytes b => check_str b max_len | _ => Raise TypeError end.
(** check_options (headers.py:73-96). *)
Definition d_check_options (v : dyn) : res unit :=
  match v with DStr s => check_options (string_of_list_ascii s) | _ => Raise TypeError end.
(** check_valid_checksum (checksums.py:71-85) and check_valid_codec
    (metacodecs.py:43-57); formatting the message with '%' is itself a TypeError for
    a tuple that has not exactly one element. *)
Definition d_not_valid (v : dyn) (e : exn) : res unit :=
  match v with DTuple n => if (n =? 1)%nat then Raise e else Raise TypeError | _ => Raise e end.
Definition d_check_checksum (v : dyn) : res unit :=
  match v with
  | DStr s => _ <~ check_valid_checksum (string_of_list_ascii s) ;; Ok tt
  | _ => d_not_valid v NoSuchChecksum
  end.
Definition d_check_codec (v : dyn) : res unit :=
  match v with
  | DStr s => _ <~ check_valid_codec (string_of_list_ascii s) ;; Ok tt
  | _ => d_not_valid v NoSuchCodec
  end.

(** Keyword arguments: those given, and a default for the others.  An unknown keyword
    is a TypeError of the call. *)
Definition kwargs := list (string * dyn).
Fixpoint arg (kw : kwargs) (k : string) (d : dyn) : dyn :=
  match kw with [] => d | (k', v) :: r => if String.eqb k k' then v else arg r k d end.
Definition check_keywords (kw : kwargs) (known : list string) : res unit :=
  if forallb (fun kv => mem (fst kv) known) kw then Ok tt else Raise TypeError.

(** BloscpackHeader.__init__ (headers.py:268-317): 'offsets' and 'metadata' are stored
    without a look at them. *)
Record dheader := mkDH {
  d_version : dyn; d_offsets : dyn; d_metadata : dyn; d_checksum : dyn;
  d_typesize : dyn; d_chunk_size : dyn; d_last_chunk : dyn; d_nchunks : dyn; d_max_app : dyn }.
Definition new_header (kw : kwargs) : res dheader :=
  _ <~ check_keywords kw header_attrs ;;
  let ver := arg kw "format_version" (DInt FORMAT_VERSION) in
  let off := arg kw "offsets" (DBool false) in
  let meta := arg kw "metadata" (DBool false) in
  let ck := arg kw "checksum" (DStr (t_ "None")) in
  let ts := arg kw "typesize" (DInt 0) in
  let cs := arg kw "chunk_size" (DInt (-1)) in
  let lc := arg kw "last_chunk" (DInt (-1)) in
  let n := arg kw "nchunks" (DInt (-1)) in
  let m := arg kw "max_app_chunks" (DInt 0) in
  _ <~ d_check_range ver 0 MAX_FORMAT_VERSION ;;
  _ <~ d_check_checksum ck ;;
  _ <~ d_check_range ts 0 BLOSC_MAX_TYPESIZE ;;
  _ <~ d_check_range cs (-1) BLOSC_MAX_BUFFERSIZE ;;
  _ <~ d_check_range lc (-1) BLOSC_MAX_BUFFERSIZE ;;
  _ <~ d_check_range n (-1) MAX_CHUNKS ;;
  _ <~ d_check_range m 0 MAX_CHUNKS ;;
  _ <~ (if negb (int_or_0 n =? -1) then check_range (int_or_0 n + int_or_0 m) 0 MAX_CHUNKS
        else if negb (int_or_0 m =? 0) then Raise ValueError else Ok tt) ;;
  _ <~ (if negb (int_or_0 cs =? -1) && negb (int_or_0 lc =? -1) && (int_or_0 cs <? int_or_0 lc) then Raise ValueError else Ok tt) ;;
  Ok (mkDH ver off meta ck ts cs lc n m).

(** int(value): a str (ASCII here) or bytes as PyLong_FromString reads it. *)
Definition int_of_bytes (b : bytes) : res Z := int_of_text (string_of_list_ascii (map ascii_of_byte b)).
Definition d_int (v : dyn) : res Z :=
  match v with
  | DBool b => Ok (if b then 1 else 0)
  | DInt z => Ok z
  | DNum _ i => i
  | DStr s => int_of_text (string_of_list_ascii s)
  | DBytes b => int_of_bytes b
  | DNone | DTuple _ | DObj _ => Raise TypeError
  end.
(** create_options (headers.py:152-161) and int(.., 2) of it (headers.py:346-348). *)
Definition d_create_options (off meta : dyn) : res text :=
  m <~ d_int meta ;; o <~ d_int off ;; Ok (t_ "000000" ++ int_text m ++ int_text o).
Definition int_base2 (s : text) : res Z :=
  if forallb is01 s then Ok (int_of_bits (string_of_list_ascii s)) else Raise ValueError.
(** struct.pack of an int; of anything else (not possible after __init__) struct.error. *)
Definition d_pack (enc : Z -> res bytes) (v : dyn) : res bytes :=
  match as_int v with Some z => enc z | None => Raise StructError end.
(** BloscpackHeader.encode (headers.py:336-360). *)
Definition d_header_encode (h : dheader) : res bytes :=
  ver <~ d_pack encode_uint8 (d_version h) ;;
  o <~ d_create_options (d_offsets h) (d_metadata h) ;;
  b <~ int_base2 o ;;
  opts <~ encode_uint8 b ;;
  c <~ match d_checksum h with
       | DStr s => match check_valid_checksum (string_of_list_ascii s) with Ok c => Ok c | Raise _ => Raise ValueError end
       | _ => Raise ValueError
       end ;;
  ck <~ encode_uint8 (cks_index c) ;;
  ts <~ d_pack encode_uint8 (d_typesize h) ;;
  cs <~ d_pack encode_int32 (d_chunk_size h) ;;
  lc <~ d_pack encode_int32 (d_last_chunk h) ;;
  n <~ d_pack encode_int64 (d_nchunks h) ;;
  m <~ d_pack encode_int64 (d_max_app h) ;;
  Ok (MAGIC ++ ver ++ opts ++ ck ++ ts ++ cs ++ lc ++ n ++ m).

(** MetadataHeader.__init__ (headers.py:405-450). *)
Record dmheader := mkDMH {
  dm_magic : dyn; dm_options : dyn; dm_checksum : dyn; dm_codec : dyn;
  dm_level : dyn; dm_size : dyn; dm_max : dyn; dm_comp : dyn; dm_user : dyn }.
Definition new_mheader (kw : kwargs) : res dmheader :=
  _ <~ check_keywords kw mheader_attrs ;;
  let magic := arg kw "magic_format" (DBytes []) in
  let opts := arg kw "meta_options" (DStr (t_ "00000000")) in
  let ck := arg kw "meta_checksum" (DStr (t_ "None")) in
  let co := arg kw "meta_codec" (DStr (t_ "None")) in
  let lvl := arg kw "meta_level" (DInt 0) in
  let sz := arg kw "meta_size" (DInt 0) in
  let mx := arg kw "max_meta_size" (DInt 0) in
  let cm := arg kw "meta_comp_size" (DInt 0) in
  let user := arg kw "user_codec" (DBytes []) in
  _ <~ d_check_str magic 8 ;;
  _ <~ d_check_options opts ;;
  _ <~ d_check_checksum ck ;;
  _ <~ d_check_codec co ;;
  _ <~ d_check_range lvl 0 MAX_CLEVEL ;;
  _ <~ d_check_range sz 0 MAX_META_SIZE ;;
  _ <~ d_check_range mx 0 MAX_META_SIZE ;;
  _ <~ d_check_range cm 0 MAX_META_SIZE ;;
  _ <~ d_check_str user 8 ;;
  Ok (mkDMH magic opts ck co lvl sz mx cm user).
(** MetadataHeader.encode (headers.py:460-474), of a header that __init__ has accepted. *)
Definition d_mheader_encode (h : dmheader) : res bytes :=
  match dm_magic h, dm_options h, dm_checksum h, dm_codec h, dm_user h with
  | DBytes magic, DStr o, DStr c, DStr k, DBytes user =>
      opts <~ encode_uint8 (int_of_bits (string_of_list_ascii o)) ;;
      c <~ check_valid_checksum (string_of_list_ascii c) ;; ck <~ encode_uint8 (cks_index c) ;;
      k <~ check_valid_codec (string_of_list_ascii k) ;; co <~ encode_uint8 (codec_index k) ;;
      lvl <~ d_pack encode_uint8 (dm_level h) ;;
      sz <~ d_pack encode_uint32 (dm_size h) ;;
      mx <~ d_pack encode_uint32 (dm_max h) ;;
      cm <~ d_pack encode_uint32 (dm_comp h) ;;
      Ok (pad_with_nulls magic 8 ++ opts ++ ck ++ co ++ lvl ++ sz ++ mx ++ cm ++ pad_with_nulls user 8)
  | _, _, _, _, _ => Raise TypeError
  end.

(** bool(value). *)
Definition d_truth (v : dyn) : bool :=
  match v with
  | DNone => false
  | DBool b => b
  | DInt z => negb (z =? 0)
  | DNum t _ => t
  | DStr s => negb (zlen s =? 0)
  | DBytes b => negb (zlen b =? 0)
  | DTuple n => negb (n =? 0)%nat
  | DObj t => t
  end.

(** pack_bytes_to_bytes with BloscpackArgs(offsets=[off]) (args.py:350-357 stores it
    unchecked): pack and the sink only test it ('if offsets', args.py:263,
    file_io.py:400, 407, 415), but the header encodes it (abstract_io.py:135-136,
    file_io.py:390-392). *)
Section Env.
Context (E : Env).
Definition d_header_of (off : dyn) (h : header) : dheader :=
  mkDH (DInt (h_version h)) off (DBool (h_metadata h)) (DStr (t_ (cks_name (h_checksum h))))
       (DInt (h_typesize h)) (DInt (h_chunk_size h)) (DInt (h_last_chunk h)) (DInt (h_nchunks h)) (DInt (h_max_app h)).
Definition d_write_header (off : dyn) : SM cfs unit :=
  fun s => on_fp (b <- lift (d_header_encode (d_header_of off (s_header s))) ;; f_write b) s.
Definition d_fp_sink (off : dyn) : compressed_sink cfs :=
  mkCS cfs fps_configure (d_write_header off) (fps_write_metadata E) fps_init_offsets (fps_put E) (fps_finalize E).
Definition d_pack_bytes (b : bytes) (cs : csarg) (m : pyval) (oba : option bargs)
    (off : dyn) (ck : string) (max_app : macarg) (oma : option margs) : res bytes :=
  match calculate_nchunks (zlen b) cs with
  | Raise e => Raise e
  | Ok (n, c, l) =>
  let '((_, s), r) := pack (fp_source E) (d_fp_sink off) n c l m oba (Some (mkBPA (d_truth off) ck max_app)) oma
                           (fp_of b, cfs_of (fp_of [])) in
  rbind r (fun _ => Ok (fdata (s_fp s)))
  end.
End Env.
