(** Model of bloscpack/headers.py (and the constants of constants.py). *)
From Verif Require Import Base Checksums.

(** constants.py:13-46 and the two constants imported from python-blosc
    (BLOSC_MAX_BUFFERSIZE = INT_MAX - 16, BLOSC_MAX_TYPESIZE). *)
Definition FORMAT_VERSION : Z := 3.
Definition MAGIC : bytes := b_of_string "blpk".
Definition BLOSCPACK_HEADER_LENGTH : Z := 32.
Definition METADATA_HEADER_LENGTH : Z := 32.
Definition BLOSC_HEADER_LENGTH : Z := 16.
Definition MAX_FORMAT_VERSION : Z := 255.
Definition MAX_CHUNKS : Z := 9223372036854775807.
Definition MAX_META_SIZE : Z := 4294967295.
Definition MIN_CLEVEL : Z := 0.
Definition MAX_CLEVEL : Z := 9.
Definition BLOSC_MAX_BUFFERSIZE : Z := 2147483631.
Definition BLOSC_MAX_TYPESIZE : Z := 255.

(** check_range (headers.py:42-49) on ints; the non-int case (TypeError) is in
    [Dynamic]. *)
Definition check_range (v lo hi : Z) : res unit :=
  if (lo <=? v) && (v <=? hi) then Ok tt else Raise ValueError.

(** _check_str (headers.py:52-57) on bytes. *)
Definition check_str (v : bytes) (max_len : Z) : res unit :=
  if max_len <? zlen v then Raise ValueError else Ok tt.

(** _pad_with_nulls (headers.py:60-70). *)
Definition pad_with_nulls (d : bytes) (n : Z) : bytes := d ++ zrep (n - zlen d) x00.

(** check_options (headers.py:73-96) on strings. *)
Definition is01 (c : ascii) : bool := Ascii.eqb c "0"%char || Ascii.eqb c "1"%char.
Definition check_options (s : string) : res unit :=
  if (String.length s =? 8)%nat && forallb is01 (list_ascii_of_string s)
  then Ok tt else Raise ValueError.

(** check_options_zero (headers.py:99-103) for indices 0..n-1; [options] has
    passed [check_options]. *)
Definition check_options_zero (s : string) (n : nat) : res unit :=
  if forallb (fun c => Ascii.eqb c "0"%char) (firstn n (list_ascii_of_string s))
  then Ok tt else Raise ValueError.

(** struct.pack (encode_* at headers.py:136-149): struct.error out of range. *)
Definition pack_int (n : nat) (lo hi z : Z) : res bytes :=
  if (lo <=? z) && (z <=? hi) then Ok (le_enc n z) else Raise StructError.
Definition encode_uint8 := pack_int 1 0 255.
Definition encode_uint32 := pack_int 4 0 4294967295.
Definition encode_int32 := pack_int 4 (-2147483648) 2147483647.
Definition encode_int64 := pack_int 8 (-9223372036854775808) 9223372036854775807.

(** struct.unpack (decode_* at headers.py:113-122): struct.error on a buffer of
    the wrong length. *)
Definition signed (bits u : Z) : Z := if u <? 2 ^ (bits - 1) then u else u - 2 ^ bits.
Definition decode_uint32 (b : bytes) : res Z :=
  if zlen b =? 4 then Ok (le_dec b) else Raise StructError.
Definition decode_int32 (b : bytes) : res Z :=
  if zlen b =? 4 then Ok (signed 32 (le_dec b)) else Raise StructError.
Definition decode_int64 (b : bytes) : res Z :=
  if zlen b =? 8 then Ok (signed 64 (le_dec b)) else Raise StructError.

(** [buf[i]] followed by decode_uint8 (headers.py:106-110): IndexError beyond
    the end. *)
Definition byte_at (i : nat) (b : bytes) : res Z :=
  match nth_error b i with Some x => Ok (Zb x) | None => Raise IndexError end.

(** decode_bitfield (headers.py:125-126): bin(n)[2:].rjust(8,'0') for a byte. *)
Definition bitchar (z : Z) (i : Z) : ascii := if Z.testbit z i then "1"%char else "0"%char.
Definition decode_bitfield (z : Z) : string :=
  string_of_list_ascii (map (bitchar z) [7; 6; 5; 4; 3; 2; 1; 0]).

(** int(s, 2) on a string of 0s and 1s (headers.py:346-348, 463). *)
Definition int_of_bits (s : string) : Z :=
  fold_left (fun acc c => 2 * acc + (if Ascii.eqb c "1"%char then 1 else 0))
            (list_ascii_of_string s) 0.

(** decode_magic_string (headers.py:129-133): strip NULs at both ends. *)
Fixpoint lstrip0 (b : bytes) : bytes :=
  match b with x00 :: r => lstrip0 r | _ => b end.
Definition strip0 (b : bytes) : bytes := rev (lstrip0 (rev (lstrip0 b))).

(** create_options (headers.py:152-161). *)
Definition create_options (offsets metadata : bool) : string :=
  let c (b : bool) := if b then "1"%char else "0"%char in
  string_of_list_ascii
    ["0"%char; "0"%char; "0"%char; "0"%char; "0"%char; "0"%char; c metadata; c offsets].

(** decode_options (headers.py:164-181): (offsets, metadata). *)
Definition str_nth (s : string) (i : nat) : ascii :=
  match String.get i s with Some c => c | None => "0"%char end.
Definition decode_options (s : string) : res (bool * bool) :=
  _ <~ check_options s ;;
  _ <~ check_options_zero s 6 ;;
  Ok (Ascii.eqb (str_nth s 7) "1"%char, Ascii.eqb (str_nth s 6) "1"%char).

(** create_metadata_options / decode_metadata_options (headers.py:184-192);
    the decoder is defined but not called by any reader. *)
Definition create_metadata_options : string := "00000000"%string.
Definition decode_metadata_options (s : string) : res unit :=
  _ <~ check_options s ;; check_options_zero s 8.

(** decode_blosc_header (headers.py:195-221). *)
Record blosc_header := mkBH {
  bh_version : Z; bh_versionlz : Z; bh_flags : Z; bh_typesize : Z;
  bh_nbytes : Z; bh_blocksize : Z; bh_ctbytes : Z }.
Definition decode_blosc_header (b : bytes) : res blosc_header :=
  v <~ byte_at 0 b ;; vl <~ byte_at 1 b ;; fl <~ byte_at 2 b ;; ts <~ byte_at 3 b ;;
  nb <~ decode_uint32 (slice 4 8 b) ;;
  bs <~ decode_uint32 (slice 8 12 b) ;;
  ct <~ decode_uint32 (slice 12 16 b) ;;
  Ok (mkBH v vl fl ts nb bs ct).

(** decode_blosc_flags (headers.py:224-230) on a byte value; CNAME_MAPPING
    (constants.py:40-46) has keys 0..4 only: KeyError otherwise. *)
Record blosc_flags := mkBF {
  bf_byte_shuffle : bool; bf_pure_memcpy : bool; bf_bit_shuffle : bool;
  bf_split_blocks : bool; bf_codec : string }.
Definition cname_mapping (i : Z) : res string :=
  if i =? 0 then Ok "blosclz"%string else if i =? 1 then Ok "lz4"%string
  else if i =? 2 then Ok "snappy"%string else if i =? 3 then Ok "zlib"%string
  else if i =? 4 then Ok "zstd"%string else Raise KeyError.
Definition decode_blosc_flags (z : Z) : res blosc_flags :=
  c <~ cname_mapping (Z.land (Z.shiftr z 5) 7) ;;
  Ok (mkBF (negb (Z.land z 1 =? 0)) (negb (Z.land (Z.shiftr z 1) 1 =? 0))
           (negb (Z.land (Z.shiftr z 2) 1 =? 0)) (negb (Z.land (Z.shiftr z 4) 1 =? 0)) c).

(** BloscpackHeader (headers.py:233-400).  The checksum is kept as one of the
    nine values since __init__ rejects any other name. *)
Record header := mkH {
  h_version : Z; h_offsets : bool; h_metadata : bool; h_checksum : cks;
  h_typesize : Z; h_chunk_size : Z; h_last_chunk : Z; h_nchunks : Z; h_max_app : Z }.

(** The tests of __init__ after the checksum lookup (headers.py:281-295). *)
Definition check_header_nums (ts cs lc n m : Z) : res unit :=
  _ <~ check_range ts 0 BLOSC_MAX_TYPESIZE ;;
  _ <~ check_range cs (-1) BLOSC_MAX_BUFFERSIZE ;;
  _ <~ check_range lc (-1) BLOSC_MAX_BUFFERSIZE ;;
  _ <~ check_range n (-1) MAX_CHUNKS ;;
  _ <~ check_range m 0 MAX_CHUNKS ;;
  _ <~ (if negb (n =? -1) then check_range (n + m) 0 MAX_CHUNKS
        else if negb (m =? 0) then Raise ValueError else Ok tt) ;;
  if negb (cs =? -1) && negb (lc =? -1) && (cs <? lc) then Raise ValueError else Ok tt.

(** BloscpackHeader.__init__ (headers.py:268-317). *)
Definition mk_header (ver : Z) (off meta : bool) (ck : string) (ts cs lc n m : Z) : res header :=
  _ <~ check_range ver 0 MAX_FORMAT_VERSION ;;
  c <~ check_valid_checksum ck ;;
  _ <~ check_header_nums ts cs lc n m ;;
  Ok (mkH ver off meta c ts cs lc n m).

(** total_prospective_chunks (headers.py:331-334): None when unknown. *)
Definition total_prospective_chunks (h : header) : option Z :=
  if 0 <=? h_nchunks h then Some (h_nchunks h + h_max_app h) else None.

(** BloscpackHeader.encode (headers.py:336-360). *)
Definition header_encode (h : header) : res bytes :=
  ver <~ encode_uint8 (h_version h) ;;
  opts <~ encode_uint8 (int_of_bits (create_options (h_offsets h) (h_metadata h))) ;;
  ck <~ encode_uint8 (cks_index (h_checksum h)) ;;
  ts <~ encode_uint8 (h_typesize h) ;;
  cs <~ encode_int32 (h_chunk_size h) ;;
  lc <~ encode_int32 (h_last_chunk h) ;;
  n <~ encode_int64 (h_nchunks h) ;;
  m <~ encode_int64 (h_max_app h) ;;
  Ok (MAGIC ++ ver ++ opts ++ ck ++ ts ++ cs ++ lc ++ n ++ m).

(** BloscpackHeader.decode (headers.py:362-400). *)
Definition header_decode (b : bytes) : res header :=
  if negb (zlen b =? BLOSCPACK_HEADER_LENGTH) then Raise ValueError
  else if negb (bytes_eqb (slice 0 4 b) MAGIC) then Raise ValueError
  else
    o <~ byte_at 5 b ;;
    om <~ decode_options (decode_bitfield o) ;;
    ver <~ byte_at 4 b ;;
    ci <~ byte_at 6 b ;;
    ck <~ cks_of_index ci ;;
    ts <~ byte_at 7 b ;;
    cs <~ decode_int32 (slice 8 12 b) ;;
    lc <~ decode_int32 (slice 12 16 b) ;;
    n <~ decode_int64 (slice 16 24 b) ;;
    m <~ decode_int64 (slice 24 32 b) ;;
    mk_header ver (fst om) (snd om) (cks_name ck) ts cs lc n m.

(** MetadataHeader (headers.py:403-492). *)
Record mheader := mkMH {
  mh_magic : bytes; mh_options : string; mh_checksum : cks; mh_codec : codec;
  mh_level : Z; mh_size : Z; mh_max : Z; mh_comp : Z; mh_user : bytes }.

(** MetadataHeader.__init__ (headers.py:405-450). *)
Definition mk_mheader (magic : bytes) (opts ck co : string) (lvl sz mx cm : Z) (user : bytes)
  : res mheader :=
  _ <~ check_str magic 8 ;;
  _ <~ check_options opts ;;
  c <~ check_valid_checksum ck ;;
  k <~ check_valid_codec co ;;
  _ <~ check_range lvl 0 MAX_CLEVEL ;;
  _ <~ check_range sz 0 MAX_META_SIZE ;;
  _ <~ check_range mx 0 MAX_META_SIZE ;;
  _ <~ check_range cm 0 MAX_META_SIZE ;;
  _ <~ check_str user 8 ;;
  Ok (mkMH magic opts c k lvl sz mx cm user).

(** MetadataHeader.encode (headers.py:460-474). *)
Definition mheader_encode (h : mheader) : res bytes :=
  opts <~ encode_uint8 (int_of_bits (mh_options h)) ;;
  ck <~ encode_uint8 (cks_index (mh_checksum h)) ;;
  co <~ encode_uint8 (codec_index (mh_codec h)) ;;
  lvl <~ encode_uint8 (mh_level h) ;;
  sz <~ encode_uint32 (mh_size h) ;;
  mx <~ encode_uint32 (mh_max h) ;;
  cm <~ encode_uint32 (mh_comp h) ;;
  Ok (pad_with_nulls (mh_magic h) 8 ++ opts ++ ck ++ co ++ lvl ++ sz ++ mx ++ cm
      ++ pad_with_nulls (mh_user h) 8).

(** MetadataHeader.decode (headers.py:476-492). *)
Definition mheader_decode (b : bytes) : res mheader :=
  if negb (zlen b =? 32) then Raise ValueError
  else
    o <~ byte_at 8 b ;;
    ci <~ byte_at 9 b ;; ck <~ cks_of_index ci ;;
    ki <~ byte_at 10 b ;; co <~ codec_of_index ki ;;
    lvl <~ byte_at 11 b ;;
    sz <~ decode_uint32 (slice 12 16 b) ;;
    mx <~ decode_uint32 (slice 16 20 b) ;;
    cm <~ decode_uint32 (slice 20 24 b) ;;
    mk_mheader (strip0 (slice 0 8 b)) (decode_bitfield o) (cks_name ck) (codec_name co)
               lvl sz mx cm (strip0 (slice 24 32 b)).
