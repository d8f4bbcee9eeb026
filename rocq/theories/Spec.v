(** Specification vocabulary, independent of the model of the code: what a
    little-endian field of a byte string is, what it means for a list to be cut
    into chunks, what is on disk after a prefix of the writes, and the contract
    assumed of the external libraries.  Nothing here models /repo. *)
From Verif Require Import Base PyVal Checksums Headers Pretty Args FileIO.

(** Bytes a .. a+n-1 of a byte string. *)
Definition sub (a n : Z) (f : bytes) : bytes := firstn (Z.to_nat n) (skipn (Z.to_nat a) f).

(** Unsigned little-endian value: sum of b_i * 256^i. *)
Definition uint_le (b : bytes) : Z := fold_right (fun x acc => Z.of_N (Byte.to_N x) + 256 * acc) 0 b.
(** Two's complement little-endian value of a byte string. *)
Definition sint_le (b : bytes) : Z :=
  let v := uint_le b in let m := 256 ^ Z.of_nat (List.length b) in
  if v <? m / 2 then v else v - m.

Definition u8 (p : Z) (f : bytes) : Z := uint_le (sub p 1 f).
Definition u32 (p : Z) (f : bytes) : Z := uint_le (sub p 4 f).
Definition i32 (p : Z) (f : bytes) : Z := sint_le (sub p 4 f).
Definition i64 (p : Z) (f : bytes) : Z := sint_le (sub p 8 f).

(** [len f], as an integer. *)
Definition size (f : bytes) : Z := Z.of_nat (List.length f).

(** Cutting [x] into pieces of [c] bytes, the last one being what is left (at
    least one piece; the number of pieces is bounded by the fuel). *)
Fixpoint cut (fuel : nat) (c : Z) (x : bytes) : list bytes :=
  match fuel with
  | O => [x]
  | S k => if size x <=? c then [x] else sub 0 c x :: cut k c (skipn (Z.to_nat c) x)
  end.
Definition chunks_of (c : Z) (x : bytes) : list bytes := cut (List.length x) c x.

(** The chunk size a user asks for, when given as a number or as a text that
    reverse_pretty understands. *)
Definition asked (cs : csarg) (z : Z) : Prop :=
  match cs with CSInt v => v = z | CSStr s => reverse_pretty s = Ok z | CSOther => False end.

(* ------------------------------------------------------------------ *)
(** * Format tables and field ranges (header_rfc / README of the format) *)

(** Largest buffer Blosc accepts: 2^31 - 1 - 16. *)
Definition BUFMAX : Z := 2147483631.

(** Ranges of typesize, chunk-size, last-chunk, nchunks, max-app-chunks. *)
Definition header_nums_ok (ts cs lc n m : Z) : Prop :=
  0 <= ts <= 255 /\ -1 <= cs <= BUFMAX /\ -1 <= lc <= BUFMAX /\ -1 <= n /\ 0 <= m /\
  (n = -1 -> m = 0) /\ n + m <= 2 ^ 63 - 1 /\
  (cs <> -1 -> lc <> -1 -> lc <= cs).

Definition checksum_names : list string :=
  ["None"; "adler32"; "crc32"; "md5"; "sha1"; "sha224"; "sha256"; "sha384"; "sha512"]%string.
(** Digest sizes in bytes, in the same order; size for a checksum code. *)
Definition digest_sizes : list Z := [0; 4; 4; 16; 20; 28; 32; 48; 64].
Definition digest_len (code : Z) : Z := nth (Z.to_nat code) digest_sizes 0.
Definition codec_names : list string := ["None"; "zlib"]%string.

(** The 32 bytes [b] spell the header [h]. *)
Definition header_describes (b : bytes) (h : header) : Prop :=
  size b = 32 /\ sub 0 4 b = b_of_string "blpk" /\
  u8 4 b = h_version h /\
  u8 5 b = (if h_offsets h then 1 else 0) + (if h_metadata h then 2 else 0) /\
  nth_error checksum_names (Z.to_nat (u8 6 b)) = Some (cks_name (h_checksum h)) /\
  u8 7 b = h_typesize h /\ i32 8 b = h_chunk_size h /\ i32 12 b = h_last_chunk h /\
  i64 16 b = h_nchunks h /\ i64 24 b = h_max_app h.

(** No NUL byte at either end. *)
Definition no_edge_nul (b : bytes) : Prop :=
  match b with [] => True | x :: _ => x <> x00 end /\
  match rev b with [] => True | x :: _ => x <> x00 end.

(** The 32 bytes [b] spell the metadata header [h]: identifiers NUL-padded to 8
    bytes, little-endian unsigned sizes. *)
Definition padded8 (x : bytes) : bytes := firstn 8 (x ++ repeat x00 8).
Definition mheader_describes (b : bytes) (h : mheader) : Prop :=
  size b = 32 /\ sub 0 8 b = padded8 (mh_magic h) /\
  mh_options h = string_of_list_ascii
     (map (fun i => if Z.odd (u8 8 b / 2 ^ i) then "1"%char else "0"%char) [7; 6; 5; 4; 3; 2; 1; 0]) /\
  nth_error checksum_names (Z.to_nat (u8 9 b)) = Some (cks_name (mh_checksum h)) /\
  nth_error codec_names (Z.to_nat (u8 10 b)) = Some (codec_name (mh_codec h)) /\
  u8 11 b = mh_level h /\ u32 12 b = mh_size h /\ u32 16 b = mh_max h /\ u32 20 b = mh_comp h /\
  sub 24 8 b = padded8 (mh_user h).

(** Contents after a single byte write at position p (gaps read as NUL). *)
Definition poke (d : bytes) (w : Z * byte) : bytes :=
  let '(p, b) := w in
  let n := Z.to_nat p in
  if (n <? List.length d)%nat then firstn n d ++ b :: skipn (S n) d
  else d ++ repeat x00 (n - List.length d) ++ [b].
(** What is on disk when a crash happens after the first [k] single-byte writes
    of [log], starting from [d]. *)
Definition crash (k : nat) (log : list (Z * byte)) (d : bytes) : bytes :=
  fold_left poke (firstn k log) d.

(** Two byte strings of equal length that differ in exactly the position p. *)
Definition differ_at (p : Z) (f g : bytes) : Prop :=
  size f = size g /\ 0 <= p < size f /\
  (forall i, i <> Z.to_nat p -> nth_error f i = nth_error g i) /\
  nth_error f (Z.to_nat p) <> nth_error g (Z.to_nat p).

(** f and g agree on positions a .. a+n-1 *)
Definition agree (a n : Z) (f g : bytes) : Prop :=
  forall i, a <= i < a + n -> nth_error f (Z.to_nat i) = nth_error g (Z.to_nat i).

(** RFC 1950: A = 1 + sum of the bytes, B = n + sum of (n - i) * byte i (i counted
    from 0), both modulo 65521; the checksum is B * 65536 + A. *)
Definition u8b (x : byte) : Z := Z.of_N (Byte.to_N x).
Fixpoint byte_sum (d : bytes) : Z := match d with [] => 0 | x :: r => u8b x + byte_sum r end.
Fixpoint weighted_sum (d : bytes) : Z := match d with [] => 0 | x :: r => (size r + 1) * u8b x + weighted_sum r end.
Definition adler_spec (d : bytes) : Z :=
  (1 + byte_sum d) mod 65521 + 65536 * ((size d + weighted_sum d) mod 65521).

(** The defaults that a missing argument object stands for. *)
Definition the_bargs (o : option bargs) : bargs := match o with Some a => a | None => default_bargs end.
Definition the_bpargs (o : option bpargs) : bpargs := match o with Some a => a | None => default_bpargs end.
Definition the_margs (o : option margs) : margs := match o with Some a => a | None => default_margs end.

(** What is stored of serialised metadata [raw]: the smaller of raw and
    compressed, raw if equal size is not reached. *)
Definition payload_of (E : Env) (a : margs) (raw p : bytes) : Prop :=
  (ma_codec a = "None"%string /\ p = raw) \/
  (ma_codec a = "zlib"%string /\ exists z, e_zcompress E raw (ma_level a) = Ok z /\
     p = if size raw <? size z then raw else z).
(** The preallocated size asked for, for metadata of [n] bytes. *)
Definition max_meta (a : margs) (n mx : Z) : Prop :=
  match ma_max a with MMInt v => v = mx | MMCall g => g n = Ok mx | MMOther => False end.
(** Metadata and arguments that can be written: raw text and stored payload. *)
Definition meta_fits (E : Env) (m : pyval) (a : margs) (raw p : bytes) (mx : Z) : Prop :=
  e_dumps E m = Ok raw /\ payload_of E a raw p /\ max_meta a (size raw) mx /\
  ma_magic a = b_of_string "JSON" /\ In (ma_checksum a) checksum_names /\ 0 <= ma_level a <= 9 /\
  size raw <= 4294967295 /\ size p <= mx <= 4294967295.

(** The append reserve asked for, for [n] chunks. *)
Definition reserve_of (m : macarg) (n v : Z) : Prop :=
  match m with MAInt x => x = v | MACall g => g n = Ok (Some v) | MAOther => False end.

(* ------------------------------------------------------------------ *)
(** * Contract of the external libraries *)

(** Arguments python-blosc accepts (blosc/toplevel.py: _check_typesize,
    _check_clevel, _check_cname; a bool is always a valid shuffle). *)
Definition blosc_args_ok (E : Env) (a : bargs) : Prop :=
  1 <= ba_typesize a <= 255 /\ 0 <= ba_clevel a <= 9 /\ e_cname_ok E (ba_cname a) = true.

Record EnvOK (E : Env) : Prop := mkEnvOK {
  (** blosc.compress succeeds on valid arguments and buffers up to 2^31-17 bytes *)
  ok_compress_total : forall a x, blosc_args_ok E a -> size x <= BUFMAX ->
      exists c, e_compress E a x = Ok c;
  (** ... and on no others *)
  ok_compress_only : forall a x c, e_compress E a x = Ok c ->
      blosc_args_ok E a /\ size x <= BUFMAX;
  (** its result is a Blosc buffer: 16-byte header holding the uncompressed and
      the compressed size, at most 16 bytes of overhead *)
  ok_compress_size : forall a x c, e_compress E a x = Ok c ->
      16 <= size c <= size x + 16 /\ u32 12 c = size c /\ u32 4 c = size x;
  (** and blosc.decompress inverts it *)
  ok_decompress : forall a x c, e_compress E a x = Ok c -> e_decompress E c = Ok x;
  (** python-blosc refuses a buffer whose length is not the one recorded in its
      header, and returns as many bytes as the header announces *)
  ok_decompress_len : forall c x, e_decompress E c = Ok x ->
      16 <= size c /\ u32 12 c = size c /\ u32 4 c = size x;
  (** zlib *)
  ok_zcompress_total : forall x l, 0 <= l <= 9 -> exists z, e_zcompress E x l = Ok z;
  ok_zdecompress : forall x l z, e_zcompress E x l = Ok z -> e_zdecompress E z = Ok x;
  (** hashlib digests have their nominal sizes *)
  ok_hashlib : forall c x, size (e_hashlib E c x) = cks_size c;
  (** json: what json.dumps writes, json.loads reads back, tuples becoming lists *)
  ok_json : forall m s, e_dumps E m = Ok s -> e_loads E s = Ok (norm m) }.
