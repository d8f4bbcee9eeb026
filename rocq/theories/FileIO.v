(** Model of bloscpack/abstract_io.py and bloscpack/file_io.py (file pointers,
    sources, sinks, pack, unpack, the bytes-to-bytes API). *)
From Verif Require Import Base PyVal Checksums Headers Args.

(* ------------------------------------------------------------------ *)
(** * The outside world: Blosc, zlib, hashlib, json *)

(** External functions, called but not defined in /repo. *)
Record Env := mkEnv {
  (** blosc.compress(data, typesize, clevel, shuffle, cname) (abstract_io.py:27) *)
  e_compress : bargs -> bytes -> res bytes;
  (** blosc.decompress(data) (file_io.py:379, append.py:121) *)
  e_decompress : bytes -> res bytes;
  (** membership in blosc.compressor_list() (constants.py:39) *)
  e_cname_ok : string -> bool;
  (** zlib.compress(data, level) / zlib.decompress(data) (metacodecs.py:38) *)
  e_zcompress : bytes -> Z -> res bytes;
  e_zdecompress : bytes -> res bytes;
  (** hashlib digests (checksums.py:60-65) *)
  e_hashlib : cks -> bytes -> bytes;
  (** json.dumps(x, separators=(',', ':')).encode() / json.loads(b.decode())
      (serializers.py:36-38, file_io.py:88-91, 231-233).  json.dumps escapes
      everything outside ASCII, so len(text) = len(text.encode()). *)
  e_dumps : pyval -> res bytes;
  e_loads : bytes -> res pyval;
  (** the file objects are io.BytesIO rather than files on disk: the two differ
      in what seeking to before the start does *)
  e_mem : bool }.

(* ------------------------------------------------------------------ *)
(** * File pointers *)

(** A seekable binary file object: contents, position, and (ghost) the log of
    all single-byte writes in program order, used to describe crash points. *)
Record fp := mkfp { fdata : bytes; fpos : Z; flog : list (Z * byte) }.

Definition fp_of (d : bytes) : fp := mkfp d 0 [].

(** Contents after writing [x] at position [p] (a gap is filled with NULs; an
    empty write changes nothing). *)
Definition write_at (d : bytes) (p : Z) (x : bytes) : bytes :=
  match x with
  | [] => d
  | _ => ztake p d ++ zrep (p - zlen d) x00 ++ x ++ zdrop (p + zlen x) d
  end.

Fixpoint log_of (p : Z) (x : bytes) : list (Z * byte) :=
  match x with [] => [] | b :: r => (p, b) :: log_of (p + 1) r end.

Definition f_write (x : bytes) : SM fp unit :=
  fun f => (mkfp (write_at (fdata f) (fpos f) x) (fpos f + zlen x)
                 (flog f ++ log_of (fpos f) x), Ok tt).
(** read(n); a negative n reads to the end. *)
Definition f_read (n : Z) : SM fp bytes :=
  fun f => let rest := zdrop (fpos f) (fdata f) in
           let x := if n <? 0 then rest else ztake n rest in
           (mkfp (fdata f) (fpos f + zlen x) (flog f), Ok x).
(** read(n) for n that may be 2**63 or more, which is an OverflowError.  (There are no
    files of that size; for the lists of bytes that are so long it reads on.) *)
Definition f_read_ssize (n : Z) : SM fp bytes :=
  fun f => if (2 ^ 63 <=? n) && (zlen (zdrop (fpos f) (fdata f)) <? n) then (f, Raise OverflowError) else f_read n f.
Definition f_tell : SM fp Z := fun f => (f, Ok (fpos f)).
Section WithEnv.
Variable E : Env.

(** seek(p, 0): a negative position raises, OSError for a file and ValueError for
    an io.BytesIO. *)
Definition f_seek (p : Z) : SM fp unit :=
  fun f => if p <? 0 then (f, Raise (if e_mem E then ValueError else OSError))
           else (mkfp (fdata f) p (flog f), Ok tt).
(** seek(d, 1): before the start, OSError for a file; io.BytesIO goes to the start. *)
Definition f_seek_rel (d : Z) : SM fp unit :=
  fun f => if fpos f + d <? 0
           then if e_mem E then (mkfp (fdata f) 0 (flog f), Ok tt) else (f, Raise OSError)
           else (mkfp (fdata f) (fpos f + d) (flog f), Ok tt).

Definition digest (c : cks) (d : bytes) : bytes := cks_digest (e_hashlib E) c d.

(** Codec.compress / Codec.decompress (metacodecs.py:31-38). *)
Definition codec_compress (c : codec) (d : bytes) (lvl : Z) : res bytes :=
  match c with CoNone => Ok d | CoZlib => e_zcompress E d lvl end.
Definition codec_decompress (c : codec) (d : bytes) : res bytes :=
  match c with CoNone => Ok d | CoZlib => e_zdecompress E d end.

(** SERIALIZERS_LOOKUP[magic] (serializers.py:36-40). *)
Definition serializer_lookup (magic : bytes) : res unit :=
  if bytes_eqb magic (b_of_string "JSON") then Ok tt else Raise KeyError.

(* ------------------------------------------------------------------ *)
(** * The metadata section *)

(** Loop writing [n] single NUL bytes (file_io.py:132-133). *)
Definition f_write_nulls (n : Z) : SM fp unit := f_write (zrep n x00).

(** What _write_metadata decides before writing anything
    (file_io.py:84-127): the payload, the section header and the possibly
    modified argument object. *)
Definition plan_metadata (m : pyval) (a : margs) : res (mheader * bytes * margs) :=
  _ <~ serializer_lookup (ma_magic a) ;;
  raw <~ e_dumps E m ;;
  let meta_size := zlen raw in
  pa <~ (if should_compress a then
           co <~ codec_lookup (ma_codec a) ;;
           z <~ codec_compress co raw (ma_level a) ;;
           if meta_size <? zlen z then Ok (raw, nullify_codec a) else Ok (z, a)
         else Ok (raw, a)) ;;
  let '(payload, a') := pa in
  mx <~ effective_max_meta_size a' meta_size ;;
  if mx <? zlen payload then Raise MetadataSectionTooSmall
  else
    co <~ codec_lookup (ma_codec a') ;;
    h <~ mk_mheader (ma_magic a') create_metadata_options (ma_checksum a') (codec_name co)
                    (ma_level a') meta_size mx (zlen payload) [] ;;
    Ok (h, payload, a').

(** _write_metadata (file_io.py:60-145): returns metadata_total and the
    argument object as left by nullify_codec. *)
Definition write_metadata (m : pyval) (a : margs) : SM fp (Z * margs) :=
  pl <- lift (plan_metadata m a) ;;
  let '(h, payload, a') := pl in
  raw <- lift (mheader_encode h) ;;
  f_write raw ;;;
  f_write payload ;;;
  f_write_nulls (mh_max h - mh_comp h) ;;;
  (if cks_eqb (mh_checksum h) CkNone then ret tt
   else f_write (digest (mh_checksum h) payload)) ;;;
  ret (METADATA_HEADER_LENGTH + mh_comp h + (mh_max h - mh_comp h) + cks_size (mh_checksum h), a').

(** _read_metadata (file_io.py:181-234). *)
Definition read_metadata : SM fp (pyval * mheader) :=
  raw <- f_read METADATA_HEADER_LENGTH ;;
  h <- lift (mheader_decode raw) ;;
  payload <- f_read (mh_comp h) ;;
  f_seek_rel (mh_max h - mh_comp h) ;;;
  (if cks_eqb (mh_checksum h) CkNone then ret tt
   else
     expected <- f_read (cks_size (mh_checksum h)) ;;
     if bytes_eqb (digest (mh_checksum h) payload) expected then ret tt
     else raise ChecksumMismatch) ;;;
  plain <- lift (codec_decompress (mh_codec h) payload) ;;
  lift (serializer_lookup (mh_magic h)) ;;;
  m <- lift (e_loads E plain) ;;
  ret (m, h).

(* ------------------------------------------------------------------ *)
(** * Reading the beginning of a file *)

(** _read_bloscpack_header (file_io.py:148-178). *)
Definition read_bloscpack_header : SM fp header :=
  raw <- f_read BLOSCPACK_HEADER_LENGTH ;;
  h <- lift (header_decode raw) ;;
  if FORMAT_VERSION =? h_version h then ret h else raise FormatVersionMismatch.

(** The list comprehension of file_io.py:260-261: the first [n] 8-byte words. *)
Fixpoint decode_offsets (n : nat) (raw : bytes) : res (list Z) :=
  match n with
  | O => Ok []
  | S n' => x <~ decode_int64 (ztake 8 raw) ;;
            r <~ decode_offsets n' (zdrop 8 raw) ;;
            Ok (x :: r)
  end.

(** _read_offsets (file_io.py:237-265).  With an unknown chunk count,
    [8 * None] is a TypeError.  The number of iterations is bounded by the
    words present plus one (the one that fails), which keeps hostile chunk
    counts computable: see [decode_offsets_cap]. *)
Definition read_offsets (h : header) : SM fp (list Z) :=
  if h_offsets h then
    match total_prospective_chunks h with
    | None => raise TypeError
    | Some t => raw <- f_read_ssize (8 * t) ;;
                lift (decode_offsets (Z.to_nat (Z.min (h_nchunks h) (zlen raw / 8 + 1))) raw)
    end
  else ret [].

(** _read_beginning (file_io.py:268-289). *)
Record beginning := mkBeg {
  b_header : header; b_meta : pyval; b_mheader : option mheader; b_offsets : list Z }.
Definition read_beginning : SM fp beginning :=
  h <- read_bloscpack_header ;;
  mm <- (if h_metadata h then r <- read_metadata ;; ret (fst r, Some (snd r))
         else ret (PNone, None)) ;;
  o <- read_offsets h ;;
  ret (mkBeg h (fst mm) (snd mm) o).

(* ------------------------------------------------------------------ *)
(** * Chunks *)

(** _write_offsets (file_io.py:292-298). *)
Fixpoint encode_offsets (l : list Z) : res bytes :=
  match l with
  | [] => Ok []
  | x :: r => b <~ encode_int64 x ;; bs <~ encode_offsets r ;; Ok (b ++ bs)
  end.
Definition write_offsets (l : list Z) : SM fp unit :=
  b <- lift (encode_offsets l) ;; f_write b.

(** _read_compressed_chunk_fp (file_io.py:301-334): compressed chunk, Blosc
    header and digest (None when the checksum has size 0). *)
Definition read_compressed_chunk (c : cks) : SM fp (bytes * blosc_header * option bytes) :=
  raw <- f_read BLOSC_HEADER_LENGTH ;;
  bh <- lift (decode_blosc_header raw) ;;
  f_seek_rel (- BLOSC_HEADER_LENGTH) ;;;
  compressed <- f_read (bh_ctbytes bh) ;;
  d <- (if 0 <? cks_size c then x <- f_read (cks_size c) ;; ret (Some x) else ret None) ;;
  ret (compressed, bh, d).

(** _write_compressed_chunk (file_io.py:337-340). *)
Definition write_compressed_chunk (compressed dig : bytes) : SM fp unit :=
  f_write compressed ;;;
  (if 0 <? zlen dig then f_write dig else ret tt).

(* ------------------------------------------------------------------ *)
(** * Sources and sinks, pack and unpack *)

(** Sizes requested by PlainFPSource.__iter__ (file_io.py:350-352). *)
Definition chunk_sizes (nchunks chunk_size last_chunk : Z) : list Z :=
  zrep (nchunks - 1) chunk_size ++ [last_chunk].

(** PlainFPSource (file_io.py:343-353): one step per chunk, reading lazily. *)
Definition fp_source_steps (nchunks chunk_size last_chunk : Z) : list (SM fp bytes) :=
  map f_read (chunk_sizes nchunks chunk_size last_chunk).

(** _compress_chunk_str (abstract_io.py:26-27). *)
Definition compress_chunk_str (a : bargs) (chunk : bytes) : res bytes := e_compress E a chunk.

(** A plain source (abstract_io.py:30-45): the steps of its iterator and its
    compress function; [Src] is the state of the underlying object. *)
Record plain_source (Src Chunk : Type) := mkPS {
  ps_steps : Z -> Z -> Z -> list (SM Src Chunk);
  ps_compress : bargs -> Chunk -> res bytes }.
Arguments ps_steps {Src Chunk}.
Arguments ps_compress {Src Chunk}.

(** A compressed sink (abstract_io.py:66-105). *)
Record compressed_sink (Snk : Type) := mkCS {
  cs_configure : bargs -> header -> Snk -> Snk;
  cs_write_header : SM Snk unit;
  cs_write_metadata : pyval -> margs -> SM Snk margs;
  cs_init_offsets : SM Snk unit;
  cs_put : Z -> bytes -> SM Snk unit;
  cs_finalize : SM Snk unit }.
Arguments cs_configure {Snk}.
Arguments cs_write_header {Snk}.
Arguments cs_write_metadata {Snk}.
Arguments cs_init_offsets {Snk}.
Arguments cs_put {Snk}.
Arguments cs_finalize {Snk}.

(** Lifting to the pair of source and sink states. *)
Definition onl {S T A} (m : SM S A) : SM (S * T) A :=
  fun st => let '(s, r) := m (fst st) in ((s, snd st), r).
Definition onr {S T A} (m : SM T A) : SM (S * T) A :=
  fun st => let '(t, r) := m (snd st) in ((fst st, t), r).

(** The read-compress-write loop (abstract_io.py:156-165). *)
Fixpoint pack_loop {Src Chunk Snk} (compress : Chunk -> res bytes) (put : Z -> bytes -> SM Snk unit)
         (i : Z) (steps : list (SM Src Chunk)) : SM (Src * Snk) unit :=
  match steps with
  | [] => ret tt
  | st :: rest =>
      chunk <- onl st ;;
      c <- lift (compress chunk) ;;
      onr (put i c) ;;;
      pack_loop compress put (i + 1) rest
  end.

(** pack (abstract_io.py:108-166).  [None] for an argument object means the
    default.  The result is the metadata argument object as the callee left
    it.  The isinstance tests are typing in the model. *)
Definition pack {Src Chunk Snk} (src : plain_source Src Chunk) (snk : compressed_sink Snk)
    (nchunks chunk_size last_chunk : Z) (m : pyval)
    (oba : option bargs) (obp : option bpargs) (oma : option margs)
    : SM (Src * Snk) (option margs) :=
  let ba := match oba with Some a => a | None => default_bargs end in
  let bp := match obp with Some a => a | None => default_bpargs end in
  let ma := match oma with Some a => a | None => default_margs end in
  max_app <- lift (handle_max_apps (bp_offsets bp) nchunks (bp_max_app bp)) ;;
  h <- lift (mk_header FORMAT_VERSION (bp_offsets bp) (negb (is_none m)) (bp_checksum bp)
                       (ba_typesize ba) chunk_size last_chunk nchunks max_app) ;;
  (fun st => ((fst st, cs_configure snk ba h (snd st)), Ok tt)) ;;;
  onr (cs_write_header snk) ;;;
  oma' <- (if is_none m then ret oma
           else a <- onr (cs_write_metadata snk m ma) ;; ret (Some a)) ;;
  onr (cs_init_offsets snk) ;;;
  pack_loop (ps_compress src ba) (cs_put snk) 0 (ps_steps src nchunks chunk_size last_chunk) ;;;
  onr (cs_finalize snk) ;;;
  ret oma'.

(** CompressedFPSink (file_io.py:384-417): file object, metadata size, header
    and offsets collected so far. *)
Record cfs := mkCFS { s_fp : fp; s_meta_total : Z; s_header : header; s_storage : list Z }.
Definition dummy_header : header := mkH 3 false false CkNone 0 (-1) (-1) (-1) 0.
Definition cfs_of (f : fp) : cfs := mkCFS f 0 dummy_header [].
Definition on_fp {A} (m : SM fp A) : SM cfs A :=
  fun s => let '(f, r) := m (s_fp s) in
           (mkCFS f (s_meta_total s) (s_header s) (s_storage s), r).

(** configure (abstract_io.py:70-74). *)
Definition fps_configure (_ : bargs) (h : header) (s : cfs) : cfs :=
  mkCFS (s_fp s) (s_meta_total s) h (s_storage s).
(** write_bloscpack_header (file_io.py:390-392). *)
Definition fps_write_header : SM cfs unit :=
  fun s => on_fp (b <- lift (header_encode (s_header s)) ;; f_write b) s.
(** write_metadata (file_io.py:394-397). *)
Definition fps_write_metadata (m : pyval) (a : margs) : SM cfs margs :=
  r <- on_fp (write_metadata m a) ;;
  (fun s => (mkCFS (s_fp s) (s_meta_total s + fst r) (s_header s) (s_storage s), Ok (snd r))).
(** init_offsets (file_io.py:399-404): -1 for all entries; [* None] is a
    TypeError. *)
Definition minus1 : bytes := le_enc 8 (-1).
Definition fps_init_offsets : SM cfs unit :=
  fun s =>
    if h_offsets (s_header s) then
      let s1 := mkCFS (s_fp s) (s_meta_total s) (s_header s) (zrep (h_nchunks (s_header s)) (-1)) in
      match total_prospective_chunks (s_header s) with
      | None => (s1, Raise TypeError)
      | Some t => on_fp (f_write (concat (zrep t minus1))) s1
      end
    else (s, Ok tt).
(** do_checksum (abstract_io.py:96-105). *)
Definition do_checksum (c : cks) (d : bytes) : bytes :=
  if 0 <? cks_size c then digest c d else [].
(** [l[i] = v], IndexError beyond the end. *)
Fixpoint set_nth {A} (i : nat) (v : A) (l : list A) : option (list A) :=
  match l, i with
  | [], _ => None
  | _ :: r, O => Some (v :: r)
  | x :: r, S i' => match set_nth i' v r with Some r' => Some (x :: r') | None => None end
  end.
(** put (file_io.py:411-417). *)
Definition fps_put (i : Z) (compressed : bytes) : SM cfs unit :=
  offset <- on_fp f_tell ;;
  (fun s => on_fp (write_compressed_chunk compressed
                     (do_checksum (h_checksum (s_header s)) compressed)) s) ;;;
  (fun s => if h_offsets (s_header s) then
              match set_nth (Z.to_nat i) offset (s_storage s) with
              | Some st => (mkCFS (s_fp s) (s_meta_total s) (s_header s) st, Ok tt)
              | None => (s, Raise IndexError)
              end
            else (s, Ok tt)).
(** finalize (file_io.py:406-409). *)
Definition fps_finalize : SM cfs unit :=
  fun s => if h_offsets (s_header s) then
             on_fp (f_seek (BLOSCPACK_HEADER_LENGTH + s_meta_total s) ;;;
                    write_offsets (s_storage s)) s
           else (s, Ok tt).

Definition fp_sink : compressed_sink cfs :=
  mkCS cfs fps_configure fps_write_header fps_write_metadata fps_init_offsets fps_put fps_finalize.
Definition fp_source : plain_source fp bytes :=
  mkPS fp bytes fp_source_steps compress_chunk_str.

(** pack_bytes_to_bytes (file_io.py:609-663), keeping the final state of the
    output object; the value is the argument object left behind.  The final
    log message divides by sio.tell(), which is positive after a pack. *)
Definition pack_bytes_core (b : bytes) (cs : csarg) (m : pyval)
    (oba : option bargs) (obp : option bpargs) (oma : option margs)
    : cfs * res (option margs) :=
  match calculate_nchunks (zlen b) cs with
  | Raise e => (cfs_of (fp_of []), Raise e)
  | Ok (n, c, l) =>
      let '((_, s), r) := pack fp_source fp_sink n c l m oba obp oma
                               (fp_of b, cfs_of (fp_of [])) in (s, r)
  end.
Definition pack_bytes_to_bytes (b : bytes) (cs : csarg) (m : pyval)
    (oba : option bargs) (obp : option bpargs) (oma : option margs) : res bytes :=
  let '(s, r) := pack_bytes_core b cs m oba obp oma in
  rbind r (fun _ => Ok (fdata (s_fp s))).

(** A compressed source: state, one step of its iterator (abstract_io.py:48-54). *)

(** unpack (abstract_io.py:169-196) over [n] chunks.  [next] yields
    (compressed, digest); an absent or empty digest is not verified
    ([if digest:]). *)
Definition truthy (d : option bytes) : bool :=
  match d with Some (_ :: _) => true | _ => false end.
Fixpoint unpack_loop {Src Snk} (next : SM Src (bytes * option bytes)) (c : cks)
         (put : bytes -> SM Snk Z) (n : nat) : SM (Src * Snk) unit :=
  match n with
  | O => ret tt
  | S n' =>
      cd <- onl next ;;
      (if truthy (snd cd) then
         if bytes_eqb (match snd cd with Some d => d | None => [] end) (digest c (fst cd))
         then ret tt else raise ChecksumMismatch
       else ret tt) ;;;
      onr (put (fst cd)) ;;;
      unpack_loop next c put n'
  end.

(** CompressedFPSource.__iter__ (file_io.py:366-369). *)
Definition fp_next (c : cks) : SM fp (bytes * option bytes) :=
  r <- read_compressed_chunk c ;;
  let '(compressed, _, d) := r in ret (compressed, d).

(** PlainFPSink.put (file_io.py:378-381). *)
Definition plain_put (compressed : bytes) : SM fp Z :=
  d <- lift (e_decompress E compressed) ;; f_write d ;;; ret (zlen d).

(** unpack with a CompressedFPSource and a PlainFPSink (file_io.py:366-381): the
    loop runs over xrange(nchunks), so not at all for nchunks = -1. *)
Definition unpack_fp (h : header) : SM (fp * fp) unit :=
  unpack_loop (fp_next (h_checksum h)) (h_checksum h) plain_put (Z.to_nat (h_nchunks h)).

(** unpack_bytes_from_bytes (file_io.py:666-693), keeping the output written so
    far when it raises. *)
Definition unpack_core (b : bytes) : bytes * res pyval :=
  match read_beginning (fp_of b) with
  | (_, Raise e) => ([], Raise e)
  | (f, Ok bg) =>
      let '((_, out), r) := unpack_fp (b_header bg) (f, fp_of []) in
      (fdata out, rbind r (fun _ => Ok (b_meta bg)))
  end.
Definition unpack_bytes_from_bytes (b : bytes) : res (bytes * pyval) :=
  let '(out, r) := unpack_core b in rbind r (fun m => Ok (out, m)).

End WithEnv.
Arguments ps_steps {Src Chunk}.
Arguments ps_compress {Src Chunk}.
Arguments cs_configure {Snk}.
Arguments cs_write_header {Snk}.
Arguments cs_write_metadata {Snk}.
Arguments cs_init_offsets {Snk}.
Arguments cs_put {Snk}.
Arguments cs_finalize {Snk}.
