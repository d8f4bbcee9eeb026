(** Model of what is printed of each chunk at the verbosity DEBUG ('blpk -d'): the loops of
    abstract_io.py, and what they call, again with their log.debug messages.  (The
    messages outside of the loops, the arguments and the headers once more, are left out.) *)
From Verif Require Import Base PyVal Checksums Headers Pretty Args FileIO Append NumpyIO Objects Log Report.

(** 'if log.LEVEL == log.DEBUG: log.debug(m)' beside another state *)
Definition dbg {S} (m : text) : SM (S * logst) unit :=
  fun st => if String.eqb (l_level (snd st)) "DEBUG" then onr (debug m) st else (st, Ok tt).
Definition last_mark (b : bool) : text := if b then t_ " (last)" else [].
Definition on_snk {Src Snk A} (m : SM (Snk * logst) A) : SM ((Src * Snk) * logst) A :=
  fun st => let '((k, l), r) := m (snd (fst st), snd st) in (((fst (fst st), k), l), r).
Definition on_src {Src Snk A} (m : SM (Src * logst) A) : SM ((Src * Snk) * logst) A :=
  fun st => let '((s, l), r) := m (fst (fst st), snd st) in (((s, snd (fst st)), l), r).

Section WithEnv.
Variable E : Env.

(** The message of do_checksum (abstract_io.py:96-105), which is not behind a test of the level. *)
Definition checksum_message (c : cks) (compressed : bytes) : text :=
  if 0 <? cks_size c
  then t_ "checksum (" ++ t_ (cks_name c) ++ t_ "): " ++ oval_repr (OBytes (digest E c compressed))
  else t_ "no checksum".
(** CompressedFPSink.put (file_io.py:411-417) *)
Definition d_fps_put (i : Z) (compressed : bytes) : SM (cfs * logst) unit :=
  offset <- onl (on_fp f_tell) ;;
  (fun st => (let c := h_checksum (s_header (fst st)) in
              onr (debug (checksum_message c compressed)) ;;;
              onl (on_fp (write_compressed_chunk compressed (do_checksum E c compressed)))) st) ;;;
  onl (fun s => if h_offsets (s_header s) then
                  match set_nth (Z.to_nat i) offset (s_storage s) with
                  | Some st => (mkCFS (s_fp s) (s_meta_total s) (s_header s) st, Ok tt)
                  | None => (s, Raise IndexError)
                  end
                else (s, Ok tt)).

(** The loop of pack (abstract_io.py:155-165); [len] is len(chunk). *)
Fixpoint d_pack_loop {Src Chunk Snk} (nchunks : Z) (len : Chunk -> Z) (compress : Chunk -> res bytes)
    (put : Z -> bytes -> SM (Snk * logst) unit) (i : Z) (steps : list (SM Src Chunk)) : SM ((Src * Snk) * logst) unit :=
  match steps with
  | [] => ret tt
  | st :: rest =>
      chunk <- onl (onl st) ;;
      dbg (t_ "Handle chunk '" ++ int_text i ++ t_ "'" ++ last_mark (i =? nchunks - 1)) ;;;
      c <- lift (compress chunk) ;;
      on_snk (put i c) ;;;
      dbg (t_ "chunk handled, in: " ++ double_pretty_size (len chunk) ++ t_ " out: " ++ double_pretty_size (zlen c)) ;;;
      d_pack_loop nchunks len compress put (i + 1) rest
  end.
(** pack (abstract_io.py:108-166) into a CompressedFPSink *)
Definition d_pack {Src Chunk} (src : plain_source Src Chunk) (len : Chunk -> Z)
    (nchunks chunk_size last_chunk : Z) (m : pyval)
    (oba : option bargs) (obp : option bpargs) (oma : option margs) : SM ((Src * cfs) * logst) (option margs) :=
  let ba := match oba with Some a => a | None => default_bargs end in
  let bp := match obp with Some a => a | None => default_bpargs end in
  let ma := match oma with Some a => a | None => default_margs end in
  max_app <- lift (handle_max_apps (bp_offsets bp) nchunks (bp_max_app bp)) ;;
  h <- lift (mk_header FORMAT_VERSION (bp_offsets bp) (negb (is_none m)) (bp_checksum bp)
                       (ba_typesize ba) chunk_size last_chunk nchunks max_app) ;;
  onl (onr (fun k => (fps_configure ba h k, Ok tt))) ;;;
  onl (onr fps_write_header) ;;;
  oma' <- onl (onr (if is_none m then ret oma else a <- fps_write_metadata E m ma ;; ret (Some a))) ;;
  onl (onr fps_init_offsets) ;;;
  d_pack_loop nchunks len (ps_compress src ba) d_fps_put 0 (ps_steps src nchunks chunk_size last_chunk) ;;;
  onl (onr (fps_finalize E)) ;;;
  ret oma'.
(** pack_bytes_to_bytes (file_io.py:609-663), like [pack_bytes_core]; a chunk is a byte string. *)
Definition d_pack_bytes (b : bytes) (cs : csarg) (m : pyval)
    (oba : option bargs) (obp : option bpargs) (oma : option margs) (l : logst) : bytes * logst * res (option margs) :=
  match calculate_nchunks (zlen b) cs with
  | Raise e => ([], l, Raise e)
  | Ok (n, c, z) =>
      let r := d_pack (fp_source E) (@zlen byte) n c z m oba obp oma ((fp_of b, cfs_of (fp_of [])), l) in
      (fdata (s_fp (snd (fst (fst r)))), snd (fst r), snd r)
  end.
(** pack_ndarray into a file object (numpy_io.py:150-192); a chunk is the tuple of an address and
    a number of items (numpy_io.py:84-95), and len() of it is 2. *)
Definition d_pack_ndarray (N : NpEnv) (a : ndarray) (cs : csarg)
    (oba : option bargs) (obp : option bpargs) (oma : option margs) (l : logst) : bytes * logst * res (option margs) :=
  if dt_hasobject (nd_dtype a) then ([], l, Raise ObjectNumpyArrayRejection) else
  match calculate_nchunks (nd_size a * nd_itemsize a) cs with
  | Raise e => ([], l, Raise e)
  | Ok (n, c, z) =>
      let r := d_pack (np_source E (source_array N a)) (fun _ => 2) n c z (ndarray_meta N a)
                      (Some (np_bargs a oba)) obp oma ((tt, cfs_of (fp_of [])), l) in
      (fdata (s_fp (snd (fst (fst r)))), snd (fst r), snd r)
  end.

(** _read_compressed_chunk_fp (file_io.py:301-334) *)
Definition d_read_chunk (c : cks) : SM (fp * logst) (bytes * option bytes) :=
  raw <- onl (f_read BLOSC_HEADER_LENGTH) ;;
  bh <- lift (decode_blosc_header raw) ;;
  dbg (t_ "blosc_header: " ++ blosc_header_text bh) ;;;
  onl (f_seek_rel E (- BLOSC_HEADER_LENGTH)) ;;;
  compressed <- onl (f_read (bh_ctbytes bh)) ;;
  d <- onl (if 0 <? cks_size c then x <- f_read (cks_size c) ;; ret (Some x) else ret None) ;;
  ret (compressed, d).
(** The loop of unpack (abstract_io.py:174-196) *)
Fixpoint d_unpack_loop {Src Snk} (nchunks : Z) (next : SM (Src * logst) (bytes * option bytes)) (c : cks)
    (put : bytes -> SM Snk Z) (n : nat) (i : Z) : SM ((Src * Snk) * logst) unit :=
  match n with
  | O => ret tt
  | S n' =>
      cd <- on_src next ;;
      dbg (t_ "decompressing chunk '" ++ int_text i ++ t_ "'" ++ last_mark (i =? nchunks - 1)) ;;;
      (if truthy (snd cd) then
         if bytes_eqb (match snd cd with Some d => d | None => [] end) (digest E c (fst cd))
         then dbg (t_ "checksum OK (" ++ t_ (cks_name c) ++ t_ "): " ++ oval_repr (OBytes (match snd cd with Some d => d | None => [] end)))
         else raise ChecksumMismatch
       else ret tt) ;;;
      len <- onl (onr (put (fst cd))) ;;
      dbg (t_ "chunk handled, in: " ++ double_pretty_size (zlen (fst cd)) ++ t_ " out: " ++ double_pretty_size len) ;;;
      d_unpack_loop nchunks next c put n' (i + 1)
  end.
(** unpack_bytes_from_bytes (file_io.py:666-693), like [unpack_core] *)
Definition d_unpack (b : bytes) (l : logst) : bytes * logst * res pyval :=
  match read_beginning E (fp_of b) with
  | (_, Raise e) => ([], l, Raise e)
  | (f, Ok bg) =>
      let h := b_header bg in
      let r := d_unpack_loop (h_nchunks h) (d_read_chunk (h_checksum h)) (h_checksum h) (plain_put E)
                             (Z.to_nat (h_nchunks h)) 0 ((f, fp_of []), l) in
      (fdata (snd (fst (fst r))), snd (fst r), rbind (snd r) (fun _ => Ok (b_meta bg)))
  end.

(** The loop of append_fp (append.py:172-177) *)
Fixpoint d_append_loop {Src Snk} (nchunks : Z) (compress : bytes -> res bytes)
    (put : Z -> bytes -> SM (Snk * logst) unit) (i : Z) (steps : list (SM Src bytes)) : SM ((Src * Snk) * logst) unit :=
  match steps with
  | [] => ret tt
  | st :: rest =>
      chunk <- onl (onl st) ;;
      onr (debug (t_ "Handle chunk '" ++ int_text i ++ t_ "' " ++ (if i =? nchunks - 1 then t_ "(last)" else []))) ;;;
      c <- lift (compress chunk) ;;
      on_snk (put i c) ;;;
      d_append_loop nchunks compress put (i + 1) rest
  end.
(** append_fp (append.py:62-191), like [append_fp] *)
Definition d_append_fp (new_size : Z) (o : obargs) : SM ((fp * fp) * logst) Z :=
  bg <- onl (onr (read_beginning E)) ;;
  let h := b_header bg in
  let ck := h_checksum h in
  match b_offsets bg with
  | [] => raise RuntimeError
  | o0 :: os =>
    let offs := o0 :: os in
    let last_off := List.last offs 0 in
    ba <- lift (fill_blosc_args o h) ;;
    onl (onr (f_seek E last_off)) ;;;
    r <- on_snk (d_read_chunk ck) ;;
    decompressed <- lift (e_decompress E (fst r)) ;;
    let to_read := h_chunk_size h - zlen decompressed in
    if new_size <=? to_read then
      onl (fill_up <- onl (f_read new_size) ;;
           onr (f_seek E last_off) ;;;
           c <- lift (compress_chunk_str E ba (decompressed ++ fill_up)) ;;
           onr (write_compressed_chunk c (digest E ck c)) ;;;
           raw <- lift (header_encode (set_counts h (h_last_chunk h + new_size) (h_nchunks h) (h_max_app h))) ;;
           onr (f_seek E 0) ;;;
           onr (f_write raw) ;;;
           ret 0)
    else
      let new_new_size := new_size - to_read in
      fill_up <- onl (onl (f_read to_read)) ;;
      ncl <- lift (calculate_nchunks new_new_size (CSInt (h_chunk_size h))) ;;
      let '(nchunks, chunk_size, last_chunk) := ncl in
      if h_max_app h <? nchunks then raise NotEnoughSpace
      else
        onl (onr (f_seek E last_off)) ;;;
        c <- lift (compress_chunk_str E ba (decompressed ++ fill_up)) ;;
        onl (onr (write_compressed_chunk c (digest E ck c))) ;;;
        (fun st =>
           let sink := mkCFS (snd (fst st)) 0 h (zrep nchunks (-1)) in
           match d_append_loop nchunks (compress_chunk_str E ba) d_fps_put 0
                               (fp_source_steps nchunks chunk_size last_chunk) ((fst (fst st), sink), snd st) with
           | (((nf, s), l), Raise e) => (((nf, s_fp s), l), Raise e)
           | (((nf, s), l), Ok _) =>
               onl (raw <- lift (header_encode (set_counts h last_chunk (h_nchunks h + nchunks)
                                                           (h_max_app h - nchunks))) ;;
                    onr (f_seek E 0) ;;;
                    onr (f_write raw) ;;;
                    onr (f_seek E (offsets_pos bg)) ;;;
                    onr (write_offsets (offs ++ s_storage s)) ;;;
                    ret nchunks) ((nf, s_fp s), l)
           end)
  end.
Definition d_append (f new : bytes) (o : obargs) (l : logst) : bytes * logst * res Z :=
  let r := d_append_fp (zlen new) o ((fp_of new, fp_of f), l) in
  (fdata (snd (fst (fst r))), snd (fst r), snd r).
End WithEnv.
