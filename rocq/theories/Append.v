(** Model of bloscpack/append.py. *)
From Verif Require Import Base PyVal Checksums Headers Args FileIO.

(** The 'blosc_args' dictionary accepted by append_fp: None entries are filled
    in (append.py:93-109). *)
Record obargs := mkOBA {
  oa_typesize : option Z; oa_clevel : option Z; oa_shuffle : option bool; oa_cname : option string }.
Definition no_obargs := mkOBA None None None None.
Definition obargs_of (a : bargs) : obargs :=
  mkOBA (Some (ba_typesize a)) (Some (ba_clevel a)) (Some (ba_shuffle a)) (Some (ba_cname a)).
Definition opt {A} (o : option A) (d : A) : A := match o with Some a => a | None => d end.

(** append.py:93-110.  typesize -1 cannot come out of header decoding, the test
    is kept. *)
Definition fill_blosc_args (o : obargs) (h : header) : res bargs :=
  ts <~ match oa_typesize o with
        | Some t => Ok t
        | None => if h_typesize h =? -1 then Raise NonUniformTypesize else Ok (h_typesize h)
        end ;;
  Ok (mkBA ts (opt (oa_clevel o) 7) (opt (oa_shuffle o) true) (opt (oa_cname o) "blosclz"%string)).

(** append.py:111-114. *)
Definition offsets_pos (bg : beginning) : Z :=
  BLOSCPACK_HEADER_LENGTH +
  (if is_none (b_meta bg) then 0
   else match b_mheader bg with
        | Some mh => METADATA_HEADER_LENGTH + mh_max mh + cks_size (mh_checksum mh)
        | None => 0
        end).

Definition set_counts (h : header) (last n m : Z) : header :=
  mkH (h_version h) (h_offsets h) (h_metadata h) (h_checksum h) (h_typesize h) (h_chunk_size h)
      last n m.

Section WithEnv.
Variable E : Env.

(** append_fp (append.py:62-191).  The state is the pair (new_content_fp,
    original_fp).  The chunk loop reuses [pack_loop] since append.py:172-177 is
    the same loop as abstract_io.py:156-165. *)
Definition append_fp (new_size : Z) (o : obargs) : SM (fp * fp) Z :=
  bg <- onr (read_beginning E) ;;
  let h := b_header bg in
  let ck := h_checksum h in
  match b_offsets bg with
  | [] => raise RuntimeError
  | o0 :: os =>
    let offs := o0 :: os in
    let last_off := List.last offs 0 in
    ba <- lift (fill_blosc_args o h) ;;
    onr (f_seek E last_off) ;;;
    r <- onr (read_compressed_chunk E ck) ;;
    let compressed := fst (fst r) in
    decompressed <- lift (e_decompress E compressed) ;;
    let to_read := h_chunk_size h - zlen decompressed in
    if new_size <=? to_read then
      fill_up <- onl (f_read new_size) ;;
      onr (f_seek E last_off) ;;;
      c <- lift (compress_chunk_str E ba (decompressed ++ fill_up)) ;;
      onr (write_compressed_chunk c (digest E ck c)) ;;;
      raw <- lift (header_encode (set_counts h (h_last_chunk h + new_size) (h_nchunks h) (h_max_app h))) ;;
      onr (f_seek E 0) ;;;
      onr (f_write raw) ;;;
      ret 0
    else
      let new_new_size := new_size - to_read in
      fill_up <- onl (f_read to_read) ;;
      ncl <- lift (calculate_nchunks new_new_size (CSInt (h_chunk_size h))) ;;
      let '(nchunks, chunk_size, last_chunk) := ncl in
      if h_max_app h <? nchunks then raise NotEnoughSpace
      else
        onr (f_seek E last_off) ;;;
        c <- lift (compress_chunk_str E ba (decompressed ++ fill_up)) ;;
        onr (write_compressed_chunk c (digest E ck c)) ;;;
        (fun st =>
           let sink := mkCFS (snd st) 0 h (zrep nchunks (-1)) in
           match pack_loop (compress_chunk_str E ba) (fps_put E) 0
                           (fp_source_steps nchunks chunk_size last_chunk) (fst st, sink) with
           | ((nf, s), Raise e) => ((nf, s_fp s), Raise e)
           | ((nf, s), Ok _) =>
               (raw <- lift (header_encode (set_counts h last_chunk (h_nchunks h + nchunks)
                                                       (h_max_app h - nchunks))) ;;
                onr (f_seek E 0) ;;;
                onr (f_write raw) ;;;
                onr (f_seek E (offsets_pos bg)) ;;;
                onr (write_offsets (offs ++ s_storage s)) ;;;
                ret nchunks) (nf, s_fp s)
           end)
  end.

(** The caller's blosc_args dictionary after append_fp: it is filled in in place
    (append.py:93-109), unless the function raises before that. *)
Definition append_blosc_args (o : obargs) (f : bytes) : obargs :=
  match snd (read_beginning E (fp_of f)) with
  | Raise _ => o
  | Ok bg => match b_offsets bg with
             | [] => o
             | _ => match fill_blosc_args o (b_header bg) with Ok ba => obargs_of ba | Raise _ => o end
             end
  end.

(** _seek_to_metadata (append.py:226-249). *)
Definition seek_to_metadata : SM fp Z :=
  h <- read_bloscpack_header ;;
  if h_metadata h then f_tell else raise NoMetadataFound.

(** Overrides of _rewrite_metadata_fp / _recreate_metadata; the codec and level
    arguments default to 'zlib' and 6, not to None (append.py:252-254). *)
Record overrides := mkOv {
  ov_magic : option bytes; ov_checksum : option string;
  ov_codec : option string; ov_level : option Z }.
Definition default_overrides := mkOv None None (Some "zlib"%string) (Some 6).

(** check_valid_serializer (serializers.py:43-57). *)
Definition check_valid_serializer (m : bytes) : res unit :=
  if bytes_eqb m (b_of_string "JSON") then Ok tt else Raise NoSuchSerializer.

(** _recreate_metadata (append.py:284-348). *)
Definition recreate_metadata (old : mheader) (ov : overrides) : res margs :=
  magic <~ match ov_magic ov with
           | None => Ok (mh_magic old)
           | Some m => _ <~ check_valid_serializer m ;; Ok m
           end ;;
  ck <~ match ov_checksum ov with
        | None => Ok (cks_name (mh_checksum old))
        | Some s => c <~ check_valid_checksum s ;;
                    if cks_size (mh_checksum old) =? cks_size c then Ok s
                    else Raise ChecksumLengthMismatch
        end ;;
  co <~ match ov_codec ov with
        | None => Ok (codec_name (mh_codec old))
        | Some s => _ <~ check_valid_codec s ;; Ok s
        end ;;
  lvl <~ match ov_level ov with
         | None => Ok (mh_level old)
         | Some l => _ <~ check_range l 0 MAX_CLEVEL ;; Ok l
         end ;;
  Ok (mkMA magic ck co lvl (MMInt (mh_max old))).

(** _rewrite_metadata_fp (append.py:252-281). *)
Definition rewrite_metadata_fp (m : pyval) (ov : overrides) : SM fp unit :=
  pos <- f_tell ;;
  r <- read_metadata E ;;
  let '(old, oldh) := r in
  if pyeq old m then raise NoChangeInMetadata
  else
    a <- lift (recreate_metadata oldh ov) ;;
    f_seek E pos ;;;
    write_metadata E m a ;;;
    ret tt.

(** The public way to rewrite metadata: seek, then rewrite (cli.py:497-499). *)
Definition rewrite_metadata (m : pyval) (ov : overrides) : SM fp unit :=
  seek_to_metadata ;;; rewrite_metadata_fp m ov.

End WithEnv.
