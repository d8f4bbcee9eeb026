(** Model of what is printed at the verbosity DEBUG while a file is packed: the functions of
    abstract_io.py and file_io.py again, with all of their messages. *)
From Verif Require Import Base PyVal Checksums Headers Pretty Args FileIO Objects Log Report Chatter Opening.

Definition pformat_text (o : obj) : text := match snd (pformat 4 o) with Ok x => x | Raise _ => [] end.
(** a function of file_io.py on the file object of a sink *)
Definition sink_fp {A} (m : SM (fp * logst) A) : SM (cfs * logst) A :=
  fun st => let '((f, l), r) := m (s_fp (fst st), snd st) in
            ((mkCFS f (s_meta_total (fst st)) (s_header (fst st)) (s_storage (fst st)), l), r).

Section WithEnv.
Variable E : Env.
(** repr of the functions that are the maxima of the arguments *)
Variable nm_app nm_meta : text.

(** _handle_max_apps (args.py:260-293): what is neither callable nor an integer is None
    if that is what its repr says *)
Definition w_max_apps (offsets : bool) (nchunks : Z) (m : macarg) : SM logst Z :=
  lift (check_range nchunks (-1) MAX_CHUNKS) ;;;
  if offsets && negb (nchunks =? -1) then
    v <- match m with
         | MACall f => debug (t_ "max_app_chunks is a callable") ;;;
                       lift (match f nchunks with
                             | Raise e => Raise e
                             | Ok None => Raise ValueError
                             | Ok (Some v) => if v <? 0 then Raise ValueError else Ok v
                             end)
         | MAInt v => debug (t_ "max_app_chunks is an int") ;;; lift (check_range v 0 MAX_CHUNKS) ;;; ret v
         | MAOther => raise TypeError
         end ;;
    v' <- (if MAX_CHUNKS <? nchunks + v
           then debug (t_ "max_app_chunks was too large, setting to max value: " ++ int_text (MAX_CHUNKS - nchunks)) ;;; ret (MAX_CHUNKS - nchunks)
           else ret v) ;;
    debug (t_ "max_app_chunks was set to: " ++ int_text v') ;;; ret v'
  else
    (if match m with MAOther => String.eqb (string_of_list_ascii nm_app) "None" | _ => false end then ret tt
     else debug (t_ "max_app_chunks will be silently ignored")) ;;;
    debug (t_ "max_app_chunks was set to: " ++ int_text 0) ;;; ret 0.

(** _write_metadata up to the encoded header (file_io.py:84-127), with the message of
    effective_max_meta_size (args.py:431) *)
Definition w_plan (m : pyval) (a : margs) : SM logst (mheader * bytes * margs) :=
  lift (serializer_lookup (ma_magic a)) ;;;
  raw <- lift (e_dumps E m) ;;
  let meta_size := zlen raw in
  pa <- (if should_compress a then
           co <- lift (codec_lookup (ma_codec a)) ;;
           z <- lift (codec_compress E co raw (ma_level a)) ;;
           if meta_size <? zlen z
           then debug (t_ "metadata compression requested, but it was not beneficial, deactivating (raw: '" ++ int_text meta_size ++
                       t_ "' vs. compressed: '" ++ int_text (zlen z) ++ t_ "') ") ;;;
                ret (raw, nullify_codec a)
           else ret (z, a)
         else ret (raw, a)) ;;
  let '(payload, a') := pa in
  debug (t_ "Raw " ++ t_ (if should_compress a' then "compressed" else "uncompressed") ++ t_ " metadata of size '" ++
         int_text (zlen payload) ++ t_ "': " ++ oval_repr (OBytes payload)) ;;;
  mx <- lift (effective_max_meta_size a' meta_size) ;;
  debug (t_ "max meta size is deemed to be: " ++ int_text mx) ;;;
  if mx <? zlen payload then raise MetadataSectionTooSmall
  else
    co <- lift (codec_lookup (ma_codec a')) ;;
    h <- lift (mk_mheader (ma_magic a') create_metadata_options (ma_checksum a') (codec_name co)
                          (ma_level a') meta_size mx (zlen payload) []) ;;
    ret (h, payload, a').
(** _write_metadata (file_io.py:60-145) *)
Definition w_metadata (m : pyval) (a : margs) : SM (fp * logst) (Z * margs) :=
  pl <- onr (w_plan m a) ;;
  let '(h, payload, a') := pl in
  raw <- lift (mheader_encode h) ;;
  note (t_ "raw_metadata_header: " ++ oval_repr (OBytes raw)) ;;;
  onl (f_write raw) ;;;
  onl (f_write payload) ;;;
  onl (f_write_nulls (mh_max h - mh_comp h)) ;;;
  note (t_ "metadata has " ++ int_text (mh_max h - mh_comp h) ++ t_ " preallocated empty bytes") ;;;
  (if cks_eqb (mh_checksum h) CkNone then ret tt
   else onl (f_write (digest E (mh_checksum h) payload)) ;;;
        note (t_ "metadata checksum (" ++ t_ (ma_checksum a') ++ t_ "): " ++ oval_repr (OBytes (digest E (mh_checksum h) payload)))) ;;;
  let total := METADATA_HEADER_LENGTH + mh_comp h + (mh_max h - mh_comp h) + cks_size (mh_checksum h) in
  note (t_ "metadata section occupies a total of " ++ double_pretty_size total) ;;;
  ret (total, a').
(** CompressedFPSink.write_metadata (file_io.py:394-397) *)
Definition w_sink_metadata (m : pyval) (a : margs) : SM (cfs * logst) margs :=
  r <- sink_fp (w_metadata m a) ;;
  onl (fun s => (mkCFS (s_fp s) (s_meta_total s + fst r) (s_header s) (s_storage s), Ok (snd r))).
(** CompressedFPSink.write_bloscpack_header (file_io.py:390-392) with the message of
    BloscpackHeader.encode (headers.py:359) *)
Definition w_header : SM (cfs * logst) unit :=
  fun st => sink_fp (b <- lift (header_encode (s_header (fst st))) ;;
                     note (t_ "raw_bloscpack_header: " ++ oval_repr (OBytes b)) ;;;
                     onl (f_write b)) st.
(** _write_offsets (file_io.py:292-298) *)
Definition w_offsets (l : list Z) : SM (fp * logst) unit :=
  note (t_ "Writing '" ++ int_text (zlen l) ++ t_ "' offsets: '" ++ list_text l ++ t_ "'") ;;;
  b <- lift (encode_offsets l) ;;
  note (t_ "Raw offsets: " ++ oval_repr (OBytes b)) ;;;
  onl (f_write b).
(** finalize (file_io.py:406-409) *)
Definition w_finalize : SM (cfs * logst) unit :=
  fun st => if h_offsets (s_header (fst st)) then
              sink_fp (onl (f_seek E (BLOSCPACK_HEADER_LENGTH + s_meta_total (fst st))) ;;;
                       w_offsets (s_storage (fst st))) st
            else (st, Ok tt).

(** pack up to the chunks (abstract_io.py:121-153) *)
Definition w_begin (n c l : Z) (m : pyval) (oba : option bargs) (obp : option bpargs) (oma : option margs)
    : SM (cfs * logst) (option margs) :=
  let ba := match oba with Some a => a | None => default_bargs end in
  note (pformat_text (bargs_obj ba)) ;;;
  let bp := match obp with Some a => a | None => default_bpargs end in
  note (pformat_text (bpargs_obj nm_app bp)) ;;;
  let ma := match oma with Some a => a | None => default_margs end in
  (if is_none m then match oma with None => ret tt | Some _ => note (t_ "metadata_args will be silently ignored") end
   else note (pformat_text (margs_obj nm_meta ma))) ;;;
  max_app <- onr (w_max_apps (bp_offsets bp) n (bp_max_app bp)) ;;
  h <- lift (mk_header FORMAT_VERSION (bp_offsets bp) (negb (is_none m)) (bp_checksum bp)
                       (ba_typesize ba) c l n max_app) ;;
  note (header_text h) ;;;
  onl (fun k => (fps_configure ba h k, Ok tt)) ;;;
  w_header ;;;
  oma' <- (if is_none m then ret oma else a <- w_sink_metadata m ma ;; ret (Some a)) ;;
  onl fps_init_offsets ;;;
  ret oma'.
(** pack (abstract_io.py:108-166) from and to file objects *)
Definition w_pack (n c l : Z) (m : pyval) (oba : option bargs) (obp : option bpargs) (oma : option margs)
    : SM ((fp * cfs) * logst) (option margs) :=
  let ba := match oba with Some a => a | None => default_bargs end in
  oma' <- on_snk (w_begin n c l m oba obp oma) ;;
  d_pack_loop n (@zlen byte) (e_compress E ba) (d_fps_put E) 0 (fp_source_steps n c l) ;;;
  on_snk w_finalize ;;;
  ret oma'.
End WithEnv.
