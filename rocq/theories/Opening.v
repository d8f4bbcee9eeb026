(** Model of what is printed at the verbosities VERBOSE and DEBUG while the beginning of a
    file is read: the functions of file_io.py again, with their messages. *)
From Verif Require Import Base PyVal Checksums Headers Pretty Args FileIO Objects Log Report Chatter Verbose.

(** log.debug beside another state *)
Definition note {S} (m : text) : SM (S * logst) unit := onr (debug m).
(** repr of a BloscpackHeader (abstract_objects.py:56-58) *)
Definition header_repr (h : header) : text := match snd (o_repr (header_obj h)) with Ok x => x | Raise _ => [] end.
(** str of a list of ints *)
Definition list_text (l : list Z) : text := t_ "[" ++ join_text (t_ ", ") (map int_text l) ++ t_ "]".

Section WithEnv.
Variable E : Env.

(** _read_bloscpack_header (file_io.py:147-178) *)
Definition o_read_header : SM (fp * logst) header :=
  note (t_ "reading bloscpack header") ;;;
  raw <- onl (f_read BLOSCPACK_HEADER_LENGTH) ;;
  note (t_ "bloscpack_header_raw: " ++ oval_repr (OBytes raw)) ;;;
  h <- lift (header_decode raw) ;;
  note (t_ "bloscpack header: " ++ header_repr h) ;;;
  if FORMAT_VERSION =? h_version h then ret h else raise FormatVersionMismatch.

(** _read_metadata (file_io.py:181-234) *)
Definition o_read_metadata : SM (fp * logst) (pyval * mheader) :=
  raw <- onl (f_read METADATA_HEADER_LENGTH) ;;
  note (t_ "raw metadata header: " ++ oval_repr (OBytes raw)) ;;;
  h <- lift (mheader_decode raw) ;;
  note (mheader_text h) ;;;
  payload <- onl (f_read (mh_comp h)) ;;
  onl (f_seek_rel E (mh_max h - mh_comp h)) ;;;
  (if cks_eqb (mh_checksum h) CkNone then ret tt
   else
     expected <- onl (f_read (cks_size (mh_checksum h))) ;;
     let received := digest E (mh_checksum h) payload in
     if bytes_eqb received expected
     then note (t_ "metadata checksum OK (" ++ t_ (cks_name (mh_checksum h)) ++ t_ "): " ++ oval_repr (OBytes received))
     else raise ChecksumMismatch) ;;;
  plain <- lift (codec_decompress E (mh_codec h) payload) ;;
  tell (t_ "read " ++ t_ (if String.eqb (codec_name (mh_codec h)) "None" then "uncompressed" else "compressed") ++
        t_ " metadata of size: '" ++ int_text (mh_comp h) ++ t_ "'") ;;;
  lift (serializer_lookup (mh_magic h)) ;;;
  m <- lift (e_loads E plain) ;;
  ret (m, h).

(** _read_offsets (file_io.py:237-265); as to the bound on the words, see [read_offsets]. *)
Definition o_read_offsets (h : header) : SM (fp * logst) (list Z) :=
  if h_offsets h then
    match total_prospective_chunks h with
    | None => raise TypeError
    | Some t => raw <- onl (f_read_ssize (8 * t)) ;;
                note (t_ "Read raw offsets: " ++ oval_repr (OBytes raw)) ;;;
                l <- lift (decode_offsets (Z.to_nat (Z.min (h_nchunks h) (zlen raw / 8 + 1))) raw) ;;
                note (t_ "Offsets: " ++ list_text l) ;;;
                ret l
    end
  else ret [].

(** _read_beginning (file_io.py:268-289) *)
Definition o_read_beginning : SM (fp * logst) beginning :=
  h <- o_read_header ;;
  mm <- (if h_metadata h then r <- o_read_metadata ;; ret (fst r, Some (snd r))
         else ret (PNone, None)) ;;
  o <- o_read_offsets h ;;
  ret (mkBeg h (fst mm) (snd mm) o).

(** [d_unpack] with these messages as well (abstract_io.py:168-200) *)
Definition o_unpack (b : bytes) (l : logst) : bytes * logst * res pyval :=
  match o_read_beginning (fp_of b, l) with
  | ((_, l'), Raise e) => ([], l', Raise e)
  | ((f, l'), Ok bg) =>
      let h := b_header bg in
      let r := d_unpack_loop E (h_nchunks h) (d_read_chunk E (h_checksum h)) (h_checksum h) (plain_put E)
                             (Z.to_nat (h_nchunks h)) 0 ((f, fp_of []), l') in
      (fdata (snd (fst (fst r))), snd (fst r), rbind (snd r) (fun _ => Ok (b_meta bg)))
  end.
End WithEnv.
