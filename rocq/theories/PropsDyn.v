(** C81: header arguments of the wrong type. *)
From Verif Require Import Base PyVal Checksums Headers Pretty Args FileIO Cli Objects Spec Archive Dynamic DynSpec Toy HeaderProofs OptionProofs DynProofs DynPackProofs DynIntProofs DynTwin PropsPack.

(** ** C81: which headers can be made *)
(** Exactly those whose arguments are known, meet their demands and fit together. *)
Theorem C81_header_accepted : forall kw h, new_header kw = Ok h <->
  known ["format_version"; "offsets"; "metadata"; "checksum"; "typesize"; "chunk_size"; "last_chunk"; "nchunks"; "max_app_chunks"]%string kw /\
  all_meet header_signature kw /\ consistent kw /\
  h = mkDH (value kw "format_version" (DInt 3)) (value kw "offsets" (DBool false)) (value kw "metadata" (DBool false))
           (value kw "checksum" (DStr (t_ "None"))) (value kw "typesize" (DInt 0)) (value kw "chunk_size" (DInt (-1)))
           (value kw "last_chunk" (DInt (-1))) (value kw "nchunks" (DInt (-1))) (value kw "max_app_chunks" (DInt 0)).
Proof. exact header_ok_iff. Qed.
Print Assumptions C81_header_accepted.
(** Otherwise the first argument that does not, in the order of the signature, decides
    the exception; numbers that do not fit together are a ValueError. *)
Theorem C81_header_refused : forall kw e,
  known ["format_version"; "offsets"; "metadata"; "checksum"; "typesize"; "chunk_size"; "last_chunk"; "nchunks"; "max_app_chunks"]%string kw ->
  (new_header kw = Raise e <->
   first_offence header_signature kw e \/ all_meet header_signature kw /\ ~ consistent kw /\ e = ValueError).
Proof. exact header_raise_iff. Qed.
Print Assumptions C81_header_refused.
Theorem C81_unknown_argument : forall kw,
  (~ known ["format_version"; "offsets"; "metadata"; "checksum"; "typesize"; "chunk_size"; "last_chunk"; "nchunks"; "max_app_chunks"]%string kw ->
   new_header kw = Raise TypeError) /\
  (~ known ["magic_format"; "meta_options"; "meta_checksum"; "meta_codec"; "meta_level"; "meta_size"; "max_meta_size"; "meta_comp_size"; "user_codec"]%string kw ->
   new_mheader kw = Raise TypeError).
Proof. intros kw. split; [apply header_unknown|apply mheader_unknown]. Qed.
Print Assumptions C81_unknown_argument.
Example C81_header_cases :
  new_header [("typesize", DStr (t_ "8"))]%string = Raise TypeError /\
  new_header [("typesize", DNum true (Ok 8))]%string = Raise TypeError /\
  new_header [("nchunks", DNone)]%string = Raise TypeError /\
  new_header [("typesize", DInt 256)]%string = Raise ValueError /\
  new_header [("typesize", DInt 256); ("format_version", DNone)]%string = Raise TypeError /\
  new_header [("checksum", DTuple 2)]%string = Raise TypeError /\
  new_header [("checksum", DTuple 1)]%string = Raise NoSuchChecksum /\
  new_header [("last_chunk", DInt 8); ("chunk_size", DInt 4)]%string = Raise ValueError /\
  new_header [("max_app_chunks", DInt 1)]%string = Raise ValueError /\
  new_header [("chunksize", DInt 4)]%string = Raise TypeError.
Proof. repeat split. Qed.
(** That a wrong type is always a TypeError is false, for the checksum and for the two
    flags. *)
Theorem C81_wrong_type_refuted :
  new_header [("checksum", DInt (-1))]%string = Raise NoSuchChecksum /\
  (exists h, new_header [("offsets", DNone)]%string = Ok h /\ d_header_encode h = Raise TypeError) /\
  (exists h, new_header [("metadata", DObj true)]%string = Ok h /\ d_header_encode h = Raise TypeError).
Proof. repeat split; eexists; split; reflexivity. Qed.
Print Assumptions C81_wrong_type_refuted.

(** ** The metadata header *)
Theorem C81_metadata_header_accepted : forall kw h, new_mheader kw = Ok h <->
  known ["magic_format"; "meta_options"; "meta_checksum"; "meta_codec"; "meta_level"; "meta_size"; "max_meta_size"; "meta_comp_size"; "user_codec"]%string kw /\
  all_meet metadata_signature kw /\
  h = mkDMH (value kw "magic_format" (DBytes [])) (value kw "meta_options" (DStr (t_ "00000000")))
            (value kw "meta_checksum" (DStr (t_ "None"))) (value kw "meta_codec" (DStr (t_ "None")))
            (value kw "meta_level" (DInt 0)) (value kw "meta_size" (DInt 0)) (value kw "max_meta_size" (DInt 0))
            (value kw "meta_comp_size" (DInt 0)) (value kw "user_codec" (DBytes [])).
Proof. exact mheader_ok_iff. Qed.
Print Assumptions C81_metadata_header_accepted.
Theorem C81_metadata_header_refused : forall kw e,
  known ["magic_format"; "meta_options"; "meta_checksum"; "meta_codec"; "meta_level"; "meta_size"; "max_meta_size"; "meta_comp_size"; "user_codec"]%string kw ->
  (new_mheader kw = Raise e <-> first_offence metadata_signature kw e).
Proof. exact mheader_raise_iff. Qed.
Print Assumptions C81_metadata_header_refused.
(** One that was accepted is written like the one made from the ints behind its
    arguments, for which C08 and C09 hold. *)
Theorem C81_metadata_header_written : forall kw dh, new_mheader kw = Ok dh ->
  exists magic o c k user lvl sz mx cm h raw,
    dh = mkDMH (DBytes magic) (DStr o) (DStr (t_ (cks_name c))) (DStr (t_ (codec_name k)))
               (dm_level dh) (dm_size dh) (dm_max dh) (dm_comp dh) (DBytes user) /\
    is_int (dm_level dh) lvl /\ is_int (dm_size dh) sz /\ is_int (dm_max dh) mx /\ is_int (dm_comp dh) cm /\
    mk_mheader magic (string_of_list_ascii o) (cks_name c) (codec_name k) lvl sz mx cm user = Ok h /\
    mheader_encode h = Ok raw /\ d_mheader_encode dh = Ok raw.
Proof. exact mheader_typed. Qed.
Print Assumptions C81_metadata_header_written.
Example C81_metadata_header_cases :
  new_mheader [("magic_format", DStr (t_ "JSON"))]%string = Raise TypeError /\
  new_mheader [("magic_format", DBytes (b_of_string "MAGICFORM"))]%string = Raise ValueError /\
  new_mheader [("meta_options", DInt 0)]%string = Raise TypeError /\
  new_mheader [("meta_options", DStr (t_ "0000002"))]%string = Raise ValueError /\
  new_mheader [("meta_codec", DNone)]%string = Raise NoSuchCodec /\
  new_mheader [("meta_level", DNum true (Ok 6))]%string = Raise TypeError /\
  (exists h, new_mheader [("meta_level", DBool true); ("meta_codec", DStr (t_ "zlib"))]%string = Ok h) /\
  new_mheader [("max_meta_size", DStr (t_ "1K")); ("meta_level", DInt 10)]%string = Raise ValueError.
Proof. repeat split. eexists. reflexivity. Qed.

(** ** Encoding *)
(** int() and bool() of the flags. *)
Theorem C81_int : forall v,
  (forall z, d_int v = Ok z <-> int_of v z) /\ (forall e, d_int v = Raise e <-> no_int v e).
Proof. intros v. split; [exact (d_int_ok v)|exact (d_int_raise v)]. Qed.
Print Assumptions C81_int.
Theorem C81_truth : forall v, d_truth v = false <->
  In v [DNone; DBool false; DInt 0; DStr []; DBytes []; DTuple 0; DObj false] \/ exists i, v = DNum false i.
Proof. exact d_truth_false. Qed.
Print Assumptions C81_truth.
Example C81_int_cases :
  d_int (DStr (t_ " +1_0 ")) = Ok 10 /\ d_int (DBytes (b_of_string " 1 ")) = Ok 1 /\
  d_int (DBytes [x1c; x31]) = Raise ValueError /\ d_int (DBytes [x31; x1f]) = Raise ValueError /\
  d_int (DBytes [xa0; x31]) = Raise ValueError /\ d_int (DBytes [x09; x31; x20]) = Ok 1 /\ d_int (DBytes []) = Raise ValueError /\
  d_int (DNum true (Raise OverflowError)) = Raise OverflowError /\
  d_truth (DBytes []) = false /\ d_truth (DBytes [x00]) = true /\ d_truth (DTuple 1) = true.
Proof. vm_compute. repeat split. Qed.
(** If int() makes 0 or 1 of both flags, the header is the typed one in both
    directions. *)
Theorem C81_header_written : forall kw dh o m, new_header kw = Ok dh ->
  d_int (d_offsets dh) = Ok (Z.b2z o) -> d_int (d_metadata dh) = Ok (Z.b2z m) ->
  exists c raw, d_checksum dh = DStr (t_ (cks_name c)) /\ d_header_encode dh = Ok raw /\
    let h := typed_header dh c o m in
    header_decode raw = Ok h /\ header_encode h = Ok raw /\
    mk_header (number (d_version dh)) o m (cks_name c) (number (d_typesize dh)) (number (d_chunk_size dh))
      (number (d_last_chunk dh)) (number (d_nchunks dh)) (number (d_max_app dh)) = Ok h.
Proof. exact typed_encode. Qed.
Print Assumptions C81_header_written.
(** In general the two ints are written one after the other in decimal, and the result
    read as a number in base 2. *)
Theorem C81_flags : forall kw dh raw, new_header kw = Ok dh ->
  (d_header_encode dh = Ok raw <->
   exists c o m b raw0, d_checksum dh = DStr (t_ (cks_name c)) /\
     d_int (d_offsets dh) = Ok o /\ d_int (d_metadata dh) = Ok m /\ binary (int_text m ++ int_text o) b /\ b <= 255 /\
     header_encode (typed_header dh c false false) = Ok raw0 /\ raw = with_byte 5 (bZ b) raw0).
Proof. exact flags_written. Qed.
Print Assumptions C81_flags.
(** And the exception otherwise: metadata is converted first. *)
Theorem C81_flags_refused : forall kw dh e, new_header kw = Ok dh ->
  (d_header_encode dh = Raise e <->
   no_int (d_metadata dh) e \/
   exists m, int_of (d_metadata dh) m /\ (no_int (d_offsets dh) e \/
     exists o, int_of (d_offsets dh) o /\
       ((forall b, ~ binary (int_text m ++ int_text o) b) /\ e = ValueError \/
        exists b, binary (int_text m ++ int_text o) b /\ 255 < b /\ e = StructError))).
Proof. exact flags_refused. Qed.
Print Assumptions C81_flags_refused.
(** Apart from zeros and ones only 10 and 11 as 'offsets' (without metadata) can be
    read back: as a header with metadata. *)
Theorem C81_flags_back : forall kw dh raw, new_header kw = Ok dh -> d_header_encode dh = Ok raw ->
  exists c o m, d_checksum dh = DStr (t_ (cks_name c)) /\ d_int (d_offsets dh) = Ok o /\ d_int (d_metadata dh) = Ok m /\
  ((o = 0 \/ o = 1) /\ (m = 0 \/ m = 1) /\ header_decode raw = Ok (typed_header dh c (o =? 1) (m =? 1)) \/
   m = 0 /\ o = 10 /\ header_decode raw = Ok (typed_header dh c false true) \/
   m = 0 /\ o = 11 /\ header_decode raw = Ok (typed_header dh c true true) \/
   header_decode raw = Raise ValueError /\ ~ ((o = 0 \/ o = 1) /\ (m = 0 \/ m = 1)) /\ ~ (m = 0 /\ (o = 10 \/ o = 11))).
Proof. exact flags_back. Qed.
Print Assumptions C81_flags_back.
Definition encoded (off meta : dyn) : res (bytes * res (bool * bool)) :=
  h <~ new_header [("offsets", off); ("metadata", meta)]%string ;; raw <~ d_header_encode h ;;
  Ok (sub 5 1 raw, h <~ header_decode raw ;; Ok (h_offsets h, h_metadata h)).
Example C81_flag_cases :
  encoded (DStr (t_ " 1 ")) (DBool true) = Ok ([x03], Ok (true, true)) /\
  encoded (DNum true (Ok 1)) (DInt 0) = Ok ([x01], Ok (true, false)) /\
  encoded (DInt 10) (DBool false) = Ok ([x02], Ok (false, true)) /\
  encoded (DInt 11) (DBool false) = Ok ([x03], Ok (true, true)) /\
  encoded (DInt 100) (DBool true) = Ok ([x0c], Raise ValueError) /\
  encoded (DInt 2) (DBool true) = Raise ValueError /\
  encoded (DInt (-1)) (DBool true) = Raise ValueError /\
  encoded (DInt 11111111) (DBool true) = Raise StructError /\
  encoded (DStr (t_ "yes")) (DBool true) = Raise ValueError /\
  encoded (DStr (t_ "yes")) DNone = Raise TypeError /\
  encoded DNone (DStr (t_ "yes")) = Raise ValueError.
Proof. vm_compute. repeat split. Qed.

(** ** Packing *)
(** Whatever 'offsets' is: pack makes the file it makes for the truth value of it,
    except for the options byte, which holds the int of it as above. *)
Theorem C81_pack : forall E b cs m oba off ck ma oma g,
  d_pack_bytes E b cs m oba off ck ma oma = Ok g <->
  exists o k f, d_int off = Ok o /\ binary (int_text (Z.b2z (negb (is_none m))) ++ int_text o) k /\ k <= 255 /\
    pack_bytes_to_bytes E b cs m oba (Some (mkBPA (d_truth off) ck ma)) oma = Ok f /\ g = with_byte 5 (bZ k) f.
Proof. exact d_pack_flags. Qed.
Print Assumptions C81_pack.
(** So it is the same as True or False if int() and bool() agree. *)
Theorem C81_pack_same : forall E b cs m oba off ck ma oma, d_int off = Ok (Z.b2z (d_truth off)) ->
  d_pack_bytes E b cs m oba off ck ma oma = pack_bytes_to_bytes E b cs m oba (Some (mkBPA (d_truth off) ck ma)) oma.
Proof. exact d_pack_typed. Qed.
Print Assumptions C81_pack_same.
Definition packed_as (off : dyn) (m : pyval) : option (res (bool * bytes)) :=
  match d_pack_bytes toy_env ex_data (CSInt 20) m None off "adler32" (MAInt 2) None with
  | Ok g => Some (_ <~ snd (unpack_core toy_env g) ;; Ok (has_offsets g, fst (unpack_core toy_env g)))
  | Raise _ => None
  end.
Example C81_pack_cases :
  packed_as (DInt 1) ex_meta = Some (Ok (true, ex_data)) /\ packed_as (DStr (t_ "1")) ex_meta = Some (Ok (true, ex_data)) /\
  packed_as (DNum true (Ok 1)) PNone = Some (Ok (true, ex_data)) /\ packed_as (DInt 0) PNone = Some (Ok (false, ex_data)) /\
  packed_as DNone PNone = None /\ packed_as (DInt 2) PNone = None /\ packed_as (DInt 100) ex_meta = Some (Raise ValueError).
Proof. vm_compute. repeat split. Qed.
(** That a pack which succeeds has made a file that can be unpacked is false:
    '0' and 0.5 are true but 0 in the header, 10 is the flag for metadata. *)
Theorem C81_pack_refuted :
  packed_as (DStr (t_ "0")) PNone = Some (Raise ChecksumMismatch) /\
  packed_as (DNum true (Ok 0)) PNone = Some (Raise ChecksumMismatch) /\
  packed_as (DInt 10) PNone = Some (Raise KeyError).
Proof. vm_compute. repeat split. Qed.
Print Assumptions C81_pack_refuted.
