(** C72: which exceptions come out. *)
From Verif Require Import Base PyVal Checksums Headers Args FileIO Append Spec Archive ExcSpec Json Toy ExcProofs ExcPack PropsPack.

(** Reading any bytes whatever. *)
Theorem C72_unpack : forall E f e, snd (unpack_core E f) = Raise e ->
  In e read_errors \/ e = OSError /\ e_mem E = false \/ foreign_read E e.
Proof. exact unpack_exceptions. Qed.
Print Assumptions C72_unpack.
(** Each of these happens. *)
Definition edit (p : nat) (x f : bytes) : bytes := firstn p f ++ x ++ skipn (p + List.length x) f.
Example C72_case_unpack : map (fun f => snd (unpack_core toy_env f))
  [firstn 20 ex_file;                              (* too short for a header *)
   edit 6 [x09] ex_file;                           (* no checksum 9 *)
   firstn 684 ex_file;                             (* ends in the header of a chunk *)
   edit 16 (repeat xff 8 ++ repeat x00 8) ex_file; (* offsets of an unknown number of chunks *)
   edit 32 (b_of_string "YAML") ex_file;           (* no such serializer *)
   edit 700 [x00] ex_file;                         (* a digest differs *)
   edit 4 [x02] ex_file;                           (* another format *)
   edit 48 (repeat x00 4 ++ repeat xff 4) ex_file; (* a seek before the start *)
   edit 16 (repeat x00 7 ++ [x10]) ex_file;        (* a table of more than 2**63 bytes *)
   firstn 660 ex_file]                             (* ends in a chunk: the decompressor complains *)
  = map Raise [ValueError; IndexError; StructError; TypeError; KeyError; ChecksumMismatch; FormatVersionMismatch; OSError; OverflowError; BloscError] /\
  foreign_read toy_env BloscError.
Proof. split; [vm_compute; reflexivity|]. left. exists []. reflexivity. Qed.
(** In memory there is no OSError. *)
Example C72_case_memory : snd (unpack_core toy_mem_env (edit 48 (repeat x00 4 ++ repeat xff 4) ex_file)) = Raise ChecksumMismatch.
Proof. vm_compute. reflexivity. Qed.

(** A table of offsets that no read call can ask for: nothing is written. *)
Theorem C72_overflow : forall E f h, header_decode (ztake 32 f) = Ok h -> h_version h = 3 -> h_offsets h = true -> h_metadata h = false ->
  0 <= h_nchunks h -> 2 ^ 60 <= h_nchunks h + h_max_app h -> zlen f < 8 * (h_nchunks h + h_max_app h) ->
  unpack_core E f = ([], Raise OverflowError).
Proof. exact unpack_overflow. Qed.
Print Assumptions C72_overflow.
Definition ex_no_offsets : bytes :=
  match pack_bytes_to_bytes toy_env ex_data (CSInt 20) PNone None (Some (mkBPA false "adler32" (MAInt 2))) None with Ok f => f | Raise _ => [] end.
Example C72_case_overflow : let f := edit 16 (repeat x00 7 ++ [x10]) ex_no_offsets in let g := edit 5 [x01] f in
  header_decode (ztake 32 g) = Ok (mkH 3 true false CkAdler32 8 20 7 (2 ^ 60) 0) /\ unpack_core toy_env g = ([], Raise OverflowError).
Proof. vm_compute. split; reflexivity. Qed.

(** Appending to any bytes whatever. *)
Theorem C72_append : forall E f new oa e, snd (append_bytes E f new oa) = Raise e ->
  In e read_errors \/ In e append_errors \/ e = OSError /\ e_mem E = false \/ foreign_read E e \/ foreign_write E e.
Proof. exact append_exceptions. Qed.
Print Assumptions C72_append.
Example C72_case_append : map (fun f => snd (append_bytes toy_env f (repeat x41 60) no_obargs))
  [ex_no_offsets; edit 24 (repeat x00 8) ex_file; edit 8 [x00] ex_file; edit 558 (repeat xff 8) (edit 16 [x01] ex_file)] =
  map Raise [RuntimeError; NotEnoughSpace; ValueError; OSError] /\
  snd (append_bytes toy_env ex_file (repeat x41 5) (mkOBA (Some 999) None None None)) = Raise ValueError /\ foreign_write toy_env ValueError.
Proof. split; [vm_compute; reflexivity|]. split; [vm_compute; reflexivity|]. exists (mkBA 999 7 true "blosclz"), [x41]. vm_compute. reflexivity. Qed.

(** Rewriting the metadata of any bytes whatever. *)
Theorem C72_rewrite : forall E f m ov e, snd (rewrite_bytes E f m ov) = Raise e ->
  In e rewrite_errors \/ override_error ov e \/ e = OSError /\ e_mem E = false \/ foreign_read E e \/ foreign_meta E e.
Proof. exact rewrite_exceptions. Qed.
Print Assumptions C72_rewrite.
Definition no_overrides := mkOv None None None None.
Example C72_case_rewrite :
  map (fun f => snd (rewrite_bytes toy_env f PNone no_overrides))
    [[]; edit 42 [x07] ex_file; edit 32 (b_of_string "YAML") ex_file; edit 64 [x00] ex_file; edit 4 [x02] ex_file; ex_no_offsets] =
    map Raise [ValueError; IndexError; KeyError; ChecksumMismatch; FormatVersionMismatch; NoMetadataFound] /\
  snd (rewrite_bytes toy_env ex_file (norm ex_meta) no_overrides) = Raise NoChangeInMetadata /\
  snd (rewrite_bytes toy_env ex_file (PStr (repeat 65 600)) no_overrides) = Raise MetadataSectionTooSmall /\
  map (fun ov => snd (rewrite_bytes toy_env ex_file PNone ov))
    [mkOv (Some (b_of_string "YAML")) None None None; mkOv None (Some "md4"%string) None None;
     mkOv None (Some "md5"%string) None None; mkOv None None (Some "lzma"%string) None] =
    map Raise [NoSuchSerializer; NoSuchChecksum; ChecksumLengthMismatch; NoSuchCodec].
Proof. vm_compute. repeat split. Qed.

(** Packing, with the grounds. *)
Theorem C72_pack : forall E, EnvOK E -> forall b cs m oba obp oma k e,
  pack_bytes_core E b cs m oba obp oma = (k, Raise e) ->
  pack_error E b cs m (the_bpargs obp) (the_margs oma) (fdata (s_fp k)) e.
Proof. exact pack_exceptions. Qed.
Print Assumptions C72_pack.
Definition ex_pack (cs : csarg) (m : pyval) (bp : bpargs) (ma : margs) : res (option margs) :=
  snd (pack_bytes_core toy_env ex_data cs m None (Some bp) (Some ma)).
Example C72_case_pack :
  map (fun cs => ex_pack cs PNone ex_bp default_margs) [CSInt 0; CSStr ""; CSStr "infK"; CSOther] = map Raise [ValueError; IndexError; OverflowError; TypeError] /\
  map (fun bp => ex_pack (CSInt 20) PNone bp default_margs) [mkBPA true "adler32" MAOther; mkBPA true "md4" (MAInt 0)] = map Raise [TypeError; NoSuchChecksum] /\
  ex_pack (CSInt 20) PNone (mkBPA true "adler32" (MACall (fun _ => Raise RuntimeError))) default_margs = Raise RuntimeError /\
  map (fun ma => ex_pack (CSInt 20) ex_meta ex_bp ma)
    [mkMA (b_of_string "YAML") "adler32" "zlib" 6 (MMInt 500); mkMA (b_of_string "JSON") "adler32" "lzma" 6 (MMInt 500);
     mkMA (b_of_string "JSON") "md4" "zlib" 6 (MMInt 500);
     mkMA (b_of_string "JSON") "adler32" "zlib" 6 (MMInt 5); mkMA (b_of_string "JSON") "adler32" "zlib" 6 MMOther;
     mkMA (b_of_string "JSON") "adler32" "zlib" 6 (MMCall (fun _ => Raise RuntimeError))] =
    map Raise [KeyError; KeyError; NoSuchChecksum; MetadataSectionTooSmall; UnboundLocalError; RuntimeError].
Proof. vm_compute. repeat split. Qed.
