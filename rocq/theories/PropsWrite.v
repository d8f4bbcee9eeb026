(** C91: what packing any bytes with any arguments does. *)
From Verif Require Import Base PyVal Checksums Headers Pretty Args FileIO Append Spec Archive CrcSpec FormatSpec ReadSpec ReadProofs ReviseSpec WriteSpec WriteProofs Json Toy
  PropsPack PropsExc PropsRead.

(** ** C91.  [reference_pack] says what packing leaves in the output and what it
    returns (the metadata arguments as they are afterwards) or raises, by the
    description of the format alone.  Packing does exactly that, whatever the
    bytes and the arguments; also what has been written when it raises. *)
Theorem C91_pack : forall E dg, (forall code d, 0 <= code < 9 -> is_digest E code d (dg code d)) -> EnvOK E ->
  forall b cs m oba obp oma, let r := pack_bytes_core E b cs m oba obp oma in
  (fdata (s_fp (fst r)), snd r) = reference_pack E dg b cs m oba obp oma.
Proof. exact pack_exact. Qed.
Print Assumptions C91_pack.
Theorem C91_bytes : forall E dg, (forall code d, 0 <= code < 9 -> is_digest E code d (dg code d)) -> EnvOK E ->
  forall b cs m oba obp oma, pack_bytes_to_bytes E b cs m oba obp oma =
  match reference_pack E dg b cs m oba obp oma with (f, Ok _) => Ok f | (_, Raise e) => Raise e end.
Proof. exact pack_bytes_exact. Qed.
Print Assumptions C91_bytes.

(** The specification itself, run. *)
Definition ref_pack := reference_pack toy_env ref_dg.
Definition codec_after (r : res (option margs)) : res (option string) :=
  match r with Ok (Some a) => Ok (Some (ma_codec a)) | Ok None => Ok None | Raise e => Raise e end.
Example C91_case : fst (ref_pack ex_data (CSInt 20) ex_meta None (Some ex_bp) None) = ex_file /\
  codec_after (snd (ref_pack ex_data (CSInt 20) ex_meta None (Some ex_bp) None)) = Ok (Some "None"%string) /\
  codec_after (snd (ref_pack ex_data (CSStr "1M") ex_meta None None None)) = Ok (Some "None"%string) /\
  reference toy_env ref_dg (fst (ref_pack ex_data (CSStr "0.02K") PNone None None None)) = (ex_data, Ok PNone) /\
  reference toy_env ref_dg (fst (ref_pack [] CSOther PNone None None None)) = ([], Ok PNone).
Proof. vm_compute. repeat split. Qed.
Definition ref_fault (cs : csarg) (m : pyval) (bp : bpargs) (ma : margs) : Z * res (option margs) :=
  let r := ref_pack ex_data cs m None (Some bp) (Some ma) in (size (fst r), snd r).
(** Before the header is written, after it, and within the chunks. *)
Example C91_case_faults :
  map (fun cs => ref_fault cs PNone ex_bp default_margs) [CSInt 0; CSStr ""; CSStr "infK"; CSOther] = map (fun e => (0, Raise e)) [ValueError; IndexError; OverflowError; TypeError] /\
  map (fun bp => ref_fault (CSInt 20) PNone bp default_margs) [mkBPA true "adler32" MAOther; mkBPA true "md4" (MAInt 0); mkBPA true "crc32" (MAInt (-1))] =
    map (fun e => (0, Raise e)) [TypeError; NoSuchChecksum; ValueError] /\
  map (fun ma => ref_fault (CSInt 20) ex_meta ex_bp ma)
    [mkMA (b_of_string "YAML") "adler32" "zlib" 6 (MMInt 500); mkMA (b_of_string "JSON") "adler32" "lzma" 6 (MMInt 500);
     mkMA (b_of_string "JSON") "md4" "zlib" 6 (MMInt 500); mkMA (b_of_string "JSON") "adler32" "None" 10 (MMInt 500);
     mkMA (b_of_string "JSON") "adler32" "zlib" 6 (MMInt 5); mkMA (b_of_string "JSON") "adler32" "zlib" 6 MMOther;
     mkMA (b_of_string "JSON") "adler32" "zlib" 6 (MMCall (fun _ => Raise RuntimeError))] =
    map (fun e => (32, Raise e)) [KeyError; KeyError; NoSuchChecksum; ValueError; MetadataSectionTooSmall; UnboundLocalError; RuntimeError] /\
  (let r := ref_pack ex_data (CSInt 20) PNone (Some (mkBA 0 7 true "blosclz")) (Some ex_bp) None in (size (fst r), snd r)) = (72, Raise ValueError).
Proof. vm_compute. repeat split. Qed.
