(** Model of bloscpack/cli.py: what 'blpk' prints, at the verbosity NORMAL.  The
    messages of log.verbose and log.debug, in cli.py and in the modules below it,
    print nothing there (C62) and are left out; so is what argparse itself prints
    (usage, and errors that end with code 2). *)
From Verif Require Import Base PyVal Checksums Headers Pretty Args FileIO Append Files Cli Objects Log.

(** Texts made outside of /repo or not modelled: pprint.pformat(metadata, width=90),
    str() of an exception, the message of CheckChunkSizeOption (cli.py:303-307). *)
Record Texts := mkTexts { t_pprint : pyval -> text; t_str : exn -> text; t_option : string -> text }.

Section WithEnv.
Variable E : Env.
Variable T : Texts.

Definition fsl := (fs * logst)%type.
Definition on_fs {A} (m : SM fs A) : SM fsl A := onl m.
Definition say (m : text) : SM fsl unit := onr (normal m).
Definition fail {A} (m : text) : SM fsl A := onr (error m 1).
(** '..' % name in the messages *)
Definition quoted (s : string) : text := t_ "'" ++ t_ s ++ t_ "'".

(** check_files (cli.py:58-84) with its handler (cli.py:448-451, 467-470). *)
Definition r_check_files (in_file out_file : path) (force : bool) : SM fsl unit :=
  fun st => if negb (fs_exists (fst st) in_file) then fail (t_ "input file " ++ quoted in_file ++ t_ " does not exist!") st
            else if fs_exists (fst st) out_file && negb force then fail (t_ "output file " ++ quoted out_file ++ t_ " exists!") st
            else (st, Ok tt).

(** bool(metadata) *)
Definition py_true (v : pyval) : bool :=
  match v with
  | PNone => false | PBool b => b | PInt z => negb (z =? 0)
  | PFloat r => negb (zs_eqb r (u "0.0") || zs_eqb r (u "-0.0"))
  | PStr s => negb (zs_eqb s []) | PList l | PTuple l => match l with [] => false | _ => true end
  | PDict l => match l with [] => false | _ => true end
  end.
(** log_metadata (cli.py:176-178) *)
Definition log_metadata (m : pyval) : SM fsl unit := say (t_ "Metadata:") ;;; say (t_pprint T m).

(** The 'compress' branch (cli.py:444-463). *)
Definition r_compress (o : copts) : SM fsl unit :=
  lift (blosc_choices E (co_clevel o) (co_cname o)) ;;;
  cs <- (match co_chunk o with
         | None => ret (CSStr "1M")
         | Some t => match chunk_size_option t with
                     | Ok z => ret (CSInt z)
                     | Raise (SystemExit _) => fail (t_option T t)
                     | Raise e => raise e
                     end
         end) ;;
  lift (match check_valid_checksum (co_checksum o) with
        | Ok _ => Ok tt | Raise _ => Raise (SystemExit 2) end) ;;;
  r_check_files (co_in o) (compress_out o) (co_force o) ;;;
  m <- on_fs (process_metadata_args E (co_meta o)) ;;
  (fun st => match on_fs (pack_file_to_file E (co_in o) (compress_out o) cs m
                    (Some (mkBA (co_typesize o) (co_clevel o) (co_shuffle o) (co_cname o)))
                    (Some (mk_bpargs (co_offsets o) (Some (co_checksum o)) (bp_max_app default_bpargs)))
                    (Some default_margs)) st with
             | (st', Raise ChunkingException) => fail (t_str T ChunkingException) st'
             | (st', Raise e) => (st', Raise e)
             | (st', Ok _) => (st', Ok tt)
             end).

(** process_decompression_args (cli.py:117-146). *)
Definition r_decompress_out (o : dopts) : SM fsl path :=
  if do_no_check o then
    match do_out o with None => fail (t_ "--no-check-extension requires use of <out_file>") | Some p => ret p end
  else if ends_with_ext (do_in o) then ret (or_default (do_out o) (strip_ext (do_in o)))
  else fail (t_ "input file " ++ quoted (do_in o) ++ t_ " does not end with " ++ quoted EXTENSION).
(** The 'decompress' branch (cli.py:464-478). *)
Definition r_decompress (o : dopts) : SM fsl unit :=
  out <- r_decompress_out o ;;
  r_check_files (do_in o) out (do_force o) ;;;
  m <- (fun st => match on_fs (unpack_file_from_file E (do_in o) out) st with
                  | (st', Raise FormatVersionMismatch) => (st', Raise AttributeError)
                  | (st', Raise ChecksumMismatch) => (st', Raise AttributeError)
                  | x => x
                  end) ;;
  if py_true m then log_metadata m else ret tt.

(** The 'append' branch (cli.py:149-156, 479-499). *)
Definition r_append (o : aopts) : SM fsl unit :=
  lift (blosc_choices E (ao_clevel o) (ao_cname o)) ;;;
  (if negb (ao_no_check o) && negb (ends_with_ext (ao_orig o))
   then fail (t_ "original file " ++ quoted (ao_orig o) ++ t_ " does not end with " ++ quoted EXTENSION) else ret tt) ;;;
  (fun st => if negb (fs_exists (fst st) (ao_orig o)) then fail (t_ "original file " ++ quoted (ao_orig o) ++ t_ " does not exist!") st
             else if negb (fs_exists (fst st) (ao_new o)) then fail (t_ "new file " ++ quoted (ao_new o) ++ t_ " does not exist!") st
             else (st, Ok tt)) ;;;
  m <- on_fs (process_metadata_args E (ao_meta o)) ;;
  on_fs (append_file E (ao_orig o) (ao_new o)
    (obargs_of (mkBA (ao_typesize o) (ao_clevel o) (ao_shuffle o) (ao_cname o)))) ;;;
  if is_none m then ret tt
  else on_fs
    (d <- open_rb (ao_orig o) ;;
     (fun s => let r := rewrite_metadata E m default_overrides (fp_of d) in
               (fs_set s (ao_orig o) (fdata (fst r)), snd r))).

(** str() of the OrderedDicts (headers.py:215-230), as Python up to 3.11 writes them. *)
Definition odict_text (l : list (string * oval)) : text :=
  t_ "OrderedDict([" ++
  join_text (t_ ", ") (map (fun kv => t_ "(" ++ oval_repr (OStr (t_ (fst kv))) ++ t_ ", " ++ oval_repr (snd kv) ++ t_ ")") l) ++
  t_ "])".
Definition blosc_header_text (h : blosc_header) : text := odict_text
  [("version", OInt (bh_version h)); ("versionlz", OInt (bh_versionlz h)); ("flags", OInt (bh_flags h)); ("typesize", OInt (bh_typesize h));
   ("nbytes", OInt (bh_nbytes h)); ("blocksize", OInt (bh_blocksize h)); ("ctbytes", OInt (bh_ctbytes h))]%string.
Definition blosc_flags_text (f : blosc_flags) : text := odict_text
  [("byte_shuffle", OBool (bf_byte_shuffle f)); ("pure_memcpy", OBool (bf_pure_memcpy f)); ("bit_shuffle", OBool (bf_bit_shuffle f));
   ("split_blocks", OBool (bf_split_blocks f)); ("codec", OStr (t_ (bf_codec f)))]%string.
(** "[%s,...]" % ",".join(str(o) for o in offsets[:5]) (cli.py:521) *)
Definition offsets_text (l : list Z) : text := t_ "[" ++ join_text (t_ ",") (map int_text (firstn 5 l)) ++ t_ ",...]".
(** pformat() of a header, with its default indentation (abstract_objects.py:60) *)
Definition header_text (h : header) : text := match snd (pformat 4 (header_obj h)) with Ok x => x | Raise _ => [] end.
Definition mheader_text (h : mheader) : text := match snd (pformat 4 (mheader_obj h)) with Ok x => x | Raise _ => [] end.

(** The 'info' branch (cli.py:500-531). *)
Definition r_info (p : path) : SM fsl unit :=
  bb <- (fun st =>
    match fst st p with
    | None => fail (t_ "file " ++ quoted p ++ t_ " does not exist!") st
    | Some d =>
        match (bg <- read_beginning E ;;
               r <- read_compressed_chunk E (h_checksum (b_header bg)) ;;
               ret (bg, snd (fst r))) (fp_of d) with
        | (_, Raise e) => if is_ValueError e
                          then fail (t_str T e ++ [nl] ++ t_ "This might not be a bloscpack compressed file.") st
                          else (st, Raise e)
        | (_, Ok x) => (st, Ok x)
        end
    end) ;;
  let bg := fst bb in let bh := snd bb in
  say (header_text (b_header bg)) ;;;
  (match b_offsets bg with
   | [] => ret tt
   | l => say (t_ "'offsets':") ;;; say (offsets_text l)
   end) ;;;
  (if is_none (b_meta bg) then ret tt
   else log_metadata (b_meta bg) ;;;
        match b_mheader bg with Some mh => say (mheader_text mh) | None => raise AttributeError end) ;;;
  say (t_ "First chunk blosc header:") ;;;
  say (blosc_header_text bh) ;;;
  say (t_ "First chunk blosc flags: ") ;;;
  fl <- lift (decode_blosc_flags (bh_flags bh)) ;;
  say (blosc_flags_text fl).

(** main (cli.py:430-533). *)
Definition r_main (c : command) : SM fsl unit :=
  match c with
  | CmdCompress o => r_compress o
  | CmdDecompress o => r_decompress o
  | CmdAppend o => r_append o
  | CmdInfo p => r_info p
  | CmdNone => onr (error (t_ "too few arguments") 2)
  end.
End WithEnv.
