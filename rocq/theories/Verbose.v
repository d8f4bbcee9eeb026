(** Model of what 'blpk --verbose' prints: the functions between cli.py and the file
    pointers again, with their log.verbose messages.  log.debug prints nothing at the
    verbosity VERBOSE (C62); its messages, here and in the functions below these, are
    left out. *)
From Verif Require Import Base PyVal Checksums Headers Pretty Args FileIO Append Files Cli Objects Log Report.

(** '%f' % (a / b) for ints a and b > 0 (pretty.py:7 and its like import division): the
    binary64 nearest to the quotient, rounded to six decimals (both ties to even;
    quotients beyond the range of binary64, an OverflowError, are not modelled). *)
Definition six_digits (n : Z) : text :=
  map (fun k => ascii_of_nat (Z.to_nat (48 + n / 10 ^ k mod 10))) [5; 4; 3; 2; 1; 0].
Definition ratio_text (a b : Z) : text :=
  let '(m, e) := b64_of (Z.abs a) b in
  let n := rhe (shl_num (m * 10 ^ 6) e) (shl_den 1 e) in
  (if a <? 0 then t_ "-" else []) ++ dec_of (n / 10 ^ 6) ++ t_ "." ++ six_digits (n mod 10 ^ 6).

(** log.verbose beside another state *)
Definition tell {S} (m : text) : SM (S * logst) unit := onr (verbose m "VERBOSE").

(** calculate_nchunks (args.py:151-216); the message for an empty input comes after the
    return statement. *)
Definition v_calculate_nchunks (size : Z) (cs : csarg) : SM logst (Z * Z * Z) :=
  if size <? 0 then raise ValueError
  else if size =? 0 then ret (1, 0, 0)
  else
    cs <- lift (match cs with
                | CSInt z => Ok z
                | CSStr s => reverse_pretty s
                | CSOther => Raise TypeError
                end) ;;
    lift (check_range cs 1 BLOSC_MAX_BUFFERSIZE) ;;;
    cs <- (if size <? cs
           then verbose (t_ "Input was smaller than the given 'chunk_size': " ++ double_pretty_size cs ++
                         t_ " using: " ++ double_pretty_size size) "VERBOSE" ;;; ret size
           else ret cs) ;;
    let q := size / cs in
    let r := size mod cs in
    let '(n, cs', last) :=
      if cs =? size then (1, size, size)
      else if r =? 0 then (q, cs, cs)
      else (q + 1, cs, r) in
    (if MAX_CHUNKS <? n then raise ChunkingException else ret tt) ;;;
    verbose (t_ "nchunks: " ++ int_text n) "VERBOSE" ;;;
    verbose (t_ "chunk_size: " ++ double_pretty_size cs') "VERBOSE" ;;;
    verbose (t_ "last_chunk_size: " ++ double_pretty_size last) "VERBOSE" ;;;
    ret (n, cs', last).

Section WithEnv.
Variable E : Env.
Variable T : Texts.

(** _read_metadata (file_io.py:181-234) *)
Definition v_read_metadata : SM (fp * logst) (pyval * mheader) :=
  raw <- onl (f_read METADATA_HEADER_LENGTH) ;;
  h <- lift (mheader_decode raw) ;;
  payload <- onl (f_read (mh_comp h)) ;;
  onl (f_seek_rel E (mh_max h - mh_comp h)) ;;;
  (if cks_eqb (mh_checksum h) CkNone then ret tt
   else
     expected <- onl (f_read (cks_size (mh_checksum h))) ;;
     if bytes_eqb (digest E (mh_checksum h) payload) expected then ret tt
     else raise ChecksumMismatch) ;;;
  plain <- lift (codec_decompress E (mh_codec h) payload) ;;
  tell (t_ "read " ++ t_ (if String.eqb (codec_name (mh_codec h)) "None" then "uncompressed" else "compressed") ++
        t_ " metadata of size: '" ++ int_text (mh_comp h) ++ t_ "'") ;;;
  lift (serializer_lookup (mh_magic h)) ;;;
  m <- lift (e_loads E plain) ;;
  ret (m, h).
(** _read_beginning (file_io.py:268-289) *)
Definition v_read_beginning : SM (fp * logst) beginning :=
  h <- onl read_bloscpack_header ;;
  mm <- (if h_metadata h then r <- v_read_metadata ;; ret (fst r, Some (snd r))
         else ret (PNone, None)) ;;
  o <- onl (read_offsets h) ;;
  ret (mkBeg h (fst mm) (snd mm) o).

(** pack_file_to_file (file_io.py:420-470) *)
Definition v_pack_file (in_file out_file : path) (cs : csarg) (m : pyval)
    (oba : option bargs) (obp : option bpargs) (oma : option margs) : SM fsl (option margs) :=
  in_size <- on_fs (getsize in_file) ;;
  tell (t_ "input file size: " ++ double_pretty_size in_size) ;;;
  ncl <- onr (v_calculate_nchunks in_size cs) ;;
  let '(n, c, l) := ncl in
  data <- on_fs (open_rb in_file) ;;
  on_fs (open_wb out_file) ;;;
  let seen := if String.eqb in_file out_file then [] else data in
  r <- on_fs (fun s => let '((_, k), r) := pack (fp_source E) (fp_sink E) n c l m oba obp oma
                                                (fp_of seen, cfs_of (fp_of [])) in
                       (fs_set s out_file (fdata (s_fp k)), r)) ;;
  out_size <- on_fs (getsize out_file) ;;
  tell (t_ "output file size: " ++ double_pretty_size out_size) ;;;
  if out_size =? 0 then raise ZeroDivisionError
  else tell (t_ "compression ratio: " ++ ratio_text in_size out_size) ;;; ret r.

(** unpack_file_from_file (file_io.py:478-511) *)
Definition v_unpack_core (b : bytes) (l : logst) : bytes * logst * res pyval :=
  match v_read_beginning (fp_of b, l) with
  | ((_, l'), Raise e) => ([], l', Raise e)
  | ((f, l'), Ok bg) =>
      let '((_, out), r) := unpack_fp E (b_header bg) (f, fp_of []) in
      (fdata out, l', rbind r (fun _ => Ok (b_meta bg)))
  end.
Definition v_unpack_file (in_file out_file : path) : SM fsl pyval :=
  in_size <- on_fs (getsize in_file) ;;
  tell (t_ "input file size: " ++ t_ (pretty_size in_size)) ;;;
  data <- on_fs (open_rb in_file) ;;
  on_fs (open_wb out_file) ;;;
  let seen := if String.eqb in_file out_file then [] else data in
  m <- (fun st => let '(out, l, r) := v_unpack_core seen (snd st) in ((fs_set (fst st) out_file out, l), r)) ;;
  out_size <- on_fs (getsize out_file) ;;
  tell (t_ "output file size: " ++ t_ (pretty_size out_size)) ;;;
  if in_size =? 0 then raise ZeroDivisionError
  else tell (t_ "decompression ratio: " ++ ratio_text out_size in_size) ;;; ret m.

(** append_fp (append.py:62-191) *)
Definition on_orig {A} (m : SM (fp * logst) A) : SM ((fp * fp) * logst) A :=
  fun st => let '((f, l), r) := m (snd (fst st), snd st) in (((fst (fst st), f), l), r).
Definition v_append_fp (new_size : Z) (o : obargs) : SM ((fp * fp) * logst) Z :=
  bg <- on_orig v_read_beginning ;;
  let h := b_header bg in
  let ck := h_checksum h in
  match b_offsets bg with
  | [] => raise RuntimeError
  | o0 :: os =>
    let offs := o0 :: os in
    let last_off := List.last offs 0 in
    ba <- lift (fill_blosc_args o h) ;;
    onl (onr (f_seek E last_off)) ;;;
    r <- onl (onr (read_compressed_chunk E ck)) ;;
    let compressed := fst (fst r) in
    decompressed <- lift (e_decompress E compressed) ;;
    let to_read := h_chunk_size h - zlen decompressed in
    if new_size <=? to_read then onl
      (fill_up <- onl (f_read new_size) ;;
       onr (f_seek E last_off) ;;;
       c <- lift (compress_chunk_str E ba (decompressed ++ fill_up)) ;;
       onr (write_compressed_chunk c (digest E ck c)) ;;;
       raw <- lift (header_encode (set_counts h (h_last_chunk h + new_size) (h_nchunks h) (h_max_app h))) ;;
       onr (f_seek E 0) ;;;
       onr (f_write raw) ;;;
       ret 0)
    else
      let new_new_size := new_size - to_read in
      fill_up <- onl (onl (f_read to_read)) ;;
      ncl <- onr (v_calculate_nchunks new_new_size (CSInt (h_chunk_size h))) ;;
      let '(nchunks, chunk_size, last_chunk) := ncl in
      onl
       (if h_max_app h <? nchunks then raise NotEnoughSpace
        else
          onr (f_seek E last_off) ;;;
          c <- lift (compress_chunk_str E ba (decompressed ++ fill_up)) ;;
          onr (write_compressed_chunk c (digest E ck c)) ;;;
          (fun st =>
             let sink := mkCFS (snd st) 0 h (zrep nchunks (-1)) in
             match pack_loop (compress_chunk_str E ba) (fps_put E) 0
                             (fp_source_steps nchunks chunk_size last_chunk) (fst st, sink) with
             | ((nf, s), Raise e) => ((nf, s_fp s), Raise e)
             | ((nf, s), Ok _) =>
                 (raw <- lift (header_encode (set_counts h last_chunk (h_nchunks h + nchunks)
                                                         (h_max_app h - nchunks))) ;;
                  onr (f_seek E 0) ;;;
                  onr (f_write raw) ;;;
                  onr (f_seek E (offsets_pos bg)) ;;;
                  onr (write_offsets (offs ++ s_storage s)) ;;;
                  ret nchunks) (nf, s_fp s)
             end))
  end.
(** append (append.py:194-223) *)
Definition v_append_file (orig new : path) (oa : obargs) : SM fsl unit :=
  before <- on_fs (getsize orig) ;;
  new_size <- on_fs (getsize new) ;;
  tell (t_ "orig file size before append: " ++ double_pretty_size before) ;;;
  tell (t_ "new file size: " ++ double_pretty_size new_size) ;;;
  d <- on_fs (open_rb orig) ;;
  x <- on_fs (open_rb new) ;;
  (fun st => let r := v_append_fp new_size oa ((fp_of x, fp_of d), snd st) in
             ((fs_set (fst st) orig (fdata (snd (fst (fst r)))), snd (fst r)), snd r)) ;;;
  after <- on_fs (getsize orig) ;;
  tell (t_ "orig file size after append: " ++ double_pretty_size after) ;;;
  if new_size =? 0 then raise ZeroDivisionError
  else tell (t_ "Approximate compression ratio of appended data: " ++ ratio_text (after - before) new_size).

(** _rewrite_metadata_fp after _seek_to_metadata (append.py:226-281, cli.py:497-499) *)
Definition v_rewrite_metadata (m : pyval) (ov : overrides) : SM (fp * logst) unit :=
  onl seek_to_metadata ;;;
  pos <- onl f_tell ;;
  r <- v_read_metadata ;;
  let '(old, oldh) := r in
  if pyeq old m then raise NoChangeInMetadata
  else
    a <- lift (recreate_metadata oldh ov) ;;
    onl (f_seek E pos) ;;;
    onl (write_metadata E m a) ;;;
    ret tt.

(** check_files (cli.py:58-84) with its handlers *)
Definition v_check_files (in_file out_file : path) (force : bool) : SM fsl unit :=
  fun st =>
    (if negb (fs_exists (fst st) in_file) then fail (t_ "input file " ++ quoted in_file ++ t_ " does not exist!")
     else
       (if fs_exists (fst st) out_file
        then if negb force then fail (t_ "output file " ++ quoted out_file ++ t_ " exists!")
             else tell (t_ "overwriting existing file: " ++ quoted out_file)
        else ret tt) ;;;
       tell (t_ "input file is: " ++ quoted in_file) ;;;
       tell (t_ "output file is: " ++ quoted out_file)) st.
(** process_nthread_arg (cli.py:168-173); the number of threads (at least 1) is set in
    blosc, which is not modelled. *)
Definition v_nthreads (n : Z) : SM fsl unit :=
  tell (t_ "using " ++ int_text n ++ t_ " thread" ++ t_ (if 1 <? n then "s" else "")).

(** The branches of main (cli.py:430-533).  The options are checked by argparse, before
    the verbosity is set. *)
Definition v_compress (n : Z) (o : copts) : SM fsl unit :=
  lift (blosc_choices E (co_clevel o) (co_cname o)) ;;;
  cs <- (match co_chunk o with
         | None => ret (CSStr "1M")
         | Some t => match chunk_size_option t with
                     | Ok z => ret (CSInt z)
                     | Raise (SystemExit _) => fail (t_option T t)
                     | Raise e => raise e
                     end
         end) ;;
  lift (match check_valid_checksum (co_checksum o) with
        | Ok _ => Ok tt | Raise _ => Raise (SystemExit 2) end) ;;;
  v_nthreads n ;;;
  tell (t_ "getting ready for compression") ;;;
  v_check_files (co_in o) (compress_out o) (co_force o) ;;;
  m <- on_fs (process_metadata_args E (co_meta o)) ;;
  (fun st => match v_pack_file (co_in o) (compress_out o) cs m
                    (Some (mkBA (co_typesize o) (co_clevel o) (co_shuffle o) (co_cname o)))
                    (Some (mk_bpargs (co_offsets o) (Some (co_checksum o)) (bp_max_app default_bpargs)))
                    (Some default_margs) st with
             | (st', Raise ChunkingException) => fail (t_str T ChunkingException) st'
             | (st', Raise e) => (st', Raise e)
             | (st', Ok _) => (st', Ok tt)
             end).
Definition v_decompress (n : Z) (o : dopts) : SM fsl unit :=
  v_nthreads n ;;;
  tell (t_ "getting ready for decompression") ;;;
  out <- r_decompress_out o ;;
  v_check_files (do_in o) out (do_force o) ;;;
  m <- (fun st => match v_unpack_file (do_in o) out st with
                  | (st', Raise FormatVersionMismatch) => (st', Raise AttributeError)
                  | (st', Raise ChecksumMismatch) => (st', Raise AttributeError)
                  | x => x
                  end) ;;
  if py_true m then log_metadata T m else ret tt.
Definition v_append (n : Z) (o : aopts) : SM fsl unit :=
  lift (blosc_choices E (ao_clevel o) (ao_cname o)) ;;;
  v_nthreads n ;;;
  tell (t_ "getting ready for append") ;;;
  (if negb (ao_no_check o) && negb (ends_with_ext (ao_orig o))
   then fail (t_ "original file " ++ quoted (ao_orig o) ++ t_ " does not end with " ++ quoted EXTENSION) else ret tt) ;;;
  (fun st => if negb (fs_exists (fst st) (ao_orig o)) then fail (t_ "original file " ++ quoted (ao_orig o) ++ t_ " does not exist!") st
             else if negb (fs_exists (fst st) (ao_new o)) then fail (t_ "new file " ++ quoted (ao_new o) ++ t_ " does not exist!") st
             else (st, Ok tt)) ;;;
  tell (t_ "original file is: " ++ quoted (ao_orig o)) ;;;
  tell (t_ "new file is: " ++ quoted (ao_new o)) ;;;
  m <- on_fs (process_metadata_args E (ao_meta o)) ;;
  v_append_file (ao_orig o) (ao_new o)
    (obargs_of (mkBA (ao_typesize o) (ao_clevel o) (ao_shuffle o) (ao_cname o))) ;;;
  if is_none m then ret tt
  else
    d <- on_fs (open_rb (ao_orig o)) ;;
    (fun st => let r := v_rewrite_metadata m default_overrides (fp_of d, snd st) in
               ((fs_set (fst st) (ao_orig o) (fdata (fst (fst r))), snd (fst r)), snd r)).
Definition v_info (n : Z) (p : path) : SM fsl unit :=
  v_nthreads n ;;;
  bb <- (fun st =>
    match fst st p with
    | None => fail (t_ "file " ++ quoted p ++ t_ " does not exist!") st
    | Some d =>
        match (bg <- v_read_beginning ;;
               r <- onl (read_compressed_chunk E (h_checksum (b_header bg))) ;;
               ret (bg, snd (fst r))) (fp_of d, snd st) with
        | ((_, l), Raise e) => if is_ValueError e
                          then fail (t_str T e ++ [nl] ++ t_ "This might not be a bloscpack compressed file.") (fst st, l)
                          else ((fst st, l), Raise e)
        | ((_, l), Ok x) => ((fst st, l), Ok x)
        end
    end) ;;
  let bg := fst bb in let bh := snd bb in
  say (header_text (b_header bg)) ;;;
  (match b_offsets bg with
   | [] => ret tt
   | l => say (t_ "'offsets':") ;;; say (offsets_text l)
   end) ;;;
  (if is_none (b_meta bg) then ret tt
   else log_metadata T (b_meta bg) ;;;
        match b_mheader bg with Some mh => say (mheader_text mh) | None => raise AttributeError end) ;;;
  say (t_ "First chunk blosc header:") ;;;
  say (blosc_header_text bh) ;;;
  say (t_ "First chunk blosc flags: ") ;;;
  fl <- lift (decode_blosc_flags (bh_flags bh)) ;;
  say (blosc_flags_text fl).
Definition v_main (n : Z) (c : command) : SM fsl unit :=
  match c with
  | CmdCompress o => v_compress n o
  | CmdDecompress o => v_decompress n o
  | CmdAppend o => v_append n o
  | CmdInfo p => v_info n p
  | CmdNone => v_nthreads n ;;; onr (error (t_ "too few arguments") 2)
  end ;;;
  tell (t_ "done").
End WithEnv.
