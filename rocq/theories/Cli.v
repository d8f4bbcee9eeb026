(** Model of bloscpack/cli.py: the subcommands on parsed arguments. *)
From Verif Require Import Base PyVal Checksums Headers Pretty Args FileIO Append Files.

Definition EXTENSION : string := ".blp".

(** str.endswith(EXTENSION) and s[:-len(EXTENSION)] (cli.py:139-140). *)
Definition ends_with_ext (s : string) : bool :=
  let n := String.length s in
  (4 <=? n)%nat && String.eqb (substring (n - 4) 4 s) EXTENSION.
Definition strip_ext (s : string) : string := substring 0 (String.length s - 4) s.

(** [args.out_file or default]: None and the empty string are falsy. *)
Definition or_default (o : option string) (d : string) : string :=
  match o with None => d | Some s => if String.eqb s "" then d else s end.

(** int(text), in base 10. *)
Definition int_of_text (s : string) : res Z :=
  match number_text (list_ascii_of_string s) with
  | None => Raise ValueError
  | Some t =>
      let '(neg, l) := take_sign t in
      let '(v, n, r) := take_digits 0 0 l in
      match r with
      | [] => if n =? 0 then Raise ValueError else Ok (if neg then - v else v)
      | _ => Raise ValueError
      end
  end.

(** CheckChunkSizeOption (cli.py:292-308). *)
Definition chunk_size_option (v : string) : res Z :=
  if String.eqb v "max" then Ok BLOSC_MAX_BUFFERSIZE
  else
    z <~ match rev (list_ascii_of_string v) with
         | [] => Raise IndexError
         | c :: _ =>
             match (match suffix_bits c with
                    | Some _ => reverse_pretty v
                    | None => int_of_text v
                    end) with
             | Raise e => if is_ValueError e then Raise (SystemExit 1) else Raise e
             | Ok z => Ok z
             end
         end ;;
    if z <? 0 then Raise (SystemExit 1) else Ok z.

(** Arguments of 'blpk compress' after tokenising (cli.py:202-229, 309-343,
    362-382); [co_chunk] is the text given to -z, if any. *)
Record copts := mkCO {
  co_in : path; co_out : option path; co_force : bool;
  co_typesize : Z; co_clevel : Z; co_shuffle : bool; co_cname : string;
  co_chunk : option string; co_checksum : string; co_offsets : bool; co_meta : option path }.
(** Arguments of 'blpk decompress' (cli.py:346-382). *)
Record dopts := mkDO {
  do_in : path; do_out : option path; do_force : bool; do_no_check : bool }.
(** Arguments of 'blpk append' (cli.py:384-412). *)
Record aopts := mkAO {
  ao_orig : path; ao_new : path; ao_no_check : bool;
  ao_typesize : Z; ao_clevel : Z; ao_shuffle : bool; ao_cname : string; ao_meta : option path }.

(** White space removed by str.strip(), as far as ASCII goes. *)
Definition is_space (b : byte) : bool :=
  let z := Zb b in ((9 <=? z) && (z <=? 13)) || ((28 <=? z) && (z <=? 32)).
Fixpoint lstrip_ws (b : bytes) : bytes :=
  match b with x :: r => if is_space x then lstrip_ws r else b | [] => [] end.
Definition strip_ws (b : bytes) : bytes := rev (lstrip_ws (rev (lstrip_ws b))).

Section WithEnv.
Variable E : Env.

(** The choices declared for -l, -c (cli.py:209-229): argparse exits with 2. *)
Definition blosc_choices (clevel : Z) (cname : string) : res unit :=
  if (MIN_CLEVEL <=? clevel) && (clevel <=? MAX_CLEVEL) && e_cname_ok E cname
  then Ok tt else Raise (SystemExit 2).

(** check_files (cli.py:58-84) and the handler around it (cli.py:448-451). *)
Definition check_files (in_file out_file : path) (force : bool) : SM fs unit :=
  fun s => (s, if negb (fs_exists s in_file) then Raise (SystemExit 1)
               else if fs_exists s out_file && negb force then Raise (SystemExit 1) else Ok tt).

(** process_metadata_args (cli.py:159-165); the handler reads ioe.message, an
    AttributeError in Python 3.  (Simplification: the file is decoded like the
    metadata payload.) *)
Definition process_metadata_args (o : option path) : SM fs pyval :=
  match o with
  | None => ret PNone
  | Some p => fun s => (s, match s p with
                           | None => Raise AttributeError
                           | Some d => e_loads E (strip_ws d)
                           end)
  end.

(** process_compression_args and the 'compress' branch of main (cli.py:95-114,
    444-463). *)
Definition compress_out (o : copts) : path := or_default (co_out o) (co_in o ++ EXTENSION).
Definition cli_compress (o : copts) : SM fs unit :=
  lift (blosc_choices (co_clevel o) (co_cname o)) ;;;
  cs <- lift (match co_chunk o with
              | None => Ok (CSStr "1M")
              | Some t => z <~ chunk_size_option t ;; Ok (CSInt z)
              end) ;;
  lift (match check_valid_checksum (co_checksum o) with
        | Ok _ => Ok tt | Raise _ => Raise (SystemExit 2) end) ;;;
  check_files (co_in o) (compress_out o) (co_force o) ;;;
  m <- process_metadata_args (co_meta o) ;;
  (fun s => match pack_file_to_file E (co_in o) (compress_out o) cs m
                    (Some (mkBA (co_typesize o) (co_clevel o) (co_shuffle o) (co_cname o)))
                    (Some (mk_bpargs (co_offsets o) (Some (co_checksum o)) (bp_max_app default_bpargs)))
                    (Some default_margs) s with
            | (s', Raise ChunkingException) => (s', Raise (SystemExit 1))
            | (s', Raise e) => (s', Raise e)
            | (s', Ok _) => (s', Ok tt)
            end).

(** process_decompression_args (cli.py:117-146). *)
Definition decompress_out (o : dopts) : res path :=
  if do_no_check o then
    match do_out o with None => Raise (SystemExit 1) | Some p => Ok p end
  else if ends_with_ext (do_in o) then Ok (or_default (do_out o) (strip_ext (do_in o)))
  else Raise (SystemExit 1).
(** The 'decompress' branch of main (cli.py:464-478); fvm.message and
    csm.message are AttributeErrors in Python 3. *)
Definition cli_decompress (o : dopts) : SM fs pyval :=
  out <- lift (decompress_out o) ;;
  check_files (do_in o) out (do_force o) ;;;
  (fun s => match unpack_file_from_file E (do_in o) out s with
            | (s', Raise FormatVersionMismatch) => (s', Raise AttributeError)
            | (s', Raise ChecksumMismatch) => (s', Raise AttributeError)
            | x => x
            end).

(** process_append_args and the 'append' branch of main (cli.py:149-156,
    479-499). *)
Definition cli_append (o : aopts) : SM fs unit :=
  lift (blosc_choices (ao_clevel o) (ao_cname o)) ;;;
  lift (if negb (ao_no_check o) && negb (ends_with_ext (ao_orig o))
        then Raise (SystemExit 1) else Ok tt) ;;;
  (fun s => (s, if negb (fs_exists s (ao_orig o)) then Raise (SystemExit 1)
                else if negb (fs_exists s (ao_new o)) then Raise (SystemExit 1) else Ok tt)) ;;;
  m <- process_metadata_args (ao_meta o) ;;
  append_file E (ao_orig o) (ao_new o)
    (obargs_of (mkBA (ao_typesize o) (ao_clevel o) (ao_shuffle o) (ao_cname o))) ;;;
  if is_none m then ret tt
  else
    d <- open_rb (ao_orig o) ;;
    (fun s => let r := rewrite_metadata E m default_overrides (fp_of d) in
              (fs_set s (ao_orig o) (fdata (fst r)), snd r)).

(** The 'info' branch of main (cli.py:500-531): what is printed, as values:
    header, first five offsets, metadata and its header, first chunk's Blosc
    header and flags. *)
Record info := mkInfo {
  i_header : header; i_offsets : list Z; i_meta : pyval; i_mheader : option mheader;
  i_blosc : blosc_header; i_flags : blosc_flags }.
Definition cli_info (p : path) : SM fs info :=
  fun s => (s,
    match s p with
    | None => Raise (SystemExit 1)
    | Some d =>
        match (bg <- read_beginning E ;;
               r <- read_compressed_chunk E (h_checksum (b_header bg)) ;;
               ret (bg, snd (fst r))) (fp_of d) with
        | (_, Raise e) => if is_ValueError e then Raise (SystemExit 1) else Raise e
        | (_, Ok (bg, bh)) =>
            fl <~ decode_blosc_flags (bh_flags bh) ;;
            Ok (mkInfo (b_header bg) (firstn 5 (b_offsets bg)) (b_meta bg)
                       (if is_none (b_meta bg) then None else b_mheader bg) bh fl)
        end
    end).

(** main (cli.py:430-533) after tokenising; no subcommand exits with 2. *)
Inductive command :=
| CmdCompress (o : copts) | CmdDecompress (o : dopts) | CmdAppend (o : aopts)
| CmdInfo (p : path) | CmdNone.
Definition main (c : command) : SM fs unit :=
  match c with
  | CmdCompress o => cli_compress o
  | CmdDecompress o => cli_decompress o ;;; ret tt
  | CmdAppend o => cli_append o
  | CmdInfo p => cli_info p ;;; ret tt
  | CmdNone => raise (SystemExit 2)
  end.

End WithEnv.
