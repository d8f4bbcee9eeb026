(** Specification for C92: what each command of the command line does to any files,
    written down with the functions of C89-C91 for the contents.  Nothing here
    models /repo; the size given to -z is read by the option itself (C69). *)
From Verif Require Import Base PyVal Checksums Headers Pretty Args FileIO Append Files Cli Spec Archive CrcSpec FormatSpec ReadSpec ReviseSpec WriteSpec.

(** At most one file has new contents. *)
Definition change := option (string * bytes).
Definition files_after (s : string -> option bytes) (d : change) (p : string) : option bytes :=
  match d with None => s p | Some (q, x) => if String.eqb p q then Some x else s p end.

(** A name without its .blp *)
Definition base_name (s : string) : option string :=
  match rev (list_ascii_of_string s) with
  | "p"%char :: "l"%char :: "b"%char :: "."%char :: r => Some (string_of_list_ascii (rev r))
  | _ => None
  end.
Definition given (o : option string) (d : string) : string :=
  match o with None | Some ""%string => d | Some p => p end.

(** Blanks at both ends. *)
Definition blank_byte (x : byte) : bool := existsb (Z.eqb (Zb x)) [9; 10; 11; 12; 13; 28; 29; 30; 31; 32].
Fixpoint trim_front (x : bytes) : bytes :=
  match x with [] => [] | b :: r => if blank_byte b then trim_front r else x end.
Definition trim (x : bytes) : bytes := rev (trim_front (rev (trim_front x))).

(** Exceptions that are caught as ValueErrors. *)
Definition value_error (e : exn) : bool :=
  match e with ValueError | NoSuchChecksum | NoSuchCodec | NoSuchSerializer | ChunkSizeTypeSizeMismatch | JSONError => true | _ => false end.

Section Reference.
Variable E : Env.
Variable dg : Z -> bytes -> bytes.
Variable eqv : pyval -> pyval -> bool.
Variable s : string -> option bytes.

Definition there (p : string) : bool := match s p with Some _ => true | None => false end.
Definition metadata_given (o : option string) : res pyval :=
  match o with
  | None => Ok PNone
  | Some p => match s p with None => Raise AttributeError | Some x => e_loads E (trim x) end
  end.
Definition bad_choice (clevel : Z) (cname : string) : bool := (clevel <? 0) || (9 <? clevel) || negb (e_cname_ok E cname).

(** compress: nothing is touched before everything up to the sizes of the chunks
    is known to be right; afterwards the output is what packing leaves.  A file
    compressed onto itself is read when it is empty already. *)
Definition reference_compress (o : copts) : change * res unit :=
  let out := given (co_out o) (co_in o ++ ".blp") in
  if bad_choice (co_clevel o) (co_cname o) then (None, Raise (SystemExit 2))
  else match (match co_chunk o with None => Ok (2 ^ 20) | Some t => chunk_size_option t end) with
  | Raise e => (None, Raise e)
  | Ok z =>
      match place (co_checksum o) checksum_names with
      | None => (None, Raise (SystemExit 2))
      | Some _ =>
          match s (co_in o) with
          | None => (None, Raise (SystemExit 1))
          | Some b =>
              if there out && negb (co_force o) then (None, Raise (SystemExit 1))
              else match metadata_given (co_meta o) with
              | Raise e => (None, Raise e)
              | Ok m =>
                  let told e := match e with ChunkingException => SystemExit 1 | _ => e end in
                  match chunking (size b) (CSInt z) with
                  | Raise e => (None, Raise (told e))
                  | Ok (n, c, l) =>
                      let r := reference_write E dg n c l (Ok (pieces n c l (if String.eqb (co_in o) out then [] else b))) m
                                 (Some (mkBA (co_typesize o) (co_clevel o) (co_shuffle o) (co_cname o)))
                                 (Some (mkBPA (co_offsets o) (co_checksum o) (MACall (fun k => Ok (Some (10 * k))))))
                                 (Some (mkMA (b_of_string "JSON") "adler32" "zlib" 6 (MMCall (fun k => Ok (10 * k))))) in
                      (Some (out, fst r), match snd r with Ok _ => Ok tt | Raise e => Raise (told e) end)
                  end
              end
          end
      end
  end.

(** decompress: the metadata come out, to be printed *)
Definition reference_decompress (o : dopts) : change * res pyval :=
  match (if do_no_check o then do_out o else option_map (given (do_out o)) (base_name (do_in o))) with
  | None => (None, Raise (SystemExit 1))
  | Some out =>
      match s (do_in o) with
      | None => (None, Raise (SystemExit 1))
      | Some f =>
          if there out && negb (do_force o) then (None, Raise (SystemExit 1))
          else if String.eqb out "" then (None, Raise OSError)
          else let r := reference E dg (if String.eqb (do_in o) out then [] else f) in
               (Some (out, fst r),
                match snd r with
                | Raise FormatVersionMismatch | Raise ChecksumMismatch => Raise AttributeError
                | x => x
                end)
      end
  end.

(** append, and then the new metadata *)
Definition reference_append_cmd (o : aopts) : change * res unit :=
  let a := mkOBA (Some (ao_typesize o)) (Some (ao_clevel o)) (Some (ao_shuffle o)) (Some (ao_cname o)) in
  if bad_choice (ao_clevel o) (ao_cname o) then (None, Raise (SystemExit 2))
  else if negb (ao_no_check o) && match base_name (ao_orig o) with None => true | Some _ => false end then (None, Raise (SystemExit 1))
  else match s (ao_orig o), s (ao_new o) with
  | Some f, Some x =>
      match metadata_given (ao_meta o) with
      | Raise e => (None, Raise e)
      | Ok m =>
          let r := reference_append E dg f x a in
          match snd r with
          | Raise e => (Some (ao_orig o, fst r), Raise e)
          | Ok _ =>
              if size x =? 0 then (Some (ao_orig o, fst r), Raise ZeroDivisionError)
              else match m with
                   | PNone => (Some (ao_orig o, fst r), Ok tt)
                   | _ => let w := reference_rewrite E dg eqv (fst r) m (mkOv None None (Some "zlib"%string) (Some 6)) in
                          (Some (ao_orig o, fst w), snd w)
                   end
          end
      end
  | _, _ => (None, Raise (SystemExit 1))
  end.

(** info: what there is to print (metadata; ends of the metadata and of the offset
    table), or the error *)
Definition reference_info (p : string) : res (bytes * pyval * Z * Z) :=
  match s p with
  | None => Raise (SystemExit 1)
  | Some f =>
      let told e := if value_error e then SystemExit 1 else e in
      match header_fault f with
      | Some e => Raise (told e)
      | None =>
          match metadata_part E dg f with
          | Raise e => Raise (told e)
          | Ok (m, q) =>
              match table_end f q with
              | Raise e => Raise (told e)
              | Ok q' =>
                  if size f - q' <? 4 then Raise IndexError
                  else if size f - q' <? 16 then Raise StructError
                  else if 5 <=? u8 (q' + 2) f / 32 then Raise KeyError
                  else Ok (f, m, q, q')
              end
          end
      end
  end.
(** ... and that it is printed *)
Definition info_of (f : bytes) (m : pyval) (q q' : Z) (i : info) : Prop :=
  h_version (i_header i) = 3 /\ h_offsets (i_header i) = has_offsets f /\ h_metadata (i_header i) = has_meta f /\
  cks_index (h_checksum (i_header i)) = u8 6 f /\ h_typesize (i_header i) = u8 7 f /\
  h_chunk_size (i_header i) = F_chunk f /\ h_last_chunk (i_header i) = F_last f /\ h_nchunks (i_header i) = F_n f /\ h_max_app (i_header i) = F_max f /\
  i_offsets i = (if has_offsets f then map (fun k => i64 (q + 8 * Z.of_nat k) f) (seq 0 (Z.to_nat (Z.min 5 (F_n f)))) else []) /\
  i_meta i = m /\
  match m with
  | PNone => i_mheader i = None
  | _ => exists h, i_mheader i = Some h /\ mh_magic h = b_of_string "JSON" /\ cks_index (mh_checksum h) = u8 41 f /\ codec_index (mh_codec h) = u8 42 f /\
           mh_level h = u8 43 f /\ mh_size h = u32 44 f /\ mh_max h = u32 48 f /\ mh_comp h = u32 52 f
  end /\
  i_blosc i = mkBH (u8 q' f) (u8 (q' + 1) f) (u8 (q' + 2) f) (u8 (q' + 3) f) (u32 (q' + 4) f) (u32 (q' + 8) f) (u32 (q' + 12) f) /\
  let fl := u8 (q' + 2) f in
  i_flags i = mkBF (Z.odd fl) (Z.odd (fl / 2)) (Z.odd (fl / 4)) (Z.odd (fl / 16))
                   (nth (Z.to_nat (fl / 32)) ["blosclz"; "lz4"; "snappy"; "zlib"; "zstd"]%string ""%string).
End Reference.
