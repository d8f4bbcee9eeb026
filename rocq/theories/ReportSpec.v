(** Specification vocabulary for what 'blpk' prints. *)
From Verif Require Import Base PyVal Checksums Headers Pretty Args FileIO Append Files Cli Objects Log ObjectsSpec ReprSpec Report Spec.

(** What a message becomes on the screen: a line for each line of it that is not
    empty, with the name of the program in front. *)
Definition message_lines (mark : string) (m : text) (out : list text) : Prop :=
  exists ls, lines m ls /\ out = map (fun x => t_ mark ++ x) (filter has_text ls).
(** The log [l'] is [l] with these lines added, each after the prefix. *)
Definition adds (l l' : logst) (out : list text) : Prop :=
  l_level l' = l_level l /\ l_prefix l' = l_prefix l /\ l_out l' = l_out l ++ map (fun x => l_prefix l ++ x) out.

(** The reasons for giving up with an error message, and the message. *)
Inductive complaint (E : Env) (T : Texts) (s : fs) : command -> text -> Prop :=
| cp_chunk o t : co_chunk o = Some t -> chunk_size_option t = Raise (SystemExit 1) -> complaint E T s (CmdCompress o) (t_option T t)
| cp_in o : s (co_in o) = None -> complaint E T s (CmdCompress o) (t_ "input file '" ++ t_ (co_in o) ++ t_ "' does not exist!")
| cp_out o d : s (compress_out o) = Some d -> co_force o = false ->
    complaint E T s (CmdCompress o) (t_ "output file '" ++ t_ (compress_out o) ++ t_ "' exists!")
| cp_chunking o b cs : s (co_in o) = Some b -> calculate_nchunks (size b) cs = Raise ChunkingException ->
    match co_chunk o with None => cs = CSStr "1M" | Some t => exists z, chunk_size_option t = Ok z /\ cs = CSInt z end ->
    complaint E T s (CmdCompress o) (t_str T ChunkingException)
| cp_no_out o : do_no_check o = true -> do_out o = None ->
    complaint E T s (CmdDecompress o) (t_ "--no-check-extension requires use of <out_file>")
| cp_ext o : do_no_check o = false -> (forall base, do_in o <> (base ++ ".blp")%string) ->
    complaint E T s (CmdDecompress o) (t_ "input file '" ++ t_ (do_in o) ++ t_ "' does not end with '.blp'")
| cp_din o : s (do_in o) = None -> complaint E T s (CmdDecompress o) (t_ "input file '" ++ t_ (do_in o) ++ t_ "' does not exist!")
| cp_dout o out d : decompress_out o = Ok out -> s out = Some d -> do_force o = false ->
    complaint E T s (CmdDecompress o) (t_ "output file '" ++ t_ out ++ t_ "' exists!")
| cp_aext o : ao_no_check o = false -> (forall base, ao_orig o <> (base ++ ".blp")%string) ->
    complaint E T s (CmdAppend o) (t_ "original file '" ++ t_ (ao_orig o) ++ t_ "' does not end with '.blp'")
| cp_orig o : s (ao_orig o) = None -> complaint E T s (CmdAppend o) (t_ "original file '" ++ t_ (ao_orig o) ++ t_ "' does not exist!")
| cp_new o : s (ao_new o) = None -> complaint E T s (CmdAppend o) (t_ "new file '" ++ t_ (ao_new o) ++ t_ "' does not exist!")
| cp_info p : s p = None -> complaint E T s (CmdInfo p) (t_ "file '" ++ t_ p ++ t_ "' does not exist!")
| cp_bad p d e g : s p = Some d -> is_ValueError e = true ->
    (bg <- read_beginning E ;; read_compressed_chunk E (h_checksum (b_header bg))) (fp_of d) = (g, Raise e) ->
    complaint E T s (CmdInfo p) (t_str T e ++ [nl] ++ t_ "This might not be a bloscpack compressed file.").

(** The texts made outside have something in them. *)
Record TextsOK (T : Texts) : Prop := mkTextsOK {
  tx_str : forall e ls, lines (t_str T e) ls -> Exists (fun x => x <> []) ls;
  tx_option : forall t ls, lines (t_option T t) ls -> Exists (fun x => x <> []) ls }.
(** None of the external functions ends the program, or raises what only bloscpack
    knows. *)
Definition outside {A} (r : res A) : Prop := (forall n, r <> Raise (SystemExit n)) /\ r <> Raise ChunkingException.
Record NoExit (E : Env) : Prop := mkNoExit {
  nx_compress : forall a x, outside (e_compress E a x);
  nx_decompress : forall x, outside (e_decompress E x);
  nx_zcompress : forall x k, outside (e_zcompress E x k);
  nx_zdecompress : forall x, outside (e_zdecompress E x);
  nx_dumps : forall v, outside (e_dumps E v);
  nx_loads : forall x, outside (e_loads E x) }.

(** The lines about a header. *)
Definition header_block (h : header) (ls : list text) : Prop :=
  exists fl, ls = t_ "BloscpackHeader:" :: fl /\
    Forall2 (shown_line 4)
      [("format_version", OInt (h_version h)); ("offsets", OBool (h_offsets h)); ("metadata", OBool (h_metadata h));
       ("checksum", OStr (t_ (cks_name (h_checksum h)))); ("typesize", OInt (h_typesize h)); ("chunk_size", OInt (h_chunk_size h));
       ("last_chunk", OInt (h_last_chunk h)); ("nchunks", OInt (h_nchunks h)); ("max_app_chunks", OInt (h_max_app h))]%string fl.
Definition metadata_header_block (h : mheader) (ls : list text) : Prop :=
  exists fl, ls = t_ "MetadataHeader:" :: fl /\
    Forall2 (shown_line 4)
      [("magic_format", OBytes (mh_magic h)); ("meta_options", OStr (t_ (mh_options h)));
       ("meta_checksum", OStr (t_ (cks_name (mh_checksum h)))); ("meta_codec", OStr (t_ (codec_name (mh_codec h))));
       ("meta_level", OInt (mh_level h)); ("meta_size", OInt (mh_size h)); ("max_meta_size", OInt (mh_max h));
       ("meta_comp_size", OInt (mh_comp h)); ("user_codec", OBytes (mh_user h))]%string fl.
(** The first offsets: numbers, each with a comma behind it, and three dots. *)
Definition offsets_report (l : list Z) (ls : list text) : Prop :=
  match l with
  | [] => ls = []
  | _ => exists ts, Forall2 (fun z t => read_int t = Some z) l ts /\
           ls = [t_ "'offsets':"; t_ "[" ++ concat (map (fun t => t ++ t_ ",") ts) ++ t_ "...]"]
  end.
(** A dictionary with the given keys, in order, and values. *)
Definition pair_text (k : string) (t : text) : text := t_ "('" ++ t_ k ++ t_ "', " ++ t ++ t_ ")".
Definition dict_line (kvs : list (string * oval)) (x : text) : Prop :=
  exists ts, Forall2 (fun kv t => exists y, read_value y = Some (snd kv) /\ t = pair_text (fst kv) y) kvs ts /\
    x = t_ "OrderedDict([" ++ join_text (t_ ", ") ts ++ t_ "])".
Definition blosc_items (h : blosc_header) : list (string * oval) :=
  [("version", OInt (bh_version h)); ("versionlz", OInt (bh_versionlz h)); ("flags", OInt (bh_flags h)); ("typesize", OInt (bh_typesize h));
   ("nbytes", OInt (bh_nbytes h)); ("blocksize", OInt (bh_blocksize h)); ("ctbytes", OInt (bh_ctbytes h))]%string.
Definition flags_items (f : blosc_flags) : list (string * oval) :=
  [("byte_shuffle", OBool (bf_byte_shuffle f)); ("pure_memcpy", OBool (bf_pure_memcpy f)); ("bit_shuffle", OBool (bf_bit_shuffle f));
   ("split_blocks", OBool (bf_split_blocks f)); ("codec", OStr (t_ (bf_codec f)))]%string.
(** Everything that 'blpk info' says, before the prefix. *)
Definition metadata_report (T : Texts) (m : pyval) (omh : option mheader) (ls : list text) : Prop :=
  match omh with
  | None => m = PNone /\ ls = []
  | Some mh => exists pp ml, m <> PNone /\ lines (t_pprint T m) pp /\ metadata_header_block mh ml /\
                 ls = t_ "Metadata:" :: filter has_text pp ++ ml
  end.
Definition info_head (T : Texts) (h : header) (l : list Z) (m : pyval) (omh : option mheader) (b : blosc_header) (out : list text) : Prop :=
  exists hl ol ml bl, header_block h hl /\ offsets_report l ol /\ metadata_report T m omh ml /\ dict_line (blosc_items b) bl /\
    out = map (fun x => t_ ": " ++ x) (hl ++ ol ++ ml ++ [t_ "First chunk blosc header:"; bl; t_ "First chunk blosc flags: "]).
Definition info_report (T : Texts) (i : info) (out : list text) : Prop :=
  exists hd fl, info_head T (i_header i) (i_offsets i) (i_meta i) (i_mheader i) (i_blosc i) hd /\
    dict_line (flags_items (i_flags i)) fl /\ out = hd ++ [t_ ": " ++ fl].
(** What 'blpk decompress' says about the metadata: nothing if it is nothing, or an
    empty or zero value. *)
Inductive vacant : pyval -> Prop :=
| vc_none : vacant PNone | vc_false : vacant (PBool false) | vc_zero : vacant (PInt 0)
| vc_fzero : vacant (PFloat (u "0.0")) | vc_fnzero : vacant (PFloat (u "-0.0")) | vc_str : vacant (PStr [])
| vc_list : vacant (PList []) | vc_tuple : vacant (PTuple []) | vc_dict : vacant (PDict []).
Definition decompress_report (T : Texts) (m : pyval) (out : list text) : Prop :=
  (vacant m -> out = []) /\
  (~ vacant m -> exists pp, lines (t_pprint T m) pp /\ out = map (fun x => t_ ": " ++ x) (t_ "Metadata:" :: filter has_text pp)).
