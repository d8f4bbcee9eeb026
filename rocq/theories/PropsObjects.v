(** C62-C65: messages, printed headers, argument objects as dictionaries. *)
From Verif Require Import Base PyVal Checksums Headers Pretty Args FileIO Objects Log ObjectsSpec ReprSpec Append Spec Json Toy MetaProofs Archive
  HeaderProofs ObjectsProofs ReprProofs UnprotectedProofs PropsPack PropsAppend.

(** ** C62: what log.py prints.  A message of the given level is printed, line by
    line, when the current level is at least as talkative; empty lines are left
    out; nothing else changes. *)
Theorem C62_messages : forall m level s i j ls,
  rank level = Some i -> rank (l_level s) = Some j -> lines m ls ->
  verbose m level s = (mkLog (l_level s) (l_prefix s)
    (l_out s ++ if i <=? j then map (fun x => l_prefix s ++ t_ ": " ++ x) (filter has_text ls) else []), Ok tt).
Proof. exact log_verbose. Qed.
Print Assumptions C62_messages.
Theorem C62_unknown_level : forall m level s, rank level = None -> verbose m level s = (s, Raise TypeError).
Proof. exact log_bad_level. Qed.
Print Assumptions C62_unknown_level.
(** Every message has lines. *)
Theorem C62_lines : forall m, exists ls, lines m ls /\ forall ls', lines m ls' -> ls' = ls.
Proof. intros m. exists (split_nl m). split; [apply lines_exist|intros ls'; apply lines_unique]. Qed.
Print Assumptions C62_lines.
(** An error is printed at every level and ends the program. *)
Theorem C62_error : forall A m code s ls, lines m ls ->
  @error A m code s = (mkLog (l_level s) (l_prefix s)
    (l_out s ++ map (fun x => l_prefix s ++ t_ ": error: " ++ x) (filter has_text ls)), Raise (SystemExit code)).
Proof. exact @log_error. Qed.
Print Assumptions C62_error.
(** set_level does not set the level: no call of it ever changes what is printed. *)
Theorem C62_set_level_no_effect : forall level s,
  set_level level s = (s, match rank level with Some _ => Ok tt | None => Raise ValueError end).
Proof. exact set_level_idle. Qed.
Print Assumptions C62_set_level_no_effect.
Theorem C62_set_level_refuted : exists level s, rank level = Some 2 /\ snd (set_level level s) = Ok tt /\
  l_level (fst (set_level level s)) <> level /\ l_out (fst (debug (t_ "x") (fst (set_level level s)))) = l_out s.
Proof. exists "DEBUG"%string, (mkLog "NORMAL" (t_ "blpk") []). vm_compute. repeat split; discriminate. Qed.
Print Assumptions C62_set_level_refuted.
(** A debug message that has text in it is printed at level DEBUG and at no other;
    a normal message is printed at all of them. *)
Theorem C62_debug : forall m s ls j, rank (l_level s) = Some j -> lines m ls -> Exists (fun x => x <> []) ls ->
  (l_out (fst (debug m s)) <> l_out s <-> l_level s = "DEBUG"%string) /\ l_out (fst (normal m s)) <> l_out s.
Proof. exact debug_prints. Qed.
Print Assumptions C62_debug.
Example C62_case : verbose (t_ "one" ++ [nl; nl] ++ t_ "two" ++ [nl]) "VERBOSE" (mkLog "DEBUG" (t_ "blpk") [t_ "zero"]) =
  (mkLog "DEBUG" (t_ "blpk") [t_ "zero"; t_ "blpk: one"; t_ "blpk: two"], Ok tt) /\
  fst (debug (t_ "one") (mkLog "VERBOSE" (t_ "blpk") [])) = mkLog "VERBOSE" (t_ "blpk") [] /\
  lines (t_ "one" ++ [nl; nl] ++ t_ "two" ++ [nl]) [t_ "one"; []; t_ "two"; []].
Proof.
  split; [vm_compute; reflexivity|]. split; [vm_compute; reflexivity|]. split; [discriminate|]. split; [|reflexivity].
  repeat constructor; cbv; intuition discriminate.
Qed.

(** ** C63: what 'blpk info' prints about a header determines the header: two
    headers that print alike, at any level, are the same in every field. *)
Theorem C63_header_report : forall i s h h' x x', rank (l_level s) <> None ->
  snd (pformat i (header_obj h)) = Ok x -> snd (pformat i (header_obj h')) = Ok x' ->
  l_out (fst (normal x s)) = l_out (fst (normal x' s)) -> h = h'.
Proof. exact header_report. Qed.
Print Assumptions C63_header_report.
Theorem C63_metadata_header_report : forall i s h h' x x', rank (l_level s) <> None ->
  snd (pformat i (mheader_obj h)) = Ok x -> snd (pformat i (mheader_obj h')) = Ok x' ->
  l_out (fst (normal x s)) = l_out (fst (normal x' s)) -> h = h'.
Proof. exact mheader_report. Qed.
Print Assumptions C63_metadata_header_report.
(** Every value printed reads back, by the rules of Python's literals, as itself. *)
Theorem C63_values : forall v, (forall n, v <> OCall n) -> read_value (oval_repr v) = Some v.
Proof. exact read_repr. Qed.
Print Assumptions C63_values.
(** It is printed in printable characters; text of printable characters as it is. *)
Theorem C63_printable : forall v, (forall n, v <> OCall n) -> Forall printable (oval_repr v).
Proof. exact repr_printable. Qed.
Print Assumptions C63_printable.
Theorem C63_plain_text : forall s, Forall (fun c => printable c /\ c <> squote /\ c <> "\"%char) s -> oval_repr (OStr s) = [squote] ++ s ++ [squote].
Proof. exact repr_plain. Qed.
Print Assumptions C63_plain_text.
Example C63_case_plain : Forall (fun c => printable c /\ c <> squote /\ c <> "\"%char) (t_ "a ~{""}") /\
  oval_repr (OStr [ascii_of_nat 127; " "%char; ascii_of_nat 31; "~"%char]) = t_ "'\x7f \x1f~'".
Proof. split; [repeat constructor; try discriminate; vm_compute; lia|vm_compute; reflexivity]. Qed.
(** The report is one line for each field, in order: the name of the field and its
    value. *)
Theorem C63_header_lines : forall i h x, snd (pformat i (header_obj h)) = Ok x ->
  exists ls, lines x (t_ "BloscpackHeader:" :: ls) /\
    Forall2 (shown_line i)
      [("format_version", OInt (h_version h)); ("offsets", OBool (h_offsets h)); ("metadata", OBool (h_metadata h));
       ("checksum", OStr (t_ (cks_name (h_checksum h)))); ("typesize", OInt (h_typesize h)); ("chunk_size", OInt (h_chunk_size h));
       ("last_chunk", OInt (h_last_chunk h)); ("nchunks", OInt (h_nchunks h)); ("max_app_chunks", OInt (h_max_app h))]%string ls.
Proof. exact header_lines. Qed.
Print Assumptions C63_header_lines.
Theorem C63_metadata_header_lines : forall i h x, snd (pformat i (mheader_obj h)) = Ok x ->
  exists ls, lines x (t_ "MetadataHeader:" :: ls) /\
    Forall2 (shown_line i)
      [("magic_format", OBytes (mh_magic h)); ("meta_options", OStr (t_ (mh_options h)));
       ("meta_checksum", OStr (t_ (cks_name (mh_checksum h)))); ("meta_codec", OStr (t_ (codec_name (mh_codec h))));
       ("meta_level", OInt (mh_level h)); ("meta_size", OInt (mh_size h)); ("max_meta_size", OInt (mh_max h));
       ("meta_comp_size", OInt (mh_comp h)); ("user_codec", OBytes (mh_user h))]%string ls.
Proof. exact mheader_lines. Qed.
Print Assumptions C63_metadata_header_lines.
Example C63_case_read : read_value (["b"%char; dquote] ++ t_ "J\x00'\n\xff\\" ++ [dquote]) = Some (OBytes [x4a; x00; x27; x0a; xff; x5c]) /\
  read_value (t_ "-12") = Some (OInt (-12)) /\ read_value (t_ "12a") = None /\ read_value (t_ "None") = Some ONone /\
  read_value (t_ "'a'b'") = None /\ read_value (t_ "'a\'b\r'") = Some (OStr (t_ "a'b" ++ [ascii_of_nat 13])).
Proof. vm_compute. repeat split. Qed.
(** Sizes are printed rounded, but the number of bytes follows. *)
Theorem C63_sizes : forall a b, double_pretty_size a = double_pretty_size b -> a = b.
Proof. exact size_text_inj. Qed.
Print Assumptions C63_sizes.
Theorem C63_size_text : forall a, exists t n, double_pretty_size a = t ++ t_ " (" ++ n ++ t_ "B)" /\ read_int n = Some a /\
  (0 <= a -> t = t_ (pretty_size a)) /\ (a < 0 -> t = t_ "None").
Proof. exact size_text_shape. Qed.
Print Assumptions C63_size_text.
Theorem C63_pretty_size_refuted : exists a b, a <> b /\ 0 <= a /\ 0 <= b /\ pretty_size a = pretty_size b.
Proof. exists 1048576, 1048577. vm_compute. intuition congruence. Qed.
Print Assumptions C63_pretty_size_refuted.
Example C63_case : snd (pformat 4 (header_obj (mkH 3 true false CkAdler32 8 1048576 (-1) 10 100))) =
  Ok (t_ "BloscpackHeader:" ++ [nl] ++ t_ "    format_version: 3" ++ [nl] ++ t_ "    offsets: True" ++ [nl] ++
      t_ "    metadata: False" ++ [nl] ++ t_ "    checksum: 'adler32'" ++ [nl] ++ t_ "    typesize: 8" ++ [nl] ++
      t_ "    chunk_size: 1.0M (1048576B)" ++ [nl] ++ t_ "    last_chunk: -1" ++ [nl] ++ t_ "    nchunks: 10" ++ [nl] ++
      t_ "    max_app_chunks: 100").
Proof. vm_compute. reflexivity. Qed.
Example C63_case_bytes : oval_repr (OBytes [x4a; x00; x27; x0a; xff; x5c]) = ["b"%char; dquote] ++ t_ "J\x00'\n\xff\\" ++ [dquote].
Proof. vm_compute. reflexivity. Qed.

(** ** C64: argument objects and headers as dictionaries.  Whatever is done to one
    through the dictionary interface, its keys stay the same and in order, and each
    key holds the last value assigned to it. *)
Theorem C64_operations : forall ops o d, views o d ->
  (o_class (run_ops ops o) = o_class o /\ o_attrs (run_ops ops o) = o_attrs o /\ o_bytes_attrs (run_ops ops o) = o_bytes_attrs o) /\
  views (run_ops ops o) (fun k => last_value k (concat (map (assignments (o_attrs o)) ops)) (d k)).
Proof. exact run_ops_views. Qed.
Print Assumptions C64_operations.
Theorem C64_answers : forall o d, views o d ->
  (forall k, snd (o_getitem k o) = if in_dec String.string_dec k (o_attrs o) then Ok (d k) else Raise KeyError) /\
  (forall k x, snd (o_get k x o) = Ok (if in_dec String.string_dec k (o_attrs o) then d k else x)) /\
  (forall k, snd (o_contains k o) = Ok (if in_dec String.string_dec k (o_attrs o) then true else false)) /\
  snd (o_items o) = Ok (map (fun k => (k, d k)) (o_attrs o)) /\
  (forall k v, snd (o_setitem k v o) = if in_dec String.string_dec k (o_attrs o) then Ok tt else Raise KeyError) /\
  (forall k, snd (o_delitem k o) = Raise NotImplementedError) /\
  (forall k x, snd (o_pop k x o) = if in_dec String.string_dec k (o_attrs o) then Raise NotImplementedError
                                   else match x with Some y => Ok y | None => Raise KeyError end) /\
  snd (o_popitem o) = (match o_attrs o with [] => Raise KeyError | _ => Raise NotImplementedError end) /\
  snd (o_clear o) = (match o_attrs o with [] => Ok tt | _ => Raise NotImplementedError end) /\
  (forall l, snd (o_update l o) = Ok tt <-> Forall (fun kv => In (fst kv) (o_attrs o)) l) /\
  (forall k x, snd (o_setdefault k x o) = if in_dec String.string_dec k (o_attrs o) then Ok (d k) else Raise KeyError) /\
  o_len o = Z.of_nat (List.length (o_attrs o)) /\ o_iter o = o_attrs o.
Proof. exact op_results. Qed.
Print Assumptions C64_answers.
Example C64_case_header : forall h, exists d, views (header_obj h) d.
Proof. exact header_views. Qed.
(** An attribute that is announced but was never set is an AttributeError, which
    the dictionary interface does not turn into a KeyError. *)
Theorem C64_missing : forall o k, In k (o_attrs o) -> ~ In k (map fst (o_vars o)) -> o_getitem k o = (o, Raise AttributeError).
Proof. exact missing_attribute. Qed.
Print Assumptions C64_missing.
Example C64_case_missing : snd (o_get "clevel" ONone (mkObj (t_ "BloscArgs") ["typesize"; "clevel"]%string [] [("typesize"%string, OInt 8)])) = Raise AttributeError.
Proof. vm_compute. reflexivity. Qed.
(** The keys of BloscArgs, in order; these are the keyword arguments given to
    blosc.compress. *)
Theorem C64_blosc_args : forall a, o_items (bargs_obj a) = (bargs_obj a,
  Ok [("typesize", OInt (ba_typesize a)); ("clevel", OInt (ba_clevel a)); ("shuffle", OBool (ba_shuffle a)); ("cname", OStr (t_ (ba_cname a)))]%string).
Proof. exact bargs_items. Qed.
Print Assumptions C64_blosc_args.
Theorem C64_args_items : forall b m nm,
  snd (o_items (bpargs_obj nm b)) = Ok [("offsets", OBool (bp_offsets b)); ("checksum", OStr (t_ (bp_checksum b)));
    ("max_app_chunks", match bp_max_app b with MAInt z => OInt z | _ => OCall nm end)]%string /\
  snd (o_items (margs_obj nm m)) = Ok [("magic_format", OBytes (ma_magic m)); ("meta_checksum", OStr (t_ (ma_checksum m)));
    ("meta_codec", OStr (t_ (ma_codec m))); ("meta_level", OInt (ma_level m)); ("max_meta_size", match ma_max m with MMInt z => OInt z | _ => OCall nm end)]%string.
Proof. exact args_items. Qed.
Print Assumptions C64_args_items.
(** repr() of the argument objects is the call that makes them. *)
Theorem C63_args_repr : forall a b m nm,
  snd (o_repr (bargs_obj a)) = Ok (t_ "BloscArgs(typesize=" ++ int_text (ba_typesize a) ++ t_ ", clevel=" ++ int_text (ba_clevel a) ++
    t_ ", shuffle=" ++ (if ba_shuffle a then t_ "True" else t_ "False") ++ t_ ", cname=" ++ oval_repr (OStr (t_ (ba_cname a))) ++ t_ ")") /\
  snd (o_repr (bpargs_obj nm b)) = Ok (t_ "BloscpackArgs(offsets=" ++ (if bp_offsets b then t_ "True" else t_ "False") ++ t_ ", checksum=" ++
    oval_repr (OStr (t_ (bp_checksum b))) ++ t_ ", max_app_chunks=" ++ (match bp_max_app b with MAInt z => int_text z | _ => nm end) ++ t_ ")") /\
  snd (o_repr (margs_obj nm m)) = Ok (t_ "MetadataArgs(magic_format=b" ++ repr_quoted (map ascii_of_byte (ma_magic m)) ++ t_ ", meta_checksum=" ++
    oval_repr (OStr (t_ (ma_checksum m))) ++ t_ ", meta_codec=" ++ oval_repr (OStr (t_ (ma_codec m))) ++ t_ ", meta_level=" ++ int_text (ma_level m) ++
    t_ ", max_meta_size=" ++ (match ma_max m with MMInt z => int_text z | _ => nm end) ++ t_ ")").
Proof. exact args_repr. Qed.
Print Assumptions C63_args_repr.
Example C63_case_args : snd (o_repr (margs_obj (t_ "f") default_margs)) =
    Ok (t_ "MetadataArgs(magic_format=b'JSON', meta_checksum='adler32', meta_codec='zlib', meta_level=6, max_meta_size=f)") /\
  snd (o_repr (bargs_obj default_bargs)) = Ok (t_ "BloscArgs(typesize=8, clevel=7, shuffle=True, cname='blosclz')").
Proof. vm_compute. auto. Qed.
(** An update that fails has already made the assignments before the unknown key. *)
Theorem C64_update_atomic_refuted : exists o l d, views o d /\ snd (o_update l o) = Raise KeyError /\ fst (o_update l o) <> o.
Proof.
  exists (bargs_obj default_bargs), [("typesize"%string, OInt 4); ("tpyesize"%string, OInt 4)].
  exists (fun k => match getattr k (o_vars (bargs_obj default_bargs)) with Ok v => v | _ => ONone end).
  split; [|split; [vm_compute; reflexivity|vm_compute; discriminate]].
  intros k I. cbn [bargs_obj o_attrs bargs_attrs In] in I. repeat (destruct I as [<-|I]; [reflexivity|]). destruct I.
Qed.
Print Assumptions C64_update_atomic_refuted.
(** Assignment does not check: a header assigned to can be encoded as long as the
    numbers fit their fields; it decodes to itself if it could have been
    constructed, and is refused otherwise. *)
Theorem C64_assigned_header : forall h b, header_encode h = Ok b ->
  (header_nums_ok (h_typesize h) (h_chunk_size h) (h_last_chunk h) (h_nchunks h) (h_max_app h) -> header_decode b = Ok h) /\
  (~ header_nums_ok (h_typesize h) (h_chunk_size h) (h_last_chunk h) (h_nchunks h) (h_max_app h) -> header_decode b = Raise ValueError).
Proof. exact header_unchecked. Qed.
Print Assumptions C64_assigned_header.
Example C64_case_assign : forall h z, o_setitem "nchunks" (OInt z) (header_obj h) =
  (header_obj (mkH (h_version h) (h_offsets h) (h_metadata h) (h_checksum h) (h_typesize h) (h_chunk_size h) (h_last_chunk h) z (h_max_app h)), Ok tt).
Proof. reflexivity. Qed.
Example C64_case_encode : exists b, header_encode (mkH 3 true false CkNone 8 20 7 (-5) 0) = Ok b /\ header_decode b = Raise ValueError.
Proof.
  exists (match header_encode (mkH 3 true false CkNone 8 20 7 (-5) 0) with Ok b => b | _ => [] end).
  split; vm_compute; reflexivity.
Qed.

(** ** C65: append fills in the dictionary of arguments it is given; used again
    for another file, it carries the first file's type size along. *)
Theorem C65_arguments_stick : forall E, EnvOK E -> forall f b m oa, archive E f b m -> has_offsets f = true ->
  append_blosc_args E oa f = obargs_of (effective f oa) /\
  (forall g, effective g (append_blosc_args E oa f) = effective f oa).
Proof. exact arguments_stick. Qed.
Print Assumptions C65_arguments_stick.
Definition ex_ts2 : bytes :=
  match pack_bytes_to_bytes toy_env ex_data (CSInt 20) ex_meta (Some (mkBA 2 7 true "blosclz"%string)) (Some ex_bp) None with Ok f => f | _ => [] end.
Theorem C65_unchanged_refuted : exists E f g b m oa, EnvOK E /\ archive E f b m /\ archive E g b m /\ has_offsets f = true /\ oa_typesize oa = None /\
  ba_typesize (effective g (append_blosc_args E oa f)) <> F_typesize g.
Proof.
  exists toy_env, ex_file, ex_ts2, ex_data, (norm ex_meta), no_obargs. split; [exact toy_env_ok|]. split; [exact ex_file_archive|].
  split; [apply (ar_pack toy_env ex_data (CSInt 20) ex_meta (Some (mkBA 2 7 true "blosclz"%string)) (Some ex_bp) None); vm_compute; reflexivity|].
  split; [vm_compute; reflexivity|]. split; [reflexivity|]. vm_compute. discriminate.
Qed.
Print Assumptions C65_unchanged_refuted.
