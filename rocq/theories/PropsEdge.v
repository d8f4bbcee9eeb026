(** C77: which array metadata can be read back; further C40, C41, C72. *)
From Verif Require Import Base PyVal Args FileIO NumpyIO MemoryIO Append Files Cli Spec NumpySpec Archive Json Toy ToyNumpy PropsPack PropsNumpy PropsFiles
  ExcSpec PropsExc NumpySink ExcNumpy EdgeProofs.

(** ** C77 *)
(** An array is allocated exactly when these keys are there, numpy takes the data
    type (read as a literal, or else converted from nested lists), the shape is a
    size or a list of sizes, and the order is one numpy knows. *)
Theorem C77_allocated : forall N m s, nps_new N m = Ok s <->
  exists d dv sv ov x t l fo, m = PDict d /\ dget (u "container") d = Some (PStr (u "numpy")) /\
    dget (u "dtype") d = Some dv /\ dget (u "shape") d = Some sv /\ dget (u "order") d = Some ov /\
    (n_literal N dv = Ok (Some x) \/ (n_literal N dv = Ok None /\ conv dv = Ok x)) /\ n_dtype N x = Ok t /\ sizes sv l /\ order_is ov fo /\
    s = mkNPS t l fo (mem_read (n_junk N) (n_base N) (zprod l * dt_itemsize t)) 0.
Proof. exact sink_ok. Qed.
Print Assumptions C77_allocated.
Theorem C77_refused : forall N m e, array_metadata m = true -> nps_new N m = Raise e ->
  exists d, m = PDict d /\
  ((e = KeyError /\ (dget (u "dtype") d = None \/ dget (u "shape") d = None \/ dget (u "order") d = None)) \/
   (exists dv, dget (u "dtype") d = Some dv /\
     (n_literal N dv = Raise e \/ (n_literal N dv = Ok None /\ has_empty_list dv = true /\ e = IndexError) \/ (exists x, n_dtype N x = Raise e))) \/
   (e = ValueError /\ exists sv ov, dget (u "shape") d = Some sv /\ dget (u "order") d = Some ov /\ ((forall l, ~ sizes sv l) \/ (forall fo, ~ order_is ov fo)))).
Proof. exact sink_raise. Qed.
Print Assumptions C77_refused.
(** Data types in the old list form convert unless a list in them is empty. *)
Theorem C77_old_types : forall v,
  (has_empty_list v = true -> conv v = Raise IndexError) /\ (has_empty_list v = false -> exists w, conv v = Ok w).
Proof. exact conv_empty. Qed.
Print Assumptions C77_old_types.
(** A whole archive: what decides is the metadata and the amount of data. *)
Theorem C77_archive : forall N E, EnvOK E -> forall f b m, archive E f b m ->
  unpack_ndarray_from_bytes E N f =
  match nps_new N m with
  | Raise e => Raise e
  | Ok s => if size b <=? size (ns_buf s)
            then Ok (nd_of (ns_fortran s) (ns_dtype s) (ns_shape s) (n_base N) (b ++ skipn (List.length b) (ns_buf s)))
            else Raise MemoryFault
  end.
Proof. exact archive_array. Qed.
Print Assumptions C77_archive.

Definition ex_i2_text : pyval := PStr (n_repr ex_np1 (PStr (u "<i2"))).
Definition ex_meta (dt sh od : pyval) : pyval :=
  PDict [(u "container", PStr (u "numpy")); (u "dtype", dt); (u "shape", sh); (u "order", od)].
Example C77_case :
  map (fun m => match nps_new ex_np1 m with Ok s => Ok (ns_shape s, ns_fortran s, size (ns_buf s)) | Raise e => Raise e end)
    [ex_meta ex_i2_text (PList [PInt 4; PInt 3]) (PStr (u "f"));
     ex_meta ex_i2_text (PInt 7) PNone;
     ex_meta ex_i2_text (PList []) (PStr (u "K"));
     ex_meta ex_i2_text (PList [PInt 4; PInt (-3)]) (PStr (u "C"));
     ex_meta ex_i2_text (PList [PInt 4; PFloat (u "3.0")]) (PStr (u "C"));
     ex_meta ex_i2_text (PList [PInt 4]) (PStr (u "Z"));
     ex_meta (PList []) (PList [PInt 4]) (PStr (u "C"));
     PDict [(u "container", PStr (u "numpy")); (u "dtype", ex_i2_text); (u "shape", PInt 1)]] =
  [Ok ([4; 3], true, 24); Ok ([7], false, 14); Ok ([], false, 2);
   Raise ValueError; Raise ValueError; Raise ValueError; Raise IndexError; Raise KeyError].
Proof. vm_compute. reflexivity. Qed.

(** Whatever the bytes, reading an array raises nothing else... *)
Theorem C77_unpack_exceptions : forall E N f e, unpack_ndarray_from_bytes E N f = Raise e ->
  In e read_errors \/ e = OSError /\ e_mem E = false \/ foreign_read E e \/ e = NotANumpyArray \/ e = MemoryFault \/ foreign_numpy N e.
Proof. exact unpack_array_exceptions. Qed.
Print Assumptions C77_unpack_exceptions.
(** ... and packing one raises nothing else, and not without these grounds. *)
Theorem C77_pack_exceptions : forall E N, EnvOK E -> forall a cs oba obp oma k e, nd_ok a ->
  pack_ndarray E N a (fp_sink E) cs oba obp oma (cfs_of (fp_of [])) = (k, Raise e) ->
  e = ObjectNumpyArrayRejection /\ dt_hasobject (nd_dtype a) = true \/
  e = ZeroDivisionError /\ nd_itemsize a = 0 \/
  e = ChunkSizeTypeSizeMismatch /\ (exists z, asked cs z /\ Z.min z (nd_size a * nd_itemsize a) mod nd_itemsize a <> 0) \/
  pack_error E (array_bytes a) cs (ndarray_meta N a) (the_bpargs obp) (the_margs oma) (fdata (s_fp k)) e.
Proof. exact pack_array_exceptions. Qed.
Print Assumptions C77_pack_exceptions.
Example C77_exceptions_case :
  map (fun x => match pack_ndarray_to_bytes toy_env ex_np1 (fst (fst x)) (snd (fst x)) None (snd x) None with Ok _ => None | Raise e => Some e end)
    [(ex_view, CSInt 6, None); (ex_view, CSInt 7, None);
     (mkND (mkDT PNone 0 false) [3] [0] 1000 ex_mem, CSInt 6, None); (mkND (mkDT PNone 8 true) [3] [8] 1000 ex_mem, CSInt 6, None);
     (ex_view, CSInt 6, Some (mk_bpargs true (Some "md6"%string) (bp_max_app default_bpargs)))] =
  [None; Some ChunkSizeTypeSizeMismatch; Some ZeroDivisionError; Some ObjectNumpyArrayRejection; Some NoSuchChecksum].
Proof. vm_compute. reflexivity. Qed.

(** ** C40 *)
(** A level or a codec name that is not among the choices: nothing is touched. *)
Theorem C40_compress_bad_choice : forall E o s, ~ (0 <= co_clevel o <= 9) \/ e_cname_ok E (co_cname o) = false ->
  cli_compress E o s = (s, Raise (SystemExit 2)).
Proof. exact bad_choice_compress. Qed.
Print Assumptions C40_compress_bad_choice.
Theorem C40_append_bad_choice : forall E o s, ~ (0 <= ao_clevel o <= 9) \/ e_cname_ok E (ao_cname o) = false ->
  cli_append E o s = (s, Raise (SystemExit 2)).
Proof. exact bad_choice_append. Qed.
Print Assumptions C40_append_bad_choice.
(** A missing input, an output that is there already without --force, a file without the
    extension: exit status 1, and nothing is touched. *)
Theorem C40_compress_refused : forall E o s, 0 <= co_clevel o <= 9 -> e_cname_ok E (co_cname o) = true ->
  (forall t, co_chunk o = Some t -> exists z, chunk_size_option t = Ok z) -> In (co_checksum o) checksum_names ->
  s (co_in o) = None \/ co_force o = false /\ s (compress_out o) <> None ->
  cli_compress E o s = (s, Raise (SystemExit 1)).
Proof. exact refused_compress. Qed.
Print Assumptions C40_compress_refused.
Theorem C40_decompress_refused : forall E o s,
  (forall p, decompress_out o = Ok p -> s (do_in o) = None \/ do_force o = false /\ s p <> None) ->
  cli_decompress E o s = (s, Raise (SystemExit 1)).
Proof. exact refused_decompress. Qed.
Print Assumptions C40_decompress_refused.
Theorem C40_append_refused : forall E o s, 0 <= ao_clevel o <= 9 -> e_cname_ok E (ao_cname o) = true ->
  (ao_no_check o = false /\ ends_with_ext (ao_orig o) = false) \/ s (ao_orig o) = None \/ s (ao_new o) = None ->
  cli_append E o s = (s, Raise (SystemExit 1)).
Proof. exact refused_append. Qed.
Print Assumptions C40_append_refused.
Example C40_case_refused : 0 <= co_clevel ex_co <= 9 /\ e_cname_ok toy_env (co_cname ex_co) = true /\
  (forall t, co_chunk ex_co = Some t -> exists z, chunk_size_option t = Ok z) /\ In (co_checksum ex_co) checksum_names /\
  (fun _ : path => @None bytes) (co_in ex_co) = None /\
  (forall p, decompress_out (mkDO "a.blp" (Some "data"%string) false false) = Ok p -> ex_fs "a.blp"%string = None \/ false = false /\ ex_fs p <> None).
Proof.
  split; [vm_compute; split; discriminate|]. split; [vm_compute; reflexivity|]. split.
  { intros t H. injection H as <-. eexists. vm_compute. reflexivity. }
  split; [vm_compute; auto|]. split; [reflexivity|]. intros p H. injection H as <-. right. split; [reflexivity|vm_compute; discriminate].
Qed.

(** ** C41 *)
(** White space around what the -m file holds makes no difference. *)
Theorem C41_metadata_file_blanks : forall E s p w w' x y d, Forall blank w -> Forall blank w' -> ~ blank x -> ~ blank y ->
  (d = [x] /\ y = x \/ exists q, d = x :: q ++ [y]) -> s p = Some (w ++ d ++ w') ->
  process_metadata_args E (Some p) s = (s, e_loads E d).
Proof. exact meta_blank. Qed.
Print Assumptions C41_metadata_file_blanks.
Theorem C41_metadata_file_only_blanks : forall E s p w, Forall blank w -> s p = Some w ->
  process_metadata_args E (Some p) s = (s, e_loads E []).
Proof. exact meta_all_blank. Qed.
Print Assumptions C41_metadata_file_only_blanks.
Example C41_blanks_case :
  let d := list_byte_of_string "{""a"":1}"%string in
  let s := fs_set (fun _ => None) "m"%string ([x09; x20; x0a] ++ d ++ [x0d; x0a]) in
  snd (process_metadata_args toy_env (Some "m"%string) s) = Ok (PDict [(u "a", PInt 1)]).
Proof. vm_compute. reflexivity. Qed.

(** ** C72 *)
(** Seeking to before the start: the start of an in-memory file, OSError in a file. *)
Theorem C72_memory_seek : forall E d f, e_mem E = true ->
  f_seek_rel E d f = (mkfp (fdata f) (Z.max 0 (fpos f + d)) (flog f), Ok tt).
Proof. exact memory_seek. Qed.
Print Assumptions C72_memory_seek.
Theorem C72_file_seek : forall E d f, e_mem E = false ->
  f_seek_rel E d f = if fpos f + d <? 0 then (f, Raise OSError) else (mkfp (fdata f) (fpos f + d) (flog f), Ok tt).
Proof. exact file_seek. Qed.
Print Assumptions C72_file_seek.

(** ** C11 *)
(** None as the checksum of an argument object: the same as 'None', and no digests
    in the file. *)
Theorem C11_checksum_none : forall E, EnvOK E -> forall b csa m oba off mac oma,
  let r := pack_bytes_to_bytes E b csa m oba (Some (mk_bpargs off None mac)) oma in
  r = pack_bytes_to_bytes E b csa m oba (Some (mkBPA off "None" mac)) oma /\
  forall f, r = Ok f -> F_digest f = 0.
Proof. exact checksum_none. Qed.
Print Assumptions C11_checksum_none.
Example C11_none_case : exists f, pack_bytes_to_bytes toy_env ex_data (CSInt 20) PropsPack.ex_meta None (Some (mk_bpargs true None (bp_max_app default_bpargs))) None = Ok f /\
  unpack_core toy_env f = (ex_data, Ok (norm PropsPack.ex_meta)).
Proof. eexists. split; [vm_compute; reflexivity|]. vm_compute. reflexivity. Qed.
