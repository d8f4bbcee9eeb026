(** C34-C38, C53: arrays, and packing to and from memory. *)
From Verif Require Import Base PyVal Checksums Headers Args FileIO Files NumpyIO MemoryIO Spec NumpySpec Json Toy ToyNumpy PyLit MetaProofs
  PropsPack NumpyProofs NumpyUnpack NumpyMeta MemoryProofs.

(** Two processes: arrays are packed in one and unpacked in the other. *)
Definition ex_np1 : NpEnv := toy_np 5000 (fun _ => x55).
Definition ex_np2 : NpEnv := toy_np 9000 (fun z => bZ (z mod 256)).
Definition ex_mem : mem := fun z => bZ ((z * 7 + z / 5) mod 251).
(** a 4 x 3 window of '<i2', every other row of a matrix read bottom up *)
Definition ex_i2 : dtype := toy_dtype (PStr (u "<i2")).
Definition ex_view : ndarray := mkND ex_i2 [4; 3] [-20; 2] 1000 ex_mem.
(** column-major *)
Definition ex_fort : ndarray := mkND ex_i2 [4; 3] [2; 8] 1000 ex_mem.
(** records, one field a 2 x 2 subarray *)
Definition ex_rec_desc : pyval :=
  PList [PTuple [PStr (u "x"); PStr (u "<i4")];
         PTuple [PStr (u "y"); PList [PTuple [PStr (u "p"); PStr (u "|S3"); PTuple [PInt 2; PInt 2]]]]].
Definition ex_rec : ndarray := mkND (toy_dtype ex_rec_desc) [5] [40] 1000 ex_mem.

(** ** C34 *)
Theorem C34_roundtrip : forall E, EnvOK E -> forall N N' a csa oba obp oma f,
  nd_ok a -> NpOK N N' (nd_dtype a) ->
  pack_ndarray_to_bytes E N a csa oba obp oma = Ok f ->
  exists r, unpack_ndarray_from_bytes E N' f = Ok r /\ same_array a r.
Proof. exact np_roundtrip. Qed.
Print Assumptions C34_roundtrip.
Theorem C34_file_roundtrip : forall E, EnvOK E -> forall N N' a p csa oba obp oma w w' q,
  nd_ok a -> NpOK N N' (nd_dtype a) ->
  pack_ndarray_to_file E N a p csa oba obp oma w = (w', Ok q) ->
  exists r, unpack_ndarray_from_file E N' p w' = (w', Ok r) /\ same_array a r.
Proof. exact np_file_roundtrip. Qed.
Print Assumptions C34_file_roundtrip.
(** What is stored are the elements in row-major order (column-major for arrays
    that are laid out so), with the description as metadata and the item size as
    the type size: byte for byte the file that packing those bytes gives. *)
Theorem C34_stored_bytes : forall E N a csa oba obp oma f,
  nd_ok a -> pack_ndarray_to_bytes E N a csa oba obp oma = Ok f ->
  pack_bytes_to_bytes E (array_bytes a) csa (ndarray_meta N a)
    (Some (mkBA (dt_itemsize (nd_dtype a)) (ba_clevel (the_bargs oba)) (ba_shuffle (the_bargs oba)) (ba_cname (the_bargs oba))))
    obp oma = Ok f.
Proof. exact np_stored_bytes. Qed.
Print Assumptions C34_stored_bytes.
Example C34_case_oks : nd_ok ex_view /\ nd_ok ex_fort /\ nd_ok ex_rec /\
  NpOK ex_np1 ex_np2 (nd_dtype ex_view) /\ NpOK ex_np1 ex_np2 (nd_dtype ex_rec).
Proof.
  repeat split; try (repeat constructor; cbn; try discriminate; fail); apply lit_eval_repr; reflexivity.
Qed.
Definition ex_np_file (a : ndarray) (c : Z) : bytes :=
  match pack_ndarray_to_bytes toy_env ex_np1 a (CSInt c) None None None with Ok f => f | _ => [] end.
Example C34_case_view : exists f r,
  pack_ndarray_to_bytes toy_env ex_np1 ex_view (CSInt 10) None None None = Ok f /\
  unpack_ndarray_from_bytes toy_env ex_np2 f = Ok r /\
  nd_strides r = [6; 2] /\ map (nd_elem r) [[0; 0]; [1; 2]; [3; 1]] = map (nd_elem ex_view) [[0; 0]; [1; 2]; [3; 1]] /\
  nd_elem ex_view [1; 2] <> nd_elem ex_view [3; 1].
Proof.
  exists (ex_np_file ex_view 10).
  assert (X : match unpack_ndarray_from_bytes toy_env ex_np2 (ex_np_file ex_view 10) with
              | Ok r => zs_eqb (nd_strides r) [6; 2] &&
                  forallb (fun i => bytes_eqb (nd_elem r i) (nd_elem ex_view i)) [[0; 0]; [1; 2]; [3; 1]]
              | _ => false
              end = true) by (vm_compute; reflexivity).
  destruct (unpack_ndarray_from_bytes toy_env ex_np2 (ex_np_file ex_view 10)) as [r|]; [exists r|discriminate].
  apply andb_prop in X as [X1 X2]. apply zs_eqb_eq in X1. rewrite forallb_forall in X2.
  split; [vm_compute; reflexivity|]. split; [reflexivity|]. split; [exact X1|]. split; [|vm_compute; discriminate].
  apply map_ext_in. intros i Hi. apply bytes_eqb_eq. apply X2. exact Hi.
Qed.
Example C34_case_layouts :
  (isfortran ex_fort, isfortran ex_view, c_contiguous ex_view, nd_itemsize ex_rec) = (true, false, false, 16) /\
  array_bytes ex_fort <> concat (map (nd_elem ex_fort) (indices [4; 3])) /\
  match unpack_ndarray_from_bytes toy_env ex_np2 (ex_np_file ex_rec 32) with
  | Ok r => nd_strides r = [16] /\ nd_elem r [4] = nd_elem ex_rec [4] /\ dt_desc (nd_dtype r) = ex_rec_desc
  | Raise _ => False
  end /\
  match unpack_ndarray_from_bytes toy_env ex_np2 (ex_np_file ex_fort 8) with
  | Ok r => nd_strides r = [2; 8] /\ nd_elem r [1; 2] = nd_elem ex_fort [1; 2]
  | Raise _ => False
  end.
Proof. vm_compute. repeat split; discriminate. Qed.

(** ** C35 *)
Theorem C35_objects : forall E N Snk (snk : compressed_sink Snk) a csa oba obp oma k,
  dt_hasobject (nd_dtype a) = true ->
  pack_ndarray E N a snk csa oba obp oma k = (k, Raise ObjectNumpyArrayRejection).
Proof. exact @objects_rejected. Qed.
Print Assumptions C35_objects.
Theorem C35_acceptance : forall E, EnvOK E -> forall N a csa oba obp oma n, nd_ok a ->
  let total := nd_size a * nd_itemsize a in
  (total = 0 /\ n = 1) \/ (0 < total /\ exists z, asked csa z /\ 1 <= z <= BUFMAX /\ n = (total + z - 1) / z) ->
  n <= 2 ^ 63 - 1 ->
  0 <= ba_clevel (the_bargs oba) <= 9 -> e_cname_ok E (ba_cname (the_bargs oba)) = true ->
  In (bp_checksum (the_bpargs obp)) checksum_names ->
  (bp_offsets (the_bpargs obp) = true -> exists v, reserve_of (bp_max_app (the_bpargs obp)) n v /\ 0 <= v /\
      total + 88 * n + 8 * v + 4294967423 <= 2 ^ 63 - 1) ->
  (exists raw p mx, meta_fits E (ndarray_meta N a) (the_margs oma) raw p mx) ->
  let r := pack_ndarray_to_bytes E N a csa oba obp oma in
  (dt_hasobject (nd_dtype a) = true -> r = Raise ObjectNumpyArrayRejection) /\
  (dt_hasobject (nd_dtype a) = false ->
     (255 < nd_itemsize a -> r = Raise ValueError) /\
     (nd_itemsize a = 0 -> r = Raise ZeroDivisionError) /\
     (1 <= nd_itemsize a <= 255 ->
        (0 < total -> forall z, asked csa z -> Z.min z total mod nd_itemsize a <> 0 -> r = Raise ChunkSizeTypeSizeMismatch) /\
        ((total = 0 \/ exists z, asked csa z /\ Z.min z total mod nd_itemsize a = 0) -> exists f, r = Ok f))).
Proof. exact np_acceptance. Qed.
Print Assumptions C35_acceptance.
Theorem C35_accepted_only : forall E N a csa oba obp oma f, nd_ok a ->
  pack_ndarray_to_bytes E N a csa oba obp oma = Ok f ->
  dt_hasobject (nd_dtype a) = false /\ 1 <= nd_itemsize a <= 255 /\
  (nd_size a * nd_itemsize a = 0 \/ exists z, asked csa z /\ Z.min z (nd_size a * nd_itemsize a) mod nd_itemsize a = 0).
Proof. exact np_accepted_only. Qed.
Print Assumptions C35_accepted_only.
(** An array whose items have no bytes at all is not packed. *)
Theorem C35_zero_itemsize_refuted : exists E N a, EnvOK E /\ nd_ok a /\ dt_hasobject (nd_dtype a) = false /\
  NpOK N N (nd_dtype a) /\ pack_ndarray_to_bytes E N a (CSInt 8) None None None = Raise ZeroDivisionError.
Proof.
  exists toy_env, ex_np1, (mkND (toy_dtype (PStr (u "|V0"))) [2] [0] 1000 ex_mem).
  split; [exact toy_env_ok|]. split; [repeat constructor; cbn; discriminate|]. split; [reflexivity|].
  split; [apply toy_np_ok; reflexivity|]. vm_compute. reflexivity.
Qed.
Print Assumptions C35_zero_itemsize_refuted.
Example C35_case : map (fun '(d, c) =>
    match pack_ndarray_to_bytes toy_env ex_np1 (mkND (toy_dtype (PStr (u d))) [6] [300] 1000 ex_mem) (CSInt c) None None None with
    | Ok _ => None | Raise e => Some e end)
  [("<i4", 8); ("<i4", 1000); ("<i4", 6); ("|O8", 8); ("|S256", 256); ("|V0", 5)]%string =
  [None; None; Some ChunkSizeTypeSizeMismatch; Some ObjectNumpyArrayRejection; Some ValueError; Some ZeroDivisionError].
Proof. vm_compute. reflexivity. Qed.

(** ** C36 *)
(** The buffer of the new array is exactly filled, whatever was in it before, and
    no decompression wrote past its end (that would be a MemoryFault). *)
Theorem C36_writes_exactly : forall E, EnvOK E -> forall N N' a csa oba obp oma f,
  nd_ok a -> NpOK N N' (nd_dtype a) ->
  pack_ndarray_to_bytes E N a csa oba obp oma = Ok f ->
  exists g bg s s', read_beginning E (fp_of f) = (g, Ok bg) /\ nps_new N' (b_meta bg) = Ok s /\
    size (ns_buf s) = nd_size a * nd_itemsize a /\
    (exists g', unpack_loop E (fp_next E (h_checksum (b_header bg))) (h_checksum (b_header bg)) (nps_put E)
                  (Z.to_nat (h_nchunks (b_header bg))) (g, s) = ((g', s'), Ok tt)) /\
    ns_buf s' = array_bytes a /\ ns_pos s' = nd_size a * nd_itemsize a.
Proof. exact np_writes_array. Qed.
Print Assumptions C36_writes_exactly.
(** For any file that unpacks to bytes, what unpacking it as an array does. *)
Theorem C36_any_file : forall E N f x m, unpack_bytes_from_bytes E f = Ok (x, m) ->
  unpack_ndarray_from_bytes E N f =
  (s <~ nps_new N m ;;
   if size x <=? size (ns_buf s)
   then Ok (nd_of (ns_fortran s) (ns_dtype s) (ns_shape s) (n_base N) (x ++ skipn (List.length x) (ns_buf s)))
   else Raise MemoryFault).
Proof. exact np_any_file. Qed.
Print Assumptions C36_any_file.
Definition ex_lie (shape : list Z) : bytes :=
  match pack_bytes_to_bytes toy_env ex_data (CSInt 20)
          (ndarray_meta ex_np1 (mkND ex_i2 shape [2] 1000 ex_mem)) None None None with Ok f => f | _ => [] end.
(** Nothing compares the sizes: memory past the array is overwritten, or part of
    the array is left as the allocator gave it. *)
Theorem C36_overrun_refuted : exists E N f, EnvOK E /\
  (exists x m, unpack_bytes_from_bytes E f = Ok (x, m)) /\ unpack_ndarray_from_bytes E N f = Raise MemoryFault.
Proof.
  exists toy_env, ex_np2, (ex_lie [3]). split; [exact toy_env_ok|]. split.
  - exists ex_data, (norm (ndarray_meta ex_np1 (mkND ex_i2 [3] [2] 1000 ex_mem))). vm_compute. reflexivity.
  - vm_compute. reflexivity.
Qed.
Print Assumptions C36_overrun_refuted.
Theorem C36_uninitialised_refuted : exists E f base junk junk', EnvOK E /\
  match unpack_ndarray_from_bytes E (toy_np base junk) f, unpack_ndarray_from_bytes E (toy_np base junk') f with
  | Ok r, Ok r' => nd_shape r = nd_shape r' /\ exists i, nd_elem r [i] <> nd_elem r' [i]
  | _, _ => False
  end.
Proof.
  exists toy_env, (ex_lie [1000]), 9000, (fun _ => x55), (fun _ => x66). split; [exact toy_env_ok|].
  assert (X : match unpack_ndarray_from_bytes toy_env (toy_np 9000 (fun _ => x55)) (ex_lie [1000]),
                    unpack_ndarray_from_bytes toy_env (toy_np 9000 (fun _ => x66)) (ex_lie [1000]) with
              | Ok r, Ok r' => zs_eqb (nd_shape r) [1000] && zs_eqb (nd_shape r') [1000] &&
                  bytes_eqb (nd_elem r [999]) [x55; x55] && bytes_eqb (nd_elem r' [999]) [x66; x66]
              | _, _ => false
              end = true) by (vm_compute; reflexivity).
  destruct (unpack_ndarray_from_bytes toy_env (toy_np 9000 (fun _ => x55)) (ex_lie [1000])) as [r|]; [|discriminate].
  destruct (unpack_ndarray_from_bytes toy_env (toy_np 9000 (fun _ => x66)) (ex_lie [1000])) as [r'|]; [|discriminate].
  apply andb_prop in X as [X X4]. apply andb_prop in X as [X X3]. apply andb_prop in X as [X1 X2].
  apply zs_eqb_eq in X1, X2. apply bytes_eqb_eq in X3, X4.
  split; [congruence|]. exists 999. rewrite X3, X4. discriminate.
Qed.
Print Assumptions C36_uninitialised_refuted.

(** ** C37 *)
Theorem C37_no_metadata : forall E, EnvOK E -> forall N b csa oba obp oma f,
  pack_bytes_to_bytes E b csa PNone oba obp oma = Ok f -> unpack_ndarray_from_bytes E N f = Raise NotANumpyArray.
Proof. intros E HE N b csa oba obp oma f H. exact (not_array E HE N b csa PNone oba obp oma f H eq_refl). Qed.
Print Assumptions C37_no_metadata.
Theorem C37_other_container : forall E, EnvOK E -> forall N b csa d v oba obp oma f,
  pack_bytes_to_bytes E b csa (PDict d) oba obp oma = Ok f ->
  dget (u "container") d = Some v -> v <> PStr (u "numpy") ->
  unpack_ndarray_from_bytes E N f = Raise NotANumpyArray.
Proof. exact other_container. Qed.
Print Assumptions C37_other_container.
(** All metadata that does not declare an array, with the exception raised (a
    KeyError without the key, a TypeError if it is no dictionary). *)
Theorem C37_all_others : forall E, EnvOK E -> forall N b csa m oba obp oma f,
  pack_bytes_to_bytes E b csa m oba obp oma = Ok f ->
  array_metadata m = false -> unpack_ndarray_from_bytes E N f = Raise (not_array_error m).
Proof. exact not_array. Qed.
Print Assumptions C37_all_others.
(** Any file, damaged or foreign: an array comes out only of one that declares it. *)
Theorem C37_only_arrays : forall E N f r, unpack_ndarray_from_bytes E N f = Ok r ->
  exists x m, unpack_bytes_from_bytes E f = Ok (x, m) /\ array_metadata m = true.
Proof. exact only_arrays. Qed.
Print Assumptions C37_only_arrays.
Example C37_case : map (fun m => match pack_bytes_to_bytes toy_env ex_data (CSInt 20) m None None None with
                                 | Ok f => match unpack_ndarray_from_bytes toy_env ex_np2 f with Ok _ => None | Raise e => Some e end
                                 | Raise _ => None end)
  [PNone; PDict [(u "container", PStr (u "pandas"))]; PDict [(u "dtype", PInt 1)]; PList [PInt 1]] =
  [Some NotANumpyArray; Some NotANumpyArray; Some KeyError; Some TypeError].
Proof. vm_compute. reflexivity. Qed.

(** ** C53 *)
Theorem C53_conv : forall d, format_ok d = true -> conv (norm d) = Ok d.
Proof. exact conv_norm. Qed.
Print Assumptions C53_conv.
Theorem C53_old_arrays : forall E, EnvOK E -> forall N a csa oba obp oma f,
  nd_ok a -> OldOK N (nd_dtype a) ->
  pack_bytes_to_bytes E (array_bytes a) csa (old_meta a) oba obp oma = Ok f ->
  exists r, unpack_ndarray_from_bytes E N f = Ok r /\ same_array a r.
Proof. exact old_arrays. Qed.
Print Assumptions C53_old_arrays.
(** Not for fields with a title, whose name numpy describes by a pair. *)
Theorem C53_titles_refuted : exists d, conv (norm d) <> Ok d /\
  d = PList [PTuple [PTuple [PStr (u "title"); PStr (u "x")]; PStr (u "<i4")]].
Proof.
  exists (PList [PTuple [PTuple [PStr (u "title"); PStr (u "x")]; PStr (u "<i4")]]). split; [vm_compute; discriminate|reflexivity].
Qed.
Print Assumptions C53_titles_refuted.
Example C53_case : format_ok ex_rec_desc = true /\ norm ex_rec_desc <> ex_rec_desc /\ OldOK ex_np2 (nd_dtype ex_rec) /\
  (exists f, pack_bytes_to_bytes toy_env (array_bytes ex_rec) (CSInt 32) (old_meta ex_rec) None None None = Ok f).
Proof.
  split; [reflexivity|]. split; [discriminate|]. split; [constructor; vm_compute; reflexivity|].
  destruct (pack_bytes_to_bytes toy_env (array_bytes ex_rec) (CSInt 32) (old_meta ex_rec) None None None) as [f|e] eqn:P;
    [eauto|vm_compute in P; discriminate].
Qed.

(** ** C38 *)
Theorem C38_roundtrip : forall E, EnvOK E -> forall chunks n c l m oba obp oma s r,
  pack (mem_source E chunks) (mem_sink E) n c l m oba obp oma (tt, cms_new) = ((tt, s), Ok r) -> zlen chunks = n ->
  cm_meta s = m /\ h_nchunks (cm_header s) = n /\
  forall t, t = pms_new None \/ t = pms_new (Some n) ->
  exists i t', mem_unpack E s (O, t) = ((i, t'), Ok tt) /\ pms_chunks t' = map Some chunks.
Proof. exact mem_roundtrip. Qed.
Print Assumptions C38_roundtrip.
Theorem C38_total : forall E, EnvOK E -> forall chunks n c l m oba obp oma ck,
  -1 <= c <= BUFMAX -> -1 <= l <= BUFMAX -> (c = -1 \/ l <= c) -> 0 <= n <= 2 ^ 63 - 1 ->
  blosc_args_ok E (the_bargs oba) -> bp_checksum (the_bpargs obp) = cks_name ck ->
  (bp_offsets (the_bpargs obp) = true -> exists v, reserve_of (bp_max_app (the_bpargs obp)) n v /\ 0 <= v <= 2 ^ 63 - 1) ->
  Forall (fun x => size x <= BUFMAX) chunks ->
  let res := pack (mem_source E chunks) (mem_sink E) n c l m oba obp oma (tt, cms_new) in
  (zlen chunks <= n -> exists s r, res = ((tt, s), Ok r)) /\
  (n < zlen chunks -> exists s, res = (s, Raise IndexError)).
Proof. exact mem_accepts. Qed.
Print Assumptions C38_total.
Theorem C38_missing_chunks : forall E, EnvOK E -> forall chunks n c l m oba obp oma s r t,
  pack (mem_source E chunks) (mem_sink E) n c l m oba obp oma (tt, cms_new) = ((tt, s), Ok r) -> zlen chunks < n ->
  t = pms_new None \/ t = pms_new (Some n) ->
  exists st, mem_unpack E s (O, t) = (st, Raise TypeError).
Proof. exact mem_too_few. Qed.
Print Assumptions C38_missing_chunks.
Theorem C38_tampered : forall E, EnvOK E -> forall chunks n c l m oba obp oma s r t j bad x,
  pack (mem_source E chunks) (mem_sink E) n c l m oba obp oma (tt, cms_new) = ((tt, s), Ok r) ->
  t = pms_new None \/ t = pms_new (Some n) ->
  nth_error (cm_chunks s) j = Some (Some x) ->
  digest E (h_checksum (cm_header s)) bad <> digest E (h_checksum (cm_header s)) x ->
  exists l', set_nth j (Some bad) (cm_chunks s) = Some l' /\
  exists i t', mem_unpack E (mkCMS (cm_header s) l' (cm_digests s) (cm_meta s) (cm_margs s)) (O, t) = ((i, t'), Raise ChecksumMismatch) /\
    exists k, pms_chunks t' = map Some (firstn j chunks) ++ repeat None k.
Proof. exact mem_tampered. Qed.
Print Assumptions C38_tampered.
Definition ex_chunks : list bytes := [ex_data; b_of_string "second"; []].
Example C38_case : match pack (mem_source toy_env ex_chunks) (mem_sink toy_env) 3 (-1) (-1) ex_meta None None None (tt, cms_new) with
  | ((_, s), Ok _) => cm_meta s = ex_meta /\ snd (mem_unpack toy_env s (O, pms_new None)) = Ok tt /\
      pms_chunks (snd (fst (mem_unpack toy_env s (O, pms_new (Some 3))))) = map Some ex_chunks /\
      match cm_chunks s with Some x :: _ => digest toy_env (h_checksum (cm_header s)) (x ++ [x01]) <> digest toy_env (h_checksum (cm_header s)) x | _ => False end
  | _ => False
  end.
Proof. vm_compute. repeat split; discriminate. Qed.
