(** C76: argument objects used for several packs. *)
From Verif Require Import Base PyVal Checksums Headers Args FileIO NumpyIO NumpySpec Spec Archive Json Toy ToyNumpy Reuse ReuseSpec ReuseProofs PropsPack PropsNumpy.

(** ** The object a successful pack leaves is the one the model of the object says. *)
Theorem C76_object : forall E b cs m ba bp a k r, pack_bytes_core E b cs m (Some ba) (Some bp) (Some a) = (k, Ok r) ->
  r = Some (margs_after_pack E (zlen b) cs m ba bp a) /\
  (is_none m = false -> margs_after_pack E (zlen b) cs m ba bp a = margs_after_write E m a /\ serializer_lookup (ma_magic a) = Ok tt).
Proof. exact bytes_object. Qed.
Print Assumptions C76_object.
Theorem C76_array_object : forall E N x cs ba bp a k r,
  pack_ndarray E N x (fp_sink E) cs (Some ba) (Some bp) (Some a) (cfs_of (fp_of [])) = (k, Ok r) ->
  dt_hasobject (nd_dtype x) = false /\
  r = Some (margs_after_pack E (nd_size x * nd_itemsize x) cs (ndarray_meta N x) (with_typesize ba (nd_itemsize x)) bp a) /\
  margs_after_pack E (nd_size x * nd_itemsize x) cs (ndarray_meta N x) (with_typesize ba (nd_itemsize x)) bp a = margs_after_write E (ndarray_meta N x) a /\
  serializer_lookup (ma_magic a) = Ok tt.
Proof. exact array_object. Qed.
Print Assumptions C76_array_object.
(** _write_metadata changes the codec exactly if compression does not pay, whether it
    raises afterwards or not. *)
Theorem C76_metadata_object : forall E m a,
  (grows E m a -> serializer_lookup (ma_magic a) = Ok tt -> margs_after_write E m a = without_codec a) /\
  (~ grows E m a -> margs_after_write E m a = a).
Proof.
  exact (fun E m a => conj (write_grows E m a) (fun H => match write_cases E m a with or_introl e => e | or_intror (conj _ g) => False_ind _ (H g) end)).
Qed.
Print Assumptions C76_metadata_object.

(** ** A row of packs sharing a BloscArgs and a MetadataArgs object.  Every pack gives
    what it would give alone with: the type size of the last array packed before
    (for byte strings; arrays use their own), and the codec switched off if, and only
    if, the metadata of an earlier one did not shrink. *)
Theorem C76_row : forall E N bp ba0 a0 pre j post xs o',
  run_jobs E N bp (mkObjs ba0 a0) (pre ++ j :: post) = (xs, o') ->
  exists a, nth_error xs (List.length pre) =
    Some match j with
         | JBytes b cs m => pack_bytes_to_bytes E b cs m (Some (with_typesize ba0 (last_item (ba_typesize ba0) pre))) (Some bp) (Some a)
         | JArray x cs => pack_ndarray_to_bytes E N x cs (Some ba0) (Some bp) (Some a)
         end /\
    (a = a0 \/ (a = without_codec a0 /\ Exists (fun j => grows E (job_meta N j) a0) pre)) /\
    (forall i j' f, nth_error pre i = Some j' -> nth_error xs i = Some (Ok f) -> job_meta N j' <> PNone -> grows E (job_meta N j') a0 ->
       a = without_codec a0).
Proof. exact row. Qed.
Print Assumptions C76_row.
(** The objects at the end. *)
Theorem C76_objects_after : forall E N bp l o,
  let o1 := snd (run_jobs E N bp o l) in
  ob_ba o1 = with_typesize (ob_ba o) (last_item (ba_typesize (ob_ba o)) l) /\
  (ob_ma o1 = ob_ma o \/ (ob_ma o1 = without_codec (ob_ma o) /\ Exists (fun j => grows E (job_meta N j) (ob_ma o)) l)) /\
  (forall i j f, nth_error l i = Some j -> nth_error (fst (run_jobs E N bp o l)) i = Some (Ok f) -> job_meta N j <> PNone ->
     grows E (job_meta N j) (ob_ma o) -> ob_ma o1 = without_codec (ob_ma o)).
Proof. exact objects_after. Qed.
Print Assumptions C76_objects_after.

(** ** Byte strings packed after an array get its item size as type size, and cannot be
    packed at all after an array (packed or refused) whose items are larger than 255
    bytes or empty. *)
Theorem C76_typesize_sticks : forall E N bp, EnvOK E -> forall ba0 a0 pre b cs m post xs o',
  run_jobs E N bp (mkObjs ba0 a0) (pre ++ JBytes b cs m :: post) = (xs, o') ->
  match nth_error xs (List.length pre) with
  | Some (Ok f) => F_typesize f = last_item (ba_typesize ba0) pre /\ 1 <= last_item (ba_typesize ba0) pre <= 255
  | Some (Raise _) => True
  | None => False
  end.
Proof. exact typesize_sticks. Qed.
Print Assumptions C76_typesize_sticks.

(** ** Whatever was packed before, what is packed comes back. *)
Theorem C76_all_come_back : forall E N bp, EnvOK E -> forall N' ba0 a0 jobs xs o' i j f,
  run_jobs E N bp (mkObjs ba0 a0) jobs = (xs, o') -> nth_error jobs i = Some j -> nth_error xs i = Some (Ok f) ->
  match j with
  | JBytes b cs m => unpack_bytes_from_bytes E f = Ok (b, norm m)
  | JArray x cs => nd_ok x -> NpOK N N' (nd_dtype x) -> exists r, unpack_ndarray_from_bytes E N' f = Ok r /\ same_array x r
  end.
Proof. exact all_come_back. Qed.
Print Assumptions C76_all_come_back.

(** ** Sharing is harmless if no metadata grows and the arrays have the type size of
    the object. *)
Theorem C76_harmless : forall E N bp ba0 a0 jobs,
  Forall (fun j => ~ grows E (job_meta N j) a0 /\
                   match j with JBytes _ _ _ => True | JArray x _ => dt_hasobject (nd_dtype x) = true \/ nd_itemsize x = ba_typesize ba0 end) jobs ->
  run_jobs E N bp (mkObjs ba0 a0) jobs = (map (alone E N bp ba0 a0) jobs, mkObjs ba0 a0).
Proof. exact harmless. Qed.
Print Assumptions C76_harmless.

(** ** In general it is not: the same call twice, with other packs in between, gives
    two different files, or a file and an exception; also if the one in between fails. *)
Definition ex_small : margs := mkMA (b_of_string "JSON") "sha256" "zlib" 6 (MMInt 3).
Definition ex_big : ndarray := mkND (mkDT (PStr (u "|S300")) 300 false) [1] [300] 1000 ex_mem.
Theorem C76_independent_refuted : exists E N bp ba0 a0 x b cs m xs o', EnvOK E /\
  run_jobs E N bp (mkObjs ba0 a0) [JBytes b cs m; JArray x cs; JBytes b cs m] = (xs, o') /\
  match xs with [Ok f; Ok _; Ok g] => F_typesize f <> F_typesize g | _ => False end.
Proof.
  exists toy_env, ex_np1, default_bpargs, default_bargs, default_margs, ex_view, ex_data, (CSInt 24), PNone.
  do 2 eexists. split; [exact toy_env_ok|]. split; [apply surjective_pairing|]. vm_compute. discriminate.
Qed.
Print Assumptions C76_independent_refuted.
Theorem C76_failure_undone_refuted : exists E N bp ba0 a0 x b cs m m2 f0 e1 e2 e3 o', EnvOK E /\
  run_jobs E N bp (mkObjs ba0 a0) [JBytes b cs PNone; JArray x cs; JBytes b cs m; JBytes b cs m2] = ([Ok f0; Raise e1; Raise e2; Raise e3], o') /\
  ob_ba o' <> ba0 /\
  exists o2 e, run_jobs E N bp (mkObjs ba0 a0) [JBytes b cs m] = ([Raise e], o2) /\ ob_ma o2 <> a0.
Proof.
  exists toy_env, ex_np1, default_bpargs, default_bargs, ex_small, ex_big, ex_data, (CSInt 20), ex_meta, PNone.
  do 5 eexists. split; [exact toy_env_ok|]. split; [vm_compute; reflexivity|]. split; [vm_compute; discriminate|].
  do 2 eexists. split; [vm_compute; reflexivity|]. vm_compute. discriminate.
Qed.
Print Assumptions C76_failure_undone_refuted.
Example C76_case :
  let '(xs, o) := run_jobs toy_env ex_np1 default_bpargs (mkObjs default_bargs default_margs)
                    [JBytes ex_data (CSInt 20) ex_meta; JArray ex_view (CSInt 10); JBytes ex_data (CSInt 20) PNone; JArray ex_rec (CSInt 80)] in
  map (fun x => match x with Ok f => F_typesize f | Raise _ => -1 end) xs = [8; 2; 2; 16] /\
  ob_ba o = with_typesize default_bargs 16 /\ ob_ma o = without_codec default_margs /\
  grows toy_env ex_meta default_margs.
Proof.
  vm_compute. repeat split. do 2 eexists. repeat split; reflexivity.
Qed.
Example C76_case_harmless : ~ grows toy_env (PDict []) (without_codec default_margs) /\
  ba_typesize (with_typesize default_bargs 2) = nd_itemsize ex_view.
Proof. split; [intros (H & _); discriminate H|reflexivity]. Qed.
