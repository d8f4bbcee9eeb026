(** Argument objects used for several packs.  BloscArgs and MetadataArgs are
    mutable: pack_ndarray sets the type size of the first (numpy_io.py:181-183),
    _write_metadata may set the codec of the second (file_io.py:98-104), and
    neither is undone when a later step raises. *)
From Verif Require Import Base PyVal Checksums Headers Args FileIO NumpyIO.

Section WithEnv.
Variable E : Env.
Variable N : NpEnv.

(** The MetadataArgs object after _write_metadata (file_io.py:84-107), whether
    that raises or not. *)
Definition margs_after_write (m : pyval) (a : margs) : margs :=
  match (_ <~ serializer_lookup (ma_magic a) ;; e_dumps E m) with
  | Raise _ => a
  | Ok raw =>
      if should_compress a then
        match (co <~ codec_lookup (ma_codec a) ;; codec_compress E co raw (ma_level a)) with
        | Raise _ => a
        | Ok z => if zlen raw <? zlen z then nullify_codec a else a
        end
      else a
  end.

(** ... and after pack (abstract_io.py:108-166), preceded by calculate_nchunks:
    _write_metadata is not reached if there is no metadata, or if the number of
    chunks, of reserved chunks or the header is refused. *)
Definition margs_after_pack (length : Z) (cs : csarg) (m : pyval) (ba : bargs) (bp : bpargs) (a : margs) : margs :=
  match (ncl <~ calculate_nchunks length cs ;;
         let '(n, c, l) := ncl in
         max_app <~ handle_max_apps (bp_offsets bp) n (bp_max_app bp) ;;
         mk_header FORMAT_VERSION (bp_offsets bp) (negb (is_none m)) (bp_checksum bp) (ba_typesize ba) c l n max_app) with
  | Raise _ => a
  | Ok _ => if is_none m then a else margs_after_write m a
  end.

(** One BloscArgs and one MetadataArgs object. *)
Record objs := mkObjs { ob_ba : bargs; ob_ma : margs }.

(** pack_bytes_to_bytes (file_io.py:609-663) or pack_ndarray_to_bytes
    (numpy_io.py:239-277). *)
Inductive job :=
| JBytes (b : bytes) (cs : csarg) (m : pyval)
| JArray (a : ndarray) (cs : csarg).

Definition run_job (bp : bpargs) (o : objs) (j : job) : objs * res bytes :=
  match j with
  | JBytes b cs m =>
      (mkObjs (ob_ba o) (margs_after_pack (zlen b) cs m (ob_ba o) bp (ob_ma o)),
       pack_bytes_to_bytes E b cs m (Some (ob_ba o)) (Some bp) (Some (ob_ma o)))
  | JArray a cs =>
      (if dt_hasobject (nd_dtype a) then o
       else let ba := np_bargs a (Some (ob_ba o)) in
            mkObjs ba (margs_after_pack (nd_size a * nd_itemsize a) cs (ndarray_meta N a) ba bp (ob_ma o)),
       pack_ndarray_to_bytes E N a cs (Some (ob_ba o)) (Some bp) (Some (ob_ma o)))
  end.

(** Several of them in a row, by a caller who catches the exceptions. *)
Fixpoint run_jobs (bp : bpargs) (o : objs) (l : list job) : list (res bytes) * objs :=
  match l with
  | [] => ([], o)
  | j :: r => let '(o1, x) := run_job bp o j in
              let '(xs, o2) := run_jobs bp o1 r in (x :: xs, o2)
  end.
End WithEnv.
