(** C93: what reading any byte string as an array, and packing any array, does. *)
From Verif Require Import Base PyVal Checksums Headers Args FileIO Files NumpyIO Spec NumpySpec Archive FormatSpec ReadSpec ReviseSpec WriteSpec ArraySpec ReadProofs ArrayProofs Json Toy ToyNumpy
  PropsPack PropsRead PropsNumpy.

(** ** C93.  [reference_array] and [reference_pack_array] are written from the
    description of the format and of the dictionary that goes with an array.
    Unpacking any byte string as an array does exactly what the first says: the
    array has that dtype, shape and order, and its memory starts with those bytes
    and holds behind them what the allocator left there. *)
Theorem C93_unpack : forall E N dg, (forall code d, 0 <= code < 9 -> is_digest E code d (dg code d)) ->
  forall f, unpack_ndarray_from_bytes E N f =
  match reference_array E N dg f with
  | Raise e => Raise e
  | Ok (t, sh, fo, x) => Ok (nd_of fo t sh (n_base N) (x ++ skipn (length x) (mem_read (n_junk N) (n_base N) (zprod sh * dt_itemsize t))))
  end.
Proof. exact array_exact. Qed.
Print Assumptions C93_unpack.
Theorem C93_unpack_file : forall E N dg, (forall code d, 0 <= code < 9 -> is_digest E code d (dg code d)) ->
  forall p s, unpack_ndarray_from_file E N p s =
  (s, match s p with
      | None => Raise OSError
      | Some f => match reference_array E N dg f with
                  | Raise e => Raise e
                  | Ok (t, sh, fo, x) => Ok (nd_of fo t sh (n_base N) (x ++ skipn (length x) (mem_read (n_junk N) (n_base N) (zprod sh * dt_itemsize t))))
                  end
      end).
Proof. exact array_file_exact. Qed.
Print Assumptions C93_unpack_file.
(** Packing any array with any arguments does exactly what the second says, also
    what has been written when it raises. *)
Theorem C93_pack : forall E N dg, (forall code d, 0 <= code < 9 -> is_digest E code d (dg code d)) -> EnvOK E ->
  forall a cs oba obp oma, nd_ok a -> let r := pack_ndarray E N a (fp_sink E) cs oba obp oma (cfs_of (fp_of [])) in
  (fdata (s_fp (fst r)), snd r) = reference_pack_array E N dg a cs oba obp oma.
Proof. exact pack_array_exact. Qed.
Print Assumptions C93_pack.
Theorem C93_pack_bytes : forall E N dg, (forall code d, 0 <= code < 9 -> is_digest E code d (dg code d)) -> EnvOK E ->
  forall a cs oba obp oma, nd_ok a -> pack_ndarray_to_bytes E N a cs oba obp oma =
  match reference_pack_array E N dg a cs oba obp oma with (f, Ok _) => Ok f | (_, Raise e) => Raise e end.
Proof. exact pack_array_bytes_exact. Qed.
Print Assumptions C93_pack_bytes.
Theorem C93_pack_file : forall E N dg, (forall code d, 0 <= code < 9 -> is_digest E code d (dg code d)) -> EnvOK E ->
  forall a p cs oba obp oma s, nd_ok a -> p <> ""%string -> let r := pack_ndarray_to_file E N a p cs oba obp oma s in
  snd r = snd (reference_pack_array E N dg a cs oba obp oma) /\
  forall q, fst r q = if String.eqb q p then Some (fst (reference_pack_array E N dg a cs oba obp oma)) else s q.
Proof. exact pack_array_file_exact. Qed.
Print Assumptions C93_pack_file.

(** The specification itself, run. *)
Definition ref_array := reference_array toy_env ex_np2 ref_dg.
Definition ref_pack_array (a : ndarray) (c : Z) := reference_pack_array toy_env ex_np1 ref_dg a (CSInt c) None None None.
Definition size_and_fault {A} (r : bytes * res A) : Z * option exn := (size (fst r), match snd r with Ok _ => None | Raise e => Some e end).
Example C93_case_hyps : (forall code d, 0 <= code < 9 -> is_digest toy_env code d (ref_dg code d)) /\ EnvOK toy_env /\ nd_ok ex_view /\ nd_ok ex_fort /\ nd_ok ex_rec.
Proof. split; [apply the_digest_is|]. split; [exact toy_env_ok|]. repeat split; repeat constructor; cbn; discriminate. Qed.
(** A window with negative strides, a column-major array, records. *)
Example C93_case : map (fun a => ref_array (fst (ref_pack_array a 16))) [ex_view; ex_fort; ex_rec] =
  map (fun a => Ok (nd_dtype a, nd_shape a, isfortran a, array_bytes a)) [ex_view; ex_fort; ex_rec] /\
  map isfortran [ex_view; ex_fort; ex_rec] = [false; true; false] /\ array_bytes ex_view <> array_bytes ex_fort.
Proof. split; [vm_compute; reflexivity|]. split; [vm_compute; reflexivity|vm_compute; discriminate]. Qed.
Definition ex_items (d : string) : ndarray := mkND (toy_dtype (PStr (u d))) [6] [300] 1000 ex_mem.
(** Refused before anything is written, or when header and metadata are there. *)
Example C93_case_refused : map (fun '(d, c) => let r := size_and_fault (ref_pack_array (ex_items d) c) in (snd r, 32 <? fst r, 0 <? fst r))
  [("<i4", 6); ("|O8", 8); ("|S256", 256); ("|V0", 5); ("<i4", 0)]%string =
  [(Some ChunkSizeTypeSizeMismatch, true, true); (Some ObjectNumpyArrayRejection, false, false); (Some ValueError, false, false);
   (Some ZeroDivisionError, true, true); (Some ValueError, false, false)].
Proof. vm_compute. reflexivity. Qed.
(** Metadata that describe an array and metadata that do not: old descriptions,
    the wrong container, missing entries, bad shapes and orders, too little room. *)
Definition described (dt sh o c : list pyval) : pyval :=
  PDict (map (fun x => (u "dtype", x)) dt ++ map (fun x => (u "shape", x)) sh ++ map (fun x => (u "order", x)) o ++ map (fun x => (u "container", x)) c).
Definition stored (m : pyval) : bytes := match pack_bytes_to_bytes toy_env (repeat x41 12) (CSInt 8) m None None None with Ok f => f | _ => [] end.
Definition i4 : pyval := PStr (n_repr ex_np1 (PStr (u "<i4"))).
Definition numpy_c := [PStr (u "numpy")].
Example C93_case_described :
  map (fun m => match ref_array (stored m) with Ok (t, sh, fo, x) => Ok (dt_itemsize t, sh, fo, size x) | Raise e => Raise e end)
    [described [i4] [PInt 3] [PStr (u "f")] numpy_c;
     described [PList [PList [PStr (u "x"); PStr (u "<i4")]; PList [PStr (u "y"); PStr (u "<i2")]]] [PList [PInt 2; PInt 2]] [PNone] numpy_c;
     described [PList []] [PInt 3] [PStr (u "C")] numpy_c;
     described [i4] [PInt 2] [PStr (u "C")] numpy_c;
     described [i4] [PInt (-3)] [PStr (u "C")] numpy_c;
     described [i4] [PInt 3] [PStr (u "CF")] numpy_c;
     described [i4] [] [PStr (u "C")] numpy_c;
     described [i4] [PInt 3] [] numpy_c;
     described [] [PInt 3] [PStr (u "C")] numpy_c;
     described [i4] [PInt 3] [PStr (u "C")] [PStr (u "list")];
     described [i4] [PInt 3] [PStr (u "C")] [];
     PList [PInt 1]; PNone] =
  [Ok (4, [3], true, 12); Ok (6, [2; 2], false, 12); Raise IndexError; Raise MemoryFault; Raise ValueError; Raise ValueError; Raise KeyError; Raise KeyError;
   Raise KeyError; Raise NotANumpyArray; Raise KeyError; Raise TypeError; Raise NotANumpyArray].
Proof. vm_compute. reflexivity. Qed.
