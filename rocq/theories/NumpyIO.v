(** Model of bloscpack/numpy_io.py, and of as much of numpy as it uses. *)
From Verif Require Import Base Pretty PyVal Checksums Headers Args FileIO Files.

(* ------------------------------------------------------------------ *)
(** * Arrays *)

(** A dtype, as far as numpy_io.py looks at it: [dt_desc] is the value whose repr
    is stored (numpy_io.py:53-55: dtype.descr when it has fields, dtype.str
    otherwise). *)
Record dtype := mkDT { dt_desc : pyval; dt_itemsize : Z; dt_hasobject : bool }.

(** An ndarray: the memory it lives in (a byte at every address), the address of
    its element 0, and its shape and strides. *)
Definition mem := Z -> byte.
Record ndarray := mkND {
  nd_dtype : dtype; nd_shape : list Z; nd_strides : list Z; nd_ptr : Z; nd_mem : mem }.

Definition mem_read (m : mem) (addr len : Z) : bytes :=
  map (fun k => m (addr + Z.of_nat k)) (seq 0 (Z.to_nat len)).

Fixpoint zprod (l : list Z) : Z := match l with [] => 1 | x :: r => x * zprod r end.
(** ndarray.size, ndarray.itemsize. *)
Definition nd_size (a : ndarray) : Z := zprod (nd_shape a).
Definition nd_itemsize (a : ndarray) : Z := dt_itemsize (nd_dtype a).

(** numpy's address computation: base + sum of index * stride. *)
Fixpoint dot (idx strides : list Z) : Z :=
  match idx, strides with i :: r, s :: q => i * s + dot r q | _, _ => 0 end.
Definition nd_addr (a : ndarray) (idx : list Z) : Z := nd_ptr a + dot idx (nd_strides a).
(** The bytes of the element at an index. *)
Definition nd_elem (a : ndarray) (idx : list Z) : bytes :=
  mem_read (nd_mem a) (nd_addr a idx) (nd_itemsize a).

(** numpy's contiguity flags (numpy/core/src/multiarray/flagsobject.c,
    _UpdateContiguousFlags, relaxed strides): an array without elements has
    both; otherwise dimensions of extent 1 are ignored and the strides of the
    others must be the products of the extents to the right (C) or to the left
    (Fortran). *)
Fixpoint c_strides_ok (item : Z) (shape strides : list Z) : bool :=
  match shape, strides with
  | [], _ => true
  | d :: ds, s :: ss => c_strides_ok item ds ss && ((d =? 1) || (s =? item * zprod ds))
  | _ :: _, [] => false
  end.
Fixpoint f_strides_ok (sd : Z) (shape strides : list Z) : bool :=
  match shape, strides with
  | [], _ => true
  | d :: ds, s :: ss => ((d =? 1) || (s =? sd)) && f_strides_ok (sd * d) ds ss
  | _ :: _, [] => false
  end.
Definition has_zero (shape : list Z) : bool := existsb (fun d => d =? 0) shape.
Definition c_contiguous (a : ndarray) : bool :=
  has_zero (nd_shape a) || c_strides_ok (nd_itemsize a) (nd_shape a) (nd_strides a).
Definition f_contiguous (a : ndarray) : bool :=
  has_zero (nd_shape a) || f_strides_ok (nd_itemsize a) (nd_shape a) (nd_strides a).
(** numpy.isfortran: a.flags.fnc. *)
Definition isfortran (a : ndarray) : bool := f_contiguous a && negb (c_contiguous a).

(** Fresh arrays: strides of a new array in C or Fortran order. *)
Fixpoint c_strides (item : Z) (shape : list Z) : list Z :=
  match shape with [] => [] | _ :: ds => item * zprod ds :: c_strides item ds end.
Fixpoint f_strides (sd : Z) (shape : list Z) : list Z :=
  match shape with [] => [] | d :: ds => sd :: f_strides (sd * d) ds end.
(** An array on a buffer of its own, placed at address [base]. *)
Definition nd_of (fortran : bool) (t : dtype) (shape : list Z) (base : Z) (buf : bytes) : ndarray :=
  mkND t shape
       (if fortran then f_strides (dt_itemsize t) shape else c_strides (dt_itemsize t) shape)
       base (fun p => nth (Z.to_nat (p - base)) buf x00).

(** All indices in row-major order (last index fastest). *)
Definition zseq (n : Z) : list Z := map Z.of_nat (seq 0 (Z.to_nat n)).
Fixpoint indices (shape : list Z) : list (list Z) :=
  match shape with
  | [] => [[]]
  | d :: ds => flat_map (fun i => map (cons i) (indices ds)) (zseq d)
  end.
(** numpy.ascontiguousarray of an array that is not C contiguous: a copy of its
    elements, in row-major order, at an address chosen by the allocator. *)
Definition ascontiguousarray (base : Z) (a : ndarray) : ndarray :=
  nd_of false (nd_dtype a) (nd_shape a) base (concat (map (nd_elem a) (indices (nd_shape a)))).
(** numpy.asfortranarray of an array that is not Fortran contiguous: likewise in
    column-major order (first index fastest). *)
Definition asfortranarray (base : Z) (a : ndarray) : ndarray :=
  nd_of true (nd_dtype a) (nd_shape a) base
        (concat (map (fun i => nd_elem a (rev i)) (indices (rev (nd_shape a))))).

(* ------------------------------------------------------------------ *)
(** * The Python and numpy functions applied to descriptions *)

Record NpEnv := mkNpEnv {
  (** repr(descr) (numpy_io.py:53-55) *)
  n_repr : pyval -> pystr;
  (** ast.literal_eval (numpy_io.py:136): [Ok None] when it raises ValueError or
      SyntaxError, [Raise] when it raises anything else *)
  n_literal : pyval -> res (option pyval);
  (** numpy.dtype(x) (numpy_io.py:140) *)
  n_dtype : pyval -> res dtype;
  (** where the allocator puts new arrays, and what it leaves in them *)
  n_base : Z;
  n_junk : mem }.

Section WithEnv.
Variable E : Env.
Variable N : NpEnv.

(** _ndarray_meta (numpy_io.py:44-59). *)
Definition ndarray_meta (a : ndarray) : pyval :=
  PDict [ (u "dtype", PStr (n_repr N (dt_desc (nd_dtype a))));
          (u "shape", PTuple (map PInt (nd_shape a)));
          (u "order", PStr (if isfortran a then u "F" else u "C"));
          (u "container", PStr (u "numpy")) ].

(** PlainNumpySource.__init__ (numpy_io.py:64-78): the array whose memory will be
    read. *)
Definition source_array (a : ndarray) : ndarray :=
  if isfortran a && negb (f_contiguous a) then asfortranarray (n_base N) a
  else if negb (isfortran a) && negb (c_contiguous a) then ascontiguousarray (n_base N) a
  else a.

(** int(x / y) (numpy_io.py:90,95) for ints x >= 0 and y > 0: the binary64 nearest to
    the quotient, cut off. *)
Definition int_quotient (x y : Z) : Z := let '(m, e) := b64_of x y in shl_num m e / shl_den 1 e.
(** PlainNumpySource.__iter__ (numpy_io.py:84-95): addresses and numbers of items. *)
Fixpoint np_steps (c l it : Z) (k : nat) (offset : Z) : list (SM unit (Z * Z)) :=
  match k with
  | O => [ret (offset, int_quotient l it)]
  | S k' => ret (offset, int_quotient c it) :: np_steps c l it k' (offset + c)
  end.
(** _compress_chunk_ptr (numpy_io.py:39-41): blosc.compress_ptr compresses
    [items * typesize] bytes at the address. *)
Definition compress_chunk_ptr (m : mem) (ba : bargs) (chunk : Z * Z) : res bytes :=
  e_compress E ba (mem_read m (fst chunk) (snd chunk * ba_typesize ba)).
Definition np_source (b : ndarray) : plain_source unit (Z * Z) :=
  mkPS unit (Z * Z)
    (fun n c l =>
       if nd_itemsize b =? 0 then [raise ZeroDivisionError]
       else if negb (c mod nd_itemsize b =? 0) then [raise ChunkSizeTypeSizeMismatch]
       else np_steps c l (nd_itemsize b) (Z.to_nat (n - 1)) (nd_ptr b))
    (compress_chunk_ptr (nd_mem b)).

(** pack_ndarray (numpy_io.py:150-192).  The typesize of the caller's argument
    object is overwritten. *)
Definition np_bargs (a : ndarray) (oba : option bargs) : bargs :=
  let b := match oba with Some x => x | None => default_bargs end in
  mkBA (nd_itemsize a) (ba_clevel b) (ba_shuffle b) (ba_cname b).
Definition pack_ndarray {Snk} (a : ndarray) (snk : compressed_sink Snk) (cs : csarg)
    (oba : option bargs) (obp : option bpargs) (oma : option margs) : SM Snk (option margs) :=
  fun k =>
    if dt_hasobject (nd_dtype a) then (k, Raise ObjectNumpyArrayRejection) else
    match calculate_nchunks (nd_size a * nd_itemsize a) cs with
    | Raise e => (k, Raise e)
    | Ok (n, c, l) =>
        let '((_, k'), r) := pack (np_source (source_array a)) snk n c l (ndarray_meta a)
                                  (Some (np_bargs a oba)) obp oma (tt, k) in (k', r)
    end.
(** pack_ndarray_to_bytes (numpy_io.py:239-277). *)
Definition pack_ndarray_to_bytes (a : ndarray) (cs : csarg)
    (oba : option bargs) (obp : option bpargs) (oma : option margs) : res bytes :=
  let '(k, r) := pack_ndarray a (fp_sink E) cs oba obp oma (cfs_of (fp_of [])) in
  _ <~ r ;; Ok (fdata (s_fp k)).
(** pack_ndarray_to_file (numpy_io.py:198-230). *)
Definition pack_ndarray_to_file (a : ndarray) (p : path) (cs : csarg)
    (oba : option bargs) (obp : option bpargs) (oma : option margs) : SM fs (option margs) :=
  open_wb p ;;;
  (fun s => let '(k, r) := pack_ndarray a (fp_sink E) cs oba obp oma (cfs_of (fp_of [])) in
            (fs_set s p (fdata (s_fp k)), r)).

(* ------------------------------------------------------------------ *)
(** * Unpacking *)

(** _conv (numpy_io.py:98-117). *)
Definition is_list (v : pyval) : bool := match v with PList _ => true | _ => false end.
Fixpoint conv (d : pyval) : res pyval :=
  match d with
  | PList l =>
      match l with
      | [] => Raise IndexError
      | x :: _ =>
          r <~ (fix go (l : list pyval) : res (list pyval) :=
                  match l with
                  | [] => Ok []
                  | y :: q => y' <~ conv y ;; q' <~ go q ;; Ok (y' :: q')
                  end) l ;;
          Ok (if is_list x then PList r else PTuple r)
      end
  | _ => Ok d
  end.

(** [m[key]] *)
Definition getitem (m : pyval) (key : pystr) : res pyval :=
  match m with
  | PDict d => match dget key d with Some v => Ok v | None => Raise KeyError end
  | _ => Raise TypeError
  end.
(** The shape and order arguments of numpy.empty.  (Simplification: a refused
    argument is a ValueError, and memory never runs out.) *)
Fixpoint shape_list (l : list pyval) : res (list Z) :=
  match l with
  | [] => Ok []
  | PInt z :: r => if z <? 0 then Raise ValueError else q <~ shape_list r ;; Ok (z :: q)
  | _ :: _ => Raise ValueError
  end.
Definition shape_arg (v : pyval) : res (list Z) :=
  match v with
  | PList l | PTuple l => shape_list l
  | PInt z => if z <? 0 then Raise ValueError else Ok [z]
  | _ => Raise ValueError
  end.
Definition order_arg (v : pyval) : res bool :=
  match v with
  | PNone => Ok false
  | PStr s =>
      if existsb (zs_eqb s) [u "C"; u "c"; u "A"; u "a"; u "K"; u "k"] then Ok false
      else if existsb (zs_eqb s) [u "F"; u "f"] then Ok true
      else Raise ValueError
  | _ => Raise ValueError
  end.

(** PlainNumpySink (numpy_io.py:120-147): dtype, shape and order of the array just
    allocated, its buffer, and how far into the buffer [self.ptr] points. *)
Record nps := mkNPS {
  ns_dtype : dtype; ns_shape : list Z; ns_fortran : bool; ns_buf : bytes; ns_pos : Z }.
(** __init__ (numpy_io.py:122-142). *)
Definition nps_new (m : pyval) : res nps :=
  if is_none m then Raise NotANumpyArray else
  ct <~ getitem m (u "container") ;;
  if negb (match ct with PStr s => zs_eqb s (u "numpy") | _ => false end) then Raise NotANumpyArray else
  dv <~ getitem m (u "dtype") ;;
  lit <~ n_literal N dv ;;
  d <~ match lit with Some x => Ok x | None => conv dv end ;;
  sv <~ getitem m (u "shape") ;;
  t <~ n_dtype N d ;;
  ov <~ getitem m (u "order") ;;
  shape <~ shape_arg sv ;;
  fo <~ order_arg ov ;;
  Ok (mkNPS t shape fo (mem_read (n_junk N) (n_base N) (zprod shape * dt_itemsize t)) 0).
(** put (numpy_io.py:144-147): blosc.decompress_ptr writes at the address whatever
    the compressed buffer expands to.  Writing past the end of the array's own
    buffer is undefined behaviour; the model raises MemoryFault. *)
Definition nps_put (compressed : bytes) : SM nps Z :=
  fun s =>
    match e_decompress E compressed with
    | Raise e => (s, Raise e)
    | Ok d =>
        if ns_pos s + zlen d <=? zlen (ns_buf s)
        then (mkNPS (ns_dtype s) (ns_shape s) (ns_fortran s)
                    (ztake (ns_pos s) (ns_buf s) ++ d ++ zdrop (ns_pos s + zlen d) (ns_buf s))
                    (ns_pos s + zlen d), Ok (zlen d))
        else (s, Raise MemoryFault)
    end.
Definition nps_array (s : nps) : ndarray :=
  nd_of (ns_fortran s) (ns_dtype s) (ns_shape s) (n_base N) (ns_buf s).

(** unpack_ndarray (numpy_io.py:286-307) from a CompressedFPSource just opened. *)
Definition unpack_ndarray_from_bytes (b : bytes) : res ndarray :=
  match read_beginning E (fp_of b) with
  | (_, Raise e) => Raise e
  | (f, Ok bg) =>
      s <~ nps_new (b_meta bg) ;;
      let '((_, s'), r) :=
        unpack_loop E (fp_next E (h_checksum (b_header bg))) (h_checksum (b_header bg)) nps_put
                    (Z.to_nat (h_nchunks (b_header bg))) (f, s) in
      _ <~ r ;; Ok (nps_array s')
  end.
(** unpack_ndarray_from_file (numpy_io.py:310-329). *)
Definition unpack_ndarray_from_file (p : path) : SM fs ndarray :=
  d <- open_rb p ;; lift (unpack_ndarray_from_bytes d).

End WithEnv.
