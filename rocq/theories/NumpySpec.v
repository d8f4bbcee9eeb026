(** What the numpy theorems say, apart from the model. *)
From Verif Require Import Base PyVal Args FileIO NumpyIO Json PyLit.

(** One index per dimension, each within its extent. *)
Definition in_bounds (shape idx : list Z) : Prop := Forall2 (fun i d => 0 <= i < d) idx shape.

(** What every ndarray satisfies. *)
Record nd_ok (a : ndarray) : Prop := mkNdOk {
  no_dims : List.length (nd_strides a) = List.length (nd_shape a);
  no_shape : Forall (fun d => 0 <= d) (nd_shape a);
  no_item : 0 <= nd_itemsize a }.

(** What is assumed of repr, ast.literal_eval and numpy.dtype for the dtype [t]
    of an array packed under [N] and unpacked under [N'] (possibly another
    process, with other addresses and other garbage in fresh memory): the stored
    text is read back, and numpy rebuilds the dtype from its own description. *)
Record NpOK (N N' : NpEnv) (t : dtype) : Prop := mkNpOK {
  np_literal : n_literal N' (PStr (n_repr N (dt_desc t))) = Ok (Some (dt_desc t));
  np_dtype : n_dtype N' (dt_desc t) = Ok t }.

(** The array [r] is [a]: same dtype and shape, same element at every index. *)
Definition same_array (a r : ndarray) : Prop :=
  nd_dtype r = nd_dtype a /\ nd_shape r = nd_shape a /\
  forall idx, in_bounds (nd_shape a) idx -> nd_elem r idx = nd_elem a idx.

(** Descriptions of structured dtypes as numpy gives them in dtype.descr: a
    non-empty list of tuples (name, format) or (name, format, shape), a format
    being a string or again such a list. *)
Definition shape_ok (v : pyval) : bool :=
  match v with
  | PInt _ => true
  | PTuple ((_ :: _) as l) => forallb (fun x => match x with PInt _ => true | _ => false end) l
  | _ => false
  end.
Fixpoint format_ok (v : pyval) : bool :=
  match v with
  | PStr _ => true
  | PList ((_ :: _) as l) =>
      forallb (fun f => match f with
                        | PTuple [PStr _; g] => format_ok g
                        | PTuple [PStr _; g; sh] => format_ok g && shape_ok sh
                        | _ => false
                        end) l
  | _ => false
  end.
Definition descr_ok (v : pyval) : bool := is_list v && format_ok v.

(** The elements of an array one after the other, last index fastest, or first
    index fastest when the array is laid out that way in memory and not the other
    way (numpy.isfortran). *)
Definition array_bytes (a : ndarray) : bytes :=
  if isfortran a then concat (map (fun idx => nd_elem a (rev idx)) (indices (rev (nd_shape a))))
  else concat (map (nd_elem a) (indices (nd_shape a))).

(** Metadata that declares an array: a dictionary with container "numpy". *)
Definition array_metadata (m : pyval) : bool :=
  match m with
  | PDict d => match dget (u "container") d with Some (PStr s) => zs_eqb s (u "numpy") | _ => false end
  | _ => false
  end.
(** The exception for other metadata: NotANumpyArray unless [metadata['container']]
    itself fails. *)
Definition not_array_error (m : pyval) : exn :=
  match m with
  | PNone => NotANumpyArray
  | PDict d => match dget (u "container") d with Some _ => NotANumpyArray | None => KeyError end
  | _ => TypeError
  end.

(** Metadata written for an array before version 0.7.2: the description itself
    instead of its repr. *)
Definition old_meta (a : ndarray) : pyval :=
  PDict [ (u "dtype", dt_desc (nd_dtype a));
          (u "shape", PTuple (map PInt (nd_shape a)));
          (u "order", PStr (if isfortran a then u "F" else u "C"));
          (u "container", PStr (u "numpy")) ].
(** What is assumed of such a description: it has the form above, literal_eval
    refuses its JSON image (a list is not a node or string; '<f8' is not Python),
    and numpy rebuilds the dtype from it. *)
Record OldOK (N' : NpEnv) (t : dtype) : Prop := mkOldOK {
  old_descr : format_ok (dt_desc t) = true;
  old_literal : n_literal N' (norm (dt_desc t)) = Ok None;
  old_dtype : n_dtype N' (dt_desc t) = Ok t }.

(** What numpy.empty takes as a shape and as an order. *)
Definition sizes (v : pyval) (l : list Z) : Prop :=
  ((exists z, v = PInt z /\ l = [z]) \/ v = PList (map PInt l) \/ v = PTuple (map PInt l)) /\ Forall (fun z => 0 <= z) l.
Definition order_is (v : pyval) (fortran : bool) : Prop :=
  In v (if fortran then [PStr (u "F"); PStr (u "f")]
        else [PNone; PStr (u "C"); PStr (u "c"); PStr (u "A"); PStr (u "a"); PStr (u "K"); PStr (u "k")]).
(** An empty list somewhere in nested lists. *)
Fixpoint has_empty_list (v : pyval) : bool :=
  match v with PList [] => true | PList l => existsb has_empty_list l | _ => false end.
