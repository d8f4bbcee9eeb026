(** Specification for C93: what reading any byte string as a numpy array and packing
    any numpy array come to.  The format is that of ReadSpec and WriteSpec; what is
    added here is the dictionary that describes the array.  Nothing here models
    /repo. *)
From Verif Require Import Base PyVal Args FileIO NumpyIO NumpySpec Spec Archive FormatSpec ReadSpec ReviseSpec WriteSpec.

(** A description out of JSON, where tuples have become lists: a list of lists
    stays a list, any other is a tuple. *)
Fixpoint tuples (v : pyval) : pyval :=
  match v with
  | PList ((PList _ :: _) as l) => PList (map tuples l)
  | PList l => PTuple (map tuples l)
  | _ => v
  end.
(** The extents: one number or several, none negative. *)
Definition extents (v : pyval) : option (list Z) :=
  match (match v with
         | PInt z => Some [z]
         | PList l | PTuple l =>
             if forallb (fun x => match x with PInt _ => true | _ => false end) l
             then Some (map (fun x => match x with PInt z => z | _ => 0 end) l) else None
         | _ => None
         end) with
  | Some l => if forallb (Z.leb 0) l then Some l else None
  | None => None
  end.
(** The order: does the first index run fastest? *)
Definition first_fastest (v : pyval) : option bool :=
  match v with
  | PNone => Some false
  | PStr [c] => if existsb (Z.eqb c) [70; 102] (* F f *) then Some true
                else if existsb (Z.eqb c) [67; 99; 65; 97; 75; 107] (* C c A a K k *) then Some false else None
  | _ => None
  end.

Section Reference.
Variable E : Env.
Variable N : NpEnv.
Variable dg : Z -> bytes -> bytes.

(** The array that the metadata describe, or why they describe none. *)
Definition array_kind (m : pyval) : res (dtype * list Z * bool) :=
  match m with
  | PNone => Raise NotANumpyArray
  | PDict d =>
      match dget (u "container") d with
      | None => Raise KeyError
      | Some (PStr s) =>
          if negb (if list_eq_dec Z.eq_dec s (u "numpy") then true else false) then Raise NotANumpyArray else
          match dget (u "dtype") d with
          | None => Raise KeyError
          | Some dv =>
              match n_literal N dv with
              | Raise e => Raise e
              | Ok lit =>
                  if match lit with None => has_empty_list dv | Some _ => false end then Raise IndexError else
                  match dget (u "shape") d, n_dtype N (match lit with Some x => x | None => tuples dv end), dget (u "order") d with
                  | None, _, _ => Raise KeyError
                  | _, Raise e, _ => Raise e
                  | _, _, None => Raise KeyError
                  | Some sv, Ok t, Some ov =>
                      match extents sv, first_fastest ov with
                      | Some sh, Some fo => Ok (t, sh, fo)
                      | _, _ => Raise ValueError
                      end
                  end
              end
          end
      | Some _ => Raise NotANumpyArray
      end
  | _ => Raise TypeError
  end.

(** Reading [f] as an array: its dtype, its shape, its order and the bytes that fill
    its memory from the start.  More bytes than the array has room for are not
    written down by any Python exception: [MemoryFault]. *)
Definition reference_array (f : bytes) : res (dtype * list Z * bool * bytes) :=
  match header_fault f with
  | Some e => Raise e
  | None =>
      match metadata_part E dg f with
      | Raise e => Raise e
      | Ok (m, q) =>
          match table_end f q with
          | Raise e => Raise e
          | Ok q' =>
              match array_kind m with
              | Raise e => Raise e
              | Ok (t, sh, fo) =>
                  let r := chunks_from E dg f (Z.to_nat (F_n f)) q' in
                  if Z.max 0 (fold_right Z.mul (dt_itemsize t) sh) <? size (fst r) then Raise MemoryFault
                  else match snd r with Some e => Raise e | None => Ok (t, sh, fo, fst r) end
              end
          end
      end
  end.

(** Packing the array [a]: the bytes of its elements under its description. *)
Definition reference_pack_array (a : ndarray) (cs : csarg) (oba : option bargs) (obp : option bpargs) (oma : option margs)
  : bytes * res (option margs) :=
  let it := dt_itemsize (nd_dtype a) in
  let b := array_bytes a in
  let ba := match oba with Some x => x | None => mkBA 8 7 true "blosclz" end in
  if dt_hasobject (nd_dtype a) then ([], Raise ObjectNumpyArrayRejection) else
  match chunking (size b) cs with
  | Raise e => ([], Raise e)
  | Ok (n, c, l) =>
      reference_write E dg n c l
        (if it =? 0 then Raise ZeroDivisionError
         else if negb (c mod it =? 0) then Raise ChunkSizeTypeSizeMismatch
         else Ok (pieces n c l b))
        (PDict [ (u "dtype", PStr (n_repr N (dt_desc (nd_dtype a))));
                 (u "shape", PTuple (map PInt (nd_shape a)));
                 (u "order", PStr (if isfortran a then u "F" else u "C"));
                 (u "container", PStr (u "numpy")) ])
        (Some (mkBA it (ba_clevel ba) (ba_shuffle ba) (ba_cname ba))) obp oma
  end.
End Reference.
