(** Vocabulary for header arguments of any type: what is demanded of each argument, in
    which order, and with which exception a violation ends. *)
From Verif Require Import Base Checksums Headers Dynamic Objects Spec.

(** True and False are ints. *)
Inductive is_int : dyn -> Z -> Prop :=
| int_int z : is_int (DInt z) z
| int_bool b : is_int (DBool b) (Z.b2z b).

Inductive demand :=
| Whole (lo hi : Z)                        (* an int in this range *)
| OneOf (names : list string) (e : exn)    (* one of these strings, or else [e] *)
| Octets (n : Z)                           (* at most n bytes *)
| EightBits.                               (* a string of eight zeros and ones *)
Definition zero_or_one (c : ascii) : Prop := c = "0"%char \/ c = "1"%char.
Definition meets (d : demand) (v : dyn) : Prop :=
  match d with
  | Whole lo hi => exists z, is_int v z /\ lo <= z <= hi
  | OneOf names _ => exists s, In s names /\ v = DStr (list_ascii_of_string s)
  | Octets n => exists b, v = DBytes b /\ size b <= n
  | EightBits => exists s, v = DStr s /\ List.length s = 8%nat /\ Forall zero_or_one s
  end.
(** The type of the value is complained about.  For a name it is not, except that the
    message can not be formatted if the value is a tuple of another length than 1. *)
Definition wrong_type (d : demand) (v : dyn) : Prop :=
  match d with
  | Whole _ _ => ~ exists z, is_int v z
  | OneOf _ _ => exists n, v = DTuple n /\ n <> 1%nat
  | Octets _ => ~ exists b, v = DBytes b
  | EightBits => ~ exists s, v = DStr s
  end.
Definition wrong_value (d : demand) : exn := match d with OneOf _ e => e | _ => ValueError end.
Definition offends (d : demand) (v : dyn) (e : exn) : Prop :=
  ~ meets d v /\ (wrong_type d v /\ e = TypeError \/ ~ wrong_type d v /\ e = wrong_value d).

Definition value (kw : list (string * dyn)) (k : string) (default : dyn) : dyn :=
  match find (fun kv => String.eqb k (fst kv)) kw with Some (_, v) => v | None => default end.
Definition signature := list (string * dyn * demand).
Definition all_meet (ds : signature) (kw : list (string * dyn)) : Prop :=
  Forall (fun x => meets (snd x) (value kw (fst (fst x)) (snd (fst x)))) ds.
(** The first argument (in the order of the signature) that does not meet its demand,
    and the exception for it. *)
Definition first_offence (ds : signature) (kw : list (string * dyn)) (e : exn) : Prop :=
  exists pre x post, ds = pre ++ x :: post /\ all_meet pre kw /\ offends (snd x) (value kw (fst (fst x)) (snd (fst x))) e.
Definition known (names : list string) (kw : list (string * dyn)) : Prop := Forall (fun kv => In (fst kv) names) kw.

Definition header_signature : signature :=
  [("format_version", DInt 3, Whole 0 255);
   ("checksum", DStr (list_ascii_of_string "None"), OneOf checksum_names NoSuchChecksum);
   ("typesize", DInt 0, Whole 0 255);
   ("chunk_size", DInt (-1), Whole (-1) (2 ^ 31 - 1 - 16));
   ("last_chunk", DInt (-1), Whole (-1) (2 ^ 31 - 1 - 16));
   ("nchunks", DInt (-1), Whole (-1) (2 ^ 63 - 1));
   ("max_app_chunks", DInt 0, Whole 0 (2 ^ 63 - 1))]%string.
(** What the numbers must satisfy together. *)
Definition consistent (kw : list (string * dyn)) : Prop :=
  forall cs lc n m,
    is_int (value kw "chunk_size" (DInt (-1))) cs -> is_int (value kw "last_chunk" (DInt (-1))) lc ->
    is_int (value kw "nchunks" (DInt (-1))) n -> is_int (value kw "max_app_chunks" (DInt 0)) m ->
    (n = -1 -> m = 0) /\ (n <> -1 -> n + m <= 2 ^ 63 - 1) /\ (cs <> -1 -> lc <> -1 -> lc <= cs).
Definition metadata_signature : signature :=
  [("magic_format", DBytes [], Octets 8);
   ("meta_options", DStr (list_ascii_of_string "00000000"), EightBits);
   ("meta_checksum", DStr (list_ascii_of_string "None"), OneOf checksum_names NoSuchChecksum);
   ("meta_codec", DStr (list_ascii_of_string "None"), OneOf ["None"; "zlib"] NoSuchCodec);
   ("meta_level", DInt 0, Whole 0 9);
   ("meta_size", DInt 0, Whole 0 (2 ^ 32 - 1));
   ("max_meta_size", DInt 0, Whole 0 (2 ^ 32 - 1));
   ("meta_comp_size", DInt 0, Whole 0 (2 ^ 32 - 1));
   ("user_codec", DBytes [], Octets 8)]%string.

(** The header with these flags and otherwise the numbers given. *)
Definition number (v : dyn) : Z := match v with DInt z => z | DBool b => Z.b2z b | _ => 0 end.
Definition typed_header (h : dheader) (c : cks) (o m : bool) : header :=
  mkH (number (d_version h)) o m c (number (d_typesize h)) (number (d_chunk_size h)) (number (d_last_chunk h))
      (number (d_nchunks h)) (number (d_max_app h)).

(** [binary t z]: the text t consists of zeros and ones and is z in base 2. *)
Inductive binary : list ascii -> Z -> Prop :=
| binary_nil : binary [] 0
| binary_0 t z : binary t z -> binary (t ++ ["0"%char]) (2 * z)
| binary_1 t z : binary t z -> binary (t ++ ["1"%char]) (2 * z + 1).

(** f with the byte at position p replaced. *)
Definition with_byte (p : Z) (x : byte) (f : bytes) : bytes := sub 0 p f ++ [x] ++ sub (p + 1) (size f - p - 1) f.
