(** Model of bloscpack/abstract_objects.py and of the classes derived from it
    (headers.py:233-335, 403-456; args.py:296-440), seen as dictionaries and as
    printed text. *)
From Verif Require Import Base Checksums Headers Pretty Args.

(** Text as a list of characters. *)
Definition text := list ascii.
Definition t_ (s : string) : text := list_ascii_of_string s.
Definition nl : ascii := ascii_of_nat 10.

(** Values of attributes.  [OCall] is a callable, known by its repr. *)
Inductive oval :=
| ONone | OBool (b : bool) | OInt (z : Z) | OStr (s : text) | OBytes (b : bytes) | OCall (name : text).

(** An object: its class, the lists of attribute names it announces (properties
    'attributes' and 'bytes_attributes'), and its instance variables. *)
Record obj := mkObj {
  o_class : text; o_attrs : list string; o_bytes_attrs : list string; o_vars : list (string * oval) }.

Definition mem (k : string) (l : list string) : bool := existsb (String.eqb k) l.
(** getattr, setattr on instance variables. *)
Fixpoint getattr (k : string) (l : list (string * oval)) : res oval :=
  match l with
  | [] => Raise AttributeError
  | (k', v) :: r => if String.eqb k k' then Ok v else getattr k r
  end.
Fixpoint setattr (k : string) (v : oval) (l : list (string * oval)) : list (string * oval) :=
  match l with
  | [] => [(k, v)]
  | (k', v') :: r => if String.eqb k k' then (k', v) :: r else (k', v') :: setattr k v r
  end.

(** __getitem__ (abstract_objects.py:32-35). *)
Definition o_getitem (k : string) : SM obj oval :=
  fun o => (o, if mem k (o_attrs o) then getattr k (o_vars o) else Raise KeyError).
(** __setitem__ (abstract_objects.py:37-40). *)
Definition o_setitem (k : string) (v : oval) : SM obj unit :=
  fun o => if mem k (o_attrs o)
           then (mkObj (o_class o) (o_attrs o) (o_bytes_attrs o) (setattr k v (o_vars o)), Ok tt)
           else (o, Raise KeyError).
(** __delitem__ (abstract_objects.py:42-45). *)
Definition o_delitem (k : string) : SM obj unit := raise NotImplementedError.
(** __len__, __iter__ (abstract_objects.py:47-51). *)
Definition o_len (o : obj) : Z := zlen (o_attrs o).
Definition o_iter (o : obj) : list string := o_attrs o.

(** *** Inherited from collections.abc.Mapping and MutableMapping *)
Definition catch_KeyError {A} (m h : SM obj A) : SM obj A :=
  fun o => match m o with (o', Raise KeyError) => h o' | r => r end.
(** get(k, d) *)
Definition o_get (k : string) (d : oval) : SM obj oval := catch_KeyError (o_getitem k) (ret d).
(** k in self *)
Definition o_contains (k : string) : SM obj bool :=
  catch_KeyError (v <- o_getitem k ;; ret true) (ret false).
(** pop(k) and pop(k, d) *)
Definition o_pop (k : string) (d : option oval) : SM obj oval :=
  fun o => match o_getitem k o with
           | (o', Raise KeyError) => match d with None => (o', Raise KeyError) | Some x => (o', Ok x) end
           | (o', Raise e) => (o', Raise e)
           | (o', Ok v) => (o_delitem k ;;; ret v) o'
           end.
(** popitem() *)
Definition o_popitem : SM obj (string * oval) :=
  fun o => match o_iter o with
           | [] => (o, Raise KeyError)
           | k :: _ => (v <- o_getitem k ;; o_delitem k ;;; ret (k, v)) o
           end.
(** clear(): popitem() until KeyError.  popitem() of these classes never returns
    (deletion raises), so one round is all there is. *)
Definition o_clear : SM obj unit := catch_KeyError (p <- o_popitem ;; ret tt) (ret tt).
(** update(d) for a dictionary d, given by its items *)
Fixpoint o_update (l : list (string * oval)) : SM obj unit :=
  match l with
  | [] => ret tt
  | (k, v) :: r => o_setitem k v ;;; o_update r
  end.
(** setdefault(k, d) *)
Definition o_setdefault (k : string) (d : oval) : SM obj oval :=
  catch_KeyError (o_getitem k) (o_setitem k d ;;; ret d).
(** items() *)
Fixpoint o_items_of (ks : list string) : SM obj (list (string * oval)) :=
  match ks with
  | [] => ret []
  | k :: r => v <- o_getitem k ;; l <- o_items_of r ;; ret ((k, v) :: l)
  end.
Definition o_items : SM obj (list (string * oval)) := fun o => o_items_of (o_iter o) o.

(** ** repr of the values that occur *)
(** '%d' *)
Definition int_text (z : Z) : text := if z <? 0 then "-"%char :: dec_of (- z) else dec_of z.
Definition hex_digit (z : Z) : ascii :=
  nth (Z.to_nat z) (t_ "0123456789abcdef") "0"%char.
(** One character inside a repr with the given quote (CPython bytes_repr; for
    text, unicode_repr agrees on ASCII, which is all that occurs here). *)
Definition repr_char (q c : ascii) : text :=
  let n := Z.of_nat (nat_of_ascii c) in
  if Ascii.eqb c q || (n =? 92) then ["\"%char; c]
  else if n =? 9 then t_ "\t" else if n =? 10 then t_ "\n" else if n =? 13 then t_ "\r"
  else if (n <? 32) || (127 <=? n) then ["\"%char; "x"%char; hex_digit (n / 16); hex_digit (n mod 16)]
  else [c].
Definition squote : ascii := ascii_of_nat 39.
Definition dquote : ascii := ascii_of_nat 34.
Definition repr_quoted (s : text) : text :=
  let q := if existsb (Ascii.eqb squote) s && negb (existsb (Ascii.eqb dquote) s) then dquote else squote in
  q :: flat_map (repr_char q) s ++ [q].
Definition ascii_of_byte (b : byte) : ascii := ascii_of_N (Byte.to_N b).
Definition oval_repr (v : oval) : text :=
  match v with
  | ONone => t_ "None"
  | OBool true => t_ "True"
  | OBool false => t_ "False"
  | OInt z => int_text z
  | OStr s => repr_quoted s
  | OBytes b => "b"%char :: repr_quoted (map ascii_of_byte b)
  | OCall s => s
  end.

(** double_pretty_size (pretty.py:22-24); pretty_size of a negative number falls
    out of its loop and is None. *)
Definition double_pretty_size (z : Z) : text :=
  (if z <? 0 then t_ "None" else t_ (pretty_size z)) ++ t_ " (" ++ int_text z ++ t_ "B)".

Fixpoint join_text (sep : text) (l : list text) : text :=
  match l with
  | [] => []
  | [x] => x
  | x :: r => x ++ sep ++ join_text sep r
  end.

(** pformat (abstract_objects.py:60-66).  Only integers occur as values of
    bytes_attributes. *)
Definition pformat_value (bytes_attrs : list string) (k : string) (v : oval) : text :=
  if negb (mem k bytes_attrs) then oval_repr v
  else match v with
       | OInt z => if z =? -1 then oval_repr v else double_pretty_size z
       | _ => oval_repr v
       end.
Definition pformat (indent : nat) : SM obj text :=
  items <- o_items ;;
  (fun o =>
     let ind := repeat " "%char indent in
     (o, Ok (o_class o ++ t_ ":" ++ [nl] ++ ind ++
             join_text (nl :: ind)
               (map (fun kv => t_ (fst kv) ++ t_ ": " ++ pformat_value (o_bytes_attrs o) (fst kv) (snd kv)) items)))).

(** __repr__ (abstract_objects.py:56-58). *)
Definition o_repr : SM obj text :=
  items <- o_items ;;
  (fun o =>
     (o, Ok (o_class o ++ t_ "(" ++
             join_text (t_ ", ") (map (fun kv => t_ (fst kv) ++ t_ "=" ++ oval_repr (snd kv)) items) ++ t_ ")"))).

(** ** The classes *)
(** BloscpackHeader (headers.py:297-318). *)
Definition header_attrs : list string :=
  ["format_version"; "offsets"; "metadata"; "checksum"; "typesize"; "chunk_size"; "last_chunk"; "nchunks"; "max_app_chunks"]%string.
Definition header_obj (h : header) : obj :=
  mkObj (t_ "BloscpackHeader") header_attrs ["chunk_size"; "last_chunk"]%string
    (combine header_attrs
       [OInt (h_version h); OBool (h_offsets h); OBool (h_metadata h); OStr (t_ (cks_name (h_checksum h)));
        OInt (h_typesize h); OInt (h_chunk_size h); OInt (h_last_chunk h); OInt (h_nchunks h); OInt (h_max_app h)]).
(** MetadataHeader (headers.py:426-456). *)
Definition mheader_attrs : list string :=
  ["magic_format"; "meta_options"; "meta_checksum"; "meta_codec"; "meta_level"; "meta_size"; "max_meta_size"; "meta_comp_size"; "user_codec"]%string.
Definition mheader_obj (h : mheader) : obj :=
  mkObj (t_ "MetadataHeader") mheader_attrs ["meta_size"; "max_meta_size"; "meta_comp_size"]%string
    (combine mheader_attrs
       [OBytes (mh_magic h); OStr (t_ (mh_options h)); OStr (t_ (cks_name (mh_checksum h))); OStr (t_ (codec_name (mh_codec h)));
        OInt (mh_level h); OInt (mh_size h); OInt (mh_max h); OInt (mh_comp h); OBytes (mh_user h)]).
(** BloscArgs (args.py:296-334). *)
Definition bargs_attrs : list string := ["typesize"; "clevel"; "shuffle"; "cname"]%string.
Definition bargs_obj (a : bargs) : obj :=
  mkObj (t_ "BloscArgs") bargs_attrs []
    (combine bargs_attrs [OInt (ba_typesize a); OInt (ba_clevel a); OBool (ba_shuffle a); OStr (t_ (ba_cname a))]).
(** BloscpackArgs (args.py:338-370) and MetadataArgs (args.py:373-440); [nm] is the
    repr of a value that is not an integer (a function, say). *)
Definition bpargs_attrs : list string := ["offsets"; "checksum"; "max_app_chunks"]%string.
Definition bpargs_obj (nm : text) (a : bpargs) : obj :=
  mkObj (t_ "BloscpackArgs") bpargs_attrs []
    (combine bpargs_attrs [OBool (bp_offsets a); OStr (t_ (bp_checksum a)); match bp_max_app a with MAInt z => OInt z | _ => OCall nm end]).
Definition margs_attrs : list string := ["magic_format"; "meta_checksum"; "meta_codec"; "meta_level"; "max_meta_size"]%string.
Definition margs_obj (nm : text) (a : margs) : obj :=
  mkObj (t_ "MetadataArgs") margs_attrs []
    (combine margs_attrs [OBytes (ma_magic a); OStr (t_ (ma_checksum a)); OStr (t_ (ma_codec a)); OInt (ma_level a);
                          match ma_max a with MMInt z => OInt z | _ => OCall nm end]).
