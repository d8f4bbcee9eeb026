(** Model of bloscpack/args.py and defaults.py. *)
From Verif Require Import Base Checksums Headers Pretty.

(** The 'chunk_size' argument as a user may pass it: an int, a size string, or
    something of another type. *)
Inductive csarg := CSInt (z : Z) | CSStr (s : string) | CSOther.

(** The 'max_app_chunks' argument: an int, a callable (which returns an int,
    returns something else, [Ok None], or raises an exception), or something else.
    Simplification: callables have no side effects. *)
Inductive macarg := MAInt (z : Z) | MACall (f : Z -> res (option Z)) | MAOther.

(** The 'max_meta_size' argument: an int, a callable that returns an int or
    raises an exception, or something else.  (What returns None or a text raises a
    TypeError at args.py:431.) *)
Inductive mmarg := MMInt (z : Z) | MMCall (f : Z -> res Z) | MMOther.

(** __check_args (args.py:129-148) on the key set received; the three public
    wrappers are args.py:63-126. *)
Definition mem_str (k : string) (l : list string) : bool := existsb (String.eqb k) l.
Definition check_args (received expected : list string) : res unit :=
  if negb (forallb (fun k => mem_str k received) expected) then Raise ValueError
  else if negb (forallb (fun k => mem_str k expected) received) then Raise ValueError
  else Ok tt.
Definition BLOSCPACK_ARGS := ["offsets"; "checksum"; "max_app_chunks"]%string.
Definition BLOSC_ARGS := ["typesize"; "clevel"; "shuffle"; "cname"]%string.
Definition METADATA_ARGS :=
  ["magic_format"; "meta_checksum"; "meta_codec"; "meta_level"; "max_meta_size"]%string.
Definition check_blosc_args (keys : list string) := check_args keys BLOSC_ARGS.
Definition check_bloscpack_args (keys : list string) := check_args keys BLOSCPACK_ARGS.
Definition check_metadata_arguments (keys : list string) := check_args keys METADATA_ARGS.

(** calculate_nchunks (args.py:151-216): (nchunks, chunk_size, last_chunk). *)
Definition calculate_nchunks (size : Z) (cs : csarg) : res (Z * Z * Z) :=
  if size <? 0 then Raise ValueError
  else if size =? 0 then Ok (1, 0, 0)
  else
    cs <~ match cs with
          | CSInt z => Ok z
          | CSStr s => reverse_pretty s
          | CSOther => Raise TypeError
          end ;;
    _ <~ check_range cs 1 BLOSC_MAX_BUFFERSIZE ;;
    let cs := if size <? cs then size else cs in
    let q := size / cs in
    let r := size mod cs in
    let '(n, cs', last) :=
      if cs =? size then (1, size, size)
      else if r =? 0 then (q, cs, cs)
      else (q + 1, cs, r) in
    if MAX_CHUNKS <? n then Raise ChunkingException else Ok (n, cs', last).

(** _handle_max_apps (args.py:219-293). *)
Definition handle_max_apps (offsets : bool) (nchunks : Z) (m : macarg) : res Z :=
  _ <~ check_range nchunks (-1) MAX_CHUNKS ;;
  if offsets && negb (nchunks =? -1) then
    v <~ match m with
         | MACall f => match f nchunks with
                       | Raise e => Raise e
                       | Ok None => Raise ValueError
                       | Ok (Some v) => if v <? 0 then Raise ValueError else Ok v
                       end
         | MAInt v => _ <~ check_range v 0 MAX_CHUNKS ;; Ok v
         | MAOther => Raise TypeError
         end ;;
    Ok (if MAX_CHUNKS <? nchunks + v then MAX_CHUNKS - nchunks else v)
  else Ok 0.

(** BloscArgs (args.py:296-334); defaults.py:6-9. *)
Record bargs := mkBA { ba_typesize : Z; ba_clevel : Z; ba_shuffle : bool; ba_cname : string }.
Definition default_bargs := mkBA 8 7 true "blosclz".

(** BloscpackArgs (args.py:337-370): None stands for 'None'; defaults.py:12-14. *)
Record bpargs := mkBPA { bp_offsets : bool; bp_checksum : string; bp_max_app : macarg }.
Definition mk_bpargs (offsets : bool) (ck : option string) (m : macarg) : bpargs :=
  mkBPA offsets (match ck with None => "None"%string | Some s => s end) m.
Definition default_bpargs := mkBPA true "adler32" (MACall (fun x => Ok (Some (10 * x)))).

(** MetadataArgs (args.py:373-440); defaults.py:19-23. *)
Record margs := mkMA {
  ma_magic : bytes; ma_checksum : string; ma_codec : string; ma_level : Z; ma_max : mmarg }.
Definition default_margs :=
  mkMA (b_of_string "JSON") "adler32" "zlib" 6 (MMCall (fun x => Ok (10 * x))).

(** should_compress (args.py:411-413). *)
Definition should_compress (a : margs) : bool := negb (String.eqb (ma_codec a) "None").
(** nullify_codec (args.py:415-416). *)
Definition nullify_codec (a : margs) : margs :=
  mkMA (ma_magic a) (ma_checksum a) "None" (ma_level a) (ma_max a).
(** effective_max_meta_size (args.py:426-432): no branch binds the local when
    the argument is neither callable nor int. *)
Definition effective_max_meta_size (a : margs) (meta_size : Z) : res Z :=
  match ma_max a with
  | MMCall f => f meta_size
  | MMInt z => Ok z
  | MMOther => Raise UnboundLocalError
  end.
