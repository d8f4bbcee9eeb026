(** Specification for C97: what is said of the beginning of a file, from the places in it.
    Every message comes with the verbosity it takes to be printed: 1 is VERBOSE and 2
    is DEBUG.  Nothing here models /repo. *)
From Verif Require Import Base PyVal Checksums Pretty Args FileIO Objects Log ObjectsSpec Spec Archive FormatSpec ReadSpec ReviseSpec WriteSpec ChatSpec.

Definition heard (l : logst) (ms : list (Z * text)) : logst :=
  let r := match rank (l_level l) with Some r => r | None => -1 end in
  mkLog (l_level l) (l_prefix l) (l_out l ++ map (fun m => l_prefix l ++ t_ ": " ++ snd m) (filter (fun m => fst m <=? r) ms)).

(** NULs at both ends taken off *)
Fixpoint unled (x : bytes) : bytes := match x with c :: t => if Byte.eqb c x00 then unled t else x | [] => [] end.
Definition bare (x : bytes) : bytes := rev (unled (rev (unled x))).
(** eight binary digits *)
Definition digits8 (v : Z) : text := map (fun k => if Z.testbit v k then "1"%char else "0"%char) [7; 6; 5; 4; 3; 2; 1; 0].
Definition yes_no (b : bool) : text := if b then t_ "True" else t_ "False".
Definition in_quotes (s : text) : text := t_ "'" ++ s ++ t_ "'".
Fixpoint commas (l : list text) : text :=
  match l with [] => [] | [x] => x | x :: t => x ++ t_ ", " ++ commas t end.

Section Reference.
Variable E : Env.
(** the digest for each checksum code *)
Variable dg : Z -> bytes -> bytes.
Variable f : bytes.

Definition header_said : list (Z * text) :=
  (2, t_ "reading bloscpack header") ::
  (2, t_ "bloscpack_header_raw: " ++ oval_repr (OBytes (sub 0 32 f))) ::
  match header_fault f with
  | None | Some FormatVersionMismatch =>
      [(2, t_ "bloscpack header: BloscpackHeader(format_version=" ++ int_text (u8 4 f) ++
           t_ ", offsets=" ++ yes_no (has_offsets f) ++ t_ ", metadata=" ++ yes_no (has_meta f) ++
           t_ ", checksum=" ++ in_quotes (t_ (nth (Z.to_nat (u8 6 f)) checksum_names ""%string)) ++
           t_ ", typesize=" ++ int_text (u8 7 f) ++ t_ ", chunk_size=" ++ int_text (F_chunk f) ++
           t_ ", last_chunk=" ++ int_text (F_last f) ++ t_ ", nchunks=" ++ int_text (F_n f) ++
           t_ ", max_app_chunks=" ++ int_text (F_max f) ++ t_ ")")]
  | _ => []
  end.

Definition metadata_said : list (Z * text) :=
  let payload := sub 64 (u32 52 f) f in
  let p := 64 + size payload + (u32 48 f - u32 52 f) in
  let stored := sub (Z.max 0 p) (digest_len (u8 41 f)) f in
  (2, t_ "raw metadata header: " ++ oval_repr (OBytes (sub 32 32 f))) ::
  if (size f <? 64) || (9 <=? u8 41 f) || (2 <=? u8 42 f) || (9 <? u8 43 f) then []
  else
    map (pair 2)
     [t_ "MetadataHeader:";
      t_ "    magic_format: " ++ oval_repr (OBytes (bare (sub 32 8 f)));
      t_ "    meta_options: " ++ in_quotes (digits8 (u8 40 f));
      t_ "    meta_checksum: " ++ in_quotes (t_ (nth (Z.to_nat (u8 41 f)) checksum_names ""%string));
      t_ "    meta_codec: " ++ in_quotes (if u8 42 f =? 0 then t_ "None" else t_ "zlib");
      t_ "    meta_level: " ++ int_text (u8 43 f);
      t_ "    meta_size: " ++ double_pretty_size (u32 44 f);
      t_ "    max_meta_size: " ++ double_pretty_size (u32 48 f);
      t_ "    meta_comp_size: " ++ double_pretty_size (u32 52 f);
      t_ "    user_codec: " ++ oval_repr (OBytes (bare (sub 56 8 f)))] ++
    if (p <? 0) && negb (e_mem E) then []
    else if (0 <? u8 41 f) && negb (same stored (dg (u8 41 f) payload)) then []
    else
      (if 0 <? u8 41 f then [(2, t_ "metadata checksum OK " ++ named (u8 41 f) stored)] else []) ++
      match (if u8 42 f =? 0 then Ok payload else e_zdecompress E payload) with
      | Raise _ => []
      | Ok _ => [(1, t_ "read " ++ (if u8 42 f =? 0 then t_ "uncompressed" else t_ "compressed") ++
                     t_ " metadata of size: " ++ in_quotes (int_text (u32 52 f)))]
      end.

Definition offsets_said (q : Z) : list (Z * text) :=
  let left := Z.max 0 (size f - q) in
  let t := 8 * (F_n f + F_max f) in
  if negb (has_offsets f) || (F_n f <? 0) || ((2 ^ 63 <=? t) && (left <? t)) then []
  else
    (2, t_ "Read raw offsets: " ++ oval_repr (OBytes (sub q t f))) ::
    if left <? 8 * F_n f then []
    else [(2, t_ "Offsets: [" ++ commas (map (fun i => int_text (i64 (q + 8 * Z.of_nat i) f)) (seq 0 (Z.to_nat (F_n f)))) ++ t_ "]")].

Definition told_opening : list (Z * text) :=
  header_said ++
  match header_fault f with
  | Some _ => []
  | None => (if has_meta f then metadata_said else []) ++
            match metadata_part E dg f with Raise _ => [] | Ok (_, q) => offsets_said q end
  end.
End Reference.
