(** Specification for C98: what is said while a file is packed, from the arguments and from
    the bytes of the file.  Nothing here models /repo. *)
From Verif Require Import Base PyVal Checksums Pretty Args FileIO Append Objects Log ObjectsSpec Spec Archive FormatSpec ReadSpec ReviseSpec WriteSpec ChatSpec OpeningSpec.

Definition ints (l : list Z) : text := t_ "[" ++ commas (map int_text l) ++ t_ "]".
Definition quoted (s : string) : text := oval_repr (OStr (t_ s)).

Section Reference.
Variable E : Env.
(** the digest for each checksum code *)
Variable dg : Z -> bytes -> bytes.
(** the functions that are the maxima of the arguments *)
Variable nm_app nm_meta : text.

Definition args_said (m : pyval) (ba : bargs) (bp : bpargs) (oma : option margs) (ma : margs) : list text :=
  [t_ "BloscArgs:"; t_ "    typesize: " ++ int_text (ba_typesize ba); t_ "    clevel: " ++ int_text (ba_clevel ba);
   t_ "    shuffle: " ++ yes_no (ba_shuffle ba); t_ "    cname: " ++ quoted (ba_cname ba);
   t_ "BloscpackArgs:"; t_ "    offsets: " ++ yes_no (bp_offsets bp); t_ "    checksum: " ++ quoted (bp_checksum bp);
   t_ "    max_app_chunks: " ++ match bp_max_app bp with MAInt z => int_text z | _ => nm_app end] ++
  match m, oma with
  | PNone, None => []
  | PNone, Some _ => [t_ "metadata_args will be silently ignored"]
  | _, _ => [t_ "MetadataArgs:"; t_ "    magic_format: " ++ oval_repr (OBytes (ma_magic ma)); t_ "    meta_checksum: " ++ quoted (ma_checksum ma);
             t_ "    meta_codec: " ++ quoted (ma_codec ma); t_ "    meta_level: " ++ int_text (ma_level ma);
             t_ "    max_meta_size: " ++ match ma_max ma with MMInt z => int_text z | _ => nm_meta end]
  end.

(** The metadata: [co] is the code of the codec that is asked for. *)
Definition section_said (m : pyval) (a : margs) : list text :=
  let lvl := ma_level a in
  if negb (same (ma_magic a) (b_of_string "JSON")) then [] else
  match e_dumps E m, place (ma_codec a) codec_names with
  | Ok raw, Some co =>
      match packed_text E co lvl raw with
      | Raise _ => []
      | Ok (p, co') =>
          (if (0 <? co) && (co' =? 0)
           then match e_zcompress E raw lvl with
                | Ok z => [t_ "metadata compression requested, but it was not beneficial, deactivating (raw: " ++ in_quotes (int_text (size raw)) ++
                           t_ " vs. compressed: " ++ in_quotes (int_text (size z)) ++ t_ ") "]
                | Raise _ => []
                end
           else []) ++
          (t_ "Raw " ++ (if co' =? 0 then t_ "uncompressed" else t_ "compressed") ++ t_ " metadata of size " ++
           in_quotes (int_text (size p)) ++ t_ ": " ++ oval_repr (OBytes p)) ::
          match (match ma_max a with MMInt z => Ok z | MMCall g => g (size raw) | MMOther => Raise UnboundLocalError end) with
          | Raise _ => []
          | Ok mx => (t_ "max meta size is deemed to be: " ++ int_text mx) ::
          match place (ma_checksum a) checksum_names with
          | Some ck =>
              if (mx <? size p) || (lvl <? 0) || (9 <? lvl) || (2 ^ 32 <=? size raw) || (2 ^ 32 <=? mx) then []
              else
                let s := meta_section ck co' lvl mx raw p (dg ck p) in
                [t_ "raw_metadata_header: " ++ oval_repr (OBytes (sub 0 32 s));
                 t_ "metadata has " ++ int_text (mx - size p) ++ t_ " preallocated empty bytes"] ++
                (if ck =? 0 then [] else [t_ "metadata checksum " ++ named ck (dg ck p)]) ++
                [t_ "metadata section occupies a total of " ++ double_pretty_size (size s)]
          | None => []
          end end
      end
  | _, _ => []
  end.

(** The room for chunks to be appended *)
Definition room_said (off : bool) (a : macarg) (n : Z) : list text :=
  if negb off then
    (if match a with MAOther => String.eqb (string_of_list_ascii nm_app) "None" | _ => false end then [] else [t_ "max_app_chunks will be silently ignored"]) ++
    [t_ "max_app_chunks was set to: 0"]
  else
    match a with MAInt _ => [t_ "max_app_chunks is an int"] | MACall _ => [t_ "max_app_chunks is a callable"] | MAOther => [] end ++
    match reserve off a n, (match a with MAInt v => Ok (Some v) | MACall g => g n | MAOther => Ok None end) with
    | Ok r, Ok (Some v) => (if r <? v then [t_ "max_app_chunks was too large, setting to max value: " ++ int_text r] else []) ++ [t_ "max_app_chunks was set to: " ++ int_text r]
    | _, _ => []
    end.
(** Up to the chunks *)
Definition begin_said (n c l : Z) (m : pyval) (oba : option bargs) (obp : option bpargs) (oma : option margs) : list text :=
  let ba := match oba with Some a => a | None => mkBA 8 7 true "blosclz" end in
  let bp := match obp with Some a => a | None => mkBPA true "adler32" (MACall (fun n => Ok (Some (10 * n)))) end in
  let ma := match oma with Some a => a | None => mkMA (b_of_string "JSON") "adler32" "zlib" 6 (MMCall (fun n => Ok (10 * n))) end in
  let off := bp_offsets bp in
  let ts := ba_typesize ba in
  let meta := match m with PNone => false | _ => true end in
  args_said m ba bp oma ma ++ room_said off (bp_max_app bp) n ++
  match reserve off (bp_max_app bp) n, place (bp_checksum bp) checksum_names with
  | Ok r, Some ck =>
      if (ts <? 0) || (255 <? ts) then []
      else
        [t_ "BloscpackHeader:"; t_ "    format_version: 3"; t_ "    offsets: " ++ yes_no off; t_ "    metadata: " ++ yes_no meta;
         t_ "    checksum: " ++ quoted (bp_checksum bp); t_ "    typesize: " ++ int_text ts;
         t_ "    chunk_size: " ++ double_pretty_size c; t_ "    last_chunk: " ++ double_pretty_size l;
         t_ "    nchunks: " ++ int_text n; t_ "    max_app_chunks: " ++ int_text r;
         t_ "raw_bloscpack_header: " ++ oval_repr (OBytes (head off meta ck ts c l n r))] ++
        (if meta then section_said m ma else [])
  | _, _ => []
  end.
(** After them *)
Definition end_said (n c l : Z) (xs : list bytes) (m : pyval) (oba : option bargs) (obp : option bpargs) (oma : option margs) : list text :=
  let ba := match oba with Some a => a | None => mkBA 8 7 true "blosclz" end in
  let off := match obp with Some a => bp_offsets a | None => true end in
  match reference_begin E dg n c l m oba obp oma with
  | (f, Ok (ck, _, _)) =>
      let w := lay E dg ck ba xs f in
      let starts := snd (fst w) in
      if negb off || match snd w with Some _ => true | None => false end then []
      else (t_ "Writing " ++ in_quotes (int_text (Z.of_nat (List.length xs))) ++ t_ " offsets: " ++ in_quotes (ints starts)) ::
           if existsb (fun o => 2 ^ 63 <=? o) starts then []
           else [t_ "Raw offsets: " ++ oval_repr (OBytes (concat (map (le 8) starts)))]
  | _ => []
  end.
Definition told_pack (n c l : Z) (xs : list bytes) (m : pyval) (oba : option bargs) (obp : option bpargs) (oma : option margs) : list text :=
  begin_said n c l m oba obp oma ++ told_packing E dg size n c l (Ok xs) m oba obp oma ++ end_said n c l xs m oba obp oma.
End Reference.
