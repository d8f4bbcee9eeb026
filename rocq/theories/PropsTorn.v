(** C68: a metadata rewrite that was interrupted. *)
From Verif Require Import Base PyVal Checksums Headers Pretty Args FileIO Append Spec Json Toy MetaProofs Archive Overlap Torn TornProofs
  PropsPack PropsAppend.

(** ** C68: whatever part of the new metadata section has reached the disk, and in
    whatever order, the header, the offset table and the chunks are untouched and
    found where they were; unpacking gives the contents or, when it raises, nothing.
    The hypothesis on the word at 52 says that the (possibly half-written) size of
    the metadata does not reach past the end of the file. *)
Theorem C68_torn : forall E, EnvOK E -> forall f b m m' ov f' r g,
  archive E f b m -> rewrite_bytes E f m' ov = (f', r) -> mixture f f' g ->
  agree 0 32 f g /\ agree (F_table f) (size f - F_table f) f g /\
  F_table g = F_table f /\ F_body g = F_body f /\
  (64 + u32 52 g <= size g ->
   (exists e, unpack_core E g = ([], Raise e)) \/ (exists m'', unpack_core E g = (b, Ok m''))).
Proof. exact torn_rewrite. Qed.
Print Assumptions C68_torn.
(** It does not when the old and the new metadata together are not longer than the
    file. *)
Theorem C68_torn_room : forall E, EnvOK E -> forall f b m m' ov f' r g,
  archive E f b m -> rewrite_bytes E f m' ov = (f', r) -> mixture f f' g ->
  64 + u32 52 f + u32 52 f' <= size f ->
  (exists e, unpack_core E g = ([], Raise e)) \/ (exists m'', unpack_core E g = (b, Ok m'')).
Proof. exact torn_rewrite_room. Qed.
Print Assumptions C68_torn_room.
(** A crash after any number of the single-byte writes leaves such a file; after all
    of them, the new one. *)
Theorem C68_crash : forall E, EnvOK E -> forall f b m m' ov j,
  archive E f b m -> let g := crash j (rewrite_log E f m' ov) f in
  mixture f (fst (rewrite_bytes E f m' ov)) g /\
  ((List.length (rewrite_log E f m' ov) <= j)%nat -> g = fst (rewrite_bytes E f m' ov)).
Proof. exact crash_mixture. Qed.
Print Assumptions C68_crash.

(** Both outcomes occur: after 24 bytes the digest no longer fits, and then a second
    attempt at rewriting fails as well. *)
Definition ex_torn (j : nat) : bytes := crash j (rewrite_log toy_env ex_file ex_meta2 default_overrides) ex_file.
Example C68_case : archive toy_env ex_file ex_data (norm ex_meta) /\
  snd (rewrite_bytes toy_env ex_file ex_meta2 default_overrides) = Ok tt /\
  64 + u32 52 (ex_torn 24) <= size (ex_torn 24) /\ ex_torn 24 <> ex_file /\ ex_torn 24 <> fst (rewrite_bytes toy_env ex_file ex_meta2 default_overrides) /\
  unpack_core toy_env (ex_torn 24) = ([], Raise ChecksumMismatch) /\
  rewrite_bytes toy_env (ex_torn 24) ex_meta2 default_overrides = (ex_torn 24, Raise ChecksumMismatch) /\
  unpack_core toy_env (ex_torn 1000) = (ex_data, Ok (norm ex_meta2)).
Proof.
  split; [exact ex_file_archive|]. split; [vm_compute; reflexivity|]. split; [vm_compute; discriminate|].
  split; [intros X; apply (f_equal (fun x => sub 50 10 x)) in X; vm_compute in X; discriminate|].
  split; [intros X; apply (f_equal (fun x => sub 50 200 x)) in X; vm_compute in X; discriminate|].
  split; [vm_compute; reflexivity|]. split; vm_compute; reflexivity.
Qed.

Example C68_case_room : 64 + u32 52 ex_file + u32 52 (fst (rewrite_bytes toy_env ex_file ex_meta2 default_overrides)) <= size ex_file.
Proof. vm_compute. discriminate. Qed.

(** Without a checksum on the metadata, unpacking may return metadata that is
    neither the old nor the new. *)
Definition ex_m11 : pyval := PDict [(u "a", PInt 11)].
Definition ex_m22 : pyval := PDict [(u "a", PInt 22)].
Definition ex_m21 : pyval := PDict [(u "a", PInt 21)].
Definition ex_plain : bytes :=
  match pack_bytes_to_bytes toy_env ex_data (CSInt 20) ex_m11 None (Some ex_bp) (Some (mkMA (b_of_string "JSON") "None" "None" 6 (MMInt 40))) with Ok f => f | Raise _ => [] end.
Theorem C68_metadata_mix : exists E f b m m' ov j m'',
  EnvOK E /\ archive E f b m /\ m' <> PNone /\ snd (rewrite_bytes E f m' ov) = Ok tt /\
  unpack_bytes_from_bytes E (crash j (rewrite_log E f m' ov) f) = Ok (b, m'') /\ m'' <> m /\ m'' <> norm m'.
Proof.
  exists toy_env, ex_plain, ex_data, (norm ex_m11), ex_m22, (mkOv None None None None), 38%nat, ex_m21.
  split; [exact toy_env_ok|]. split.
  { apply (ar_pack toy_env ex_data (CSInt 20) ex_m11 None (Some ex_bp) (Some (mkMA (b_of_string "JSON") "None" "None" 6 (MMInt 40)))). vm_compute. reflexivity. }
  split; [discriminate|]. split; [vm_compute; reflexivity|]. split; [vm_compute; reflexivity|]. split; discriminate.
Qed.
Print Assumptions C68_metadata_mix.

(** ** C29, when an override names nothing: the first of serializer, checksum,
    digest size, codec and level that is wrong decides, and nothing is written. *)
Theorem C29_bad_overrides : forall E, EnvOK E -> forall f b m m' ov,
  archive E f b m -> has_meta f = true -> pyeq m m' = false -> ~ overrides_ok ov ->
  exists e, rewrite_bytes E f m' ov = (f, Raise e) /\
  (if match ov_magic ov with Some x => negb (bytes_eqb x (b_of_string "JSON")) | None => false end then e = NoSuchSerializer
   else if match ov_checksum ov with Some x => negb (existsb (String.eqb x) checksum_names) | None => false end then e = NoSuchChecksum
   else if negb (digest_len_of (ma_checksum (rewrite_args f ov)) =? digest_len (u8 41 f)) then e = ChecksumLengthMismatch
   else if match ov_codec ov with Some x => negb (existsb (String.eqb x) codec_names) | None => false end then e = NoSuchCodec
   else e = ValueError).
Proof. exact rewrite_refuses. Qed.
Print Assumptions C29_bad_overrides.
Example C29_bad_case : has_meta ex_file = true /\ pyeq (norm ex_meta) ex_meta2 = false /\
  ~ overrides_ok (mkOv None None (Some "bzip2"%string) (Some 10)) /\ ~ overrides_ok (mkOv (Some (b_of_string "YAML")) None None None) /\
  map (fun ov => snd (rewrite_bytes toy_env ex_file ex_meta2 ov))
    [mkOv (Some (b_of_string "YAML")) (Some "md4"%string) None None; mkOv None (Some "md4"%string) (Some "bzip2"%string) None;
     mkOv None None (Some "bzip2"%string) (Some 10); mkOv None None None (Some 10)]
  = [Raise NoSuchSerializer; Raise NoSuchChecksum; Raise NoSuchCodec; Raise ValueError].
Proof.
  split; [reflexivity|]. split; [reflexivity|]. split.
  { intros (_ & _ & _ & H). specialize (H 10 eq_refl). destruct H as [_ H]. vm_compute in H. apply H. reflexivity. }
  split; [|vm_compute; reflexivity]. intros (H & _). specialize (H _ eq_refl). discriminate.
Qed.
(** The new section says what was asked for: checksum, codec (or none, when
    compression does not pay) and level as given or else as before, and the room
    as before. *)
Theorem C29_new_section : forall E, EnvOK E -> forall f b m m' ov f',
  archive E f b m -> rewrite_bytes E f m' ov = (f', Ok tt) ->
  nth (Z.to_nat (u8 41 f')) checksum_names ""%string = ma_checksum (rewrite_args f ov) /\
  (let co := nth (Z.to_nat (u8 42 f')) codec_names ""%string in co = ma_codec (rewrite_args f ov) \/ co = "None"%string) /\
  u8 43 f' = match ov_level ov with Some l => l | None => u8 43 f end /\
  u32 48 f' = u32 48 f.
Proof. exact rewrite_fields. Qed.
Print Assumptions C29_new_section.
(** Without overrides the codec and the level are zlib and 6, not those of the
    file (append.py:252-254). *)
Theorem C29_default_level : forall E, EnvOK E -> forall f b m m' f',
  archive E f b m -> rewrite_bytes E f m' default_overrides = (f', Ok tt) ->
  u8 43 f' = 6 /\ (let co := nth (Z.to_nat (u8 42 f')) codec_names ""%string in co = "zlib"%string \/ co = "None"%string).
Proof. exact rewrite_default_level. Qed.
Print Assumptions C29_default_level.
Definition ex_lvl : bytes :=
  match pack_bytes_to_bytes toy_env ex_data (CSInt 20) ex_m11 None (Some ex_bp) (Some (mkMA (b_of_string "JSON") "crc32" "None" 3 (MMInt 40))) with Ok f => f | Raise _ => [] end.
Example C29_level_case : archive toy_env ex_lvl ex_data (norm ex_m11) /\ u8 43 ex_lvl = 3 /\
  snd (rewrite_bytes toy_env ex_lvl ex_m22 default_overrides) = Ok tt /\ u8 43 (fst (rewrite_bytes toy_env ex_lvl ex_m22 default_overrides)) = 6 /\
  snd (rewrite_bytes toy_env ex_lvl ex_m22 (mkOv None None None (Some 9))) = Ok tt /\
  u8 43 (fst (rewrite_bytes toy_env ex_lvl ex_m22 (mkOv None None None (Some 9)))) = 9.
Proof.
  split; [apply (ar_pack toy_env ex_data (CSInt 20) ex_m11 None (Some ex_bp) (Some (mkMA (b_of_string "JSON") "crc32" "None" 3 (MMInt 40)))); vm_compute; reflexivity|].
  vm_compute. auto 10.
Qed.
