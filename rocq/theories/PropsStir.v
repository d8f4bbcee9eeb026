(** C88: metadata rewritten by several processes at once, and read meanwhile. *)
From Verif Require Import Base PyVal Checksums Headers Pretty Args FileIO Append Spec Json Toy MetaProofs Archive Overlap Torn Stir StirProofs
  PropsPack PropsAppend PropsTorn.

(** ** C88.  [stirred E f g]: every byte of g is that byte of f or of some file that
    metadata rewrites make of f.

    Any number of processes rewriting at the same time, each having read f or what
    other rewrites have made of it, their single-byte writes interleaved in any
    way and any number of them lost, leave such a file. *)
Theorem C88_writers : forall E, EnvOK E -> forall f b m l, archive E f b m ->
  Forall (fun w => exists g m' ov, rewritten E f g /\ m' <> PNone /\ In w (rewrite_log E g m' ov)) l ->
  stirred E f (replay l f).
Proof. exact stir_writers. Qed.
Print Assumptions C88_writers.

(** Its header, offset table and chunks are those of f, where they were. *)
Theorem C88_places : forall E, EnvOK E -> forall f b m g, archive E f b m -> stirred E f g ->
  agree 0 32 f g /\ agree (F_table f) (size f - F_table f) f g /\ F_table g = F_table f /\ F_body g = F_body f.
Proof. exact stir_places. Qed.
Print Assumptions C88_places.

(** Unpacking it gives the contents of f or raises, having written nothing,
    provided that the (possibly mixed) size of the metadata stays within the
    file. *)
Theorem C88_file : forall E, EnvOK E -> forall f b m g, archive E f b m -> stirred E f g ->
  (has_meta f = true -> 64 + u32 52 g <= size f) ->
  (exists e, unpack_core E g = ([], Raise e)) \/ (exists v, unpack_core E g = (b, Ok v)).
Proof. exact stir_file. Qed.
Print Assumptions C88_file.

(** The same for a process that unpacks while the others are at work, each of its reads
    seeing another such mixture. *)
Theorem C88_reader : forall E, EnvOK E -> forall f b m Sn, archive E f b m -> (forall i, stirred E f (Sn i)) ->
  (has_meta f = true -> forall i, 64 + u32 52 (Sn i) <= size f) ->
  (exists e, unpack_live E Sn = ([], Raise e)) \/ (exists v, unpack_live E Sn = (b, Ok v)).
Proof. exact stir_reader. Qed.
Print Assumptions C88_reader.

(** The proviso holds in files large enough for the space set aside for
    metadata: mixing numbers below 256**k gives numbers below 256**k. *)
Theorem C88_room : forall E, EnvOK E -> forall f b m g k, archive E f b m -> has_meta f = true -> stirred E f g ->
  0 <= k -> u32 48 f < 256 ^ k -> u32 52 g < 256 ^ k.
Proof. exact stir_room. Qed.
Print Assumptions C88_room.

(** The metadata such a reader gets, when every read shows one of the files whole
    and they name the same (not missing) checksum and the same codec: those of
    the file its fourth read (of the digest) saw, unless the digests of two
    different byte strings collide. *)
Theorem C88_metadata : forall E, EnvOK E -> forall f b m Sn v,
  archive E f b m -> has_meta f = true -> (forall i, rewritten E f (Sn i)) ->
  unpack_live E Sn = (b, Ok v) ->
  u8 41 (Sn 1%nat) <> 0 -> u8 41 (Sn 1%nat) = u8 41 (Sn 3%nat) -> u8 42 (Sn 1%nat) = u8 42 (Sn 3%nat) ->
  (forall ck, nth_error checksum_names (Z.to_nat (u8 41 (Sn 1%nat))) = Some (cks_name ck) ->
     digest E ck (sub 64 (u32 52 (Sn 1%nat)) (Sn 2%nat)) = digest E ck (stored_meta (Sn 3%nat)) ->
     sub 64 (u32 52 (Sn 1%nat)) (Sn 2%nat) = stored_meta (Sn 3%nat)) ->
  unpack_core E (Sn 3%nat) = (b, Ok v).
Proof. exact stir_metadata. Qed.
Print Assumptions C88_metadata.

(** Without a checksum they need not be the metadata of any of the files: here a reader sees
    the metadata header of a file whose metadata are 5 and the rest after a
    rewrite to 73, and is told 7. *)
Definition ex_five : bytes :=
  match pack_bytes_to_bytes toy_env ex_data (CSInt 20) (PInt 5) None (Some ex_bp) (Some (mkMA (b_of_string "JSON") "None" "None" 6 (MMInt 4))) with Ok f => f | Raise _ => [] end.
Definition ex_rewritten5 : bytes := fst (rewrite_bytes toy_env ex_five (PInt 73) (mkOv None None None None)).
Definition ex_view5 (i : nat) : bytes := match i with O | 1%nat => ex_five | _ => ex_rewritten5 end.
Theorem C88_unchecked_refuted : exists E f b m Sn v,
  EnvOK E /\ archive E f b m /\ (forall i, Sn i = f \/ exists m' ov, m' <> PNone /\ rewrite_bytes E f m' ov = (Sn i, Ok tt)) /\
  unpack_live E Sn = (b, Ok v) /\ forall i w, unpack_core E (Sn i) = (b, Ok w) -> w <> v.
Proof.
  exists toy_env, ex_five, ex_data, (norm (PInt 5)), ex_view5, (PInt 7).
  split; [exact toy_env_ok|]. split.
  { apply (ar_pack toy_env ex_data (CSInt 20) (PInt 5) None (Some ex_bp) (Some (mkMA (b_of_string "JSON") "None" "None" 6 (MMInt 4)))). vm_compute. reflexivity. }
  split.
  { intros [|[|i]]; [left; reflexivity|left; reflexivity|]. right. exists (PInt 73), (mkOv None None None None). split; [discriminate|]. vm_compute. reflexivity. }
  split; [vm_compute; reflexivity|].
  intros [|[|i]] w X; vm_compute in X; injection X as <-; discriminate.
Qed.
Print Assumptions C88_unchecked_refuted.

(** Two rewriters at once: the first writes 24 bytes, the second all of its section
    but the last 10 bytes, then the first the rest, then the second. *)
Definition ex_log_a : list (Z * byte) := rewrite_log toy_env ex_file ex_meta2 default_overrides.
Definition ex_log_b : list (Z * byte) := rewrite_log toy_env ex_file ex_m22 default_overrides.
Definition ex_interleaved (i j : nat) : list (Z * byte) := firstn i ex_log_a ++ firstn j ex_log_b ++ skipn i ex_log_a ++ skipn j ex_log_b.
Lemma ex_interleaved_from i j : Forall (fun w => exists g m' ov, rewritten toy_env ex_file g /\ m' <> PNone /\ In w (rewrite_log toy_env g m' ov)) (ex_interleaved i j).
Proof.
  assert (HA : forall l, incl l ex_log_a -> Forall (fun w => exists g m' ov, rewritten toy_env ex_file g /\ m' <> PNone /\ In w (rewrite_log toy_env g m' ov)) l).
  { intros l H. apply Forall_forall. intros w Hw. exists ex_file, ex_meta2, default_overrides. split; [constructor|]. split; [discriminate|]. exact (H w Hw). }
  assert (HB : forall l, incl l ex_log_b -> Forall (fun w => exists g m' ov, rewritten toy_env ex_file g /\ m' <> PNone /\ In w (rewrite_log toy_env g m' ov)) l).
  { intros l H. apply Forall_forall. intros w Hw. exists ex_file, ex_m22, default_overrides. split; [constructor|]. split; [discriminate|]. exact (H w Hw). }
  assert (I1 : forall n (l : list (Z * byte)), incl (firstn n l) l) by (intros n l w Hw; rewrite <- (firstn_skipn n l); apply in_or_app; auto).
  assert (I2 : forall n (l : list (Z * byte)), incl (skipn n l) l) by (intros n l w Hw; rewrite <- (firstn_skipn n l); apply in_or_app; auto).
  unfold ex_interleaved. rewrite !Forall_app. auto.
Qed.
Example C88_case : archive toy_env ex_file ex_data (norm ex_meta) /\ has_meta ex_file = true /\
  (let mix i j := replay (ex_interleaved i j) ex_file in
   stirred toy_env ex_file (mix 24%nat 40%nat) /\
   mix 24%nat 40%nat <> ex_file /\ mix 24%nat 40%nat <> fst (rewrite_bytes toy_env ex_file ex_meta2 default_overrides) /\
   mix 24%nat 40%nat <> fst (rewrite_bytes toy_env ex_file ex_m22 default_overrides) /\
   64 + u32 52 (mix 24%nat 40%nat) <= size ex_file /\
   unpack_core toy_env (mix 24%nat 40%nat) = ([], Raise ChecksumMismatch) /\
   unpack_core toy_env (mix 24%nat 0%nat) = (ex_data, Ok (norm ex_m22))).
Proof.
  split; [exact ex_file_archive|]. split; [reflexivity|]. cbv zeta.
  split; [apply (C88_writers toy_env toy_env_ok ex_file ex_data (norm ex_meta)); [exact ex_file_archive|apply ex_interleaved_from]|].
  split; [intros X; apply (f_equal (fun x => sub 32 200 x)) in X; vm_compute in X; discriminate|].
  split; [intros X; apply (f_equal (fun x => sub 32 200 x)) in X; vm_compute in X; discriminate|].
  split; [intros X; apply (f_equal (fun x => sub 32 200 x)) in X; vm_compute in X; discriminate|].
  split; [vm_compute; discriminate|]. split; vm_compute; reflexivity.
Qed.
Definition ex_roomy : bytes :=
  match pack_bytes_to_bytes toy_env ex_data (CSInt 20) ex_m11 None (Some ex_bp) (Some (mkMA (b_of_string "JSON") "crc32" "None" 6 (MMInt 200))) with Ok f => f | Raise _ => [] end.
Example C88_case_room : archive toy_env ex_roomy ex_data (norm ex_m11) /\ has_meta ex_roomy = true /\ u32 48 ex_roomy < 256 ^ 1 /\ (forall n, n < 256 ^ 1 -> 64 + n <= size ex_roomy).
Proof.
  split.
  { apply (ar_pack toy_env ex_data (CSInt 20) ex_m11 None (Some ex_bp) (Some (mkMA (b_of_string "JSON") "crc32" "None" 6 (MMInt 200)))). vm_compute. reflexivity. }
  split; [reflexivity|]. split; [vm_compute; reflexivity|]. intros n Hn. change (256 ^ 1) with 256 in Hn.
  assert (64 + 256 <= size ex_roomy) by (vm_compute; discriminate). lia.
Qed.

(** A reader that sees the old metadata header and the new payload and digest: the
    sizes agree, and it gets the new metadata. *)
Definition ex_crc : bytes :=
  match pack_bytes_to_bytes toy_env ex_data (CSInt 20) ex_m11 None (Some ex_bp) (Some (mkMA (b_of_string "JSON") "crc32" "None" 6 (MMInt 40))) with Ok f => f | Raise _ => [] end.
Definition ex_crc2 : bytes := fst (rewrite_bytes toy_env ex_crc ex_m22 (mkOv None None None None)).
Definition ex_view_crc (i : nat) : bytes := match i with O | 1%nat => ex_crc | _ => ex_crc2 end.
Example C88_case_metadata : archive toy_env ex_crc ex_data (norm ex_m11) /\ has_meta ex_crc = true /\
  (forall i, rewritten toy_env ex_crc (ex_view_crc i)) /\ ex_crc <> ex_crc2 /\
  unpack_live toy_env ex_view_crc = (ex_data, Ok ex_m22) /\
  u8 41 (ex_view_crc 1) <> 0 /\ u8 41 (ex_view_crc 1) = u8 41 (ex_view_crc 3) /\ u8 42 (ex_view_crc 1) = u8 42 (ex_view_crc 3) /\
  sub 64 (u32 52 (ex_view_crc 1)) (ex_view_crc 2) = stored_meta (ex_view_crc 3).
Proof.
  split.
  { apply (ar_pack toy_env ex_data (CSInt 20) ex_m11 None (Some ex_bp) (Some (mkMA (b_of_string "JSON") "crc32" "None" 6 (MMInt 40)))). vm_compute. reflexivity. }
  split; [reflexivity|]. split.
  { intros [|[|i]]; [constructor|constructor|]. apply (rw_more toy_env ex_crc ex_crc ex_m22 (mkOv None None None None)); [constructor|discriminate]. }
  split; [intros X; apply (f_equal (fun x => sub 32 200 x)) in X; vm_compute in X; discriminate|].
  split; [vm_compute; reflexivity|]. split; [vm_compute; discriminate|]. repeat split.
Qed.
