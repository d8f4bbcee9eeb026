(** C12-C14, C21-C29, C46-C51: files that live through appends and metadata
    rewrites. *)
From Verif Require Import Base PyVal Checksums Headers Pretty Args FileIO Append Spec Json Toy MetaProofs Archive HistoryProofs ResignProofs PropsPack.

(** A history for the Examples: pack, append over a chunk boundary, a failed
    append, a metadata rewrite, a failed rewrite, an append that fits. *)
Definition ex_new1 : bytes := b_of_string "Now is the time for all good men".
Definition ex_new2 : bytes := [x2e].
Definition ex_meta2 : pyval := PDict [(u "dtype", PStr (u "<i2"))].
Definition ex_f1 : bytes := fst (append_bytes toy_env ex_file ex_new1 no_obargs).
Definition ex_f2 : bytes := fst (append_bytes toy_env ex_f1 (ex_new1 ++ ex_new1) no_obargs).
Definition ex_f3 : bytes := fst (rewrite_bytes toy_env ex_f2 ex_meta2 default_overrides).
Definition ex_f4 : bytes := fst (rewrite_bytes toy_env ex_f3 ex_meta2 default_overrides).
Definition ex_f5 : bytes := fst (append_bytes toy_env ex_f4 ex_new2 no_obargs).

Lemma ex_file_archive : archive toy_env ex_file ex_data (norm ex_meta).
Proof. apply (ar_pack toy_env ex_data (CSInt 20) ex_meta None (Some ex_bp) None). vm_compute. reflexivity. Qed.
Lemma ex_f1_archive : archive toy_env ex_f1 (ex_data ++ ex_new1) (norm ex_meta).
Proof.
  apply (ar_append toy_env ex_file ex_data (norm ex_meta) ex_new1 no_obargs ex_f1 1); [exact ex_file_archive| |].
  - vm_compute. discriminate.
  - vm_compute. reflexivity.
Qed.
Lemma ex_f5_archive : archive toy_env ex_f5 ((ex_data ++ ex_new1) ++ ex_new2) (norm ex_meta2).
Proof.
  assert (H2 : archive toy_env ex_f2 (ex_data ++ ex_new1) (norm ex_meta)).
  { apply (ar_append_failed toy_env ex_f1 _ _ (ex_new1 ++ ex_new1) no_obargs ex_f2 NotEnoughSpace);
      [exact ex_f1_archive|vm_compute; discriminate|vm_compute; reflexivity]. }
  assert (H3 : archive toy_env ex_f3 (ex_data ++ ex_new1) (norm ex_meta2)).
  { apply (ar_rewrite toy_env ex_f2 _ (norm ex_meta) ex_meta2 default_overrides); [exact H2|discriminate|vm_compute; reflexivity]. }
  assert (H4 : archive toy_env ex_f4 (ex_data ++ ex_new1) (norm ex_meta2)).
  { apply (ar_rewrite_failed toy_env ex_f3 _ (norm ex_meta2) ex_meta2 default_overrides ex_f4 NoChangeInMetadata); [exact H3|vm_compute; reflexivity]. }
  apply (ar_append toy_env ex_f4 (ex_data ++ ex_new1) (norm ex_meta2) ex_new2 no_obargs ex_f5 0); [exact H4| |].
  - vm_compute. discriminate.
  - vm_compute. reflexivity.
Qed.

(** ** C12 *)
Theorem C12_random_access : forall E, EnvOK E -> forall f b m i,
  archive E f b m -> has_offsets f = true -> 0 <= i < F_n f ->
  let c := chunk_at (F_off f i) f in
  e_decompress E c = Ok (sub (i * F_chunk f) (F_chunk f) b) /\
  exists ck, nth_error checksum_names (Z.to_nat (u8 6 f)) = Some (cks_name ck) /\ digest_at (F_off f i) f = digest E ck c.
Proof. exact random_access. Qed.
Print Assumptions C12_random_access.
Example C12_case : has_offsets ex_f5 = true /\ F_n ex_f5 = 4 /\ F_off ex_f5 2 = 678 /\
  toy_decompress (chunk_at 678 ex_f5) = Ok (b_of_string "dog" ++ [x00; x00; xff; x00] ++ b_of_string "Now is the ti").
Proof. vm_compute. auto. Qed.

(** ** C13 *)
Theorem C13_unused_offsets : forall E, EnvOK E -> forall f b m i,
  archive E f b m -> has_offsets f = true -> F_n f <= i < F_n f + F_max f -> F_off f i = -1.
Proof. exact unused_offsets. Qed.
Print Assumptions C13_unused_offsets.
Example C13_case : has_offsets ex_f5 = true /\ F_n ex_f5 <= 4 < F_n ex_f5 + F_max ex_f5 /\ F_off ex_f5 4 = -1.
Proof. vm_compute. intuition congruence. Qed.

(** ** C14 *)
Theorem C14_size_from_header : forall E, EnvOK E -> forall f b m,
  archive E f b m ->
  F_chunk f * (F_n f - 1) + F_last f = size b /\ 1 <= F_n f /\ 0 <= F_max f /\ 0 <= F_last f <= F_chunk f /\ F_chunk f <= BUFMAX /\
  (size b = 0 <-> F_chunk f = 0) /\ (0 < size b -> 0 < F_last f).
Proof. exact size_from_header. Qed.
Print Assumptions C14_size_from_header.
Example C14_case : (F_chunk ex_f5, F_n ex_f5, F_last ex_f5, size ((ex_data ++ ex_new1) ++ ex_new2)) = (20, 4, 20, 80).
Proof. vm_compute. reflexivity. Qed.

(** ** C21 *)
Theorem C21_append_appends : forall E, EnvOK E -> forall f b m new oa f' k,
  archive E f b m -> sizable f new -> append_bytes E f new oa = (f', Ok k) ->
  unpack_bytes_from_bytes E f' = Ok (b ++ new, m).
Proof. exact append_appends. Qed.
Print Assumptions C21_append_appends.
Example C21_case : sizable ex_file ex_new1 /\ snd (append_bytes toy_env ex_file ex_new1 no_obargs) = Ok 1.
Proof. vm_compute. intuition congruence. Qed.

(** ** C22 *)
Theorem C22_histories : forall E, EnvOK E -> forall f b m,
  archive E f b m -> unpack_bytes_from_bytes E f = Ok (b, m).
Proof. exact archive_unpack. Qed.
Print Assumptions C22_histories.
Example C22_case : unpack_bytes_from_bytes toy_env ex_f5 = Ok ((ex_data ++ ex_new1) ++ ex_new2, norm ex_meta2).
Proof. exact (C22_histories toy_env toy_env_ok _ _ _ ex_f5_archive). Qed.

(** ** C23 *)
Theorem C23_append_frame : forall E, EnvOK E -> forall f b m new oa f' k,
  archive E f b m -> sizable f new -> append_bytes E f new oa = (f', Ok k) ->
  size f <= size f' /\ sub 0 12 f' = sub 0 12 f /\ F_table f' = F_table f /\ F_body f' = F_body f /\
  F_n f' = F_n f + k /\ F_max f' = F_max f - k /\
  sub 32 (F_table f - 32) f' = sub 32 (F_table f - 32) f /\
  sub (F_table f) (8 * F_n f) f' = sub (F_table f) (8 * F_n f) f /\
  let lo := F_off f (F_n f - 1) in sub (F_body f) (lo - F_body f) f' = sub (F_body f) (lo - F_body f) f.
Proof. exact append_frame. Qed.
Print Assumptions C23_append_frame.
Example C23_case : size ex_file = 704 /\ size ex_f1 = 757 /\ F_table ex_f1 = 558 /\ F_body ex_f1 = 598 /\ F_off ex_file 2 = 678.
Proof. vm_compute. auto. Qed.

(** ** C24 *)
Theorem C24_capacity : forall E, EnvOK E -> forall f b m new oa,
  archive E f b m -> sizable f new ->
  let k := extra f new in
  (has_offsets f = false -> append_bytes E f new oa = (f, Raise RuntimeError)) /\
  (has_offsets f = true -> b = [] -> new <> [] -> append_bytes E f new oa = (f, Raise ValueError)) /\
  (has_offsets f = true -> b <> [] -> F_max f < k -> append_bytes E f new oa = (f, Raise NotEnoughSpace)) /\
  (has_offsets f = true -> b <> [] \/ new = [] -> k <= F_max f -> blosc_args_ok E (effective f oa) ->
     exists f', append_bytes E f new oa = (f', Ok k) /\ F_n f' = F_n f + k /\ F_max f' = F_max f - k) /\
  (has_offsets f = true -> b <> [] \/ new = [] -> k <= F_max f -> ~ blosc_args_ok E (effective f oa) ->
     exists e, append_bytes E f new oa = (f, Raise e)).
Proof. exact append_capacity. Qed.
Print Assumptions C24_capacity.
Example C24_case : extra ex_f1 (ex_new1 ++ ex_new1) = 4 /\ F_max ex_f1 = 1 /\
  append_bytes toy_env ex_f1 (ex_new1 ++ ex_new1) no_obargs = (ex_f1, Raise NotEnoughSpace) /\
  extra ex_f1 (ex_new2 ++ ex_new2) = 1 /\
  F_max (fst (append_bytes toy_env ex_f1 (ex_new2 ++ ex_new2) no_obargs)) = 0.
Proof. vm_compute. auto. Qed.

(** ** C25 *)
Theorem C25_append_fails_clean : forall E, EnvOK E -> forall f b m new oa f' e,
  archive E f b m -> sizable f new -> append_bytes E f new oa = (f', Raise e) ->
  f' = f /\ append_log E f new oa = [].
Proof. exact append_fails_clean. Qed.
Print Assumptions C25_append_fails_clean.
Example C25_case : snd (append_bytes toy_env ex_file ex_new1 (mkOBA (Some 999) None None None)) = Raise ValueError.
Proof. vm_compute. auto. Qed.

(** ** C26 *)
Theorem C26_append_crash : forall E, EnvOK E -> forall f b m new oa j,
  archive E f b m -> sizable f new -> has_offsets f = true ->
  let d := crash j (append_log E f new oa) f in
  sub 0 12 d = sub 0 12 f /\ sub 32 (F_table f - 32) d = sub 32 (F_table f - 32) f /\ F_table d = F_table f /\
  (forall i, 0 <= i < F_n f -> F_off d i = F_off f i) /\
  (forall i, 0 <= i < F_n f - 1 ->
     chunk_at (F_off d i) d = chunk_at (F_off f i) f /\
     e_decompress E (chunk_at (F_off d i) d) = Ok (sub (i * F_chunk f) (F_chunk f) b)).
Proof. exact append_crash_chunks. Qed.
Print Assumptions C26_append_crash.
(** The log of writes is complete: replaying all of it gives the final file. *)
Theorem C26_log_complete : forall E, EnvOK E -> forall f b m new oa,
  archive E f b m -> sizable f new ->
  crash (List.length (append_log E f new oa)) (append_log E f new oa) f = fst (append_bytes E f new oa).
Proof. exact append_log_complete. Qed.
Print Assumptions C26_log_complete.
Example C26_case : List.length (append_log toy_env ex_file ex_new1 no_obargs) = 143%nat /\
  (let d := crash 3 (append_log toy_env ex_file ex_new1 no_obargs) ex_file in
   chunk_at (F_off d 1) d = chunk_at (F_off ex_file 1) ex_file).
Proof. vm_compute. auto. Qed.
(** The file as a whole is not crash safe: the last chunk may be unreadable, and
    between writing the chunks and writing the header unpacking succeeds with
    contents that are neither the old nor the new ones. *)
Theorem C26_last_chunk_refuted : exists E f b m new oa, EnvOK E /\ archive E f b m /\ sizable f new /\
  (exists j e, unpack_bytes_from_bytes E (crash j (append_log E f new oa) f) = Raise e) /\
  (exists j x, unpack_bytes_from_bytes E (crash j (append_log E f new oa) f) = Ok (x, m) /\ x <> b /\ x <> b ++ new).
Proof.
  exists toy_env, ex_file, ex_data, (norm ex_meta), ex_new1, no_obargs.
  split; [exact toy_env_ok|]. split; [exact ex_file_archive|]. split; [vm_compute; discriminate|]. split.
  - exists 30%nat, BloscError. vm_compute. reflexivity.
  - exists 79%nat, (ex_data ++ firstn 13 ex_new1). split; [vm_compute; reflexivity|]. split; vm_compute; discriminate.
Qed.
Print Assumptions C26_last_chunk_refuted.

(** ** C27 *)
Theorem C27_rewrite_frame : forall E, EnvOK E -> forall f b m m' ov f',
  archive E f b m -> rewrite_bytes E f m' ov = (f', Ok tt) ->
  has_meta f = true /\ size f' = size f /\ F_table f' = F_table f /\
  (forall i, Z.of_nat i < 32 \/ F_table f <= Z.of_nat i -> nth_error f' i = nth_error f i) /\
  unpack_bytes_from_bytes E f' = Ok (b, norm m').
Proof. exact rewrite_frame. Qed.
Print Assumptions C27_rewrite_frame.
Example C27_case : snd (rewrite_bytes toy_env ex_file ex_meta2 default_overrides) = Ok tt /\ F_table ex_file = 558.
Proof. vm_compute. auto. Qed.

(** ** C28: for every file whatsoever *)
Theorem C28_rewrite_fails_clean : forall E, EnvOK E -> forall f m ov f' e,
  rewrite_bytes E f m ov = (f', Raise e) -> f' = f.
Proof. exact rewrite_fails_clean. Qed.
Print Assumptions C28_rewrite_fails_clean.
Example C28_case : snd (rewrite_bytes toy_env ex_file (PStr (List.repeat 65 500)) default_overrides) = Raise MetadataSectionTooSmall
  /\ snd (rewrite_bytes toy_env (ztake 50 ex_file) ex_meta2 default_overrides) = Raise ValueError.
Proof. vm_compute. auto. Qed.

(** ** C29 *)
Theorem C29_rewrite_decision : forall E, EnvOK E -> forall f b m m' ov raw p,
  archive E f b m -> has_meta f = true -> overrides_ok ov ->
  e_dumps E m' = Ok raw -> size raw <= 2 ^ 32 - 1 -> payload_of E (rewrite_args f ov) raw p ->
  if pyeq m m' then rewrite_bytes E f m' ov = (f, Raise NoChangeInMetadata)
  else if negb (digest_len_of (ma_checksum (rewrite_args f ov)) =? digest_len (u8 41 f))
       then rewrite_bytes E f m' ov = (f, Raise ChecksumLengthMismatch)
  else if u32 48 f <? size p then rewrite_bytes E f m' ov = (f, Raise MetadataSectionTooSmall)
  else exists f', rewrite_bytes E f m' ov = (f', Ok tt).
Proof. exact rewrite_decision. Qed.
Print Assumptions C29_rewrite_decision.
Theorem C29_no_section : forall E, EnvOK E -> forall f b m m' ov,
  archive E f b m -> has_meta f = false -> rewrite_bytes E f m' ov = (f, Raise NoMetadataFound).
Proof. exact rewrite_no_section. Qed.
Print Assumptions C29_no_section.
Example C29_case : has_meta ex_file = true /\ u32 48 ex_file = 490 /\ digest_len (u8 41 ex_file) = 4 /\
  (** equality wins over everything else; then the digest size; then the space *)
  snd (rewrite_bytes toy_env ex_file (norm ex_meta) (mkOv None (Some "md5"%string) None None)) = Raise NoChangeInMetadata /\
  snd (rewrite_bytes toy_env ex_file (PStr (List.repeat 65 500)) (mkOv None (Some "md5"%string) None None)) = Raise ChecksumLengthMismatch /\
  snd (rewrite_bytes toy_env ex_file (PStr (List.repeat 65 489)) (mkOv None (Some "crc32"%string) None None)) = Raise MetadataSectionTooSmall /\
  snd (rewrite_bytes toy_env ex_file (PStr (List.repeat 65 488)) (mkOv None (Some "crc32"%string) None None)) = Ok tt.
Proof. vm_compute. auto 10. Qed.

(** ** C46 *)
Theorem C46_foreign_version : forall E f h,
  header_decode (sub 0 32 f) = Ok h -> F_version f <> 3 ->
  unpack_core E f = ([], Raise FormatVersionMismatch) /\
  (forall new oa, append_bytes E f new oa = (f, Raise FormatVersionMismatch) /\ append_log E f new oa = []) /\
  (forall m ov, rewrite_bytes E f m ov = (f, Raise FormatVersionMismatch)).
Proof. exact foreign_version. Qed.
Print Assumptions C46_foreign_version.
Example C46_case : let f := sub 0 4 ex_file ++ [x02] ++ zdrop 5 ex_file in
  F_version f = 2 /\ match header_decode (sub 0 32 f) with Ok h => h_nchunks h = 3 | _ => False end.
Proof. vm_compute. auto. Qed.

(** ** C47: damage in the last chunk is not noticed by append, and afterwards it
    cannot be noticed any more. *)
Definition ex_bad : bytes := sub 0 696 ex_file ++ [x21] ++ zdrop 697 ex_file.
Theorem C47_append_verifies_refuted : exists E f b m new oa g f' k x, EnvOK E /\ archive E f b m /\
  differ_at 696 f g /\ unpack_bytes_from_bytes E g = Raise ChecksumMismatch /\
  append_bytes E g new oa = (f', Ok k) /\
  unpack_bytes_from_bytes E f' = Ok (x, m) /\ x <> b ++ new.
Proof.
  exists toy_env, ex_file, ex_data, (norm ex_meta), ex_new2, no_obargs, ex_bad,
    (fst (append_bytes toy_env ex_bad ex_new2 no_obargs)), 0, (sub 0 42 ex_data ++ [x21] ++ sub 43 4 ex_data ++ ex_new2).
  split; [exact toy_env_ok|]. split; [exact ex_file_archive|]. split.
  { split; [vm_compute; reflexivity|]. split; [vm_compute; intuition discriminate|]. split; [|vm_compute; discriminate].
    intros i Hi. do 696 (destruct i as [|i]; [vm_compute; reflexivity|]). destruct i as [|i]; [exfalso; apply Hi; vm_compute; reflexivity|].
    clear Hi. reflexivity. }
  split; [vm_compute; reflexivity|]. split; [vm_compute; reflexivity|]. split; [vm_compute; reflexivity|]. vm_compute; discriminate.
Qed.
Print Assumptions C47_append_verifies_refuted.

(** The same for every archive and every damage that leaves what precedes the last
    chunk alone and the chunk decompressible to its size: the append goes through
    exactly as on a sound file, and signs the damaged contents. *)
Theorem C47_append_signs_damage : forall E, EnvOK E -> forall f b m g new oa x,
  archive E f b m -> has_offsets f = true ->
  let lo := F_off f (F_n f - 1) in
  agree 0 lo f g -> e_decompress E (chunk_at lo g) = Ok x -> size x = F_last f -> sizable g new ->
  (forall f' k, append_bytes E g new oa = (f', Ok k) ->
     unpack_bytes_from_bytes E f' = Ok (sub 0 ((F_n f - 1) * F_chunk f) b ++ x ++ new, m) /\ k = extra f new) /\
  (forall f' e, append_bytes E g new oa = (f', Raise e) -> f' = g) /\
  (b <> [] \/ new = [] -> extra f new <= F_max f -> blosc_args_ok E (effective f oa) ->
     exists f', append_bytes E g new oa = (f', Ok (extra f new))).
Proof.
  intros E HE f b m g new oa x HA HO lo AG DX SX SZ.
  destruct (append_resigns E HE f b m g new oa x HA HO AG DX SX SZ) as [R1 R2 R3]. auto.
Qed.
Print Assumptions C47_append_signs_damage.
Example C47_case : has_offsets ex_file = true /\ F_off ex_file (F_n ex_file - 1) = 678 /\ agree 0 678 ex_file ex_bad /\
  toy_decompress (chunk_at 678 ex_bad) = Ok (sub 40 2 ex_data ++ [x21] ++ sub 43 4 ex_data) /\ F_last ex_file = 7 /\
  sizable ex_bad ex_new1 /\ extra ex_file ex_new1 = 1 /\ F_max ex_file = 2 /\
  unpack_bytes_from_bytes toy_env ex_bad = Raise ChecksumMismatch.
Proof.
  split; [vm_compute; reflexivity|]. split; [vm_compute; reflexivity|].
  split; [intros i Hi; rewrite <- (Z2Nat.id i) in Hi by (apply Hi); revert Hi; generalize (Z.to_nat i); intros n Hn;
          unfold ex_bad; rewrite nth_error_app1; [|change (List.length (sub 0 696 ex_file)) with 696%nat; lia];
          unfold sub; cbn [Z.to_nat skipn]; symmetry; rewrite <- (firstn_skipn 696 ex_file) at 2; rewrite nth_error_app1; [reflexivity|change (List.length (firstn 696 ex_file)) with 696%nat; lia]|].
  vm_compute. intuition congruence.
Qed.

(** ** C48: with an unknown number of chunks, whatever follows the header is
    silently ignored. *)
Theorem C48_unknown_nchunks_refuted : forall E f h,
  header_decode (sub 0 32 f) = Ok h -> F_version f = 3 -> F_n f = -1 ->
  has_offsets f = false -> has_meta f = false ->
  unpack_bytes_from_bytes E f = Ok ([], PNone).
Proof. exact unknown_nchunks. Qed.
Print Assumptions C48_unknown_nchunks_refuted.
Example C48_case : exists f h, header_decode (sub 0 32 f) = Ok h /\ F_version f = 3 /\ F_n f = -1 /\
  has_offsets f = false /\ has_meta f = false /\ toy_decompress (sub 32 21 f) = Ok (b_of_string "hello").
Proof.
  exists (match header_encode (mkH 3 false false CkNone 8 5 5 (-1) 0) with Ok b => b | _ => [] end
     ++ match toy_compress default_bargs (b_of_string "hello") with Ok c => c | _ => [] end),
    (mkH 3 false false CkNone 8 5 5 (-1) 0). vm_compute. auto 10.
Qed.

(** ** C49 *)
Theorem C49_level_refuted : exists E m a f' tot a', EnvOK E /\
  write_metadata E m a (fp_of []) = (f', Ok (tot, a')) /\
  nth_error codec_names (Z.to_nat (u8 10 (fdata f'))) = Some "None"%string /\ u8 11 (fdata f') = 6 /\ a' <> a.
Proof.
  exists toy_env, ex_meta, default_margs.
  destruct (write_metadata toy_env ex_meta default_margs (fp_of [])) as [f' [[tot a']|e]] eqn:W; [|vm_compute in W; discriminate].
  exists f', tot, a'. split; [exact toy_env_ok|]. split; [reflexivity|].
  assert (H : f' = fst (write_metadata toy_env ex_meta default_margs (fp_of []))) by (rewrite W; reflexivity).
  assert (H2 : Ok (tot, a') = snd (write_metadata toy_env ex_meta default_margs (fp_of []))) by (rewrite W; reflexivity).
  rewrite H. split; [vm_compute; reflexivity|]. split; [vm_compute; reflexivity|].
  vm_compute in H2. injection H2 as _ ->. discriminate.
Qed.
Print Assumptions C49_level_refuted.

(** In general: the level stored is the one asked for, whatever codec is stored;
    the argument object comes back changed exactly if compression does not pay. *)
Theorem C49_stored_level : forall E, EnvOK E -> forall m a f' tot a',
  write_metadata E m a (fp_of []) = (f', Ok (tot, a')) ->
  u8 11 (fdata f') = ma_level a /\
  nth_error codec_names (Z.to_nat (u8 10 (fdata f'))) = Some (ma_codec a') /\
  (grows E m a -> a' = mkMA (ma_magic a) (ma_checksum a) "None" (ma_level a) (ma_max a)) /\ (~ grows E m a -> a' = a).
Proof. exact stored_level. Qed.
Print Assumptions C49_stored_level.
Example C49_case : grows toy_env ex_meta default_margs /\
  match write_metadata toy_env ex_meta default_margs (fp_of []) with (_, Ok _) => True | _ => False end.
Proof.
  split; [|vm_compute; exact I]. split; [reflexivity|].
  exists (match e_dumps toy_env ex_meta with Ok r => r | _ => [] end), (match e_dumps toy_env ex_meta with Ok r => match e_zcompress toy_env r 6 with Ok z => z | _ => [] end | _ => [] end).
  vm_compute. auto.
Qed.

(** ** C50 *)
Theorem C50_null_metadata_append_refuted : exists E f b m f1 new f2 k, EnvOK E /\ archive E f b m /\
  rewrite_bytes E f PNone default_overrides = (f1, Ok tt) /\ unpack_bytes_from_bytes E f1 = Ok (b, PNone) /\
  append_bytes E f1 new no_obargs = (f2, Ok k) /\ sub 32 8 f2 <> sub 32 8 f1 /\
  exists e, unpack_bytes_from_bytes E f2 = Raise e.
Proof.
  set (f1 := fst (rewrite_bytes toy_env ex_file PNone default_overrides)).
  exists toy_env, ex_file, ex_data, (norm ex_meta), f1, ex_new1, (fst (append_bytes toy_env f1 ex_new1 no_obargs)), 1.
  split; [exact toy_env_ok|]. split; [exact ex_file_archive|]. split; [vm_compute; reflexivity|].
  split; [vm_compute; reflexivity|]. split; [vm_compute; reflexivity|]. split; [vm_compute; discriminate|].
  eexists. vm_compute. reflexivity.
Qed.
Print Assumptions C50_null_metadata_append_refuted.

(** In general: appending succeeds and fails as it would on the file with its old
    metadata; if the new contents fit into the last chunk all is well, and
    otherwise the position of the first chunk is written over the start of the
    metadata section, which makes the file unreadable (unless that position happens
    to spell JSON). *)
Theorem C50_null_append : forall E, EnvOK E -> forall f b m ov f1 new oa,
  archive E f b m -> has_offsets f = true -> rewrite_bytes E f PNone ov = (f1, Ok tt) -> sizable f new ->
  snd (append_bytes E f1 new oa) = snd (append_bytes E f new oa) /\
  (forall f2 e, append_bytes E f1 new oa = (f2, Raise e) -> f2 = f1) /\
  (forall f2, append_bytes E f1 new oa = (f2, Ok 0) -> unpack_bytes_from_bytes E f2 = Ok (b ++ new, PNone)) /\
  (forall f2 k, append_bytes E f1 new oa = (f2, Ok k) -> k <> 0 ->
     i64 32 f2 = F_body f1 /\ (~ json_number (F_body f1) -> exists e, unpack_bytes_from_bytes E f2 = Raise e)).
Proof.
  intros E HE f b m ov f1 new oa HA HO RW SZ. destruct (append_null E HE f b m ov f1 new oa HA HO RW SZ) as [R1 R2 R3 R4]. auto.
Qed.
Print Assumptions C50_null_append.
Example C50_case : let f1 := fst (rewrite_bytes toy_env ex_file PNone default_overrides) in
  snd (rewrite_bytes toy_env ex_file PNone default_overrides) = Ok tt /\ has_offsets ex_file = true /\
  snd (append_bytes toy_env f1 ex_new2 no_obargs) = Ok 0 /\ snd (append_bytes toy_env f1 ex_new1 no_obargs) = Ok 1 /\
  F_body f1 = 598 /\ ~ json_number (F_body f1).
Proof.
  cbv zeta. split; [vm_compute; reflexivity|]. split; [vm_compute; reflexivity|]. split; [vm_compute; reflexivity|]. split; [vm_compute; reflexivity|].
  assert (B : F_body (fst (rewrite_bytes toy_env ex_file PNone default_overrides)) = 598) by (vm_compute; reflexivity).
  split; [exact B|]. rewrite B. intros (j & Hj & EQ).
  assert (1 <= 256 ^ j) by (change 1 with (256 ^ 0); apply Z.pow_le_mono_r; lia). lia.
Qed.

(** ** C51 *)
Theorem C51_append_nothing : forall E, EnvOK E -> forall f b m oa,
  archive E f b m -> sizable f [] -> has_offsets f = true -> blosc_args_ok E (effective f oa) ->
  exists f', append_bytes E f [] oa = (f', Ok 0) /\ unpack_bytes_from_bytes E f' = Ok (b, m).
Proof. exact append_nothing. Qed.
Print Assumptions C51_append_nothing.
Theorem C51_append_to_empty_refuted : forall E, EnvOK E -> forall f m new oa,
  archive E f [] m -> sizable f new -> has_offsets f = true -> new <> [] ->
  append_bytes E f new oa = (f, Raise ValueError).
Proof.
  intros E HE f m new oa HA HS HO HN. exact (proj1 (proj2 (append_capacity E HE f [] m new oa HA HS)) HO eq_refl HN).
Qed.
Print Assumptions C51_append_to_empty_refuted.
Example C51_case : exists f, pack_bytes_to_bytes toy_env [] (CSInt 20) PNone None None None = Ok f /\ has_offsets f = true /\
  append_bytes toy_env f ex_new2 no_obargs = (f, Raise ValueError) /\
  snd (append_bytes toy_env ex_file [] no_obargs) = Ok 0 /\ blosc_args_ok toy_env (effective ex_file no_obargs).
Proof.
  exists (match pack_bytes_to_bytes toy_env [] (CSInt 20) PNone None None None with Ok f => f | _ => [] end).
  vm_compute. intuition congruence.
Qed.
