(** C15-C20, C52: damaged, truncated, half-written and hostile files. *)
From Verif Require Import Base PyVal Checksums Headers Pretty Args FileIO Append Spec Json Toy MetaProofs Archive HistoryProofs PropsPack PropsAppend
  Damage ChecksumProofs CrcSpec CrcProofs DamageProofs DamageBound.

(** Files for the Examples: ex_f5 with byte [p] inverted in its lowest bit. *)
Definition flip (p : nat) (f : bytes) : bytes :=
  firstn p f ++ match skipn p f with x :: r => bZ (Z.lxor (Zb x) 1) :: r | [] => [] end.
Definition msg (s : string) : bytes := b_of_string s.

(** ** C15: for every byte string [f] whatsoever. *)
Theorem C15_only_verified : forall E, EnvOK E -> forall f, exists ck p xs,
  fst (unpack_core E f) = concat xs /\ emitted E ck f p xs /\ zlen xs <= Z.max 0 (F_n f) /\
  (xs <> [] -> nth_error checksum_names (Z.to_nat (u8 6 f)) = Some (cks_name ck)) /\
  (xs <> [] -> has_meta f = false \/ 64 + u32 52 f <= size f -> p = F_body f) /\
  (forall m, snd (unpack_core E f) = Ok m -> zlen xs = Z.max 0 (F_n f)).
Proof. exact unpack_emits. Qed.
Print Assumptions C15_only_verified.
Theorem C15_metadata_verified : forall E, EnvOK E -> forall f m, snd (unpack_core E f) = Ok m ->
  (has_meta f = false -> m = PNone) /\
  (has_meta f = true -> exists ck co plain,
     let pl := sub 64 (u32 52 f) f in
     nth_error checksum_names (Z.to_nat (u8 41 f)) = Some (cks_name ck) /\
     codec_decompress E co pl = Ok plain /\ e_loads E plain = Ok m /\
     (64 + u32 52 f <= size f -> ck <> CkNone -> sub (64 + u32 48 f) (digest_len (u8 41 f)) f = digest E ck pl)).
Proof. exact unpack_meta. Qed.
Print Assumptions C15_metadata_verified.
(* a file damaged in its third chunk: two chunks come out, then the mismatch *)
Example C15_case : 64 + u32 52 (flip 700 ex_f5) <= size (flip 700 ex_f5) /\
  unpack_core toy_env (flip 700 ex_f5) = (sub 0 40 (ex_data ++ ex_new1), Raise ChecksumMismatch) /\
  snd (unpack_core toy_env ex_f5) = Ok (norm ex_meta2) /\ has_meta ex_f5 = true.
Proof. vm_compute. intuition congruence. Qed.

(* a hostile file: the reader seeks to before the start, which a file refuses and
   an io.BytesIO turns into the start *)
Definition ex_hostile : bytes :=
  b_of_string "blpk" ++ [x03; x02; x00; x08] ++ le_enc 4 (-1) ++ le_enc 4 (-1) ++ le_enc 8 0 ++ le_enc 8 0 ++
  b_of_string "JSON" ++ repeat x00 4 ++ [x00; x00; x00; x00] ++ le_enc 4 100 ++ le_enc 4 0 ++ le_enc 4 100 ++ repeat x00 8 ++ msg "{}".
Example C15_case_hostile : EnvOK toy_env /\ EnvOK toy_mem_env /\
  unpack_core toy_env ex_hostile = ([], Raise OSError) /\ unpack_core toy_mem_env ex_hostile = ([], Ok (PDict [])).
Proof. split; [exact toy_env_ok|]. split; [exact toy_mem_env_ok|]. vm_compute. auto. Qed.

(** ** C16 *)
Theorem C16_chunk_damage : forall E, EnvOK E -> forall f b m g i q,
  archive E f b m -> u8 6 f = 1 \/ u8 6 f = 2 -> 0 <= i < F_n f ->
  let p := chunk_pos (Z.to_nat i) f in let n := u32 (p + 12) f in
  p <= q < p + n + 4 -> ~ (p + 12 <= q < p + 16) -> differ_at q f g ->
  unpack_core E g = (sub 0 (i * F_chunk f) b, Raise ChecksumMismatch).
Proof. exact chunk_damage. Qed.
Print Assumptions C16_chunk_damage.
Lemma ex_differ : differ_at 700 ex_f5 (flip 700 ex_f5).
Proof.
  assert (S : exists a x b, ex_f5 = a ++ x :: b /\ List.length a = 700%nat /\ flip 700 ex_f5 = a ++ bZ (Z.lxor (Zb x) 1) :: b).
  { exists (firstn 700 ex_f5), (nth 700 ex_f5 x00), (skipn 701 ex_f5). split; [vm_compute; reflexivity|]. split; vm_compute; reflexivity. }
  destruct S as (a & x & b & E1 & L & E2). unfold differ_at. rewrite E2, E1. change (Z.to_nat 700) with (Z.to_nat (Z.of_nat 700)). rewrite Nat2Z.id, <- L.
  unfold size. rewrite !app_length. cbn [List.length]. split; [reflexivity|]. split; [Lia.lia|]. split.
  - intros i Hi. destruct (Nat.lt_ge_cases i (List.length a)) as [Q|Q].
    + rewrite !nth_error_app1 by Lia.lia. reflexivity.
    + rewrite !nth_error_app2 by Lia.lia. destruct (i - List.length a)%nat eqn:D; [Lia.lia|reflexivity].
  - rewrite !nth_error_app2, Nat.sub_diag by Lia.lia. cbn. intros X. injection X as X. destruct x; discriminate X.
Qed.
Example C16_case : u8 6 ex_f5 = 1 /\ F_n ex_f5 = 4 /\ chunk_pos 2 ex_f5 = 678 /\ u32 (678 + 12) ex_f5 = 36 /\
  differ_at 700 ex_f5 (flip 700 ex_f5) /\ ~ (678 + 12 <= 700 < 678 + 16).
Proof. split; [|split; [|split; [|split; [|split; [exact ex_differ|Lia.lia]]]]]; vm_compute; reflexivity. Qed.

(** ** C17 *)
Theorem C17_metadata_damage : forall E, EnvOK E -> forall f b m g q,
  archive E f b m -> has_meta f = true -> u8 41 f = 1 \/ u8 41 f = 2 ->
  64 <= q < 64 + u32 52 f \/ 64 + u32 48 f <= q < 64 + u32 48 f + 4 -> differ_at q f g ->
  unpack_core E g = ([], Raise ChecksumMismatch).
Proof. exact meta_damage. Qed.
Print Assumptions C17_metadata_damage.
Example C17_case : has_meta ex_f5 = true /\ u8 41 ex_f5 = 1 /\ u32 52 ex_f5 = 15 /\ u32 48 ex_f5 = 490 /\
  unpack_core toy_env (flip 70 ex_f5) = ([], Raise ChecksumMismatch) /\ unpack_core toy_env (flip 555 ex_f5) = ([], Raise ChecksumMismatch) /\
  unpack_core toy_env (flip 100 ex_f5) = unpack_core toy_env ex_f5.
Proof. vm_compute. intuition congruence. Qed.

(** ** C18: [chunks_end f] is where the last chunk ends, its digest excluded. *)
Theorem C18_truncation : forall E, EnvOK E -> forall f b m k,
  archive E f b m ->
  let u := unpack_core E (firstn k f) in
  (forall m', snd u = Ok m' -> fst u = b /\ m' = m /\ chunks_end f <= Z.of_nat k) /\
  exists i, 0 <= i <= F_n f /\ fst u = sub 0 (i * F_chunk f) b.
Proof. exact truncation. Qed.
Print Assumptions C18_truncation.
Example C18_case : chunks_end ex_f5 = 754 /\ size ex_f5 = 758 /\
  unpack_core toy_env (firstn 754 ex_f5) = ((ex_data ++ ex_new1) ++ ex_new2, Ok (norm ex_meta2)) /\
  unpack_core toy_env (firstn 755 ex_f5) = (sub 0 60 (ex_data ++ ex_new1), Raise ChecksumMismatch) /\
  fst (unpack_core toy_env (firstn 640 ex_f5)) = sub 0 20 ex_data.
Proof. vm_compute. auto. Qed.

(** ** C19 *)
Theorem C19_pack_crash : forall E, EnvOK E -> forall b csa m oba obp oma f j,
  pack_bytes_to_bytes E b csa m oba obp oma = Ok f ->
  let g := crash j (pack_log E b csa m oba obp oma) [] in
  let u := unpack_core E g in
  (forall m', snd u = Ok m' -> fst u = b /\ m' = norm m) /\
  (exists i, 0 <= i <= F_n f /\ fst u = sub 0 (i * F_chunk f) b) /\
  (Z.of_nat j <= size f -> size g = Z.of_nat j /\
     (has_offsets f = true -> forall i, 0 <= i < F_n f + F_max f -> F_table f + 8 * (i + 1) <= size g -> i64 (F_table f + 8 * i) g = -1)) /\
  ((List.length (pack_log E b csa m oba obp oma) <= j)%nat -> g = f).
Proof. exact pack_crash. Qed.
Print Assumptions C19_pack_crash.
(* ex_file is 704 bytes; the log has 24 more writes, those of the three offsets *)
Definition ex_log : list (Z * byte) := pack_log toy_env ex_data (CSInt 20) ex_meta None (Some ex_bp) None.
Example C19_case : pack_bytes_to_bytes toy_env ex_data (CSInt 20) ex_meta None (Some ex_bp) None = Ok ex_file /\
  List.length ex_log = 728%nat /\ size ex_file = 704 /\ has_offsets ex_file = true /\
  i64 (F_table ex_file) (crash 704 ex_log []) = -1 /\ i64 (F_table ex_file) (crash 728 ex_log []) = 598 /\
  fst (unpack_core toy_env (crash 710 ex_log [])) = ex_data /\ crash 728 ex_log [] = ex_file /\
  match snd (unpack_core toy_env (crash 650 ex_log [])) with Raise _ => True | Ok _ => False end.
Proof. vm_compute. auto 12. Qed.

(** ** C20 *)
Theorem C20_relevant_bytes : forall E, EnvOK E -> forall f b m g,
  archive E f b m -> agree 0 32 f g ->
  (has_meta f = true -> agree 32 (32 + u32 52 f) f g /\ agree (64 + u32 48 f) (digest_len (u8 41 f)) f g) ->
  agree (F_body f) (chunks_end f + F_digest f - F_body f) f g ->
  unpack_core E g = (b, Ok m).
Proof. exact unpack_relevant. Qed.
Print Assumptions C20_relevant_bytes.
(* padding, table and trailing bytes replaced *)
Definition ex_g : bytes :=
  firstn 79 ex_f5 ++ repeat xff 475 ++ sub 554 4 ex_f5 ++ repeat x2a 40 ++ sub 598 160 ex_f5 ++ msg "trailing".
Example C20_case : agree 0 32 ex_f5 ex_g /\ agree 32 (32 + u32 52 ex_f5) ex_f5 ex_g /\
  agree (64 + u32 48 ex_f5) (digest_len (u8 41 ex_f5)) ex_f5 ex_g /\
  agree (F_body ex_f5) (chunks_end ex_f5 + F_digest ex_f5 - F_body ex_f5) ex_f5 ex_g /\
  ex_g <> ex_f5 /\ F_off ex_g 0 <> F_off ex_f5 0.
Proof.
  assert (A : forall a n, 0 <= a -> sub a n ex_f5 = sub a n ex_g -> agree a n ex_f5 ex_g) by (intros; apply CrashProofs.sub_agree; auto).
  split; [|split; [|split; [|split; [|split]]]]; try (apply A; vm_compute; congruence); vm_compute; discriminate.
Qed.

(** ** C52 *)
Theorem C52_adler32 : forall E d, adler32 d = adler_spec d /\ uint_le (digest E CkAdler32 d) = adler_spec d /\ size (digest E CkAdler32 d) = 4.
Proof. exact adler_digest. Qed.
Print Assumptions C52_adler32.
(** crc32 is the remainder of the message polynomial divided by the generator,
    complemented and reflected; there is only one such remainder. *)
Theorem C52_crc32 : forall E d, exists r,
  crc_remainder (crc_dividend d) r /\ (forall r', crc_remainder (crc_dividend d) r' -> r' = r) /\
  (forall i, 0 <= i < 32 -> Z.testbit (crc32 d) i = negb (Z.testbit r (31 - i))) /\ 0 <= crc32 d < 2 ^ 32 /\
  uint_le (digest E CkCrc32 d) = crc32 d /\ size (digest E CkCrc32 d) = 4.
Proof. exact crc_digest. Qed.
Print Assumptions C52_crc32.
Theorem C52_crc32_burst : forall E p w1 w2 s, size w1 = size w2 -> size w1 <= 4 -> w1 <> w2 ->
  crc32 (p ++ w1 ++ s) <> crc32 (p ++ w2 ++ s) /\ digest E CkCrc32 (p ++ w1 ++ s) <> digest E CkCrc32 (p ++ w2 ++ s).
Proof. exact crc_digest_burst. Qed.
Print Assumptions C52_crc32_burst.
Theorem C52_single_byte : forall E ck a x y b, ck = CkAdler32 \/ ck = CkCrc32 -> x <> y ->
  digest E ck (a ++ x :: b) <> digest E ck (a ++ y :: b).
Proof. exact digest_one. Qed.
Print Assumptions C52_single_byte.
(* the standard check values *)
Example C52_case : adler32 (msg "Wikipedia") = 0x11E60398 /\ crc32 (msg "123456789") = 0xCBF43926 /\
  digest toy_env CkCrc32 (msg "123456789") = [x26; x39; xf4; xcb].
Proof. vm_compute. auto. Qed.

(** ** C70: for every byte string [f] whatsoever.  The bound is reached but for the
    header and the digests: a chunk of 16 bytes may claim to be 2**32-1 bytes. *)
Theorem C70_output : forall E, EnvOK E -> forall f, 16 * size (fst (unpack_core E f)) <= size f * (2 ^ 32 - 1).
Proof. exact unpack_bound. Qed.
Print Assumptions C70_output.
Theorem C70_chunks : forall E, EnvOK E -> forall f m, snd (unpack_core E f) = Ok m -> 0 < F_n f ->
  exists ck, nth_error checksum_names (Z.to_nat (u8 6 f)) = Some (cks_name ck) /\ (16 + cks_size ck) * F_n f <= size f + cks_size ck.
Proof. exact unpack_chunks. Qed.
Print Assumptions C70_chunks.
(* three chunks of 16 bytes that unpack to 300; a header that claims 2**40 chunks *)
Definition ex_bomb (n : Z) : bytes :=
  b_of_string "blpk" ++ [x03; x00; x00; x08] ++ le_enc 4 100 ++ le_enc 4 100 ++ le_enc 8 n ++ le_enc 8 0 ++
  concat (repeat ([x02; x01; x01; x08] ++ le_enc 4 100 ++ le_enc 4 100 ++ le_enc 4 16) 3).
Example C70_case : size (ex_bomb 3) = 80 /\ size (fst (unpack_core toy_env (ex_bomb 3))) = 300 /\ snd (unpack_core toy_env (ex_bomb 3)) = Ok PNone /\ F_n (ex_bomb 3) = 3.
Proof. vm_compute. auto. Qed.
Example C70_case_claim : F_n (ex_bomb (2 ^ 40)) = 2 ^ 40 /\ forall m, snd (unpack_core toy_env (ex_bomb (2 ^ 40))) <> Ok m.
Proof.
  assert (S : size (ex_bomb (2 ^ 40)) = 80) by (vm_compute; reflexivity). assert (N : F_n (ex_bomb (2 ^ 40)) = 2 ^ 40) by (vm_compute; reflexivity).
  split; [exact N|]. intros m H. destruct (C70_chunks _ toy_env_ok _ _ H) as (ck & _ & B); rewrite N in *; [reflexivity|]. rewrite S in B. destruct ck; cbn in B; apply B; reflexivity.
Qed.
