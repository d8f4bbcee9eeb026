(** C82: damage to several bytes or bits of a chunk or of the metadata. *)
From Verif Require Import Base PyVal Checksums Headers Pretty Args FileIO Append Spec Json Toy MetaProofs Archive HistoryProofs PropsPack PropsAppend
  Damage ChecksumProofs DamageProofs PropsDamage Burst BurstProofs.

(** A chunk and its digest replaced by any bytes at all, the length field excepted:
    the digest decides, and if it is right the decompressor. *)
Theorem C82_chunk_replaced : forall E, EnvOK E -> forall f b m g i ck, archive E f b m -> 0 <= i < F_n f ->
  nth_error checksum_names (Z.to_nat (u8 6 f)) = Some (cks_name ck) ->
  let p := chunk_pos (Z.to_nat i) f in let n := u32 (p + 12) f in
  size g = size f -> agree 0 p f g -> agree (p + 12) 4 f g -> agree (p + n + F_digest f) (size f) f g ->
  let c := sub p n g in let d := sub (p + n) (F_digest f) g in
  let before := sub 0 (i * F_chunk f) b in let after := sub ((i + 1) * F_chunk f) (size b) b in
  (ck <> CkNone -> d <> digest E ck c -> unpack_core E g = (before, Raise ChecksumMismatch)) /\
  (ck = CkNone \/ d = digest E ck c ->
   unpack_core E g = match e_decompress E c with Ok y => (before ++ y ++ after, Ok m) | Raise e => (before, Raise e) end).
Proof. exact chunk_any. Qed.
Print Assumptions C82_chunk_replaced.

(** crc32: any change within 32 consecutive bits of a chunk and its digest. *)
Theorem C82_crc32_burst : forall E, EnvOK E -> forall f b m g i, archive E f b m -> u8 6 f = 2 -> 0 <= i < F_n f ->
  let p := chunk_pos (Z.to_nat i) f in let n := u32 (p + 12) f in
  size g = size f -> agree 0 p f g -> agree (p + 12) 4 f g -> agree (p + n + 4) (size f) f g ->
  g <> f -> close_bits f g -> unpack_core E g = (sub 0 (i * F_chunk f) b, Raise ChecksumMismatch).
Proof. exact chunk_burst. Qed.
Print Assumptions C82_crc32_burst.

(** adler32: any change of two bytes less than 65521 apart. *)
Theorem C82_adler32_pair : forall E, EnvOK E -> forall f b m g i q r, archive E f b m -> u8 6 f = 1 -> 0 <= i < F_n f ->
  let p := chunk_pos (Z.to_nat i) f in let n := u32 (p + 12) f in
  p <= q < r -> r < p + n + 4 -> r - q < 65521 -> ~ (p + 12 <= q < p + 16) -> ~ (p + 12 <= r < p + 16) ->
  size g = size f -> (forall j, 0 <= j -> j <> q -> j <> r -> nth_error f (Z.to_nat j) = nth_error g (Z.to_nat j)) ->
  g <> f -> unpack_core E g = (sub 0 (i * F_chunk f) b, Raise ChecksumMismatch).
Proof. exact chunk_pair. Qed.
Print Assumptions C82_adler32_pair.

(** The same for the metadata; changes of the padding do not count. *)
Theorem C82_metadata_replaced : forall E, EnvOK E -> forall f b m g ck, archive E f b m -> has_meta f = true ->
  nth_error checksum_names (Z.to_nat (u8 41 f)) = Some (cks_name ck) -> ck <> CkNone ->
  size g = size f -> agree 0 64 f g -> agree (64 + u32 48 f + digest_len (u8 41 f)) (size f) f g ->
  sub (64 + u32 48 f) (digest_len (u8 41 f)) g <> digest E ck (sub 64 (u32 52 f) g) ->
  unpack_core E g = ([], Raise ChecksumMismatch).
Proof. exact meta_any. Qed.
Print Assumptions C82_metadata_replaced.
Theorem C82_metadata_burst : forall E, EnvOK E -> forall f b m g, archive E f b m -> has_meta f = true -> u8 41 f = 2 ->
  size g = size f -> agree 0 64 f g -> agree (64 + u32 48 f + 4) (size f) f g ->
  ~ (agree 64 (u32 52 f) f g /\ agree (64 + u32 48 f) 4 f g) -> close_bits f g -> unpack_core E g = ([], Raise ChecksumMismatch).
Proof. exact meta_burst. Qed.
Print Assumptions C82_metadata_burst.
Theorem C82_metadata_pair : forall E, EnvOK E -> forall f b m g q r, archive E f b m -> has_meta f = true -> u8 41 f = 1 ->
  64 <= q < r -> r < 64 + u32 48 f + 4 -> r - q < 65521 ->
  size g = size f -> (forall j, 0 <= j -> j <> q -> j <> r -> nth_error f (Z.to_nat j) = nth_error g (Z.to_nat j)) ->
  ~ (agree 64 (u32 52 f) f g /\ agree (64 + u32 48 f) 4 f g) -> unpack_core E g = ([], Raise ChecksumMismatch).
Proof. exact meta_pair. Qed.
Print Assumptions C82_metadata_pair.

(** Neither bound can be raised.  Adding the generator, 33 bits wide, anywhere
    leaves the crc32 as it was; exchanging two bytes 65521 apart the adler32. *)
Theorem C82_crc32_blind : forall p w w' s k, size w = size w' -> 0 <= k -> Z.lxor (uint_le w) (uint_le w') = 0x1DB710641 * 2 ^ k ->
  crc32 (p ++ w ++ s) = crc32 (p ++ w' ++ s).
Proof. exact crc_blind. Qed.
Print Assumptions C82_crc32_blind.
Theorem C82_adler32_blind : forall a x y mid b, size mid = 65520 -> adler32 (a ++ x :: mid ++ y :: b) = adler32 (a ++ y :: mid ++ x :: b).
Proof. exact adler_swap. Qed.
Print Assumptions C82_adler32_blind.
Theorem C82_adler32_swap : forall E, EnvOK E -> forall f b m g i a x mid y z, archive E f b m -> u8 6 f = 1 -> 0 <= i < F_n f ->
  let p := chunk_pos (Z.to_nat i) f in let n := u32 (p + 12) f in
  f = a ++ x :: mid ++ y :: z -> g = a ++ y :: mid ++ x :: z -> size mid = 65520 -> p <= size a -> size a + 65521 < p + n ->
  (size a < p + 12 \/ p + 16 <= size a) ->
  unpack_core E g = match e_decompress E (sub p n g) with
                    | Ok w => (sub 0 (i * F_chunk f) b ++ w ++ sub ((i + 1) * F_chunk f) (size b) b, Ok m)
                    | Raise e => (sub 0 (i * F_chunk f) b, Raise e) end.
Proof. exact chunk_swap. Qed.
Print Assumptions C82_adler32_swap.

(** ** Cases.  A file with crc32 throughout: the second of its three chunks is at
    196 .. 231, its digest at 232 .. 235. *)
Definition ex_cmeta : margs := mkMA (b_of_string "JSON") "crc32" "zlib" 6 (MMInt 64).
Definition ex_crc : bytes :=
  match pack_bytes_to_bytes toy_env ex_data (CSInt 20) PropsPack.ex_meta None (Some (mkBPA true "crc32" (MAInt 0))) (Some ex_cmeta) with Ok f => f | Raise _ => [] end.
Lemma ex_crc_packed : pack_bytes_to_bytes toy_env ex_data (CSInt 20) PropsPack.ex_meta None (Some (mkBPA true "crc32" (MAInt 0))) (Some ex_cmeta) = Ok ex_crc.
Proof. vm_compute. reflexivity. Qed.
(* n bytes at p changed by the bits of v *)
Definition xor_at (p n v : Z) (f : bytes) : bytes := sub 0 p f ++ le_enc (Z.to_nat n) (Z.lxor (uint_le (sub p n f)) v) ++ zdrop (p + n) f.
(* 32 bits from bit 3 of byte 230 on: the end of the chunk and the first bytes of its digest *)
Definition ex_burst : bytes := xor_at 230 5 (8 * 0x80000001) ex_crc.
Example C82_case_burst : archive toy_env ex_crc ex_data (norm PropsPack.ex_meta) /\ u8 6 ex_crc = 2 /\ F_n ex_crc = 3 /\
  chunk_pos 1 ex_crc = 196 /\ u32 (196 + 12) ex_crc = 36 /\ size ex_burst = size ex_crc /\
  agree 0 196 ex_crc ex_burst /\ agree (196 + 12) 4 ex_crc ex_burst /\ agree (196 + 36 + 4) (size ex_crc) ex_crc ex_burst /\
  ex_burst <> ex_crc /\ close_bits ex_crc ex_burst /\
  unpack_core toy_env ex_burst = (sub 0 20 ex_data, Raise ChecksumMismatch).
Proof.
  split; [exact (ar_pack _ _ _ _ _ _ _ _ ex_crc_packed)|].
  split; [vm_compute; reflexivity|]. split; [vm_compute; reflexivity|]. split; [vm_compute; reflexivity|]. split; [vm_compute; reflexivity|].
  split; [vm_compute; reflexivity|].
  split; [apply CrashProofs.sub_agree; [discriminate|vm_compute; reflexivity]|]. split; [apply CrashProofs.sub_agree; [discriminate|vm_compute; reflexivity]|].
  split; [apply CrashProofs.sub_agree; [discriminate|vm_compute; reflexivity]|]. split; [vm_compute; discriminate|].
  split; [apply (close_test (8 * 230 + 3)); vm_compute; reflexivity|]. vm_compute. reflexivity.
Qed.
(* one bit more, the generator: not noticed, and other contents come out *)
Definition ex_gen : bytes := xor_at 215 5 (8 * 0x1DB710641) ex_crc.
Example C82_case_gen : size ex_gen = size ex_crc /\ ex_gen <> ex_crc /\ sub 232 4 ex_gen = digest toy_env CkCrc32 (sub 196 36 ex_gen) /\
  snd (unpack_core toy_env ex_gen) = Ok (norm PropsPack.ex_meta) /\ fst (unpack_core toy_env ex_gen) <> ex_data /\
  sub 0 20 (fst (unpack_core toy_env ex_gen)) = sub 0 20 ex_data /\ sub 40 7 (fst (unpack_core toy_env ex_gen)) = sub 40 7 ex_data.
Proof. vm_compute. intuition congruence. Qed.
(* metadata: payload at 64 .. 112, digest at 128 .. 131 *)
Definition ex_mburst : bytes := xor_at 100 5 (8 * 0x80000001) ex_crc.
Example C82_case_meta : has_meta ex_crc = true /\ u8 41 ex_crc = 2 /\ u32 52 ex_crc = 49 /\ u32 48 ex_crc = 64 /\ size ex_mburst = size ex_crc /\
  agree 0 64 ex_crc ex_mburst /\ agree (64 + 64 + 4) (size ex_crc) ex_crc ex_mburst /\ ~ agree 64 49 ex_crc ex_mburst /\ close_bits ex_crc ex_mburst /\
  unpack_core toy_env ex_mburst = ([], Raise ChecksumMismatch).
Proof.
  split; [vm_compute; reflexivity|]. split; [vm_compute; reflexivity|]. split; [vm_compute; reflexivity|]. split; [vm_compute; reflexivity|].
  split; [vm_compute; reflexivity|]. split; [apply CrashProofs.sub_agree; [discriminate|vm_compute; reflexivity]|].
  split; [apply CrashProofs.sub_agree; [discriminate|vm_compute; reflexivity]|].
  split; [intros A; apply CrashProofs.sub_ext in A; [vm_compute in A; discriminate A|discriminate]|].
  split; [apply (close_test (8 * 100 + 3)); vm_compute; reflexivity|]. vm_compute. reflexivity.
Qed.
(* adler32, two bytes: one of the third chunk of ex_f5 (678 .. 713) and one of its digest *)
Definition ex_pair : bytes := flip 715 (flip 700 ex_f5).
Example C82_case_pair : u8 6 ex_f5 = 1 /\ F_n ex_f5 = 4 /\ chunk_pos 2 ex_f5 = 678 /\ u32 (678 + 12) ex_f5 = 36 /\ size ex_pair = size ex_f5 /\
  (forall j, 0 <= j -> j <> 700 -> j <> 715 -> nth_error ex_f5 (Z.to_nat j) = nth_error ex_pair (Z.to_nat j)) /\ ex_pair <> ex_f5 /\
  unpack_core toy_env ex_pair = (sub 0 40 (ex_data ++ ex_new1), Raise ChecksumMismatch).
Proof.
  split; [vm_compute; reflexivity|]. split; [vm_compute; reflexivity|]. split; [vm_compute; reflexivity|]. split; [vm_compute; reflexivity|].
  split; [vm_compute; reflexivity|]. split; [apply (differ_test _ _ 700 715); vm_compute; reflexivity|]. split; [vm_compute; discriminate|].
  vm_compute. reflexivity.
Qed.
(* two bytes of the metadata of ex_f5 (payload 64 .. 78, digest 554 .. 557) *)
Definition ex_mpair : bytes := flip 555 (flip 70 ex_f5).
Example C82_case_mpair : has_meta ex_f5 = true /\ u8 41 ex_f5 = 1 /\ u32 48 ex_f5 = 490 /\ size ex_mpair = size ex_f5 /\
  (forall j, 0 <= j -> j <> 70 -> j <> 555 -> nth_error ex_f5 (Z.to_nat j) = nth_error ex_mpair (Z.to_nat j)) /\
  ~ agree 64 (u32 52 ex_f5) ex_f5 ex_mpair /\ unpack_core toy_env ex_mpair = ([], Raise ChecksumMismatch).
Proof.
  split; [vm_compute; reflexivity|]. split; [vm_compute; reflexivity|]. split; [vm_compute; reflexivity|].
  split; [vm_compute; reflexivity|]. split; [apply (differ_test _ _ 70 555); vm_compute; reflexivity|].
  split; [intros A; apply CrashProofs.sub_ext in A; [vm_compute in A; discriminate A|discriminate]|]. vm_compute. reflexivity.
Qed.
(* two bytes 65521 apart; the toy Blosc with a reversal that takes linear time *)
Definition fast_compress (a : bargs) (x : bytes) : res bytes :=
  if (1 <=? ba_typesize a) && (ba_typesize a <=? 255) && (0 <=? ba_clevel a) && (ba_clevel a <=? 9)
     && toy_cname (ba_cname a) && (zlen x <=? BUFMAX)
  then let p := rev_append (lstrip0 (rev_append x [])) [] in
       Ok ([x02; x01; (if ba_shuffle a then x01 else x00); bZ (ba_typesize a)]
           ++ le_enc 4 (zlen x) ++ le_enc 4 (zlen x) ++ le_enc 4 (16 + zlen p) ++ p)
  else Raise ValueError.
Lemma fast_is a x : fast_compress a x = toy_compress a x.
Proof. unfold fast_compress, toy_compress, rstrip0. rewrite <- !rev_alt. reflexivity. Qed.
Definition fast_env : Env := mkEnv fast_compress toy_decompress toy_cname toy_zcompress toy_zdecompress toy_hash dumps loads false.
Lemma fast_env_ok : EnvOK fast_env.
Proof.
  destruct toy_env_ok. constructor; unfold blosc_args_ok in *;
    cbn [e_compress e_decompress e_cname_ok e_zcompress e_zdecompress e_hashlib e_dumps e_loads toy_env fast_env] in *; intros; rewrite ?fast_is in *; eauto.
Qed.
Definition ex_big (x y : byte) : bytes := x :: zrep 65520 x2a ++ [y; x03].
Definition made (r : res bytes) : bytes := match r with Ok f => f | Raise _ => [] end.
Definition ex_bigf (x y : byte) : bytes :=
  made (pack_bytes_to_bytes fast_env (ex_big x y) (CSInt 100000) PNone None (Some (mkBPA false "adler32" (MAInt 0))) None).
Example C82_case_swap : EnvOK fast_env /\ let f := ex_bigf x01 x02 in let g := ex_bigf x02 x01 in
  u8 6 f = 1 /\ F_n f = 1 /\ chunk_pos 0 f = 32 /\ u32 (32 + 12) f = 65539 /\
  bytes_eqb f (sub 0 48 f ++ x01 :: zrep 65520 x2a ++ x02 :: zdrop 65570 f) = true /\
  bytes_eqb g (sub 0 48 f ++ x02 :: zrep 65520 x2a ++ x01 :: zdrop 65570 f) = true /\
  zlen (zrep 65520 x2a) = 65520 /\ 48 + 65521 < 32 + 65539 /\ 32 + 16 <= 48.
Proof. split; [exact fast_env_ok|]. vm_compute. intuition congruence. Qed.
