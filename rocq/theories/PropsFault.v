(** C80: I/O errors and full disks. *)
From Verif Require Import Base PyVal Checksums Headers Args FileIO Append Spec Json Toy MetaProofs Archive Damage DamageProofs HistoryProofs
  Overlap Torn TornProofs Fault FaultProofs DiskProofs FaultCases PropsPack PropsAppend.

(** ** C80: the programs of Fault.v are pack, append_fp, the metadata rewrite and
    unpack, when nothing fails. *)
Theorem C80_model_pack : forall E S Chunk (src : plain_source S Chunk) n c l m oba obp oma s f,
  let k := snd (fst (pack src (fp_sink E) n c l m oba obp oma (s, cfs_of f))) in
  let r := play (pack_io E src n c l m oba obp oma) (s, f) in
  snd (fst r) = s_fp k /\ fst (fst r) = fst (fst (pack src (fp_sink E) n c l m oba obp oma (s, cfs_of f))) /\
  snd r = match snd (pack src (fp_sink E) n c l m oba obp oma (s, cfs_of f)) with Ok _ => Ok tt | Raise e => Raise e end.
Proof. exact model_pack. Qed.
Print Assumptions C80_model_pack.
Theorem C80_model : forall E,
  (forall new_size o nf f, play (append_io E f_read new_size o) (nf, f) = append_fp E new_size o (nf, f)) /\
  (forall S m ov (s : S) f, play (rewrite_io E m ov) (s, f) = let '(f', r) := rewrite_metadata E m ov f in ((s, f'), r)) /\
  (forall f, let r := play (unpack_io E) (fp_of f, fp_of []) in (fdata (snd (fst r)), snd r) = unpack_core E f).
Proof. exact model_rest. Qed.
Print Assumptions C80_model.

(** ** Packing: however it ends, unpacking what is there gives whole chunks of the
    data from the start, and succeeds only with all of it and the right metadata. *)
Theorem C80_pack : forall E, EnvOK E -> forall b csa m oba obp oma f g,
  pack_bytes_to_bytes E b csa m oba obp oma = Ok f -> broken_pack E b csa m oba obp oma g ->
  size g <= size f /\
  (forall m', snd (unpack_core E g) = Ok m' -> fst (unpack_core E g) = b /\ m' = norm m) /\
  (exists i, 0 <= i <= F_n f /\ fst (unpack_core E g) = sub 0 (i * F_chunk f) b).
Proof. exact pack_fault. Qed.
Print Assumptions C80_pack.
Example C80_pack_case : pack_bytes_to_bytes toy_env ex_data (CSInt 20) ex_meta None (Some ex_bp) None = Ok ex_file /\
  broken_pack toy_env ex_data (CSInt 20) ex_meta None (Some ex_bp) None (firstn 650 ex_nooff) /\
  fst (unpack_core toy_env (firstn 650 ex_nooff)) = sub 0 20 ex_data.
Proof. exact pack_case. Qed.

(** ** Appending: the chunks before the last one, the offsets that lead to them and
    the metadata survive an error at any point. *)
Theorem C80_append : forall E, EnvOK E -> forall f b m new oa d,
  archive E f b m -> sizable f new -> has_offsets f = true -> broken_append E f new oa d ->
  sub 0 12 d = sub 0 12 f /\ sub 32 (F_table f - 32) d = sub 32 (F_table f - 32) f /\ F_table d = F_table f /\
  (forall i, 0 <= i < F_n f -> F_off d i = F_off f i) /\
  (forall i, 0 <= i < F_n f - 1 ->
     chunk_at (F_off d i) d = chunk_at (F_off f i) f /\
     e_decompress E (chunk_at (F_off d i) d) = Ok (sub (i * F_chunk f) (F_chunk f) b)).
Proof. exact append_fault. Qed.
Print Assumptions C80_append.
Example C80_append_case : archive toy_env ex_file ex_data (norm ex_meta) /\ sizable ex_file ex_new1 /\ has_offsets ex_file = true /\
  broken_append toy_env ex_file ex_new1 no_obargs ex_half /\ size ex_half = 730 /\ size ex_file = 704.
Proof. exact append_case. Qed.

(** ** Rewriting the metadata: header, offset table and chunks stay as they are. *)
Theorem C80_rewrite : forall E, EnvOK E -> forall f b m m' ov g,
  archive E f b m -> broken_rewrite E f m' ov g ->
  mixture f (fst (rewrite_bytes E f m' ov)) g /\
  agree 0 32 f g /\ agree (F_table f) (size f - F_table f) f g /\
  (64 + u32 52 g <= size g ->
   (exists e, unpack_core E g = ([], Raise e)) \/ (exists m'', unpack_core E g = (b, Ok m''))).
Proof. exact rewrite_fault. Qed.
Print Assumptions C80_rewrite.
Example C80_rewrite_case : archive toy_env ex_file ex_data (norm ex_meta) /\
  broken_rewrite toy_env ex_file ex_meta2 default_overrides ex_torn24 /\ ex_torn24 <> ex_file /\ 64 + u32 52 ex_torn24 <= size ex_torn24.
Proof. exact rewrite_case. Qed.

(** ** Unpacking: the output is the beginning of what it would have been, for every
    file whatsoever. *)
Theorem C80_unpack : forall E f g, broken_unpack E f g -> exists j, g = firstn j (fst (unpack_core E f)).
Proof. exact unpack_errors. Qed.
Print Assumptions C80_unpack.
Theorem C80_unpack_archive : forall E, EnvOK E -> forall f b m g, archive E f b m -> broken_unpack E f g -> exists rest, b = g ++ rest.
Proof. exact unpack_fault. Qed.
Print Assumptions C80_unpack_archive.
Example C80_unpack_case : archive toy_env ex_file ex_data (norm ex_meta) /\ broken_unpack toy_env ex_file (firstn 30 ex_data).
Proof. exact unpack_case. Qed.

(** ** These descriptions are exact: an error can happen after every single byte. *)
Theorem C80_every_point : forall E,
  (forall b csa m oba obp oma j, pack_log E b csa m oba obp oma <> [] -> (j <= List.length (pack_log E b csa m oba obp oma))%nat ->
     broken_pack E b csa m oba obp oma (crash j (pack_log E b csa m oba obp oma) [])) /\
  (forall f new oa j, append_log E f new oa <> [] -> (j <= List.length (append_log E f new oa))%nat ->
     broken_append E f new oa (crash j (append_log E f new oa) f)) /\
  (forall f m ov j, rewrite_log E f m ov <> [] -> (j <= List.length (rewrite_log E f m ov))%nat ->
     broken_rewrite E f m ov (crash j (rewrite_log E f m ov) f)) /\
  (forall f j, fst (unpack_core E f) <> [] -> broken_unpack E f (firstn j (fst (unpack_core E f)))).
Proof. exact every_point. Qed.
Print Assumptions C80_every_point.

(** ** A full disk.  Packing and unpacking succeed when the result fits; otherwise
    they raise OSError and what fits is there. *)
Theorem C80_disk_pack : forall E, EnvOK E -> forall cap b csa m oba obp oma f,
  0 <= cap -> pack_bytes_to_bytes E b csa m oba obp oma = Ok f ->
  (size f <= cap -> pack_on_disk E cap b csa m oba obp oma = (f, Ok tt)) /\
  (cap < size f -> exists g, pack_on_disk E cap b csa m oba obp oma = (g, Raise OSError) /\ size g = cap /\
     (forall m', snd (unpack_core E g) = Ok m' -> fst (unpack_core E g) = b /\ m' = norm m)).
Proof. exact disk_pack. Qed.
Print Assumptions C80_disk_pack.
Theorem C80_disk_unpack : forall E cap f, 0 <= cap -> unpack_on_disk E cap f =
  if size (fst (unpack_core E f)) <=? cap then unpack_core E f else (sub 0 cap (fst (unpack_core E f)), Raise OSError).
Proof. exact unpack_disk. Qed.
Print Assumptions C80_disk_unpack.
(** A metadata rewrite needs no room. *)
Theorem C80_disk_rewrite : forall E, EnvOK E -> forall cap f b m m' ov,
  archive E f b m -> size f <= cap -> rewrite_on_disk E cap f m' ov = rewrite_bytes E f m' ov.
Proof. exact rewrite_disk. Qed.
Print Assumptions C80_disk_rewrite.
(** Appending succeeds when the result fits; otherwise it raises OSError at the first
    byte that does not fit. *)
Theorem C80_disk_append : forall E cap f new oa, size f <= cap ->
  (size (fst (append_bytes E f new oa)) <= cap -> append_on_disk E cap f new oa = append_bytes E f new oa) /\
  (cap < size (fst (append_bytes E f new oa)) ->
   exists j w, nth_error (append_log E f new oa) j = Some w /\ cap <= fst w /\ (forall v, In v (firstn j (append_log E f new oa)) -> fst v < cap) /\
   append_on_disk E cap f new oa = (crash j (append_log E f new oa) f, Raise OSError) /\ broken_append E f new oa (crash j (append_log E f new oa) f)).
Proof. exact disk_append. Qed.
Print Assumptions C80_disk_append.
Example C80_disk_case : size ex_file = 704 /\ size (fst (append_bytes toy_env ex_file ex_new1 no_obargs)) = 757 /\
  append_on_disk toy_env 730 ex_file ex_new1 no_obargs = (ex_half, Raise OSError) /\
  pack_on_disk toy_env 700 ex_data (CSInt 20) ex_meta None (Some ex_bp) None = (firstn 700 ex_nooff, Raise OSError) /\
  unpack_on_disk toy_env 25 ex_file = (firstn 25 ex_data, Raise OSError).
Proof. exact disk_case. Qed.

(** ** What cannot be said: that an append that has failed has changed nothing.  The
    old contents may be unreadable; or unpacking succeeds with some of the new
    contents, and then repeating the append when there is room again stores these
    twice. *)
Theorem C80_append_atomic_refuted : exists E f b m new oa cap cap' g g' h x,
  EnvOK E /\ archive E f b m /\ sizable f new /\ size f <= cap /\ size f <= cap' /\
  append_on_disk E cap f new oa = (g, Raise OSError) /\ (exists e, unpack_bytes_from_bytes E g = Raise e) /\
  append_on_disk E cap' f new oa = (g', Raise OSError) /\ unpack_bytes_from_bytes E g' = Ok (b ++ x, m) /\ x <> [] /\ x <> new /\
  append_bytes E g' new oa = (h, Ok 2) /\ unpack_bytes_from_bytes E h = Ok (b ++ x ++ new, m).
Proof. exact append_not_atomic. Qed.
Print Assumptions C80_append_atomic_refuted.
