(** C01, C02, C09, C10, C11: packing to bytes. *)
From Verif Require Import Base PyVal Checksums Headers Pretty Args FileIO Spec Json Toy BytesProofs MetaProofs.

(** A sample input, metadata and arguments for the Examples. *)
Definition ex_meta : pyval :=
  PDict [(u "dtype", PStr (u "<f8")); (u "shape", PTuple [PInt 3; PInt (-4)]); (u "note", PList [PNone; PBool true])].
Definition ex_data : bytes := b_of_string "The quick brown fox jumps over the lazy dog" ++ [x00; x00; xff; x00].
Definition ex_bp : bpargs := mkBPA true "adler32" (MAInt 2).
Definition ex_file : bytes :=
  match pack_bytes_to_bytes toy_env ex_data (CSInt 20) ex_meta None (Some ex_bp) None with Ok f => f | Raise _ => [] end.

(** ** C01 *)
Theorem C01_bytes_round_trip : forall E, EnvOK E -> forall b cs m oba obp oma f,
  pack_bytes_to_bytes E b cs m oba obp oma = Ok f ->
  unpack_bytes_from_bytes E f = Ok (b, norm m).
Proof. exact bytes_roundtrip. Qed.
Print Assumptions C01_bytes_round_trip.
Example C01_case : pack_bytes_to_bytes toy_env ex_data (CSInt 20) ex_meta None (Some ex_bp) None = Ok ex_file /\
  size ex_file = 704 /\
  unpack_bytes_from_bytes toy_env ex_file =
    Ok (ex_data, PDict [(u "dtype", PStr (u "<f8")); (u "shape", PList [PInt 3; PInt (-4)]); (u "note", PList [PNone; PBool true])]).
Proof. vm_compute. auto. Qed.

(** ** C02: forward and converse (the size bound, needed for 64-bit offsets, is
    the only gap between the two). *)
Theorem C02_pack_total : forall E, EnvOK E -> forall b cs m oba obp oma n,
  (size b = 0 /\ n = 1) \/ (0 < size b /\ exists z, asked cs z /\ 1 <= z <= BUFMAX /\ n = (size b + z - 1) / z) ->
  n <= 2 ^ 63 - 1 ->
  blosc_args_ok E (the_bargs oba) ->
  In (bp_checksum (the_bpargs obp)) checksum_names ->
  (bp_offsets (the_bpargs obp) = true -> exists v, reserve_of (bp_max_app (the_bpargs obp)) n v /\ 0 <= v /\
      size b + 88 * n + 8 * v + 4294967423 <= 2 ^ 63 - 1) ->
  (m <> PNone -> exists raw p mx, meta_fits E m (the_margs oma) raw p mx) ->
  exists f, pack_bytes_to_bytes E b cs m oba obp oma = Ok f.
Proof. exact pack_valid. Qed.
Print Assumptions C02_pack_total.
Theorem C02_pack_only_valid : forall E, EnvOK E -> forall b cs m oba obp oma f,
  pack_bytes_to_bytes E b cs m oba obp oma = Ok f ->
  exists n,
  ((size b = 0 /\ n = 1) \/ (0 < size b /\ exists z, asked cs z /\ 1 <= z <= BUFMAX /\ n = (size b + z - 1) / z)) /\
  n <= 2 ^ 63 - 1 /\
  blosc_args_ok E (the_bargs oba) /\
  In (bp_checksum (the_bpargs obp)) checksum_names /\
  (bp_offsets (the_bpargs obp) = true -> exists v, reserve_of (bp_max_app (the_bpargs obp)) n v /\ 0 <= v) /\
  (m <> PNone -> exists raw p mx, meta_fits E m (the_margs oma) raw p mx).
Proof. exact pack_only_valid. Qed.
Print Assumptions C02_pack_only_valid.
Example C02_case_meta : exists raw p, meta_fits toy_env ex_meta default_margs raw p (10 * size raw).
Proof.
  exists (b_of_string "{""dtype"":""<f8"",""shape"":[3,-4],""note"":[null,true]}"),
         (b_of_string "{""dtype"":""<f8"",""shape"":[3,-4],""note"":[null,true]}").
  unfold meta_fits. split; [vm_compute; reflexivity|]. split.
  { right. split; [reflexivity|].
    exists (x00 :: b_of_string "{""dtype"":""<f8"",""shape"":[3,-4],""note"":[null,true]}"). split; vm_compute; reflexivity. }
  vm_compute. intuition congruence.
Qed.
Example C02_case_args : blosc_args_ok toy_env default_bargs /\ In "sha512"%string checksum_names /\
  reserve_of (MACall (fun n => Ok (Some (10 * n)))) 7 70 /\ asked (CSStr "1.5M") 1572864.
Proof. repeat split; vm_compute; intuition congruence. Qed.
Example C02_case_rejected : pack_bytes_to_bytes toy_env ex_data (CSInt 20) ex_meta None (Some (mkBPA true "md4" (MAInt 2))) None
  = Raise NoSuchChecksum.
Proof. vm_compute. reflexivity. Qed.

(** ** C09 *)
Theorem C09_meta_round_trip : forall E, EnvOK E -> forall m a d p lg f' tot a',
  0 <= p -> write_metadata E m a (mkfp d p lg) = (f', Ok (tot, a')) ->
  exists h raw pl, meta_fits E m a raw pl (mh_max h) /\
    mheader_describes (sub p 32 (fdata f')) h /\ sub (p + 32) (size pl) (fdata f') = pl /\
    mh_size h = size raw /\ mh_comp h = size pl /\ cks_name (mh_checksum h) = ma_checksum a /\ mh_level h = ma_level a /\
    (codec_name (mh_codec h) = ma_codec a \/ (codec_name (mh_codec h) = "None"%string /\ pl = raw)) /\
    forall g lg', sub p tot g = sub p tot (fdata f') ->
      read_metadata E (mkfp g p lg') = (mkfp g (p + tot) lg', Ok (norm m, h)).
Proof. exact write_read. Qed.
Print Assumptions C09_meta_round_trip.
Example C09_case :
  match write_metadata toy_env ex_meta default_margs (mkfp ex_data 5 []) with
  | (f', Ok (tot, a')) => tot = 526 /\ ma_codec a' = "None"%string
      /\ snd (read_metadata toy_env (mkfp (fdata f' ++ ex_data) 5 []))
         = snd (read_metadata toy_env (mkfp (fdata f') 5 []))
  | _ => False end.
Proof. vm_compute. auto. Qed.

(** ** C10 *)
Theorem C10_meta_geometry : forall E, EnvOK E -> forall m a d p lg f' tot a',
  0 <= p -> write_metadata E m a (mkfp d p lg) = (f', Ok (tot, a')) ->
  tot = 32 + u32 (p + 16) (fdata f') + digest_len (u8 (p + 9) (fdata f')) /\
  max_meta a (u32 (p + 12) (fdata f')) (u32 (p + 16) (fdata f')) /\
  u32 (p + 20) (fdata f') <= u32 (p + 12) (fdata f') /\ u32 (p + 20) (fdata f') <= u32 (p + 16) (fdata f') /\
  (exists raw, e_dumps E m = Ok raw /\ u32 (p + 12) (fdata f') = size raw) /\
  size (fdata f') = Z.max (size d) (p + tot) /\ fpos f' = p + tot /\
  (forall i, Z.of_nat i < Z.min p (size d) \/ p + tot <= Z.of_nat i -> nth_error (fdata f') i = nth_error d i).
Proof. exact write_geometry. Qed.
Print Assumptions C10_meta_geometry.
Theorem C10_meta_too_small : forall E, EnvOK E -> forall m a f raw p mx,
  0 <= fpos f -> e_dumps E m = Ok raw -> payload_of E a raw p -> max_meta a (size raw) mx ->
  ma_magic a = b_of_string "JSON" ->
  (mx < size p <-> write_metadata E m a f = (f, Raise MetadataSectionTooSmall)).
Proof. exact write_too_small. Qed.
Print Assumptions C10_meta_too_small.
Theorem C10_meta_fails_clean : forall E, EnvOK E -> forall m a f f' e,
  0 <= fpos f -> write_metadata E m a f = (f', Raise e) -> f' = f.
Proof. intros E HE m a f f' e Hp H. exact (proj1 (write_raise_same E HE m a f f' e Hp H)). Qed.
Print Assumptions C10_meta_fails_clean.
Example C10_case : write_metadata toy_env ex_meta (mkMA (b_of_string "JSON") "sha256" "None" 0 (MMInt 47)) (mkfp ex_data 5 [])
  = (mkfp ex_data 5 [], Raise MetadataSectionTooSmall) /\
  match snd (write_metadata toy_env ex_meta (mkMA (b_of_string "JSON") "sha256" "None" 0 (MMInt 52)) (mkfp ex_data 5 []))
  with Ok (tot, _) => tot = 116 | _ => False end.
Proof. vm_compute. auto. Qed.

(** ** C11 *)
Theorem C11_layout : forall E, EnvOK E -> forall b cs m oba obp oma f,
  pack_bytes_to_bytes E b cs m oba obp oma = Ok f ->
  exists h hd mb ob chunks,
    f = hd ++ mb ++ ob ++ concat (map (fun c => c ++ digest E (h_checksum h) c) chunks) /\
    header_describes hd h /\
    h_version h = 3 /\ h_offsets h = bp_offsets (the_bpargs obp) /\ h_metadata h = negb (is_none m) /\
    cks_name (h_checksum h) = bp_checksum (the_bpargs obp) /\ h_typesize h = ba_typesize (the_bargs oba) /\
    calculate_nchunks (size b) cs = Ok (h_nchunks h, h_chunk_size h, h_last_chunk h) /\
    (if h_offsets h then exists v, reserve_of (bp_max_app (the_bpargs obp)) (h_nchunks h) v /\ h_max_app h = Z.min v (2 ^ 63 - 1 - h_nchunks h)
     else h_max_app h = 0) /\
    (if is_none m then mb = []
     else exists raw p mh, meta_fits E m (the_margs oma) raw p (mh_max mh) /\
      mb = ztake 32 mb ++ p ++ repeat x00 (Z.to_nat (mh_max mh - size p)) ++ digest E (mh_checksum mh) p /\
      mheader_describes (ztake 32 mb) mh /\ mh_comp mh = size p /\ mh_size mh = size raw /\
      cks_name (mh_checksum mh) = ma_checksum (the_margs oma)) /\
    size ob = (if h_offsets h then 8 * (h_nchunks h + h_max_app h) else 0) /\
    Forall2 (fun x c => e_compress E (the_bargs oba) x = Ok c) (chunks_of (h_chunk_size h) b) chunks.
Proof. exact pack_layout. Qed.
Print Assumptions C11_layout.
Theorem C11_body_size : forall E, EnvOK E -> forall ck chunks,
  size (concat (map (fun c => c ++ digest E ck c) chunks)) =
  fold_right Z.add 0 (map size chunks) + cks_size ck * zlen chunks.
Proof. exact zlen_concat_stored. Qed.
Print Assumptions C11_body_size.
Example C11_case : sub 0 4 ex_file = b_of_string "blpk" /\ i64 16 ex_file = 3 /\ i64 24 ex_file = 2 /\
  i32 8 ex_file = 20 /\ i32 12 ex_file = 7 /\
  size ex_file = 32 + (32 + u32 48 ex_file + 4) + 8 * (3 + 2) + (36 + 4) + (36 + 4) + (16 + 6 + 4).
Proof. vm_compute. repeat split; reflexivity. Qed.
