(** C03-C08, C42, C43, C45: headers, chunking and argument checks. *)
From Verif Require Import Base PyVal Checksums Headers Pretty Args FileIO Spec BaseLemmas HeaderProofs IOProofs SmallProofs.

(* ------------------------------------------------------------------ *)
(** ** C03 *)
Theorem C03_chunking_partitions : forall sz cs n c last,
  0 <= sz -> calculate_nchunks sz cs = Ok (n, c, last) ->
  1 <= n <= 2 ^ 63 - 1 /\ (n - 1) * c + last = sz /\ 0 <= last <= c /\
  c <= BUFMAX /\ last <= BUFMAX /\ c <= sz /\
  (0 < sz -> 1 <= c /\ 0 < last /\ exists z, asked cs z /\ c = Z.min z sz) /\
  (sz = 0 -> n = 1 /\ c = 0 /\ last = 0).
Proof. exact calculate_partition. Qed.
Print Assumptions C03_chunking_partitions.
Example C03_case : calculate_nchunks 2500000 (CSStr "1.0M") = Ok (3, 1048576, 402848) /\ asked (CSStr "1.0M") 1048576.
Proof. split; vm_compute; reflexivity. Qed.

(** ** C04 *)
Theorem C04_chunking_accepts : forall sz cs,
  (exists r, calculate_nchunks sz cs = Ok r) <->
  sz = 0 \/ (0 < sz /\ exists z, asked cs z /\ 1 <= z <= BUFMAX /\ (sz + z - 1) / z <= 2 ^ 63 - 1).
Proof. exact calculate_accepts. Qed.
Print Assumptions C04_chunking_accepts.
Theorem C04_chunking_rejects : forall sz cs e, calculate_nchunks sz cs = Raise e ->
  (sz < 0 /\ e = ValueError) \/
  (0 < sz /\ cs = CSOther /\ e = TypeError) \/
  (0 < sz /\ (exists s, cs = CSStr s /\ reverse_pretty s = Raise e)) \/
  (0 < sz /\ (exists z, asked cs z /\ ~ (1 <= z <= BUFMAX)) /\ e = ValueError) \/
  (0 < sz /\ (exists z, asked cs z /\ 1 <= z <= BUFMAX /\ 2 ^ 63 - 1 < (sz + z - 1) / z) /\ e = ChunkingException).
Proof. exact calculate_rejects. Qed.
Print Assumptions C04_chunking_rejects.
Example C04_case_neg : calculate_nchunks (-1) (CSInt 5) = Raise ValueError.
Proof. reflexivity. Qed.
Example C04_case_many : calculate_nchunks (2 ^ 63) (CSInt 1) = Raise ChunkingException.
Proof. vm_compute. reflexivity. Qed.
Example C04_case_big : calculate_nchunks 10 (CSInt (BUFMAX + 1)) = Raise ValueError.
Proof. vm_compute. reflexivity. Qed.
Example C04_case_text : calculate_nchunks 10 (CSStr "1X") = Raise ValueError.
Proof. vm_compute. reflexivity. Qed.
Example C04_case_max : calculate_nchunks (2 ^ 63 - 1) (CSInt 1) = Ok (2 ^ 63 - 1, 1, 1).
Proof. vm_compute. reflexivity. Qed.

(** ** C05 *)
Theorem C05_reserve_unused : forall off n m,
  -1 <= n <= 2 ^ 63 - 1 -> off = false \/ n = -1 -> handle_max_apps off n m = Ok 0.
Proof. exact max_apps_unused. Qed.
Print Assumptions C05_reserve_unused.
Theorem C05_reserve_int : forall n v, 0 <= n <= 2 ^ 63 - 1 ->
  handle_max_apps true n (MAInt v) =
  if (0 <=? v) && (v <=? 2 ^ 63 - 1) then Ok (Z.min v (2 ^ 63 - 1 - n)) else Raise ValueError.
Proof. exact max_apps_int. Qed.
Print Assumptions C05_reserve_int.
Theorem C05_reserve_callable : forall n f, 0 <= n <= 2 ^ 63 - 1 ->
  handle_max_apps true n (MACall f) =
  match f n with
  | Ok (Some v) => if 0 <=? v then Ok (Z.min v (2 ^ 63 - 1 - n)) else Raise ValueError
  | Ok None => Raise ValueError
  | Raise e => Raise e
  end.
Proof. exact max_apps_call. Qed.
Print Assumptions C05_reserve_callable.
Theorem C05_reserve_other : forall n, 0 <= n <= 2 ^ 63 - 1 -> handle_max_apps true n MAOther = Raise TypeError.
Proof. exact max_apps_other. Qed.
Print Assumptions C05_reserve_other.
Theorem C05_reserve_representable : forall off n m v,
  handle_max_apps off n m = Ok v -> 0 <= v /\ (n <> -1 -> n + v <= 2 ^ 63 - 1).
Proof. exact max_apps_sum. Qed.
Print Assumptions C05_reserve_representable.
Example C05_case_clip : handle_max_apps true (2 ^ 63 - 4) (MAInt 10) = Ok 3.
Proof. vm_compute. reflexivity. Qed.
Example C05_case_call : handle_max_apps true 7 (bp_max_app default_bpargs) = Ok 70.
Proof. vm_compute. reflexivity. Qed.

(* ------------------------------------------------------------------ *)
(** ** C06 *)
Lemma c06 ver off meta ck ts cs lc n m h : mk_header ver off meta ck ts cs lc n m = Ok h ->
  exists b, header_encode h = Ok b /\ size b = 32 /\ header_decode b = Ok h /\ header_describes b h /\
    h_version h = ver /\ h_offsets h = off /\ h_metadata h = meta /\ cks_name (h_checksum h) = ck /\
    h_typesize h = ts /\ h_chunk_size h = cs /\ h_last_chunk h = lc /\ h_nchunks h = n /\ h_max_app h = m.
Proof.
  intros H. pose proof (mk_header_ok _ _ _ _ _ _ _ _ _ _ H) as K.
  apply mk_header_Ok in H as (_ & _ & c & -> & ->).
  exists (header_bytes (mkH ver off meta c ts cs lc n m)).
  pose proof (header_decode_bytes _ K) as D.
  split; [apply header_encode_ok; auto|]. split; [apply zlen_header_bytes|]. split; [exact D|].
  split; [apply header_decode_describes; exact D|]. cbn. repeat split.
Qed.
Theorem C06_header_roundtrip : forall ver off meta ck ts cs lc n m h,
  mk_header ver off meta ck ts cs lc n m = Ok h ->
  exists b, header_encode h = Ok b /\ size b = 32 /\ header_decode b = Ok h /\ header_describes b h /\
    h_version h = ver /\ h_offsets h = off /\ h_metadata h = meta /\ cks_name (h_checksum h) = ck /\
    h_typesize h = ts /\ h_chunk_size h = cs /\ h_last_chunk h = lc /\ h_nchunks h = n /\ h_max_app h = m.
Proof. exact c06. Qed.
Print Assumptions C06_header_roundtrip.
Lemma c06_accepts ver off meta ck ts cs lc n m :
  (exists h, mk_header ver off meta ck ts cs lc n m = Ok h) <->
  0 <= ver <= 255 /\ In ck checksum_names /\ header_nums_ok ts cs lc n m.
Proof.
  split.
  - intros [h H]. apply mk_header_Ok in H as (Hv & Hn & c & -> & _). split; [exact Hv|]. split; [|exact Hn].
    destruct c; cbn; tauto.
  - intros (Hv & Hc & Hn). assert (exists c, ck = cks_name c) as [c ->].
    { cbn in Hc. destruct Hc as [<-|[<-|[<-|[<-|[<-|[<-|[<-|[<-|[<-|[]]]]]]]]]].
      - exists CkNone; reflexivity. - exists CkAdler32; reflexivity. - exists CkCrc32; reflexivity.
      - exists CkMd5; reflexivity. - exists CkSha1; reflexivity. - exists CkSha224; reflexivity.
      - exists CkSha256; reflexivity. - exists CkSha384; reflexivity. - exists CkSha512; reflexivity. }
    rewrite mk_header_intro by auto. eauto.
Qed.
Theorem C06_header_constructor_accepts : forall ver off meta ck ts cs lc n m,
  (exists h, mk_header ver off meta ck ts cs lc n m = Ok h) <->
  0 <= ver <= 255 /\ In ck checksum_names /\ header_nums_ok ts cs lc n m.
Proof. exact c06_accepts. Qed.
Print Assumptions C06_header_constructor_accepts.
Example C06_case :
  mk_header 3 true true "sha512" 8 1048576 402848 3 (2 ^ 62) =
    Ok (mkH 3 true true CkSha512 8 1048576 402848 3 4611686018427387904) /\
  rbind (header_encode (mkH 3 true true CkSha512 8 1048576 402848 3 4611686018427387904)) header_decode =
    Ok (mkH 3 true true CkSha512 8 1048576 402848 3 4611686018427387904).
Proof. split; vm_compute; reflexivity. Qed.

(** ** C07 *)
Theorem C07_header_decode_accepts : forall b,
  (exists h, header_decode b = Ok h) <->
  size b = 32 /\ sub 0 4 b = b_of_string "blpk" /\ u8 5 b < 4 /\ u8 6 b < 9 /\
  header_nums_ok (u8 7 b) (i32 8 b) (i32 12 b) (i64 16 b) (i64 24 b).
Proof. exact header_decode_accepts. Qed.
Print Assumptions C07_header_decode_accepts.
Theorem C07_header_decode_fields : forall b h, header_decode b = Ok h -> header_describes b h.
Proof. exact header_decode_describes. Qed.
Print Assumptions C07_header_decode_fields.
Lemma c07_canonical b h : header_decode b = Ok h -> header_encode h = Ok b.
Proof. intros H. apply header_decode_inv in H as [H ->]. apply header_encode_ok; auto. Qed.
Theorem C07_header_decode_canonical : forall b h, header_decode b = Ok h -> header_encode h = Ok b.
Proof. exact c07_canonical. Qed.
Print Assumptions C07_header_decode_canonical.
Lemma c07_inj b b' h : header_decode b = Ok h -> header_decode b' = Ok h -> b = b'.
Proof. intros H H'. apply c07_canonical in H, H'. congruence. Qed.
Theorem C07_header_decode_injective : forall b b' h,
  header_decode b = Ok h -> header_decode b' = Ok h -> b = b'.
Proof. exact c07_inj. Qed.
Print Assumptions C07_header_decode_injective.
Theorem C07_header_decode_refuses : forall b e, header_decode b = Raise e ->
  e = ValueError \/ (e = IndexError /\ size b = 32 /\ 9 <= u8 6 b).
Proof. exact header_decode_refuses. Qed.
Print Assumptions C07_header_decode_refuses.
Definition c07_buf : bytes :=
  b_of_string "blpk" ++ [x03; x03; x01; x08] ++ le_enc 4 1048576 ++ le_enc 4 402848 ++ le_enc 8 3 ++ le_enc 8 30.
Example C07_case : header_decode c07_buf = Ok (mkH 3 true true CkAdler32 8 1048576 402848 3 30).
Proof. vm_compute. reflexivity. Qed.
Example C07_case_bad : header_decode (b_of_string "blpk" ++ [x03; x03; x09; x08] ++ skipn 8 c07_buf) = Raise IndexError.
Proof. vm_compute. reflexivity. Qed.

(** ** C08 *)
Lemma c08 magic opts ck co lvl sz mx cm user h :
  mk_mheader magic opts ck co lvl sz mx cm user = Ok h -> no_edge_nul magic -> no_edge_nul user ->
  exists b, mheader_encode h = Ok b /\ size b = 32 /\ mheader_decode b = Ok h /\ mheader_describes b h.
Proof.
  intros H H1 H2. apply mk_mheader_Ok in H as (Hok & c & k & -> & -> & ->).
  eexists. split; [apply mheader_encode_ok; exact Hok|]. split; [apply zlen_mheader_bytes; auto|].
  split; [apply mheader_decode_bytes; auto|apply mheader_bytes_describe; auto].
Qed.
Theorem C08_metadata_header_roundtrip : forall magic opts ck co lvl sz mx cm user h,
  mk_mheader magic opts ck co lvl sz mx cm user = Ok h -> no_edge_nul magic -> no_edge_nul user ->
  exists b, mheader_encode h = Ok b /\ size b = 32 /\ mheader_decode b = Ok h /\ mheader_describes b h.
Proof. exact c08. Qed.
Print Assumptions C08_metadata_header_roundtrip.
Theorem C08_metadata_header_decode_accepts : forall b,
  (exists h, mheader_decode b = Ok h) <-> size b = 32 /\ u8 9 b < 9 /\ u8 10 b < 2 /\ u8 11 b <= 9.
Proof. exact mheader_decode_accepts. Qed.
Print Assumptions C08_metadata_header_decode_accepts.
Example C08_case :
  mk_mheader (b_of_string "JSON") "00000000" "sha256" "zlib" 6 100 1000 57 (b_of_string "abc") =
    Ok (mkMH (b_of_string "JSON") "00000000" CkSha256 CoZlib 6 100 1000 57 (b_of_string "abc")) /\
  no_edge_nul (b_of_string "JSON") /\ no_edge_nul (b_of_string "abc").
Proof. split; [vm_compute; reflexivity|]. split; split; cbn; discriminate. Qed.
(** Without the NUL condition the round trip fails: the condition is needed. *)
Theorem C08_nul_ended_identifier_refuted : exists magic h b h',
  mk_mheader magic "00000000" "None" "None" 0 0 0 0 [] = Ok h /\
  mheader_encode h = Ok b /\ mheader_decode b = Ok h' /\ h' <> h.
Proof.
  exists [x4a; x00], (mkMH [x4a; x00] "00000000" CkNone CoNone 0 0 0 0 []),
    (x4a :: zrep 31 x00), (mkMH [x4a] "00000000" CkNone CoNone 0 0 0 0 []).
  split; [vm_compute; reflexivity|].
  split; [vm_compute; reflexivity|]. split; [vm_compute; reflexivity|]. discriminate.
Qed.
Print Assumptions C08_nul_ended_identifier_refuted.

(* ------------------------------------------------------------------ *)
(** ** C42 *)
Theorem C42_blosc_header_fields : forall b, 16 <= size b ->
  decode_blosc_header b = Ok (mkBH (u8 0 b) (u8 1 b) (u8 2 b) (u8 3 b) (u32 4 b) (u32 8 b) (u32 12 b)).
Proof. exact decode_blosc_header_ok. Qed.
Print Assumptions C42_blosc_header_fields.
Theorem C42_blosc_header_short : forall b, size b < 16 ->
  exists e, decode_blosc_header b = Raise e /\ (e = IndexError \/ e = StructError).
Proof. exact decode_blosc_header_short. Qed.
Print Assumptions C42_blosc_header_short.
Theorem C42_blosc_flags : forall z, 0 <= z < 256 ->
  (z / 32 < 5 -> exists r, decode_blosc_flags z = Ok r /\
     bf_byte_shuffle r = Z.odd z /\ bf_pure_memcpy r = Z.odd (z / 2) /\
     bf_bit_shuffle r = Z.odd (z / 4) /\ bf_split_blocks r = Z.odd (z / 16) /\
     nth_error ["blosclz"; "lz4"; "snappy"; "zlib"; "zstd"]%string (Z.to_nat (z / 32)) = Some (bf_codec r)) /\
  (5 <= z / 32 -> decode_blosc_flags z = Raise KeyError).
Proof. exact blosc_flags_spec. Qed.
Print Assumptions C42_blosc_flags.
Example C42_case : decode_blosc_flags 0x91 = Ok (mkBF true false false true "zstd").
Proof. vm_compute. reflexivity. Qed.

(** ** C43 *)
Lemma c43_create off meta : decode_options (create_options off meta) = Ok (off, meta).
Proof. destruct off, meta; reflexivity. Qed.
Theorem C43_options_roundtrip : forall off meta, decode_options (create_options off meta) = Ok (off, meta).
Proof. exact c43_create. Qed.
Print Assumptions C43_options_roundtrip.
Theorem C43_options_byte : forall z, 0 <= z < 256 ->
  decode_options (decode_bitfield z) = if z <? 4 then Ok (Z.odd z, Z.odd (z / 2)) else Raise ValueError.
Proof. exact options_spec. Qed.
Print Assumptions C43_options_byte.
Example C43_case : decode_options (decode_bitfield 2) = Ok (false, true) /\ decode_options (decode_bitfield 130) = Raise ValueError.
Proof. split; vm_compute; reflexivity. Qed.

(** ** C45 *)
Theorem C45_arguments_checked_exactly : forall received expected,
  check_args received expected = Ok tt <-> (forall k, In k received <-> In k expected).
Proof. exact check_args_iff. Qed.
Print Assumptions C45_arguments_checked_exactly.
Theorem C45_arguments_error : forall received expected e, check_args received expected = Raise e -> e = ValueError.
Proof. exact check_args_raise. Qed.
Print Assumptions C45_arguments_error.
Lemma c45_blosc keys : check_blosc_args keys = Ok tt <->
  (forall k, In k keys <-> In k ["typesize"; "clevel"; "shuffle"; "cname"]%string).
Proof. apply check_args_iff. Qed.
Theorem C45_blosc_arguments : forall keys, check_blosc_args keys = Ok tt <->
  (forall k, In k keys <-> In k ["typesize"; "clevel"; "shuffle"; "cname"]%string).
Proof. exact c45_blosc. Qed.
Print Assumptions C45_blosc_arguments.
Lemma c45_bloscpack keys : check_bloscpack_args keys = Ok tt <->
  (forall k, In k keys <-> In k ["offsets"; "checksum"; "max_app_chunks"]%string).
Proof. apply check_args_iff. Qed.
Theorem C45_bloscpack_arguments : forall keys, check_bloscpack_args keys = Ok tt <->
  (forall k, In k keys <-> In k ["offsets"; "checksum"; "max_app_chunks"]%string).
Proof. exact c45_bloscpack. Qed.
Print Assumptions C45_bloscpack_arguments.
Lemma c45_metadata keys : check_metadata_arguments keys = Ok tt <->
  (forall k, In k keys <-> In k ["magic_format"; "meta_checksum"; "meta_codec"; "meta_level"; "max_meta_size"]%string).
Proof. apply check_args_iff. Qed.
Theorem C45_metadata_arguments : forall keys, check_metadata_arguments keys = Ok tt <->
  (forall k, In k keys <-> In k ["magic_format"; "meta_checksum"; "meta_codec"; "meta_level"; "max_meta_size"]%string).
Proof. exact c45_metadata. Qed.
Print Assumptions C45_metadata_arguments.
Example C45_case : check_blosc_args ["cname"; "shuffle"; "typesize"; "clevel"]%string = Ok tt /\
  check_blosc_args ["cname"; "shuffle"; "typesize"]%string = Raise ValueError.
Proof. split; vm_compute; reflexivity. Qed.
