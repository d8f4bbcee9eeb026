(** Packing in the model agrees with the reference for all bytes and arguments. *)
From Verif Require Import Base PyVal Checksums Headers Pretty Args FileIO Append Spec Archive CrcSpec FormatSpec EqSpec ReadSpec ReviseSpec WriteSpec BaseLemmas HeaderProofs IOProofs
  WfProofs PackProofs SmallProofs BytesProofs MetaProofs DamageProofs CrcProofs FormatProofs ResignProofs EqProofs ReadProofs ExcPack ReviseProofs.
From Verif Require NumpyProofs.
Notation pack_prefix := NumpyProofs.pack_prefix.
Notation pack_split := NumpyProofs.pack_split.
Notation pack_rest := NumpyProofs.pack_rest.
From Coq Require Import ZifyBool ZifyNat.
Ltac Zify.zify_post_hook ::= Z.div_mod_to_equations.

Lemma chunking_int n z : 0 < n -> calculate_nchunks n (CSInt z) =
  if (z <? 1) || (BUFMAX <? z) then Raise ValueError else if 2 ^ 63 <=? (n + z - 1) / z then Raise ChunkingException
  else Ok ((n + z - 1) / z, Z.min z n, n - ((n + z - 1) / z - 1) * z).
Proof.
  intros H. destruct (Z.le_gt_cases z BUFMAX) as [L|L].
  - rewrite (calc_exact n z H L). replace (BUFMAX <? z) with false by lia. rewrite orb_false_r. reflexivity.
  - replace (BUFMAX <? z) with true by lia. rewrite orb_true_r. unfold calculate_nchunks. replace (n <? 0) with false by lia. replace (n =? 0) with false by lia. cbn [rbind].
    rewrite check_range_out by (unfold BLOSC_MAX_BUFFERSIZE, BUFMAX in *; lia). reflexivity.
Qed.
Lemma chunking_exact n cs : 0 <= n -> calculate_nchunks n cs = chunking n cs.
Proof.
  intros H. unfold chunking. destruct (Z.eqb_spec n 0) as [->|N]; [reflexivity|].
  assert (G : forall z, calculate_nchunks n (CSInt z) = let k := (n + z - 1) / z in
      if (z <? 1) || (BUFMAX <? z) then Raise ValueError else if 2 ^ 63 <=? k then Raise ChunkingException else Ok (k, Z.min z n, n - (k - 1) * z)).
  { intros z. apply chunking_int. lia. }
  destruct cs as [z|s|].
  - apply G.
  - destruct (reverse_pretty s) as [z|e] eqn:R.
    + rewrite <- G. unfold calculate_nchunks. replace (n <? 0) with false by lia. replace (n =? 0) with false by lia. rewrite R. reflexivity.
    + unfold calculate_nchunks. replace (n <? 0) with false by lia. replace (n =? 0) with false by lia. rewrite R. reflexivity.
  - unfold calculate_nchunks. replace (n <? 0) with false by lia. replace (n =? 0) with false by lia. reflexivity.
Qed.
Lemma chunking_ok n cs k c l : 0 <= n -> chunking n cs = Ok (k, c, l) ->
  1 <= k < 2 ^ 63 /\ 0 <= l <= c /\ c <= BUFMAX /\ n = (k - 1) * c + l /\ (c = 0 -> k = 1).
Proof.
  intros H. unfold chunking. destruct (Z.eqb_spec n 0) as [->|N].
  { intros X. injection X as <- <- <-. unfold BUFMAX. lia. }
  destruct (match cs with CSInt z => Ok z | CSStr s => reverse_pretty s | CSOther => Raise TypeError end) as [z|e]; [|discriminate].
  cbv zeta. destruct ((z <? 1) || (BUFMAX <? z)) eqn:B; [discriminate|]. set (q := (n + z - 1) / z).
  change (2 ^ 63) with 9223372036854775808. destruct (Z.leb_spec 9223372036854775808 q) as [Q|Q]; [discriminate|]. set (c0 := Z.min z n). set (l0 := n - (q - 1) * z). intros X. assert (XK : k = q) by congruence. assert (XC : c = c0) by congruence. assert (XL : l = l0) by congruence. subst k c l c0 l0. clear X.
  assert (QB : q * z <= n + z - 1 < q * z + z).
  { pose proof (Z.div_mod (n + z - 1) z ltac:(lia)) as X. pose proof (Z.mod_pos_bound (n + z - 1) z ltac:(lia)). fold q in X. nia. }
  clearbody q. assert (1 <= q) by nia. destruct (Z.le_gt_cases z n) as [L|L].
  - rewrite Z.min_l by lia. split; [lia|]. split; [nia|]. split; [lia|]. split; lia.
  - assert (q = 1) by nia. subst q. rewrite Z.min_r by lia. lia.
Qed.
Lemma reserve_exact off m n : 1 <= n < 2 ^ 63 -> handle_max_apps off n m = reserve off m n.
Proof.
  intros H. unfold handle_max_apps, reserve. change (2 ^ 63) with 9223372036854775808 in *. rewrite check_range_in by (unfold MAX_CHUNKS; lia). cbn [rbind].
  destruct off; cbn [negb andb]; [|reflexivity]. replace (n =? -1) with false by lia. cbn [negb].
  assert (C : forall v, (if MAX_CHUNKS <? n + v then MAX_CHUNKS - n else v) = Z.min v (9223372036854775808 - 1 - n)).
  { intros v. unfold MAX_CHUNKS. destruct (Z.ltb_spec 9223372036854775807 (n + v)); lia. }
  destruct m as [v|g|].
  - unfold check_range, MAX_CHUNKS. destruct (Z.leb_spec 9223372036854775808 v) as [L|L].
    + replace ((0 <=? v) && (v <=? 9223372036854775807)) with false by lia. reflexivity.
    + destruct (Z.ltb_spec v 0); [replace ((0 <=? v) && (v <=? 9223372036854775807)) with false by lia; reflexivity|].
      replace ((0 <=? v) && (v <=? 9223372036854775807)) with true by lia. cbn [rbind]. rewrite <- C. reflexivity.
  - destruct (g n) as [[v|]|e]; [|reflexivity|reflexivity]. destruct (v <? 0); [reflexivity|]. cbn [rbind]. rewrite C. reflexivity.
  - reflexivity.
Qed.
Lemma reserve_ok off m n r : 1 <= n < 2 ^ 63 -> reserve off m n = Ok r -> 0 <= r /\ n + r <= 2 ^ 63 - 1.
Proof.
  intros H. unfold reserve. change (2 ^ 63) with 9223372036854775808 in *. destruct off; cbn [negb]; [|intros X; assert (r = 0) by congruence; lia].
  destruct (match m with MAInt v => if 9223372036854775808 <=? v then Raise ValueError else Ok (Some v) | MACall g => g n | MAOther => Raise TypeError end) as [[v|]|e]; try discriminate.
  destruct (Z.ltb_spec v 0); [discriminate|]. set (w := Z.min v _). intros X. assert (r = w) by congruence. subst r w. lia.
Qed.
Lemma header_exact_new off meta s ts c l n r : -1 <= c <= BUFMAX -> 0 <= l <= c -> 1 <= n < 2 ^ 63 -> 0 <= r -> n + r <= 2 ^ 63 - 1 ->
  match place s checksum_names with
  | None => mk_header FORMAT_VERSION off meta s ts c l n r = Raise NoSuchChecksum
  | Some k => exists ck, cks_index ck = k /\
      if (ts <? 0) || (255 <? ts) then mk_header FORMAT_VERSION off meta s ts c l n r = Raise ValueError
      else mk_header FORMAT_VERSION off meta s ts c l n r = Ok (mkH 3 off meta ck ts c l n r) /\
           header_encode (mkH 3 off meta ck ts c l n r) = Ok (head off meta k ts c l n r)
  end.
Proof.
  intros HC HL HN HR HS. pose proof (place_cks s) as P. unfold mk_header. rewrite check_range_in by (unfold FORMAT_VERSION, MAX_FORMAT_VERSION; lia). cbn [rbind].
  destruct (check_valid_checksum s) as [ck|e]; destruct P as [-> ->]; [|reflexivity]. exists ck. split; [reflexivity|]. cbn [rbind].
  destruct ((ts <? 0) || (255 <? ts)) eqn:T.
  - destruct (check_header_nums ts c l n r) as [[]|e] eqn:X; [|apply check_header_nums_raise in X as ->; reflexivity].
    apply check_header_nums_iff in X. unfold header_nums_ok in X. lia.
  - assert (X : header_nums_ok ts c l n r) by (unfold header_nums_ok; lia). pose proof X as OK. apply check_header_nums_iff in X. rewrite X. split; [reflexivity|].
    rewrite header_encode_ok by (split; [cbn; lia|exact OK]). f_equal. unfold header_bytes, head. cbn [h_version h_offsets h_metadata h_checksum h_typesize h_chunk_size h_last_chunk h_nchunks h_max_app].
    rewrite !le_enc_le. unfold opt_bits. destruct off, meta; reflexivity.
Qed.
Lemma codec_name_nth c : nth (Z.to_nat (codec_index c)) codec_names ""%string = codec_name c.
Proof. destruct c; reflexivity. Qed.

Section WithEnv.
Variable E : Env.
Variable dg : Z -> bytes -> bytes.
Hypothesis HD : forall code d, 0 <= code < 9 -> is_digest E code d (dg code d).

Lemma section_exact m a :
  match first_section E dg m a with
  | Raise e => plan_metadata E m a = Raise e
  | Ok (x, co) => exists mh p, plan_metadata E m a = Ok (mh, p, with_codec a co) /\ mheader_ok mh /\ mh_comp mh = zlen p /\ zlen p <= mh_max mh /\
      x = mheader_bytes mh ++ p ++ zrep (mh_max mh - mh_comp mh) x00 ++ digest E (mh_checksum mh) p
  end.
Proof.
  unfold first_section, plan_metadata, serializer_lookup. rewrite same_eqb. destruct (bytes_eqb (ma_magic a) (b_of_string "JSON")) eqn:MJ; cbn [negb rbind]; [|reflexivity].
  apply bytes_eqb_eq in MJ. destruct (e_dumps E m) as [raw|e]; [|reflexivity]. cbn [rbind].
  pose proof (place_codec (ma_codec a)) as PC.
  assert (T : forall p co, match
      (match (match ma_max a with MMInt z => Ok z | MMCall g => g (size raw) | MMOther => Raise UnboundLocalError end) with
       | Raise e => Raise e
       | Ok mx => if mx <? size p then Raise MetadataSectionTooSmall
                  else match place (ma_checksum a) checksum_names with
                  | None => Raise NoSuchChecksum
                  | Some ck => if (ma_level a <? 0) || (9 <? ma_level a) || (2 ^ 32 <=? size raw) || (2 ^ 32 <=? mx) then Raise ValueError
                               else Ok (meta_section ck (codec_index co) (ma_level a) mx raw p (dg ck p), codec_index co)
                  end
       end) with
    | Raise e => (let a' := with_codec a (codec_index co) in mx <~ effective_max_meta_size a' (zlen raw) ;;
         (if mx <? zlen p then Raise MetadataSectionTooSmall
          else co0 <~ codec_lookup (ma_codec a') ;;
               h <~ mk_mheader (ma_magic a') create_metadata_options (ma_checksum a') (codec_name co0) (ma_level a') (zlen raw) mx (zlen p) [] ;;
               Ok (h, p, a'))) = Raise e
    | Ok (x, c) => exists mh p', (let a' := with_codec a (codec_index co) in mx <~ effective_max_meta_size a' (zlen raw) ;;
         (if mx <? zlen p then Raise MetadataSectionTooSmall
          else co0 <~ codec_lookup (ma_codec a') ;;
               h <~ mk_mheader (ma_magic a') create_metadata_options (ma_checksum a') (codec_name co0) (ma_level a') (zlen raw) mx (zlen p) [] ;;
               Ok (h, p, a'))) = Ok (mh, p', with_codec a c) /\ mheader_ok mh /\ mh_comp mh = zlen p' /\ zlen p' <= mh_max mh /\
         x = mheader_bytes mh ++ p' ++ zrep (mh_max mh - mh_comp mh) x00 ++ digest E (mh_checksum mh) p'
    end).
  { intros p co. cbv zeta. unfold effective_max_meta_size, with_codec. cbn [ma_max ma_codec ma_magic ma_checksum ma_level]. rewrite codec_name_nth.
    change size with (@zlen byte). destruct (match ma_max a with MMInt z => Ok z | MMCall g => g (zlen raw) | MMOther => Raise UnboundLocalError end) as [mx|e]; [|reflexivity].
    cbn [rbind]. destruct (Z.ltb_spec mx (zlen p)) as [L|L]; [reflexivity|].
    replace (codec_lookup (codec_name co)) with (@Ok codec co) by (destruct co; reflexivity). cbn [rbind]. rewrite MJ.
    pose proof (place_cks (ma_checksum a)) as PK. unfold mk_mheader. change (check_str (b_of_string "JSON") 8) with (@Ok unit tt). cbn [rbind].
    replace (check_options create_metadata_options) with (@Ok unit tt) by reflexivity. cbn [rbind].
    destruct (check_valid_checksum (ma_checksum a)) as [ck|e]; destruct PK as [-> PK]; [|subst e; reflexivity]. cbn [rbind]. rewrite check_valid_codec_name. cbn [rbind].
    pose proof (zlen_nonneg raw). pose proof (zlen_nonneg p). change (2 ^ 32) with 4294967296.
    destruct ((ma_level a <? 0) || (9 <? ma_level a)) eqn:LV; cbn [orb]; [rewrite check_range_out by (unfold MAX_CLEVEL; lia); reflexivity|]. rewrite check_range_in by (unfold MAX_CLEVEL; lia). cbn [rbind].
    destruct (Z.leb_spec 4294967296 (zlen raw)); cbn [orb]; [rewrite check_range_out by (unfold MAX_META_SIZE; lia); reflexivity|]. rewrite check_range_in by (unfold MAX_META_SIZE; lia). cbn [rbind].
    destruct (Z.leb_spec 4294967296 mx); cbn [orb]; [rewrite check_range_out by (unfold MAX_META_SIZE; lia); reflexivity|]. rewrite !check_range_in by (unfold MAX_META_SIZE; lia). cbn [rbind].
    change (check_str [] 8) with (@Ok unit tt). cbn [rbind]. do 2 eexists. split; [rewrite codec_name_nth; reflexivity|]. split; [unfold mheader_ok; cbn [mh_magic mh_options mh_level mh_size mh_max mh_comp mh_user]; repeat split; try lia; cbn; lia|].
    cbn [mh_max mh_comp mh_checksum]. split; [reflexivity|]. split; [exact L|]. unfold mheader_bytes, meta_section. cbn [mh_magic mh_options mh_level mh_size mh_max mh_comp mh_user mh_checksum mh_codec].
    rewrite !le_enc_le, <- (dg_digest E dg HD), <- !app_assoc. reflexivity. }
  unfold should_compress, packed_text.
  destruct (String.eqb_spec (ma_codec a) "None") as [N|N]; cbn [negb].
  { rewrite N. cbn [place codec_names option_map Z.eqb rbind]. specialize (T raw CoNone).
    replace (with_codec a (codec_index CoNone)) with a in T by (unfold with_codec; destruct a; cbn in *; subst; reflexivity).
    cbn [codec_index] in T. cbv zeta in T. exact T. }
  assert (CL : codec_lookup (ma_codec a) = match place (ma_codec a) codec_names with None => Raise KeyError | Some _ => Ok CoZlib end /\
    (place (ma_codec a) codec_names = None \/ place (ma_codec a) codec_names = Some 1 /\ ma_codec a = codec_name CoZlib)).
  { unfold codec_lookup. unfold check_valid_codec in PC. destruct (find _ codec_avail) as [c|]; destruct PC as [-> PC]; [|auto].
    destruct c; [contradiction (N PC)|]. auto. }
  destruct CL as (-> & [->|[-> CZ]]); [reflexivity|]. cbn [rbind codec_compress Z.eqb].
  destruct (e_zcompress E raw (ma_level a)) as [z|e]; [|reflexivity]. cbn [rbind]. change (zlen raw <? zlen z) with (size raw <? size z).
  destruct (size raw <? size z); cbn [rbind].
  - exact (T raw CoNone).
  - specialize (T z CoZlib). replace (with_codec a (codec_index CoZlib)) with a in T by (unfold with_codec; rewrite codec_name_nth, <- CZ; destruct a; reflexivity).
    exact T.
Qed.

Hypothesis EK : EnvOK E.
Lemma write_end x d l : f_write x (mkfp d (zlen d) l) = (mkfp (d ++ x) (zlen (d ++ x)) (l ++ log_of (zlen d) x), Ok tt).
Proof. rewrite f_write_at, write_at_end, zlen_app. reflexivity. Qed.
Lemma write_meta_exact m a d l :
  match first_section E dg m a with
  | Raise e => write_metadata E m a (mkfp d (zlen d) l) = (mkfp d (zlen d) l, Raise e)
  | Ok (x, co) => exists l', write_metadata E m a (mkfp d (zlen d) l) = (mkfp (d ++ x) (zlen (d ++ x)) l', Ok (zlen x, with_codec a co))
  end.
Proof.
  pose proof (section_exact m a) as S1. unfold write_metadata. destruct (first_section E dg m a) as [[x co]|e].
  2:{ rewrite (bind_lift_raise _ _ _ _ S1). reflexivity. }
  destruct S1 as (mh & p & S1 & OK & CM & MX & ->). rewrite (bind_lift _ _ _ _ S1). cbv beta iota.
  rewrite (bind_lift _ _ _ _ (mheader_encode_ok mh OK)). unfold f_write_nulls.
  rewrite (bind_run _ _ _ _ _ (write_end _ _ _)), (bind_run _ _ _ _ _ (write_end _ _ _)), (bind_run _ _ _ _ _ (write_end _ _ _)).
  assert (SZ : METADATA_HEADER_LENGTH + mh_comp mh + (mh_max mh - mh_comp mh) + cks_size (mh_checksum mh) =
    zlen (mheader_bytes mh ++ p ++ zrep (mh_max mh - mh_comp mh) x00 ++ digest E (mh_checksum mh) p)).
  { rewrite !zlen_app, zlen_mheader_bytes, zlen_zrep, (zlen_digest E EK) by exact OK. unfold METADATA_HEADER_LENGTH. lia. }
  rewrite SZ. destruct (cks_eqb (mh_checksum mh) CkNone) eqn:CN.
  - assert (X : mh_checksum mh = CkNone) by (destruct (mh_checksum mh); auto; discriminate). rewrite X. change (digest E CkNone p) with (@nil byte).
    rewrite app_nil_r, <- !app_assoc. eexists. reflexivity.
  - rewrite (bind_run _ _ _ _ _ (write_end _ _ _)). rewrite <- !app_assoc. eexists. reflexivity.
Qed.
Lemma lay_putl ck a : forall xs g, lay E dg (cks_index ck) a xs g = putl E ck a xs (zlen g) g.
Proof.
  induction xs as [|x xs IH]; intros g; [reflexivity|]. cbn [lay putl]. destruct (e_compress E a x) as [z|e]; [|reflexivity].
  rewrite (dg_digest E dg HD), IH, write_at_end, !zlen_app. reflexivity.
Qed.
Lemma minus1_table t : 0 <= t -> concat (zrep t minus1) = repeat xff (Z.to_nat (8 * t)).
Proof. intros H. rewrite minus1_words, words_m1 by exact H. reflexivity. Qed.

Lemma reads_ends c : 0 <= c -> forall k l b, 0 <= l ->
  reads (repeat c k ++ [l]) b = map (fun i => sub (Z.of_nat i * c) (if Z.of_nat i =? Z.of_nat k then l else c) b) (seq 0 (S k)).
Proof.
  intros Hc. induction k as [|k IH]; intros l b Hl.
  - cbn [repeat app reads seq map]. f_equal. change (Z.of_nat 0 * c) with 0. change (Z.of_nat 0 =? Z.of_nat 0) with true. cbv iota.
    rewrite <- ztake_zdrop_sub, zdrop_0 by lia. reflexivity.
  - cbn [repeat app reads]. rewrite IH by exact Hl. change (seq 0 (S (S k))) with (0%nat :: seq 1 (S k)). rewrite <- (seq_shift (S k)). cbn [map]. f_equal.
    + change (Z.of_nat 0 * c) with 0. replace (Z.of_nat 0 =? Z.of_nat (S k)) with false by lia. rewrite <- ztake_zdrop_sub, zdrop_0 by lia. reflexivity.
    + rewrite (map_map S). apply map_ext. intros i. rewrite <- !ztake_zdrop_sub, zdrop_zdrop by lia.
      replace (Z.of_nat (S i) =? Z.of_nat (S k)) with (Z.of_nat i =? Z.of_nat k) by lia. do 2 f_equal. lia.
Qed.

(** what comes before the chunks, for any source *)
Lemma begin_exact n c l m oba obp oma : 1 <= n < 2 ^ 63 -> 0 <= l <= c -> c <= BUFMAX ->
  match reference_begin E dg n c l m oba obp oma with
  | (f, Raise e) => exists k, pack_prefix (fp_sink E) n c l m oba obp oma (cfs_of (fp_of [])) = (k, Raise e) /\ fdata (s_fp k) = f
  | (f, Ok (code, q, args)) => exists k ck, pack_prefix (fp_sink E) n c l m oba obp oma (cfs_of (fp_of [])) = (k, Ok args) /\
      code = cks_index ck /\ fdata (s_fp k) = f /\ fpos (s_fp k) = zlen f /\ q = 32 + s_meta_total k /\ 0 <= s_meta_total k /\ h_checksum (s_header k) = ck /\
      h_offsets (s_header k) = bp_offsets (the_bpargs obp) /\ s_storage k = (if bp_offsets (the_bpargs obp) then zrep n (-1) else [])
  end.
Proof.
  intros HN HL HC. unfold pack_prefix, reference_begin, the_bargs, the_bpargs, the_margs. cbv zeta.
  set (ba := match oba with Some a => a | None => mkBA 8 7 true "blosclz" end).
  set (bp := match obp with Some a => a | None => mkBPA _ _ _ end). set (ma := match oma with Some a => a | None => mkMA _ _ _ _ _ end).
  change (match oba with Some a => a | None => default_bargs end) with ba.
  change (match obp with Some a => a | None => default_bpargs end) with bp. change (match oma with Some a => a | None => default_margs end) with ma.
  set (off := bp_offsets bp). set (ts := ba_typesize ba). rewrite reserve_exact by exact HN.
  destruct (reserve off (bp_max_app bp) n) as [r|e] eqn:RS; [|eexists; split; reflexivity]. apply reserve_ok in RS as (R0 & R1); [|exact HN].
  rewrite (bind_lift _ _ _ _ eq_refl).
  replace (match m with PNone => false | _ => true end) with (negb (is_none m)) by (destruct m; reflexivity).
  pose proof (header_exact_new off (negb (is_none m)) (bp_checksum bp) ts c l n r ltac:(lia) HL HN R0 R1) as HE.
  destruct (place (bp_checksum bp) checksum_names) as [k|]; [|rewrite HE; eexists; split; reflexivity].
  destruct HE as (ck & <- & HE). destruct ((ts <? 0) || (255 <? ts)); [rewrite HE; eexists; split; reflexivity|]. destruct HE as (HE1 & HE2).
  rewrite HE1, (bind_lift _ _ _ _ eq_refl). set (h := mkH 3 off (negb (is_none m)) ck ts c l n r) in *. set (hd := head _ _ _ _ _ _ _ _) in *.
  rewrite (bind_run _ _ (cfs_of (fp_of [])) (mkCFS (fp_of []) 0 h []) tt) by reflexivity.
  cbn [cs_write_header fp_sink cs_write_metadata cs_init_offsets cs_put cs_finalize].
  rewrite (bind_run _ _ (mkCFS (fp_of []) 0 h []) (mkCFS (mkfp hd (zlen hd) (log_of 0 hd)) 0 h []) tt).
  2:{ unfold fps_write_header, on_fp. cbn [fst snd s_fp s_header s_meta_total s_storage]. rewrite (bind_lift _ _ _ _ HE2). unfold fp_of.
      change (mkfp [] 0 []) with (mkfp [] (zlen (@nil byte)) []). rewrite write_end. reflexivity. }
  (* the metadata *)
  assert (MM : match (if negb (is_none m) then match first_section E dg m ma with Ok (x, co) => Ok (x, Some (with_codec ma co)) | Raise e => Raise e end else Ok ([], oma)) with
    | Raise e => (if is_none m then ret oma else a <- fps_write_metadata E m ma ;; ret (Some a)) (mkCFS (mkfp hd (zlen hd) (log_of 0 hd)) 0 h []) =
        (mkCFS (mkfp hd (zlen hd) (log_of 0 hd)) 0 h [], Raise e)
    | Ok (sect, args) => exists l', (if is_none m then ret oma else a <- fps_write_metadata E m ma ;; ret (Some a)) (mkCFS (mkfp hd (zlen hd) (log_of 0 hd)) 0 h []) =
        (mkCFS (mkfp (hd ++ sect) (zlen (hd ++ sect)) l') (zlen sect) h [], Ok args)
    end).
  { destruct (is_none m); cbn [negb]; [exists (log_of 0 hd); rewrite app_nil_r; reflexivity|].
    pose proof (write_meta_exact m ma hd (log_of 0 hd)) as WM. destruct (first_section E dg m ma) as [[x co]|e].
    - destruct WM as (l' & WM). exists l'. unfold bind at 1, fps_write_metadata, bind, on_fp. cbn [fst snd s_fp s_header s_meta_total s_storage]. rewrite WM. reflexivity.
    - unfold bind at 1, fps_write_metadata, bind, on_fp. cbn [fst snd s_fp s_header s_meta_total s_storage]. rewrite WM. reflexivity. }
  destruct (if negb (is_none m) then _ else _) as [[sect args]|e]; [|rewrite (bind_run_raise _ _ _ _ _ MM); eexists; split; reflexivity].
  destruct MM as (l1 & MM). rewrite (bind_run _ _ _ _ _ MM). clear MM.
  (* the empty table *)
  set (tb := if off then repeat xff (Z.to_nat (8 * (n + r))) else []).
  assert (IO : exists l', fps_init_offsets (mkCFS (mkfp (hd ++ sect) (zlen (hd ++ sect)) l1) (zlen sect) h []) =
    (mkCFS (mkfp (hd ++ sect ++ tb) (zlen (hd ++ sect ++ tb)) l') (zlen sect) h (if off then zrep n (-1) else []), Ok tt)).
  { unfold fps_init_offsets. cbn [fst snd s_fp s_header s_meta_total s_storage]. change (h_offsets h) with off. unfold tb. destruct off.
    - unfold total_prospective_chunks. change (h_nchunks h) with n. change (h_max_app h) with r. replace (0 <=? n) with true by lia.
      unfold on_fp. cbn [s_fp s_header s_meta_total s_storage]. rewrite minus1_table, write_end by lia. rewrite <- app_assoc. eexists. reflexivity.
    - rewrite app_nil_r. exists l1. reflexivity. }
  destruct IO as (l2 & IO). rewrite (bind_run _ _ _ _ _ IO). clear IO.
  assert (SH : size (hd ++ sect) = 32 + zlen sect).
  { rewrite size_zlen, zlen_app. replace (zlen hd) with 32; [reflexivity|]. unfold hd, head. rewrite <- !le_enc_le, !zlen_app, !zlen_le_enc. reflexivity. }
  eexists. exists ck. split; [reflexivity|]. cbn [s_fp s_header s_meta_total s_storage fdata fpos]. pose proof (zlen_nonneg sect). repeat split; auto.
Qed.
(** a source with nothing to give *)
Lemma write_nothing {Src Chunk} (src : plain_source Src Chunk) s n c l m oba obp oma e t : 1 <= n < 2 ^ 63 -> 0 <= l <= c -> c <= BUFMAX ->
  ps_steps src n c l = raise e :: t ->
  let r := pack src (fp_sink E) n c l m oba obp oma (s, cfs_of (fp_of [])) in
  (fdata (s_fp (snd (fst r))), snd r) = reference_write E dg n c l (Raise e) m oba obp oma.
Proof.
  intros HN HL HC T. cbv zeta. rewrite pack_split. pose proof (begin_exact n c l m oba obp oma HN HL HC) as B. unfold reference_write.
  destruct (reference_begin E dg n c l m oba obp oma) as [f [[[code q] args]|e']]; cbn [fst snd].
  - destruct B as (k & ck & -> & _ & <- & _). unfold pack_rest. rewrite T. reflexivity.
  - destruct B as (k & -> & <-). reflexivity.
Qed.
Theorem write_exact b n c l m oba obp oma : 1 <= n < 2 ^ 63 -> 0 <= l <= c -> c <= BUFMAX ->
  let r := pack_of E b n c l m oba obp oma in
  (fdata (s_fp (snd (fst r))), snd r) = reference_write E dg n c l (Ok (pieces n c l b)) m oba obp oma.
Proof.
  intros HN HL HC. cbv zeta. unfold pack_of. rewrite pack_split. pose proof (begin_exact n c l m oba obp oma HN HL HC) as B. unfold reference_write.
  destruct (reference_begin E dg n c l m oba obp oma) as [g [[[code q] args]|e']]; cbn [fst snd].
  2:{ destruct B as (k & -> & <-). reflexivity. }
  destruct B as (k0 & ck & -> & -> & KD & KP & -> & KM & KC & KO & KS). unfold pack_rest.
  cbn [fp_sink cs_put cs_finalize ps_compress ps_steps fp_source].
  set (ba := match oba with Some a => a | None => mkBA 8 7 true "blosclz" end). change (the_bargs oba) with ba.
  change (match obp with Some a => bp_offsets a | None => true end) with (match obp with Some a => bp_offsets a | None => bp_offsets default_bpargs end).
  replace (match obp with Some a => bp_offsets a | None => bp_offsets default_bpargs end) with (bp_offsets (the_bpargs obp)) by (destruct obp; reflexivity).
  set (off := bp_offsets (the_bpargs obp)) in *.
  (* the chunks *)
  unfold fp_source_steps. set (sizes := chunk_sizes n c l).
  assert (LN : List.length sizes = Z.to_nat n) by (unfold sizes, chunk_sizes, zrep; rewrite app_length, repeat_length; cbn [List.length]; lia).
  destruct (loop_exact E dg HD ba sizes 0 (fp_of b) k0 []) as (nf' & k' & LP & LD & LQ & LS & LH & LM).
  { rewrite KP. apply zlen_nonneg. } { cbn [fpos fp_of]. lia. }
  { unfold sizes, chunk_sizes, zrep. apply Forall_app. split; [apply Forall_forall; intros x I; apply repeat_spec in I; lia|repeat constructor; lia]. }
  { reflexivity. }
  { cbn [app]. rewrite KO, KS. intros ->. rewrite LN. reflexivity. }
  rewrite KC, KO, KD, KP in *. cbn [app] in *.
  change (rest (fp_of b)) with (zdrop 0 b) in *. rewrite zdrop_0 in * by lia.
  assert (PI : reads sizes b = pieces n c l b).
  { unfold sizes, chunk_sizes, zrep, pieces. rewrite (reads_ends c) by lia. replace (S (Z.to_nat (n - 1))) with (Z.to_nat n) by lia. apply map_ext. intros j.
    replace (Z.of_nat (Z.to_nat (n - 1))) with (n - 1) by lia. reflexivity. }
  rewrite PI in *. rewrite lay_putl.
  pose proof (putl_starts E dg HD ck ba (pieces n c l b) (zlen g) g (zlen_nonneg g)) as ST.
  destruct (putl E ck ba _ (zlen g) g) as [[f starts] o]. cbn [fst snd] in *.
  destruct o as [e|].
  { rewrite (bind_run_raise _ _ _ _ _ LP). cbn [fst snd]. rewrite LD. reflexivity. }
  rewrite (bind_run _ _ _ _ _ LP). specialize (LS eq_refl). destruct k' as [[fd fq fl] mt hh st]. cbn [s_fp s_header s_meta_total s_storage fpos fdata] in *. subst fd mt hh.
  pose proof (encode_big E dg HD [] starts (Forall_nil _) ST) as EB. cbn [app] in EB. change (words []) with (@nil byte) in EB. cbn [app] in EB.
  set (q := 32 + s_meta_total k0) in *.
  assert (FIN : exists p' l', onr (fps_finalize E) (nf', mkCFS (mkfp f fq fl) (s_meta_total k0) (s_header k0) st) =
    ((nf', mkCFS (mkfp (if negb off then f else if existsb (fun o => 2 ^ 63 <=? o) starts then f else overwrite q (concat (map (le 8) starts)) f) p' l') (s_meta_total k0) (s_header k0) st),
     if negb off then Ok tt else if existsb (fun o => 2 ^ 63 <=? o) starts then Raise StructError else Ok tt)).
  { unfold onr, fps_finalize. cbn [fst snd s_fp s_header s_meta_total s_storage]. rewrite KO. destruct off; cbn [negb]; [|do 2 eexists; reflexivity].
    rewrite (LS eq_refl). unfold on_fp. cbn [s_fp s_header s_meta_total s_storage].
    rewrite (bind_run _ _ (mkfp f fq fl) (mkfp f q fl) tt).
    2:{ unfold f_seek, BLOSCPACK_HEADER_LENGTH. fold q. replace (q <? 0) with false by lia. reflexivity. }
    unfold write_offsets. rewrite EB. destruct (existsb _ starts); [do 2 eexists; reflexivity|].
    rewrite (bind_lift _ _ _ _ eq_refl), f_write_at, overwrite_at by lia. do 2 eexists. reflexivity. }
  destruct FIN as (p' & l' & FIN). destruct (negb off); [rewrite (bind_run _ _ _ _ _ FIN); reflexivity|].
  destruct (existsb _ starts); [rewrite (bind_run_raise _ _ _ _ _ FIN); reflexivity|]. rewrite (bind_run _ _ _ _ _ FIN). reflexivity.
Qed.
Theorem pack_exact b cs m oba obp oma : let r := pack_bytes_core E b cs m oba obp oma in
  (fdata (s_fp (fst r)), snd r) = reference_pack E dg b cs m oba obp oma.
Proof.
  cbv zeta. pose proof (chunking_exact (size b) cs ltac:(unfold size; lia)) as CE. unfold reference_pack.
  destruct (chunking (size b) cs) as [[[n c] l]|e] eqn:CH.
  - apply chunking_ok in CH as (HN & HL & HC & HB & C0); [|unfold size; lia].
    rewrite (pack_bytes_core_eq E _ _ _ _ _ _ _ _ _ CE). rewrite <- (write_exact b n c l m oba obp oma HN HL HC).
    destruct (pack_of E b n c l m oba obp oma) as [[st k] r]. reflexivity.
  - unfold pack_bytes_core. rewrite <- (size_zlen b), CE. reflexivity.
Qed.
Theorem pack_bytes_exact b cs m oba obp oma : pack_bytes_to_bytes E b cs m oba obp oma =
  match reference_pack E dg b cs m oba obp oma with (f, Ok _) => Ok f | (_, Raise e) => Raise e end.
Proof.
  rewrite <- pack_exact. unfold pack_bytes_to_bytes. destruct (pack_bytes_core E b cs m oba obp oma) as [k [o|e]]; reflexivity.
Qed.
End WithEnv.
