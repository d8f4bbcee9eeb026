(** Appending and rewriting in the model agree with the reference on every byte string. *)
From Verif Require Import Base PyVal Checksums Headers Pretty Args FileIO Append Spec Archive CrcSpec FormatSpec EqSpec ReadSpec ReviseSpec BaseLemmas HeaderProofs IOProofs
  WfProofs PackProofs SmallProofs BytesProofs MetaProofs DamageProofs CrcProofs FormatProofs ResignProofs EqProofs ReadProofs ExcPack.
From Coq Require Import ZifyBool ZifyNat.
Ltac Zify.zify_post_hook ::= Z.div_mod_to_equations.

Lemma overwrite_at p x f : 0 <= p -> overwrite p x f = write_at f p x.
Proof.
  intros Hp. unfold overwrite, write_at. destruct x as [|b x]; [reflexivity|].
  replace (sub 0 p f) with (ztake p f) by (rewrite <- ztake_zdrop_sub, zdrop_0 by lia; reflexivity).
  rewrite <- zdrop_skipn, !size_zlen. reflexivity.
Qed.
Lemma place_find {A} (name : A -> string) (index : A -> Z) s : forall (l : list A) k,
  (forall i x, nth_error l i = Some x -> index x = k + Z.of_nat i) ->
  match find (fun c => String.eqb s (name c)) l with
  | Some c => option_map (Z.add k) (place s (map name l)) = Some (index c)
  | None => place s (map name l) = None
  end.
Proof.
  induction l as [|x l IH]; intros k H; [reflexivity|]. cbn [find map place]. destruct (String.eqb s (name x)).
  - cbn [option_map]. rewrite (H 0%nat x eq_refl). reflexivity.
  - assert (H1 : forall i y, nth_error l i = Some y -> index y = k + 1 + Z.of_nat i) by (intros i y Hy; rewrite (H (S i) y Hy); lia).
    specialize (IH (k + 1) H1). destruct (find _ l) as [c|].
    + destruct (place s (map name l)) as [z|]; cbn [option_map] in *; [|discriminate]. rewrite <- IH. f_equal. lia.
    + rewrite IH. reflexivity.
Qed.
Lemma place_cks s : match check_valid_checksum s with
  | Ok c => place s checksum_names = Some (cks_index c) /\ s = cks_name c
  | Raise e => place s checksum_names = None /\ e = NoSuchChecksum
  end.
Proof.
  pose proof (check_valid_checksum_inv s) as INV. unfold check_valid_checksum in *.
  pose proof (place_find cks_name cks_index s cks_avail 0) as P. change (map cks_name cks_avail) with checksum_names in P.
  assert (H : forall i x, nth_error cks_avail i = Some x -> cks_index x = 0 + Z.of_nat i).
  { intros i x H. do 9 (destruct i as [|i]; [injection H as <-; reflexivity|]). destruct i; discriminate. }
  specialize (P H). destruct (find _ cks_avail) as [c|]; [|auto]. split; [|apply INV; reflexivity].
  destruct (place s checksum_names) as [z|]; [|discriminate]. exact P.
Qed.
Lemma place_codec s : match check_valid_codec s with
  | Ok c => place s codec_names = Some (codec_index c) /\ s = codec_name c
  | Raise e => place s codec_names = None /\ e = NoSuchCodec
  end.
Proof.
  pose proof (check_valid_codec_inv s) as INV. unfold check_valid_codec in *.
  pose proof (place_find codec_name codec_index s codec_avail 0) as P. change (map codec_name codec_avail) with codec_names in P.
  assert (H : forall i x, nth_error codec_avail i = Some x -> codec_index x = 0 + Z.of_nat i).
  { intros i x H. do 2 (destruct i as [|i]; [injection H as <-; reflexivity|]). destruct i; discriminate. }
  specialize (P H). destruct (find _ codec_avail) as [c|]; [|auto]. split; [|apply INV; reflexivity].
  destruct (place s codec_names) as [z|]; [|discriminate]. exact P.
Qed.

Lemma calc_exact more c : 0 < more -> c <= BUFMAX -> let k := (more + c - 1) / c in
  calculate_nchunks more (CSInt c) =
  if c <? 1 then Raise ValueError else if 2 ^ 63 <=? k then Raise ChunkingException else Ok (k, Z.min c more, more - (k - 1) * c).
Proof.
  intros HM HC k. unfold calculate_nchunks. replace (more <? 0) with false by lia. replace (more =? 0) with false by lia. cbn [rbind].
  unfold check_range, BLOSC_MAX_BUFFERSIZE, BUFMAX in *. destruct (Z.ltb_spec c 1) as [L|L].
  { replace ((1 <=? c) && _) with false by lia. reflexivity. }
  replace ((1 <=? c) && _) with true by lia. cbn [rbind]. unfold MAX_CHUNKS. change (2 ^ 63) with 9223372036854775808.
  destruct (Z.ltb_spec more c) as [S|S].
  - assert (K : k = 1) by (unfold k; symmetry; apply (Z.div_unique _ _ 1 (more - 1)); lia).
    rewrite Z.eqb_refl. clearbody k. subst k. cbn. rewrite Z.min_r by lia. do 2 f_equal. lia.
  - rewrite Z.min_l by lia. pose proof (Z.div_mod more c ltac:(lia)) as D. pose proof (Z.mod_pos_bound more c ltac:(lia)) as B.
    destruct (Z.eqb_spec c more) as [Q|Q].
    { assert (K : k = 1) by (unfold k; symmetry; apply (Z.div_unique _ _ 1 (c - 1)); lia). clearbody k. subst k more. cbn. do 2 f_equal. lia. }
    destruct (Z.eqb_spec (more mod c) 0) as [R|R].
    + assert (K : k = more / c) by (unfold k; symmetry; apply (Z.div_unique _ _ (more / c) (c - 1)); lia). rewrite K.
      destruct (Z.ltb_spec 9223372036854775807 (more / c)); [replace (9223372036854775808 <=? more / c) with true by lia; reflexivity|].
      replace (9223372036854775808 <=? more / c) with false by lia. f_equal. f_equal. lia.
    + assert (K : k = more / c + 1) by (unfold k; symmetry; apply (Z.div_unique _ _ (more / c + 1) (more mod c - 1)); lia). rewrite K.
      destruct (Z.ltb_spec 9223372036854775807 (more / c + 1)); [replace (9223372036854775808 <=? more / c + 1) with true by lia; reflexivity|].
      replace (9223372036854775808 <=? more / c + 1) with false by lia. f_equal. f_equal. lia.
Qed.

Section WithEnv.
Variable E : Env.
Variable dg : Z -> bytes -> bytes.
Hypothesis HD : forall code d, 0 <= code < 9 -> is_digest E code d (dg code d).
Variable eqv : pyval -> pyval -> bool.
Hypothesis HQ : forall a b, eqv a b = true <-> alike a b.

Lemma eqv_pyeq a b : eqv a b = pyeq a b.
Proof.
  destruct (eqv a b) eqn:X.
  - apply HQ in X. symmetry. apply pyeq_alike. exact X.
  - destruct (pyeq a b) eqn:Y; [|reflexivity]. apply pyeq_alike, HQ in Y. congruence.
Qed.

Lemma plan_exact m ck co lvl mx : 0 <= lvl <= 9 -> 0 <= mx < 2 ^ 32 ->
  plan_metadata E m (mkMA (b_of_string "JSON") (cks_name ck) (codec_name co) lvl (MMInt mx)) =
  match e_dumps E m with
  | Raise e => Raise e
  | Ok raw =>
      match packed_text E (codec_index co) lvl raw with
      | Raise e => Raise e
      | Ok (p, c) =>
          if mx <? size p then Raise MetadataSectionTooSmall
          else if 2 ^ 32 <=? size raw then Raise ValueError
          else let co' := if c =? 0 then CoNone else CoZlib in
               Ok (mkMH (b_of_string "JSON") create_metadata_options ck co' lvl (size raw) mx (size p) [], p,
                   mkMA (b_of_string "JSON") (cks_name ck) (codec_name co') lvl (MMInt mx))
      end
  end.
Proof.
  intros HL HM. unfold plan_metadata. cbn [ma_magic]. unfold serializer_lookup. rewrite bytes_eqb_refl. cbn [rbind].
  destruct (e_dumps E m) as [raw|e]; [|reflexivity]. cbn [rbind].
  assert (T : forall co' p, 
    (mx0 <~ effective_max_meta_size (mkMA (b_of_string "JSON") (cks_name ck) (codec_name co') lvl (MMInt mx)) (zlen raw) ;;
     (if mx0 <? zlen p then Raise MetadataSectionTooSmall
      else
      co0 <~ codec_lookup (codec_name co') ;;
      h <~ mk_mheader (b_of_string "JSON") create_metadata_options (cks_name ck) (codec_name co0) lvl (zlen raw) mx0 (zlen p) [] ;;
      Ok (h, p, mkMA (b_of_string "JSON") (cks_name ck) (codec_name co') lvl (MMInt mx)))) =
    (if mx <? size p then Raise MetadataSectionTooSmall
          else if 2 ^ 32 <=? size raw then Raise ValueError
          else Ok (mkMH (b_of_string "JSON") create_metadata_options ck co' lvl (size raw) mx (size p) [], p,
                   mkMA (b_of_string "JSON") (cks_name ck) (codec_name co') lvl (MMInt mx)))).
  { intros co' p. unfold effective_max_meta_size. cbn [ma_max rbind]. change size with (@zlen byte). destruct (Z.ltb_spec mx (zlen p)) as [L|L]; [reflexivity|].
    replace (codec_lookup (codec_name co')) with (@Ok codec co') by (destruct co'; reflexivity). cbn [rbind].
    pose proof (zlen_nonneg raw). pose proof (zlen_nonneg p). change (2 ^ 32) with 4294967296 in *. destruct (Z.leb_spec 4294967296 (zlen raw)) as [R|R].
    - unfold mk_mheader. change (check_str (b_of_string "JSON") 8) with (@Ok unit tt). cbn [rbind].
      replace (check_options create_metadata_options) with (@Ok unit tt) by reflexivity. cbn [rbind].
      rewrite check_valid_name, check_valid_codec_name. cbn [rbind]. rewrite check_range_in by (unfold MAX_CLEVEL; lia). cbn [rbind].
      unfold check_range at 1. replace ((0 <=? zlen raw) && (zlen raw <=? MAX_META_SIZE)) with false by (unfold MAX_META_SIZE; lia). reflexivity.
    - rewrite mk_mheader_intro; [reflexivity|]. unfold mheader_ok. cbn. repeat split; lia. }
  unfold packed_text, should_compress. cbn [ma_codec ma_level ma_max ma_checksum]. destruct co.
  - cbn. apply (T CoNone raw).
  - change (negb (String.eqb (codec_name CoZlib) "None")) with true. cbn match. change (codec_lookup (codec_name CoZlib)) with (@Ok codec CoZlib). cbn [rbind codec_compress codec_index Z.eqb].
    destruct (e_zcompress E raw lvl) as [z|e]; [|reflexivity]. cbn [rbind]. rewrite <- (size_zlen z). change (zlen raw) with (size raw) at 1.
    destruct (size raw <? size z); cbn [rbind Z.eqb].
    + exact (T CoNone raw).
    + exact (T CoZlib z).
Qed.

Lemma recreate_exact f h m ov : cks_index (mh_checksum h) = u8 41 f -> codec_index (mh_codec h) = u8 42 f -> mh_level h = u8 43 f -> u8 43 f <= 9 ->
  mh_max h = u32 48 f -> mh_magic h = b_of_string "JSON" ->
  match new_section E dg f m ov with
  | Raise e => rbind (recreate_metadata h ov) (plan_metadata E m) = Raise e
  | Ok x => exists mh p a', rbind (recreate_metadata h ov) (plan_metadata E m) = Ok (mh, p, a') /\ mheader_ok mh /\
      x = mheader_bytes mh ++ p ++ zrep (mh_max mh - mh_comp mh) x00 ++ digest E (mh_checksum mh) p
  end.
Proof.
  intros H41 H42 H43 R43 H48 HJ. unfold new_section, recreate_metadata. rewrite HJ, H48, H43.
  pose proof (u8_range 43 f) as U43. pose proof (u32_range 48 f) as U48.
  assert (MG : match ov_magic ov with Some x => negb (same x (b_of_string "JSON")) | None => false end = true ->
     match ov_magic ov with None => Ok (b_of_string "JSON") | Some m0 => _ <~ check_valid_serializer m0 ;; Ok m0 end = Raise NoSuchSerializer).
  { destruct (ov_magic ov) as [x|]; [|discriminate]. unfold check_valid_serializer. rewrite same_eqb. destruct (bytes_eqb x _); [discriminate|reflexivity]. }
  assert (MG2 : match ov_magic ov with Some x => negb (same x (b_of_string "JSON")) | None => false end = false ->
     match ov_magic ov with None => Ok (b_of_string "JSON") | Some m0 => _ <~ check_valid_serializer m0 ;; Ok m0 end = Ok (b_of_string "JSON")).
  { destruct (ov_magic ov) as [x|]; [|reflexivity]. unfold check_valid_serializer. rewrite same_eqb. destruct (bytes_eqb x _) eqn:B; [|discriminate].
    apply bytes_eqb_eq in B. subst. reflexivity. }
  destruct (match ov_magic ov with Some x => negb (same x (b_of_string "JSON")) | None => false end); [rewrite (MG eq_refl); reflexivity|].
  rewrite (MG2 eq_refl). clear MG MG2. cbn [rbind].
  assert (CK : match choice (ov_checksum ov) checksum_names (u8 41 f) with
    | None => match ov_checksum ov with None => Ok (cks_name (mh_checksum h)) | Some s => c <~ check_valid_checksum s ;; (if cks_size (mh_checksum h) =? cks_size c then Ok s else Raise ChecksumLengthMismatch) end = Raise NoSuchChecksum
    | Some k => exists ck, k = cks_index ck /\ match ov_checksum ov with None => Ok (cks_name (mh_checksum h)) | Some s => c <~ check_valid_checksum s ;; (if cks_size (mh_checksum h) =? cks_size c then Ok s else Raise ChecksumLengthMismatch) end =
        if digest_len k =? digest_len (u8 41 f) then Ok (cks_name ck) else Raise ChecksumLengthMismatch
    end).
  { unfold choice. destruct (ov_checksum ov) as [s|].
    - pose proof (place_cks s) as P. destruct (check_valid_checksum s) as [c|e]; destruct P as [-> ->]; [|reflexivity].
      exists c. split; [reflexivity|]. cbn [rbind]. rewrite <- H41, !digest_len_cks, Z.eqb_sym. destruct (cks_size c =? _); reflexivity.
    - exists (mh_checksum h). split; [auto|]. rewrite Z.eqb_refl. reflexivity. }
  destruct (choice (ov_checksum ov) checksum_names (u8 41 f)) as [k|]; [|rewrite CK; reflexivity].
  destruct CK as (ck & -> & CK). rewrite CK. clear CK. destruct (digest_len (cks_index ck) =? digest_len (u8 41 f)); cbn [negb rbind]; [|reflexivity].
  assert (CO : match choice (ov_codec ov) codec_names (u8 42 f) with
    | None => match ov_codec ov with None => Ok (codec_name (mh_codec h)) | Some s => _ <~ check_valid_codec s ;; Ok s end = Raise NoSuchCodec
    | Some k => exists co, k = codec_index co /\ match ov_codec ov with None => Ok (codec_name (mh_codec h)) | Some s => _ <~ check_valid_codec s ;; Ok s end = Ok (codec_name co)
    end).
  { unfold choice. destruct (ov_codec ov) as [s|].
    - pose proof (place_codec s) as P. destruct (check_valid_codec s) as [c|e]; destruct P as [-> ->]; [|reflexivity]. exists c. split; reflexivity.
    - exists (mh_codec h). split; auto. }
  destruct (choice (ov_codec ov) codec_names (u8 42 f)) as [k|]; [|rewrite CO; reflexivity].
  destruct CO as (co & -> & CO). rewrite CO. clear CO. cbn [rbind].
  set (lvl := match ov_level ov with Some l => l | None => u8 43 f end).
  assert (LV : match ov_level ov with None => Ok (u8 43 f) | Some l => _ <~ check_range l 0 MAX_CLEVEL ;; Ok l end =
    if (lvl <? 0) || (9 <? lvl) then Raise ValueError else Ok lvl).
  { unfold lvl. destruct (ov_level ov) as [l|].
    - unfold check_range, MAX_CLEVEL. destruct ((0 <=? l) && (l <=? 9)) eqn:B; cbn [rbind].
      + replace ((l <? 0) || (9 <? l)) with false by lia. reflexivity.
      + replace ((l <? 0) || (9 <? l)) with true by lia. reflexivity.
    - replace ((u8 43 f <? 0) || (9 <? u8 43 f)) with false by lia. reflexivity. }
  rewrite LV. clear LV. clearbody lvl. destruct ((lvl <? 0) || (9 <? lvl)) eqn:LB; [reflexivity|]. cbn [rbind].
  rewrite plan_exact by lia. destruct (e_dumps E m) as [raw|e]; [|reflexivity].
  destruct (packed_text E (codec_index co) lvl raw) as [[p c]|e] eqn:PT; [|reflexivity].
  destruct (Z.ltb_spec (u32 48 f) (size p)) as [L|L]; [reflexivity|]. destruct (Z.leb_spec (2 ^ 32) (size raw)) as [R|R]; [reflexivity|].
  do 3 eexists. split; [reflexivity|]. change (2 ^ 32) with 4294967296 in *. split; [unfold mheader_ok; cbn [mh_magic mh_options mh_level mh_size mh_max mh_comp mh_user]; unfold size in *; repeat split; try lia; cbn; lia|].
  cbn [mh_max mh_comp mh_checksum]. unfold mheader_bytes, meta_section. cbn [mh_magic mh_options mh_level mh_size mh_max mh_comp mh_user mh_checksum mh_codec].
  assert (C01 : c = codec_index (if c =? 0 then CoNone else CoZlib)).
  { unfold packed_text in PT. destruct (codec_index co =? 0); [injection PT as <- <-; reflexivity|].
    destruct (e_zcompress E raw lvl) as [z|]; [|discriminate]. destruct (size raw <? size z); injection PT as <- <-; reflexivity. }
  rewrite <- C01, !le_enc_le, <- (dg_digest E dg HD), <- !app_assoc. reflexivity.
Qed.

Lemma f_write_at x f p l : f_write x (mkfp f p l) = (mkfp (write_at f p x) (p + zlen x) (l ++ log_of p x), Ok tt).
Proof. reflexivity. Qed.

Theorem rewrite_exact f m ov : rewrite_bytes E f m ov = reference_rewrite E dg eqv f m ov.
Proof.
  unfold rewrite_bytes, reference_rewrite, rewrite_metadata, seek_to_metadata. pose proof (header_exact E dg HD f) as H.
  assert (L32 : header_fault f = None -> 32 <= size f) by (unfold header_fault; destruct (Z.ltb_spec (size f) 32); [discriminate|lia]).
  destruct (header_fault f) as [e|].
  { destruct H as [g H]. pose proof (ro_read_bloscpack_header (fp_of f) g (Raise e) ltac:(cbn; lia) H) as (D & _).
    rewrite (bind_run_raise _ _ (fp_of f) g e) by (rewrite (bind_run_raise _ _ _ _ _ H); reflexivity). cbn [fst snd]. rewrite D. reflexivity. }
  destruct H as (ck & CI & NO & H). specialize (L32 eq_refl). unfold rewrite_metadata_fp.
  destruct (has_meta f) eqn:HM; cbn [negb].
  2:{ rewrite (bind_run_raise _ _ (fp_of f) (mkfp f 32 []) NoMetadataFound) by (rewrite (bind_run _ _ _ _ _ H); reflexivity). reflexivity. }
  rewrite (bind_run _ _ (fp_of f) (mkfp f 32 []) 32) by (rewrite (bind_run _ _ _ _ _ H); reflexivity).
  rewrite (bind_run _ _ (mkfp f 32 []) (mkfp f 32 []) 32) by reflexivity.
  pose proof (metadata_exact E dg HD f L32) as M. destruct (metadata_at_32 E dg f) as [[old q]|e].
  2:{ destruct M as [g M]. pose proof (ro_read_metadata E (mkfp f 32 []) g (Raise e) ltac:(cbn; lia) M) as (D & _). rewrite (bind_run_raise _ _ _ _ _ M). cbn [fst snd]. rewrite D. reflexivity. }
  destruct M as (h & M & Q & M48 & M41 & M42 & M43 & MJ & R43 & _). rewrite (bind_run _ _ _ _ _ M). rewrite eqv_pyeq.
  destruct (pyeq old m); [reflexivity|].
  pose proof (recreate_exact f h m ov M41 M42 M43 R43 M48 MJ) as RC.
  destruct (recreate_metadata h ov) as [a|e] eqn:RA; cbn [rbind] in RC.
  2:{ destruct (new_section E dg f m ov) as [x|e']; [destruct RC as (? & ? & ? & RC & _); discriminate|]. injection RC as <-. reflexivity. }
  rewrite (bind_lift _ _ _ _ eq_refl). rewrite (bind_run _ _ _ (mkfp f 32 []) tt) by reflexivity.
  unfold write_metadata.
  destruct (new_section E dg f m ov) as [x|e'].
  2:{ rewrite RC. reflexivity. }
  destruct RC as (mh & p & a' & RC & OK & ->). rewrite RC.
  set (r := bind _ _ (mkfp f 32 [])).
  assert (R : exists z l w, r = (mkfp (write_at f 32 (mheader_bytes mh ++ p ++ zrep (mh_max mh - mh_comp mh) x00 ++ digest E (mh_checksum mh) p)) z l, Ok w)).
  { subst r. unfold bind at 1, bind at 1, lift at 1, f_write_nulls. cbv beta iota.
    rewrite (bind_lift _ _ _ _ (mheader_encode_ok mh OK)).
    rewrite (bind_run _ _ _ _ _ (f_write_at _ _ _ _)), (bind_run _ _ _ _ _ (f_write_at _ _ _ _)), (bind_run _ _ _ _ _ (f_write_at _ _ _ _)).
    pose proof (zlen_nonneg (mheader_bytes mh)). pose proof (zlen_nonneg p). pose proof (zlen_nonneg (zrep (mh_max mh - mh_comp mh) x00)).
    destruct (cks_eqb (mh_checksum mh) CkNone) eqn:CN.
    - assert (X : mh_checksum mh = CkNone) by (destruct (mh_checksum mh); auto; discriminate). rewrite X. change (digest E CkNone p) with (@nil byte).
      rewrite app_nil_r, <- !write_at_app by lia. do 3 eexists. reflexivity.
    - rewrite (bind_run _ _ _ _ _ (f_write_at _ _ _ _)). rewrite <- !write_at_app by lia. do 3 eexists. reflexivity. }
  destruct R as (z & l & w & R). rewrite R. cbn [fst snd fdata]. rewrite overwrite_at by lia. destruct w. reflexivity.
Qed.

(** ** Appending *)
Fixpoint putl (ck : cks) (a : bargs) (pieces : list bytes) (p : Z) (g : bytes) : bytes * list Z * option exn :=
  match pieces with
  | [] => (g, [], None)
  | x :: xs =>
      match e_compress E a x with
      | Raise e => (g, [], Some e)
      | Ok z => let y := z ++ digest E ck z in
                let r := putl ck a xs (p + zlen y) (write_at g p y) in
                (fst (fst r), p :: snd (fst r), snd r)
      end
  end.
Fixpoint reads (sizes : list Z) (r : bytes) : list bytes :=
  match sizes with [] => [] | n :: ns => ztake n r :: reads ns (zdrop n r) end.

Lemma write_chunk_at c d f p l : exists l', write_compressed_chunk c d (mkfp f p l) = (mkfp (write_at f p (c ++ d)) (p + zlen (c ++ d)) l', Ok tt) \/ p < 0.
Proof.
  destruct (Z.lt_ge_cases p 0) as [N|N]; [exists []; auto|]. unfold write_compressed_chunk. rewrite (bind_run _ _ _ _ _ (f_write_at _ _ _ _)).
  destruct (Z.ltb_spec 0 (zlen d)) as [L|L].
  - rewrite f_write_at, write_at_app, zlen_app by lia. eexists. left. f_equal. f_equal. lia.
  - pose proof (zlen_nonneg d). assert (D : d = []) by (apply zlen_0; lia). subst d. rewrite app_nil_r. eexists. left. reflexivity.
Qed.

Lemma loop_exact ba : forall sizes i nf k dn, 0 <= fpos (s_fp k) -> 0 <= fpos nf -> Forall (fun n => 0 <= n) sizes ->
  i = zlen dn -> (h_offsets (s_header k) = true -> s_storage k = dn ++ repeat (-1) (List.length sizes)) ->
  let r := putl (h_checksum (s_header k)) ba (reads sizes (rest nf)) (fpos (s_fp k)) (fdata (s_fp k)) in
  exists nf' k', pack_loop (compress_chunk_str E ba) (fps_put E) i (map f_read sizes) (nf, k) =
    ((nf', k'), match snd r with Some e => Raise e | None => Ok tt end) /\ fdata (s_fp k') = fst (fst r) /\ 0 <= fpos (s_fp k') /\
    (snd r = None -> h_offsets (s_header k) = true -> s_storage k' = dn ++ snd (fst r)) /\ s_header k' = s_header k /\ s_meta_total k' = s_meta_total k.
Proof.
  induction sizes as [|n sizes IH]; intros i nf k dn Hp Hn F Hi HS r.
  { exists nf, k. split; [reflexivity|]. split; [reflexivity|]. split; [exact Hp|]. split; [intros _; exact HS|auto]. }
  inversion F as [|? ? N0 F']; subst. cbn [map pack_loop]. cbn [reads putl] in r.
  rewrite (bind_run _ _ _ _ _ (onl_run _ _ _ _ _ (f_read_gen n nf N0))).
  unfold compress_chunk_str at 1. destruct (e_compress E ba (ztake n (rest nf))) as [z|e] eqn:EC.
  2:{ rewrite (bind_lift_raise _ _ _ _ eq_refl). exists (adv (zlen (ztake n (rest nf))) nf), k. split; [reflexivity|]. split; [reflexivity|]. split; [exact Hp|]. split; [discriminate|auto]. }
  rewrite (bind_lift _ _ _ _ eq_refl). set (ck := h_checksum (s_header k)) in *. set (y := z ++ digest E ck z) in *.
  destruct k as [[d p lg] mt h st]. cbn [s_fp fpos fdata s_header s_storage s_meta_total] in *.
  destruct (write_chunk_at z (digest E ck z) d p lg) as (l' & [W|W]); [|lia]. fold y in W.
  assert (PUT : fps_put E (zlen dn) z (mkCFS (mkfp d p lg) mt h st) =
     (mkCFS (mkfp (write_at d p y) (p + zlen y) l') mt h (if h_offsets h then dn ++ p :: repeat (-1) (List.length sizes) else st), Ok tt)).
  { unfold fps_put. rewrite (bind_run _ _ _ (mkCFS (mkfp d p lg) mt h st) p) by reflexivity.
    rewrite (bind_run _ _ _ (mkCFS (mkfp (write_at d p y) (p + zlen y) l') mt h st) tt).
    2:{ unfold on_fp. cbn [s_fp s_header]. rewrite do_checksum_digest. fold ck. rewrite W. reflexivity. }
    cbn [s_header s_storage]. destruct (h_offsets h); [|reflexivity]. rewrite (HS eq_refl). cbn [List.length repeat].
    replace (Z.to_nat (zlen dn)) with (List.length dn) by (unfold zlen; lia). rewrite set_nth_mid. reflexivity. }
  rewrite (bind_run _ _ _ _ _ (onr_run _ _ _ _ _ PUT)).
  destruct (IH (zlen dn + 1) (adv (zlen (ztake n (rest nf))) nf) (mkCFS (mkfp (write_at d p y) (p + zlen y) l') mt h (if h_offsets h then dn ++ p :: repeat (-1) (List.length sizes) else st)) (dn ++ [p])) as (nf' & k' & R & RD & RP & RS & RH & RM); auto.
  { cbn [s_fp fpos]. pose proof (zlen_nonneg y). lia. }
  { rewrite fpos_adv. pose proof (zlen_nonneg (ztake n (rest nf))). lia. }
  { rewrite zlen_app. reflexivity. }
  { cbn [s_storage s_header]. intros ->. rewrite <- app_assoc. reflexivity. }
  assert (RR : rest (adv (zlen (ztake n (rest nf))) nf) = zdrop n (rest nf)).
  { rewrite rest_adv by (pose proof (zlen_nonneg (ztake n (rest nf))); lia). rewrite zlen_ztake. pose proof (zlen_nonneg (rest nf)).
    destruct (Z.le_gt_cases n (zlen (rest nf))); [f_equal; lia|]. rewrite !zdrop_all by lia. reflexivity. }
  cbn [s_header s_fp fpos fdata] in *. rewrite RR in *. fold ck in R, RD, RS.
  exists nf', k'. cbn [fst snd] in r. split; [exact R|]. split; [exact RD|]. split; [exact RP|]. split; [|auto]. intros X HO. subst r. cbn [fst snd] in *. rewrite (RS X HO), <- app_assoc. reflexivity.
Qed.

Lemma put_chunks_putl f ck a rest : cks_index ck = u8 6 f -> forall n i p g, 0 <= p ->
  put_chunks E dg f a rest n i p g = putl ck a (map (fun j => sub ((i + Z.of_nat j) * F_chunk f) (F_chunk f) rest) (seq 0 n)) p g.
Proof.
  intros CI. induction n as [|n IH]; intros i p g Hp; [reflexivity|]. cbn [put_chunks seq map putl]. rewrite Z.add_0_r.
  destruct (e_compress E a _) as [z|e]; [|reflexivity]. unfold with_digest. rewrite <- CI, (dg_digest E dg HD), overwrite_at, size_zlen by lia.
  rewrite IH by (pose proof (zlen_nonneg (z ++ digest E ck z)); lia).
  rewrite <- seq_shift, map_map. erewrite (map_ext (fun j => sub ((i + 1 + Z.of_nat j) * F_chunk f) (F_chunk f) rest)); [reflexivity|].
  intros j. cbn beta. do 2 f_equal. lia.
Qed.
Lemma putl_starts ck a : forall xs p g, 0 <= p -> Forall (fun o => 0 <= o) (snd (fst (putl ck a xs p g))).
Proof.
  induction xs as [|x xs IH]; intros p g Hp; cbn [putl]; [constructor|]. destruct (e_compress E a x) as [z|e]; [|constructor]. cbn [fst snd].
  constructor; [exact Hp|]. apply IH. pose proof (zlen_nonneg (z ++ digest E ck z)). lia.
Qed.
Lemma reads_pieces c r : 1 <= c -> forall k lc, 0 <= lc <= c -> (r = [] \/ zlen r = Z.of_nat k * c + lc) ->
  reads (repeat c k ++ [lc]) r = map (fun j => sub ((0 + Z.of_nat j) * c) c r) (seq 0 (S k)).
Proof.
  intros Hc. assert (G : forall k lc r, 0 <= lc <= c -> (r = [] \/ zlen r = Z.of_nat k * c + lc) ->
    reads (repeat c k ++ [lc]) r = map (fun j => sub (Z.of_nat j * c) c r) (seq 0 (S k))).
  { clear r. induction k as [|k IH]; intros lc r Hl HR.
    - cbn [repeat app reads seq map]. f_equal. change (Z.of_nat 0 * c) with 0. rewrite <- ztake_zdrop_sub, zdrop_0 by lia.
      rewrite !ztake_all; [reflexivity| |]; (destruct HR as [->|HR]; [rewrite zlen_nil|]; lia).
    - cbn [repeat app reads]. rewrite IH; [|exact Hl|].
      2:{ destruct HR as [->|HR]; [left; apply zdrop_all; rewrite zlen_nil; lia|right; rewrite zlen_zdrop; nia]. }
      change (seq 0 (S (S k))) with (0%nat :: seq 1 (S k)). cbn [map]. change (Z.of_nat 0 * c) with 0. f_equal; [rewrite <- ztake_zdrop_sub, zdrop_0 by lia; reflexivity|].
      rewrite <- seq_shift, map_map. apply map_ext. intros j. rewrite <- !ztake_zdrop_sub, zdrop_zdrop by nia. do 2 f_equal. lia. }
  intros k lc Hl HR. rewrite G by auto. apply map_ext. intros j. reflexivity.
Qed.

Lemma header_encode_exact f ck l n r : cks_index ck = u8 6 f -> u8 4 f = 3 -> -1 <= F_chunk f <= BUFMAX -> -1 <= l -> -1 <= n < 2 ^ 63 -> 0 <= r < 2 ^ 63 ->
  header_encode (mkH (u8 4 f) (has_offsets f) (has_meta f) ck (u8 7 f) (F_chunk f) l n r) =
  if 2 ^ 31 <=? l then Raise StructError else Ok (new_head f l n r).
Proof.
  intros CI HV HC HL HN HR. pose proof (u8_range 7 f). pose proof (cks_index_range ck). unfold BUFMAX in HC. change (2 ^ 63) with 9223372036854775808 in *. change (2 ^ 31) with 2147483648.
  destruct (header_encode (mkH (u8 4 f) (has_offsets f) (has_meta f) ck (u8 7 f) (F_chunk f) l n r)) as [b|e] eqn:X.
  - pose proof (header_encode_inv _ _ X) as ->. replace (2147483648 <=? l) with false.
    + f_equal. unfold header_bytes, new_head, head. cbn [h_version h_offsets h_metadata h_checksum h_typesize h_chunk_size h_last_chunk h_nchunks h_max_app].
      rewrite CI, HV, !le_enc_le. unfold opt_bits. destruct (has_offsets f), (has_meta f); reflexivity.
    + unfold header_encode, encode_uint8, encode_int32, encode_int64 in X. repeat (apply rbind_Ok in X as (? & ? & X)).
      match goal with H : pack_int _ _ _ (h_last_chunk _) = Ok _ |- _ => unfold pack_int in H; cbn [h_last_chunk] in H; destruct (_ && _) eqn:B in H; [|discriminate] end. lia.
  - destruct (Z.leb_spec 2147483648 l) as [L|L].
    + unfold header_encode, encode_uint8, encode_int32, encode_int64 in X. rewrite int_of_create in X. unfold pack_int in X.
      cbn [h_version h_offsets h_metadata h_checksum h_typesize h_chunk_size h_last_chunk h_nchunks h_max_app] in X. rewrite HV in X.
      repeat match type of X with rbind (if ?b then _ else Raise ?e0) _ = _ => destruct b; cbn [rbind] in X; [|congruence] end. discriminate.
    + exfalso. unfold header_encode, encode_uint8, encode_int32, encode_int64 in X. rewrite int_of_create in X. unfold pack_int in X.
      cbn [h_version h_offsets h_metadata h_checksum h_typesize h_chunk_size h_last_chunk h_nchunks h_max_app] in X. rewrite HV in X.
      assert (OB : 0 <= opt_bits (has_offsets f) (has_meta f) <= 255) by (destruct (has_offsets f), (has_meta f); cbn; lia).
      repeat match type of X with rbind (if ?b then _ else Raise ?e0) _ = _ => replace b with true in X by lia; cbn [rbind] in X end. discriminate.
Qed.

Definition offs_at (f : bytes) (q : Z) : list Z := map (fun i => i64 (q + 8 * Z.of_nat i) f) (seq 0 (Z.to_nat (F_n f))).
Definition table_at (f : bytes) (m : pyval) : Z := match m with PNone => 32 | _ => 64 + u32 48 f + digest_len (u8 41 f) end.

Lemma version_3 f : header_fault f = None -> u8 4 f = 3.
Proof.
  unfold header_fault, F_version. intros H. repeat match type of H with (if ?b then _ else _) = None => destruct b eqn:?; [discriminate|] end. lia.
Qed.
Definition mhead (f : bytes) (o : option mheader) : Prop :=
  if has_meta f then exists h, o = Some h /\ mh_magic h = b_of_string "JSON" /\ cks_index (mh_checksum h) = u8 41 f /\ codec_index (mh_codec h) = u8 42 f /\
    mh_level h = u8 43 f /\ mh_size h = u32 44 f /\ mh_max h = u32 48 f /\ mh_comp h = u32 52 f
  else o = None.
Lemma beginning_exact f :
  match header_fault f with
  | Some e => exists g, read_beginning E (fp_of f) = (g, Raise e)
  | None =>
      exists ck, cks_index ck = u8 6 f /\ header_nums_ok (u8 7 f) (F_chunk f) (F_last f) (F_n f) (F_max f) /\
      match metadata_part E dg f with
      | Raise e => exists g, read_beginning E (fp_of f) = (g, Raise e)
      | Ok (m, q) =>
          0 <= q /\
          match table_end f q with
          | Raise e => exists g, read_beginning E (fp_of f) = (g, Raise e)
          | Ok q' => exists mh, let bg := mkBeg (mkH (u8 4 f) (has_offsets f) (has_meta f) ck (u8 7 f) (F_chunk f) (F_last f) (F_n f) (F_max f)) m mh
                         (if has_offsets f then offs_at f q else []) in
              read_beginning E (fp_of f) = (mkfp f q' [], Ok bg) /\ offsets_pos bg = table_at f m /\
              (has_offsets f = true -> 0 <= F_n f /\ 8 * F_n f <= Z.max 0 (size f - q)) /\ 0 <= q' /\ mhead f mh
          end
      end
  end.
Proof.
  unfold read_beginning. pose proof (header_exact E dg HD f) as H.
  assert (L32 : header_fault f = None -> 32 <= size f) by (unfold header_fault; destruct (Z.ltb_spec (size f) 32); [discriminate|lia]).
  destruct (header_fault f) as [e|]; [destruct H as [g H]; exists g; rewrite (bind_run_raise _ _ _ _ _ H); reflexivity|].
  destruct H as (ck & CI & NO & H). specialize (L32 eq_refl). exists ck. split; [exact CI|]. split; [exact NO|]. rewrite (bind_run _ _ _ _ _ H). clear H.
  set (h := mkH _ _ _ ck _ _ _ _ _). change (h_metadata h) with (has_meta f). unfold metadata_part.
  pose proof (metadata_exact E dg HD f L32) as M.
  assert (MM : match (if has_meta f then metadata_at_32 E dg f else Ok (PNone, 32)) with
    | Raise e => exists g, (if has_meta f then r <- read_metadata E ;; ret (fst r, Some (snd r)) else ret (PNone, None)) (mkfp f 32 []) = (g, Raise e)
    | Ok (m, q) => 0 <= q /\ exists o, (if has_meta f then r <- read_metadata E ;; ret (fst r, Some (snd r)) else ret (PNone, None)) (mkfp f 32 []) = (mkfp f q [], Ok (m, o)) /\
        (forall hh l, offsets_pos (mkBeg hh m o l) = table_at f m) /\ mhead f o
    end).
  { unfold mhead. destruct (has_meta f).
    2:{ split; [lia|]. eexists. split; [reflexivity|]. split; [intros hh l; reflexivity|reflexivity]. }
    destruct (metadata_at_32 E dg f) as [[m q]|e].
    - destruct M as (mh & M & Q & M48 & M41 & M42 & M43 & MJ & _ & M44 & M52). split; [exact Q|]. eexists. split; [rewrite (bind_run _ _ _ _ _ M); reflexivity|].
      split; [|exists mh; repeat split; auto]. intros hh l. unfold offsets_pos, table_at, BLOSCPACK_HEADER_LENGTH, METADATA_HEADER_LENGTH. cbn [b_meta b_mheader snd fst]. rewrite M48, <- M41, digest_len_cks. destruct m; cbn [is_none]; lia.
    - destruct M as (g & M). eexists. rewrite (bind_run_raise _ _ _ _ _ M). reflexivity. }
  destruct (if has_meta f then metadata_at_32 E dg f else Ok (PNone, 32)) as [[m q]|e].
  2:{ destruct MM as (g & MM). exists g. rewrite (bind_run_raise _ _ _ _ _ MM). reflexivity. }
  destruct MM as (Q & o & MM & OP & MH). split; [exact Q|]. rewrite (bind_run _ _ _ _ _ MM).
  assert (M0 : 0 <= F_max f) by (unfold header_nums_ok in NO; lia).
  pose proof (offsets_exact E dg HD f q h Q eq_refl eq_refl eq_refl M0) as O.
  destruct (table_end f q) as [q'|e]; [|destruct O as (g & O); exists g; rewrite (bind_run_raise _ _ _ _ _ O); reflexivity].
  destruct O as (O & Q' & B). rewrite (bind_run _ _ _ _ _ O). exists o. split; [reflexivity|]. split; [apply OP|]. split; [exact B|]. split; [exact Q'|].
  exact MH.
Qed.

Lemma le_enc_i64 p f : 0 <= p -> p + 8 <= size f -> le_enc 8 (i64 p f) = sub p 8 f.
Proof.
  intros Hp H. unfold i64. assert (S : size (sub p 8 f) = 8) by (rewrite size_sub by lia; lia). unfold size in S.
  rewrite (signed_sint 8) by (unfold zlen; lia). apply (le_enc_signed 8); lia.
Qed.
Lemma words_offs f : forall n q, 0 <= q -> q + 8 * Z.of_nat n <= size f ->
  words (map (fun i => i64 (q + 8 * Z.of_nat i) f) (seq 0 n)) = sub q (8 * Z.of_nat n) f.
Proof.
  induction n as [|n IH]; intros q Hq H; [reflexivity|]. cbn [seq map]. rewrite words_cons, le_enc_i64 by lia.
  rewrite <- seq_shift, map_map. rewrite (map_ext _ (fun i => i64 (q + 8 + 8 * Z.of_nat i) f)) by (intros i; f_equal; lia). rewrite (IH (q + 8)) by lia.
  replace (q + 8 * Z.of_nat 0) with q by lia. rewrite <- !ztake_zdrop_sub. replace (zdrop (q + 8) f) with (zdrop 8 (zdrop q f)) by (rewrite zdrop_zdrop by lia; f_equal; lia).
  set (r := zdrop q f). assert (LR : 8 * Z.of_nat (S n) <= zlen r) by (unfold r; rewrite zlen_zdrop; unfold size, zlen in *; lia). clearbody r. clear IH.
  rewrite <- (ztake_zdrop 8 r) at 3. rewrite ztake_app_ge by (rewrite zlen_ztake; lia). f_equal. f_equal. rewrite zlen_ztake. lia.
Qed.

Lemma i64_range p f : 0 <= p -> p + 8 <= size f -> fits64 (i64 p f).
Proof.
  intros Hp H. assert (S : size (sub p 8 f) = Z.of_nat 8) by (rewrite size_sub by lia; lia).
  pose proof (sint_range 8 _ S ltac:(lia)) as R. change (256 ^ Z.of_nat 8 / 2) with 9223372036854775808 in R. unfold fits64, i64. lia.
Qed.
Lemma last_offs f q : 1 <= F_n f -> List.last (offs_at f q) 0 = i64 (q + 8 * (F_n f - 1)) f.
Proof.
  intros H. unfold offs_at. replace (Z.to_nat (F_n f)) with (S (Z.to_nat (F_n f - 1))) by lia.
  rewrite seq_S, map_app. cbn [map]. rewrite last_last. f_equal. lia.
Qed.
Lemma fill_exact f oa h : h_typesize h = u8 7 f -> fill_blosc_args oa h = Ok (blosc_choice f oa).
Proof.
  intros H. unfold fill_blosc_args, blosc_choice, opt. pose proof (u8_range 7 f). rewrite H. replace (u8 7 f =? -1) with false by lia.
  destruct (oa_typesize oa), (oa_clevel oa), (oa_shuffle oa), (oa_cname oa); reflexivity.
Qed.
Lemma chunk_at f ck p l : 0 <= p ->
  match (if size f - p <? 4 then Raise IndexError else if size f - p <? 16 then Raise StructError else Ok tt) with
  | Raise e => exists p', read_compressed_chunk E ck (mkfp f p l) = (mkfp f p' l, Raise e)
  | Ok _ => exists p' bh d, read_compressed_chunk E ck (mkfp f p l) = (mkfp f p' l, Ok (sub p (u32 (p + 12) f) f, bh, d))
  end.
Proof.
  intros Hp. assert (ZR : zlen (zdrop p f) = Z.max 0 (size f - p)) by (rewrite zlen_zdrop, <- size_zlen; lia).
  destruct (Z.ltb_spec (size f - p) 16) as [L|L].
  - assert (X : exists p', read_compressed_chunk E ck (mkfp f p l) = (mkfp f p' l, Raise (if size f - p <? 4 then IndexError else StructError))).
    { unfold read_compressed_chunk, BLOSC_HEADER_LENGTH. rewrite (bind_run _ _ _ _ _ (f_read_at E dg HD 16 f p l ltac:(lia))). eexists.
      apply bind_lift_raise. rewrite <- ztake_zdrop_sub, ztake_all by lia. rewrite (blosc_short E dg HD) by lia. rewrite ZR.
      destruct (Z.ltb_spec (size f - p) 4); [replace (Z.max 0 (size f - p) <? 4) with true by lia|replace (Z.max 0 (size f - p) <? 4) with false by lia]; reflexivity. }
    destruct (Z.ltb_spec (size f - p) 4); exact X.
  - replace (size f - p <? 4) with false by lia.
    destruct (read_chunk_spec E ck (mkfp f p l)) as (bh & n & R & _ & _ & _); [cbn [fpos]; lia|unfold rest; cbn [fpos fdata]; rewrite ZR; lia|].
    rewrite R. unfold adv. cbn [fdata fpos flog]. do 3 eexists. do 4 f_equal. unfold chunk_here, rest. cbn [fdata fpos].
    assert (UW : u32 12 (zdrop p f) = u32 (p + 12) f).
    { unfold u32. f_equal. rewrite <- !ztake_zdrop_sub, zdrop_zdrop by lia. do 2 f_equal. lia. }
    rewrite UW, ztake_zdrop_sub. reflexivity.
Qed.
Lemma words_le l : words l = concat (map (le 8) l).
Proof. unfold words. f_equal. apply map_ext. intros x. apply le_enc_le. Qed.
Lemma encode_big a l : Forall fits64 a -> Forall (fun o => 0 <= o) l ->
  encode_offsets (a ++ l) = if existsb (fun o => 2 ^ 63 <=? o) l then Raise StructError else Ok (words a ++ concat (map (le 8) l)).
Proof.
  intros A L. destruct (existsb (fun o => 2 ^ 63 <=? o) l) eqn:X.
  - destruct (encode_offsets (a ++ l)) as [b|e] eqn:Y; [|apply encode_offsets_outcome in Y as (-> & _); reflexivity].
    apply encode_offsets_inv in Y as (F & _). apply existsb_exists in X as (o & I & B). apply Forall_app in F as (_ & F). rewrite Forall_forall in F. specialize (F o I).
    unfold fits64 in F. change (2 ^ 63) with 9223372036854775808 in B. lia.
  - rewrite encode_offsets_words, words_app, words_le; [rewrite <- (words_le l), words_le; reflexivity|]. apply Forall_app. split; [exact A|].
    apply Forall_forall. intros o I. rewrite Forall_forall in L. specialize (L o I).
    assert (B : (2 ^ 63 <=? o) = false) by (apply (existsb_nth_false _ _ X o I) || (apply not_true_iff_false; intros B; apply not_true_iff_false in X; apply X, existsb_exists; exists o; auto)).
    unfold fits64. change (2 ^ 63) with 9223372036854775808 in B. lia.
Qed.

Theorem append_exact f new oa : append_bytes E f new oa = reference_append E dg f new oa.
Proof.
  unfold append_bytes, reference_append. pose proof (beginning_exact f) as B. pose proof (version_3 f) as V.
  assert (RB : forall g e, read_beginning E (fp_of f) = (g, Raise e) ->
    (fdata (snd (fst (append_fp E (size new) oa (fp_of new, fp_of f)))), snd (append_fp E (size new) oa (fp_of new, fp_of f))) = (f, Raise e)).
  { intros g e H. pose proof (ro_read_beginning E (fp_of f) g (Raise e) ltac:(cbn; lia) H) as (D & _).
    unfold append_fp. rewrite (bind_run_raise _ _ (fp_of new, fp_of f) (fp_of new, g) e) by (unfold onr; cbn [fst snd]; rewrite H; reflexivity).
    cbn [fst snd]. rewrite D. reflexivity. }
  destruct (header_fault f) as [e|]; [destruct B as (g & B); exact (RB g e B)|].
  destruct B as (ck & CI & NO & B). specialize (V eq_refl).
  destruct (metadata_part E dg f) as [[m q]|e]; [|destruct B as (g & B); exact (RB g e B)].
  destruct B as (Q & B). destruct (table_end f q) as [q'|e]; [|destruct B as (g & B); exact (RB g e B)].
  destruct B as (mh & B & OP & N & _). clear RB. cbv zeta in B.
  set (bg := mkBeg _ m mh _) in *. set (h := mkH _ _ _ ck _ _ _ _ _) in *.
  unfold append_fp. rewrite (bind_run _ _ (fp_of new, fp_of f) (fp_of new, mkfp f q' []) bg) by (unfold onr; cbn [fst snd]; rewrite B; reflexivity). clear B.
  change (b_header bg) with h. change (b_offsets bg) with (if has_offsets f then offs_at f q else []).
  destruct (has_offsets f) eqn:HO; [|reflexivity]. specialize (N eq_refl). cbn [negb orb].
  destruct (Z.eqb_spec (F_n f) 0) as [N0|N0].
  { unfold offs_at. rewrite N0. reflexivity. }
  cbv beta zeta.
  assert (NE : exists o0 os, offs_at f q = o0 :: os).
  { unfold offs_at. replace (Z.to_nat (F_n f)) with (S (Z.to_nat (F_n f - 1))) by lia. eexists. eexists. reflexivity. }
  destruct NE as (o0 & os & NE). rewrite NE, <- NE. rewrite last_offs by lia. set (last := i64 (q + 8 * (F_n f - 1)) f).
  rewrite (bind_lift _ _ _ _ (fill_exact f oa h eq_refl)). set (ba := blosc_choice f oa).
  destruct (Z.ltb_spec last 0) as [LN|LN].
  { rewrite (bind_run_raise _ _ (fp_of new, mkfp f q' []) (fp_of new, mkfp f q' []) (if e_mem E then ValueError else OSError)); [reflexivity|].
    unfold onr, f_seek. cbn [fst snd]. replace (last <? 0) with true by lia. reflexivity. }
  assert (SK : forall w (x : fp) d p l, 0 <= w -> onr (f_seek E w) (x, mkfp d p l) = ((x, mkfp d w l), Ok tt)).
  { intros w x d p l H. unfold onr, f_seek. cbn [fst snd]. replace (w <? 0) with false by lia. reflexivity. }
  rewrite (bind_run _ _ _ _ _ (SK last _ _ _ _ LN)). change (h_checksum h) with ck.
  pose proof (chunk_at f ck last [] LN) as C.
  assert (CE : forall e p', read_compressed_chunk E ck (mkfp f last []) = (mkfp f p' [], Raise e) ->
    forall K : bytes * blosc_header * option bytes -> SM (fp * fp) Z,
    let r := bind (onr (read_compressed_chunk E ck)) K (fp_of new, mkfp f last []) in (fdata (snd (fst r)), snd r) = (f, Raise e)).
  { intros e p' H K r. subst r. rewrite (bind_run_raise _ _ (fp_of new, mkfp f last []) (fp_of new, mkfp f p' []) e) by (unfold onr; cbn [fst snd]; rewrite H; reflexivity). reflexivity. }
  destruct (Z.ltb_spec (size f - last) 4) as [L4|L4]; [destruct C as (p' & C); exact (CE _ _ C _)|].
  destruct (Z.ltb_spec (size f - last) 16) as [L16|L16]; [destruct C as (p' & C); exact (CE _ _ C _)|].
  clear CE. destruct C as (p' & bh & dd & C).
  rewrite (bind_run _ _ (fp_of new, mkfp f last []) (fp_of new, mkfp f p' []) _) by (unfold onr; cbn [fst snd]; rewrite C; reflexivity). clear C.
  cbn [fst snd]. destruct (e_decompress E (sub last (u32 (last + 12) f) f)) as [d|e] eqn:DE; [|reflexivity].
  rewrite (bind_lift _ _ _ _ eq_refl). change (h_chunk_size h) with (F_chunk f).
  unfold append_here. set (c := F_chunk f) in *. rewrite (size_zlen d). set (room := c - zlen d). fold ba.
  assert (NOK := NO). unfold header_nums_ok, BUFMAX in NOK. fold c in NOK. change (2 ^ 63) with 9223372036854775808 in *.
  assert (WC : forall z (x : fp) g p l, 0 <= p -> exists l', onr (write_compressed_chunk z (digest E ck z)) (x, mkfp g p l) =
      ((x, mkfp (overwrite p (with_digest dg f z) g) (p + size (with_digest dg f z)) l'), Ok tt)).
  { intros z x g p l H. destruct (write_chunk_at z (digest E ck z) g p l) as (l' & [W|W]); [|lia]. exists l'. unfold onr. cbn [fst snd]. rewrite W.
    unfold with_digest. rewrite <- CI, (dg_digest E dg HD), overwrite_at by lia. rewrite <- size_zlen. reflexivity. }
  destruct (Z.leb_spec (size new) room) as [FIT|FIT].
  - replace (size new - room <=? 0) with true by lia.
    rewrite (bind_run _ _ (fp_of new, mkfp f p' []) (mkfp new (size new) [], mkfp f p' []) new).
    2:{ unfold onl. cbn [fst snd]. unfold fp_of. rewrite (f_read_at E dg HD) by (unfold size; lia). rewrite <- ztake_zdrop_sub, zdrop_0, ztake_all by (rewrite <- ?size_zlen; lia). reflexivity. }
    rewrite (bind_run _ _ _ _ _ (SK last _ _ _ _ LN)). unfold compress_chunk_str.
    destruct (e_compress E ba (d ++ new)) as [z|e] eqn:EC; [|reflexivity]. rewrite (bind_lift _ _ _ _ eq_refl).
    destruct (WC z (mkfp new (size new) []) f last [] LN) as (l' & W). rewrite (bind_run _ _ _ _ _ W). clear W.
    unfold set_counts. cbn [h_version h_offsets h_metadata h_checksum h_typesize h_chunk_size h_last_chunk h_nchunks h_max_app h]. subst h.
    cbn [h_version h_offsets h_metadata h_checksum h_typesize h_chunk_size h_last_chunk h_nchunks h_max_app].
    pose proof (header_encode_exact f ck (F_last f + size new) (F_n f) (F_max f) CI V ltac:(unfold BUFMAX; fold c; lia) ltac:(unfold size; lia) ltac:(change (2 ^ 63) with 9223372036854775808; lia) ltac:(change (2 ^ 63) with 9223372036854775808; lia)) as HE.
    rewrite HO in HE. fold c in HE. rewrite HE. clear HE.
    destruct (2 ^ 31 <=? F_last f + size new); [reflexivity|].
    rewrite (bind_lift _ _ _ _ eq_refl), (bind_run _ _ _ _ _ (SK 0 _ _ _ _ ltac:(lia))).
    unfold bind at 1, onr. cbn [fst snd]. rewrite f_write_at. cbn [fst snd ret fdata]. rewrite <- overwrite_at by lia. reflexivity.
  - replace (size new - room <=? 0) with false by lia. set (more := size new - room) in *.
    set (fill := if room <? 0 then new else sub 0 room new). set (rs := if room <? 0 then [] else skipn (Z.to_nat room) new).
    assert (FR : exists np, onl (f_read room) (fp_of new, mkfp f p' []) = ((mkfp new np [], mkfp f p' []), Ok fill) /\ 0 <= np /\ zdrop np new = rs).
    { unfold onl. cbn [fst snd]. unfold fp_of. destruct (Z.ltb_spec room 0) as [RN|RN].
      - unfold f_read. replace (room <? 0) with true by lia. cbn [fdata fpos flog]. rewrite zdrop_0 by lia. exists (0 + zlen new). split; [reflexivity|]. split; [pose proof (zlen_nonneg new); lia|].
        apply zdrop_all. lia.
      - rewrite (f_read_at E dg HD) by lia. exists (0 + size (sub 0 room new)). split; [reflexivity|]. split; [unfold size; lia|].
        rewrite size_sub by lia. unfold rs. rewrite zdrop_skipn. f_equal. lia. }
    destruct FR as (np & FR & NP & RS). rewrite (bind_run _ _ _ _ _ FR). clear FR.
    rewrite (calc_exact more c) by (unfold BUFMAX; lia). change (2 ^ 63) with 9223372036854775808.
    destruct (Z.ltb_spec c 1) as [C1|C1]; [reflexivity|]. set (k := (more + c - 1) / c).
    destruct (Z.leb_spec 9223372036854775808 k) as [K63|K63]; [reflexivity|].
    rewrite (bind_lift _ _ _ _ eq_refl). cbv beta iota. change (h_max_app h) with (F_max f).
    destruct (Z.ltb_spec (F_max f) k) as [KM|KM]; [reflexivity|].
    rewrite (bind_run _ _ _ _ _ (SK last _ _ _ _ LN)). change (compress_chunk_str E ba (d ++ fill)) with (e_compress E ba (d ++ fill)).
    destruct (e_compress E ba (d ++ fill)) as [z|e] eqn:EC; [|reflexivity]. rewrite (bind_lift _ _ _ _ eq_refl).
    destruct (WC z (mkfp new np []) f last [] LN) as (l' & W). rewrite (bind_run _ _ _ _ _ W). clear W. set (y := with_digest dg f z).
    cbn [fst snd].
    assert (KB : k * c <= more + c - 1 < k * c + c).
    { pose proof (Z.div_mod (more + c - 1) c ltac:(lia)). pose proof (Z.mod_pos_bound (more + c - 1) c ltac:(lia)). fold k in H. nia. }
    assert (K1 : 1 <= k) by nia. assert (LC : 1 <= more - (k - 1) * c <= c) by nia. set (lc := more - (k - 1) * c) in *.
    set (sizes := chunk_sizes k (Z.min c more) lc).
    assert (SE : sizes = repeat c (Z.to_nat (k - 1)) ++ [lc]).
    { unfold sizes, chunk_sizes, zrep. destruct (Z.le_gt_cases c more) as [X|X]; [rewrite Z.min_l by lia; reflexivity|]. assert (K0 : k = 1) by nia. rewrite K0. reflexivity. }
    pose proof (loop_exact ba sizes 0 (mkfp new np []) (mkCFS (mkfp (overwrite last y f) (last + size y) l') 0 h (zrep k (-1))) []) as LP.
    cbn [s_fp s_header s_storage fpos fdata] in LP. unfold fp_source_steps. fold sizes.
    destruct LP as (nf' & k' & LP & LD & LQ & LS & _).
    { unfold size. lia. } { exact NP. }
    { rewrite SE. apply Forall_app. split; [apply Forall_forall; intros x I; apply repeat_spec in I; lia|repeat constructor; lia]. }
    { reflexivity. }
    { intros _. cbn [app]. rewrite SE, app_length, repeat_length. unfold zrep. f_equal. cbn [List.length]. lia. }
    rewrite LP. clear LP. unfold rest in *. cbn [fdata fpos] in *. rewrite RS in *. change (h_checksum h) with ck in *.
    assert (PC : put_chunks E dg f ba rs (Z.to_nat k) 0 (last + size y) (overwrite last y f) = putl ck ba (reads sizes rs) (last + size y) (overwrite last y f)).
    { rewrite (put_chunks_putl f ck ba rs CI) by (unfold size; lia). f_equal. rewrite SE. rewrite (reads_pieces c rs C1 (Z.to_nat (k - 1)) lc); [fold c; do 2 f_equal; lia|lia|].
      unfold rs. destruct (Z.ltb_spec room 0); [left; reflexivity|right]. rewrite <- zdrop_skipn, zlen_zdrop, <- size_zlen, Z2Nat.id by lia. unfold lc, more. lia. }
    rewrite PC. pose proof (putl_starts ck ba (reads sizes rs) (last + size y) (overwrite last y f) ltac:(unfold size; lia)) as ST.
    destruct (putl ck ba (reads sizes rs) (last + size y) (overwrite last y f)) as [[g starts] o] eqn:PL. cbn [fst snd] in *.
    destruct o as [e|]; cbn [fst snd]; [rewrite LD; reflexivity|]. specialize (LS eq_refl eq_refl). cbn [app] in LS. rewrite LS.
    destruct k' as [[gd gp gl] mt hh st]. cbn [s_fp fdata fpos] in *. subst gd.
    unfold set_counts. subst h. cbn [h_version h_offsets h_metadata h_checksum h_typesize h_chunk_size h_last_chunk h_nchunks h_max_app].
    pose proof (header_encode_exact f ck lc (F_n f + k) (F_max f - k) CI V ltac:(unfold BUFMAX; fold c; lia) ltac:(lia) ltac:(change (2 ^ 63) with 9223372036854775808; lia) ltac:(change (2 ^ 63) with 9223372036854775808; lia)) as HE.
    rewrite HO in HE. fold c in HE. rewrite HE. clear HE.
    replace (2 ^ 31 <=? lc) with false by (change (2 ^ 31) with 2147483648; lia).
    rewrite (bind_lift _ _ _ _ eq_refl), (bind_run _ _ _ _ _ (SK 0 _ _ _ _ ltac:(lia))).
    rewrite (bind_run _ _ _ _ _ (onr_run _ _ _ _ _ (f_write_at _ _ _ _))).
    assert (TP : 0 <= offsets_pos bg).
    { rewrite OP. unfold table_at. pose proof (u32_range 48 f). assert (0 <= digest_len (u8 41 f)) by (unfold digest_len; set (i := Z.to_nat _); clearbody i; do 9 (destruct i as [|i]; [cbn; lia|]); destruct i; cbn; lia). destruct m; lia. }
    rewrite (bind_run _ _ _ _ _ (SK _ _ _ _ _ TP)). rewrite OP. fold (table_at f m). rewrite OP in TP.
    unfold write_offsets. rewrite (encode_big (offs_at f q) starts).
    2:{ unfold offs_at. apply Forall_forall. intros x I. apply in_map_iff in I as (i & <- & I). apply in_seq in I. apply i64_range; lia. }
    2:{ exact ST. }
    rewrite <- (overwrite_at 0) by lia.
    destruct (existsb _ starts); [reflexivity|].
    unfold bind at 1, onr. cbn [fst snd]. rewrite (bind_lift _ _ _ _ eq_refl), f_write_at. cbn [fst snd ret fdata]. rewrite <- overwrite_at by exact TP.
    unfold offs_at. rewrite words_offs by lia. replace (8 * Z.of_nat (Z.to_nat (F_n f))) with (8 * F_n f) by lia. reflexivity.
Qed.
End WithEnv.
