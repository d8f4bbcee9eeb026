(** Lemmas for C02, C09, C10, C11: when metadata can be written and what the
    section looks like; the layout of packed files. *)
From Verif Require Import Base PyVal Checksums Headers Pretty Args FileIO Spec BaseLemmas HeaderProofs IOProofs WfProofs PackProofs SmallProofs BytesProofs.
From Coq Require Import ZifyBool ZifyNat.
Ltac Zify.zify_post_hook ::= Z.div_mod_to_equations.

Lemma In_checksum_names s : In s checksum_names <-> exists c, s = cks_name c.
Proof.
  split.
  - intros H. cbn in H. repeat (destruct H as [<-|H]); try tauto;
    [exists CkNone|exists CkAdler32|exists CkCrc32|exists CkMd5|exists CkSha1|exists CkSha224|exists CkSha256|exists CkSha384|exists CkSha512]; reflexivity.
  - intros [c ->]. destruct c; cbn; tauto.
Qed.

(** Bytes outside a written range are unchanged. *)
Lemma nth_write_before d p x i : 0 <= p -> Z.of_nat i < p -> Z.of_nat i < zlen d -> nth_error (write_at d p x) i = nth_error d i.
Proof.
  intros Hp Hi Hd. destruct x as [|b x]; [reflexivity|]. cbn [write_at]. set (y := b :: x).
  rewrite nth_error_app1.
  - rewrite <- (ztake_zdrop p d) at 2. rewrite nth_error_app1; [reflexivity|].
    pose proof (zlen_ztake p d). unfold zlen in *. lia.
  - pose proof (zlen_ztake p d). unfold zlen in *. lia.
Qed.
Lemma nth_write_after d p x i : 0 <= p -> p + zlen x <= Z.of_nat i -> nth_error (write_at d p x) i = nth_error d i.
Proof.
  intros Hp Hi. destruct x as [|b x]; [reflexivity|]. cbn [write_at]. set (y := b :: x) in *. pose proof (zlen_nonneg y).
  pose proof (zlen_ztake p d) as L1. pose proof (zlen_zrep (p - zlen d) x00) as L2. pose proof (zlen_nonneg d).
  rewrite !app_assoc. set (a := (ztake p d ++ zrep (p - zlen d) x00) ++ y).
  assert (LA : zlen a = p + zlen y) by (unfold a; rewrite !zlen_app; lia).
  rewrite nth_error_app2 by (unfold zlen in *; lia).
  destruct (Z.le_gt_cases (p + zlen y) (zlen d)).
  - rewrite <- (ztake_zdrop (p + zlen y) d) at 2. rewrite nth_error_app2.
    + f_equal. pose proof (zlen_ztake (p + zlen y) d). unfold zlen in *. lia.
    + pose proof (zlen_ztake (p + zlen y) d). unfold zlen in *. lia.
  - rewrite zdrop_all by lia. transitivity (@None byte).
    + destruct (i - List.length a)%nat; reflexivity.
    + symmetry. apply nth_error_None. unfold zlen in *. lia.
Qed.
Lemma sub_write_at d p x : 0 <= p -> sub p (zlen x) (write_at d p x) = x.
Proof.
  intros Hp. destruct x as [|b x]; [unfold sub; reflexivity|]. cbn [write_at]. set (y := b :: x) in *.
  rewrite app_assoc. apply sub_at; [|reflexivity]. rewrite size_zlen, zlen_app, zlen_ztake, zlen_zrep. pose proof (zlen_nonneg d). lia.
Qed.
Lemma zlen_write_at d p x : 0 <= p -> x <> [] -> zlen (write_at d p x) = Z.max (zlen d) (p + zlen x).
Proof.
  intros Hp Hx. rewrite write_at_unfold by auto. rewrite !zlen_app, zlen_ztake, zlen_zrep, zlen_zdrop.
  pose proof (zlen_nonneg d). pose proof (zlen_nonneg x). lia.
Qed.
(** A file that has [x] at position p. *)
Lemma sub_here p x g : 0 <= p -> sub p (zlen x) g = x -> exists q, zdrop p g = x ++ q.
Proof.
  intros Hp H. exists (skipn (List.length x) (zdrop p g)). unfold sub, zlen in H. rewrite Nat2Z.id in H.
  rewrite <- zdrop_skipn in H. rewrite <- H at 1. apply eq_sym, firstn_skipn.
Qed.

Section WithEnv.
Variable E : Env.
Hypothesis HE : EnvOK E.

Lemma planned_fits m a h p raw : planned E m a h p raw -> ma_magic a = b_of_string "JSON" -> payload_of E a raw p ->
  meta_fits E m a raw p (mh_max h).
Proof.
  intros P HM HP. destruct P as [pl_dumps pl_ok pl_magic pl_user pl_opts pl_comp pl_fit pl_size pl_small pl_dec pl_ck pl_max pl_level pl_codec]. unfold meta_fits. unfold mheader_ok in *.
  change size with (@zlen byte).
  split; [auto|]. split; [auto|]. split.
  { unfold max_meta. unfold effective_max_meta_size in pl_max. destruct (ma_max a); congruence. }
  split; [auto|]. split; [apply In_checksum_names; eauto|]. lia.
Qed.

Lemma plan_payload m a h p a' raw : plan_metadata E m a = Ok (h, p, a') -> e_dumps E m = Ok raw ->
  ma_magic a = b_of_string "JSON" /\ payload_of E a raw p.
Proof.
  unfold plan_metadata. intros H Hd.
  apply rbind_Ok in H as (u & H0 & H). apply serializer_lookup_inv in H0. split; [exact H0|].
  rewrite Hd in H. cbn [rbind] in H.
  apply rbind_Ok in H as ([p1 a1] & H2 & H).
  apply rbind_Ok in H as (mx & H3 & H). destruct (mx <? zlen p1); [discriminate|].
  apply rbind_Ok in H as (co & H4 & H). apply rbind_Ok in H as (h1 & H5 & H). injection H as -> -> ->.
  unfold payload_of. destruct (should_compress a) eqn:SC.
  - apply rbind_Ok in H2 as (co' & C1 & H2). apply rbind_Ok in H2 as (z & C2 & H2). apply codec_lookup_inv in C1.
    destruct co'.
    + unfold should_compress in SC. rewrite C1 in SC. discriminate.
    + right. split; [exact C1|]. exists z. split; [exact C2|]. change size with (@zlen byte).
      destruct (zlen raw <? zlen z); injection H2 as <- _; reflexivity.
  - left. split; [apply should_compress_inv; auto|]. injection H2 as <- _. reflexivity.
Qed.

Lemma plan_fits m a h p a' : plan_metadata E m a = Ok (h, p, a') -> exists raw, planned E m a h p raw /\ meta_fits E m a raw p (mh_max h).
Proof.
  intros H. destruct (plan_inv E HE _ _ _ _ _ H) as [raw P]. exists raw. split; [exact P|].
  destruct (plan_payload _ _ _ _ _ raw H (pl_dumps _ _ _ _ _ _ P)). eapply planned_fits; eauto.
Qed.

Lemma fits_plan m a raw p mx : meta_fits E m a raw p mx ->
  exists h a', plan_metadata E m a = Ok (h, p, a') /\ mh_max h = mx.
Proof.
  intros (H1 & H2 & H3 & H4 & H5 & H6 & H7 & H8). change size with (@zlen byte) in *.
  apply In_checksum_names in H5 as [c Hc].
  unfold plan_metadata. rewrite H4. replace (serializer_lookup (b_of_string "JSON")) with (@Ok unit tt) by reflexivity.
  cbn [rbind]. rewrite H1. cbn [rbind].
  assert (MM : forall a1, ma_max a1 = ma_max a -> effective_max_meta_size a1 (zlen raw) = Ok mx).
  { intros a1 Ha. unfold effective_max_meta_size. rewrite Ha. unfold max_meta in H3. change size with (@zlen byte) in H3. destruct (ma_max a); [congruence|congruence|tauto]. }
  assert (PP : exists a1 k, (if should_compress a then
           co <~ codec_lookup (ma_codec a) ;;
           z <~ codec_compress E co raw (ma_level a) ;;
           if zlen raw <? zlen z then Ok (raw, nullify_codec a) else Ok (z, a)
         else Ok (raw, a)) = Ok (p, a1) /\ ma_max a1 = ma_max a /\ ma_codec a1 = codec_name k /\ ma_magic a1 = ma_magic a /\
           ma_checksum a1 = ma_checksum a /\ ma_level a1 = ma_level a /\ (k = CoNone -> p = raw)).
  { destruct H2 as [[HN ->]|[HN (z & HZ & ->)]].
    - exists a, CoNone. unfold should_compress. rewrite HN. cbn. repeat split; auto.
    - unfold should_compress. rewrite HN. cbn [String.eqb Ascii.eqb Bool.eqb negb].
      change (codec_lookup "zlib") with (@Ok codec CoZlib). cbn [rbind codec_compress]. rewrite HZ. cbn [rbind].
      change size with (@zlen byte). destruct (zlen raw <? zlen z) eqn:L.
      + exists (nullify_codec a), CoNone. split; [reflexivity|]. cbn. repeat split; auto.
      + exists a, CoZlib. split; [reflexivity|]. repeat split; auto. discriminate. }
  destruct PP as (a1 & k & -> & M1 & M2 & M3 & M4 & M5 & M6). cbn [rbind].
  rewrite (MM a1 M1). cbn [rbind]. replace (mx <? zlen p) with false by lia.
  rewrite M2, codec_lookup_name. cbn [rbind].
  rewrite M3, M4, M5, H4, Hc.
  assert (pos : 0 <= zlen p) by apply zlen_nonneg.
  rewrite (mk_mheader_intro (b_of_string "JSON") create_metadata_options c k (ma_level a) (zlen raw) mx (zlen p) []).
  - cbn [rbind]. eexists _, _. split; reflexivity.
  - assert (zlen raw >= 0) by (pose proof (zlen_nonneg raw); lia).
    assert (zlen p <= zlen raw).
    { destruct H2 as [[_ ->]|[_ (z & _ & ->)]]; [lia|]. change size with (@zlen byte). destruct (zlen raw <? zlen z) eqn:?; lia. }
    unfold mheader_ok. cbn [mh_magic mh_options mh_checksum mh_codec mh_level mh_size mh_max mh_comp mh_user].
    repeat split; try lia; cbn; lia.
Qed.

Lemma plan_iff m a : (exists r, plan_metadata E m a = Ok r) <-> (exists raw p mx, meta_fits E m a raw p mx).
Proof.
  split.
  - intros [[[h p] a'] H]. apply plan_fits in H as (raw & _ & H). eauto.
  - intros (raw & p & mx & H). apply fits_plan in H as (h & a' & H & _). eauto.
Qed.

(** Everything is right except that the payload does not fit. *)
Lemma plan_too_small m a raw p mx :
  e_dumps E m = Ok raw -> payload_of E a raw p -> max_meta a (size raw) mx ->
  ma_magic a = b_of_string "JSON" -> (mx < size p) ->
  plan_metadata E m a = Raise MetadataSectionTooSmall.
Proof.
  intros H1 H2 H3 H4 H8. change size with (@zlen byte) in *.
  unfold plan_metadata. rewrite H4. replace (serializer_lookup (b_of_string "JSON")) with (@Ok unit tt) by reflexivity.
  cbn [rbind]. rewrite H1. cbn [rbind].
  assert (MM : forall a1, ma_max a1 = ma_max a -> effective_max_meta_size a1 (zlen raw) = Ok mx).
  { intros a1 Ha. unfold effective_max_meta_size. rewrite Ha. unfold max_meta in H3. change size with (@zlen byte) in H3. destruct (ma_max a); [congruence|congruence|tauto]. }
  assert (PP : exists a1, (if should_compress a then
           co <~ codec_lookup (ma_codec a) ;;
           z <~ codec_compress E co raw (ma_level a) ;;
           if zlen raw <? zlen z then Ok (raw, nullify_codec a) else Ok (z, a)
         else Ok (raw, a)) = Ok (p, a1) /\ ma_max a1 = ma_max a).
  { destruct H2 as [[HN ->]|[HN (z & HZ & ->)]].
    - exists a. unfold should_compress. rewrite HN. cbn. auto.
    - unfold should_compress. rewrite HN. cbn [String.eqb Ascii.eqb Bool.eqb negb].
      change (codec_lookup "zlib") with (@Ok codec CoZlib). cbn [rbind codec_compress]. rewrite HZ. cbn [rbind].
      change size with (@zlen byte). destruct (zlen raw <? zlen z) eqn:L; eexists; split; reflexivity. }
  destruct PP as (a1 & -> & M1). cbn [rbind]. rewrite (MM a1 M1). cbn [rbind]. replace (mx <? zlen p) with true by lia. reflexivity.
Qed.
Lemma plan_not_too_small m a raw p mx :
  e_dumps E m = Ok raw -> payload_of E a raw p -> max_meta a (size raw) mx ->
  ma_magic a = b_of_string "JSON" -> (size p <= mx) ->
  plan_metadata E m a <> Raise MetadataSectionTooSmall.
Proof.
  intros H1 H2 H3 H4 H8. change size with (@zlen byte) in *.
  unfold plan_metadata. rewrite H4. replace (serializer_lookup (b_of_string "JSON")) with (@Ok unit tt) by reflexivity.
  cbn [rbind]. rewrite H1. cbn [rbind].
  assert (MM : forall a1, ma_max a1 = ma_max a -> effective_max_meta_size a1 (zlen raw) = Ok mx).
  { intros a1 Ha. unfold effective_max_meta_size. rewrite Ha. unfold max_meta in H3. change size with (@zlen byte) in H3. destruct (ma_max a); [congruence|congruence|tauto]. }
  assert (PP : exists a1 k, (if should_compress a then
           co <~ codec_lookup (ma_codec a) ;;
           z <~ codec_compress E co raw (ma_level a) ;;
           if zlen raw <? zlen z then Ok (raw, nullify_codec a) else Ok (z, a)
         else Ok (raw, a)) = Ok (p, a1) /\ ma_max a1 = ma_max a /\ ma_codec a1 = codec_name k).
  { destruct H2 as [[HN ->]|[HN (z & HZ & ->)]].
    - exists a, CoNone. unfold should_compress. rewrite HN. cbn. auto.
    - unfold should_compress. rewrite HN. cbn [String.eqb Ascii.eqb Bool.eqb negb].
      change (codec_lookup "zlib") with (@Ok codec CoZlib). cbn [rbind codec_compress]. rewrite HZ. cbn [rbind].
      change size with (@zlen byte). destruct (zlen raw <? zlen z) eqn:L; eexists; [exists CoNone|exists CoZlib]; split; try reflexivity; auto. }
  destruct PP as (a1 & k & -> & M1 & M2). cbn [rbind]. rewrite (MM a1 M1). cbn [rbind]. replace (mx <? zlen p) with false by lia.
  rewrite M2, codec_lookup_name. cbn [rbind]. intros G.
  destruct (mk_mheader _ _ _ _ _ _ _ _ _) eqn:MK; [discriminate|]. cbn [rbind] in G. injection G as ->.
  revert MK. unfold mk_mheader, check_str, check_options, check_valid_checksum, check_valid_codec, check_range, rbind.
  repeat match goal with |- context [if ?b then _ else _] => destruct b | |- context [match find ?a ?b with _ => _ end] => destruct (find a b) end; discriminate.
Qed.
(** Nothing is written unless everything is. *)
Lemma write_raise_same m a f f' e : 0 <= fpos f -> write_metadata E m a f = (f', Raise e) -> f' = f /\ plan_metadata E m a = Raise e.
Proof.
  intros Hp H. destruct (plan_metadata E m a) as [[[h pl] a1]|e'] eqn:PL.
  - rewrite (write_metadata_run E HE _ _ _ _ _ _ PL Hp) in H. discriminate.
  - rewrite (write_metadata_raise E _ _ _ _ PL) in H. injection H as <- <-. auto.
Qed.
Lemma write_too_small m a f raw p mx : 0 <= fpos f ->
  e_dumps E m = Ok raw -> payload_of E a raw p -> max_meta a (size raw) mx -> ma_magic a = b_of_string "JSON" ->
  (mx < size p <-> write_metadata E m a f = (f, Raise MetadataSectionTooSmall)).
Proof.
  intros Hp H1 H2 H3 H4. split.
  - intros H. apply write_metadata_raise. eapply plan_too_small; eauto.
  - intros H. apply write_raise_same in H as [_ H]; auto.
    destruct (Z.lt_ge_cases mx (size p)); auto. exfalso. eapply plan_not_too_small; eauto.
Qed.

(** ** C09 *)
Lemma write_read m a d p lg f' tot a' : 0 <= p -> write_metadata E m a (mkfp d p lg) = (f', Ok (tot, a')) ->
  exists h raw pl, meta_fits E m a raw pl (mh_max h) /\
    mheader_describes (sub p 32 (fdata f')) h /\ sub (p + 32) (size pl) (fdata f') = pl /\
    mh_size h = size raw /\ mh_comp h = size pl /\ cks_name (mh_checksum h) = ma_checksum a /\ mh_level h = ma_level a /\
    (codec_name (mh_codec h) = ma_codec a \/ (codec_name (mh_codec h) = "None"%string /\ pl = raw)) /\
    forall g lg', sub p tot g = sub p tot (fdata f') ->
      read_metadata E (mkfp g p lg') = (mkfp g (p + tot) lg', Ok (norm m, h)).
Proof.
  intros Hp H. destruct (plan_metadata E m a) as [[[h pl] a1]|e] eqn:PL.
  2:{ rewrite (write_metadata_raise E _ _ _ _ PL) in H. discriminate. }
  rewrite (write_metadata_run E HE m a h pl a1) in H by (auto; cbn; lia).
  destruct (plan_fits _ _ _ _ _ PL) as (raw & P & F).
  pose proof (sect_of_ok E HE _ _ _ _ _ P) as SO.
  injection H as <- <- <-. cbn [put_at fdata fpos].
  set (s := sect_of h pl m) in *.
  exists h, raw, pl. split; [exact F|].
  pose proof (sub_write_at d p (msect_bytes E s) Hp) as SW.
  destruct (sub_here p _ _ Hp SW) as [q Hq].
  destruct P as [pl_dumps pl_ok pl_magic pl_user pl_opts pl_comp pl_fit pl_size pl_small pl_dec pl_ck pl_max pl_level pl_codec].
  pose proof (zlen_mheader_bytes _ pl_ok) as L32.
  split.
  { replace (sub p 32 _) with (mheader_bytes h); [apply mheader_bytes_describe; auto|].
    unfold sub. rewrite <- zdrop_skipn, Hq. unfold msect_bytes. cbn [s sect_of ms_h]. rewrite <- app_assoc.
    rewrite <- (ztake_firstn 32). symmetry. apply ztake_app_exact. lia. }
  split.
  { unfold sub. rewrite <- zdrop_skipn, <- ztake_firstn. replace (p + 32) with (32 + p) by lia. rewrite <- zdrop_zdrop, Hq by lia.
    unfold msect_bytes. cbn [s sect_of ms_h ms_payload]. rewrite <- !app_assoc.
    rewrite zdrop_app_exact by lia. apply ztake_app_exact. reflexivity. }
  change size with (@zlen byte).
  split; [auto|]. split; [auto|]. split; [auto|]. split; [auto|]. split.
  { destruct pl_codec as [|[-> ->]]; auto. }
  intros g lg' HG. rewrite SW in HG. destruct (sub_here p _ _ Hp HG) as [q' Hq'].
  rewrite (read_metadata_ok E HE s _ q' SO); [reflexivity|cbn; lia|exact Hq'].
Qed.

(** ** C10 *)
Lemma checksum_size_nth i c : nth_error checksum_names i = Some (cks_name c) ->
  nth i digest_sizes 0 = cks_size c.
Proof.
  intros H. do 9 (destruct i as [|i]; [destruct c; cbn in *; congruence|]). destruct i; discriminate.
Qed.
Lemma sub_sub_32 p f i k : 0 <= p -> 0 <= i -> 0 <= k -> i + k <= 32 -> sub i k (sub p 32 f) = sub (p + i) k f.
Proof.
  intros Hp Hi Hk Hik. unfold sub. rewrite skipn_firstn_comm, firstn_firstn.
  rewrite <- !zdrop_skipn. replace (p + i) with (i + p) by lia.
  rewrite <- (zdrop_zdrop i p) by lia. rewrite (zdrop_skipn i), zdrop_skipn. f_equal. lia.
Qed.
Lemma write_geometry m a d p lg f' tot a' : 0 <= p -> write_metadata E m a (mkfp d p lg) = (f', Ok (tot, a')) ->
  tot = 32 + u32 (p + 16) (fdata f') + digest_len (u8 (p + 9) (fdata f')) /\
  max_meta a (u32 (p + 12) (fdata f')) (u32 (p + 16) (fdata f')) /\
  u32 (p + 20) (fdata f') <= u32 (p + 12) (fdata f') /\ u32 (p + 20) (fdata f') <= u32 (p + 16) (fdata f') /\
  (exists raw, e_dumps E m = Ok raw /\ u32 (p + 12) (fdata f') = size raw) /\
  size (fdata f') = Z.max (size d) (p + tot) /\ fpos f' = p + tot /\
  (forall i, Z.of_nat i < Z.min p (size d) \/ p + tot <= Z.of_nat i -> nth_error (fdata f') i = nth_error d i).
Proof.
  intros Hp H. destruct (plan_metadata E m a) as [[[h pl] a1]|e] eqn:PL.
  2:{ rewrite (write_metadata_raise E _ _ _ _ PL) in H. discriminate. }
  rewrite (write_metadata_run E HE m a h pl a1) in H by (auto; cbn; lia).
  destruct (plan_fits _ _ _ _ _ PL) as (raw & P & F).
  pose proof (sect_of_ok E HE _ _ _ _ _ P) as SO. pose proof (zlen_msect E HE _ SO) as ZL. cbn [sect_of ms_h] in ZL.
  injection H as <- <- <-. cbn [put_at fdata fpos].
  set (s := sect_of h pl m) in *. set (f := write_at d p (msect_bytes E s)) in *.
  pose proof (sub_write_at d p (msect_bytes E s) Hp) as SW. fold f in SW.
  destruct (sub_here p _ _ Hp SW) as [q Hq].
  pose proof (pl_ok _ _ _ _ _ _ P) as OK. pose proof (zlen_mheader_bytes _ OK) as L32.
  assert (D : mheader_describes (sub p 32 f) h).
  { replace (sub p 32 f) with (mheader_bytes h); [apply mheader_bytes_describe; auto|].
    unfold sub. rewrite <- zdrop_skipn, Hq. unfold msect_bytes. cbn [s sect_of ms_h]. rewrite <- app_assoc.
    rewrite <- (ztake_firstn 32). symmetry. apply ztake_app_exact. lia. }
  destruct D as (_ & _ & _ & D9 & _ & _ & D12 & D16 & D20 & _).
  unfold u32 in D12, D16, D20. unfold u8 in D9. rewrite sub_sub_32 in D12, D16, D20, D9 by lia.
  fold (u32 (p + 12) f) in D12. fold (u32 (p + 16) f) in D16. fold (u32 (p + 20) f) in D20. fold (u8 (p + 9) f) in D9.
  rewrite D12, D16, D20.
  destruct P as [pl_dumps pl_ok pl_magic pl_user pl_opts pl_comp pl_fit pl_size pl_small pl_dec pl_ck pl_max pl_level pl_codec].
  change size with (@zlen byte).
  split.
  { rewrite ZL. f_equal. unfold digest_len; rewrite (checksum_size_nth _ _ D9). reflexivity. }
  split; [rewrite pl_size; apply F|]. split; [lia|]. split; [lia|]. split; [eauto|].
  split; [apply zlen_write_at; auto; intros X; apply (f_equal zlen) in X; rewrite zlen_nil in X; unfold mheader_ok in pl_ok; pose proof (cks_size_nonneg (mh_checksum h)); lia|].
  split; [reflexivity|].
  intros i [Hi|Hi]; [apply nth_write_before; lia|apply nth_write_after; lia].
Qed.

(** ** C02 *)
Lemma calc_n sz csa n c l : 0 <= sz -> calculate_nchunks sz csa = Ok (n, c, l) ->
  (sz = 0 /\ n = 1) \/ (0 < sz /\ exists z, asked csa z /\ 1 <= z <= BUFMAX /\ n = (sz + z - 1) / z).
Proof.
  intros Hs Ec. pose proof (calculate_partition _ _ _ _ _ Hs Ec) as CP.
  destruct (Z.eq_dec sz 0); [left; tauto|right]. split; [lia|].
  destruct CP as (P1 & P2 & P3 & P4 & P5 & P6 & P7 & _). destruct (P7 ltac:(lia)) as (Q1 & Q2 & z & Q3 & Q4).
  destruct (proj1 (calculate_accepts sz csa) (ex_intro _ _ Ec)) as [|(_ & z' & A & Z1 & _)]; [lia|].
  assert (z' = z).
  { clear -A Q3. destruct csa; cbn in *; [congruence|congruence|tauto]. }
  subst z'. exists z. split; [auto|]. split; [auto|]. clear Ec P7 A Q3.
  destruct (Z.le_gt_cases z sz).
  - rewrite Z.min_l in Q4 by lia. subst c. apply Z.div_unique with (r := l - 1); lia.
  - rewrite Z.min_r in Q4 by lia. subst c. assert (n = 1).
    { destruct (Z.eq_dec n 1); auto. assert (1 * sz <= (n - 1) * sz) by (apply Z.mul_le_mono_nonneg_r; lia). lia. }
    subst n. apply Z.div_unique with (r := sz - 1); lia.
Qed.

Lemma max_apps_reserve n r v : 0 <= n <= 2 ^ 63 - 1 -> reserve_of r n v -> 0 <= v <= 2 ^ 63 - 1 ->
  handle_max_apps true n r = Ok (Z.min v (2 ^ 63 - 1 - n)).
Proof.
  intros Hn Hr Hv. destruct r as [x|g|]; cbn [reserve_of] in Hr; [| |tauto].
  - subst x. rewrite max_apps_int by auto. replace ((0 <=? v) && (v <=? 2 ^ 63 - 1)) with true by lia. reflexivity.
  - rewrite max_apps_call, Hr by auto. replace (0 <=? v) with true by lia. reflexivity.
Qed.
Lemma max_apps_reserve_inv n r mx : 0 <= n <= 2 ^ 63 - 1 -> handle_max_apps true n r = Ok mx ->
  exists v, reserve_of r n v /\ 0 <= v /\ mx = Z.min v (2 ^ 63 - 1 - n).
Proof.
  intros Hn H. destruct r as [x|g|].
  - rewrite max_apps_int in H by auto. destruct (_ && _) eqn:B; [|discriminate]. exists x. cbn [reserve_of]. split; [reflexivity|]. split; [lia|congruence].
  - rewrite max_apps_call in H by auto. cbn [reserve_of]. destruct (g n) as [[v|]|]; [|discriminate|discriminate]. destruct (0 <=? v) eqn:B; [|discriminate].
    exists v. split; auto. split; [lia|congruence].
  - rewrite max_apps_other in H by auto. discriminate.
Qed.

Theorem pack_valid b csa m oba obp oma n :
  (size b = 0 /\ n = 1) \/ (0 < size b /\ exists z, asked csa z /\ 1 <= z <= BUFMAX /\ n = (size b + z - 1) / z) ->
  n <= 2 ^ 63 - 1 ->
  blosc_args_ok E (the_bargs oba) ->
  In (bp_checksum (the_bpargs obp)) checksum_names ->
  (bp_offsets (the_bpargs obp) = true -> exists v, reserve_of (bp_max_app (the_bpargs obp)) n v /\ 0 <= v /\
      size b + 88 * n + 8 * v + 4294967423 <= 2 ^ 63 - 1) ->
  (m <> PNone -> exists raw p mx, meta_fits E m (the_margs oma) raw p mx) ->
  exists f, pack_bytes_to_bytes E b csa m oba obp oma = Ok f.
Proof.
  intros Hn Hn2 Ha Hck Hr Hm. apply In_checksum_names in Hck as [ck Hck]. change size with (@zlen byte) in *.
  pose proof (zlen_nonneg b) as Hb.
  assert (exists r, calculate_nchunks (zlen b) csa = Ok r) as [[[n' c] l] Ec].
  { apply calculate_accepts. destruct Hn as [[? _]|(? & z & ? & ? & ->)]; [auto|right; split; auto; exists z; auto]. }
  assert (n' = n).
  { destruct (calc_n _ _ _ _ _ Hb Ec) as [[? ?]|(? & z & A & B & ->)], Hn as [[? ?]|(? & z' & A' & B' & ->)]; try lia.
    assert (z' = z) by (clear -A A'; destruct csa; cbn in *; [congruence|congruence|tauto]). subst; reflexivity. }
  subst n'. pose proof (calculate_partition _ _ _ _ _ Hb Ec) as CP.
  destruct (bp_offsets (the_bpargs obp)) eqn:Ho.
  - destruct (Hr eq_refl) as (v & R1 & R2 & R3). change (2 ^ 63 - 1) with 9223372036854775807 in *.
    eapply (pack_total E HE b csa m oba obp oma n c l ck (Z.min v (2 ^ 63 - 1 - n))); eauto.
    + rewrite Ho. apply max_apps_reserve; auto; change (2 ^ 63 - 1) with 9223372036854775807; lia.
    + intros. apply plan_iff. auto.
    + intros _. change (2 ^ 63 - 1) with 9223372036854775807. lia.
  - eapply (pack_total E HE b csa m oba obp oma n c l ck 0); eauto.
    + rewrite Ho. apply max_apps_unused; [lia|auto].
    + intros. apply plan_iff. auto.
    + congruence.
Qed.

Lemma chunks_of_ne c b : chunks_of c b <> [].
Proof. unfold chunks_of. destruct (List.length b); cbn; [discriminate|]. destruct (_ <=? _); discriminate. Qed.

Theorem pack_only_valid b csa m oba obp oma f : pack_bytes_to_bytes E b csa m oba obp oma = Ok f ->
  exists n,
  ((size b = 0 /\ n = 1) \/ (0 < size b /\ exists z, asked csa z /\ 1 <= z <= BUFMAX /\ n = (size b + z - 1) / z)) /\
  n <= 2 ^ 63 - 1 /\
  blosc_args_ok E (the_bargs oba) /\
  In (bp_checksum (the_bpargs obp)) checksum_names /\
  (bp_offsets (the_bpargs obp) = true -> exists v, reserve_of (bp_max_app (the_bpargs obp)) n v /\ 0 <= v) /\
  (m <> PNone -> exists raw p mx, meta_fits E m (the_margs oma) raw p mx).
Proof.
  intros H. apply pack_bytes_inv in H as (n & c & l & h & o & cs & Ec & P & _); auto.
  pose proof (zlen_nonneg b) as Hb. pose proof (calculate_partition _ _ _ _ _ Hb Ec) as CP.
  pose proof (packed_header E _ _ _ _ _ _ _ _ _ _ _ P) as (Hok & Hv & Ho & Hmd & Hck & Hts & Hcs & Hl & Hnc).
  destruct P as [P1 P2 P3 P4 P5].
  exists n. change size with (@zlen byte). split; [apply (calc_n _ _ _ _ _ Hb Ec)|]. split; [lia|]. split.
  { rewrite (calc_takes _ _ _ _ _ Ec) in P4. pose proof (chunks_of_ne c b). destruct (chunks_of c b); [congruence|].
    inversion P4; subst. eapply ok_compress_only; eauto. }
  split; [apply In_checksum_names; eauto|]. split.
  - intros Hoff. rewrite Hoff in P1. apply max_apps_reserve_inv in P1 as (v & R1 & R2 & _); [eauto|lia].
  - intros Hm. apply plan_iff. unfold meta_plan in P3. destruct (is_none m) eqn:Em; [destruct m; discriminate || congruence|].
    destruct P3 as (mh & p & a' & HP & _). eauto.
Qed.

(** ** C11 *)
Definition meta_layout (m : pyval) (a : margs) (mb : bytes) : Prop :=
  exists raw p h, meta_fits E m a raw p (mh_max h) /\
    mb = ztake 32 mb ++ p ++ repeat x00 (Z.to_nat (mh_max h - size p)) ++ digest E (mh_checksum h) p /\
    mheader_describes (ztake 32 mb) h /\ mh_comp h = size p /\ mh_size h = size raw /\
    cks_name (mh_checksum h) = ma_checksum a.

Theorem pack_layout b csa m oba obp oma f : pack_bytes_to_bytes E b csa m oba obp oma = Ok f ->
  exists h hd mb ob cs,
    f = hd ++ mb ++ ob ++ concat (map (fun c => c ++ digest E (h_checksum h) c) cs) /\
    header_describes hd h /\
    h_version h = 3 /\ h_offsets h = bp_offsets (the_bpargs obp) /\ h_metadata h = negb (is_none m) /\
    cks_name (h_checksum h) = bp_checksum (the_bpargs obp) /\ h_typesize h = ba_typesize (the_bargs oba) /\
    calculate_nchunks (size b) csa = Ok (h_nchunks h, h_chunk_size h, h_last_chunk h) /\
    (if h_offsets h then exists v, reserve_of (bp_max_app (the_bpargs obp)) (h_nchunks h) v /\ h_max_app h = Z.min v (2 ^ 63 - 1 - h_nchunks h)
     else h_max_app h = 0) /\
    (if is_none m then mb = [] else meta_layout m (the_margs oma) mb) /\
    size ob = (if h_offsets h then 8 * (h_nchunks h + h_max_app h) else 0) /\
    Forall2 (fun x c => e_compress E (the_bargs oba) x = Ok c) (chunks_of (h_chunk_size h) b) cs.
Proof.
  intros H. apply pack_bytes_inv in H as (n & c & l & h & o & cs & Ec & P & Hf & _); auto.
  pose proof (zlen_nonneg b) as Hb. pose proof (calculate_partition _ _ _ _ _ Hb Ec) as CP.
  pose proof (packed_header E _ _ _ _ _ _ _ _ _ _ _ P) as (Hok & Hv & Ho & Hmd & Hck & Hts & Hcs & Hl & Hnc).
  pose proof P as P0. destruct P as [P1 P2 P3 P4 P5].
  destruct (packed_wf E HE b n c l m oba obp oma h o cs) as [W V]; try lia; auto.
  pose proof (zlen_table E _ _ _ _ _ W) as ZT.
  exists h, (header_bytes h), (osect_bytes E o),
    (if h_offsets h then words (offs E h o cs) ++ words (zrep (h_max_app h) (-1)) else []), cs.
  change size with (@zlen byte).
  split; [exact Hf|]. split; [apply header_decode_describes; apply header_decode_bytes; auto|].
  split; [auto|]. split; [auto|]. split; [auto|]. split; [auto|]. split; [auto|].
  split; [rewrite Hnc, Hcs, Hl; exact Ec|].
  split.
  { rewrite Ho. destruct (bp_offsets (the_bpargs obp)) eqn:Hoff.
    - rewrite Hnc. apply max_apps_reserve_inv in P1 as (v & R1 & R2 & R3); [eauto|lia].
    - rewrite max_apps_unused in P1; [congruence|lia|auto]. }
  split.
  { unfold meta_plan in P3. destruct (is_none m) eqn:Em; [rewrite P3; reflexivity|].
    destruct P3 as (mh & p & a' & HP & ->). destruct (plan_fits _ _ _ _ _ HP) as (raw & PL & F).
    exists raw, p, mh. split; [exact F|]. cbn [osect_bytes]. unfold msect_bytes. cbn [sect_of ms_h ms_payload ms_pad].
    destruct PL as [pl_dumps pl_ok pl_magic pl_user pl_opts pl_comp pl_fit pl_size pl_small pl_dec pl_ck pl_max pl_level pl_codec].
    pose proof (zlen_mheader_bytes mh pl_ok) as L32.
    rewrite (ztake_app_exact 32) by lia. change size with (@zlen byte). rewrite pl_comp.
    split; [reflexivity|]. split; [apply mheader_bytes_describe; auto|]. auto. }
  split.
  { destruct (h_offsets h); [|reflexivity]. rewrite zlen_app, !zlen_words, zlen_zrep. unfold offs. rewrite zlen_pos_from, zlen_map.
    apply F2_length in P4. rewrite takes_length in P4. pose proof (zlen_chunk_sizes n c l ltac:(lia)).
    destruct Hok as [_ Hn]. unfold header_nums_ok in Hn. unfold zlen in *. lia. }
  rewrite Hcs. rewrite (calc_takes _ _ _ _ _ Ec) in P4. exact P4.
Qed.

Lemma zlen_concat_stored ck cs : size (concat (map (fun c => c ++ digest E ck c) cs)) = zsum (map size cs) + cks_size ck * zlen cs.
Proof.
  induction cs as [|x cs IH]; [cbn; lia|]. cbn [map concat zsum fold_right]. fold (zsum (map size cs)).
  change size with (@zlen byte) in *. rewrite !zlen_app, zlen_cons, IH, (zlen_digest E HE). lia.
Qed.

End WithEnv.
