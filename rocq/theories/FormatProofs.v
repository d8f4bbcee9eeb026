(** Lemmas for C86. *)
From Verif Require Import Base PyVal Checksums Headers Pretty Args FileIO Spec CrcSpec FormatSpec BaseLemmas HeaderProofs IOProofs WfProofs PackProofs SmallProofs BytesProofs MetaProofs ChecksumProofs CrcProofs Append Archive AppendProofs SpaceProofs.
From Coq Require Import ZifyBool ZifyNat.
Ltac Zify.zify_post_hook ::= Z.div_mod_to_equations.

Lemma bZ_mod z : bZ (z mod 256) = bZ z.
Proof.
  pose proof (le_enc_mod 1 z) as H. change (256 ^ Z.of_nat 1) with 256 in H. cbn [le_enc] in H. congruence.
Qed.
Lemma le_enc_le k z : le_enc k z = le k z.
Proof.
  unfold le. revert z. induction k as [|k IH]; intros z; [reflexivity|].
  cbn [le_enc seq map]. f_equal.
  - rewrite Z.pow_0_r, Z.div_1_r. symmetry. apply bZ_mod.
  - rewrite IH, <- seq_shift, map_map. apply map_ext. intros i. f_equal. f_equal.
    rewrite Nat2Z.inj_succ, Z.pow_succ_r by lia. rewrite Z.div_div by (try lia; apply Z.pow_pos_nonneg; lia). reflexivity.
Qed.

Lemma starts_pos p l : pos_from p l = starts p l.
Proof. revert p. induction l as [|x l IH]; intros p; [reflexivity|]. cbn. rewrite IH. reflexivity. Qed.
Lemma words_le l : words l = concat (map (le 8) l).
Proof. unfold words. f_equal. apply map_ext. intros. apply le_enc_le. Qed.
Lemma words_m1 r : 0 <= r -> words (zrep r (-1)) = repeat xff (Z.to_nat (8 * r)).
Proof.
  intros Hr. unfold zrep. replace (Z.to_nat (8 * r)) with (8 * Z.to_nat r)%nat by lia. generalize (Z.to_nat r) as k. clear.
  induction k as [|k IH]; [reflexivity|]. cbn [repeat]. rewrite words_cons, IH.
  replace (8 * S k)%nat with (8 + 8 * k)%nat by lia. rewrite repeat_app. reflexivity.
Qed.

Lemma cks_code ck : code_of (cks_index ck) (cks_name ck).
Proof. destruct ck; (split; [discriminate|reflexivity]). Qed.

Section WithEnv.
Variable E : Env.
Hypothesis HE : EnvOK E.

Lemma digest_is ck d : is_digest E (cks_index ck) d (digest E ck d).
Proof.
  destruct ck eqn:K; cbn [cks_index is_digest]; unfold digest; cbn [cks_digest]; try (exists ck; rewrite K; split; reflexivity); try reflexivity.
  - rewrite le_enc_le, adler32_closed. reflexivity.
  - destruct (crc_digest E d) as (r & R1 & _ & R2 & R3 & _). exists r, (crc32 d). rewrite le_enc_le. auto.
Qed.

Lemma header_head h : h_version h = 3 ->
  header_bytes h = head (h_offsets h) (h_metadata h) (cks_index (h_checksum h)) (h_typesize h) (h_chunk_size h) (h_last_chunk h) (h_nchunks h) (h_max_app h).
Proof.
  intros Hv. unfold header_bytes, head. rewrite Hv, !le_enc_le. unfold opt_bits. destruct (h_offsets h), (h_metadata h); reflexivity.
Qed.

Lemma plan_stored m a h p a' raw : plan_metadata E m a = Ok (h, p, a') -> e_dumps E m = Ok raw ->
  stored_as E (ma_codec a) (ma_level a) raw p (codec_index (mh_codec h)).
Proof.
  unfold plan_metadata. intros H Hd.
  apply rbind_Ok in H as (u & _ & H). rewrite Hd in H. cbn [rbind] in H.
  apply rbind_Ok in H as ([p1 a1] & H2 & H).
  apply rbind_Ok in H as (mx & H3 & H). destruct (mx <? zlen p1); [discriminate|].
  apply rbind_Ok in H as (co & H4 & H). apply rbind_Ok in H as (h1 & H5 & H). injection H as -> -> ->.
  apply mk_mheader_Ok in H5 as (_ & c & k & _ & K2 & ->). cbn [mh_codec]. apply codec_lookup_inv in H4.
  unfold stored_as. destruct (should_compress a) eqn:SC.
  - apply rbind_Ok in H2 as (co' & C1 & H2). apply rbind_Ok in H2 as (z & C2 & H2). apply codec_lookup_inv in C1.
    destruct co'.
    + unfold should_compress in SC. rewrite C1 in SC. discriminate.
    + right. split; [exact C1|]. exists z. split; [exact C2|]. change size with (@zlen byte).
      destruct (Z.ltb_spec (zlen raw) (zlen z)) as [L|L]; injection H2 as <- <-; [left|right]; (split; [lia|]); (split; [reflexivity|]).
      * cbn [nullify_codec ma_codec] in H4. destruct k, co; cbn in *; congruence.
      * rewrite C1 in H4. destruct k, co; cbn in *; congruence.
  - left. apply should_compress_inv in SC. injection H2 as <- <-. split; [exact SC|]. split; [reflexivity|].
    rewrite SC in H4. destruct k, co; cbn in *; congruence.
Qed.

Lemma section_written m a mh p a' : plan_metadata E m a = Ok (mh, p, a') ->
  section_of E m (ma_checksum a) (ma_codec a) (ma_level a) (fun n mx => max_meta a n mx) (msect_bytes E (sect_of mh p m)).
Proof.
  intros HP. destruct (plan_fits E HE _ _ _ _ _ HP) as (raw & PL & F).
  pose proof (plan_stored _ _ _ _ _ raw HP (pl_dumps _ _ _ _ _ _ PL)) as ST.
  destruct PL as [pl_dumps pl_ok pl_magic pl_user pl_opts pl_comp pl_fit pl_size pl_small pl_dec pl_ck pl_max pl_level pl_codec].
  exists raw, p, (digest E (mh_checksum mh) p), (cks_index (mh_checksum mh)), (codec_index (mh_codec mh)), (mh_max mh).
  split; [exact pl_dumps|]. split; [exact ST|]. split; [rewrite pl_ck; apply cks_code|]. split; [apply digest_is|].
  split; [apply F|]. split; [change size with (@zlen byte); lia|].
  unfold msect_bytes, meta_section. cbn [sect_of ms_h ms_payload ms_pad]. unfold mheader_bytes.
  rewrite pl_magic, pl_user, pl_opts, !le_enc_le, pl_level, pl_size. change size with (@zlen byte). rewrite <- pl_comp.
  rewrite <- !app_assoc. reflexivity.
Qed.

Lemma chunks_written a ck c b cs : Forall2 (fun x k => e_compress E a x = Ok k) (chunks_of c b) cs ->
  chunks_for E a (cks_index ck) c b (map (stored E ck) cs).
Proof.
  unfold chunks_for. intros H. induction H as [|x k xs ks H1 H2 IH]; [constructor|]. cbn [map]. constructor; [|exact IH].
  exists k, (digest E ck k). split; [exact H1|]. split; [apply digest_is|reflexivity].
Qed.

(** The number of pieces and the size of the last of them. *)
Lemma geometry b csa n c l : calculate_nchunks (size b) csa = Ok (n, c, l) ->
  n = zlen (chunks_of c b) /\ l = size (last (chunks_of c b) []) /\ (exists z, ((size b = 0 /\ z = 0) \/ asked csa z) /\ c = Z.min z (size b)).
Proof.
  change size with (@zlen byte). intros Ec. pose proof (zlen_nonneg b) as Hb.
  pose proof (calculate_partition _ _ _ _ _ Hb Ec) as (P1 & P2 & P3 & P4 & P5 & P6 & P7 & P8).
  rewrite <- (calc_takes _ _ _ _ _ Ec).
  split; [unfold zlen; rewrite takes_length; pose proof (zlen_chunk_sizes n c l ltac:(lia)); unfold zlen in *; lia|].
  split.
  - unfold chunk_sizes. assert (G : forall k r, zlen r = Z.of_nat k * c + l -> 0 <= l -> 0 <= c -> zlen (last (takes (repeat c k ++ [l]) r) []) = l).
    { induction k as [|k IH]; intros r Hr Hl Hc.
      - cbn. rewrite zlen_ztake. lia.
      - cbn [repeat app takes]. rewrite <- (IH (zdrop c r)) at 2; try lia.
        + assert (NE : takes (repeat c k ++ [l]) (zdrop c r) <> []).
          { intros HN. apply (f_equal (@List.length _)) in HN. rewrite takes_length, app_length in HN. cbn in HN. lia. }
          destruct (takes (repeat c k ++ [l]) (zdrop c r)) eqn:ET; [congruence|]. reflexivity.
        + rewrite zlen_zdrop. nia. }
    unfold zrep. rewrite G; [reflexivity| |lia|lia]. rewrite Z2Nat.id by lia. lia.
  - destruct (Z.eq_dec (zlen b) 0) as [e|e].
    + exists 0. split; [left; auto|]. lia.
    + destruct (P7 ltac:(lia)) as (_ & _ & z & A & Q). exists z. auto.
Qed.

Theorem pack_format b csa m oba obp oma f : pack_bytes_to_bytes E b csa m oba obp oma = Ok f ->
  exists z ck r sect chunks, let c := Z.min z (size b) in let n := zlen chunks in
    ((size b = 0 /\ z = 0) \/ asked csa z) /\ code_of ck (bp_checksum (the_bpargs obp)) /\
    chunks_for E (the_bargs oba) ck c b chunks /\
    (if bp_offsets (the_bpargs obp) then exists v, reserve_of (bp_max_app (the_bpargs obp)) n v /\ r = Z.min v (2 ^ 63 - 1 - n) else r = 0) /\
    (if is_none m then sect = []
     else let a := the_margs oma in section_of E m (ma_checksum a) (ma_codec a) (ma_level a) (max_meta a) sect) /\
    f = format (bp_offsets (the_bpargs obp)) (negb (is_none m)) ck (ba_typesize (the_bargs oba)) c (size (last (chunks_of c b) [])) n r sect chunks.
Proof.
  intros H. apply (pack_bytes_inv E HE) in H as (n & c & l & h & o & cs & Ec & P & Hf & _); auto.
  pose proof (zlen_nonneg b) as Hb. pose proof (calculate_partition _ _ _ _ _ Hb Ec) as CP.
  pose proof (packed_header E _ _ _ _ _ _ _ _ _ _ _ P) as (Hok & Hv & Ho & Hmd & Hck & Hts & Hcs & Hl & Hnc).
  pose proof P as P0. destruct P as [P1 P2 P3 P4 P5].
  destruct (geometry b csa n c l Ec) as (G1 & G2 & z & G3 & G4).
  assert (LN : zlen cs = n) by (apply F2_length in P4; rewrite (calc_takes _ _ _ _ _ Ec) in P4; unfold zlen in *; lia).
  rewrite (calc_takes _ _ _ _ _ Ec) in P4.
  assert (Hr : 0 <= h_max_app h) by (destruct Hok as [_ HH]; unfold header_nums_ok in HH; lia).
  exists z, (cks_index (h_checksum h)), (h_max_app h), (osect_bytes E o), (map (stored E (h_checksum h)) cs). cbv zeta.
  rewrite zlen_map, LN, <- G4.
  split; [exact G3|]. split; [rewrite Hck; apply cks_code|]. split; [apply chunks_written; exact P4|].
  split.
  { destruct (bp_offsets (the_bpargs obp)) eqn:Hoff.
    - apply max_apps_reserve_inv in P1 as (v & R1 & R2 & R3); [eauto|lia].
    - rewrite max_apps_unused in P1; [congruence|lia|auto]. }
  split.
  { unfold meta_plan in P3. destruct (is_none m) eqn:Em; [rewrite P3; reflexivity|].
    destruct P3 as (mh & p & a' & HP & ->). cbn [osect_bytes]. exact (section_written _ _ _ _ _ HP). }
  rewrite Hf. unfold file_of, format. rewrite (header_head h Hv), <- Ho, <- Hmd, Hts, Hcs, Hl, Hnc, <- G2.
  f_equal. f_equal. f_equal. destruct (h_offsets h) eqn:EO; [|reflexivity].
  unfold offsets_table, offs. rewrite words_le, starts_pos, words_m1 by exact Hr. f_equal. f_equal. f_equal. f_equal.
  unfold body_pos, table_len. rewrite EO, Hnc. change size with (@zlen byte). lia.
Qed.

Theorem default_format b m f : pack_bytes_to_bytes E b (CSStr "1M") m None None None = Ok f ->
  exists sect chunks, let c := Z.min 1048576 (size b) in let n := zlen chunks in
    chunks_for E (mkBA 8 7 true "blosclz") 1 c b chunks /\
    (if is_none m then sect = [] else section_of E m "adler32" "zlib" 6 (fun k mx => mx = 10 * k) sect) /\
    f = format true (negb (is_none m)) 1 8 c (size (last (chunks_of c b) [])) n (Z.min (10 * n) (2 ^ 63 - 1 - n)) sect chunks.
Proof.
  intros H. apply pack_format in H as (z & ck & r & sect & chunks & G & K & C & R & S0 & ->).
  exists sect, chunks. cbv zeta.
  assert (HK : ck = 1).
  { destruct K as [K0 K]. cbn [the_bpargs default_bpargs bp_checksum] in K.
    assert (ck < 9) by (destruct (Z.lt_ge_cases ck 9) as [|L]; [assumption|]; rewrite (proj2 (nth_error_None _ _)) in K; [discriminate|cbn; lia]).
    assert (V : ck = 0 \/ ck = 1 \/ ck = 2 \/ ck = 3 \/ ck = 4 \/ ck = 5 \/ ck = 6 \/ ck = 7 \/ ck = 8) by lia.
    clear -V K. repeat (destruct V as [->|V]; [try discriminate; reflexivity|]). subst ck. discriminate. }
  subst ck.
  assert (HZ : Z.min z (size b) = Z.min 1048576 (size b)).
  { destruct G as [G|G].
    - destruct G as [G1 G2]. rewrite G1, G2. reflexivity.
    - cbn [asked] in G. change (reverse_pretty "1M") with (Ok (A:=Z) 1048576) in G. injection G as <-. reflexivity. }
  rewrite HZ in *. cbv zeta in *. split; [exact C|]. split.
  - destruct (is_none m); [exact S0|]. exact S0 || (destruct S0 as (raw & p & g & ck & co & mx & D1 & D2 & D3 & D4 & D5 & D6 & D7);
    exists raw, p, g, ck, co, mx; cbn in D5; injection D5 as <-; repeat (split; [solve [auto]|]); auto).
  - cbn [the_bpargs default_bpargs bp_offsets bp_max_app reserve_of] in R. destruct R as (v & R1 & ->). injection R1 as <-. reflexivity.
Qed.

Lemma section_kept s : msect_ok E s -> section_holds E (ms_val s) (msect_bytes E s).
Proof.
  intros (M1 & M2 & M3 & M4 & M5 & raw & M6 & M7). destruct M1 as (_ & _ & V1 & _ & V2 & _ & _).
  exists (int_of_bits (mh_options (ms_h s))), (cks_index (mh_checksum (ms_h s))), (codec_index (mh_codec (ms_h s))), (mh_level (ms_h s)),
    (mh_size (ms_h s)), (mh_max (ms_h s)), (ms_payload s), (ms_pad s), (digest E (mh_checksum (ms_h s)) (ms_payload s)), (cks_name (mh_checksum (ms_h s))), raw.
  change size with (@zlen byte). split.
  { unfold msect_bytes, mheader_bytes. rewrite M2, M3, !le_enc_le, M4. rewrite <- !app_assoc. reflexivity. }
  split; [lia|]. split; [change (2 ^ 32) with 4294967296; lia|]. split; [exact V1|]. split; [apply cks_code|]. split; [apply digest_is|].
  split; [|exact M7]. destruct (mh_codec (ms_h s)); cbn in *; [left|right]; (split; [reflexivity|congruence]).
Qed.

Theorem archive_format f b m : archive E f b m ->
  exists off name ck ts c l r sect pieces chunks tail,
    f = format off (negb (is_none m)) ck ts c l (zlen chunks) r sect chunks ++ tail /\
    (if is_none m then sect = [] else section_holds E m sect) /\
    code_of ck name /\ header_nums_ok ts c l (zlen chunks) r /\
    concat pieces = b /\ map size pieces = repeat c (List.length chunks - 1) ++ [l] /\
    Forall2 (fun x y => exists a k g, e_compress E a x = Ok k /\ is_digest E ck k g /\ y = k ++ g) pieces chunks.
Proof.
  intros H. destruct (archive_made E HE _ _ _ H) as (h & o & cs & tail & [W SZ _ _ _ CT MV NL] & FB).
  destruct W as [W1 W2 W3 W4 W5 W6 W7 W8 W9].
  assert (IM : negb (is_none m) = h_metadata h).
  { rewrite W3. destruct o; cbn in *; [|subst m; reflexivity]. destruct m; try reflexivity. exfalso. apply (NL eq_refl eq_refl). }
  assert (Hr : 0 <= h_max_app h) by (destruct W1 as [_ HH]; unfold header_nums_ok in HH; lia).
  exists (h_offsets h), (cks_name (h_checksum h)), (cks_index (h_checksum h)), (h_typesize h), (h_chunk_size h), (h_last_chunk h), (h_max_app h),
    (osect_bytes E o), (map snd cs), (map (fun cx => stored E (h_checksum h) (fst cx)) cs), tail.
  rewrite zlen_map, map_length, <- W5, IM. split.
  { rewrite W9. unfold format. rewrite (header_head h W2). rewrite <- !app_assoc. f_equal. f_equal. unfold body.
    f_equal. unfold table. destruct (h_offsets h) eqn:EO; [|reflexivity].
    unfold offsets_table, positions. rewrite words_le, starts_pos, words_m1 by exact Hr. f_equal. f_equal. f_equal. f_equal.
    unfold body_pos, table_len. rewrite EO. change size with (@zlen byte). lia. }
  split.
  { destruct o as [s|]; cbn [osect_val is_some] in *; subst m.
    - destruct (is_none (ms_val s)) eqn:EN; [destruct (ms_val s); try discriminate; exfalso; apply (NL eq_refl eq_refl)|].
      apply section_kept. exact W4.
    - reflexivity. }
  split; [apply cks_code|]. split; [apply W1|]. split; [exact CT|]. split.
  { rewrite map_map. transitivity (map (fun cx => zlen (snd cx)) cs); [reflexivity|]. rewrite SZ, W5. unfold chunk_sizes, zrep. f_equal. f_equal. unfold zlen. lia. }
  clear -FB HE. induction FB as [|[k x] l (a & FA) FB IH]; [constructor|]. cbn [map fst snd] in *. constructor; [|exact IH].
  exists a, k, (digest E (h_checksum h) k). split; [exact FA|]. split; [apply digest_is|reflexivity].
Qed.
End WithEnv.
