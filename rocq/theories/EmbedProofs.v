(** Packing into and unpacking from the middle of files: see Embed.v. *)
From Verif Require Import Base PyVal Checksums Headers Pretty Args FileIO Append Spec Archive Embed BaseLemmas HeaderProofs IOProofs WfProofs PackProofs SmallProofs BytesProofs MetaProofs AppendProofs ArchiveProofs DamageProofs.
From Coq Require Import ZifyBool ZifyNat.
Ltac Zify.zify_post_hook ::= Z.div_mod_to_equations.

Lemma numbered_log x : forall p, numbered p x = log_of p x.
Proof.
  induction x as [|b x IH]; intros p; [reflexivity|]. unfold numbered in *. cbn [List.length seq map combine log_of]. f_equal.
  - f_equal. lia.
  - rewrite <- IH. f_equal. rewrite <- seq_shift, map_map. apply map_ext. intros i. lia.
Qed.

Lemma size_cat (a b : bytes) : size (a ++ b) = size a + size b.
Proof. unfold size. rewrite app_length. lia. Qed.

Section WithEnv.
Variable E : Env.
Hypothesis HE : EnvOK E.

(** ** pack, starting at the end of a file *)
Section Pack.
Context {Src Chunk : Type}.
Variable src : plain_source Src Chunk.
Variables (n csz last : Z) (m : pyval) (oba : option bargs) (obp : option bpargs) (oma : option margs).
Hypothesis Hn : 1 <= n.
Hypothesis Hsteps : zlen (ps_steps src n csz last) = n.
Variable F0 : fp.
Hypothesis HF0 : at_end F0.

Definition offs_at (h : header) (o : option msect) (cs : list bytes) : list Z :=
  pos_from (fpos F0 + body_pos E h o) (map (stored E (h_checksum h)) cs).

Lemma pack_run_at s s' h o chunks cs :
  pack_inputs E src n csz last m oba obp oma s s' h o chunks cs ->
  (h_offsets h = true -> Forall fits64 (offs_at h o cs)) ->
  exists oma' k', pack src (fp_sink E) n csz last m oba obp oma (s, cfs_of F0) = ((s', k'), Ok oma') /\
    s_fp k' = (let g := grow F0 (first_pass E h o cs) in
               if h_offsets h then put_at (words (offs_at h o cs)) (mkfp (fdata g) (32 + zlen (osect_bytes E o)) (flog g)) else g).
Proof.
  intros P Hfit. pose proof (pack_inputs_header E src n csz last m oba obp oma _ _ _ _ _ _ P) as (Hok & Hv & Ho & Hmd & Hck & Hts & Hcs & Hl & Hnc).
  destruct P as [P1 P2 P3 P4 P5 _].
  pose proof Hok as [_ Hnum]. unfold header_nums_ok in Hnum.
  unfold pack.
  set (ba := match oba with Some a => a | None => default_bargs end) in *.
  set (bp := match obp with Some a => a | None => default_bpargs end) in *.
  set (ma := match oma with Some a => a | None => default_margs end) in *.
  rewrite (bind_lift _ _ _ _ P1). unfold FORMAT_VERSION. rewrite (bind_lift _ _ _ _ P2).
  cbn [fp_sink cs_configure cs_write_header cs_write_metadata cs_init_offsets cs_put cs_finalize].
  set (k0 := fps_configure ba h (cfs_of F0)).
  rewrite (bind_run _ _ _ (s, k0) tt) by reflexivity.
  set (k1 := mkCFS (grow F0 (header_bytes h)) 0 h []).
  rewrite (bind_run _ _ _ (s, k1) tt).
  2:{ apply onr_run. unfold fps_write_header, on_fp, k0, fps_configure, cfs_of; cbn [s_header s_fp s_meta_total s_storage].
      rewrite (bind_lift _ _ _ _ (header_encode_ok h Hok)), f_write_end by exact HF0. reflexivity. }
  assert (A1 : at_end (s_fp k1)) by (apply at_end_grow; exact HF0).
  assert (Q0 : 0 <= fpos F0) by (rewrite HF0; apply zlen_nonneg).
  set (k2 := mkCFS (grow F0 (header_bytes h ++ osect_bytes E o)) (zlen (osect_bytes E o)) h []).
  assert (M : exists oma', (if is_none m then ret oma else a <- onr (fps_write_metadata E m ma);; ret (Some a)) (s, k1)
              = ((s, k2), Ok oma')).
  { unfold meta_plan in P3. destruct (is_none m) eqn:Hm.
    - subst o. exists oma. unfold ret, k1, k2. cbn [osect_bytes]. rewrite app_nil_r. reflexivity.
    - destruct P3 as (mh & p & a' & HP & ->). exists (Some a').
      rewrite (bind_run _ _ _ (s, k2) a'); [reflexivity|]. apply onr_run. unfold fps_write_metadata.
      erewrite (bind_run _ _ k1).
      2:{ unfold on_fp. erewrite write_metadata_run by (eauto; cbn [k1 s_fp grow fpos]; pose proof (zlen_nonneg (header_bytes h)); lia).
          rewrite put_at_end by exact A1. reflexivity. }
      cbn [fst snd s_fp s_meta_total s_header s_storage k1]. unfold k2.
      rewrite grow_grow. cbn [osect_bytes]. rewrite Z.add_0_l. reflexivity. }
  destruct M as (oma' & M). rewrite (bind_run _ _ _ _ _ M). clear M.
  assert (A2 : at_end (s_fp k2)) by (apply at_end_grow; exact HF0).
  set (tb := if h_offsets h then words (zrep (h_nchunks h + h_max_app h) (-1)) else []).
  set (k3 := mkCFS (grow F0 (header_bytes h ++ osect_bytes E o ++ tb)) (zlen (osect_bytes E o)) h
                   (if h_offsets h then zrep n (-1) else [])).
  rewrite (bind_run _ _ _ (s, k3) tt).
  2:{ apply onr_run. unfold fps_init_offsets, k3, tb. cbn [k2 s_header s_fp s_meta_total].
      destruct (h_offsets h) eqn:Hoo.
      - unfold total_prospective_chunks. replace (0 <=? h_nchunks h) with true by lia.
        unfold on_fp; cbn [s_fp s_meta_total s_header s_storage].
        rewrite f_write_end by exact A2. rewrite grow_grow, minus1_words, <- app_assoc, Hnc. reflexivity.
      - unfold k2. rewrite app_nil_r. reflexivity. }
  assert (A3 : at_end (s_fp k3)) by (apply at_end_grow; exact HF0).
  erewrite (bind_run _ _ (s, k3)).
  2:{ apply (pack_loop_run E (ps_compress src ba) _ s chunks s' cs k3 0 [] 0 P4 P5 A3 eq_refl).
      cbn [k3 s_header s_storage]. intros ->. rewrite Nat.add_0_r. unfold zrep. cbn [app]. f_equal.
      unfold zlen in Hsteps. lia. }
  assert (POS : fpos (s_fp k3) = fpos F0 + body_pos E h o).
  { cbn [k3 s_fp grow fpos]. rewrite !zlen_app, zlen_header_bytes. unfold body_pos, table_len, tb.
    destruct (h_offsets h); [rewrite zlen_words, zlen_zrep|change (zlen (@nil byte)) with 0]; lia. }
  cbn [k3 s_header s_meta_total s_storage]. fold k3. rewrite POS. cbn [app].
  set (bd := concat (map (stored E (h_checksum h)) cs)).
  assert (FP : grow (s_fp k3) bd = grow F0 (first_pass E h o cs)).
  { cbn [k3 s_fp]. rewrite grow_grow. unfold first_pass, tb, bd. rewrite <- !app_assoc. reflexivity. }
  rewrite FP. fold (offs_at h o cs). rewrite app_nil_r.
  set (k4 := mkCFS _ _ _ _). cbv zeta. set (g := grow F0 (first_pass E h o cs)) in *.
  destruct (h_offsets h) eqn:Hoo.
  - set (f5 := put_at (words (offs_at h o cs)) (mkfp (fdata g) (32 + zlen (osect_bytes E o)) (flog g))).
    exists oma', (mkCFS f5 (zlen (osect_bytes E o)) h (offs_at h o cs)).
    rewrite (bind_run _ _ _ (s', mkCFS f5 (zlen (osect_bytes E o)) h (offs_at h o cs)) tt).
    2:{ apply onr_run. unfold fps_finalize, k4. cbn [s_header]. rewrite Hoo. unfold on_fp. cbn [s_fp s_meta_total s_storage s_header].
        pose proof (zlen_nonneg (osect_bytes E o)). unfold BLOSCPACK_HEADER_LENGTH.
        rewrite (bind_run _ _ _ _ _ (f_seek_ok (32 + zlen (osect_bytes E o)) _ ltac:(lia))).
        unfold write_offsets. rewrite (bind_lift _ _ _ _ (encode_offsets_words _ (Hfit eq_refl))). reflexivity. }
    split; reflexivity.
  - exists oma', k4. rewrite (bind_run _ _ _ (s', k4) tt).
    2:{ apply onr_run. unfold fps_finalize, k4. cbn [s_header]. rewrite Hoo. reflexivity. }
    split; reflexivity.
Qed.
End Pack.

(** The pieces read from a source standing before its content. *)
Lemma yields_at l : forall before b after log, Forall (fun n => 0 <= n) l -> zsum l = zlen b ->
  yields (map f_read l) (between before (b ++ after) log) (takes l b) (between (before ++ b) after log).
Proof.
  induction l as [|k l IH]; intros before b after log H Hs.
  - cbn in Hs. symmetry in Hs. apply zlen_0 in Hs. subst b. cbn [map takes yields]. rewrite app_nil_r. reflexivity.
  - inversion H as [|? ? H1 H2]; subst. cbn [map takes yields]. cbn [zsum fold_right] in Hs. fold (zsum l) in Hs.
    pose proof (zsum_nonneg l H2) as Z0.
    assert (LK : zlen (ztake k b) = k) by (rewrite zlen_ztake; lia).
    exists (between (before ++ ztake k b) (zdrop k b ++ after) log). split.
    + assert (R : rest (between before (b ++ after) log) = ztake k b ++ zdrop k b ++ after).
      { unfold rest, between. cbn [fpos fdata]. rewrite size_zlen, zdrop_app_exact by reflexivity.
        rewrite app_assoc, ztake_zdrop. reflexivity. }
      rewrite (f_read_rest k _ _ _ R LK). f_equal. unfold adv, between. cbn [fdata fpos flog].
      rewrite (size_zlen (before ++ ztake k b)), zlen_app, LK, size_zlen, <- app_assoc, (app_assoc (ztake k b)), ztake_zdrop. reflexivity.
    + specialize (IH (before ++ ztake k b) (zdrop k b) after log H2).
      rewrite <- app_assoc, ztake_zdrop in IH. apply IH. rewrite zlen_zdrop. lia.
Qed.

Lemma between_end d log : at_end (between d [] log).
Proof. unfold at_end, between. cbn [fpos fdata]. rewrite app_nil_r. reflexivity. Qed.
Lemma grow_between d x log : grow (between d [] log) x = between (d ++ x) [] (log ++ numbered (size d) x).
Proof. unfold grow, between. cbn [fdata fpos flog]. rewrite numbered_log, size_cat, !app_nil_r. reflexivity. Qed.

Lemma pack_through_run b csa m oba obp oma f before after log1 d log2 :
  pack_bytes_to_bytes E b csa m oba obp oma = Ok f -> (bp_offsets (the_bpargs obp) = true -> size d + size f <= 2 ^ 63 - 1) ->
  exists h o cs, f = file_of E h o cs /\ arch E f h o (combine cs (takes (chunk_sizes (h_nchunks h) (h_chunk_size h) (h_last_chunk h)) b)) [] b (norm m) /\
    h_offsets h = bp_offsets (the_bpargs obp) /\ zlen cs = h_nchunks h /\
    pack_through E (between before (b ++ after) log1) (between d [] log2) (size b) csa m oba obp oma =
    (between (before ++ b) after log1,
     (let g := grow (between d [] log2) (first_pass E h o cs) in
      if h_offsets h then put_at (words (pos_from (size d + body_pos E h o) (map (stored E (h_checksum h)) cs)))
                                 (mkfp (fdata g) (32 + zlen (osect_bytes E o)) (flog g)) else g), Ok tt).
Proof.
  intros H Hd. pose proof H as H0. destruct (pack_arch_full E HE _ _ _ _ _ _ _ H0) as (h' & o' & cs' & A' & Ff' & _ & _ & _).
  apply pack_bytes_inv in H as (n & c & l & h & o & cs & Ec & P & Hf & _); auto.
  pose proof (zlen_nonneg b) as Hb. pose proof (calculate_partition _ _ _ _ _ Hb Ec) as CP.
  pose proof (packed_header E _ _ _ _ _ _ _ _ _ _ _ P) as (Hok & Hv & Ho & Hmd & Hck & Hts & Hcs & Hl & Hnc).
  destruct (packed_wf E HE b n c l m oba obp oma h o cs) as [W V]; try lia; auto.
  pose proof (packed_content E b n c l m oba obp oma h o cs ltac:(lia) ltac:(lia) ltac:(lia) P) as PC.
  destruct CP as (P1 & P2 & P3 & P4 & P5 & P6 & P7 & P8).
  assert (LC : List.length cs = List.length (takes (chunk_sizes n c l) b)) by (destruct P; symmetry; eapply F2_length; eauto).
  exists h, o, cs. split; [exact Hf|]. split.
  { rewrite Hnc, Hcs, Hl. constructor.
    - rewrite Hf. exact W.
    - unfold bytes in *. rewrite <- (map_map snd zlen). rewrite combine_snd by auto. rewrite Hnc, Hcs, Hl. apply takes_sizes; [apply chunk_sizes_nonneg; lia|].
      rewrite zsum_chunk_sizes by lia. lia.
    - lia.
    - rewrite Hl. intros. apply P7. lia.
    - rewrite Hcs. intros. apply P8. lia.
    - rewrite PC. apply ztake_all. lia.
    - exact V.
    - intros HS X. apply norm_none in X. subst m. rewrite <- (wf_flag _ _ _ _ _ _ W), Hmd in HS. discriminate. }
  split; [exact Ho|]. split.
  { unfold zlen. rewrite LC, takes_length. pose proof (zlen_chunk_sizes n c l ltac:(lia)) as X. unfold zlen in X. lia. }
  unfold pack_through. rewrite size_zlen, Ec.
  assert (Y : yields (ps_steps (fp_source E) n c l) (between before (b ++ after) log1) (takes (chunk_sizes n c l) b) (between (before ++ b) after log1)).
  { cbn [fp_source ps_steps]. unfold fp_source_steps. apply yields_at; [apply chunk_sizes_nonneg; lia|]. rewrite zsum_chunk_sizes by lia. lia. }
  assert (PI : pack_inputs E (fp_source E) n c l m oba obp oma (between before (b ++ after) log1) (between (before ++ b) after log1) h o (takes (chunk_sizes n c l) b) cs).
  { destruct P. constructor; auto. }
  destruct (pack_run_at (fp_source E) n c l m oba obp oma ltac:(lia) (zlen_fp_steps E n c l ltac:(lia)) (between d [] log2) (between_end d log2) _ _ h o _ cs PI) as (oma' & k' & R & K).
  { intros Hoo. unfold offs_at. change (fpos (between d [] log2)) with (size d). specialize (Hd ltac:(congruence)).
    pose proof (body_pos_nonneg _ _ _ _ _ _ W) as BP. change (size d) with (zlen d) in *. change (size f) with (zlen f) in *. pose proof (zlen_nonneg d) as ND.
    pose proof (pos_from_range (zlen d + body_pos E h o) (map (stored E (h_checksum h)) cs) ltac:(lia)) as PR.
    assert (LF : zlen f = body_pos E h o + zlen (concat (map (stored E (h_checksum h)) cs))).
    { rewrite Hf. unfold file_of, body_pos, table_len. rewrite Hoo. rewrite !zlen_app, zlen_header_bytes, !zlen_words, zlen_zrep.
      unfold offs. rewrite zlen_pos_from, zlen_map. destruct Hok as [_ Hnum]. unfold header_nums_ok in Hnum.
      assert (zlen cs = n). { unfold zlen. rewrite LC, takes_length. pose proof (zlen_chunk_sizes n c l ltac:(lia)) as X. unfold zlen in X. lia. }
      lia. }
    eapply Forall_impl; [|exact PR]. cbv beta. unfold end_from, fits64. intros z Hz. change (2 ^ 63) with 9223372036854775808 in Hd. lia. }
  rewrite R, K. cbn [rbind]. reflexivity.
Qed.

Lemma first_pass_file h o cs : h_offsets h = false -> first_pass E h o cs = file_of E h o cs.
Proof. intros H. unfold first_pass, file_of. rewrite H. reflexivity. Qed.

Theorem pack_anywhere b csa m oba obp oma f before after log1 d log2 :
  pack_bytes_to_bytes E b csa m oba obp oma = Ok f -> bp_offsets (the_bpargs obp) = false ->
  pack_through E (between before (b ++ after) log1) (between d [] log2) (size b) csa m oba obp oma =
    (between (before ++ b) after log1, between (d ++ f) [] (log2 ++ numbered (size d) f), Ok tt).
Proof.
  intros H Ho. destruct (pack_through_run b csa m oba obp oma f before after log1 d log2 H ltac:(congruence)) as (h & o & cs & Hf & A & Hoo & _ & R).
  rewrite R. cbv zeta. rewrite Hoo, Ho. rewrite first_pass_file by congruence. rewrite <- Hf, grow_between. reflexivity.
Qed.

(** ** Reading *)
Lemma adv_between before x after log : adv (zlen x) (between before (x ++ after) log) = between (before ++ x) after log.
Proof. unfold adv, between. cbn [fdata fpos flog]. rewrite size_cat, <- app_assoc. reflexivity. Qed.
Lemma rest_between before x log : rest (between before x log) = x.
Proof. unfold rest, between. cbn [fdata fpos]. rewrite size_zlen. apply zdrop_app_exact. reflexivity. Qed.
Lemma fpos_between before x log : 0 <= fpos (between before x log).
Proof. unfold between. cbn [fpos]. rewrite size_zlen. apply zlen_nonneg. Qed.

(** Any table of the right length will do. *)
Lemma read_beginning_at before h o tb q log : header_ok h -> h_version h = 3 -> h_metadata h = is_some o -> osect_ok E o -> 1 <= h_nchunks h ->
  zlen tb = table_len h ->
  exists l, read_beginning E (between before (header_bytes h ++ osect_bytes E o ++ tb ++ q) log) =
    (between (before ++ header_bytes h ++ osect_bytes E o ++ tb) q log, Ok (mkBeg h (osect_val o) (option_map ms_h o) l)).
Proof.
  intros W1 W2 W3 W4 WN LT. unfold read_beginning.
  rewrite (bind_run _ _ _ _ _ (read_header_ok h _ _ W1 W2 (rest_between _ _ _))).
  pose proof (adv_between before (header_bytes h) (osect_bytes E o ++ tb ++ q) log) as AH. rewrite zlen_header_bytes in AH. rewrite AH. clear AH.
  rewrite (bind_run _ _ _ (between ((before ++ header_bytes h) ++ osect_bytes E o) (tb ++ q) log) (osect_val o, option_map ms_h o)).
  2:{ rewrite W3. destruct o as [s|]; cbn [is_some osect_bytes osect_val option_map] in *.
      - rewrite (bind_run _ _ _ _ _ (read_metadata_ok E HE s _ _ W4 (fpos_between _ _ _) (rest_between _ _ _))).
        cbn [fst snd]. unfold ret. rewrite adv_between. reflexivity.
      - rewrite app_nil_r. reflexivity. }
  assert (X : exists l, read_offsets h (between ((before ++ header_bytes h) ++ osect_bytes E o) (tb ++ q) log) =
     (between (before ++ header_bytes h ++ osect_bytes E o ++ tb) q log, Ok l)).
  { unfold read_offsets, table_len in *. destruct (h_offsets h).
    - unfold total_prospective_chunks. replace (0 <=? h_nchunks h) with true by lia.
      rewrite (bind_run _ _ _ _ _ (f_read_ssize_rest _ _ _ _ (rest_between _ _ _) LT)).
      destruct W1 as [_ Hnum]. unfold header_nums_ok in Hnum.
      destruct (decode_offsets_any (Z.to_nat (h_nchunks h)) tb ltac:(lia)) as [l Hl]. exists l.
      unfold lift. rewrite decode_offsets_cap by lia. rewrite Hl. f_equal. rewrite <- LT, adv_between, <- !app_assoc. reflexivity.
    - apply zlen_0 in LT. subst tb. exists []. cbn [app]. rewrite app_nil_r, <- app_assoc. reflexivity. }
  destruct X as [l X]. exists l. rewrite (bind_run _ _ _ _ _ X). reflexivity.
Qed.

Lemma next_at ck c x before q log : e_decompress E c = Ok x ->
  exists d, fp_next E ck (between before (stored E ck c ++ q) log) = (between (before ++ stored E ck c) q log, Ok (c, d)) /\
    (truthy d = true -> d = Some (digest E ck c)).
Proof.
  intros H. destruct (chunk_ok_len E HE c x H) as [L U].
  assert (S0 : stored E ck c ++ q = c ++ digest E ck c ++ q) by (unfold stored; rewrite <- app_assoc; reflexivity).
  rewrite S0. unfold fp_next, read_compressed_chunk, BLOSC_HEADER_LENGTH.
  assert (R16 : rest (between before (c ++ digest E ck c ++ q) log) = ztake 16 c ++ zdrop 16 c ++ digest E ck c ++ q)
    by (rewrite rest_between, (app_assoc (ztake 16 c)), ztake_zdrop; reflexivity).
  assert (L16 : zlen (ztake 16 c) = 16) by (rewrite zlen_ztake; lia).
  assert (U16 : u32 12 (ztake 16 c) = zlen c).
  { rewrite <- U. rewrite <- (ztake_zdrop 16 c) at 2. rewrite u32_app by lia. reflexivity. }
  assert (D16 : exists bh, decode_blosc_header (ztake 16 c) = Ok bh /\ bh_ctbytes bh = zlen c).
  { eexists. split; [apply decode_blosc_header_ok; lia|]. cbn [bh_ctbytes]. exact U16. }
  destruct D16 as (bh & D16 & CT).
  set (d := if 0 <? cks_size ck then Some (digest E ck c) else None). exists d. split.
  2:{ unfold d. destruct (0 <? cks_size ck); [auto|discriminate]. }
  erewrite bind_run. 2:{
    rewrite (bind_run _ _ _ _ _ (f_read_rest 16 _ _ _ R16 L16)). rewrite (bind_lift _ _ _ _ D16).
    rewrite (bind_run _ _ _ (between before (c ++ digest E ck c ++ q) log) tt).
    2:{ rewrite f_seek_rel_ok by (pose proof (fpos_between before (c ++ digest E ck c ++ q) log); rewrite fpos_adv; lia).
        rewrite adv_adv. change (16 + - (16)) with 0. rewrite adv_0. reflexivity. }
    rewrite CT. rewrite (bind_run _ _ _ _ _ (f_read_rest _ _ _ _ (rest_between _ _ _) eq_refl)). rewrite adv_between.
    rewrite (bind_run _ _ _ (between ((before ++ c) ++ digest E ck c) q log) d).
    2:{ unfold d. destruct (0 <? cks_size ck) eqn:Hc.
        - rewrite (bind_run _ _ _ _ _ (f_read_rest _ _ _ _ (rest_between _ _ _) (zlen_digest E HE _ _))).
          rewrite <- (zlen_digest E HE ck c), adv_between. reflexivity.
        - pose proof (cks_size_nonneg ck). pose proof (zlen_digest E HE ck c). assert (X : digest E ck c = []) by (apply zlen_0; lia).
          rewrite X, app_nil_r. reflexivity. }
    reflexivity. }
  unfold stored. rewrite <- app_assoc. reflexivity.
Qed.

Lemma unpack_loop_at ck cs : Forall (chunk_ok E) cs -> forall before q log out, at_end out ->
  unpack_loop E (fp_next E ck) ck (plain_put E) (List.length cs) (between before (body E ck cs ++ q) log, out) =
  ((between (before ++ body E ck cs) q log, grow out (content cs)), Ok tt).
Proof.
  induction 1 as [|[c x] cs H _ IH]; intros before q log out HA.
  - unfold body, content. cbn [List.length unpack_loop map concat app]. rewrite grow_nil, app_nil_r. reflexivity.
  - unfold chunk_ok in H. cbn [fst snd] in H. unfold body in *. cbn [List.length unpack_loop map concat fst].
    rewrite <- (app_assoc (stored E ck c)). destruct (next_at ck c x before (concat (map (fun cx => stored E ck (fst cx)) cs) ++ q) log H) as (d & N & T).
    rewrite (bind_run _ _ _ _ _ (onl_run _ _ _ _ _ N)). cbn [fst snd].
    erewrite bind_run. 2:{ instantiate (1 := tt). destruct (truthy d) eqn:Td; [|reflexivity]. rewrite (T eq_refl), bytes_eqb_refl. reflexivity. }
    assert (P : plain_put E c out = (grow out x, Ok (zlen x)))
        by (unfold plain_put; rewrite (bind_lift _ _ _ _ H); rewrite (bind_run _ _ _ _ _ (f_write_end x out HA)); reflexivity).
    rewrite (bind_run _ _ _ _ _ (onr_run _ _ _ _ _ P)).
    rewrite IH by (apply at_end_grow; exact HA). rewrite grow_grow, <- !app_assoc. unfold content. reflexivity.
Qed.

Lemma unpack_through_run before h o tb cs q log out : header_ok h -> h_version h = 3 -> h_metadata h = is_some o -> osect_ok E o ->
  1 <= zlen cs -> h_nchunks h = zlen cs -> zlen tb = table_len h -> Forall (chunk_ok E) cs -> at_end out ->
  unpack_through E (between before (header_bytes h ++ osect_bytes E o ++ tb ++ body E (h_checksum h) cs ++ q) log) out =
  (between (before ++ header_bytes h ++ osect_bytes E o ++ tb ++ body E (h_checksum h) cs) q log, grow out (content cs), Ok (osect_val o)).
Proof.
  intros W1 W2 W3 W4 WN WL LT WC HA. unfold unpack_through.
  destruct (read_beginning_at before h o tb (body E (h_checksum h) cs ++ q) log W1 W2 W3 W4 ltac:(lia) LT) as [l ->].
  cbn [b_header b_meta]. unfold unpack_fp. rewrite WL. replace (Z.to_nat (zlen cs)) with (List.length cs) by (unfold zlen; lia).
  rewrite unpack_loop_at by auto. cbn [rbind]. rewrite <- !app_assoc. reflexivity.
Qed.

Lemma unpack_through_wf f h o cs tail before after log d log2 : wf E f h o cs tail ->
  unpack_through E (between before (f ++ after) log) (between d [] log2) =
  (between (before ++ sub 0 (size f - size tail) f) (tail ++ after) log, between (d ++ content cs) [] (log2 ++ numbered (size d) (content cs)), Ok (osect_val o)).
Proof.
  intros W. pose proof (zlen_table E _ _ _ _ _ W) as ZT. destruct W as [W1 W2 W3 W4 W5 W6 W7 W8 W9].
  set (x := header_bytes h ++ osect_bytes E o ++ table E h o cs ++ body E (h_checksum h) cs).
  assert (Fx : f = x ++ tail) by (rewrite W9; unfold x; rewrite <- !app_assoc; reflexivity).
  assert (S : sub 0 (size f - size tail) f = x).
  { rewrite Fx, size_cat. replace (size x + size tail - size tail) with (zlen x) by (rewrite <- size_zlen; lia).
    unfold sub. cbn [skipn Z.to_nat]. unfold zlen. rewrite Nat2Z.id, firstn_app, Nat.sub_diag, firstn_all, firstn_O, app_nil_r. reflexivity. }
  rewrite S. rewrite W9. rewrite <- !app_assoc.
  rewrite unpack_through_run; auto using between_end. rewrite grow_between. reflexivity.
Qed.

Theorem unpack_anywhere f b m before after log d log2 : archive E f b m ->
  exists tail, unpack_through E (between before (f ++ after) log) (between d [] log2) =
    (between (before ++ sub 0 (size f - size tail) f) (tail ++ after) log, between (d ++ b) [] (log2 ++ numbered (size d) b), Ok m) /\
    f = sub 0 (size f - size tail) f ++ tail.
Proof.
  intros HA. destruct (archive_arch E HE _ _ _ HA) as (h & o & cs & tail & A). exists tail.
  rewrite (unpack_through_wf _ _ _ _ _ before after log d log2 (ar_wf _ _ _ _ _ _ _ _ A)).
  rewrite (ar_content _ _ _ _ _ _ _ _ A), (ar_meta _ _ _ _ _ _ _ _ A). split; [reflexivity|].
  pose proof (wf_bytes _ _ _ _ _ _ (ar_wf _ _ _ _ _ _ _ _ A)) as W9. rewrite !app_assoc in W9. rewrite W9 at 1. f_equal.
  rewrite W9. set (x := _ ++ body _ _ _). rewrite size_cat. replace (size x + size tail - size tail) with (zlen x) by (rewrite <- size_zlen; lia).
  unfold sub. cbn [skipn Z.to_nat]. unfold zlen. rewrite Nat2Z.id, firstn_app, Nat.sub_diag, firstn_all, firstn_O, app_nil_r. reflexivity.
Qed.

Theorem unpack_packed b csa m oba obp oma f before after log d log2 : pack_bytes_to_bytes E b csa m oba obp oma = Ok f ->
  unpack_through E (between before (f ++ after) log) (between d [] log2) =
    (between (before ++ f) after log, between (d ++ b) [] (log2 ++ numbered (size d) b), Ok (norm m)).
Proof.
  intros H. destruct (pack_arch E HE _ _ _ _ _ _ _ H) as (h & o & cs & A).
  rewrite (unpack_through_wf _ _ _ _ _ before after log d log2 (ar_wf _ _ _ _ _ _ _ _ A)).
  rewrite (ar_content _ _ _ _ _ _ _ _ A), (ar_meta _ _ _ _ _ _ _ _ A). cbn [app].
  do 3 f_equal. unfold sub. rewrite size_zlen, (size_zlen []). change (zlen (@nil byte)) with 0. rewrite Z.sub_0_r. cbn [skipn Z.to_nat].
  unfold zlen. rewrite Nat2Z.id, firstn_all. reflexivity.
Qed.

(** ** Several archives in one file *)
Definition made (fbm : bytes * (bytes * pyval)) : Prop :=
  exists cs m oba obp oma, pack_bytes_to_bytes E (fst (snd fbm)) cs m oba obp oma = Ok (fst fbm) /\ snd (snd fbm) = norm m.

Lemma unpack_row l : Forall made l -> forall before after log,
  unpack_several E (List.length l) (between before (concat (map fst l) ++ after) log) =
    (map snd l, between (before ++ concat (map fst l)) after log).
Proof.
  induction 1 as [|[f [b m']] l (cs & m & oba & obp & oma & H & Hm) _ IH]; intros before after log.
  - cbn [List.length unpack_several map concat app]. rewrite app_nil_r. reflexivity.
  - cbn [fst snd] in H, Hm. subst m'. cbn [List.length unpack_several map concat fst snd]. rewrite <- app_assoc.
    change (fp_of []) with (between [] [] []). rewrite (unpack_packed _ _ _ _ _ _ _ before _ log [] [] H).
    rewrite IH, <- app_assoc. unfold between at 1. cbn [fdata app]. rewrite app_nil_r. reflexivity.
Qed.

Lemma pack_row l oba obp oma : bp_offsets (the_bpargs obp) = false -> forall fs d log,
  Forall2 (fun x f => pack_bytes_to_bytes E (fst (fst x)) (snd (fst x)) (snd x) oba obp oma = Ok f) l fs ->
  pack_several E l oba obp oma (between d [] log) = (between (d ++ concat fs) [] (log ++ numbered (size d) (concat fs)), Ok tt).
Proof.
  intros Ho. induction l as [|[[b cs] m] l IH]; intros fs d log HF; inversion HF as [|? f ? fs' H HF']; subst; cbn [pack_several concat].
  - rewrite !app_nil_r. reflexivity.
  - cbn [fst snd] in H. pose proof (pack_anywhere b cs m oba obp oma f [] [] [] d log H Ho) as R.
    rewrite app_nil_r in R. change (between [] b []) with (fp_of b) in R. rewrite R.
    rewrite (IH fs' _ _ HF'). f_equal. rewrite <- !app_assoc. rewrite !numbered_log, log_of_app, size_cat. reflexivity.
Qed.

(** ** With an offset table *)
Lemma words_pos_shift k p l : words (pos_from (k + p) l) = words (map (Z.add k) (pos_from p l)).
Proof.
  f_equal. revert p. induction l as [|x l IH]; intros p; [reflexivity|]. cbn [pos_from map]. f_equal. rewrite <- IH. f_equal. lia.
Qed.
Lemma zlen_minus_words n : zlen (words (zrep n (-1))) = 8 * Z.max 0 n.
Proof. rewrite zlen_words, zlen_zrep. lia. Qed.

Lemma fields_any h o q : header_ok h -> h_version h = 3 -> h_metadata h = is_some o -> osect_ok E o ->
  let g := header_bytes h ++ osect_bytes E o ++ q in F_table g = 32 + zlen (osect_bytes E o) /\ F_n g = h_nchunks h.
Proof.
  intros HO HV HM SO g. destruct (hfields h (osect_bytes E o ++ q) HO) as (A1 & A2 & A3 & A4 & A5 & A6 & A7 & A8 & _).
  destruct (odd_bits (h_offsets h) (h_metadata h)) as [O1 O2]. fold g in A2, A7.
  assert (FM : has_meta g = h_metadata h) by (unfold has_meta; rewrite A2; exact O2).
  split; [|exact A7]. unfold F_table. rewrite FM, HM. f_equal.
  destruct o as [s|]; cbn [is_some osect_bytes osect_ok] in *; [|reflexivity].
  destruct (mfields E s (header_bytes h) q SO (zlen_header_bytes h)) as [M1 M2]. fold g in M1, M2. rewrite M1, M2.
  symmetry. apply (zlen_msect E HE). exact SO.
Qed.

Lemma ff_words n : 0 <= n -> words (zrep n (-1)) = repeat xff (Z.to_nat (8 * n)).
Proof.
  intros Hn. unfold zrep, words. replace (Z.to_nat (8 * n)) with (8 * Z.to_nat n)%nat by lia.
  induction (Z.to_nat n) as [|k IH]; [reflexivity|]. replace (8 * S k)%nat with (8 + 8 * k)%nat by lia.
  cbn [repeat map concat]. rewrite IH, repeat_app. reflexivity.
Qed.

Theorem pack_with_offsets b csa m oba obp oma f before after log1 d log2 :
  pack_bytes_to_bytes E b csa m oba obp oma = Ok f -> bp_offsets (the_bpargs obp) = true ->
  size d + size f <= 2 ^ 63 - 1 -> F_table f + 8 * F_n f <= size d ->
  exists f' w log',
    pack_through E (between before (b ++ after) log1) (between d [] log2) (size b) csa m oba obp oma =
      (between (before ++ b) after log1,
       mkfp ((sub 0 (F_table f) d ++ w ++ skipn (Z.to_nat (F_table f + 8 * F_n f)) d) ++ f') (F_table f + 8 * F_n f) log', Ok tt) /\
    size w = 8 * F_n f /\ (forall i, 0 <= i < F_n f -> i64 (8 * i) w = size d + F_off f i) /\
    f' = sub 0 (F_table f) f ++ repeat xff (Z.to_nat (8 * F_n f)) ++ skipn (Z.to_nat (F_table f + 8 * F_n f)) f /\
    (forall i, 0 <= i < F_n f -> F_off f' i = -1) /\
    (forall pre post log3 d2 log4, unpack_through E (between pre (f' ++ post) log3) (between d2 [] log4) =
        (between (pre ++ f') post log3, between (d2 ++ b) [] (log4 ++ numbered (size d2) b), Ok (norm m))).
Proof.
  intros H Ho Hsz Hroom. destruct (pack_through_run b csa m oba obp oma f before after log1 d log2 H ltac:(auto)) as (h & o & cs & Hf & A & Hoo & LC & R).
  rewrite Ho in Hoo. pose proof (ar_wf _ _ _ _ _ _ _ _ A) as W. set (pairs := combine cs _) in *.
  destruct (wf_header _ _ _ _ _ _ W) as [_ Hnum]. unfold header_nums_ok in Hnum.
  pose proof (wf_n _ _ _ _ _ _ W) as WN. pose proof (wf_ne _ _ _ _ _ _ W) as W1.
  assert (MC : map (fun cx => stored E (h_checksum h) (fst cx)) pairs = map (stored E (h_checksum h)) cs).
  { unfold pairs. rewrite <- (map_map fst (stored E (h_checksum h))). f_equal. apply combine_fst.
    rewrite takes_length. pose proof (zlen_chunk_sizes (h_nchunks h) (h_chunk_size h) (h_last_chunk h) ltac:(lia)) as X.
    clear -X LC. unfold zlen in *. lia. }
  set (H0 := header_bytes h). set (O := osect_bytes E o) in *. set (BD := concat (map (stored E (h_checksum h)) cs)).
  set (n := h_nchunks h) in *. set (mx := h_max_app h) in *.
  set (OF := offs E h o cs). assert (LOF : zlen OF = n) by (unfold OF, offs; rewrite zlen_pos_from, zlen_map; exact LC).
  assert (Ff : f = (H0 ++ O) ++ words OF ++ words (zrep mx (-1)) ++ BD).
  { rewrite Hf. unfold file_of. rewrite Hoo. rewrite <- !app_assoc. reflexivity. }
  assert (Fp : first_pass E h o cs = (H0 ++ O) ++ words (zrep n (-1)) ++ words (zrep mx (-1)) ++ BD).
  { unfold first_pass. rewrite Hoo. fold n mx. rewrite words_zrep_app by lia. rewrite <- !app_assoc. reflexivity. }
  destruct (fields_any h o (words OF ++ words (zrep mx (-1)) ++ BD) (wf_header _ _ _ _ _ _ W) (wf_version _ _ _ _ _ _ W) (wf_flag _ _ _ _ _ _ W) (wf_sect _ _ _ _ _ _ W)) as [FT FN].
  fold H0 O in FT, FN. rewrite app_assoc, <- Ff in FT, FN. fold n in FN.
  destruct (fields_any h o (words (zrep n (-1)) ++ words (zrep mx (-1)) ++ BD) (wf_header _ _ _ _ _ _ W) (wf_version _ _ _ _ _ _ W) (wf_flag _ _ _ _ _ _ W) (wf_sect _ _ _ _ _ _ W)) as [FT' FN'].
  fold H0 O in FT', FN'. rewrite app_assoc, <- Fp in FT', FN'. fold n in FN'.
  assert (LHO : zlen (H0 ++ O) = 32 + zlen O) by (unfold H0; rewrite zlen_app, zlen_header_bytes; reflexivity).
  rewrite FT, FN in *. pose proof (zlen_nonneg O) as NO. set (t := 32 + zlen O) in *. assert (T32 : 32 <= t) by lia.
  set (w := words (pos_from (size d + body_pos E h o) (map (stored E (h_checksum h)) cs))) in *.
  assert (Ew : w = words (map (Z.add (size d)) OF)) by apply words_pos_shift.
  assert (Lw : zlen w = 8 * n) by (rewrite Ew, zlen_words, zlen_map, LOF; reflexivity).
  assert (Fit : Forall fits64 OF). { pose proof (wf_fits _ _ _ _ _ _ W Hoo) as X. unfold positions in X. rewrite MC in X. exact X. }
  assert (Bnd : Forall (fun z => body_pos E h o <= z <= zlen f) OF).
  { unfold OF, offs. pose proof (body_pos_nonneg _ _ _ _ _ _ W) as BP.
    eapply Forall_impl; [|apply pos_from_range; lia]. cbv beta. unfold end_from. fold BD. intros z Hz. split; [lia|].
    rewrite Ff, !zlen_app, !zlen_words, LOF, zlen_zrep. unfold body_pos, table_len in Hz. rewrite Hoo in Hz. fold n mx O in Hz. unfold H0. rewrite zlen_header_bytes. lia. }
  assert (Fit2 : Forall fits64 (map (Z.add (size d)) OF)).
  { rewrite Forall_map. eapply Forall_impl; [|exact Bnd]. cbv beta. intros z Hz. unfold fits64. change (2 ^ 63) with 9223372036854775808 in Hsz.
    change (size f) with (zlen f) in Hsz. pose proof (body_pos_nonneg _ _ _ _ _ _ W). unfold size in *. lia. }
  exists (first_pass E h o cs), w. eexists. split; [|split; [exact Lw|split; [|split; [|split]]]].
  - rewrite R. cbv zeta. rewrite Hoo. unfold grow, between, put_at. cbn [fdata fpos flog]. fold w. rewrite Lw. f_equal. f_equal. f_equal.
    rewrite app_nil_r. change (size d) with (zlen d) in Hroom.
    assert (Ed : d = ztake t d ++ sub t (8 * n) d ++ zdrop (t + 8 * n) d).
    { rewrite <- (ztake_zdrop t d) at 1. f_equal. rewrite <- (ztake_zdrop (8 * n) (zdrop t d)) at 1. f_equal.
      - unfold sub. rewrite ztake_firstn, zdrop_skipn. reflexivity.
      - rewrite zdrop_zdrop by lia. f_equal. lia. }
    assert (Lt : zlen (ztake t d) = t) by (rewrite zlen_ztake; lia).
    assert (Ls : zlen (sub t (8 * n) d) = zlen w) by (rewrite Lw; unfold sub; rewrite <- ztake_firstn, <- zdrop_skipn, zlen_ztake, zlen_zdrop; lia).
    pose proof (write_at_mid (ztake t d) (sub t (8 * n) d) w (zdrop (t + 8 * n) d ++ first_pass E h o cs) Ls) as WM. rewrite Lt in WM.
    replace (d ++ first_pass E h o cs) with (ztake t d ++ sub t (8 * n) d ++ zdrop (t + 8 * n) d ++ first_pass E h o cs).
    2:{ rewrite (app_assoc (sub t _ d)), app_assoc, <- Ed. reflexivity. }
    rewrite WM, <- !app_assoc, <- zdrop_skipn. unfold sub. cbn [Z.to_nat skipn]. rewrite ztake_firstn. reflexivity.
  - intros i Hi. rewrite Ew. destruct (nth_split_z OF i ltac:(lia)) as (a & x & c & EO & La).
    assert (XO : F_off f i = x).
    { unfold F_off. rewrite FT. rewrite Ff, EO. apply i64_words; [|lia]. rewrite EO in Fit. apply Forall_app in Fit as [_ Fit]. inversion Fit; auto. }
    rewrite XO, EO, map_app. cbn [map].
    pose proof (i64_words (8 * i) [] (map (Z.add (size d)) a) (size d + x) (map (Z.add (size d)) c) []) as Y. cbn [app] in Y. rewrite app_nil_r in Y. apply Y.
    + rewrite EO, map_app in Fit2. apply Forall_app in Fit2 as [_ Fit2]. inversion Fit2; auto.
    + rewrite zlen_nil, zlen_map. lia.
  - rewrite Fp, <- ff_words by lia. f_equal.
    + rewrite Ff. symmetry. apply sub_at0. symmetry. exact LHO.
    + f_equal. rewrite <- zdrop_skipn, Ff, app_assoc. symmetry. apply zdrop_app_exact. rewrite zlen_app, LHO, zlen_words, LOF. reflexivity.
  - intros i Hi. unfold F_off. rewrite FT', Fp. replace (zrep n (-1)) with (zrep i (-1) ++ (-1) :: zrep (n - i - 1) (-1)).
    + apply i64_words; [unfold fits64; lia|]. rewrite zlen_zrep. lia.
    + unfold zrep. change (-1 :: repeat (-1) (Z.to_nat (n - i - 1))) with (repeat (-1) (S (Z.to_nat (n - i - 1)))). rewrite <- repeat_app. f_equal. lia.
  - intros pre post log3 d2 log4.
    assert (Fp2 : first_pass E h o cs = header_bytes h ++ osect_bytes E o ++ words (zrep (n + mx) (-1)) ++ body E (h_checksum h) pairs).
    { unfold first_pass. rewrite Hoo. unfold body. rewrite MC. reflexivity. }
    rewrite Fp2. rewrite <- !app_assoc. rewrite unpack_through_run; auto using between_end.
    + rewrite grow_between, (ar_content _ _ _ _ _ _ _ _ A), (ar_meta _ _ _ _ _ _ _ _ A). reflexivity.
    + eapply wf_header; eauto.
    + eapply wf_version; eauto.
    + eapply wf_flag; eauto.
    + eapply wf_sect; eauto.
    + unfold table_len. rewrite Hoo, zlen_words, zlen_zrep. fold n mx. lia.
    + eapply wf_chunks; eauto.
Qed.

(** ** The order of the writes *)
Theorem pack_order b csa m oba obp oma f : pack_bytes_to_bytes E b csa m oba obp oma = Ok f ->
  flog (s_fp (fst (pack_bytes_core E b csa m oba obp oma))) =
    if has_offsets f
    then numbered 0 (sub 0 (F_table f) f ++ repeat xff (Z.to_nat (8 * F_n f)) ++ skipn (Z.to_nat (F_table f + 8 * F_n f)) f) ++
         numbered (F_table f) (sub (F_table f) (8 * F_n f) f)
    else numbered 0 f.
Proof.
  intros H. destruct (pack_arch_log E HE _ _ _ _ _ _ _ H) as (h & o & pairs & A & Hf & ->).
  pose proof (ar_wf _ _ _ _ _ _ _ _ A) as W. pose proof (wf_n _ _ _ _ _ _ W) as WN. pose proof (wf_ne _ _ _ _ _ _ W) as W1.
  destruct (wf_header _ _ _ _ _ _ W) as [_ Hnum]. unfold header_nums_ok in Hnum.
  destruct (wf_fields E HE _ _ _ _ _ W) as [_ FO _ _ _ _ _ FN _ FT _]. rewrite FO. unfold log_after.
  set (cs := map fst pairs) in *. assert (LC : zlen cs = h_nchunks h) by (unfold cs; rewrite zlen_map; auto).
  destruct (h_offsets h) eqn:Ho.
  2:{ rewrite app_nil_r, numbered_log, first_pass_file by auto. rewrite <- Hf. reflexivity. }
  rewrite FN, FT. set (O := osect_bytes E o) in *. pose proof (zlen_nonneg O).
  assert (LHO : zlen (header_bytes h ++ O) = 32 + zlen O) by (rewrite zlen_app, zlen_header_bytes; reflexivity).
  set (OF := offs E h o cs). assert (LOF : zlen OF = h_nchunks h) by (unfold OF, offs; rewrite zlen_pos_from, zlen_map; exact LC).
  set (BD := concat (map (stored E (h_checksum h)) cs)).
  assert (Ff : f = (header_bytes h ++ O) ++ words OF ++ words (zrep (h_max_app h) (-1)) ++ BD).
  { rewrite Hf. unfold file_of. rewrite Ho. rewrite <- !app_assoc. reflexivity. }
  assert (LW : zlen (words OF) = 8 * h_nchunks h) by (rewrite zlen_words, LOF; reflexivity).
  rewrite !numbered_log. f_equal.
  - f_equal. unfold first_pass. rewrite Ho. rewrite words_zrep_app by lia. fold O BD. rewrite <- ff_words by lia. rewrite app_assoc, <- (app_assoc (words (zrep (h_nchunks h) (-1)))). f_equal.
    + rewrite Ff. symmetry. apply sub_at0. symmetry. exact LHO.
    + f_equal. rewrite <- zdrop_skipn, Ff, app_assoc. symmetry. apply zdrop_app_exact. rewrite zlen_app, LHO, LW. reflexivity.
  - f_equal. rewrite Ff. symmetry. apply sub_at; [symmetry; exact LHO|symmetry; exact LW].
Qed.
End WithEnv.
