(** Reading and rewriting while metadata are rewritten: see Stir.v. *)
From Verif Require Import Base PyVal Checksums Headers Pretty Args FileIO Append Spec Archive Damage Overlap Torn Stir BaseLemmas HeaderProofs IOProofs WfProofs PackProofs SmallProofs BytesProofs MetaProofs AppendProofs ArchiveProofs CrashProofs HistoryProofs DamageProofs OverlapProofs LiveProofs TornProofs.
From Coq Require Import ZifyBool ZifyNat.
Ltac Zify.zify_post_hook ::= Z.div_mod_to_equations.

Section WithEnv.
Variable E : Env.
Hypothesis HE : EnvOK E.

Lemma rewrite_outcome_all f h o cs tail b m m' ov : arch E f h o cs tail b m ->
  (exists q e, rewrite_metadata E m' ov (fp_of f) = (mkfp f q [], Raise e)) \/
  (exists s s', o = Some s /\ msect_ok E s' /\ mh_max (ms_h s') = mh_max (ms_h s) /\ cks_size (mh_checksum (ms_h s')) = cks_size (mh_checksum (ms_h s)) /\
     zlen (msect_bytes E s') = zlen (msect_bytes E s) /\ ms_val s' = norm m' /\
     rewrite_metadata E m' ov (fp_of f) = (put_at (msect_bytes E s') (mkfp f 32 []), Ok tt) /\
     write_at f 32 (msect_bytes E s') = header_bytes h ++ msect_bytes E s' ++ table E h o cs ++ body E (h_checksum h) cs ++ tail).
Proof.
  intros A. destruct o as [s|].
  2:{ left. exists 32, NoMetadataFound. rewrite (rewrite_none E _ _ _ _ _ _ m' ov A). reflexivity. }
  pose proof (wf_sect _ _ _ _ _ _ (ar_wf _ _ _ _ _ _ _ _ A)) as SO. cbn [osect_ok] in SO.
  destruct (rewrite_some E HE _ _ _ _ _ _ _ m' ov A) as [q ->].
  destruct (pyeq m m'); [left; eauto|].
  destruct (recreate_metadata (ms_h s) ov) as [a|e] eqn:RM; [|left; eauto].
  destruct (plan_metadata E m' a) as [[[mh p] a']|e] eqn:PL; [|left; eauto].
  right. destruct (new_sect_len E HE _ _ _ _ _ _ _ SO RM PL) as [SO' ZL].
  exists s, (sect_of mh p m'). split; [auto|]. split; [auto|].
  assert (Q : mh_max mh = mh_max (ms_h s) /\ cks_size (mh_checksum mh) = cks_size (mh_checksum (ms_h s))).
  { destruct (plan_inv E HE _ _ _ _ _ PL) as [raw P].
    apply recreate_inv in RM as (M1 & c & M2 & M3). destruct P as [_ _ _ _ _ _ _ _ _ _ pl_ck pl_max _ _]. rewrite M2 in pl_ck. apply cks_name_inj in pl_ck. subst c.
    unfold effective_max_meta_size in pl_max. rewrite M1 in pl_max. injection pl_max as <-. auto. }
  destruct Q as [Q1 Q2]. cbn [sect_of ms_h]. split; [exact Q1|]. split; [exact Q2|]. split; [auto|]. split; [auto|]. split; [auto|].
  rewrite (wf_bytes _ _ _ _ _ _ (ar_wf _ _ _ _ _ _ _ _ A)). cbn [osect_bytes].
  rewrite <- (zlen_header_bytes h). apply write_at_mid. auto.
Qed.

(** ** The files of the family *)
Lemma family_none f h cs tail b m g : arch E f h None cs tail b m -> rewritten E f g -> g = f.
Proof.
  intros A. induction 1 as [|g m1 ov _ IH _]; [reflexivity|]. subst g. unfold rewrite_bytes.
  rewrite (rewrite_none E _ _ _ _ _ _ m1 ov A). reflexivity.
Qed.
Lemma family f h s cs tail b m g : arch E f h (Some s) cs tail b m -> rewritten E f g ->
  exists s' m', arch E g h (Some s') cs tail b m' /\ mh_max (ms_h s') = mh_max (ms_h s) /\
    cks_size (mh_checksum (ms_h s')) = cks_size (mh_checksum (ms_h s)) /\
    zlen (msect_bytes E s') = zlen (msect_bytes E s) /\
    g = header_bytes h ++ msect_bytes E s' ++ table E h (Some s) cs ++ body E (h_checksum h) cs ++ tail.
Proof.
  intros A. induction 1 as [|g m1 ov _ IH MN].
  - exists s, m. repeat (split; [reflexivity||exact A|]). exact (wf_bytes _ _ _ _ _ _ (ar_wf _ _ _ _ _ _ _ _ A)).
  - destruct IH as (s1 & m1' & A1 & X1 & X2 & X3 & X4). unfold rewrite_bytes. cbn [fst].
    destruct (rewrite_outcome_all _ _ _ _ _ _ _ m1 ov A1) as [(q & e & R)|(s0 & s' & Q & SO & MM & MC & ZL & MV & R & WA)].
    + rewrite R. cbn [fst fdata]. exists s1, m1'. auto.
    + injection Q as <-. rewrite R. cbn [fst put_at fdata fpos]. rewrite WA.
      assert (TE : table E h (Some s1) cs = table E h (Some s) cs).
      { unfold table, positions, body_pos. cbn [osect_bytes]. rewrite X3. reflexivity. }
      exists s', (norm m1). split; [|rewrite TE; repeat split; congruence].
      eapply (set_sect E); eauto. intros X. apply norm_none in X. auto.
Qed.

(** Files of the same layout, whatever the metadata; mixtures of them. *)
Definition member (h : header) (s : msect) (cs : list (bytes * bytes)) (tail g : bytes) : Prop :=
  exists s', msect_ok E s' /\ mh_max (ms_h s') = mh_max (ms_h s) /\
    cks_size (mh_checksum (ms_h s')) = cks_size (mh_checksum (ms_h s)) /\ zlen (msect_bytes E s') = zlen (msect_bytes E s) /\
    g = header_bytes h ++ msect_bytes E s' ++ table E h (Some s) cs ++ body E (h_checksum h) cs ++ tail.
Definition mixed (f : bytes) (h : header) (s : msect) (cs : list (bytes * bytes)) (tail g : bytes) : Prop :=
  size g = size f /\ forall p, exists x, member h s cs tail x /\ nth_error g p = nth_error x p.
Lemma family_member f h s cs tail b m g : arch E f h (Some s) cs tail b m -> rewritten E f g -> member h s cs tail g.
Proof.
  intros A R. destruct (family _ _ _ _ _ _ _ _ A R) as (s' & m' & A' & MM & MC & ZL & GE). exists s'.
  split; [exact (wf_sect _ _ _ _ _ _ (ar_wf _ _ _ _ _ _ _ _ A'))|]. auto.
Qed.
Lemma stirred_mixed f h s cs tail b m g : arch E f h (Some s) cs tail b m -> stirred E f g -> mixed f h s cs tail g.
Proof. intros A [SZ S]. split; [exact SZ|]. intros p. destruct (S p) as (x & R & X). exists x. split; [eapply family_member; eauto|exact X]. Qed.

(** What all of them, and so everything mixed, have in common. *)
Record common (f : bytes) (h : header) (s : msect) (cs : list (bytes * bytes)) (tail : bytes) (g : bytes) : Prop := mkCommon {
  cm_len : zlen g = zlen f;
  cm_head : agree 0 32 f g;
  cm_tail : agree (F_table f) (size f - F_table f) f g;
  cm_max : u32 48 g = mh_max (ms_h s);
  cm_ck : digest_len (u8 41 g) = cks_size (mh_checksum (ms_h s)) }.

Lemma member_common f h s cs tail b m g : arch E f h (Some s) cs tail b m -> member h s cs tail g -> common f h s cs tail g /\ agree 48 4 f g.
Proof.
  intros A R. pose proof (ar_wf _ _ _ _ _ _ _ _ A) as W. pose proof (wf_fields E HE _ _ _ _ _ W) as F.
  destruct R as (s' & SO' & MM & MC & ZL & GE).
  pose proof (wf_sect _ _ _ _ _ _ W) as SO. cbn [osect_ok] in SO.
  set (q := table E h (Some s) cs ++ body E (h_checksum h) cs ++ tail) in *.
  assert (FE : f = header_bytes h ++ msect_bytes E s ++ q) by exact (wf_bytes _ _ _ _ _ _ W).
  pose proof (zlen_header_bytes h) as LH.
  assert (FT : F_table f = 32 + zlen (msect_bytes E s)) by exact (fi_table _ _ _ _ F).
  assert (LF : zlen f = 32 + zlen (msect_bytes E s) + zlen q) by (rewrite FE, !zlen_app; lia).
  assert (LG : zlen g = zlen f) by (rewrite LF, GE, !zlen_app; lia).
  destruct (mfields E s (header_bytes h) q SO LH) as [X1 X2]. destruct (mfields E s' (header_bytes h) q SO' LH) as [Y1 Y2].
  rewrite <- FE in X1, X2. rewrite <- GE in Y1, Y2.
  assert (LM : 32 <= zlen (msect_bytes E s)).
  { rewrite (zlen_msect E HE) by auto. rewrite <- X1.
    pose proof (u32_range 48 f). pose proof (cks_size_nonneg (mh_checksum (ms_h s))). lia. }
  split; [constructor|].
  - exact LG.
  - apply sub_agree; [lia|]. rewrite FE, GE. rewrite !sub_at0 by (change size with (@zlen byte); lia). reflexivity.
  - apply sub_agree; [lia|]. change size with (@zlen byte).
    rewrite FT. replace (zlen f - (32 + zlen (msect_bytes E s))) with (zlen q) by lia.
    rewrite FE, GE. rewrite !app_assoc.
    rewrite <- (app_nil_r ((header_bytes h ++ msect_bytes E s) ++ q)), <- (app_nil_r ((header_bytes h ++ msect_bytes E s') ++ q)), <- !app_assoc.
    rewrite (app_assoc (header_bytes h) (msect_bytes E s)), (app_assoc (header_bytes h) (msect_bytes E s')).
    rewrite !sub_at; auto; change size with (@zlen byte); rewrite zlen_app; lia.
  - congruence.
  - congruence.
  - apply sub_agree; [lia|]. apply uint_le_inj; [|unfold u32 in *; congruence]. change (@zlen byte) with size. rewrite !size_sub by lia.
    change size with (@zlen byte). lia.
Qed.

Lemma mixed_agree f h s cs tail g a n : mixed f h s cs tail g -> (forall x, member h s cs tail x -> agree a n f x) -> agree a n f g.
Proof. intros [_ S] H i Hi. destruct (S (Z.to_nat i)) as (x & R & ->). apply (H x R). exact Hi. Qed.

Lemma mixed_common f h s cs tail b m g : arch E f h (Some s) cs tail b m -> mixed f h s cs tail g -> common f h s cs tail g.
Proof.
  intros A SG. pose proof (member_common _ _ _ _ _ _ _ f A (family_member _ _ _ _ _ _ _ _ A (rw_none E f))) as [CF _].
  assert (MC : forall x, member h s cs tail x -> common f h s cs tail x /\ agree 48 4 f x) by (intros x R; eapply member_common; eauto).
  constructor.
  - exact (proj1 SG).
  - apply (mixed_agree f h s cs tail g); [exact SG|]. intros x R. apply (cm_head _ _ _ _ _ _ (proj1 (MC x R))).
  - apply (mixed_agree f h s cs tail g); [exact SG|]. intros x R. apply (cm_tail _ _ _ _ _ _ (proj1 (MC x R))).
  - rewrite <- (cm_max _ _ _ _ _ _ CF). unfold u32. f_equal. symmetry.
    apply sub_ext; [lia|]. apply (mixed_agree f h s cs tail g); [exact SG|]. intros x R. apply (proj2 (MC x R)).
  - destruct SG as [_ S]. destruct (S 41%nat) as (x & R & X). rewrite <- (cm_ck _ _ _ _ _ _ (proj1 (MC x R))).
    unfold u8. rewrite (sub_ext 41 1 g x); [reflexivity|lia|]. intros i Hi. replace i with 41 by lia. exact X.
Qed.

Record placed (f : bytes) (h : header) (s : msect) (cs : list (bytes * bytes)) (tail : bytes) (g : bytes) : Prop := mkPlaced {
  pc_head : ztake 32 g = header_bytes h;
  pc_body : zdrop (F_body f) g = body E (h_checksum h) cs ++ tail;
  pc_at : F_body f = body_pos E h (Some s);
  pc_room : 64 + mh_max (ms_h s) + cks_size (mh_checksum (ms_h s)) + table_len h = F_body f /\ F_body f <= zlen f /\ 0 <= table_len h }.
Lemma common_placed f h s cs tail b m g : arch E f h (Some s) cs tail b m -> common f h s cs tail g -> placed f h s cs tail g.
Proof.
  intros A C. pose proof (ar_wf _ _ _ _ _ _ _ _ A) as W. pose proof (wf_fields E HE _ _ _ _ _ W) as F.
  pose proof (wf_sect _ _ _ _ _ _ W) as SO. cbn [osect_ok] in SO. pose proof (zlen_msect E HE s SO) as ZM.
  pose proof (fi_body _ _ _ _ F) as FB. pose proof (fi_table _ _ _ _ F) as FT. cbn [osect_bytes] in FT.
  pose proof (zlen_table E _ _ _ _ _ W) as ZT. pose proof (zlen_header_bytes h) as LH.
  pose proof (wf_bytes _ _ _ _ _ _ W) as FE. cbn [osect_bytes] in FE.
  pose proof (zlen_nonneg (table E h (Some s) cs)) as NT. pose proof (zlen_nonneg (body E (h_checksum h) cs)) as NB. pose proof (zlen_nonneg tail) as NL.
  pose proof (zlen_nonneg (msect_bytes E s)) as NM.
  assert (LF : zlen f = 32 + zlen (msect_bytes E s) + zlen (table E h (Some s) cs) + zlen (body E (h_checksum h) cs) + zlen tail) by (rewrite FE at 1; rewrite !zlen_app; lia).
  assert (FB2 : F_body f = 32 + zlen (msect_bytes E s) + zlen (table E h (Some s) cs)).
  { rewrite FB. unfold body_pos. cbn [osect_bytes]. lia. }
  constructor; [| |exact FB|].
  - rewrite ztake_firstn. pose proof (agree_sub 0 32 f g 0 32 (cm_head _ _ _ _ _ _ C) ltac:(lia) ltac:(lia) ltac:(lia)) as Q.
    unfold sub in Q. change (Z.to_nat 0) with O in Q. cbn [skipn] in Q. rewrite <- Q. rewrite <- ztake_firstn. rewrite FE. apply ztake_app_exact. lia.
  - assert (ZF : zdrop (F_body f) f = body E (h_checksum h) cs ++ tail).
    { rewrite FB2, FE at 1. rewrite (app_assoc (header_bytes h)), (app_assoc (header_bytes h ++ _)).
      apply zdrop_app_exact. rewrite !zlen_app. lia. }
    rewrite <- ZF.
    assert (SB : forall x : bytes, zlen x = zlen f -> zdrop (F_body f) x = sub (F_body f) (zlen f - F_body f) x).
    { intros x Hx. rewrite <- ztake_zdrop_sub. symmetry. apply ztake_all. rewrite zlen_zdrop. lia. }
    rewrite !SB by (auto; exact (cm_len _ _ _ _ _ _ C)). symmetry. eapply agree_sub; [exact (cm_tail _ _ _ _ _ _ C)|lia|lia|].
    change size with (@zlen byte). lia.
  - split; [lia|]. split; lia.
Qed.

Lemma stirred_common f h s cs tail b m g : arch E f h (Some s) cs tail b m -> stirred E f g -> common f h s cs tail g.
Proof. intros A SG. eapply mixed_common; [exact A|]. eapply stirred_mixed; eauto. Qed.

(** ** A reader *)
Lemma l_read_eq Sn n t p : 0 <= n -> 0 <= p -> p + n <= zlen (Sn t) ->
  l_read Sn n (mkLive t p) = (mkLive (S t) (p + n), Ok (sub p n (Sn t))).
Proof.
  intros Hn Hp HL. unfold l_read. cbn [lv_pos lv_time]. replace (n <? 0) with false by lia. rewrite ztake_zdrop_sub.
  assert (L : zlen (sub p n (Sn t)) = n) by (rewrite <- ztake_zdrop_sub, zlen_ztake, zlen_zdrop; lia).
  rewrite L. reflexivity.
Qed.

Lemma mheader_decode_codec b h : mheader_decode b = Ok h ->
  nth_error codec_names (Z.to_nat (u8 10 b)) = Some (codec_name (mh_codec h)) /\ mh_level h = u8 11 b.
Proof.
  intros H. destruct (mheader_decode_inv _ _ H) as (L & _). rewrite mheader_decode_fields in H by exact L.
  apply rbind_Ok in H as (c & Hc & H). apply rbind_Ok in H as (k & Hk & H).
  apply mk_mheader_Ok in H as (_ & c' & k' & Q1 & Q2 & ->). cbn [mh_codec mh_level]. split; [|reflexivity].
  pose proof (u8_range 10 b). apply codec_of_index_inv in Hk; [|lia]. rewrite Hk.
  assert (k' = k) by (destruct k, k'; cbn in Q2; congruence). subst k'. destruct k; reflexivity.
Qed.

Lemma live_meta_any Sn mx dl L t :
  (forall i, zlen (Sn i) = L) -> (forall i, 64 + u32 52 (Sn i) <= L) -> (forall i, u32 48 (Sn i) = mx) ->
  (forall i, digest_len (u8 41 (Sn i)) = dl) -> 64 + mx + dl <= L ->
  (exists st e, r_metadata E live (l_read Sn) l_seek_rel (mkLive t 32) = (st, Raise e)) \/
  (exists t' v mh, r_metadata E live (l_read Sn) l_seek_rel (mkLive t 32) = (mkLive t' (64 + mx + dl), Ok (v, mh)) /\
    exists ck co plain, nth_error checksum_names (Z.to_nat (u8 41 (Sn t))) = Some (cks_name ck) /\
      nth_error codec_names (Z.to_nat (u8 42 (Sn t))) = Some (codec_name co) /\
      let pl := sub 64 (u32 52 (Sn t)) (Sn (S t)) in
      codec_decompress E co pl = Ok plain /\ e_loads E plain = Ok v /\
      (ck <> CkNone -> sub (64 + mx) dl (Sn (S (S t))) = digest E ck pl)).
Proof.
  intros HL HC HM HD HR. pose proof (u32_range 48 (Sn t)) as U1. pose proof (u32_range 52 (Sn t)) as U2. rewrite HM in U1.
  unfold r_metadata, METADATA_HEADER_LENGTH.
  assert (DN : 0 <= dl).
  { rewrite <- (HD 0%nat). unfold digest_len. set (i := Z.to_nat _). clearbody i. do 9 (destruct i as [|i]; [cbn; lia|]). destruct i; cbn; lia. }
  rewrite (bind_run _ _ _ _ _ (l_read_eq Sn 32 t 32 ltac:(lia) ltac:(lia) ltac:(rewrite HL; lia))). change (32 + 32) with 64.
  destruct (mheader_decode (sub 32 32 (Sn t))) as [mh|e] eqn:MD; [|left; eexists _, e; reflexivity].
  rewrite (bind_lift _ _ _ _ eq_refl).
  pose proof (mheader_decode_inv _ _ MD) as (_ & D1 & D2 & D3). pose proof (mheader_decode_codec _ _ MD) as (D4 & _).
  unfold u32, u8 in D1, D2, D3, D4. rewrite sub_sub_32 in D1, D2, D3, D4 by lia.
  change (32 + 9) with 41 in D1. change (32 + 16) with 48 in D2. change (32 + 20) with 52 in D3. change (32 + 10) with 42 in D4.
  fold (u8 41 (Sn t)) in D1. fold (u32 48 (Sn t)) in D2. fold (u32 52 (Sn t)) in D3. fold (u8 42 (Sn t)) in D4.
  rewrite HM in D2. rewrite <- D2, <- D3.
  assert (DL : dl = cks_size (mh_checksum mh)) by (rewrite <- (HD t); unfold digest_len; apply checksum_size_nth; exact D1).
  rewrite (bind_run _ _ _ _ _ (l_read_eq Sn (u32 52 (Sn t)) (S t) 64 ltac:(lia) ltac:(lia) ltac:(rewrite HL; apply HC))).
  rewrite (bind_run _ _ _ _ _ (l_seek_ok Sn (mx - u32 52 (Sn t)) (S (S t)) (64 + u32 52 (Sn t)) ltac:(lia))).
  replace (64 + u32 52 (Sn t) + (mx - u32 52 (Sn t))) with (64 + mx) by lia.
  set (pl := sub 64 (u32 52 (Sn t)) (Sn (S t))).
  set (check := if cks_eqb (mh_checksum mh) CkNone then _ else _).
  assert (X : (exists st e, check (mkLive (S (S t)) (64 + mx)) = (st, Raise e)) \/
     (exists t', check (mkLive (S (S t)) (64 + mx)) = (mkLive t' (64 + mx + dl), Ok tt) /\
       (mh_checksum mh <> CkNone -> sub (64 + mx) dl (Sn (S (S t))) = digest E (mh_checksum mh) pl))).
  { unfold check. destruct (cks_eqb (mh_checksum mh) CkNone) eqn:CK.
    - apply cks_eqb_eq in CK. right. exists (S (S t)). split; [|congruence]. unfold ret. f_equal. f_equal. rewrite DL, CK. cbn. lia.
    - rewrite <- DL. rewrite (bind_run _ _ _ _ _ (l_read_eq Sn dl (S (S t)) (64 + mx) ltac:(lia) ltac:(lia) ltac:(rewrite HL; lia))).
      destruct (bytes_eqb _ _) eqn:BE; [|left; eexists _, ChecksumMismatch; reflexivity].
      apply bytes_eqb_eq in BE. right. exists (S (S (S t))). split; [reflexivity|]. intros _. symmetry. exact BE. }
  destruct X as [(st & e & X)|(t' & X & XD)].
  { left. exists st, e. apply bind_run_raise. exact X. }
  rewrite (bind_run _ _ _ _ _ X).
  destruct (codec_decompress E (mh_codec mh) pl) as [plain|e] eqn:CD; [|left; eexists _, e; reflexivity]. rewrite (bind_lift _ _ _ _ eq_refl).
  destruct (serializer_lookup (mh_magic mh)) as [[]|e] eqn:SL; [|left; eexists _, e; reflexivity]. rewrite (bind_lift _ _ _ _ eq_refl).
  destruct (e_loads E plain) as [v|e] eqn:EL; [|left; eexists _, e; reflexivity]. rewrite (bind_lift _ _ _ _ eq_refl).
  right. exists t', v, mh. split; [reflexivity|]. exists (mh_checksum mh), (mh_codec mh), plain. cbv zeta. fold pl. repeat (split; [assumption|]). exact XD.
Qed.

Lemma live_loop_all Sn ck cs : Forall (chunk_ok E) cs -> forall t p out, 0 <= p -> at_end out -> reads Sn p (body E ck cs) ->
  exists s', unpack_loop E (r_next live (l_read Sn) l_seek_rel ck) ck (plain_put E) (List.length cs) (mkLive t p, out)
    = ((s', grow out (content cs)), Ok tt).
Proof.
  induction 1 as [|[c x] cs H _ IH]; intros t p out Hp HA Hr.
  - exists (mkLive t p). cbn [List.length unpack_loop]. unfold content. cbn [map concat]. rewrite grow_nil. reflexivity.
  - unfold chunk_ok in H. cbn [fst snd] in H. destruct (chunk_ok_len E HE c x H) as [L U]. unfold body in Hr. cbn [map concat fst] in Hr. fold (body E ck cs) in Hr.
    pose proof (zlen_nonneg (stored E ck c)). apply reads_split in Hr as [R1 R2]; [|lia].
    destruct (live_chunk E HE Sn ck c t p Hp L U R1) as (t' & d & N & T). cbn [List.length unpack_loop].
    rewrite (bind_run _ _ _ _ _ (onl_run _ _ _ _ _ N)). cbn [fst snd].
    rewrite (bind_run _ _ _ (mkLive t' (p + zlen (stored E ck c)), out) tt).
    2:{ destruct (truthy d); [|reflexivity]. rewrite (T eq_refl), bytes_eqb_refl. reflexivity. }
    assert (P : plain_put E c out = (grow out x, Ok (zlen x)))
        by (unfold plain_put; rewrite (bind_lift _ _ _ _ H); rewrite (bind_run _ _ _ _ _ (f_write_end x out HA)); reflexivity).
    rewrite (bind_run _ _ _ _ _ (onr_run _ _ _ _ _ P)).
    destruct (IH t' (p + zlen (stored E ck c)) (grow out x) ltac:(lia) (at_end_grow _ _ HA) R2) as (s' & ->).
    exists s'. rewrite grow_grow. reflexivity.
Qed.

Lemma reader_some Sn f h s cs tail b m : arch E f h (Some s) cs tail b m -> (forall i, mixed f h s cs tail (Sn i)) ->
  (forall i, 64 + u32 52 (Sn i) <= size f) ->
  (exists e, unpack_live E Sn = ([], Raise e)) \/
  (exists v, unpack_live E Sn = (b, Ok v) /\
    exists ck co plain, nth_error checksum_names (Z.to_nat (u8 41 (Sn 1%nat))) = Some (cks_name ck) /\
      nth_error codec_names (Z.to_nat (u8 42 (Sn 1%nat))) = Some (codec_name co) /\
      let pl := sub 64 (u32 52 (Sn 1%nat)) (Sn 2%nat) in
      codec_decompress E co pl = Ok plain /\ e_loads E plain = Ok v /\
      (ck <> CkNone -> sub (64 + mh_max (ms_h s)) (cks_size (mh_checksum (ms_h s))) (Sn 3%nat) = digest E ck pl)).
Proof.
  intros A SG HC. pose proof (ar_wf _ _ _ _ _ _ _ _ A) as W.
  assert (C : forall i, common f h s cs tail (Sn i)) by (intros i; eapply mixed_common; eauto).
  assert (P : forall i, placed f h s cs tail (Sn i)) by (intros i; eapply common_placed; eauto).
  destruct (pc_room _ _ _ _ _ _ (P 0%nat)) as (RM & RL & TN). pose proof (pc_at _ _ _ _ _ _ (P 0%nat)) as BP.
  pose proof (wf_header _ _ _ _ _ _ W) as HO.
  unfold unpack_live, r_unpack, r_beginning.
  assert (RH : r_header live (l_read Sn) (mkLive 0 0) = (mkLive 1 32, Ok h)).
  { unfold r_header, BLOSCPACK_HEADER_LENGTH. rewrite (bind_run _ _ _ (mkLive 1 32) (header_bytes h)).
    - rewrite (bind_lift _ _ _ _ (header_decode_bytes h HO)). unfold FORMAT_VERSION. rewrite (wf_version _ _ _ _ _ _ W). reflexivity.
    - unfold l_read. cbn [lv_pos lv_time]. rewrite zdrop_skipn. cbn [Z.to_nat skipn Z.ltb Z.compare]. rewrite (pc_head _ _ _ _ _ _ (P 0%nat)), zlen_header_bytes. reflexivity. }
  rewrite (bind_run _ _ _ _ _ RH). rewrite (wf_flag _ _ _ _ _ _ W). cbn [is_some].
  destruct (live_meta_any Sn (mh_max (ms_h s)) (cks_size (mh_checksum (ms_h s))) (zlen f) 1) as [(st & e & X)|(t' & v & mh & X & INFO)].
  { intros i. apply (cm_len _ _ _ _ _ _ (C i)). } { exact HC. } { intros i. apply (cm_max _ _ _ _ _ _ (C i)). } { intros i. apply (cm_ck _ _ _ _ _ _ (C i)). } { lia. }
  { left. exists e. unfold bind at 1. unfold bind at 1. rewrite X. reflexivity. }
  right. exists v. split; [|exact INFO].
  assert (Y : bind (r_metadata E live (l_read Sn) l_seek_rel) (fun r => ret (fst r, Some (snd r))) (mkLive 1 32)
     = (mkLive t' (64 + mh_max (ms_h s) + cks_size (mh_checksum (ms_h s))), Ok (v, Some mh))).
  { rewrite (bind_run _ _ _ _ _ X). reflexivity. }
  rewrite (bind_run _ _ _ _ _ Y).
  pose proof (wf_n _ _ _ _ _ _ W) as WN. pose proof (zlen_nonneg cs) as NC.
  assert (MX : 0 <= mh_max (ms_h s)) by (rewrite <- (cm_max _ _ _ _ _ _ (C 0%nat)); apply (u32_range 48 (Sn 0%nat))).
  pose proof (cks_size_nonneg (mh_checksum (ms_h s))) as CN.
  destruct (live_offsets Sn h t' (64 + mh_max (ms_h s) + cks_size (mh_checksum (ms_h s))) HO ltac:(lia) ltac:(lia)) as (t2 & l & Z2).
  { intros i. rewrite (cm_len _ _ _ _ _ _ (C i)). lia. }
  rewrite (bind_run _ _ _ _ _ Z2). cbv zeta. unfold ret at 1. cbn [b_header b_meta fst]. rewrite RM.
  assert (RD : reads Sn (F_body f) (body E (h_checksum h) cs)).
  { intros i. rewrite (pc_body _ _ _ _ _ _ (P i)). apply ztake_app_exact. reflexivity. }
  destruct (live_loop_all Sn (h_checksum h) cs (wf_chunks _ _ _ _ _ _ W) t2 (F_body f) (fp_of []) ltac:(lia) eq_refl RD) as (s' & LL).
  replace (Z.to_nat (h_nchunks h)) with (List.length cs) by (unfold zlen in WN; lia).
  rewrite LL. cbn [rbind]. f_equal. cbn. rewrite <- (ar_content _ _ _ _ _ _ _ _ A). reflexivity.

Qed.

Lemma list_nth_ext {A} (x y : list A) : (forall p, nth_error x p = nth_error y p) -> x = y.
Proof.
  revert y. induction x as [|a x IH]; intros [|c y] H; [reflexivity|specialize (H O); discriminate H|specialize (H O); discriminate H|].
  pose proof (H O) as H0. cbn in H0. injection H0 as <-. f_equal. apply IH. intros p. exact (H (S p)).
Qed.

Lemma live_static f h cs tail b m Sn : arch E f h None cs tail b m -> (forall i, Sn i = f) -> exists v, unpack_live E Sn = (b, Ok v).
Proof.
  intros A Q. pose proof (ar_wf _ _ _ _ _ _ _ _ A) as W. pose proof (wf_fields E HE _ _ _ _ _ W) as F.
  pose proof (wf_header _ _ _ _ _ _ W) as HO. pose proof (wf_bytes _ _ _ _ _ _ W) as FE. cbn [osect_bytes app] in FE.
  pose proof (zlen_table E _ _ _ _ _ W) as ZT. pose proof (zlen_header_bytes h) as LH.
  pose proof (zlen_nonneg (table E h None cs)) as NT. pose proof (zlen_nonneg (body E (h_checksum h) cs)) as NB. pose proof (zlen_nonneg tail) as NL.
  assert (LF : zlen f = 32 + zlen (table E h None cs) + zlen (body E (h_checksum h) cs) + zlen tail) by (rewrite FE at 1; rewrite !zlen_app; lia).
  exists PNone. unfold unpack_live, r_unpack, r_beginning.
  assert (RH : r_header live (l_read Sn) (mkLive 0 0) = (mkLive 1 32, Ok h)).
  { unfold r_header, BLOSCPACK_HEADER_LENGTH. rewrite (bind_run _ _ _ (mkLive 1 32) (header_bytes h)).
    - rewrite (bind_lift _ _ _ _ (header_decode_bytes h HO)). unfold FORMAT_VERSION. rewrite (wf_version _ _ _ _ _ _ W). reflexivity.
    - unfold l_read. cbn [lv_pos lv_time]. rewrite zdrop_skipn. cbn [Z.to_nat skipn Z.ltb Z.compare]. rewrite Q, FE, ztake_app_exact by lia. rewrite LH. reflexivity. }
  rewrite (bind_run _ _ _ _ _ RH). rewrite (wf_flag _ _ _ _ _ _ W). cbn [is_some].
  rewrite (bind_run _ _ _ (mkLive 1 32) (PNone, None)) by reflexivity.
  pose proof (wf_n _ _ _ _ _ _ W) as WN. pose proof (zlen_nonneg cs) as NC.
  destruct (live_offsets Sn h 1 32 HO ltac:(lia) ltac:(lia)) as (t2 & l & Z2).
  { intros i. rewrite Q. lia. }
  rewrite (bind_run _ _ _ _ _ Z2). cbv zeta. unfold ret at 1. cbn [b_header b_meta fst].
  assert (RD : reads Sn (32 + table_len h) (body E (h_checksum h) cs)).
  { intros i. rewrite Q, FE. rewrite (app_assoc (header_bytes h)). rewrite zdrop_app_exact by (rewrite zlen_app; lia). apply ztake_app_exact. reflexivity. }
  destruct (live_loop_all Sn (h_checksum h) cs (wf_chunks _ _ _ _ _ _ W) t2 (32 + table_len h) (fp_of []) ltac:(lia) eq_refl RD) as (s' & LL).
  replace (Z.to_nat (h_nchunks h)) with (List.length cs) by (unfold zlen in WN; lia).
  rewrite LL. cbn [rbind]. f_equal. cbn. rewrite <- (ar_content _ _ _ _ _ _ _ _ A). reflexivity.
Qed.

Theorem stir_reader f b m Sn : archive E f b m -> (forall i, stirred E f (Sn i)) ->
  (has_meta f = true -> forall i, 64 + u32 52 (Sn i) <= size f) ->
  (exists e, unpack_live E Sn = ([], Raise e)) \/ (exists v, unpack_live E Sn = (b, Ok v)).
Proof.
  intros HA SG HC. destruct (archive_arch E HE _ _ _ HA) as (h & o & cs & tail & A).
  pose proof (ar_wf _ _ _ _ _ _ _ _ A) as W. pose proof (wf_fields E HE _ _ _ _ _ W) as F.
  destruct o as [s|].
  - destruct (reader_some Sn f h s cs tail b m A (fun i => stirred_mixed _ _ _ _ _ _ _ _ A (SG i))) as [X|(v & X & _)]; [|auto|eauto].
    apply HC. rewrite (fi_meta _ _ _ _ F), (wf_flag _ _ _ _ _ _ W). reflexivity.
  - right.
    assert (Q : forall i, Sn i = f).
    { intros i. destruct (SG i) as [_ S]. apply (list_nth_ext). intros p. destruct (S p) as (x & R & ->).
      rewrite (family_none _ _ _ _ _ _ _ A R). reflexivity. }
    destruct (live_static f h cs tail b m Sn A Q) as (v & X). eauto.
Qed.
(** ** The file as it lies on the disk *)
Lemma places_some f h s cs tail b m g : arch E f h (Some s) cs tail b m -> common f h s cs tail g -> common f h s cs tail f ->
  agree 0 32 f g /\ agree (F_table f) (size f - F_table f) f g /\ F_table g = F_table f /\ F_body g = F_body f.
Proof.
  intros A C CF.
  split; [exact (cm_head _ _ _ _ _ _ C)|]. split; [exact (cm_tail _ _ _ _ _ _ C)|].
  assert (GF : forall p n, 0 <= p -> p + n <= 32 -> sub p n g = sub p n f).
  { intros p n Hp Hn. symmetry. eapply agree_sub; [exact (cm_head _ _ _ _ _ _ C)|lia|lia|lia]. }
  assert (HM : has_meta g = has_meta f) by (unfold has_meta, u8; rewrite GF by lia; reflexivity).
  assert (HO : has_offsets g = has_offsets f) by (unfold has_offsets, u8; rewrite GF by lia; reflexivity).
  assert (HN : F_n g = F_n f) by (unfold F_n, i64; rewrite GF by lia; reflexivity).
  assert (HX : F_max g = F_max f) by (unfold F_max, i64; rewrite GF by lia; reflexivity).
  assert (TG : F_table g = F_table f).
  { unfold F_table. rewrite HM, (cm_max _ _ _ _ _ _ C), (cm_max _ _ _ _ _ _ CF), (cm_ck _ _ _ _ _ _ C), (cm_ck _ _ _ _ _ _ CF). reflexivity. }
  split; [exact TG|]. unfold F_body. rewrite TG, HO, HN, HX. reflexivity.
Qed.
Lemma self_common f h s cs tail b m : arch E f h (Some s) cs tail b m -> common f h s cs tail f.
Proof. intros A. exact (proj1 (member_common _ _ _ _ _ _ _ f A (family_member _ _ _ _ _ _ _ _ A (rw_none E f)))). Qed.
Lemma stir_places f b m g : archive E f b m -> stirred E f g ->
  agree 0 32 f g /\ agree (F_table f) (size f - F_table f) f g /\ F_table g = F_table f /\ F_body g = F_body f.
Proof.
  intros HA SG. destruct (archive_arch E HE _ _ _ HA) as (h & o & cs & tail & A).
  destruct o as [s|].
  2:{ assert (Q : g = f). { destruct SG as [_ S]. apply list_nth_ext. intros p. destruct (S p) as (x & R & ->). rewrite (family_none _ _ _ _ _ _ _ A R). reflexivity. }
      subst g. split; [apply agree_refl|]. split; [apply agree_refl|]. auto. }
  eapply places_some; [exact A|eapply stirred_common; eauto|eapply self_common; eauto].
Qed.

Lemma file_some f h s cs tail b m g : arch E f h (Some s) cs tail b m -> common f h s cs tail g -> 64 + u32 52 g <= size f ->
  (exists e, unpack_core E g = ([], Raise e)) \/ (exists v, unpack_core E g = (b, Ok v)).
Proof.
  intros A C FIT. destruct (places_some _ _ _ _ _ _ _ _ A C (self_common _ _ _ _ _ _ _ A)) as (_ & _ & _ & BG).
  pose proof (ar_wf _ _ _ _ _ _ _ _ A) as W. pose proof (wf_fields E HE _ _ _ _ _ W) as F. pose proof (common_placed _ _ _ _ _ _ _ _ A C) as P.
  rewrite unpack_core_pure. destruct (read_beginning E (fp_of g)) as [gf [bg|e]] eqn:RB; [|left; eauto].
  right. destruct (read_beginning_any E HE _ _ _ RB) as (HOK & A1 & _ & A3 & _ & _ & _ & _ & _ & RS).
  change size with (@zlen byte) in *. rewrite <- (cm_len _ _ _ _ _ _ C) in FIT. rewrite (RS (or_intror FIT)).
  assert (GF : forall p n, 0 <= p -> p + n <= 32 -> sub p n g = sub p n f).
  { intros p n Hp Hn. symmetry. eapply agree_sub; [exact (cm_head _ _ _ _ _ _ C)|lia|lia|lia]. }
  assert (HN : F_n g = F_n f) by (unfold F_n, i64; rewrite GF by lia; reflexivity).
  assert (N : h_nchunks (b_header bg) = zlen cs) by (rewrite <- A1, HN, (fi_n _ _ _ _ F); apply (wf_n _ _ _ _ _ _ W)).
  assert (CK : h_checksum (b_header bg) = h_checksum h).
  { apply cks_name_inj. pose proof (wf_bytes _ _ _ _ _ _ W) as FE. cbn [osect_bytes] in FE.
    destruct (hfields h (msect_bytes E s ++ table E h (Some s) cs ++ body E (h_checksum h) cs ++ tail) (wf_header _ _ _ _ _ _ W)) as (_ & _ & B3 & _). rewrite <- FE in B3.
    unfold u8 in A3. rewrite GF in A3 by lia. unfold u8 in B3. rewrite B3 in A3. congruence. }
  rewrite N, CK, BG, (pc_body _ _ _ _ _ _ P). pose proof (uloop_ok E HE (h_checksum h) cs tail (wf_chunks _ _ _ _ _ _ W) 0) as U.
  rewrite Nat.add_0_r in U. unfold zlen at 1. rewrite Nat2Z.id. rewrite U. cbn [uloop fst snd]. rewrite app_nil_r.
  rewrite (ar_content _ _ _ _ _ _ _ _ A). cbn [rbind]. eauto.
Qed.
Theorem stir_file f b m g : archive E f b m -> stirred E f g ->
  (has_meta f = true -> 64 + u32 52 g <= size f) ->
  (exists e, unpack_core E g = ([], Raise e)) \/ (exists v, unpack_core E g = (b, Ok v)).
Proof.
  intros HA SG FIT. destruct (archive_arch E HE _ _ _ HA) as (h & o & cs & tail & A).
  pose proof (ar_wf _ _ _ _ _ _ _ _ A) as W. pose proof (wf_fields E HE _ _ _ _ _ W) as F.
  destruct o as [s|].
  2:{ assert (Q : g = f). { destruct SG as [_ S]. apply list_nth_ext. intros p. destruct (S p) as (x & R & ->). rewrite (family_none _ _ _ _ _ _ _ A R). reflexivity. }
      subst g. right. pose proof (unpack_wf E HE _ _ _ _ _ W) as U. rewrite (ar_content _ _ _ _ _ _ _ _ A) in U. eauto. }
  specialize (FIT ltac:(rewrite (fi_meta _ _ _ _ F), (wf_flag _ _ _ _ _ _ W); reflexivity)).
  eapply file_some; [exact A|eapply stirred_common; eauto|exact FIT].
Qed.

Lemma nth_error_Some_lt {A} (l : list A) i x : nth_error l i = Some x -> (i < List.length l)%nat.
Proof. intros H. apply nth_error_Some. congruence. Qed.

(** ** Room *)
Lemma uint_cons a l : uint_le (a :: l) = Z.of_N (Byte.to_N a) + 256 * uint_le l.
Proof. reflexivity. Qed.
Lemma byte_below (a : byte) : 0 <= Z.of_N (Byte.to_N a) < 256.
Proof. pose proof (Byte.to_N_bounded a). lia. Qed.
Lemma byte_zero (y : byte) : Z.of_N (Byte.to_N y) = 0 -> y = x00.
Proof. intros Hy. assert (H : Byte.to_N y = 0%N) by lia. pose proof (Byte.of_to_N y) as Q. rewrite H in Q. cbn in Q. congruence. Qed.
Lemma uint_low k : forall l, uint_le l < 256 ^ Z.of_nat k <-> (forall i y, (k <= i)%nat -> nth_error l i = Some y -> y = x00).
Proof.
  induction k as [|k IH]; intros l.
  - change (256 ^ Z.of_nat 0) with 1. induction l as [|a l IHl]; [split; [intros _ [|i] y _ H; discriminate H|cbn; lia]|].
    rewrite uint_cons. pose proof (uint_le_range l) as U. pose proof (byte_below a) as BR. split.
    + intros H [|i] y _ Hy; [injection Hy as <-; apply byte_zero; lia|]. apply (proj1 IHl ltac:(lia) i y ltac:(lia) Hy).
    + intros H. pose proof (H O a ltac:(lia) eq_refl) as ->. assert (uint_le l < 1) by (apply IHl; intros i y _ Hy; exact (H (S i) y ltac:(lia) Hy)).
      change (Z.of_N (Byte.to_N x00)) with 0. lia.
  - rewrite Nat2Z.inj_succ, Z.pow_succ_r by lia. pose proof (Z.pow_pos_nonneg 256 (Z.of_nat k) ltac:(lia) ltac:(lia)) as PP. destruct l as [|a l].
    { split; [intros _ [|i] y _ H; discriminate H|]. intros _. change (uint_le []) with 0. lia. }
    rewrite uint_cons. pose proof (byte_below a) as BR. specialize (IH l). set (P := 256 ^ Z.of_nat k) in *. clearbody P. split.
    + intros H [|i] y Hi Hy; [lia|]. apply (proj1 IH ltac:(lia) i y ltac:(lia) Hy).
    + intros H. assert (uint_le l < P) by (apply IH; intros i y Hi Hy; exact (H (S i) y ltac:(lia) Hy)). lia.
Qed.

(** The size recorded in a file of the family is at most the room it has. *)
Lemma mfields3 s p q : msect_ok E s -> zlen p = 32 -> let f := p ++ msect_bytes E s ++ q in
  u32 52 f = mh_comp (ms_h s) /\ mh_comp (ms_h s) <= mh_max (ms_h s) /\ sub 64 (mh_comp (ms_h s)) f = ms_payload s /\
  sub (64 + mh_max (ms_h s)) (cks_size (mh_checksum (ms_h s))) f = digest E (mh_checksum (ms_h s)) (ms_payload s) /\
  nth_error codec_names (Z.to_nat (u8 42 f)) = Some (codec_name (mh_codec (ms_h s))) /\
  nth_error checksum_names (Z.to_nat (u8 41 f)) = Some (cks_name (mh_checksum (ms_h s))).
Proof.
  intros SO HP f. destruct SO as (HO & MG & MU & LP & LD & _). pose proof (mheader_bytes_describe _ HO) as D. pose proof (zlen_mheader_bytes _ HO) as L.
  assert (S32 : sub 32 32 f = mheader_bytes (ms_h s)).
  { unfold f, msect_bytes. rewrite <- app_assoc. apply sub_at; change size with (@zlen byte); lia. }
  assert (MD : mheader_decode (mheader_bytes (ms_h s)) = Ok (ms_h s)) by (apply mheader_decode_bytes; [exact HO|rewrite MG; apply no_edge_nul_JSON|rewrite MU; apply no_edge_nul_nil]). pose proof (mheader_decode_inv _ _ MD) as (_ & D1 & _ & D3). pose proof (mheader_decode_codec _ _ MD) as (D4 & _).
  rewrite <- S32 in D1, D3, D4. unfold u32, u8 in D1, D3, D4. rewrite sub_sub_32 in D1, D3, D4 by lia.
  change (32 + 9) with 41 in D1. change (32 + 20) with 52 in D3. change (32 + 10) with 42 in D4.
  pose proof (zlen_nonneg (ms_payload s)). pose proof (zlen_nonneg (ms_pad s)).
  split; [exact D3|]. split; [lia|]. split.
  { unfold f, msect_bytes. rewrite <- !app_assoc. rewrite (app_assoc p). apply sub_at; change size with (@zlen byte); rewrite ?zlen_app; lia. }
  split.
  { unfold f, msect_bytes. rewrite <- !app_assoc. rewrite (app_assoc p), (app_assoc (p ++ _)), (app_assoc ((p ++ _) ++ _)).
    apply sub_at; change size with (@zlen byte); rewrite ?zlen_app, ?(zlen_digest E HE); lia. }
  split; [exact D4|exact D1].
Qed.

Lemma room_some f h s cs tail b m g k : arch E f h (Some s) cs tail b m -> mixed f h s cs tail g -> 0 <= k -> u32 48 f < 256 ^ k -> u32 52 g < 256 ^ k.
Proof.
  intros A SG Hk HU.
  rewrite <- (Z2Nat.id k) in * by lia. set (n := Z.to_nat k) in *. clearbody n. unfold u32 at 1.
  apply uint_low. intros i y Hi Hy.
  assert (I4 : (i < 4)%nat). { apply nth_error_Some_lt in Hy. unfold sub in Hy. rewrite firstn_length in Hy. lia. }
  assert (N : forall l : bytes, nth_error (sub 52 4 l) i = nth_error l (Z.to_nat (52 + Z.of_nat i))).
  { intros l. rewrite <- (nth_sub 52 4 l (52 + Z.of_nat i)) by lia. f_equal. lia. }
  rewrite N in Hy. destruct SG as [_ S]. destruct (S (Z.to_nat (52 + Z.of_nat i))) as (x & R & X). rewrite X, <- N in Hy.
  revert i y Hi Hy I4 N X. intros i y Hi Hy _ _ _. revert i y Hi Hy. apply uint_low. fold (u32 52 x).
  destruct R as (s' & SO' & MM & _ & _ & GE).
  destruct (mfields3 s' (header_bytes h) (table E h (Some s) cs ++ body E (h_checksum h) cs ++ tail) SO' (zlen_header_bytes h)) as (X1 & X2 & _).
  rewrite <- GE in X1. pose proof (self_common _ _ _ _ _ _ _ A) as CF. rewrite (cm_max _ _ _ _ _ _ CF) in HU. lia.
Qed.
Theorem stir_room f b m g k : archive E f b m -> has_meta f = true -> stirred E f g -> 0 <= k -> u32 48 f < 256 ^ k -> u32 52 g < 256 ^ k.
Proof.
  intros HA HM SG Hk HU. destruct (archive_arch E HE _ _ _ HA) as (h & o & cs & tail & A).
  pose proof (ar_wf _ _ _ _ _ _ _ _ A) as W. pose proof (wf_fields E HE _ _ _ _ _ W) as F.
  rewrite (fi_meta _ _ _ _ F), (wf_flag _ _ _ _ _ _ W) in HM. destruct o as [s|]; [clear HM|discriminate].
  eapply room_some; eauto. eapply stirred_mixed; eauto.
Qed.

(** ** Writers *)
Lemma replay_nth l : forall d p, Forall (fun w => 0 <= fst w < zlen d) l ->
  nth_error (replay l d) p = nth_error d p \/ exists w, In w l /\ p = Z.to_nat (fst w) /\ nth_error (replay l d) p = Some (snd w).
Proof.
  induction l as [|[q x] l IH]; intros d p HF; [left; reflexivity|]. inversion HF as [|? ? H1 H2]; subst. cbn [fst] in H1.
  unfold replay in *. cbn [fold_left].
  assert (LD : zlen (poke d (q, x)) = zlen d) by (unfold zlen in *; rewrite poke_length by lia; lia).
  destruct (IH (poke d (q, x)) p) as [X|(w & W1 & W2 & W3)].
  { rewrite LD. exact H2. }
  - rewrite X. rewrite nth_poke by lia. destruct (p =? Z.to_nat q)%nat eqn:PQ.
    + right. exists (q, x). cbn [fst snd]. split; [left; reflexivity|]. split; [lia|reflexivity].
    + left. destruct (p <? List.length d)%nat eqn:PL; [reflexivity|]. 
      replace (nth_error d p) with (@None byte) by (symmetry; apply nth_error_None; lia). replace (p <? Z.to_nat q)%nat with false by (unfold zlen in H1; lia). reflexivity.
  - right. exists w. split; [right; exact W1|]. auto.
Qed.
Lemma replay_size l : forall d : bytes, Forall (fun w => 0 <= fst w < zlen d) l -> zlen (replay l d) = zlen d.
Proof.
  induction l as [|[q x] l IH]; intros d HF; [reflexivity|]. inversion HF as [|? ? H1 H2]; subst. cbn [fst] in H1. unfold replay in *. cbn [fold_left].
  assert (LD : zlen (poke d (q, x)) = zlen d) by (unfold zlen in *; rewrite poke_length by lia; lia).
  rewrite IH; [exact LD|]. rewrite LD. exact H2.
Qed.

Lemma write_of f h s cs tail b m g m' ov w : arch E f h (Some s) cs tail b m -> rewritten E f g -> In w (rewrite_log E g m' ov) ->
  0 <= fst w < zlen f /\ nth_error (fst (rewrite_bytes E g m' ov)) (Z.to_nat (fst w)) = Some (snd w).
Proof.
  intros A R HW. destruct (family _ _ _ _ _ _ _ _ A R) as (s1 & m1 & A1 & _ & _ & X3 & GE).
  pose proof (proj1 (member_common _ _ _ _ _ _ _ g A (family_member _ _ _ _ _ _ _ _ A R))) as CG. pose proof (cm_len _ _ _ _ _ _ CG) as LG.
  unfold rewrite_log in HW. unfold rewrite_bytes. cbn [fst].
  destruct (rewrite_outcome_all _ _ _ _ _ _ _ m' ov A1) as [(q & e & RW)|(s0 & s' & Q & SO & MM & MC & ZL & MV & RW & WA)].
  { rewrite RW in HW. destruct HW. }
  injection Q as <-. rewrite RW in HW |- *. cbn [fst put_at flog fdata fpos app] in HW |- *. rewrite WA.
  apply log_of_In in HW as (j & NJ & ->). pose proof NJ as LJ. apply nth_error_Some_lt in LJ.
  pose proof (zlen_header_bytes h) as LH.
  assert (zlen g = 32 + zlen (msect_bytes E s') + zlen (table E h (Some s) cs ++ body E (h_checksum h) cs ++ tail)) by (rewrite GE, zlen_app, zlen_app; lia).
  pose proof (zlen_nonneg (table E h (Some s) cs ++ body E (h_checksum h) cs ++ tail)).
  split; [unfold zlen in *; lia|].
  rewrite nth_error_app2 by (unfold zlen in LH; lia). rewrite nth_error_app1 by (unfold zlen in *; lia).
  rewrite <- NJ. f_equal. unfold zlen in LH. lia.
Qed.

Theorem stir_writers f b m l : archive E f b m ->
  Forall (fun w => exists g m' ov, rewritten E f g /\ m' <> PNone /\ In w (rewrite_log E g m' ov)) l ->
  stirred E f (replay l f).
Proof.
  intros HA HF. destruct (archive_arch E HE _ _ _ HA) as (h & o & cs & tail & A).
  destruct o as [s|].
  2:{ destruct l as [|w l].
      - split; [reflexivity|]. intros p. exists f. split; [constructor|reflexivity].
      - exfalso. inversion HF as [|? ? (g & m' & ov & R & _ & HW) _]; subst. rewrite (family_none _ _ _ _ _ _ _ A R) in HW.
        unfold rewrite_log in HW. rewrite (rewrite_none E _ _ _ _ _ _ m' ov A) in HW. destruct HW. }
  assert (RG : Forall (fun w => 0 <= fst w < zlen f) l).
  { eapply Forall_impl; [|exact HF]. intros w (g & m' & ov & R & _ & HW). exact (proj1 (write_of _ _ _ _ _ _ _ _ _ _ _ A R HW)). }
  split; [exact (replay_size l f RG)|]. intros p.
  destruct (replay_nth l f p RG) as [X|(w & W1 & W2 & W3)].
  - exists f. split; [constructor|exact X].
  - rewrite Forall_forall in HF. destruct (HF w W1) as (g & m' & ov & R & MN & HW).
    exists (fst (rewrite_bytes E g m' ov)). split; [constructor; assumption|]. rewrite W3, W2. symmetry.
    exact (proj2 (write_of _ _ _ _ _ _ _ _ _ _ _ A R HW)).
Qed.

(** ** The metadata a reader gets *)
Theorem stir_metadata f b m Sn v : archive E f b m -> has_meta f = true -> (forall i, rewritten E f (Sn i)) ->
  unpack_live E Sn = (b, Ok v) ->
  u8 41 (Sn 1%nat) <> 0 -> u8 41 (Sn 1%nat) = u8 41 (Sn 3%nat) -> u8 42 (Sn 1%nat) = u8 42 (Sn 3%nat) ->
  (forall ck, nth_error checksum_names (Z.to_nat (u8 41 (Sn 1%nat))) = Some (cks_name ck) ->
     digest E ck (sub 64 (u32 52 (Sn 1%nat)) (Sn 2%nat)) = digest E ck (stored_meta (Sn 3%nat)) -> sub 64 (u32 52 (Sn 1%nat)) (Sn 2%nat) = stored_meta (Sn 3%nat)) ->
  unpack_core E (Sn 3%nat) = (b, Ok v).
Proof.
  intros HA HM RW HU C1 C2 C3 NC. destruct (archive_arch E HE _ _ _ HA) as (h & o & cs & tail & A).
  pose proof (ar_wf _ _ _ _ _ _ _ _ A) as W. pose proof (wf_fields E HE _ _ _ _ _ W) as F.
  rewrite (fi_meta _ _ _ _ F), (wf_flag _ _ _ _ _ _ W) in HM. destruct o as [s|]; [clear HM|discriminate].
  assert (SG : forall i, stirred E f (Sn i)).
  { intros i. split; [|intros p; exists (Sn i); split; [apply RW|reflexivity]]. exact (cm_len _ _ _ _ _ _ (proj1 (member_common _ _ _ _ _ _ _ _ A (family_member _ _ _ _ _ _ _ _ A (RW i))))). }
  assert (FAM : forall i, exists s' m', arch E (Sn i) h (Some s') cs tail b m' /\ mh_max (ms_h s') = mh_max (ms_h s) /\ cks_size (mh_checksum (ms_h s')) = cks_size (mh_checksum (ms_h s)) /\
     u32 52 (Sn i) = mh_comp (ms_h s') /\ mh_comp (ms_h s') <= mh_max (ms_h s') /\ sub 64 (mh_comp (ms_h s')) (Sn i) = ms_payload s' /\
     sub (64 + mh_max (ms_h s')) (cks_size (mh_checksum (ms_h s'))) (Sn i) = digest E (mh_checksum (ms_h s')) (ms_payload s') /\
     nth_error codec_names (Z.to_nat (u8 42 (Sn i))) = Some (codec_name (mh_codec (ms_h s'))) /\
     nth_error checksum_names (Z.to_nat (u8 41 (Sn i))) = Some (cks_name (mh_checksum (ms_h s')))).
  { intros i. destruct (family _ _ _ _ _ _ _ _ A (RW i)) as (s' & m' & A' & MM & MC & _ & GE).
    pose proof (wf_sect _ _ _ _ _ _ (ar_wf _ _ _ _ _ _ _ _ A')) as SO'. cbn [osect_ok] in SO'.
    pose proof (mfields3 s' (header_bytes h) (table E h (Some s) cs ++ body E (h_checksum h) cs ++ tail) SO' (zlen_header_bytes h)) as X. cbv zeta in X. rewrite <- GE in X.
    exists s', m'. split; [exact A'|]. split; [exact MM|]. split; [exact MC|]. exact X. }
  assert (HC : forall i, 64 + u32 52 (Sn i) <= size f).
  { intros i. destruct (FAM i) as (s' & m' & A' & MM & MC & X1 & X2 & _).
    pose proof (common_placed _ _ _ _ _ _ _ _ A (proj1 (member_common _ _ _ _ _ _ _ _ A (family_member _ _ _ _ _ _ _ _ A (RW i))))) as P. destruct (pc_room _ _ _ _ _ _ P) as (R1 & R2 & R3).
    pose proof (cks_size_nonneg (mh_checksum (ms_h s))). change size with (@zlen byte). lia. }
  destruct (reader_some Sn f h s cs tail b m A (fun i => stirred_mixed _ _ _ _ _ _ _ _ A (SG i)) HC) as [(e & X)|(v' & X & ck & co & plain & K1 & K2 & K3 & K4 & K5)]; [congruence|].
  rewrite X in HU. injection HU as ->.
  destruct (FAM 3%nat) as (s3 & m3 & A3 & MM & MC & X1 & X2 & X3 & X4 & X5 & X6).
  assert (CKE : ck = mh_checksum (ms_h s3)) by (apply cks_name_inj; rewrite C2 in K1; congruence).
  assert (COE : co = mh_codec (ms_h s3)).
  { rewrite C3 in K2. assert (Q : codec_name co = codec_name (mh_codec (ms_h s3))) by congruence. destruct co, (mh_codec (ms_h s3)); cbn in Q; congruence. }
  assert (CN : ck <> CkNone).
  { intros ->. pose proof (u8_range 41 (Sn 1%nat)). set (i := u8 41 (Sn 1%nat)) in *. clearbody i.
    destruct (Z.to_nat i) as [|n] eqn:NI; [lia|]. do 9 (destruct n as [|n]; [cbn in K1; discriminate K1|]). destruct n; cbn in K1; discriminate K1. }
  specialize (K5 CN). specialize (NC ck K1).
  rewrite <- MM, <- MC, X4, <- CKE in K5.
  assert (SM3 : stored_meta (Sn 3%nat) = ms_payload s3) by (unfold stored_meta; rewrite X1; exact X3).
  rewrite SM3 in NC. specialize (NC (eq_sym K5)). rewrite NC in K3.
  pose proof (ar_wf _ _ _ _ _ _ _ _ A3) as W3. pose proof (unpack_wf E HE _ _ _ _ _ W3) as U.
  rewrite (ar_content _ _ _ _ _ _ _ _ A3) in U. rewrite U. f_equal. f_equal. cbn [osect_val].
  pose proof (wf_sect _ _ _ _ _ _ W3) as SO3. cbn [osect_ok] in SO3. destruct SO3 as (_ & _ & _ & _ & _ & plain' & P1 & P2).
  rewrite <- COE, K3 in P1. injection P1 as <-. congruence.
Qed.
End WithEnv.
