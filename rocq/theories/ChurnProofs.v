(** Rewriters that read while others write: see Churn.v. *)
From Verif Require Import Base PyVal Checksums Headers Pretty Args FileIO Append Spec Archive Damage Overlap Torn Stir Churn BaseLemmas HeaderProofs IOProofs WfProofs PackProofs SmallProofs BytesProofs MetaProofs AppendProofs ArchiveProofs CrashProofs HistoryProofs DamageProofs OverlapProofs LiveProofs TornProofs StirProofs.
From Coq Require Import ZifyBool ZifyNat.
Ltac Zify.zify_post_hook ::= Z.div_mod_to_equations.

(** ** On a file at rest *)
Definition sim {A} (f : bytes) (m1 : SM live A) (m2 : SM fp A) : Prop := forall t p, 0 <= p ->
  exists t' p' r, 0 <= p' /\ m1 (mkLive t p) = (mkLive t' p', r) /\ m2 (mkfp f p []) = (mkfp f p' [], r).
Lemma sim_read f n : sim f (l_read (fun _ => f) n) (f_read n).
Proof.
  intros t p P. unfold l_read, f_read. cbn [lv_pos lv_time]. unfold adv, rest. cbn [fpos fdata flog].
  eexists _, _, _. split; [|split; reflexivity]. pose proof (zlen_nonneg (if n <? 0 then zdrop p f else ztake n (zdrop p f))). lia.
Qed.
Lemma sim_seek E f d : e_mem E = false -> sim f (l_seek_rel d) (f_seek_rel E d).
Proof.
  intros M t p P. unfold l_seek_rel, f_seek_rel. cbn [lv_pos lv_time fpos fdata flog]. rewrite M.
  destruct (p + d <? 0) eqn:L; eexists _, _, _; (split; [|split; reflexivity]); lia.
Qed.
Lemma sim_lift {A} f (r : res A) : sim f (lift r) (lift r).
Proof. intros t p P. exists t, p, r. split; [exact P|]. split; reflexivity. Qed.
Lemma sim_bind {A B} f (m1 : SM live A) m2 (k1 : A -> SM live B) k2 : sim f m1 m2 -> (forall a, sim f (k1 a) (k2 a)) -> sim f (bind m1 k1) (bind m2 k2).
Proof.
  intros M K t p P. destruct (M t p P) as (t1 & p1 & r & P1 & X1 & X2). unfold bind. rewrite X1, X2. destruct r as [a|e]; [apply K; exact P1|].
  exists t1, p1, (Raise e). split; [exact P1|]. split; reflexivity.
Qed.
Lemma sim_header f : sim f (r_header live (l_read (fun _ => f))) read_bloscpack_header.
Proof.
  unfold r_header, read_bloscpack_header. apply sim_bind; [apply sim_read|]. intros raw. apply sim_bind; [apply sim_lift|]. intros h.
  destruct (FORMAT_VERSION =? h_version h); [apply (sim_lift f (Ok h))|apply (sim_lift f (Raise FormatVersionMismatch))].
Qed.
Lemma sim_metadata E f : e_mem E = false -> sim f (r_metadata E live (l_read (fun _ => f)) l_seek_rel) (read_metadata E).
Proof.
  intros M. unfold r_metadata, read_metadata. apply sim_bind; [apply sim_read|]. intros raw. apply sim_bind; [apply sim_lift|]. intros h.
  apply sim_bind; [apply sim_read|]. intros payload. apply sim_bind; [apply sim_seek; exact M|]. intros _.
  apply sim_bind.
  { destruct (cks_eqb _ _); [apply (sim_lift f (Ok tt))|]. apply sim_bind; [apply sim_read|]. intros x. destruct (bytes_eqb _ _); [apply (sim_lift f (Ok tt))|apply (sim_lift f (Raise ChecksumMismatch))]. }
  intros _. apply sim_bind; [apply sim_lift|]. intros plain. apply sim_bind; [apply sim_lift|]. intros _. apply sim_bind; [apply sim_lift|]. intros v. apply (sim_lift f (Ok (v, h))).
Qed.
Theorem rewrite_live_static E f m ov : EnvOK E -> e_mem E = false ->
  rewrite_live E (fun _ => f) m ov = (rewrite_log E f m ov, snd (rewrite_metadata E m ov (fp_of f))).
Proof.
  intros HE M. unfold rewrite_live, rewrite_log, rewrite_metadata, seek_to_metadata, rewrite_metadata_fp.
  destruct (sim_header f 0%nat 0 ltac:(lia)) as (t1 & p1 & r1 & P1 & X1 & X2). rewrite X1. unfold fp_of.
  destruct r1 as [h|e].
  2:{ unfold bind. rewrite X2. reflexivity. }
  destruct (h_metadata h) eqn:HM.
  2:{ unfold bind. rewrite X2, HM. reflexivity. }
  assert (TL : bind read_bloscpack_header (fun h => if h_metadata h then f_tell else raise NoMetadataFound) (mkfp f 0 []) = (mkfp f p1 [], Ok p1)).
  { rewrite (bind_run _ _ _ _ _ X2), HM. reflexivity. }
  rewrite (bind_run _ _ _ _ _ TL). rewrite (bind_run f_tell _ _ (mkfp f p1 []) p1 eq_refl).
  destruct (sim_metadata E f M t1 p1 P1) as (t2 & p2 & r2 & P2 & Y1 & Y2). rewrite Y1.
  destruct r2 as [[old oldh]|e].
  2:{ rewrite (bind_run_raise _ _ _ _ _ Y2). reflexivity. }
  rewrite (bind_run _ _ _ _ _ Y2). destruct (pyeq old m); [reflexivity|].
  destruct (recreate_metadata oldh ov) as [a|e].
  2:{ rewrite (bind_lift_raise _ _ _ _ eq_refl). reflexivity. }
  rewrite (bind_lift _ _ _ _ eq_refl). rewrite (bind_run _ _ _ _ _ (f_seek_at p1 _ P1)). cbn [lv_pos]. unfold at_pos. cbn [fdata flog].
  destruct (plan_metadata E m a) as [[[mh p] a']|e] eqn:PL.
  - rewrite (write_metadata_run E HE _ _ _ _ _ (mkfp [] p1 []) PL) by exact P1.
    rewrite (bind_run _ _ _ _ _ (write_metadata_run E HE _ _ _ _ _ (mkfp f p1 []) PL P1)). reflexivity.
  - rewrite (write_metadata_raise E _ _ _ (mkfp [] p1 []) PL), (bind_run_raise _ _ _ _ _ (write_metadata_raise E _ _ _ (mkfp f p1 []) PL)). reflexivity.
Qed.

Section WithEnv.
Variable E : Env.
Hypothesis HE : EnvOK E.

Lemma live_header Sn f h s cs tail b m : arch E f h (Some s) cs tail b m -> common f h s cs tail (Sn O) ->
  r_header live (l_read Sn) (mkLive 0 0) = (mkLive 1 32, Ok h).
Proof.
  intros A C. pose proof (ar_wf _ _ _ _ _ _ _ _ A) as W. pose proof (common_placed E HE _ _ _ _ _ _ _ _ A C) as P. pose proof (wf_header _ _ _ _ _ _ W) as HO.
  unfold r_header, BLOSCPACK_HEADER_LENGTH. rewrite (bind_run _ _ _ (mkLive 1 32) (header_bytes h)).
  - rewrite (bind_lift _ _ _ _ (header_decode_bytes h HO)). unfold FORMAT_VERSION. rewrite (wf_version _ _ _ _ _ _ W). reflexivity.
  - unfold l_read. cbn [lv_pos lv_time]. rewrite zdrop_skipn. cbn [Z.to_nat skipn Z.ltb Z.compare]. rewrite (pc_head _ _ _ _ _ _ _ P), zlen_header_bytes. reflexivity.
Qed.

(** What a rewriter writes are bytes of a file of the same layout. *)
Lemma live_write Sn f h s cs tail b m m' ov w : arch E f h (Some s) cs tail b m -> (forall i, mixed E f h s cs tail (Sn i)) ->
  In w (fst (rewrite_live E Sn m' ov)) ->
  0 <= fst w < zlen f /\ exists x, member E h s cs tail x /\ nth_error x (Z.to_nat (fst w)) = Some (snd w).
Proof.
  intros A SG HW. pose proof (ar_wf _ _ _ _ _ _ _ _ A) as W.
  assert (C : forall i, common f h s cs tail (Sn i)) by (intros i; eapply (mixed_common E HE); eauto).
  unfold rewrite_live in HW. rewrite (live_header Sn _ _ _ _ _ _ _ A (C O)) in HW. rewrite (wf_flag _ _ _ _ _ _ W) in HW. cbn [is_some] in HW.
  destruct (r_metadata E live (l_read Sn) l_seek_rel (mkLive 1 32)) as [v [[old oldh]|e]] eqn:RM; [|destruct HW].
  destruct (pyeq old m'); [destruct HW|].
  destruct (recreate_metadata oldh ov) as [a|e] eqn:RC; [|destruct HW]. cbn [lv_pos] in HW.
  destruct (plan_metadata E m' a) as [[[mh p] a']|e] eqn:PL.
  2:{ rewrite (write_metadata_raise E _ _ _ _ PL) in HW. destruct HW. }
  rewrite (write_metadata_run E HE _ _ _ _ _ _ PL) in HW by (cbn [fpos]; lia). cbn [fst put_at flog fpos app] in HW.
  assert (SZ : forall i, zlen (Sn i) = zlen f) by (intros i; apply (cm_len _ _ _ _ _ _ (C i))).
  pose proof (common_placed E HE _ _ _ _ _ _ _ _ A (C O)) as P. destruct (pc_room _ _ _ _ _ _ _ P) as (R1 & R2 & R3).
  assert (MX : 0 <= mh_max (ms_h s)) by (rewrite <- (cm_max _ _ _ _ _ _ (C O)); apply (u32_range 48)).
  pose proof (cks_size_nonneg (mh_checksum (ms_h s))) as CN.
  assert (MD : mheader_decode (sub 32 32 (Sn 1%nat)) = Ok oldh).
  { unfold r_metadata, METADATA_HEADER_LENGTH in RM. rewrite (bind_run _ _ _ _ _ (l_read_eq Sn 32 1 32 ltac:(lia) ltac:(lia) ltac:(rewrite SZ; lia))) in RM.
    destruct (mheader_decode (sub 32 32 (Sn 1%nat))) as [mh0|e] eqn:MD; [|discriminate RM]. rewrite (bind_lift _ _ _ _ eq_refl) in RM.
    apply bind_Ok in RM as (s1 & x1 & _ & RM). apply bind_Ok in RM as (s2 & x2 & _ & RM). apply bind_Ok in RM as (s3 & x3 & _ & RM).
    apply bind_Ok in RM as (s4 & x4 & _ & RM). apply bind_Ok in RM as (s5 & x5 & _ & RM). apply bind_Ok in RM as (s6 & x6 & _ & RM).
    injection RM as _ _ <-. reflexivity. }
  pose proof (mheader_decode_inv _ _ MD) as (_ & D1 & D2 & _). unfold u32, u8 in D1, D2. rewrite sub_sub_32 in D1, D2 by lia.
  change (32 + 9) with 41 in D1. change (32 + 16) with 48 in D2. fold (u8 41 (Sn 1%nat)) in D1. fold (u32 48 (Sn 1%nat)) in D2.
  rewrite (cm_max _ _ _ _ _ _ (C 1%nat)) in D2. pose proof (cm_ck _ _ _ _ _ _ (C 1%nat)) as CK. unfold digest_len in CK. rewrite (checksum_size_nth _ _ D1) in CK.
  destruct (plan_inv E HE _ _ _ _ _ PL) as [raw PI]. pose proof (sect_of_ok E HE _ _ _ _ _ PI) as SO'.
  destruct (recreate_inv (mkMS oldh [] [] PNone) _ _ RC) as (M1 & c & M2 & M3). cbn [ms_h] in M1, M3.
  destruct PI as [_ _ _ _ _ _ _ _ _ _ pl_ck pl_max _ _]. rewrite M2 in pl_ck. apply cks_name_inj in pl_ck. subst c.
  unfold effective_max_meta_size in pl_max. rewrite M1 in pl_max. injection pl_max as pl_max.
  set (s' := sect_of mh p m') in *. assert (Q1 : mh_max (ms_h s') = mh_max (ms_h s)) by (cbn [s' sect_of ms_h]; congruence).
  assert (Q2 : cks_size (mh_checksum (ms_h s')) = cks_size (mh_checksum (ms_h s))) by (cbn [s' sect_of ms_h]; congruence).
  assert (ZL : zlen (msect_bytes E s') = zlen (msect_bytes E s)).
  { rewrite !(zlen_msect E HE); [rewrite Q1, Q2; reflexivity|exact (wf_sect _ _ _ _ _ _ W)|exact SO']. }
  apply log_of_In in HW as (j & NJ & ->). pose proof NJ as LJ. apply nth_error_Some_lt in LJ.
  pose proof (zlen_header_bytes h) as LH. set (q := table E h (Some s) cs ++ body E (h_checksum h) cs ++ tail).
  assert (LF : zlen f = 32 + zlen (msect_bytes E s) + zlen q) by (rewrite (wf_bytes _ _ _ _ _ _ W) at 1; cbn [osect_bytes]; fold q; rewrite !zlen_app; lia).
  pose proof (zlen_nonneg q). split; [unfold zlen in *; lia|].
  exists (header_bytes h ++ msect_bytes E s' ++ q). split; [exists s'; auto|].
  rewrite nth_error_app2 by (unfold zlen in LH; lia). rewrite nth_error_app1 by (unfold zlen in *; lia).
  rewrite <- NJ. f_equal. unfold zlen in LH. lia.
Qed.

Lemma churned_mixed f h s cs tail b m g : arch E f h (Some s) cs tail b m -> churned E f g -> mixed E f h s cs tail g.
Proof.
  intros A H. pose proof (family_member E HE _ _ _ _ _ _ _ _ A (rw_none E f)) as MF.
  induction H as [|g Sn m' ov [q x] _ [SZ IG] _ IS HW|g X SZ _ IX EQ].
  - split; [reflexivity|]. intros p. exists f. auto.
  - destruct (live_write Sn _ _ _ _ _ _ _ _ _ _ A IS HW) as (RG & y & MY & NY). cbn [fst snd] in RG, NY. unfold size in SZ. unfold zlen in RG. split.
    + unfold size. rewrite poke_length by lia. lia.
    + intros p. rewrite nth_poke by lia. destruct (p =? Z.to_nat q)%nat eqn:PQ.
      * exists y. split; [exact MY|]. rewrite <- NY. f_equal. lia.
      * destruct (IG p) as (z & MZ & NZ). exists z. split; [exact MZ|]. rewrite <- NZ. destruct (p <? List.length g)%nat eqn:PL; [reflexivity|].
        replace (p <? Z.to_nat q)%nat with false by lia. symmetry. apply nth_error_None. lia.
  - split; [exact SZ|]. intros p. destruct (IX p) as [_ IP]. destruct (IP p) as (z & MZ & NZ). exists z. split; [exact MZ|]. rewrite EQ. exact NZ.
Qed.
Lemma churned_none f h cs tail b m g : arch E f h None cs tail b m -> churned E f g -> g = f.
Proof.
  intros A H. pose proof (ar_wf _ _ _ _ _ _ _ _ A) as W.
  induction H as [|g Sn m' ov w _ -> _ IS HW|g X SZ _ IX EQ].
  - reflexivity.
  - exfalso. unfold rewrite_live in HW. destruct (sim_header f 0%nat 0 ltac:(lia)) as (t1 & p1 & r1 & _ & X1 & X2).
    assert (R0 : r_header live (l_read Sn) (mkLive 0 0) = (mkLive t1 p1, r1)).
    { rewrite <- X1. unfold r_header, bind, l_read. cbn [lv_time lv_pos]. rewrite (IS 0%nat). reflexivity. }
    rewrite R0 in HW. destruct r1 as [h1|e]; [|destruct HW].
    assert (RH : read_bloscpack_header (fp_of f) = (adv 32 (fp_of f), Ok h)).
    { eapply read_header_ok; [exact (wf_header _ _ _ _ _ _ W)|exact (wf_version _ _ _ _ _ _ W)|].
      rewrite (wf_bytes _ _ _ _ _ _ W). unfold rest. cbn [fp_of fpos fdata]. apply zdrop_0. lia. }
    change (mkfp f 0 []) with (fp_of f) in X2. rewrite RH in X2. injection X2 as _ <-.
    rewrite (wf_flag _ _ _ _ _ _ W) in HW. destruct HW.
  - apply list_nth_ext. intros p. rewrite EQ, IX. reflexivity.
Qed.

Theorem churn_places f b m g : archive E f b m -> churned E f g ->
  size g = size f /\ agree 0 32 f g /\ agree (F_table f) (size f - F_table f) f g /\ F_table g = F_table f /\ F_body g = F_body f.
Proof.
  intros HA SG. destruct (archive_arch E HE _ _ _ HA) as (h & o & cs & tail & A). destruct o as [s|].
  - pose proof (churned_mixed _ _ _ _ _ _ _ _ A SG) as MX. split; [exact (proj1 MX)|].
    eapply (places_some E); [exact A|eapply (mixed_common E HE); eauto|eapply (self_common E HE); eauto].
  - rewrite (churned_none _ _ _ _ _ _ _ A SG). split; [reflexivity|]. split; [apply agree_refl|]. split; [apply agree_refl|]. auto.
Qed.
Theorem churn_reader f b m Sn : archive E f b m -> (forall i, churned E f (Sn i)) ->
  (has_meta f = true -> forall i, 64 + u32 52 (Sn i) <= size f) ->
  (exists e, unpack_live E Sn = ([], Raise e)) \/ (exists v, unpack_live E Sn = (b, Ok v)).
Proof.
  intros HA SG HC. destruct (archive_arch E HE _ _ _ HA) as (h & o & cs & tail & A).
  pose proof (ar_wf _ _ _ _ _ _ _ _ A) as W. pose proof (wf_fields E HE _ _ _ _ _ W) as F.
  destruct o as [s|].
  - destruct (reader_some E HE Sn f h s cs tail b m A (fun i => churned_mixed _ _ _ _ _ _ _ _ A (SG i))) as [X|(v & X & _)]; [|auto|eauto].
    apply HC. rewrite (fi_meta _ _ _ _ F), (wf_flag _ _ _ _ _ _ W). reflexivity.
  - right. destruct (live_static E HE f h cs tail b m Sn A (fun i => churned_none _ _ _ _ _ _ _ A (SG i))) as (v & X). eauto.
Qed.
Theorem churn_file f b m g : archive E f b m -> churned E f g ->
  (has_meta f = true -> 64 + u32 52 g <= size f) ->
  (exists e, unpack_core E g = ([], Raise e)) \/ (exists v, unpack_core E g = (b, Ok v)).
Proof.
  intros HA SG FIT. destruct (archive_arch E HE _ _ _ HA) as (h & o & cs & tail & A).
  pose proof (ar_wf _ _ _ _ _ _ _ _ A) as W. pose proof (wf_fields E HE _ _ _ _ _ W) as F.
  destruct o as [s|].
  - eapply (file_some E HE); [exact A|eapply (mixed_common E HE); [exact A|eapply churned_mixed; eauto]|].
    apply FIT. rewrite (fi_meta _ _ _ _ F), (wf_flag _ _ _ _ _ _ W). reflexivity.
  - rewrite (churned_none _ _ _ _ _ _ _ A SG). right. pose proof (unpack_wf E HE _ _ _ _ _ W) as U. rewrite (ar_content _ _ _ _ _ _ _ _ A) in U. eauto.
Qed.
Theorem churn_room f b m g k : archive E f b m -> has_meta f = true -> churned E f g -> 0 <= k -> u32 48 f < 256 ^ k -> u32 52 g < 256 ^ k.
Proof.
  intros HA HM SG Hk HU. destruct (archive_arch E HE _ _ _ HA) as (h & o & cs & tail & A).
  pose proof (ar_wf _ _ _ _ _ _ _ _ A) as W. pose proof (wf_fields E HE _ _ _ _ _ W) as F.
  rewrite (fi_meta _ _ _ _ F), (wf_flag _ _ _ _ _ _ W) in HM. destruct o as [s|]; [clear HM|discriminate].
  eapply (room_some E HE); eauto. eapply churned_mixed; eauto.
Qed.
(** Any of the writes of a process, in any order, any of them lost. *)
Lemma churned_replay f Sn m ov l : (forall i, churned E f (Sn i)) -> Forall (fun w => In w (fst (rewrite_live E Sn m ov))) l ->
  forall g, churned E f g -> churned E f (replay l g).
Proof.
  intros HS HL. induction HL as [|w l HW _ IH]; intros g HG; [exact HG|]. unfold replay. cbn [fold_left]. apply IH. eapply ch_write; eauto.
Qed.
End WithEnv.
