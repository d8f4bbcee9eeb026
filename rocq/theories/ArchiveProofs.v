(** Archives keep the layout invariant; what their bytes say. *)
From Verif Require Import Base PyVal Checksums Headers Pretty Args FileIO Append Spec Archive BaseLemmas HeaderProofs IOProofs WfProofs PackProofs SmallProofs BytesProofs MetaProofs AppendProofs.
From Coq Require Import ZifyBool ZifyNat.
Ltac Zify.zify_post_hook ::= Z.div_mod_to_equations.

Lemma norm_none m : norm m = PNone -> m = PNone.
Proof. destruct m; cbn; congruence. Qed.

Lemma cks_name_inj a b : cks_name a = cks_name b -> a = b.
Proof. destruct a, b; cbn; congruence. Qed.

Section WithEnv.
Variable E : Env.
Hypothesis HE : EnvOK E.

(** *** Fields *)
Lemma hfields h q : header_ok h -> let f := header_bytes h ++ q in
  u8 4 f = h_version h /\ u8 5 f = (if h_offsets h then 1 else 0) + (if h_metadata h then 2 else 0) /\
  nth_error checksum_names (Z.to_nat (u8 6 f)) = Some (cks_name (h_checksum h)) /\ u8 7 f = h_typesize h /\
  i32 8 f = h_chunk_size h /\ i32 12 f = h_last_chunk h /\ i64 16 f = h_nchunks h /\ i64 24 f = h_max_app h /\
  sub 0 4 f = b_of_string "blpk".
Proof.
  intros HO f. pose proof (header_decode_describes _ _ (header_decode_bytes h HO)) as D.
  pose proof (zlen_header_bytes h) as Z. unfold f, u8, i32, i64 in *.
  rewrite !sub_app_l by (unfold bytes in *; lia). unfold header_describes, u8, i32, i64 in D. tauto.
Qed.

Lemma mfields s p q : msect_ok E s -> zlen p = 32 -> let f := p ++ msect_bytes E s ++ q in
  u32 48 f = mh_max (ms_h s) /\ digest_len (u8 41 f) = cks_size (mh_checksum (ms_h s)).
Proof.
  intros SO HP f. destruct SO as (HO & _). pose proof (mheader_bytes_describe _ HO) as D. pose proof (zlen_mheader_bytes _ HO) as L.
  unfold mheader_describes in D.
  assert (S32 : sub 32 32 f = mheader_bytes (ms_h s)).
  { unfold f, msect_bytes. rewrite <- app_assoc. apply sub_at; change size with (@zlen byte); lia. }
  destruct D as (_ & _ & _ & D1 & _ & _ & _ & D2 & _). rewrite <- S32 in D1, D2.
  unfold u32, u8 in *. rewrite sub_sub_32 in D1, D2 by lia. split; [exact D2|].
  unfold digest_len. apply checksum_size_nth. exact D1.
Qed.

Lemma odd_bits (a b : bool) : Z.odd ((if a then 1 else 0) + (if b then 2 else 0)) = a /\
  Z.odd (((if a then 1 else 0) + (if b then 2 else 0)) / 2) = b.
Proof. destruct a, b; split; reflexivity. Qed.

Record fields (f : bytes) (h : header) (o : option msect) : Prop := mkFields {
  fi_version : F_version f = 3;
  fi_offsets : has_offsets f = h_offsets h;
  fi_meta : has_meta f = h_metadata h;
  fi_digest : F_digest f = cks_size (h_checksum h);
  fi_typesize : F_typesize f = h_typesize h;
  fi_chunk : F_chunk f = h_chunk_size h;
  fi_last : F_last f = h_last_chunk h;
  fi_n : F_n f = h_nchunks h;
  fi_max : F_max f = h_max_app h;
  fi_table : F_table f = 32 + zlen (osect_bytes E o);
  fi_body : F_body f = body_pos E h o }.

Lemma wf_fields f h o cs tail : wf E f h o cs tail -> fields f h o.
Proof.
  intros W. pose proof (wf_header _ _ _ _ _ _ W) as HO. rewrite (wf_bytes _ _ _ _ _ _ W).
  set (q := table E h o cs ++ body E (h_checksum h) cs ++ tail).
  destruct (hfields h (osect_bytes E o ++ q) HO) as (A1 & A2 & A3 & A4 & A5 & A6 & A7 & A8 & _).
  destruct (odd_bits (h_offsets h) (h_metadata h)) as [O1 O2].
  set (g := header_bytes h ++ osect_bytes E o ++ q) in *.
  assert (FO : has_offsets g = h_offsets h) by (unfold has_offsets; rewrite A2; exact O1).
  assert (FM : has_meta g = h_metadata h) by (unfold has_meta; rewrite A2; exact O2).
  assert (FT : F_table g = 32 + zlen (osect_bytes E o)).
  { unfold F_table. rewrite FM, (wf_flag _ _ _ _ _ _ W). f_equal. pose proof (wf_sect _ _ _ _ _ _ W) as SO.
    destruct o as [s|]; cbn [is_some osect_bytes osect_ok] in *; [|reflexivity].
    destruct (mfields s (header_bytes h) q SO (zlen_header_bytes h)) as [M1 M2]. fold g in M1, M2. rewrite M1, M2.
    symmetry. apply (zlen_msect E HE). exact SO. }
  constructor; auto.
  - unfold F_version. rewrite A1. exact (wf_version _ _ _ _ _ _ W).
  - unfold F_digest, digest_len. apply checksum_size_nth. exact A3.
  - unfold F_body. rewrite FT, FO. unfold F_n, F_max. rewrite A7, A8. unfold body_pos, table_len. reflexivity.
Qed.

Lemma i64_words p a l1 x l2 q : fits64 x -> p = zlen a + 8 * zlen l1 -> i64 p (a ++ words (l1 ++ x :: l2) ++ q) = x.
Proof.
  intros HX ->. rewrite words_app, words_cons, <- !app_assoc, (app_assoc a). unfold i64.
  rewrite sub_at; [|change size with (@zlen byte); rewrite zlen_app, zlen_words; lia|change size with (@zlen byte); rewrite zlen_le_enc; reflexivity].
  rewrite (signed_sint 8) by (reflexivity || lia). rewrite le_dec_enc. unfold fits64 in HX. apply signed_mod; lia.
Qed.

Lemma nth_split_z {A} (l : list A) i : 0 <= i < zlen l -> exists a x b, l = a ++ x :: b /\ zlen a = i.
Proof.
  intros Hi. destruct (nth_error l (Z.to_nat i)) as [x|] eqn:N.
  - apply nth_error_split in N as (a & b & -> & L). exists a, x, b. split; [auto|]. unfold zlen. lia.
  - apply nth_error_None in N. unfold zlen in Hi. lia.
Qed.

(** Offset entries, used and unused. *)
Lemma off_used f h o a c x b tail : wf E f h o (a ++ (c, x) :: b) tail -> h_offsets h = true ->
  F_off f (zlen a) = body_pos E h o + zlen (body E (h_checksum h) a).
Proof.
  intros W Ho. pose proof (wf_fields _ _ _ _ _ W) as F. unfold F_off. rewrite (fi_table _ _ _ F).
  pose proof (wf_fits _ _ _ _ _ _ W Ho) as FIT. rewrite (wf_bytes _ _ _ _ _ _ W). unfold table. rewrite Ho.
  unfold positions in *. rewrite map_app, pos_from_app in *. cbn [map pos_from] in *. rewrite <- !app_assoc, (app_assoc (header_bytes h)).
  apply i64_words.
  - apply Forall_app in FIT as [_ FIT]. inversion FIT; subst. exact H1.
  - rewrite zlen_app, zlen_header_bytes, zlen_pos_from, zlen_map. reflexivity.
Qed.
Lemma off_unused f h o cs tail i : wf E f h o cs tail -> h_offsets h = true ->
  h_nchunks h <= i < h_nchunks h + h_max_app h -> F_off f i = -1.
Proof.
  intros W Ho Hi. pose proof (wf_fields _ _ _ _ _ W) as F. unfold F_off. rewrite (fi_table _ _ _ F).
  rewrite (wf_bytes _ _ _ _ _ _ W). unfold table. rewrite Ho. rewrite <- words_app.
  replace (h_max_app h) with ((i - h_nchunks h) + (1 + (h_nchunks h + h_max_app h - i - 1))) by lia.
  rewrite zrep_add by lia. rewrite (zrep_add _ 1) by lia. change (zrep 1 (-1)) with [-1].
  rewrite (app_assoc (positions E h o cs)), (app_assoc (header_bytes h)). cbn [app]. 
  apply i64_words; [unfold fits64; lia|].
  rewrite !zlen_app, zlen_header_bytes, zlen_positions, zlen_zrep, <- (wf_n _ _ _ _ _ _ W). lia.
Qed.

(** A stored chunk, read at its position. *)
Lemma chunk_at_ok p c q : 16 <= zlen c -> u32 12 c = zlen c -> chunk_at (zlen p) (p ++ c ++ q) = c.
Proof.
  intros L U. unfold chunk_at.
  assert (S : sub (zlen p + 12) 4 (p ++ c ++ q) = sub 12 4 c).
  { rewrite <- (sub_app_l 12 4 c q) by lia. unfold sub. rewrite <- !zdrop_skipn. replace (zlen p + 12) with (12 + zlen p) by lia.
    rewrite <- (zdrop_zdrop 12 (zlen p)) by (pose proof (zlen_nonneg p); lia). rewrite zdrop_app_exact by reflexivity. reflexivity. }
  unfold u32 in *. rewrite S, U. apply sub_at; reflexivity.
Qed.

(** *** The invariant *)
Lemma pack_arch_full b csa m oba obp oma f : pack_bytes_to_bytes E b csa m oba obp oma = Ok f ->
  exists h o cs, arch E f h o cs [] b (norm m) /\ f = file_of E h o (map fst cs) /\
    flog (s_fp (fst (pack_bytes_core E b csa m oba obp oma))) = log_after E h o (map fst cs) /\
    Forall (fun cx => e_compress E (the_bargs oba) (snd cx) = Ok (fst cx)) cs /\ (zlen b = 0 -> h_nchunks h = 1).
Proof.
  intros H. apply pack_bytes_inv in H as (n & c & l & h & o & cs & Ec & P & Hf & HL); auto.
  pose proof (zlen_nonneg b) as Hb. pose proof (calculate_partition _ _ _ _ _ Hb Ec) as CP.
  pose proof (packed_header E _ _ _ _ _ _ _ _ _ _ _ P) as (Hok & Hv & Ho & Hmd & Hck & Hts & Hcs & Hl & Hnc).
  destruct (packed_wf E HE b n c l m oba obp oma h o cs) as [W V]; try lia; auto.
  pose proof (packed_content E b n c l m oba obp oma h o cs ltac:(lia) ltac:(lia) ltac:(lia) P) as PC.
  destruct CP as (P1 & P2 & P3 & P4 & P5 & P6 & P7 & P8).
  exists h, o, (combine cs (takes (chunk_sizes n c l) b)).
  assert (SN : map snd (combine cs (takes (chunk_sizes n c l) b)) = takes (chunk_sizes n c l) b).
  { destruct P. apply combine_snd. symmetry. eapply F2_length; eauto. }
  assert (FN : map fst (combine cs (takes (chunk_sizes n c l) b)) = cs).
  { destruct P. apply combine_fst. symmetry. eapply F2_length; eauto. }
  rewrite FN. split; [|split; [auto|split; [auto|split; [|intros B0; destruct (P8 B0); lia]]]].
  2:{ destruct P as [_ _ _ PK _]. clear -PK. induction PK; cbn [combine]; constructor; auto. }
  constructor.
  - rewrite Hf. exact W.
  - unfold bytes in *. rewrite <- (map_map snd zlen). rewrite SN, Hnc, Hcs, Hl. apply takes_sizes; [apply chunk_sizes_nonneg; lia|].
    rewrite zsum_chunk_sizes by lia. lia.
  - lia.
  - rewrite Hl. intros. apply P7. lia.
  - rewrite Hcs. intros. apply P8. lia.
  - rewrite PC. apply ztake_all. lia.
  - exact V.
  - intros HS X. apply norm_none in X. subst m. rewrite <- (wf_flag _ _ _ _ _ _ W), Hmd in HS. discriminate.
Qed.
Lemma pack_arch_log b csa m oba obp oma f : pack_bytes_to_bytes E b csa m oba obp oma = Ok f ->
  exists h o cs, arch E f h o cs [] b (norm m) /\ f = file_of E h o (map fst cs) /\
    flog (s_fp (fst (pack_bytes_core E b csa m oba obp oma))) = log_after E h o (map fst cs).
Proof. intros H. destruct (pack_arch_full _ _ _ _ _ _ _ H) as (h & o & cs & A & B & C & _). eauto 10. Qed.
Lemma pack_arch b csa m oba obp oma f : pack_bytes_to_bytes E b csa m oba obp oma = Ok f ->
  exists h o cs, arch E f h o cs [] b (norm m).
Proof. intros H. destruct (pack_arch_log _ _ _ _ _ _ _ H) as (h & o & cs & A & _). eauto. Qed.

Lemma set_sect f h s s' cs tail b m m' : arch E f h (Some s) cs tail b m -> msect_ok E s' ->
  zlen (msect_bytes E s') = zlen (msect_bytes E s) -> ms_val s' = m' -> m' <> PNone ->
  let f' := header_bytes h ++ msect_bytes E s' ++ table E h (Some s) cs ++ body E (h_checksum h) cs ++ tail in
  arch E f' h (Some s') cs tail b m'.
Proof.
  intros A SO ZL MV MN f'. destruct A as [W SZ C L EM CT M NU]. destruct W as [W1 W2 W3 W4 W5 W6 W7 W8 W9].
  assert (BP : body_pos E h (Some s') = body_pos E h (Some s)) by (unfold body_pos; cbn [osect_bytes]; rewrite ZL; reflexivity).
  assert (PO : positions E h (Some s') cs = positions E h (Some s) cs) by (unfold positions; rewrite BP; reflexivity).
  constructor; auto.
  constructor; auto.
  - rewrite PO. auto.
  - unfold table. rewrite PO. reflexivity.
Qed.

Lemma recreate_inv s ov a : recreate_metadata (ms_h s) ov = Ok a -> 
  ma_max a = MMInt (mh_max (ms_h s)) /\
  exists c, ma_checksum a = cks_name c /\ cks_size c = cks_size (mh_checksum (ms_h s)).
Proof.
  unfold recreate_metadata. intros H.
  apply rbind_Ok in H as (mg & _ & H). apply rbind_Ok in H as (ck & HC & H). apply rbind_Ok in H as (co & _ & H).
  apply rbind_Ok in H as (lv & _ & H). injection H as <-. cbn [ma_max ma_checksum]. split; [reflexivity|].
  destruct (ov_checksum ov) as [x|].
  - apply rbind_Ok in HC as (c & C1 & C2). destruct (_ =? _) eqn:EQ; [|discriminate]. injection C2 as <-.
    exists c. split; [|lia]. apply check_valid_checksum_inv in C1. exact C1.
  - injection HC as <-. eauto.
Qed.

(** What rewriting metadata does to a file with a section. *)
Lemma rewrite_none f h cs tail b m m' ov : arch E f h None cs tail b m ->
  rewrite_metadata E m' ov (fp_of f) = (adv 32 (fp_of f), Raise NoMetadataFound).
Proof.
  intros A. pose proof (ar_wf _ _ _ _ _ _ _ _ A) as W. unfold rewrite_metadata, seek_to_metadata.
  assert (RH : read_bloscpack_header (fp_of f) = (adv 32 (fp_of f), Ok h)).
  { eapply read_header_ok; [exact (wf_header _ _ _ _ _ _ W)|exact (wf_version _ _ _ _ _ _ W)|].
    rewrite (wf_bytes _ _ _ _ _ _ W). unfold rest. cbn [fp_of fpos fdata]. apply zdrop_0. lia. }
  unfold bind at 1. rewrite (bind_run _ _ _ _ _ RH). rewrite (wf_flag _ _ _ _ _ _ W). reflexivity.
Qed.

Lemma rewrite_some f h s cs tail b m m' ov : arch E f h (Some s) cs tail b m ->
  exists q, rewrite_metadata E m' ov (fp_of f) =
   if pyeq m m' then (mkfp f q [], Raise NoChangeInMetadata)
   else match recreate_metadata (ms_h s) ov with
        | Raise e => (mkfp f q [], Raise e)
        | Ok a => match plan_metadata E m' a with
                  | Raise e => (mkfp f 32 [], Raise e)
                  | Ok (mh, p, _) => (put_at (msect_bytes E (sect_of mh p m')) (mkfp f 32 []), Ok tt)
                  end
        end.
Proof.
  intros A. pose proof (ar_wf _ _ _ _ _ _ _ _ A) as W. unfold rewrite_metadata, seek_to_metadata.
  assert (RH : read_bloscpack_header (fp_of f) = (adv 32 (fp_of f), Ok h)).
  { eapply read_header_ok; [exact (wf_header _ _ _ _ _ _ W)|exact (wf_version _ _ _ _ _ _ W)|].
    rewrite (wf_bytes _ _ _ _ _ _ W). unfold rest. cbn [fp_of fpos fdata]. apply zdrop_0. lia. }
  unfold bind at 1. rewrite (bind_run _ _ _ _ _ RH). rewrite (wf_flag _ _ _ _ _ _ W). cbn [is_some].
  unfold f_tell at 1. unfold rewrite_metadata_fp. 
  assert (T : f_tell (adv 32 (fp_of f)) = (adv 32 (fp_of f), Ok 32)) by reflexivity.
  rewrite (bind_run _ _ _ _ _ T).
  pose proof (wf_sect _ _ _ _ _ _ W) as SO. cbn [osect_ok] in SO.
  assert (R : rest (adv 32 (fp_of f)) = msect_bytes E s ++ (table E h (Some s) cs ++ body E (h_checksum h) cs ++ tail)).
  { rewrite (wf_bytes _ _ _ _ _ _ W) at 1. unfold rest. cbn [adv fp_of fpos fdata osect_bytes]. apply zdrop_app_exact. rewrite zlen_header_bytes. reflexivity. }
  erewrite bind_run; [|eapply (read_metadata_ok E HE s); [exact SO|cbn [adv fp_of fpos]; lia|exact R]].
  exists (fpos (adv (zlen (msect_bytes E s)) (adv 32 (fp_of f)))).
  pose proof (ar_meta _ _ _ _ _ _ _ _ A) as MV. cbn [osect_val] in MV. rewrite MV.
  destruct (pyeq m m'); [reflexivity|].
  destruct (recreate_metadata (ms_h s) ov) as [a|e]; [|rewrite (bind_lift_raise _ _ _ _ eq_refl); reflexivity].
  rewrite (bind_lift _ _ _ _ eq_refl). rewrite (bind_run _ _ _ _ _ (f_seek_at 32 _ ltac:(lia))).
  destruct (plan_metadata E m' a) as [[[mh p] a']|e] eqn:PL.
  - erewrite bind_run; [|apply (write_metadata_run E HE m' a mh p a' _ PL); cbn [at_pos fpos]; lia]. reflexivity.
  - rewrite (bind_run_raise _ _ _ _ _ (write_metadata_raise E m' a e _ PL)). reflexivity.
Qed.

Lemma new_sect_len s ov a m' mh p a' : msect_ok E s -> recreate_metadata (ms_h s) ov = Ok a -> plan_metadata E m' a = Ok (mh, p, a') ->
  msect_ok E (sect_of mh p m') /\ zlen (msect_bytes E (sect_of mh p m')) = zlen (msect_bytes E s).
Proof.
  intros SO RM PL. destruct (plan_inv E HE _ _ _ _ _ PL) as [raw P]. pose proof (sect_of_ok E HE _ _ _ _ _ P) as SO'.
  split; [exact SO'|]. rewrite !(zlen_msect E HE) by auto. cbn [sect_of ms_h].
  apply recreate_inv in RM as (M1 & c & M2 & M3). destruct P as [_ _ _ _ _ _ _ _ _ _ pl_ck pl_max _ _]. rewrite M2 in pl_ck. apply cks_name_inj in pl_ck. subst c.
  unfold effective_max_meta_size in pl_max. rewrite M1 in pl_max. injection pl_max as <-. lia.
Qed.

Lemma rewrite_outcome f h o cs tail b m m' ov : arch E f h o cs tail b m ->
  (exists q e, rewrite_metadata E m' ov (fp_of f) = (mkfp f q [], Raise e)) \/
  (exists s s', o = Some s /\ msect_ok E s' /\ zlen (msect_bytes E s') = zlen (msect_bytes E s) /\ ms_val s' = norm m' /\
     rewrite_metadata E m' ov (fp_of f) = (put_at (msect_bytes E s') (mkfp f 32 []), Ok tt) /\
     write_at f 32 (msect_bytes E s') = header_bytes h ++ msect_bytes E s' ++ table E h o cs ++ body E (h_checksum h) cs ++ tail).
Proof.
  intros A. destruct o as [s|].
  2:{ left. exists 32, NoMetadataFound. rewrite (rewrite_none _ _ _ _ _ _ m' ov A). reflexivity. }
  pose proof (wf_sect _ _ _ _ _ _ (ar_wf _ _ _ _ _ _ _ _ A)) as SO. cbn [osect_ok] in SO.
  destruct (rewrite_some _ _ _ _ _ _ _ m' ov A) as [q ->].
  destruct (pyeq m m'); [left; eauto|].
  destruct (recreate_metadata (ms_h s) ov) as [a|e] eqn:RM; [|left; eauto].
  destruct (plan_metadata E m' a) as [[[mh p] a']|e] eqn:PL; [|left; eauto].
  right. destruct (new_sect_len _ _ _ _ _ _ _ SO RM PL) as [SO' ZL].
  exists s, (sect_of mh p m'). split; [auto|]. split; [auto|]. split; [auto|]. split; [auto|]. split; [auto|].
  rewrite (wf_bytes _ _ _ _ _ _ (ar_wf _ _ _ _ _ _ _ _ A)). cbn [osect_bytes].
  rewrite <- (zlen_header_bytes h). apply write_at_mid. auto.
Qed.

Lemma rest_fp_of x : rest (fp_of x) = x.
Proof. unfold rest. cbn [fp_of fpos fdata]. apply zdrop_0. lia. Qed.

Theorem archive_arch f b m : archive E f b m -> exists h o cs tail, arch E f h o cs tail b m.
Proof.
  induction 1 as [b cs m oba obp oma f H|f b m new oa f' k _ (h & o & cs & tail & A) HS H|f b m new oa f' e _ (h & o & cs & tail & A) HS H
                 |f b m m' ov f' _ (h & o & cs & tail & A) HM H|f b m m' ov f' e _ (h & o & cs & tail & A) H].
  - destruct (pack_arch _ _ _ _ _ _ _ H) as (h & o & cs' & A). eauto.
  - unfold append_bytes in H. change size with (@zlen byte) in *. injection H as H1 H2.
    destruct (append_outcome E HE _ _ _ _ _ _ _ oa new (fp_of new) A (Z.le_refl 0) (rest_fp_of new) HS) as [(nf' & q & e & R & _)|(_ & _ & nf' & k' & l & cs0 & cl & xl & cs1 & _ & _ & _ & _ & _ & _ & _ & R & A')].
    + rewrite R in H2. discriminate.
    + rewrite H1 in R. rewrite <- R in A'. eauto 10.
  - unfold append_bytes in H. change size with (@zlen byte) in *. injection H as H1 H2.
    destruct (append_outcome E HE _ _ _ _ _ _ _ oa new (fp_of new) A (Z.le_refl 0) (rest_fp_of new) HS) as [(nf' & q & e' & R & _)|(_ & _ & nf' & k' & l & cs0 & cl & xl & cs1 & _ & _ & _ & _ & _ & _ & R & _)].
    + rewrite R in H1. cbn in H1. subst f'. eauto.
    + rewrite R in H2. discriminate.
  - unfold rewrite_bytes in H. injection H as H1 H2. destruct (rewrite_outcome _ _ _ _ _ _ _ m' ov A) as [(q & e & R)|(s & s' & -> & SO & ZL & MV & R & WA)].
    + rewrite R in H2. discriminate.
    + rewrite R in H1. cbn [fst put_at fdata fpos] in H1. rewrite WA in H1. subst f'.
      exists h, (Some s'), cs, tail. eapply set_sect; eauto. intros X. apply norm_none in X. auto.
  - unfold rewrite_bytes in H. injection H as H1 H2. destruct (rewrite_outcome _ _ _ _ _ _ _ m' ov A) as [(q & e' & R)|(s & s' & -> & SO & ZL & MV & R & WA)].
    + rewrite R in H1. cbn in H1. subst f'. eauto.
    + rewrite R in H2. discriminate.
Qed.

End WithEnv.
