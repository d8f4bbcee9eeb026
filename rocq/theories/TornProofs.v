(** An interrupted metadata rewrite. *)
From Verif Require Import Base PyVal Checksums Headers Pretty Args FileIO Append Spec Archive Damage Overlap Torn BaseLemmas HeaderProofs IOProofs WfProofs PackProofs SmallProofs BytesProofs MetaProofs AppendProofs ArchiveProofs CrashProofs HistoryProofs DamageProofs OverlapProofs.
From Coq Require Import ZifyBool ZifyNat.
Ltac Zify.zify_post_hook ::= Z.div_mod_to_equations.

Lemma mixture_same f g : mixture f f g -> g = f.
Proof. intros [_ H]. apply nth_error_ext. intros i. destruct (H i); auto. Qed.
Lemma mixture_agree a n f f' g : mixture f f' g -> agree a n f f' -> agree a n f g.
Proof. intros [_ M] H i Hi. destruct (M (Z.to_nat i)) as [X|X]; rewrite X; [reflexivity|]. apply H. exact Hi. Qed.

Lemma uint_le_inj a : forall b, zlen a = zlen b -> uint_le a = uint_le b -> a = b.
Proof.
  intros b L H. rewrite (uint_le_dec a), (uint_le_dec b) in H. rewrite <- (le_enc_dec a), <- (le_enc_dec b), H.
  f_equal. unfold zlen in L. lia.
Qed.

Section WithEnv.
Variable E : Env.
Hypothesis HE : EnvOK E.

Lemma rewrite_outcome_max f h o cs tail b m m' ov : arch E f h o cs tail b m ->
  (exists q e, rewrite_metadata E m' ov (fp_of f) = (mkfp f q [], Raise e)) \/
  (exists s s', o = Some s /\ msect_ok E s' /\ mh_max (ms_h s') = mh_max (ms_h s) /\ cks_size (mh_checksum (ms_h s')) = cks_size (mh_checksum (ms_h s)) /\
     zlen (msect_bytes E s') = zlen (msect_bytes E s) /\
     rewrite_metadata E m' ov (fp_of f) = (put_at (msect_bytes E s') (mkfp f 32 []), Ok tt) /\
     write_at f 32 (msect_bytes E s') = header_bytes h ++ msect_bytes E s' ++ table E h o cs ++ body E (h_checksum h) cs ++ tail).
Proof.
  intros A. destruct o as [s|].
  2:{ left. exists 32, NoMetadataFound. rewrite (rewrite_none E _ _ _ _ _ _ m' ov A). reflexivity. }
  pose proof (wf_sect _ _ _ _ _ _ (ar_wf _ _ _ _ _ _ _ _ A)) as SO. cbn [osect_ok] in SO.
  destruct (rewrite_some E HE _ _ _ _ _ _ _ m' ov A) as [q ->].
  destruct (pyeq m m'); [left; eauto|].
  destruct (recreate_metadata (ms_h s) ov) as [a|e] eqn:RM; [|left; eauto].
  destruct (plan_metadata E m' a) as [[[mh p] a']|e] eqn:PL; [|left; eauto].
  right. destruct (new_sect_len E HE _ _ _ _ _ _ _ SO RM PL) as [SO' ZL].
  exists s, (sect_of mh p m'). split; [auto|]. split; [auto|].
  assert (Q : mh_max mh = mh_max (ms_h s) /\ cks_size (mh_checksum mh) = cks_size (mh_checksum (ms_h s))).
  { destruct (plan_inv E HE _ _ _ _ _ PL) as [raw P].
    apply recreate_inv in RM as (M1 & c & M2 & M3). destruct P as [_ _ _ _ _ _ _ _ _ _ pl_ck pl_max _ _]. rewrite M2 in pl_ck. apply cks_name_inj in pl_ck. subst c.
    unfold effective_max_meta_size in pl_max. rewrite M1 in pl_max. injection pl_max as <-. auto. }
  destruct Q as [Q1 Q2]. cbn [sect_of ms_h]. split; [exact Q1|]. split; [exact Q2|]. split; [auto|]. split; [auto|].
  rewrite (wf_bytes _ _ _ _ _ _ (ar_wf _ _ _ _ _ _ _ _ A)). cbn [osect_bytes].
  rewrite <- (zlen_header_bytes h). apply write_at_mid. auto.
Qed.

Theorem torn_rewrite f b m m' ov f' r g : archive E f b m -> rewrite_bytes E f m' ov = (f', r) -> mixture f f' g ->
  agree 0 32 f g /\ agree (F_table f) (size f - F_table f) f g /\
  F_table g = F_table f /\ F_body g = F_body f /\
  (64 + u32 52 g <= size g ->
   (exists e, unpack_core E g = ([], Raise e)) \/ (exists m'', unpack_core E g = (b, Ok m''))).
Proof.
  intros HA HR MX. destruct (archive_arch E HE _ _ _ HA) as (h & o & cs & tail & A).
  pose proof (ar_wf _ _ _ _ _ _ _ _ A) as W. pose proof (wf_fields E HE _ _ _ _ _ W) as F.
  unfold rewrite_bytes in HR. apply (f_equal fst) in HR as HF. cbn [fst] in HF. clear HR.
  assert (UN : unpack_core E f = (b, Ok m)).
  { pose proof (unpack_wf E HE _ _ _ _ _ W) as U. rewrite (ar_content _ _ _ _ _ _ _ _ A), (ar_meta _ _ _ _ _ _ _ _ A) in U. exact U. }
  destruct (rewrite_outcome_max _ _ _ _ _ _ _ m' ov A) as [(q & e & R)|(s & s' & -> & SO & MM & MC & ZL & R & WA)].
  { rewrite R in HF. cbn in HF. subst f'. apply mixture_same in MX. subst g.
    split; [apply agree_refl|]. split; [apply agree_refl|]. split; [auto|]. split; [auto|]. intros _. right. eauto. }
  rewrite R in HF. cbn [fst put_at fdata fpos] in HF. rewrite WA in HF. subst f'. clear R WA.
  pose proof (wf_sect _ _ _ _ _ _ W) as SO0. cbn [osect_ok] in SO0.
  set (q := table E h (Some s) cs ++ body E (h_checksum h) cs ++ tail) in *.
  assert (FE : f = header_bytes h ++ msect_bytes E s ++ q) by exact (wf_bytes _ _ _ _ _ _ W).
  set (f' := header_bytes h ++ msect_bytes E s' ++ q) in *.
  pose proof (zlen_header_bytes h) as LH.
  assert (FT : F_table f = 32 + zlen (msect_bytes E s)) by exact (fi_table _ _ _ _ F).
  assert (AH : agree 0 32 f f').
  { apply sub_agree; [lia|]. rewrite FE. unfold f'. rewrite !sub_at0 by (change size with (@zlen byte); lia). reflexivity. }
  assert (LF : zlen f = 32 + zlen (msect_bytes E s) + zlen q) by (rewrite FE, !zlen_app; lia).
  assert (AT : agree (F_table f) (size f - F_table f) f f').
  { apply sub_agree; [rewrite FT; pose proof (zlen_nonneg (msect_bytes E s)); lia|]. change size with (@zlen byte).
    rewrite FT. replace (zlen f - (32 + zlen (msect_bytes E s))) with (zlen q) by lia.
    rewrite FE. unfold f'. rewrite !app_assoc.
    rewrite <- (app_nil_r ((header_bytes h ++ msect_bytes E s) ++ q)), <- (app_nil_r ((header_bytes h ++ msect_bytes E s') ++ q)), <- !app_assoc.
    rewrite (app_assoc (header_bytes h) (msect_bytes E s)), (app_assoc (header_bytes h) (msect_bytes E s')).
    rewrite !sub_at; auto; change size with (@zlen byte); rewrite zlen_app; lia. }
  assert (M48 : u32 48 f = u32 48 f' /\ digest_len (u8 41 f) = digest_len (u8 41 f')).
  { destruct (mfields E s (header_bytes h) q SO0 LH) as [X1 X2]. destruct (mfields E s' (header_bytes h) q SO LH) as [Y1 Y2].
    rewrite <- FE in X1, X2. fold f' in Y1, Y2. split; congruence. }
  destruct M48 as [M48 D41].
  assert (LM : 32 <= zlen (msect_bytes E s)).
  { rewrite (zlen_msect E HE) by auto. destruct (mfields E s (header_bytes h) q SO0 LH) as [X1 X2]. rewrite <- X1.
    pose proof (u32_range 48 (header_bytes h ++ msect_bytes E s ++ q)). pose proof (cks_size_nonneg (mh_checksum (ms_h s))). lia. }
  assert (LF' : zlen f' = zlen f) by (unfold f'; rewrite LF, !zlen_app; lia).
  assert (A48 : agree 48 4 f f').
  { apply sub_agree; [lia|]. apply uint_le_inj; [|exact M48]. change (@zlen byte) with size. rewrite !size_sub by lia.
    change size with (@zlen byte). lia. }
  pose proof (mixture_agree _ _ _ _ _ MX AH) as GH. pose proof (mixture_agree _ _ _ _ _ MX AT) as GT. pose proof (mixture_agree _ _ _ _ _ MX A48) as G48.
  destruct MX as [SG MX]. change size with (@zlen byte) in *.
  assert (G41 : digest_len (u8 41 g) = digest_len (u8 41 f)).
  { unfold u8. destruct (MX 41%nat) as [X|X].
    - rewrite (sub_ext 41 1 g f); [reflexivity|lia|]. intros i Hi. replace i with 41 by lia. exact X.
    - rewrite (sub_ext 41 1 g f'); [symmetry; exact D41|lia|]. intros i Hi. replace i with 41 by lia. exact X. }
  assert (GF : forall p n, 0 <= p -> p + n <= 32 -> sub p n g = sub p n f).
  { intros p n Hp Hn. symmetry. eapply agree_sub; [exact GH|lia|lia|lia]. }
  assert (HM : has_meta g = has_meta f) by (unfold has_meta, u8; rewrite GF by lia; reflexivity).
  assert (HO : has_offsets g = has_offsets f) by (unfold has_offsets, u8; rewrite GF by lia; reflexivity).
  assert (HN : F_n g = F_n f) by (unfold F_n, i64; rewrite GF by lia; reflexivity).
  assert (HX : F_max g = F_max f) by (unfold F_max, i64; rewrite GF by lia; reflexivity).
  assert (TG : F_table g = F_table f).
  { unfold F_table. rewrite HM, G41. replace (u32 48 g) with (u32 48 f); [reflexivity|]. unfold u32. f_equal. eapply agree_sub; [exact G48|lia|lia|lia]. }
  assert (BG : F_body g = F_body f) by (unfold F_body; rewrite TG, HO, HN, HX; reflexivity).
  split; [exact GH|]. split; [exact GT|]. split; [exact TG|]. split; [exact BG|].
  intros FIT. rewrite unpack_core_pure. destruct (read_beginning E (fp_of g)) as [gf [bg|e]] eqn:RB; [|left; eauto].
  right. destruct (read_beginning_any E HE _ _ _ RB) as (HOK & A1 & _ & A3 & _ & _ & _ & _ & _ & RS).
  change size with (@zlen byte) in RS. rewrite (RS (or_intror FIT)).
  assert (N : h_nchunks (b_header bg) = zlen cs) by (rewrite <- A1, HN, (fi_n _ _ _ _ F); apply (wf_n _ _ _ _ _ _ W)).
  assert (CK : h_checksum (b_header bg) = h_checksum h).
  { apply cks_name_inj. apply (f_equal (@Some string)) in A3 || idtac.
    destruct (hfields h (msect_bytes E s ++ q) (wf_header _ _ _ _ _ _ W)) as (_ & _ & B3 & _). rewrite <- FE in B3.
    unfold u8 in A3. rewrite GF in A3 by lia. unfold u8 in B3. rewrite B3 in A3. congruence. }
  assert (ZD : zdrop (F_body g) g = body E (h_checksum h) cs ++ tail).
  { rewrite BG. pose proof (fi_body _ _ _ _ F) as FB. unfold body_pos in FB. cbn [osect_bytes] in FB.
    pose proof (zlen_table E _ _ _ _ _ W) as ZT.
    assert (ZF : zdrop (F_body f) f = body E (h_checksum h) cs ++ tail).
    { rewrite FB, FE at 1. unfold q. rewrite (app_assoc (header_bytes h)), (app_assoc (header_bytes h ++ _)).
      apply zdrop_app_exact. rewrite !zlen_app. lia. }
    rewrite <- ZF. assert (0 <= F_body f) by (rewrite FB; pose proof (zlen_nonneg (table E h (Some s) cs)); lia).
    assert (F_body f <= zlen f).
    { rewrite FB, LF. unfold q. rewrite !zlen_app. pose proof (zlen_nonneg (body E (h_checksum h) cs)). pose proof (zlen_nonneg tail). lia. }
    assert (SB : forall x : bytes, zlen x = zlen f -> zdrop (F_body f) x = sub (F_body f) (zlen f - F_body f) x).
    { intros x Hx. rewrite <- ztake_zdrop_sub. symmetry. apply ztake_all. rewrite zlen_zdrop. lia. }
    rewrite !SB by auto. symmetry. eapply agree_sub; [exact GT|lia| |lia].
    rewrite FT, FB. pose proof (zlen_nonneg (table E h (Some s) cs)). lia. }
  rewrite N, CK, ZD. pose proof (uloop_ok E HE (h_checksum h) cs tail (wf_chunks _ _ _ _ _ _ W) 0) as U.
  rewrite Nat.add_0_r in U. unfold zlen at 1. rewrite Nat2Z.id. rewrite U. cbn [uloop fst snd]. rewrite app_nil_r.
  rewrite (ar_content _ _ _ _ _ _ _ _ A). cbn [rbind]. eauto.
Qed.

(** *** A sufficient condition on the two files *)
Lemma uint_mixture c : forall a b, (forall i, nth_error c i = nth_error a i \/ nth_error c i = nth_error b i) -> uint_le c <= uint_le a + uint_le b.
Proof.
  induction c as [|x c IH]; intros a b H.
  - pose proof (uint_le_range a). pose proof (uint_le_range b). cbn [uint_le fold_right]. lia.
  - assert (P : forall y : byte, 0 <= Z.of_N (Byte.to_N y)) by (intros; lia).
    assert (T : uint_le c <= uint_le (tl a) + uint_le (tl b)).
    { apply IH. intros i. specialize (H (S i)). cbn [nth_error] in H. destruct a, b; cbn [tl nth_error] in *; destruct i; exact H. }
    unfold uint_le in *. cbn [fold_right].
    assert (D : forall l, fold_right (fun y acc => Z.of_N (Byte.to_N y) + 256 * acc) 0 l =
      match l with [] => 0 | y :: _ => Z.of_N (Byte.to_N y) end + 256 * fold_right (fun y acc => Z.of_N (Byte.to_N y) + 256 * acc) 0 (tl l)) by (intros [|y l]; reflexivity).
    rewrite (D a), (D b). pose proof (H O) as H0. cbn [nth_error] in H0.
    destruct a as [|y a], b as [|z b]; destruct H0 as [H0|H0]; try discriminate H0; injection H0 as <-; cbn [tl] in *; specialize (P) as P'; try pose proof (P x); try pose proof (P z); try pose proof (P y); lia.
Qed.
Lemma mixture_u32 p f f' g : 0 <= p -> mixture f f' g -> u32 p g <= u32 p f + u32 p f'.
Proof.
  intros Hp [_ M]. apply uint_mixture. intros i. destruct (Z_lt_dec (Z.of_nat i) 4) as [L|L].
  - assert (N : forall l : bytes, nth_error (sub p 4 l) i = nth_error l (Z.to_nat (p + Z.of_nat i))).
    { intros l. rewrite <- (nth_sub p 4 l (p + Z.of_nat i)) by lia. f_equal. lia. }
    rewrite !N. apply M.
  - assert (N : forall l : bytes, nth_error (sub p 4 l) i = None).
    { intros l. apply nth_error_None. unfold sub. rewrite firstn_length. lia. }
    rewrite !N. auto.
Qed.
Theorem torn_rewrite_room f b m m' ov f' r g : archive E f b m -> rewrite_bytes E f m' ov = (f', r) -> mixture f f' g ->
  64 + u32 52 f + u32 52 f' <= size f ->
  (exists e, unpack_core E g = ([], Raise e)) \/ (exists m'', unpack_core E g = (b, Ok m'')).
Proof.
  intros HA HR MX L. destruct (torn_rewrite _ _ _ _ _ _ _ _ HA HR MX) as (_ & _ & _ & _ & H). apply H.
  pose proof (mixture_u32 52 f f' g ltac:(lia) MX). destruct MX as [-> _]. lia.
Qed.
(** A crash leaves a mixture. *)
Theorem crash_mixture f b m m' ov j : archive E f b m -> let g := crash j (rewrite_log E f m' ov) f in
  mixture f (fst (rewrite_bytes E f m' ov)) g /\
  ((List.length (rewrite_log E f m' ov) <= j)%nat -> g = fst (rewrite_bytes E f m' ov)).
Proof.
  intros HA. destruct (archive_arch E HE _ _ _ HA) as (h & o & cs & tail & A).
  unfold rewrite_log, rewrite_bytes, crash. cbn [fst].
  destruct (rewrite_outcome_max _ _ _ _ _ _ _ m' ov A) as [(q & e & R)|(s & s' & -> & SO & _ & _ & ZL & R & WA)].
  { rewrite R. cbn [fst flog fdata]. rewrite firstn_nil. cbn [fold_left]. split; [split; auto|auto]. }
  rewrite R. cbn [fst put_at flog fdata fpos app]. rewrite firstn_log_of, length_log_of, poke_log by lia.
  split; [|intros Hj; rewrite firstn_all2 by lia; reflexivity].
  pose proof (wf_bytes _ _ _ _ _ _ (ar_wf _ _ _ _ _ _ _ _ A)) as FE. cbn [osect_bytes] in FE.
  set (q := table E h (Some s) cs ++ _) in *. pose proof (zlen_header_bytes h) as LH.
  set (X := msect_bytes E s') in *. set (Y := msect_bytes E s) in *.
  assert (G : write_at f 32 (firstn j X) = header_bytes h ++ (firstn j X ++ skipn j Y) ++ q).
  { assert (YS : exists y, Y = y ++ skipn j Y /\ zlen y = zlen (firstn j X)).
    { exists (firstn j Y). rewrite firstn_skipn. split; [auto|]. unfold zlen in *. rewrite !firstn_length. lia. }
    destruct YS as (y & YS & LY). rewrite FE, YS at 1. rewrite <- !app_assoc. rewrite <- LH. apply write_at_mid. auto. }
  rewrite G, WA. split.
  - change size with (@zlen byte). rewrite FE, !zlen_app. unfold zlen in *. rewrite firstn_length, skipn_length. lia.
  - intros i. rewrite FE.
    destruct (Nat.lt_ge_cases i (List.length (header_bytes h))) as [L|L].
    { left. rewrite !nth_error_app1 by auto. reflexivity. }
    rewrite !(nth_error_app2 (header_bytes h)) by auto. set (k := (i - _)%nat). clearbody k. clear L.
    assert (LL : List.length (firstn j X ++ skipn j Y) = List.length Y) by (rewrite app_length, firstn_length, skipn_length; unfold zlen in ZL; lia).
    destruct (Nat.lt_ge_cases k (List.length Y)) as [L|L].
    + rewrite !(nth_error_app1 _ q) by (unfold zlen in ZL; lia).
      destruct (Nat.lt_ge_cases k j) as [L2|L2].
      * right. rewrite nth_error_app1 by (rewrite firstn_length; unfold zlen in ZL; lia). apply nth_firstn_lt. auto.
      * left. destruct (Nat.le_gt_cases j (List.length X)) as [L3|L3]; [|unfold zlen in ZL; lia].
        rewrite nth_error_app2 by (rewrite firstn_length; lia). rewrite firstn_length, nth_skipn. f_equal. lia.
    + left. rewrite !(nth_error_app2 _ q) by lia. f_equal. lia.
Qed.

(** *** Overrides that name nothing, and the fields of the new section. *)
Theorem rewrite_refuses f b m m' ov : archive E f b m -> has_meta f = true -> pyeq m m' = false ->
  ~ overrides_ok ov ->
  exists e, rewrite_bytes E f m' ov = (f, Raise e) /\
  (if match ov_magic ov with Some x => negb (bytes_eqb x (b_of_string "JSON")) | None => false end then e = NoSuchSerializer
   else if match ov_checksum ov with Some x => negb (existsb (String.eqb x) checksum_names) | None => false end then e = NoSuchChecksum
   else if negb (digest_len_of (ma_checksum (rewrite_args f ov)) =? digest_len (u8 41 f)) then e = ChecksumLengthMismatch
   else if match ov_codec ov with Some x => negb (existsb (String.eqb x) codec_names) | None => false end then e = NoSuchCodec
   else e = ValueError).
Proof.
  intros HA HM PE NO. destruct (archive_arch E HE _ _ _ HA) as (h & o & cs & tail & A).
  pose proof (ar_wf _ _ _ _ _ _ _ _ A) as W. pose proof (wf_fields E HE _ _ _ _ _ W) as F.
  rewrite (fi_meta _ _ _ _ F), (wf_flag _ _ _ _ _ _ W) in HM. destruct o as [s|]; [clear HM|discriminate].
  pose proof (wf_sect _ _ _ _ _ _ W) as SO. cbn [osect_ok] in SO.
  pose proof (wf_bytes _ _ _ _ _ _ W) as FE. cbn [osect_bytes] in FE.
  destruct (mfields2 E s (header_bytes h) (table E h (Some s) cs ++ body E (h_checksum h) cs ++ tail) SO (zlen_header_bytes h)) as (M1 & M2 & M3 & M4).
  destruct (mfields E s (header_bytes h) (table E h (Some s) cs ++ body E (h_checksum h) cs ++ tail) SO (zlen_header_bytes h)) as (_ & M5).
  rewrite <- FE in M1, M2, M3, M4, M5.
  unfold rewrite_bytes. destruct (rewrite_some E HE _ _ _ _ _ _ _ m' ov A) as [q ->]. rewrite PE.
  assert (X : exists e, recreate_metadata (ms_h s) ov = Raise e /\
    (if match ov_magic ov with Some x => negb (bytes_eqb x (b_of_string "JSON")) | None => false end then e = NoSuchSerializer
     else if match ov_checksum ov with Some x => negb (existsb (String.eqb x) checksum_names) | None => false end then e = NoSuchChecksum
     else if negb (digest_len_of (ma_checksum (rewrite_args f ov)) =? digest_len (u8 41 f)) then e = ChecksumLengthMismatch
     else if match ov_codec ov with Some x => negb (existsb (String.eqb x) codec_names) | None => false end then e = NoSuchCodec
     else e = ValueError)).
  2:{ destruct X as (e & -> & X). exists e. auto. }
  rewrite M5. unfold recreate_metadata.
  destruct (match ov_magic ov with Some x => negb (bytes_eqb x (b_of_string "JSON")) | None => false end) eqn:B1.
  { destruct (ov_magic ov) as [x|]; [|discriminate]. unfold check_valid_serializer. apply negb_true_iff in B1. rewrite B1. cbn [rbind]. eauto. }
  assert (R1 : exists mg, match ov_magic ov with None => Ok (mh_magic (ms_h s)) | Some m0 => _ <~ check_valid_serializer m0;; Ok m0 end = Ok mg).
  { destruct (ov_magic ov) as [x|]; [|eauto]. unfold check_valid_serializer. apply negb_false_iff in B1. rewrite B1. cbn [rbind]. eauto. }
  destruct R1 as [mg ->]. cbn [rbind].
  destruct (match ov_checksum ov with Some x => negb (existsb (String.eqb x) checksum_names) | None => false end) eqn:B2.
  { destruct (ov_checksum ov) as [x|]; [|discriminate]. apply negb_true_iff in B2.
    destruct (check_valid_checksum x) as [c|e] eqn:CV.
    - apply check_valid_checksum_inv in CV. subst x. destruct c; discriminate.
    - assert (e = NoSuchChecksum) as -> by (revert CV; unfold check_valid_checksum; destruct (find _ _); congruence).
      cbn [rbind]. eauto. }
  assert (R2 : exists c, ma_checksum (rewrite_args f ov) = cks_name c /\
    match ov_checksum ov with
    | None => Ok (cks_name (mh_checksum (ms_h s)))
    | Some x => c <~ check_valid_checksum x;; (if cks_size (mh_checksum (ms_h s)) =? cks_size c then Ok x else Raise ChecksumLengthMismatch)
    end = if cks_size (mh_checksum (ms_h s)) =? cks_size c then Ok (cks_name c) else Raise ChecksumLengthMismatch).
  { unfold rewrite_args; cbn [ma_checksum]. destruct (ov_checksum ov) as [x|].
    - apply negb_false_iff in B2. apply existsb_exists in B2 as (y & IN & EQ). apply String.eqb_eq in EQ. subst y.
      apply In_checksum_names in IN as [c ->]. exists c. split; [reflexivity|]. rewrite check_valid_name. reflexivity.
    - exists (mh_checksum (ms_h s)). rewrite M1. split; [reflexivity|]. rewrite Z.eqb_refl. reflexivity. }
  destruct R2 as (c & CN & ->). rewrite CN, digest_len_name.
  rewrite (Z.eqb_sym (cks_size c)).
  destruct (cks_size (mh_checksum (ms_h s)) =? cks_size c) eqn:B3; cbn [negb rbind]; [|eauto].
  destruct (match ov_codec ov with Some x => negb (existsb (String.eqb x) codec_names) | None => false end) eqn:B4.
  { destruct (ov_codec ov) as [x|]; [|discriminate]. apply negb_true_iff in B4.
    destruct (check_valid_codec x) as [k|e] eqn:CV.
    - apply check_valid_codec_inv in CV. subst x. destruct k; discriminate.
    - assert (e = NoSuchCodec) as -> by (revert CV; unfold check_valid_codec; destruct (find _ _); congruence).
      cbn [rbind]. eauto. }
  assert (R4 : exists k, match ov_codec ov with None => Ok (codec_name (mh_codec (ms_h s))) | Some x => _ <~ check_valid_codec x;; Ok x end = Ok (codec_name k)).
  { destruct (ov_codec ov) as [x|]; [|eauto]. apply negb_false_iff in B4. apply existsb_exists in B4 as (y & IN & EQ). apply String.eqb_eq in EQ. subst y.
    apply In_codec_names in IN as [k ->]. exists k. rewrite check_valid_codec_name. reflexivity. }
  destruct R4 as [k ->]. cbn [rbind].
  destruct (ov_level ov) as [l|] eqn:OL.
  - destruct (Z.le_gt_cases 0 l) as [L1|L1]; [destruct (Z.le_gt_cases l 9) as [L2|L2]|].
    + exfalso. apply NO. split; [|split; [|split]].
      * intros x HX. rewrite HX in B1. apply negb_false_iff in B1. apply bytes_eqb_eq. exact B1.
      * intros x HX. rewrite HX in B2. apply negb_false_iff in B2. apply existsb_exists in B2 as (y & IN & EQ). apply String.eqb_eq in EQ. subst y. exact IN.
      * intros x HX. rewrite HX in B4. apply negb_false_iff in B4. apply existsb_exists in B4 as (y & IN & EQ). apply String.eqb_eq in EQ. subst y. exact IN.
      * intros x HX. rewrite OL in HX. injection HX as <-. lia.
    + rewrite check_range_out by (unfold MAX_CLEVEL; lia). cbn [rbind]. eauto.
    + rewrite check_range_out by (unfold MAX_CLEVEL; lia). cbn [rbind]. eauto.
  - exfalso. apply NO. split; [|split; [|split]].
    + intros x HX. rewrite HX in B1. apply negb_false_iff in B1. apply bytes_eqb_eq. exact B1.
    + intros x HX. rewrite HX in B2. apply negb_false_iff in B2. apply existsb_exists in B2 as (y & IN & EQ). apply String.eqb_eq in EQ. subst y. exact IN.
    + intros x HX. rewrite HX in B4. apply negb_false_iff in B4. apply existsb_exists in B4 as (y & IN & EQ). apply String.eqb_eq in EQ. subst y. exact IN.
    + intros x HX. congruence.
Qed.

Theorem rewrite_fields f b m m' ov f' : archive E f b m -> rewrite_bytes E f m' ov = (f', Ok tt) ->
  nth (Z.to_nat (u8 41 f')) checksum_names ""%string = ma_checksum (rewrite_args f ov) /\
  (let co := nth (Z.to_nat (u8 42 f')) codec_names ""%string in co = ma_codec (rewrite_args f ov) \/ co = "None"%string) /\
  u8 43 f' = match ov_level ov with Some l => l | None => u8 43 f end /\
  u32 48 f' = u32 48 f.
Proof.
  intros HA HR. destruct (archive_arch E HE _ _ _ HA) as (h & o & cs & tail & A).
  unfold rewrite_bytes in HR. apply (f_equal fst) in HR as HF. apply (f_equal snd) in HR as HS. cbn [fst snd] in HF, HS. clear HR.
  destruct o as [s|]; [|rewrite (rewrite_none E _ _ _ _ _ _ m' ov A) in HS; discriminate].
  pose proof (ar_wf _ _ _ _ _ _ _ _ A) as W. pose proof (wf_sect _ _ _ _ _ _ W) as SO. cbn [osect_ok] in SO.
  pose proof (wf_bytes _ _ _ _ _ _ W) as FE. cbn [osect_bytes] in FE.
  destruct (rewrite_some E HE _ _ _ _ _ _ _ m' ov A) as [q R]. rewrite R in HF, HS. clear R.
  destruct (pyeq m m'); [discriminate|].
  destruct (recreate_metadata (ms_h s) ov) as [a|e] eqn:RM; [|discriminate].
  destruct (plan_metadata E m' a) as [[[mh p] a']|e] eqn:PL; [|discriminate]. clear HS.
  destruct (new_sect_len E HE _ _ _ _ _ _ _ SO RM PL) as [SO' ZL].
  cbn [fst put_at fdata fpos] in HF. rewrite FE, <- (zlen_header_bytes h), write_at_mid in HF by auto.
  set (r := table E h (Some s) cs ++ body E (h_checksum h) cs ++ tail) in *.
  destruct (mfields2 E s (header_bytes h) r SO (zlen_header_bytes h)) as (M1 & M2 & M3 & M4).
  destruct (mfields2 E (sect_of mh p m') (header_bytes h) r SO' (zlen_header_bytes h)) as (N1 & N2 & N3 & N4).
  rewrite HF in N1, N2, N3, N4. rewrite <- FE in M1, M2, M3, M4. cbn [sect_of ms_h] in N1, N2, N3, N4.
  rewrite N1, N2, N3, N4, M4. destruct (plan_inv E HE _ _ _ _ _ PL) as [raw P].
  pose proof (pl_ck _ _ _ _ _ _ P) as P1. pose proof (pl_max _ _ _ _ _ _ P) as P2. pose proof (pl_level _ _ _ _ _ _ P) as P3. pose proof (pl_codec _ _ _ _ _ _ P) as P4.
  unfold recreate_metadata in RM.
  apply rbind_Ok in RM as (mg & _ & RM). apply rbind_Ok in RM as (ck & HC & RM). apply rbind_Ok in RM as (co & HO & RM).
  apply rbind_Ok in RM as (lv & HL & RM). injection RM as <-. cbn [ma_checksum ma_codec ma_level ma_max effective_max_meta_size] in P1, P2, P3, P4.
  injection P2 as P2. rewrite <- P1, P3. unfold rewrite_args. cbn [ma_checksum ma_codec]. rewrite M1, M2, M3.
  split; [|split; [|split]].
  - destruct (ov_checksum ov) as [x|]; [|congruence]. apply rbind_Ok in HC as (c & _ & HC). destruct (_ =? _); congruence.
  - assert (CE : co = match ov_codec ov with Some x => x | None => codec_name (mh_codec (ms_h s)) end).
    { destruct (ov_codec ov) as [x|]; [|congruence]. apply rbind_Ok in HO as (c & _ & HO). congruence. }
    cbv zeta. destruct P4 as [P4|[P4 _]]; [left; congruence|right; rewrite P4; reflexivity].
  - destruct (ov_level ov) as [x|]; [|congruence]. apply rbind_Ok in HL as (c & _ & HL). congruence.
  - congruence.
Qed.
Theorem rewrite_default_level f b m m' f' : archive E f b m -> rewrite_bytes E f m' default_overrides = (f', Ok tt) ->
  u8 43 f' = 6 /\ (let co := nth (Z.to_nat (u8 42 f')) codec_names ""%string in co = "zlib"%string \/ co = "None"%string).
Proof. intros HA HR. destruct (rewrite_fields f b m m' default_overrides f' HA HR) as (_ & A & B & _). exact (conj B A). Qed.
End WithEnv.
