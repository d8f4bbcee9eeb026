(** How much room a file takes: bounds on its size through packs, appends and
    metadata rewrites. *)
From Verif Require Import Base PyVal Checksums Headers Pretty Args FileIO Append Spec Archive Damage Overlap Unprotected Repack BaseLemmas HeaderProofs IOProofs WfProofs PackProofs SmallProofs BytesProofs MetaProofs AppendProofs ArchiveProofs CrashProofs HistoryProofs DamageProofs OverlapProofs UnprotectedProofs RepackProofs.
From Coq Require Import ZifyBool ZifyNat.
Ltac Zify.zify_post_hook ::= Z.div_mod_to_equations.

Section WithEnv.
Variable E : Env.
Hypothesis HE : EnvOK E.

Definition from_blosc (cx : bytes * bytes) : Prop := exists a, e_compress E a (snd cx) = Ok (fst cx).

Lemma made_from a l : Forall (fun cx => e_compress E a (snd cx) = Ok (fst cx)) l -> Forall from_blosc l.
Proof. intros H. eapply Forall_impl; [|exact H]. intros x Hx. exists a. exact Hx. Qed.

Lemma archive_made f b m : archive E f b m -> exists h o cs tail, arch E f h o cs tail b m /\ Forall from_blosc cs.
Proof.
  induction 1 as [b cs m oba obp oma f H|f b m new oa f' k _ (h & o & cs & tail & A & HF) HS H
                 |f b m new oa f' e _ (h & o & cs & tail & A & HF) HS H
                 |f b m m' ov f' _ (h & o & cs & tail & A & HF) HM H|f b m m' ov f' e _ (h & o & cs & tail & A & HF) H].
  - destruct (pack_arch_full E HE _ _ _ _ _ _ _ H) as (h & o & cs' & A & _ & _ & HF & _). exists h, o, cs', []. split; [exact A|]. eapply made_from; eauto.
  - unfold append_bytes in H. change size with (@zlen byte) in *. injection H as H1 H2.
    destruct (append_outcome_full E HE _ _ _ _ _ _ _ oa new (fp_of new) A (Z.le_refl 0) (rest_fp_of new) ltac:(unfold sizable in HS; change size with (@zlen byte) in HS; lia))
      as [(nf' & q & e & R & _)|(_ & _ & nf' & k' & l & cs0 & cl & xl & cs1 & EQ & K1 & K2 & K3 & K4 & K5 & _ & R & A' & CO)].
    + rewrite R in H2. discriminate.
    + rewrite H1 in R. rewrite <- R in A'. do 4 eexists. split; [exact A'|].
      apply Forall_app. split; [|exact (made_from _ _ CO)]. rewrite EQ in HF. apply Forall_app in HF. tauto.
  - unfold append_bytes in H. change size with (@zlen byte) in *. injection H as H1 H2.
    destruct (append_outcome E HE _ _ _ _ _ _ _ oa new (fp_of new) A (Z.le_refl 0) (rest_fp_of new) HS) as [(nf' & q & e' & R & _)|(_ & _ & nf' & k' & l & cs0 & cl & xl & cs1 & _ & _ & _ & _ & _ & _ & R & _)].
    + rewrite R in H1. cbn in H1. subst f'. eauto 8.
    + rewrite R in H2. discriminate.
  - unfold rewrite_bytes in H. injection H as H1 H2. destruct (rewrite_outcome E HE _ _ _ _ _ _ _ m' ov A) as [(q & e & R)|(s & s' & -> & SO & ZL & MV & R & WA)].
    + rewrite R in H2. discriminate.
    + rewrite R in H1. cbn [fst put_at fdata fpos] in H1. rewrite WA in H1. subst f'.
      exists h, (Some s'), cs, tail. split; [|auto]. eapply set_sect; eauto. intros X. apply norm_none in X. auto.
  - unfold rewrite_bytes in H. injection H as H1 H2. destruct (rewrite_outcome E HE _ _ _ _ _ _ _ m' ov A) as [(q & e' & R)|(s & s' & -> & SO & ZL & MV & R & WA)].
    + rewrite R in H1. cbn in H1. subst f'. eauto 8.
    + rewrite R in H2. discriminate.
Qed.

Lemma body_bounds ck cs : Forall from_blosc cs ->
  zlen cs * (16 + cks_size ck) <= zlen (body E ck cs) <= zlen (content cs) + zlen cs * (16 + cks_size ck).
Proof.
  induction 1 as [|[c x] cs (a & M) _ IH]; [cbn; lia|].
  change ((c, x) :: cs) with ([(c, x)] ++ cs). rewrite body_app, body_one, !zlen_app. unfold content in *. rewrite map_app, concat_app, zlen_app.
  cbn [map concat snd fst]. rewrite app_nil_r, (zlen_stored E HE). cbn [fst snd] in M.
  pose proof (ok_compress_size E HE _ _ _ M) as (S1 & _). change size with (@zlen byte) in S1. change (zlen [(c, x)]) with 1. lia.
Qed.

Lemma arch_size f h o cs tail : wf E f h o cs tail -> zlen f = chunks_end f + F_digest f + zlen tail.
Proof.
  intros W. rewrite (chunks_end_wf E HE _ _ _ _ _ W), (fi_digest _ _ _ _ (wf_fields E HE _ _ _ _ _ W)).
  rewrite (wf_bytes _ _ _ _ _ _ W) at 1. rewrite !zlen_app, zlen_header_bytes, (zlen_table E _ _ _ _ _ W). unfold body_pos. lia.
Qed.

Theorem space_bounds f b m : archive E f b m ->
  F_body f + F_n f * (16 + F_digest f) <= chunks_end f + F_digest f <= F_body f + size b + F_n f * (16 + F_digest f) /\
  chunks_end f + F_digest f <= size f.
Proof.
  intros HA. destruct (archive_made _ _ _ HA) as (h & o & cs & tail & A & HF).
  pose proof (ar_wf _ _ _ _ _ _ _ _ A) as W. pose proof (wf_fields E HE _ _ _ _ _ W) as F.
  pose proof (arch_size _ _ _ _ _ W) as S. pose proof (body_bounds (h_checksum h) cs HF) as B.
  rewrite (ar_content _ _ _ _ _ _ _ _ A) in B. change size with (@zlen byte). pose proof (zlen_nonneg tail). split; [|lia].
  rewrite (chunks_end_wf E HE _ _ _ _ _ W), (fi_digest _ _ _ _ F), (fi_body _ _ _ _ F), (fi_n _ _ _ _ F), (wf_n _ _ _ _ _ _ W). lia.
Qed.

Theorem pack_space b cs m oba obp oma f : pack_bytes_to_bytes E b cs m oba obp oma = Ok f -> size f = chunks_end f + F_digest f.
Proof.
  intros H. destruct (pack_arch_full E HE _ _ _ _ _ _ _ H) as (h & o & cs' & A & _).
  pose proof (arch_size _ _ _ _ _ (ar_wf _ _ _ _ _ _ _ _ A)) as S. change (zlen (@nil byte)) with 0 in S. change size with (@zlen byte). lia.
Qed.

Theorem append_space f b m new oa f' k : archive E f b m -> sizable f new -> append_bytes E f new oa = (f', Ok k) ->
  size f' = Z.max (size f) (chunks_end f' + F_digest f').
Proof.
  intros HA HS H. destruct (archive_arch E HE _ _ _ HA) as (h & o & cs & tail & A).
  pose proof (ar_wf _ _ _ _ _ _ _ _ A) as W.
  unfold append_bytes in H. change size with (@zlen byte) in *. injection H as H1 H2.
  destruct (append_outcome E HE _ _ _ _ _ _ _ oa new (fp_of new) A (Z.le_refl 0) (rest_fp_of new) HS)
    as [(nf' & q & e & R & _)|(_ & _ & nf' & k' & l & cs0 & cl & xl & cs1 & EQ & K1 & K2 & K3 & K4 & K5 & _ & R & A')].
  { rewrite R in H2. discriminate. }
  rewrite H1 in R. rewrite <- R in A'. pose proof (ar_wf _ _ _ _ _ _ _ _ A') as W'.
  pose proof (arch_size _ _ _ _ _ W') as S'. rewrite zlen_zdrop in S'. pose proof (arch_size _ _ _ _ _ W) as S.
  pose proof (chunks_end_wf E HE _ _ _ _ _ W') as C'. pose proof (chunks_end_wf E HE _ _ _ _ _ W) as C.
  pose proof (wf_fields E HE _ _ _ _ _ W) as F. pose proof (wf_fields E HE _ _ _ _ _ W') as F'.
  rewrite (fi_digest _ _ _ _ F') in *. rewrite (fi_digest _ _ _ _ F) in *.
  rewrite body_pos_counts in C'. cbn [set_counts h_checksum] in *. rewrite EQ in C. rewrite body_app, zlen_app in C, C'.
  rewrite body_one in C. rewrite zlen_app in S'. cbn [fst] in C. pose proof (zlen_nonneg (body E (h_checksum h) cs1)).
  pose proof (zlen_nonneg tail). unfold bytes in *. lia.
Qed.

Theorem rewrite_space f b m m' ov : archive E f b m -> size (fst (rewrite_bytes E f m' ov)) = size f.
Proof.
  intros HA. destruct (archive_arch E HE _ _ _ HA) as (h & o & cs & tail & A). unfold rewrite_bytes.
  destruct (rewrite_outcome E HE _ _ _ _ _ _ _ m' ov A) as [(q & e & R)|(s & s' & -> & SO & ZL & MV & R & WA)].
  - rewrite R. reflexivity.
  - rewrite R. cbn [fst put_at fdata fpos]. rewrite WA. change size with (@zlen byte).
    rewrite (wf_bytes _ _ _ _ _ _ (ar_wf _ _ _ _ _ _ _ _ A)). cbn [osect_bytes]. rewrite !zlen_app. lia.
Qed.

(** Truncation, exactly. *)
Lemma uloop_last ck c x j : e_decompress E c = Ok x -> 0 <= j ->
  uloop E ck 1 (c ++ ztake j (digest E ck c)) = if (0 <? j) && (j <? cks_size ck) then ([], Raise ChecksumMismatch) else (x, Ok tt).
Proof.
  intros H Hj. destruct (chunk_ok_len E HE _ _ H) as [L16 U12]. assert (LD : zlen (digest E ck c) = cks_size ck) by apply (zlen_digest E HE).
  pose proof (cks_size_nonneg ck) as CN.
  set (d := ztake j (digest E ck c)). assert (Ld : zlen d = Z.min j (cks_size ck)) by (unfold d; rewrite zlen_ztake; lia).
  cbn [uloop]. replace (zlen (c ++ d) <? 16) with false by (rewrite zlen_app; lia).
  assert (U : u32 12 (c ++ d) = zlen c) by (rewrite u32_app by lia; auto).
  unfold digest_here, chunk_here. rewrite U, ztake_app_exact, zdrop_app_exact by auto.
  rewrite (ztake_all (cks_size ck) d) by lia. rewrite H, app_nil_r.
  destruct ((0 <? j) && (j <? cks_size ck)) eqn:B.
  - replace (bytes_eqb d (digest E ck c)) with false.
    2:{ symmetry. apply bytes_eqb_neq. intros X. rewrite <- X in LD. lia. }
    replace (0 <? zlen d) with true by lia. reflexivity.
  - destruct (Z.eq_dec j 0) as [->|J0].
    + replace (0 <? zlen d) with false by lia. reflexivity.
    + replace d with (digest E ck c) by (unfold d; symmetry; apply ztake_all; lia). rewrite bytes_eqb_refl, andb_false_r. reflexivity.
Qed.

Theorem truncation_exact f b m k : archive E f b m ->
  snd (unpack_core E (firstn k f)) = Ok m <-> (Z.of_nat k = chunks_end f \/ chunks_end f + F_digest f <= Z.of_nat k).
Proof.
  intros HA. pose proof (truncation E HE f b m k HA) as [T _]. destruct (archive_arch E HE _ _ _ HA) as (h & o & cs & tail & A).
  pose proof (ar_wf _ _ _ _ _ _ _ _ A) as W. pose proof (wf_fields E HE _ _ _ _ _ W) as F.
  destruct (Z.lt_ge_cases (Z.of_nat k) (chunks_end f)) as [Q|Q].
  { split; [intros X; apply T in X; lia|]. intros [X|X]; [lia|]. rewrite (fi_digest _ _ _ _ F) in X. pose proof (cks_size_nonneg (h_checksum h)). lia. }
  clear T. rewrite (chunks_end_wf E HE _ _ _ _ _ W), (fi_digest _ _ _ _ F) in *.
  replace (firstn k f) with (ztake (Z.of_nat k) f) by (rewrite ztake_firstn, Nat2Z.id; reflexivity).
  destruct (arch_split _ _ _ _ _ _ _ _ A) as (cs0 & cl & xl & EQ & LN & SZ & LX & CO & HC & N1 & L1 & CB & BC).
  assert (BL : zlen (body E (h_checksum h) cs) = zlen (body E (h_checksum h) cs0) + zlen cl + cks_size (h_checksum h)).
  { rewrite EQ, body_app, zlen_app, body_one, (zlen_stored E HE). cbn [fst]. lia. }
  pose proof (zlen_nonneg (body E (h_checksum h) cs0)) as N0. pose proof (cks_size_nonneg (h_checksum h)) as CN.
  pose proof (wf_chunks _ _ _ _ _ _ W) as WC. rewrite EQ in WC. apply Forall_app in WC as [WC0 WCL]. inversion WCL as [|? ? HL _]; subst.
  unfold chunk_ok in HL. cbn [fst snd] in HL. destruct (chunk_ok_len E HE _ _ HL) as [L16 _].
  set (j := Z.of_nat k - body_pos E h o - zlen (body E (h_checksum h) cs0) - zlen cl).
  assert (J0 : 0 <= j) by (unfold j; lia).
  set (dig := digest E (h_checksum h) cl). assert (LD : zlen dig = cks_size (h_checksum h)) by apply (zlen_digest E HE).
  assert (TK : exists z, ztake (Z.of_nat k) f = header_bytes h ++ osect_bytes E o ++ table E h o (cs0 ++ [(cl, xl)]) ++ body E (h_checksum h) cs0 ++ cl ++ ztake j dig ++ z /\ (j < zlen dig -> z = [])).
  { rewrite (wf_bytes _ _ _ _ _ _ W). rewrite body_app, body_one. cbn [fst]. unfold stored. fold dig.
    pose proof (zlen_table E _ _ _ _ _ W) as LT. pose proof (zlen_nonneg (osect_bytes E o)) as NO. pose proof (zlen_nonneg (table E h o (cs0 ++ [(cl, xl)]))) as NT.
    assert (BP : body_pos E h o = 32 + zlen (osect_bytes E o) + zlen (table E h o (cs0 ++ [(cl, xl)]))) by (unfold body_pos; lia).
    rewrite <- (app_assoc (body E (h_checksum h) cs0)), <- (app_assoc cl). rewrite !ztake_app_ge by (rewrite ?zlen_header_bytes; lia). rewrite zlen_header_bytes.
    replace (Z.of_nat k - 32 - zlen (osect_bytes E o) - zlen (table E h o (cs0 ++ [(cl, xl)])) - zlen (body E (h_checksum h) cs0) - zlen cl) with j by (unfold j; lia).
    destruct (Z.le_gt_cases (zlen dig) j) as [X|X].
    - exists (ztake (j - zlen dig) tail). split; [|lia]. rewrite ztake_app_ge, (ztake_all j dig) by lia. reflexivity.
    - exists []. split; [|auto]. rewrite ztake_app_le, app_nil_r by lia. reflexivity. }
  destruct TK as (z & TK & TZ). rewrite TK.
  rewrite (unpack_front E HE); [|apply W|apply W|apply W|apply W|lia|apply (zlen_table E _ _ _ _ _ W)]. cbn [fst snd].
  replace (Z.to_nat (h_nchunks h)) with (List.length cs0 + 1)%nat by (unfold zlen in *; lia).
  rewrite (uloop_ok E HE) by auto. cbn [snd].
  rewrite <- (ar_meta _ _ _ _ _ _ _ _ A).
  destruct (Z.le_gt_cases (zlen dig) j) as [X|X].
  - rewrite ztake_all by lia. rewrite app_assoc.
    change (cl ++ dig) with (stored E (h_checksum h) cl). rewrite (uloop_step E HE) with (x := xl) by auto. cbn [snd uloop rbind].
    split; [intros _; right; unfold j in X; lia|reflexivity].
  - rewrite (TZ X), app_nil_r. unfold dig. rewrite (uloop_last (h_checksum h) cl xl j HL J0).
    destruct ((0 <? j) && (j <? cks_size (h_checksum h))) eqn:B; cbn [snd rbind].
    + split; [discriminate|]. intros [Y|Y]; unfold j in *; lia.
    + split; [|reflexivity]. intros _. left. unfold j in *. lia.
Qed.
End WithEnv.
