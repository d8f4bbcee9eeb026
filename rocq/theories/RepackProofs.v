(** Which arguments the chunks of a file were made with, and what follows: see
    Repack.v. *)
From Verif Require Import Base PyVal Checksums Headers Pretty Args FileIO Append Spec Archive Damage Overlap Unprotected Repack BaseLemmas HeaderProofs IOProofs WfProofs PackProofs SmallProofs BytesProofs MetaProofs AppendProofs ArchiveProofs CrashProofs HistoryProofs DamageProofs OverlapProofs UnprotectedProofs.
From Coq Require Import ZifyBool ZifyNat.
Ltac Zify.zify_post_hook ::= Z.div_mod_to_equations.

Section WithEnv.
Variable E : Env.
Hypothesis HE : EnvOK E.

Definition made (ba : bargs) (cx : bytes * bytes) : Prop := e_compress E ba (snd cx) = Ok (fst cx).

Lemma built_archive ba f b m : built E ba f b m -> archive E f b m.
Proof. induction 1; [eapply ar_pack|eapply ar_append|eapply ar_append_failed|eapply ar_rewrite|eapply ar_rewrite_failed]; eauto. Qed.

Lemma append_bargs_eff f h o cs tail oa : wf E f h o cs tail -> append_bargs oa h = effective f oa.
Proof. intros W. unfold append_bargs, effective. rewrite (fi_typesize _ _ _ _ (wf_fields E HE _ _ _ _ _ W)). reflexivity. Qed.

Lemma built_arch ba f b m : built E ba f b m ->
  exists h o cs tail, arch E f h o cs tail b m /\ Forall (made ba) cs /\ (zlen b = 0 -> h_nchunks h = 1).
Proof.
  induction 1 as [b cs m oba obp oma f HB H|f b m new oa f' k _ (h & o & cs & tail & A & HF & HN) HS HB H
                 |f b m new oa f' e _ (h & o & cs & tail & A & HF & HN) HS H
                 |f b m m' ov f' _ (h & o & cs & tail & A & HF & HN) HM H|f b m m' ov f' e _ (h & o & cs & tail & A & HF & HN) H].
  - destruct (pack_arch_full E HE _ _ _ _ _ _ _ H) as (h & o & cs' & A & _ & _ & HF & HN). rewrite HB in HF. exists h, o, cs', []. auto.
  - unfold append_bytes in H. change size with (@zlen byte) in *. injection H as H1 H2.
    destruct (append_outcome_full E HE _ _ _ _ _ _ _ oa new (fp_of new) A (Z.le_refl 0) (rest_fp_of new) ltac:(unfold sizable in HS; change size with (@zlen byte) in HS; lia))
      as [(nf' & q & e & R & _)|(_ & _ & nf' & k' & l & cs0 & cl & xl & cs1 & EQ & K1 & K2 & K3 & K4 & K5 & _ & R & A' & CO)].
    + rewrite R in H2. discriminate.
    + rewrite H1 in R. rewrite <- R in A'. rewrite (append_bargs_eff _ _ _ _ _ oa (ar_wf _ _ _ _ _ _ _ _ A)), HB in CO.
      do 4 eexists. split; [exact A'|]. split.
      * apply Forall_app. split; [|exact CO]. rewrite EQ in HF. apply Forall_app in HF. tauto.
      * intros Z0. rewrite zlen_app in Z0. pose proof (zlen_nonneg b). pose proof (zlen_nonneg new).
        cbn [set_counts h_nchunks]. pose proof (ar_empty _ _ _ _ _ _ _ _ A ltac:(lia)). specialize (HN ltac:(lia)). lia.
  - unfold append_bytes in H. change size with (@zlen byte) in *. injection H as H1 H2.
    destruct (append_outcome E HE _ _ _ _ _ _ _ oa new (fp_of new) A (Z.le_refl 0) (rest_fp_of new) HS) as [(nf' & q & e' & R & _)|(_ & _ & nf' & k' & l & cs0 & cl & xl & cs1 & _ & _ & _ & _ & _ & _ & R & _)].
    + rewrite R in H1. cbn in H1. subst f'. eauto 8.
    + rewrite R in H2. discriminate.
  - unfold rewrite_bytes in H. injection H as H1 H2. destruct (rewrite_outcome E HE _ _ _ _ _ _ _ m' ov A) as [(q & e & R)|(s & s' & -> & SO & ZL & MV & R & WA)].
    + rewrite R in H2. discriminate.
    + rewrite R in H1. cbn [fst put_at fdata fpos] in H1. rewrite WA in H1. subst f'.
      exists h, (Some s'), cs, tail. split; [|auto]. eapply set_sect; eauto. intros X. apply norm_none in X. auto.
  - unfold rewrite_bytes in H. injection H as H1 H2. destruct (rewrite_outcome E HE _ _ _ _ _ _ _ m' ov A) as [(q & e' & R)|(s & s' & -> & SO & ZL & MV & R & WA)].
    + rewrite R in H1. cbn in H1. subst f'. eauto 8.
    + rewrite R in H2. discriminate.
Qed.

(** Chunk number [i] of the file, by its place in the list. *)
Lemma piece_nth f h o cs tail b m i : arch E f h o cs tail b m -> 0 <= i < F_n f ->
  exists a c x b2, cs = a ++ (c, x) :: b2 /\ zlen a = i /\ piece f i = stored E (h_checksum h) c /\ x = sub (i * F_chunk f) (F_chunk f) b.
Proof.
  intros A Hi. pose proof (ar_wf _ _ _ _ _ _ _ _ A) as W. pose proof (wf_fields E HE _ _ _ _ _ W) as F.
  pose proof Hi as Hi'. rewrite (fi_n _ _ _ _ F), (wf_n _ _ _ _ _ _ W) in Hi'.
  destruct (nth_split_z cs i Hi') as (a & [c x] & b2 & EQ & LA). exists a, c, x, b2.
  split; [exact EQ|]. split; [exact LA|].
  destruct (chunk_pos_wf E HE _ _ _ _ _ a W c x b2 EQ) as [P1 P2]. split.
  - unfold piece. replace (Z.to_nat i) with (List.length a) by (unfold zlen in LA; lia). rewrite P2, P1, (fi_digest _ _ _ _ F).
    rewrite (wf_bytes _ _ _ _ _ _ W). rewrite EQ at 2. rewrite body_app.
    change ((c, x) :: b2) with ([(c, x)] ++ b2). rewrite body_app, body_one. cbn [fst].
    assert (X : sub (body_pos E h o + zlen (body E (h_checksum h) a)) (zlen c + cks_size (h_checksum h))
      ((header_bytes h ++ osect_bytes E o ++ table E h o cs ++ body E (h_checksum h) a) ++ stored E (h_checksum h) c ++ body E (h_checksum h) b2 ++ tail) = stored E (h_checksum h) c).
    { apply sub_at; change size with (@zlen byte).
      - rewrite !zlen_app, zlen_header_bytes, (zlen_table E _ _ _ _ _ W). unfold body_pos. lia.
      - symmetry. apply (zlen_stored E HE). }
    rewrite <- !app_assoc. rewrite <- (app_assoc (header_bytes h)), <- (app_assoc (osect_bytes E o)), <- (app_assoc (table E h o cs)) in X. exact X.
  - rewrite EQ in A. rewrite (fi_chunk _ _ _ _ F), <- LA. symmetry. exact (arch_chunk_data E _ _ _ _ _ _ _ _ _ _ A).
Qed.

Lemma checksum_of f h o cs tail : wf E f h o cs tail -> nth_error checksum_names (Z.to_nat (u8 6 f)) = Some (cks_name (h_checksum h)).
Proof.
  intros W. rewrite (wf_bytes _ _ _ _ _ _ W).
  destruct (hfields h (osect_bytes E o ++ table E h o cs ++ body E (h_checksum h) cs ++ tail) (wf_header _ _ _ _ _ _ W)) as (_ & _ & A3 & _).
  exact A3.
Qed.

Lemma counts_unique c n l n' l' x : 0 < x -> (n - 1) * c + l = x -> 0 < l <= c -> (n' - 1) * c + l' = x -> 0 < l' <= c -> n = n' /\ l = l'.
Proof.
  intros Hx H1 H2 H3 H4. assert (n = n').
  { pose proof (ceil_unique c n l x ltac:(lia) H1 H2). pose proof (ceil_unique c n' l' x ltac:(lia) H3 H4). congruence. }
  subst n'. split; [reflexivity|lia].
Qed.

Lemma made_fst ba (cs cs' : list (bytes * bytes)) : Forall (made ba) cs -> Forall (made ba) cs' -> map snd cs = map snd cs' -> cs = cs'.
Proof.
  intros H. revert cs'. induction H as [|[c x] cs M _ IH]; intros [|[c' x'] cs'] H' EQ; try discriminate; [reflexivity|].
  inversion H' as [|? ? M' H'']; subst. cbn [map snd] in EQ. apply (f_equal (@tl bytes)) in EQ as EQ2. cbn [tl] in EQ2.
  apply (f_equal (@hd bytes [])) in EQ. cbn [hd] in EQ. rewrite EQ in M. unfold made in M, M'. cbn [fst snd] in M, M'. rewrite (IH cs' H'' EQ2).
  rewrite M in M'. injection M' as ->. rewrite EQ. reflexivity.
Qed.

Lemma same_sizes (l l' : list bytes) : map zlen l = map zlen l' -> concat l = concat l' -> l = l'.
Proof.
  revert l'. induction l as [|x l IH]; intros [|x' l'] M C; try discriminate; [reflexivity|].
  cbn [map] in M. cbn [concat] in C. pose proof (f_equal (hd 0) M) as M1. apply (f_equal (@tl Z)) in M. cbn [hd tl] in M1, M.
  assert (X : x = x').
  { apply (f_equal (ztake (zlen x))) in C. rewrite ztake_app_exact in C by reflexivity. rewrite M1, ztake_app_exact in C by reflexivity. exact C. }
  subst x'. apply app_inv_head in C. f_equal. auto.
Qed.

Lemma same_list ba f g b m m' hf of csf tf hg og csg tg :
  arch E f hf of csf tf b m -> Forall (made ba) csf -> (zlen b = 0 -> h_nchunks hf = 1) ->
  arch E g hg og csg tg b m' -> Forall (made ba) csg -> (zlen b = 0 -> h_nchunks hg = 1) ->
  F_chunk f = F_chunk g -> csf = csg /\ F_n f = F_n g /\ F_last f = F_last g.
Proof.
  intros AF FF NF AG FG NG EC.
  pose proof (wf_fields E HE _ _ _ _ _ (ar_wf _ _ _ _ _ _ _ _ AF)) as WF. pose proof (wf_fields E HE _ _ _ _ _ (ar_wf _ _ _ _ _ _ _ _ AG)) as WG.
  rewrite (fi_chunk _ _ _ _ WF), (fi_chunk _ _ _ _ WG) in EC.
  pose proof (sizes_bound E _ _ _ _ _ _ _ AF) as SF. pose proof (sizes_bound E _ _ _ _ _ _ _ AG) as SG.
  destruct (arch_split _ _ _ _ _ _ _ _ AF) as (_ & _ & _ & _ & _ & _ & _ & _ & _ & _ & LF & _).
  destruct (arch_split _ _ _ _ _ _ _ _ AG) as (_ & _ & _ & _ & _ & _ & _ & _ & _ & _ & LG & _).
  assert (NL : h_nchunks hf = h_nchunks hg /\ h_last_chunk hf = h_last_chunk hg).
  { destruct (Z.eq_dec (zlen b) 0) as [B0|B0].
    - specialize (NF B0). specialize (NG B0). rewrite NF, NG in *. lia.
    - pose proof (zlen_nonneg b). pose proof (ar_l _ _ _ _ _ _ _ _ AF ltac:(lia)). pose proof (ar_l _ _ _ _ _ _ _ _ AG ltac:(lia)).
      rewrite <- EC in *. apply (counts_unique (h_chunk_size hf) _ _ _ _ (zlen b)); lia. }
  destruct NL as [N L]. split; [|rewrite (fi_n _ _ _ _ WF), (fi_n _ _ _ _ WG), (fi_last _ _ _ _ WF), (fi_last _ _ _ _ WG); auto].
  apply (made_fst ba); auto. apply same_sizes.
  - rewrite !map_map. pose proof (ar_sizes _ _ _ _ _ _ _ _ AF) as SSF. pose proof (ar_sizes _ _ _ _ _ _ _ _ AG) as SSG.
    unfold bytes in *. rewrite SSF, SSG, N, L, EC. reflexivity.
  - pose proof (ar_content _ _ _ _ _ _ _ _ AF) as CF. pose proof (ar_content _ _ _ _ _ _ _ _ AG) as CG. unfold content in CF, CG.
    unfold bytes in *. congruence.
Qed.

(** Files with the same contents, chunk size and checksum, made with the same
    arguments, have the same chunks. *)
Theorem same_chunks ba f g b m m' : built E ba f b m -> built E ba g b m' -> F_chunk f = F_chunk g -> u8 6 f = u8 6 g ->
  F_n f = F_n g /\ F_last f = F_last g /\ (forall i, 0 <= i < F_n f -> piece f i = piece g i) /\
  exists L, chunks_end f + F_digest f = F_body f + L /\ chunks_end g + F_digest g = F_body g + L /\ sub (F_body f) L f = sub (F_body g) L g.
Proof.
  intros BF BG EC EK. destruct (built_arch _ _ _ _ BF) as (hf & of & csf & tf & AF & FF & NF). destruct (built_arch _ _ _ _ BG) as (hg & og & csg & tg & AG & FG & NG).
  destruct (same_list ba f g b m m' hf of csf tf hg og csg tg AF FF NF AG FG NG EC) as (CS & N & L).
  pose proof (ar_wf _ _ _ _ _ _ _ _ AF) as WF. pose proof (ar_wf _ _ _ _ _ _ _ _ AG) as WG.
  assert (CK : h_checksum hf = h_checksum hg).
  { pose proof (checksum_of _ _ _ _ _ WF) as CF. pose proof (checksum_of _ _ _ _ _ WG) as CG. rewrite EK, CG in CF.
    injection CF as CF. symmetry. apply cks_name_inj. exact CF. }
  split; [exact N|]. split; [exact L|]. split.
  - intros i Hi. destruct (piece_nth _ _ _ _ _ _ _ i AF Hi) as (a & c & x & b2 & E1 & E2 & E3 & _).
    rewrite N in Hi. destruct (piece_nth _ _ _ _ _ _ _ i AG Hi) as (a' & c' & x' & b2' & E1' & E2' & E3' & _).
    rewrite E3, E3', CK. f_equal. rewrite CS, E1' in E1.
    assert (LL : List.length a' = List.length a) by (unfold zlen in *; lia).
    apply (f_equal (@nth_error (bytes * bytes))) in E1. apply (f_equal (fun g => g (List.length a))) in E1.
    rewrite <- LL in E1 at 1. rewrite !nth_error_app2, !Nat.sub_diag in E1 by lia. cbn in E1. congruence.
  - exists (zlen (body E (h_checksum hf) csf)).
    pose proof (chunks_end_wf E HE _ _ _ _ _ WF) as EF. pose proof (chunks_end_wf E HE _ _ _ _ _ WG) as EG.
    pose proof (wf_fields E HE _ _ _ _ _ WF) as FFi. pose proof (wf_fields E HE _ _ _ _ _ WG) as FGi.
    assert (SB : forall y h o cs t, wf E y h o cs t -> sub (F_body y) (zlen (body E (h_checksum h) cs)) y = body E (h_checksum h) cs).
    { intros y h o cs t W. rewrite (fi_body _ _ _ _ (wf_fields E HE _ _ _ _ _ W)). rewrite (wf_bytes _ _ _ _ _ _ W).
      assert (X : sub (body_pos E h o) (zlen (body E (h_checksum h) cs)) ((header_bytes h ++ osect_bytes E o ++ table E h o cs) ++ body E (h_checksum h) cs ++ t) = body E (h_checksum h) cs).
      { apply sub_at; change size with (@zlen byte); [|reflexivity]. rewrite !zlen_app, zlen_header_bytes, (zlen_table E _ _ _ _ _ W). unfold body_pos. lia. }
      rewrite <- (app_assoc (header_bytes h)), <- (app_assoc (osect_bytes E o)) in X. exact X. }
    split; [|split].
    + rewrite EF, (fi_digest _ _ _ _ FFi), (fi_body _ _ _ _ FFi). lia.
    + rewrite EG, (fi_digest _ _ _ _ FGi), (fi_body _ _ _ _ FGi), CK, CS. lia.
    + rewrite (SB _ _ _ _ _ WF). rewrite CK, CS. symmetry. apply (SB _ _ _ _ _ WG).
Qed.

(** What a successful append does to the chunks, whatever the arguments. *)
Theorem append_chunks f b m new oa f' k : archive E f b m -> sizable f new -> append_bytes E f new oa = (f', Ok k) ->
  F_n f' = F_n f + k /\ (forall i, 0 <= i < F_n f - 1 -> piece f' i = piece f i) /\
  exists ck, nth_error checksum_names (Z.to_nat (u8 6 f)) = Some (cks_name ck) /\
   forall i, F_n f - 1 <= i < F_n f' -> exists c,
      e_compress E (effective f oa) (sub (i * F_chunk f) (F_chunk f) (b ++ new)) = Ok c /\ piece f' i = c ++ digest E ck c.
Proof.
  intros HA HS H. destruct (archive_arch E HE _ _ _ HA) as (h & o & cs & tail & A).
  pose proof (ar_wf _ _ _ _ _ _ _ _ A) as W. pose proof (wf_fields E HE _ _ _ _ _ W) as F.
  unfold append_bytes in H. change size with (@zlen byte) in *. injection H as H1 H2.
  destruct (append_outcome_full E HE _ _ _ _ _ _ _ oa new (fp_of new) A (Z.le_refl 0) (rest_fp_of new) ltac:(unfold sizable in HS; change size with (@zlen byte) in HS; lia))
    as [(nf' & q & e & R & _)|(_ & _ & nf' & k' & l & cs0 & cl & xl & cs1 & EQ & K1 & K2 & K3 & K4 & K5 & R0 & R & A' & CO)].
  { rewrite R in H2. discriminate. }
  rewrite R0 in H2. cbn [snd] in H2. injection H2 as ->. rewrite H1 in R. rewrite <- R in A'. 
  rewrite (append_bargs_eff _ _ _ _ _ oa W) in CO.
  pose proof (ar_wf _ _ _ _ _ _ _ _ A') as W'. pose proof (wf_fields E HE _ _ _ _ _ W') as F'.
  assert (N' : F_n f' = F_n f + k) by (rewrite (fi_n _ _ _ _ F'), (fi_n _ _ _ _ F); reflexivity).
  assert (C' : F_chunk f' = F_chunk f) by (rewrite (fi_chunk _ _ _ _ F'), (fi_chunk _ _ _ _ F); reflexivity).
  assert (L0 : zlen cs0 = F_n f - 1).
  { rewrite (fi_n _ _ _ _ F), (wf_n _ _ _ _ _ _ W), EQ, zlen_app. change (zlen [(cl, xl)]) with 1. lia. }
  split; [exact N'|]. split.
  - intros i Hi. destruct (piece_nth _ _ _ _ _ _ _ i A ltac:(lia)) as (a & c & x & b2 & E1 & E2 & E3 & _).
    destruct (piece_nth _ _ _ _ _ _ _ i A' ltac:(lia)) as (a' & c' & x' & b2' & E1' & E2' & E3' & _).
    rewrite E3, E3'. cbn [set_counts h_checksum]. f_equal. rewrite EQ in E1.
    assert (G1 : nth_error cs0 (Z.to_nat i) = Some (c, x)).
    { apply (f_equal (@nth_error (bytes * bytes))) in E1. apply (f_equal (fun g => g (Z.to_nat i))) in E1.
      rewrite nth_error_app1 in E1 by (unfold zlen in *; lia). rewrite nth_error_app2 in E1 by (unfold zlen in *; lia).
      replace (Z.to_nat i - List.length a)%nat with O in E1 by (unfold zlen in *; lia). exact E1. }
    assert (G2 : nth_error cs0 (Z.to_nat i) = Some (c', x')).
    { apply (f_equal (@nth_error (bytes * bytes))) in E1'. apply (f_equal (fun g => g (Z.to_nat i))) in E1'.
      rewrite nth_error_app1 in E1' by (unfold zlen in *; lia). rewrite nth_error_app2 in E1' by (unfold zlen in *; lia).
      replace (Z.to_nat i - List.length a')%nat with O in E1' by (unfold zlen in *; lia). exact E1'. }
    congruence.
  - exists (h_checksum h). split; [apply (checksum_of _ _ _ _ _ W)|]. intros i Hi. pose proof (zlen_nonneg cs0).
    destruct (piece_nth _ _ _ _ _ _ _ i A' ltac:(lia)) as (a' & c' & x' & b2' & E1' & E2' & E3' & E4').
    exists c'. rewrite <- C', <- E4'. split; [|exact E3'].
    assert (I : In (c', x') cs1).
    { apply (f_equal (@nth_error (bytes * bytes))) in E1'. apply (f_equal (fun g => g (Z.to_nat i))) in E1'.
      rewrite (nth_error_app2 a') in E1' by (unfold zlen in *; lia). replace (Z.to_nat i - List.length a')%nat with O in E1' by (unfold zlen in *; lia).
      rewrite nth_error_app2 in E1' by (unfold zlen in *; lia). cbn [nth_error] in E1'. eapply nth_error_In; eauto. }
    rewrite Forall_forall in CO. exact (CO _ I).
Qed.
End WithEnv.
