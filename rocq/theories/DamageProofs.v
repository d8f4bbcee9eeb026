(** Damaged, truncated and half-written files. *)
From Verif Require Import Base PyVal Checksums Headers Pretty Args FileIO Append Spec BaseLemmas HeaderProofs IOProofs WfProofs
  PackProofs BytesProofs MetaProofs AppendProofs Archive ArchiveProofs CrashProofs HistoryProofs ChecksumProofs Damage.
From Coq Require Import ZifyBool ZifyNat.
Ltac Zify.zify_post_hook ::= Z.div_mod_to_equations.

Lemma zdrop_u32 p i f : 0 <= p -> 0 <= i -> u32 i (zdrop p f) = u32 (p + i) f.
Proof.
  intros Hp Hi. unfold u32, sub. rewrite <- !zdrop_skipn, zdrop_zdrop by lia. do 3 f_equal. lia.
Qed.
Lemma ztake_zdrop_sub p n (f : bytes) : ztake n (zdrop p f) = sub p n f.
Proof. unfold sub. rewrite <- zdrop_skipn, <- ztake_firstn. reflexivity. Qed.

Lemma decode_offsets_any n : forall raw, 8 * Z.of_nat n <= zlen raw -> exists l, decode_offsets n raw = Ok l.
Proof.
  induction n as [|n IH]; intros raw H; [eexists; reflexivity|]. cbn [decode_offsets].
  unfold decode_int64 at 1. rewrite zlen_ztake. replace (Z.min (Z.max 0 8) (zlen raw) =? 8) with true by lia. cbn [rbind].
  destruct (IH (zdrop 8 raw)) as [l ->]; [rewrite zlen_zdrop; lia|]. cbn [rbind]. eexists. reflexivity.
Qed.

(** A one-byte difference inside a known part of a file. *)
Lemma differ_split q f g : differ_at q f g -> exists a x y b, f = a ++ x :: b /\ g = a ++ y :: b /\ zlen a = q /\ x <> y.
Proof.
  intros (HS & HQ & HI & HN). unfold size in *. 
  destruct (nth_split_z f q ltac:(unfold zlen; lia)) as (a & x & b & -> & La).
  destruct (nth_split_z g q ltac:(unfold zlen; lia)) as (a' & y & b' & -> & La').
  exists a, x, y, b. assert (LL : List.length a = List.length a') by (unfold zlen in *; lia).
  assert (a = a' /\ b = b') as [-> ->].
  { split; apply nth_error_ext; intros i.
    - destruct (Nat.lt_ge_cases i (List.length a)) as [L|L].
      + specialize (HI i ltac:(unfold zlen in *; lia)). rewrite !nth_error_app1 in HI by lia. exact HI.
      + rewrite !(proj2 (nth_error_None _ _)) by lia. reflexivity.
    - specialize (HI (S (List.length a + i)) ltac:(unfold zlen in *; lia)).
      rewrite !nth_error_app2 in HI by lia.
      replace (S (List.length a + i) - List.length a)%nat with (S i) in HI by lia.
      replace (S (List.length a + i) - List.length a')%nat with (S i) in HI by lia. exact HI. }
  split; [auto|]. split; [auto|]. split; [auto|]. intros ->. apply HN. reflexivity.
Qed.
Lemma differ_part q (p s r g : bytes) : differ_at q (p ++ s ++ r) g -> zlen p <= q < zlen p + zlen s ->
  exists s1 x y s2, s = s1 ++ x :: s2 /\ g = p ++ (s1 ++ y :: s2) ++ r /\ zlen s1 = q - zlen p /\ x <> y.
Proof.
  intros H HQ. apply differ_split in H as (a & x & y & b & H1 & H2 & H3 & H4).
  exists (zdrop (zlen p) a), x, y, (ztake (zlen s - (q - zlen p) - 1) b).
  assert (A : a = p ++ zdrop (zlen p) a).
  { assert (T : ztake (zlen p) (p ++ s ++ r) = ztake (zlen p) (a ++ x :: b)) by (rewrite H1; reflexivity).
    rewrite ztake_app_exact, ztake_app_le in T by lia. rewrite T at 1. symmetry. apply ztake_zdrop. }
  assert (L1 : zlen (zdrop (zlen p) a) = q - zlen p) by (rewrite zlen_zdrop; pose proof (zlen_nonneg p); lia).
  set (s1 := zdrop (zlen p) a) in *.
  assert (S : s ++ r = s1 ++ x :: b).
  { rewrite A, <- app_assoc in H1. apply app_inv_head in H1. exact H1. }
  assert (SE : s = s1 ++ x :: ztake (zlen s - (q - zlen p) - 1) b).
  { assert (T : ztake (zlen s) (s ++ r) = ztake (zlen s) (s1 ++ x :: b)) by (rewrite S; reflexivity).
    rewrite ztake_app_exact in T by reflexivity. rewrite ztake_app_ge in T by lia.
    rewrite T at 1. change (x :: b) with ([x] ++ b). rewrite ztake_app_ge by (change (zlen [x]) with 1; lia).
    change (zlen [x]) with 1. cbn [app]. replace (zlen s - zlen s1 - 1) with (zlen s - (q - zlen p) - 1) by lia. reflexivity. }
  split; [exact SE|]. split; [|auto].
  rewrite H2, A, <- !app_assoc. do 2 f_equal. cbn [app]. f_equal.
  rewrite SE, <- app_assoc in S. apply app_inv_head in S. cbn [app] in S. injection S as S. rewrite S. reflexivity.
Qed.

Section WithEnv.
Variable E : Env.
Hypothesis HE : EnvOK E.

(** ** Unpacking a file with an intact front and an arbitrary offset table *)
Lemma read_offsets_any h t f q : header_ok h -> 0 <= h_nchunks h -> 0 <= fpos f -> zlen t = table_len h -> rest f = t ++ q ->
  exists l, read_offsets h f = (adv (table_len h) f, Ok l).
Proof.
  intros [_ Hn] H0 Hp HT HR. unfold header_nums_ok in Hn. unfold table_len in *. unfold read_offsets.
  destruct (h_offsets h); [|rewrite adv_0; exists []; reflexivity].
  unfold total_prospective_chunks. replace (0 <=? h_nchunks h) with true by lia.
  rewrite (bind_run _ _ _ _ _ (f_read_ssize_rest _ f _ _ HR HT)).
  destruct (decode_offsets_any (Z.to_nat (h_nchunks h)) t ltac:(lia)) as [l Hl].
  exists l. unfold lift. rewrite decode_offsets_cap by lia. rewrite Hl. reflexivity.
Qed.

Lemma unpack_front h o t q : header_ok h -> h_version h = 3 -> h_metadata h = is_some o -> osect_ok E o -> 0 <= h_nchunks h ->
  zlen t = table_len h ->
  unpack_core E (header_bytes h ++ osect_bytes E o ++ t ++ q)
  = (fst (uloop E (h_checksum h) (Z.to_nat (h_nchunks h)) q),
     rbind (snd (uloop E (h_checksum h) (Z.to_nat (h_nchunks h)) q)) (fun _ => Ok (osect_val o))).
Proof.
  intros W1 W2 W3 W4 W5 ZT. set (f := header_bytes h ++ _).
  assert (R0 : rest (fp_of f) = header_bytes h ++ osect_bytes E o ++ t ++ q) by (rewrite rest_fp_of; auto).
  pose proof (rest_adv_app 32 (fp_of f) _ _ ltac:(cbn; lia) R0 (zlen_header_bytes h)) as R1.
  assert (P1 : 0 <= fpos (adv 32 (fp_of f))) by (cbn; lia).
  pose proof (rest_adv_app _ _ _ _ P1 R1 eq_refl) as R2.
  pose proof (zlen_nonneg (osect_bytes E o)) as NO.
  set (f2 := adv (zlen (osect_bytes E o)) (adv 32 (fp_of f))) in *.
  assert (P2 : 0 <= fpos f2) by (unfold f2; rewrite !fpos_adv; cbn [fpos fp_of]; lia).
  destruct (read_offsets_any h t f2 q W1 W5 P2 ZT R2) as [l RO].
  pose proof (rest_adv_app _ _ _ _ P2 R2 ZT) as R3.
  assert (RB : read_beginning E (fp_of f) = (adv (table_len h) f2, Ok (mkBeg h (osect_val o) (option_map ms_h o) l))).
  { unfold read_beginning. rewrite (bind_run _ _ _ _ _ (read_header_ok h _ _ W1 W2 R0)).
    rewrite (bind_run _ _ _ f2 (osect_val o, option_map ms_h o)).
    2:{ rewrite W3. unfold f2. destruct o as [s|]; cbn [is_some osect_bytes osect_val option_map] in *.
        - rewrite (bind_run _ _ _ _ _ (read_metadata_ok E HE s _ _ W4 P1 R1)). reflexivity.
        - rewrite zlen_nil, adv_0. reflexivity. }
    rewrite (bind_run _ _ _ _ _ RO). reflexivity. }
  rewrite unpack_core_pure, RB. cbn [b_header b_meta]. rewrite R3. destruct (uloop _ _ _ _); reflexivity.
Qed.

(** ** Where the chunks are *)
Lemma chunk_pos_wf f h o cs tail a : wf E f h o cs tail -> forall c x b, cs = a ++ (c, x) :: b ->
  chunk_pos (List.length a) f = body_pos E h o + zlen (body E (h_checksum h) a) /\
  u32 (chunk_pos (List.length a) f + 12) f = zlen c.
Proof.
  intros W. pose proof (wf_fields E HE _ _ _ _ _ W) as F.
  assert (U : forall c x b a, cs = a ++ (c, x) :: b -> u32 (body_pos E h o + zlen (body E (h_checksum h) a) + 12) f = zlen c).
  { clear a. intros c x b a ->. pose proof (wf_chunks _ _ _ _ _ _ W) as HC. apply Forall_app in HC as [_ HC]. inversion HC as [|? ? HC1 _]; subst.
    unfold chunk_ok in HC1; cbn [fst snd] in HC1. destruct (chunk_ok_len E HE _ _ HC1) as [L16 U12].
    pose proof (zlen_table E _ _ _ _ _ W) as ZT.
    set (pre := header_bytes h ++ osect_bytes E o ++ table E h o (a ++ (c, x) :: b) ++ body E (h_checksum h) a).
    assert (LP : zlen pre = body_pos E h o + zlen (body E (h_checksum h) a)).
    { unfold pre. rewrite !zlen_app, zlen_header_bytes, ZT. unfold body_pos. lia. }
    set (q := digest E (h_checksum h) c ++ body E (h_checksum h) b ++ tail).
    assert (FE : f = pre ++ c ++ q).
    { rewrite (wf_bytes _ _ _ _ _ _ W) at 1. unfold pre, q. rewrite body_app. change ((c, x) :: b) with ([(c, x)] ++ b) at 2.
      rewrite (body_app E _ [(c, x)]), body_one. cbn [fst]. unfold stored. rewrite <- !app_assoc. reflexivity. }
    rewrite FE, <- LP, <- U12. unfold u32. f_equal.
    rewrite <- (sub_app_l 12 4 c q) by lia. unfold sub. rewrite <- !zdrop_skipn. replace (zlen pre + 12) with (12 + zlen pre) by lia.
    rewrite <- (zdrop_zdrop 12 (zlen pre)) by (pose proof (zlen_nonneg pre); lia). rewrite zdrop_app_exact by reflexivity. reflexivity. }
  induction a as [|[c0 x0] a IH] using rev_ind; intros c x b EQ.
  - cbn [List.length chunk_pos]. rewrite (fi_body _ _ _ _ F). change (body E (h_checksum h) []) with (@nil byte). rewrite zlen_nil.
    split; [lia|]. specialize (U c x b [] EQ). change (body E (h_checksum h) []) with (@nil byte) in U. rewrite zlen_nil in U.
    rewrite Z.add_0_r in U. exact U.
  - assert (EQ2 : cs = a ++ (c0, x0) :: (c, x) :: b) by (rewrite EQ, <- app_assoc; reflexivity).
    destruct (IH _ _ _ EQ2) as [I1 I2].
    assert (P : chunk_pos (List.length (a ++ [(c0, x0)])) f = body_pos E h o + zlen (body E (h_checksum h) (a ++ [(c0, x0)]))).
    { rewrite app_length. cbn [List.length]. rewrite Nat.add_1_r. cbn [chunk_pos]. rewrite I2, I1, (fi_digest _ _ _ _ F).
      rewrite body_app, body_one. cbn [fst]. rewrite zlen_app, (zlen_stored E HE). lia. }
    split; [exact P|]. rewrite P. apply (U c x b). exact EQ.
Qed.
Lemma chunks_end_wf f h o cs tail : wf E f h o cs tail ->
  chunks_end f = body_pos E h o + zlen (body E (h_checksum h) cs) - cks_size (h_checksum h).
Proof.
  intros W. pose proof (wf_fields E HE _ _ _ _ _ W) as F. unfold chunks_end. rewrite (fi_n _ _ _ _ F), (wf_n _ _ _ _ _ _ W).
  pose proof (wf_ne _ _ _ _ _ _ W) as NE.
  destruct (exists_last (l := cs)) as (a & [c x] & EQ); [intros ->; unfold zlen in NE; cbn in NE; lia|].
  destruct (chunk_pos_wf _ _ _ _ _ a W c x [] EQ) as [P1 P2].
  replace (Z.to_nat (zlen cs - 1)) with (List.length a).
  2:{ rewrite EQ. unfold zlen. rewrite app_length. cbn [List.length]. lia. }
  rewrite P2, P1, EQ, body_app, body_one. cbn [fst]. rewrite zlen_app, (zlen_stored E HE). lia.
Qed.

(** ** C16: a damaged chunk *)
Lemma uloop_bad_chunk ck c s1 x y s2 d q n : c = s1 ++ x :: s2 -> x <> y -> ck = CkAdler32 \/ ck = CkCrc32 ->
  16 <= zlen c -> u32 12 c = zlen c -> ~ (12 <= zlen s1 < 16) -> d = digest E ck c ->
  uloop E ck (S n) ((s1 ++ y :: s2) ++ d ++ q) = ([], Raise ChecksumMismatch).
Proof.
  intros -> N HC L U P ->. set (c' := s1 ++ y :: s2).
  assert (LL : zlen c' = zlen (s1 ++ x :: s2)) by (unfold c'; rewrite !zlen_app, !zlen_cons; reflexivity).
  assert (U' : u32 12 c' = zlen c').
  { rewrite LL, <- U. unfold u32. f_equal. symmetry. apply sub_ext; [lia|]. intros i Hi. unfold c'.
    destruct (Z.lt_ge_cases i (zlen s1)) as [Q|Q].
    - rewrite !nth_error_app1 by (unfold zlen in *; lia). reflexivity.
    - assert (Q2 : (List.length s1 < Z.to_nat i)%nat) by (unfold zlen in *; lia).
      rewrite !nth_error_app2 by lia. destruct (Z.to_nat i - List.length s1)%nat as [|k] eqn:EK; [lia|reflexivity]. }
  assert (LD : zlen (digest E ck (s1 ++ x :: s2)) = cks_size ck) by apply (zlen_digest E HE).
  cbn [uloop].
  assert (CH : chunk_here (c' ++ digest E ck (s1 ++ x :: s2) ++ q) = c').
  { unfold chunk_here. rewrite u32_app by lia. rewrite U'. apply ztake_app_exact. reflexivity. }
  assert (DH : digest_here ck (c' ++ digest E ck (s1 ++ x :: s2) ++ q) = digest E ck (s1 ++ x :: s2)).
  { unfold digest_here. rewrite u32_app by lia. rewrite U', zdrop_app_exact by reflexivity. apply ztake_app_exact. auto. }
  rewrite CH, DH. assert (zlen (c' ++ digest E ck (s1 ++ x :: s2) ++ q) <? 16 = false) as ->.
  { rewrite zlen_app. pose proof (zlen_nonneg (digest E ck (s1 ++ x :: s2) ++ q)). lia. }
  replace (0 <? zlen (digest E ck (s1 ++ x :: s2))) with true by (rewrite LD; destruct HC as [->| ->]; reflexivity).
  replace (bytes_eqb _ _) with false; [reflexivity|]. symmetry. apply bytes_eqb_neq. unfold c'. apply digest_one; auto.
Qed.
Lemma uloop_bad_digest ck c d q n : ck <> CkNone ->
  16 <= zlen c -> u32 12 c = zlen c -> zlen d = cks_size ck -> d <> digest E ck c ->
  uloop E ck (S n) (c ++ d ++ q) = ([], Raise ChecksumMismatch).
Proof.
  intros HC L U LD ND. cbn [uloop].
  assert (CH : chunk_here (c ++ d ++ q) = c).
  { unfold chunk_here. rewrite u32_app by lia. rewrite U. apply ztake_app_exact. reflexivity. }
  assert (DH : digest_here ck (c ++ d ++ q) = d).
  { unfold digest_here. rewrite u32_app by lia. rewrite U, zdrop_app_exact by reflexivity. apply ztake_app_exact. auto. }
  rewrite CH, DH. assert (zlen (c ++ d ++ q) <? 16 = false) as ->.
  { rewrite zlen_app. pose proof (zlen_nonneg (d ++ q)). lia. }
  replace (0 <? zlen d) with true by (rewrite LD; destruct ck; try reflexivity; contradiction).
  replace (bytes_eqb _ _) with false; [reflexivity|]. symmetry. apply bytes_eqb_neq. auto.
Qed.

Lemma content_prefix f h o a c x b tail bb m : arch E f h o (a ++ (c, x) :: b) tail bb m -> content a = sub 0 (zlen a * h_chunk_size h) bb.
Proof.
  intros A. pose proof (ar_sizes _ _ _ _ _ _ _ _ A) as SZ. pose proof (wf_n _ _ _ _ _ _ (ar_wf _ _ _ _ _ _ _ _ A)) as WN.
  rewrite <- (ar_content _ _ _ _ _ _ _ _ A).
  assert (L : zlen (content a) = zlen a * h_chunk_size h).
  { assert (F : Forall (fun z => z = h_chunk_size h) (map (fun cx : bytes * bytes => zlen (snd cx)) a)).
    { unfold chunk_sizes in SZ. rewrite map_app in SZ. cbn [map] in SZ.
      destruct (exists_last (l := zlen (snd (c, x)) :: map (fun cx : bytes * bytes => zlen (snd cx)) b)) as (r & z & EQ); [discriminate|].
      unfold bytes in *. rewrite EQ, app_assoc in SZ. apply app_inj_tail in SZ as [SZ _].
      assert (F : Forall (fun z => z = h_chunk_size h) (zrep (h_nchunks h - 1) (h_chunk_size h))).
      { apply Forall_forall. intros w Hw. unfold zrep in Hw. apply repeat_spec in Hw. auto. }
      rewrite <- SZ in F. apply Forall_app in F. tauto. }
    clear -F. unfold content. induction a as [|[c x] a IH]; [reflexivity|]. cbn [map concat snd] in *. inversion F; subst.
    rewrite zlen_app, zlen_cons, IH by auto. lia. }
  unfold content at 2. rewrite map_app, concat_app. fold (content a). symmetry. apply sub_at0. change size with (@zlen byte). auto.
Qed.

Lemma checksum_12 i ck : 0 <= i -> nth_error checksum_names (Z.to_nat i) = Some (cks_name ck) -> i = 1 \/ i = 2 -> ck = CkAdler32 \/ ck = CkCrc32.
Proof.
  intros H0 H [-> | ->]; cbn in H; injection H as H; [left|right]; apply cks_name_inj; cbn; congruence.
Qed.
Lemma archive_checksum f h o cs tail : wf E f h o cs tail -> nth_error checksum_names (Z.to_nat (u8 6 f)) = Some (cks_name (h_checksum h)).
Proof.
  intros W. destruct (hfields h (osect_bytes E o ++ table E h o cs ++ body E (h_checksum h) cs ++ tail) (wf_header _ _ _ _ _ _ W)) as (_ & _ & A3 & _).
  rewrite <- (wf_bytes _ _ _ _ _ _ W) in A3. exact A3.
Qed.

Theorem chunk_damage f b m g i q : archive E f b m -> u8 6 f = 1 \/ u8 6 f = 2 -> 0 <= i < F_n f ->
  let p := chunk_pos (Z.to_nat i) f in let n := u32 (p + 12) f in
  p <= q < p + n + 4 -> ~ (p + 12 <= q < p + 16) -> differ_at q f g ->
  unpack_core E g = (sub 0 (i * F_chunk f) b, Raise ChecksumMismatch).
Proof.
  intros HA H6 Hi. destruct (archive_arch E HE _ _ _ HA) as (h & o & cs & tail & A).
  pose proof (ar_wf _ _ _ _ _ _ _ _ A) as W. pose proof (wf_fields E HE _ _ _ _ _ W) as F.
  assert (CK : h_checksum h = CkAdler32 \/ h_checksum h = CkCrc32) by (eapply checksum_12; [|eapply archive_checksum; eauto|auto]; lia).
  rewrite (fi_n _ _ _ _ F), (wf_n _ _ _ _ _ _ W) in Hi. destruct (nth_split_z cs i Hi) as (a & [c x] & b2 & EQ & LA).
  destruct (chunk_pos_wf _ _ _ _ _ a W c x b2 EQ) as [P1 P2].
  replace (Z.to_nat i) with (List.length a) by (unfold zlen in LA; lia).
  intros p n HQ HX HD. unfold n, p in *. rewrite P2 in *. clear n p. rewrite P1 in *.
  rewrite (fi_chunk _ _ _ _ F), <- LA. subst cs. rewrite <- (content_prefix _ _ _ _ _ _ _ _ _ _ A).
  pose proof (wf_chunks _ _ _ _ _ _ W) as HC. apply Forall_app in HC as [HCa HC]. inversion HC as [|? ? HC1 _]; subst. unfold chunk_ok in HC1; cbn [fst snd] in HC1.
  destruct (chunk_ok_len E HE _ _ HC1) as [L16 U12]. pose proof (zlen_table E _ _ _ _ _ W) as ZT.
  set (ck := h_checksum h) in *.
  set (pre := header_bytes h ++ osect_bytes E o ++ table E h o (a ++ (c, x) :: b2) ++ body E ck a) in *.
  assert (LP : zlen pre = body_pos E h o + zlen (body E ck a)).
  { unfold pre. rewrite !zlen_app, zlen_header_bytes, ZT. unfold body_pos. lia. }
  set (r := body E ck b2 ++ tail).
  assert (FE : f = pre ++ stored E ck c ++ r).
  { rewrite (wf_bytes _ _ _ _ _ _ W) at 1. unfold pre, r. fold ck. rewrite body_app. change ((c, x) :: b2) with ([(c, x)] ++ b2) at 2. rewrite body_app, body_one. cbn [fst].
    rewrite <- !app_assoc. reflexivity. }
  assert (S4 : cks_size ck = 4) by (destruct CK as [->| ->]; reflexivity).
  rewrite FE in HD. apply differ_part in HD as (s1 & x1 & y1 & s2 & E1 & -> & E3 & NE).
  2:{ rewrite (zlen_stored E HE). lia. }
  assert (K : uloop E ck (S (List.length b2)) ((s1 ++ y1 :: s2) ++ r) = ([], Raise ChecksumMismatch)).
  { unfold stored in E1. destruct (Z.lt_ge_cases (zlen s1) (zlen c)) as [Q|Q].
    - assert (X : exists c2, c = s1 ++ x1 :: c2 /\ s2 = c2 ++ digest E ck c).
      { exists (zdrop (zlen s1 + 1) c).
        assert (T1 : ztake (zlen s1) c = s1).
        { rewrite <- (ztake_app_le (zlen s1) c (digest E ck c)) by lia. rewrite E1. apply ztake_app_exact. reflexivity. }
        assert (T2 : zdrop (zlen s1) c ++ digest E ck c = x1 :: s2).
        { rewrite <- zdrop_app_le by lia. rewrite E1. apply zdrop_app_exact. reflexivity. }
        destruct (zdrop (zlen s1) c) as [|x1' c2] eqn:ZD.
        { assert (Z0 : zlen (zdrop (zlen s1) c) = 0) by (rewrite ZD; reflexivity). rewrite zlen_zdrop in Z0. pose proof (zlen_nonneg s1). lia. }
        cbn [app] in T2. injection T2 as -> T2.
        assert (C2 : zdrop (zlen s1 + 1) c = c2).
        { pose proof (zlen_nonneg s1). rewrite Z.add_comm, <- zdrop_zdrop, ZD by lia. rewrite zdrop_skipn. reflexivity. }
        rewrite C2. split; [|auto]. rewrite <- T1 at 1. rewrite <- ZD. symmetry. apply ztake_zdrop. }
      destruct X as (c2 & EC & ->).
      replace ((s1 ++ y1 :: c2 ++ digest E ck c) ++ r) with ((s1 ++ y1 :: c2) ++ digest E ck c ++ r) by (rewrite <- !app_assoc; cbn [app]; rewrite <- ?app_assoc; reflexivity).
      apply (uloop_bad_chunk ck c s1 x1 y1 c2); auto. lia.
    - assert (X : exists d1, s1 = c ++ d1 /\ digest E ck c = d1 ++ x1 :: s2).
      { exists (zdrop (zlen c) s1).
        assert (T1 : ztake (zlen c) s1 = c).
        { rewrite <- (ztake_app_le (zlen c) s1 (x1 :: s2)) by lia. rewrite <- E1. apply ztake_app_exact. reflexivity. }
        assert (T2 : s1 = c ++ zdrop (zlen c) s1) by (rewrite <- T1 at 1; symmetry; apply ztake_zdrop).
        split; [auto|]. rewrite T2, <- app_assoc in E1. apply app_inv_head in E1. exact E1. }
      destruct X as (d1 & -> & ED).
      replace (((c ++ d1) ++ y1 :: s2) ++ r) with (c ++ (d1 ++ y1 :: s2) ++ r) by (rewrite <- !app_assoc; reflexivity).
      assert (LD : zlen (d1 ++ y1 :: s2) = cks_size ck).
      { rewrite <- (zlen_digest E HE ck c), ED, !zlen_app, !zlen_cons. reflexivity. }
      apply uloop_bad_digest; auto.
      + destruct CK as [->| ->]; discriminate.
      + rewrite ED. intros X. apply app_inv_head in X. congruence. }
  unfold pre. rewrite <- !app_assoc. rewrite (unpack_front h o).
  - fold ck. replace (Z.to_nat (h_nchunks h)) with (List.length a + S (List.length b2))%nat.
    2:{ rewrite (wf_n _ _ _ _ _ _ W). unfold zlen. rewrite app_length. cbn [List.length]. lia. }
    rewrite uloop_ok by auto. rewrite <- !app_assoc in K. cbn [app] in K |- *. rewrite K. cbn [fst snd rbind]. rewrite app_nil_r. reflexivity.
  - apply (wf_header _ _ _ _ _ _ W).
  - apply (wf_version _ _ _ _ _ _ W).
  - apply (wf_flag _ _ _ _ _ _ W).
  - apply (wf_sect _ _ _ _ _ _ W).
  - rewrite (wf_n _ _ _ _ _ _ W). apply zlen_nonneg.
  - exact ZT.
Qed.

(** ** C17: a damaged metadata section *)
Lemma read_metadata_bad s f p' d' q : msect_ok E s -> 0 <= fpos f -> mh_checksum (ms_h s) <> CkNone ->
  zlen p' = mh_comp (ms_h s) -> zlen d' = cks_size (mh_checksum (ms_h s)) -> digest E (mh_checksum (ms_h s)) p' <> d' ->
  rest f = mheader_bytes (ms_h s) ++ p' ++ ms_pad s ++ d' ++ q ->
  exists f', read_metadata E f = (f', Raise ChecksumMismatch).
Proof.
  intros Hs Hp NC L4 LD ND Hr. pose proof (msect_decode E s Hs) as HD.
  pose proof Hs as (H1 & H2 & H3 & H4 & H5 & plain & H6 & H7).
  pose proof (zlen_mheader_bytes _ H1) as L1.
  unfold read_metadata, METADATA_HEADER_LENGTH.
  rewrite (bind_run _ _ _ _ _ (f_read_rest 32 f _ _ Hr L1)).
  pose proof (rest_adv_app 32 f _ _ Hp Hr L1) as R1.
  rewrite (bind_lift _ _ _ _ HD).
  rewrite (bind_run _ _ _ _ _ (f_read_rest _ _ _ _ R1 L4)).
  assert (P1 : 0 <= fpos (adv 32 f)) by (rewrite fpos_adv; lia).
  pose proof (rest_adv_app _ _ _ _ P1 R1 L4) as R2.
  pose proof (zlen_nonneg p'). pose proof (zlen_nonneg (ms_pad s)).
  rewrite (bind_run _ _ _ _ _ (f_seek_rel_ok (mh_max (ms_h s) - mh_comp (ms_h s)) (adv (mh_comp (ms_h s)) (adv 32 f)) ltac:(rewrite !fpos_adv; lia))).
  assert (P2 : 0 <= fpos (adv (mh_comp (ms_h s)) (adv 32 f))) by (rewrite !fpos_adv; lia).
  pose proof (rest_adv_app _ _ _ _ P2 R2 H5) as R3.
  eexists. apply bind_run_raise.
  destruct (cks_eqb (mh_checksum (ms_h s)) CkNone) eqn:Hc; [apply cks_eqb_eq in Hc; contradiction|].
  rewrite (bind_run _ _ _ _ _ (f_read_rest _ _ _ _ R3 LD)).
  replace (bytes_eqb _ _) with false; [reflexivity|]. symmetry. apply bytes_eqb_neq. exact ND.
Qed.

Lemma mfields3 s p q : msect_ok E s -> zlen p = 32 -> let f := p ++ msect_bytes E s ++ q in
  nth_error checksum_names (Z.to_nat (u8 41 f)) = Some (cks_name (mh_checksum (ms_h s))) /\ u32 48 f = mh_max (ms_h s) /\ u32 52 f = mh_comp (ms_h s).
Proof.
  intros SO HP f. destruct SO as (HO & _). pose proof (mheader_bytes_describe _ HO) as D. pose proof (zlen_mheader_bytes _ HO) as L.
  unfold mheader_describes in D.
  assert (S32 : sub 32 32 f = mheader_bytes (ms_h s)).
  { unfold f, msect_bytes. rewrite <- app_assoc. apply sub_at; change size with (@zlen byte); lia. }
  destruct D as (_ & _ & _ & D1 & _ & _ & _ & D2 & D3 & _). rewrite <- S32 in D1, D2, D3.
  unfold u32, u8 in *. rewrite sub_sub_32 in D1, D2, D3 by lia. auto.
Qed.

Lemma unpack_bad_meta h s p' d' q : header_ok h -> h_version h = 3 -> h_metadata h = true -> msect_ok E s -> mh_checksum (ms_h s) <> CkNone ->
  zlen p' = mh_comp (ms_h s) -> zlen d' = cks_size (mh_checksum (ms_h s)) -> digest E (mh_checksum (ms_h s)) p' <> d' ->
  unpack_core E (header_bytes h ++ mheader_bytes (ms_h s) ++ p' ++ ms_pad s ++ d' ++ q) = ([], Raise ChecksumMismatch).
Proof.
  intros W1 W2 W3 SO NC L1 L2 ND. set (g := header_bytes h ++ _).
  assert (R0 : rest (fp_of g) = g) by apply rest_fp_of. unfold g at 2 in R0.
  pose proof (rest_adv_app 32 (fp_of g) _ _ ltac:(cbn; lia) R0 (zlen_header_bytes h)) as R1.
  destruct (read_metadata_bad s (adv 32 (fp_of g)) p' d' q SO ltac:(cbn; lia) NC L1 L2 ND R1) as [f' RM].
  rewrite unpack_core_pure. unfold read_beginning. rewrite (bind_run _ _ _ _ _ (read_header_ok h _ _ W1 W2 R0)).
  rewrite W3. erewrite bind_run_raise; [reflexivity|]. erewrite bind_run_raise; [reflexivity|]. exact RM.
Qed.

Theorem meta_damage f b m g q : archive E f b m -> has_meta f = true -> u8 41 f = 1 \/ u8 41 f = 2 ->
  64 <= q < 64 + u32 52 f \/ 64 + u32 48 f <= q < 64 + u32 48 f + 4 -> differ_at q f g ->
  unpack_core E g = ([], Raise ChecksumMismatch).
Proof.
  intros HA HM H41 HQ HD. destruct (archive_arch E HE _ _ _ HA) as (h & o & cs & tail & A).
  pose proof (ar_wf _ _ _ _ _ _ _ _ A) as W. pose proof (wf_fields E HE _ _ _ _ _ W) as F.
  rewrite (fi_meta _ _ _ _ F), (wf_flag _ _ _ _ _ _ W) in HM. destruct o as [s|]; [|discriminate].
  pose proof (wf_sect _ _ _ _ _ _ W) as SO. cbn [osect_ok] in SO.
  set (r := table E h (Some s) cs ++ body E (h_checksum h) cs ++ tail).
  assert (FB : f = header_bytes h ++ msect_bytes E s ++ r) by exact (wf_bytes _ _ _ _ _ _ W).
  destruct (mfields3 s (header_bytes h) r SO (zlen_header_bytes h)) as (M1 & M2 & M3). rewrite <- FB in M1, M2, M3.
  assert (CK : mh_checksum (ms_h s) = CkAdler32 \/ mh_checksum (ms_h s) = CkCrc32) by (eapply checksum_12; eauto; lia).
  rewrite M2, M3 in HQ. set (ck := mh_checksum (ms_h s)) in *.
  assert (S4 : cks_size ck = 4) by (destruct CK as [->| ->]; reflexivity).
  assert (NC : ck <> CkNone) by (destruct CK as [->| ->]; discriminate).
  pose proof SO as (O1 & _ & _ & O4 & O5 & _).
  pose proof (zlen_mheader_bytes _ O1) as L1. pose proof (zlen_header_bytes h) as L0.
  assert (W1 := wf_header _ _ _ _ _ _ W). assert (W2 := wf_version _ _ _ _ _ _ W). assert (W3 := wf_flag _ _ _ _ _ _ W). cbn [is_some] in W3.
  destruct HQ as [HQ|HQ].
  - assert (FE : f = (header_bytes h ++ mheader_bytes (ms_h s)) ++ ms_payload s ++ (ms_pad s ++ digest E ck (ms_payload s) ++ r)).
    { rewrite FB. unfold msect_bytes. fold ck. rewrite <- !app_assoc. reflexivity. }
    rewrite FE in HD. apply differ_part in HD as (s1 & x1 & y1 & s2 & E1 & -> & E3 & NE); [|rewrite zlen_app; lia].
    rewrite <- !app_assoc. rewrite (app_assoc s1). apply unpack_bad_meta; auto.
    + rewrite <- O4, E1, !zlen_app, !zlen_cons. reflexivity.
    + apply (zlen_digest E HE).
    + rewrite E1. apply digest_one; auto.
  - assert (FE : f = (header_bytes h ++ mheader_bytes (ms_h s) ++ ms_payload s ++ ms_pad s) ++ digest E ck (ms_payload s) ++ r).
    { rewrite FB. unfold msect_bytes. fold ck. rewrite <- !app_assoc. reflexivity. }
    assert (LD : zlen (digest E ck (ms_payload s)) = cks_size ck) by apply (zlen_digest E HE).
    rewrite FE in HD. apply differ_part in HD as (s1 & x1 & y1 & s2 & E1 & -> & E3 & NE); [|rewrite !zlen_app; lia].
    rewrite <- !app_assoc. rewrite (app_assoc s1). apply unpack_bad_meta; auto.
    + fold ck. rewrite <- LD, E1, !zlen_app, !zlen_cons. reflexivity.
    + fold ck. rewrite E1. intros X. apply app_inv_head in X. congruence.
Qed.

(** ** C18: truncation *)
Lemma uloop_short ck n r : zlen r < 16 -> exists e, uloop E ck (S n) r = ([], Raise e).
Proof. intros H. cbn [uloop]. replace (zlen r <? 16) with true by lia. destruct (decode_blosc_header r); eexists; reflexivity. Qed.

Lemma uloop_trunc ck q cs : Forall (chunk_ok E) cs -> forall j,
  (snd (uloop E ck (List.length cs) (ztake j (body E ck cs ++ q))) = Ok tt ->
     fst (uloop E ck (List.length cs) (ztake j (body E ck cs ++ q))) = content cs /\ (cs <> [] -> zlen (body E ck cs) - cks_size ck <= j)) /\
  exists a b, cs = a ++ b /\ fst (uloop E ck (List.length cs) (ztake j (body E ck cs ++ q))) = content a.
Proof.
  induction 1 as [|[c x] cs H _ IH]; intros j.
  - cbn. split; [intros _; split; [reflexivity|congruence]|]. exists [], []. auto.
  - unfold chunk_ok in H. cbn [fst snd] in H. destruct (chunk_ok_len E HE _ _ H) as [L16 U12].
    assert (B : body E ck ((c, x) :: cs) = stored E ck c ++ body E ck cs) by reflexivity. rewrite B, <- app_assoc. cbn [List.length].
    destruct (Z.lt_ge_cases j (zlen (stored E ck c))) as [Q|Q].
    + rewrite ztake_app_le by lia. rewrite (zlen_stored E HE) in Q.
      destruct (Z.lt_ge_cases j 16) as [Q1|Q1].
      { destruct (uloop_short ck (List.length cs) (ztake j (stored E ck c))) as [e ->]; [rewrite zlen_ztake; pose proof (zlen_nonneg (stored E ck c)); lia|].
        cbn [fst snd]. split; [discriminate|]. exists [], ((c, x) :: cs). auto. }
      destruct (Z.lt_ge_cases j (zlen c)) as [Q2|Q2].
      { unfold stored. rewrite ztake_app_le by lia. cbn [uloop].
        assert (ZL : zlen (ztake j c) = j) by (rewrite zlen_ztake; lia).
        replace (zlen (ztake j c) <? 16) with false by lia.
        assert (U : u32 12 (ztake j c) = zlen c).
        { rewrite <- U12. rewrite <- (ztake_zdrop j c) at 2. symmetry. apply u32_app; lia. }
        unfold digest_here. rewrite U, zdrop_all by lia. rewrite (ztake_all _ []) by (unfold zlen; cbn; apply cks_size_nonneg).
        change (0 <? zlen []) with false. cbn [andb]. unfold chunk_here. rewrite U, ztake_all by lia.
        destruct (e_decompress E (ztake j c)) as [y|e] eqn:D.
        - exfalso. destruct (chunk_ok_len E HE _ _ D) as [_ D2]. lia.
        - cbn [fst snd]. split; [discriminate|]. exists [], ((c, x) :: cs). auto. }
      unfold stored. rewrite ztake_app_ge by lia. set (d := ztake (j - zlen c) (digest E ck c)).
      assert (LD : zlen (digest E ck c) = cks_size ck) by apply (zlen_digest E HE).
      assert (Ld : zlen d = j - zlen c) by (unfold d; rewrite zlen_ztake; lia).
      cbn [uloop].
      replace (zlen (c ++ d) <? 16) with false by (rewrite zlen_app; lia).
      assert (U : u32 12 (c ++ d) = zlen c) by (rewrite u32_app by lia; auto).
      unfold digest_here, chunk_here, after_chunk. rewrite U, ztake_app_exact, zdrop_app_exact by auto.
      rewrite (ztake_all (cks_size ck) d) by lia. rewrite (zdrop_all _ (c ++ d)) by (rewrite zlen_app; lia).
      destruct (0 <? zlen d) eqn:D0.
      { replace (bytes_eqb d (digest E ck c)) with false.
        2:{ symmetry. apply bytes_eqb_neq. intros X. rewrite <- X in LD. lia. }
        cbn [negb andb fst snd]. split; [discriminate|]. exists [], ((c, x) :: cs). auto. }
      cbn [andb]. rewrite H. destruct cs as [|c2 cs].
      { cbn [List.length uloop fst snd]. split; [|exists [(c, x)], []; auto]. intros _. split; [reflexivity|]. intros _.
        change (body E ck []) with (@nil byte). rewrite app_nil_r. unfold stored. rewrite zlen_app. lia. }
      destruct (uloop_short ck (List.length cs) []) as [e EE]; [unfold zlen; cbn; lia|].
      cbn [List.length]. rewrite EE. cbn [fst snd]. split; [discriminate|]. exists [(c, x)], (c2 :: cs). split; [reflexivity|].
      unfold content. cbn. reflexivity.
    + rewrite ztake_app_ge by lia. rewrite (uloop_step E HE) with (x := x) by auto. cbn [fst snd].
      destruct (IH (j - zlen (stored E ck c))) as [I1 (a & b & I2 & I3)]. split.
      * intros R. destruct (I1 R) as [R1 R2]. rewrite R1. split; [reflexivity|]. intros _. rewrite zlen_app.
        destruct cs as [|c2 cs]; [|specialize (R2 ltac:(discriminate)); lia].
        change (body E ck []) with (@nil byte). unfold zlen at 2. cbn [List.length]. pose proof (cks_size_nonneg ck). lia.
      * exists ((c, x) :: a), b. rewrite I2 at 1. split; [reflexivity|]. rewrite I3. reflexivity.
Qed.

Definition stuck {A} (x : fp * res A) : Prop := match x with (_, Raise _) => True | (f', Ok _) => rest f' = [] /\ 0 <= fpos f' end.

Lemma rest_past f n : 0 <= fpos f -> zlen (rest f) <= n -> rest (adv n f) = [].
Proof. intros H0 H. unfold rest in *. cbn [fpos fdata adv]. rewrite zlen_zdrop in H. apply zdrop_all. pose proof (zlen_nonneg (fdata f)). lia. Qed.

Lemma read_metadata_trunc s f j : msect_ok E s -> 0 <= fpos f -> 0 <= j < zlen (msect_bytes E s) -> rest f = ztake j (msect_bytes E s) ->
  stuck (read_metadata E f).
Proof.
  intros Hs Hp Hj Hr. pose proof (zlen_msect E HE s Hs) as ZL. pose proof (msect_decode E s Hs) as HD.
  pose proof Hs as (H1 & H2 & H3 & H4 & H5 & _). pose proof (zlen_mheader_bytes _ H1) as L1.
  pose proof (zlen_nonneg (ms_payload s)) as N1. pose proof (zlen_nonneg (ms_pad s)) as N2.
  unfold read_metadata, METADATA_HEADER_LENGTH. rewrite (bind_run _ _ _ _ _ (f_read_gen 32 f ltac:(lia))).
  assert (LR : zlen (rest f) = j) by (rewrite Hr, zlen_ztake; lia).
  destruct (Z.lt_ge_cases j 32) as [Q|Q].
  { erewrite bind_lift_raise; [exact I|]. unfold mheader_decode. rewrite zlen_ztake. replace (negb _) with true by lia. reflexivity. }
  unfold msect_bytes in Hr. rewrite ztake_app_ge in Hr by lia. rewrite Hr, ztake_app_exact by lia. rewrite L1.
  rewrite (bind_lift _ _ _ _ HD).
  pose proof (rest_adv_app 32 f _ _ Hp Hr L1) as R1.
  assert (P1 : 0 <= fpos (adv 32 f)) by (rewrite fpos_adv; lia).
  assert (LR1 : zlen (rest (adv 32 f)) = j - 32) by (rewrite rest_adv, zlen_zdrop; lia).
  rewrite (bind_run _ _ _ _ _ (f_read_gen (mh_comp (ms_h s)) (adv 32 f) ltac:(lia))).
  set (pl := ztake (mh_comp (ms_h s)) (rest (adv 32 f))).
  assert (LPL : zlen pl = Z.min (mh_comp (ms_h s)) (j - 32)) by (unfold pl; rewrite zlen_ztake; lia).
  rewrite (bind_run _ _ _ _ _ (f_seek_rel_ok (mh_max (ms_h s) - mh_comp (ms_h s)) (adv (zlen pl) (adv 32 f)) ltac:(rewrite !fpos_adv; lia))).
  rewrite !adv_adv. set (n := 32 + (zlen pl + (mh_max (ms_h s) - mh_comp (ms_h s)))).
  assert (P3 : 0 <= fpos (adv n f)) by (rewrite fpos_adv; unfold n; lia).
  assert (LR3 : zlen (rest (adv n f)) < cks_size (mh_checksum (ms_h s)) \/ rest (adv n f) = []).
  { pose proof (cks_size_nonneg (mh_checksum (ms_h s))) as CN. destruct (Z.lt_ge_cases (j - 32) (mh_comp (ms_h s))) as [Q2|Q2].
    - right. apply rest_past; [auto|]. unfold n. lia.
    - destruct (Z.lt_ge_cases (j - 32 - mh_max (ms_h s)) 1) as [Q3|Q3]; [right; apply rest_past; [auto|]; unfold n; lia|].
      left. rewrite rest_adv by (unfold n; lia). rewrite zlen_zdrop. unfold n. lia. }
  destruct (cks_eqb (mh_checksum (ms_h s)) CkNone) eqn:Hc.
  - apply cks_eqb_eq in Hc. rewrite Hc in *. cbn [cks_size] in *.
    assert (R0 : rest (adv n f) = []) by (destruct LR3 as [X|X]; [pose proof (zlen_nonneg (rest (adv n f))); lia|auto]).
    unfold bind, ret, lift. destruct (codec_decompress E (mh_codec (ms_h s)) pl); [|exact I].
    destruct (serializer_lookup (mh_magic (ms_h s))); [|exact I]. destruct (e_loads E _); [|exact I]. cbn [stuck]. auto.
  - erewrite bind_run_raise; [exact I|].
    rewrite (bind_run _ _ _ _ _ (f_read_gen _ _ (cks_size_nonneg _))).
    replace (bytes_eqb _ _) with false; [reflexivity|]. symmetry. apply bytes_eqb_neq. intros X.
    apply (f_equal zlen) in X. rewrite (zlen_digest E HE), zlen_ztake in X.
    assert (0 < cks_size (mh_checksum (ms_h s))) by (destruct (mh_checksum (ms_h s)); cbn in *; try lia; discriminate).
    destruct LR3 as [Y|Y]; [|rewrite Y in X; change (zlen (@nil byte)) with 0 in X]; lia.
Qed.

Lemma decode_offsets_short n : forall raw, zlen raw < 8 * Z.of_nat n -> exists e, decode_offsets n raw = Raise e.
Proof.
  induction n as [|n IH]; intros raw H; [pose proof (zlen_nonneg raw); lia|]. cbn [decode_offsets].
  unfold decode_int64 at 1. rewrite zlen_ztake. destruct (Z.lt_ge_cases (zlen raw) 8) as [Q|Q].
  - pose proof (zlen_nonneg raw). replace (Z.min (Z.max 0 8) (zlen raw) =? 8) with false by lia. eexists. reflexivity.
  - replace (Z.min (Z.max 0 8) (zlen raw) =? 8) with true by lia. cbn [rbind].
    destruct (IH (zdrop 8 raw)) as [e ->]; [rewrite zlen_zdrop; lia|]. eexists. reflexivity.
Qed.

Lemma read_offsets_short h f : header_ok h -> 1 <= h_nchunks h -> 0 <= fpos f -> zlen (rest f) < table_len h \/ rest f = [] ->
  stuck (read_offsets h f).
Proof.
  intros [_ Hn] H1 Hp HR. unfold header_nums_ok in Hn. unfold table_len in HR. unfold read_offsets.
  destruct (h_offsets h).
  - unfold total_prospective_chunks. replace (0 <=? h_nchunks h) with true by lia.
    destruct (f_read_ssize_cases (8 * (h_nchunks h + h_max_app h)) f) as [X|[X _]]; [|unfold bind; rewrite X; exact I].
    rewrite (f_read_gen (8 * (h_nchunks h + h_max_app h)) f ltac:(lia)) in X. rewrite (bind_run _ _ _ _ _ X). clear X.
    assert (LR : zlen (rest f) < 8 * (h_nchunks h + h_max_app h)) by (destruct HR as [X|X]; [|rewrite X; change (zlen (@nil byte)) with 0]; lia).
    rewrite ztake_all by lia.
    destruct (decode_offsets _ _) as [l|e]; unfold lift; cbn [stuck]; [|exact I].
    split; [apply rest_past; lia|]. rewrite fpos_adv. pose proof (zlen_nonneg (rest f)). lia.
  - cbn [stuck ret]. split; [|auto]. destruct HR as [X|X]; [pose proof (zlen_nonneg (rest f)); lia|auto].
Qed.

Lemma stuck_end h (x : fp * res beginning) : 1 <= h_nchunks h -> stuck x -> (forall f' bg, x = (f', Ok bg) -> b_header bg = h) ->
  exists e, match x with
  | (_, Raise e) => ([], Raise e)
  | (f, Ok bg) =>
      let '(o, v) := uloop E (h_checksum (b_header bg)) (Z.to_nat (h_nchunks (b_header bg))) (rest f) in
      (o, rbind v (fun _ => Ok (b_meta bg)))
  end = ([], Raise e).
Proof.
  intros H1 S B. destruct x as [f' [bg|e]]; [|eexists; reflexivity]. cbn [stuck] in S. destruct S as [R _].
  rewrite (B f' bg eq_refl), R. replace (Z.to_nat (h_nchunks h)) with (S (Z.to_nat (h_nchunks h - 1))) by lia.
  destruct (uloop_short (h_checksum h) (Z.to_nat (h_nchunks h - 1)) []) as [e ->]; [unfold zlen; cbn; lia|].
  eexists. reflexivity.
Qed.

Lemma front_trunc h o t q j : header_ok h -> h_version h = 3 -> h_metadata h = is_some o -> osect_ok E o -> 1 <= h_nchunks h ->
  zlen t = table_len h -> j < body_pos E h o ->
  exists e, unpack_core E (ztake j (header_bytes h ++ osect_bytes E o ++ t ++ q)) = ([], Raise e).
Proof.
  intros W1 W2 W3 W4 W5 ZT Hj. set (f := ztake j _). rewrite unpack_core_pure.
  pose proof (zlen_header_bytes h) as LH. pose proof (zlen_nonneg (osect_bytes E o)) as NO.
  assert (R0 : rest (fp_of f) = f) by apply rest_fp_of.
  destruct (Z.lt_ge_cases j 32) as [Q|Q].
  { assert (RB : exists f' e, read_beginning E (fp_of f) = (f', Raise e)); [|destruct RB as (f' & e & ->); eexists; reflexivity].
    eexists _, _. unfold read_beginning, read_bloscpack_header. apply bind_run_raise.
    rewrite (bind_run _ _ _ _ _ (f_read_gen BLOSCPACK_HEADER_LENGTH (fp_of f) ltac:(unfold BLOSCPACK_HEADER_LENGTH; lia))).
    apply bind_lift_raise. unfold header_decode. rewrite R0, zlen_ztake. unfold f, BLOSCPACK_HEADER_LENGTH. rewrite zlen_ztake.
    match goal with |- context [negb ?x] => replace x with false end; [reflexivity|].
    symmetry. apply Z.eqb_neq. lia. }
  unfold f in R0 at 2. rewrite ztake_app_ge in R0 by lia. rewrite LH in R0.
  pose proof (rest_adv_app 32 (fp_of f) _ _ ltac:(cbn; lia) R0 LH) as R1.
  assert (P1 : 0 <= fpos (adv 32 (fp_of f))) by (cbn; lia). set (f1 := adv 32 (fp_of f)) in *.
  assert (RB : exists mm : SM fp (pyval * option mheader),
     mm = (if h_metadata h then r <- read_metadata E ;; ret (fst r, Some (snd r)) else ret (PNone, None)) /\
     read_beginning E (fp_of f) = bind mm (fun mm => o <- read_offsets h ;; ret (mkBeg h (fst mm) (snd mm) o)) f1).
  { eexists. split; [reflexivity|]. unfold read_beginning. rewrite (bind_run _ _ _ _ _ (read_header_ok h _ _ W1 W2 R0)). reflexivity. }
  destruct RB as (mm & EM & ->).
  assert (S1 : match mm f1 with (_, Raise _) => True | (f2, Ok _) => 0 <= fpos f2 /\ (zlen (rest f2) < table_len h \/ rest f2 = []) end).
  { rewrite EM, W3. destruct o as [s|]; cbn [is_some osect_bytes osect_ok] in *.
    - destruct (Z.lt_ge_cases (j - 32) (zlen (msect_bytes E s))) as [Q2|Q2].
      + rewrite ztake_app_le in R1 by lia. pose proof (read_metadata_trunc s f1 (j - 32) W4 P1 ltac:(lia) R1) as S.
        unfold bind. destruct (read_metadata E f1) as [f2 [v|e]]; cbn [stuck ret] in *; tauto.
      + rewrite ztake_app_ge in R1 by lia. rewrite (bind_run _ _ _ _ _ (read_metadata_ok E HE s _ _ W4 P1 R1)). cbn [ret].
        split; [rewrite fpos_adv; lia|]. left. rewrite (rest_adv_app _ _ _ _ P1 R1 eq_refl). rewrite zlen_ztake. unfold body_pos in Hj. cbn [osect_bytes] in Hj.
        pose proof (zlen_nonneg (t ++ q)). pose proof (zlen_nonneg t). lia.
    - cbn [ret]. split; [auto|]. left. rewrite R1, zlen_ztake. unfold body_pos in Hj. cbn [osect_bytes] in Hj. unfold zlen at 1 in Hj. cbn [List.length] in Hj.
      pose proof (zlen_nonneg t). match goal with |- context [Z.min _ ?z] => pose proof (zlen_nonneg (t ++ q)) end. lia. }
  apply (stuck_end h _ W5).
  - unfold bind at 1. destruct (mm f1) as [f2 [v|e]]; [|exact I]. destruct S1 as [P2 S1].
    pose proof (read_offsets_short h f2 W1 W5 P2 S1) as S2. unfold bind. destruct (read_offsets h f2) as [f3 [l|e]]; cbn [stuck ret] in *; auto.
  - intros f' bg X. unfold bind at 1 in X. destruct (mm f1) as [f2 [v|e]]; [|discriminate]. unfold bind in X.
    destruct (read_offsets h f2) as [f3 [l|e]]; [|discriminate]. cbn [ret] in X. injection X as _ <-. reflexivity.
Qed.

Lemma shape_trunc h o t cs tail k : header_ok h -> h_version h = 3 -> h_metadata h = is_some o -> osect_ok E o ->
  h_nchunks h = zlen cs -> 1 <= zlen cs -> Forall (chunk_ok E) cs -> zlen t = table_len h ->
  let u := unpack_core E (ztake k (header_bytes h ++ osect_bytes E o ++ t ++ body E (h_checksum h) cs ++ tail)) in
  (forall v, snd u = Ok v -> fst u = content cs /\ v = osect_val o /\ body_pos E h o + zlen (body E (h_checksum h) cs) - cks_size (h_checksum h) <= k) /\
  exists a b, cs = a ++ b /\ fst u = content a.
Proof.
  intros W1 W2 W3 W4 W5 W6 W7 ZT u.
  destruct (Z.lt_ge_cases k (body_pos E h o)) as [Q|Q].
  - destruct (front_trunc h o t (body E (h_checksum h) cs ++ tail) k) as [e EE]; auto; [lia|].
    unfold u. rewrite EE. cbn [fst snd]. split; [discriminate|]. exists [], cs. auto.
  - assert (EQ : ztake k (header_bytes h ++ osect_bytes E o ++ t ++ body E (h_checksum h) cs ++ tail)
                 = header_bytes h ++ osect_bytes E o ++ t ++ ztake (k - body_pos E h o) (body E (h_checksum h) cs ++ tail)).
    { unfold body_pos in *. pose proof (zlen_header_bytes h). pose proof (zlen_nonneg (osect_bytes E o)). pose proof (zlen_nonneg t).
      rewrite !ztake_app_ge by lia. do 4 f_equal. lia. }
    unfold u. rewrite EQ, unpack_front; auto; [|rewrite W5; apply zlen_nonneg]. cbn [fst snd].
    replace (Z.to_nat (h_nchunks h)) with (List.length cs) by (rewrite W5; unfold zlen; lia).
    destruct (uloop_trunc (h_checksum h) tail cs W7 (k - body_pos E h o)) as [U1 U2].
    destruct (uloop _ _ _ _) as [oo [[]|e]]; cbn [fst snd rbind] in *; (split; [|exact U2]); [|discriminate].
    intros v X. injection X as <-. destruct (U1 eq_refl) as [U3 U4]. split; [auto|]. split; [auto|].
    assert (cs <> []) by (intros ->; unfold zlen in W6; cbn in W6; lia). specialize (U4 H). lia.
Qed.

Lemma content_parts f h o cs tail b m a b2 : arch E f h o cs tail b m -> cs = a ++ b2 ->
  0 <= zlen a <= F_n f /\ content a = sub 0 (zlen a * F_chunk f) b.
Proof.
  intros A EQ. pose proof (ar_wf _ _ _ _ _ _ _ _ A) as W. pose proof (wf_fields E HE _ _ _ _ _ W) as F.
  rewrite (fi_n _ _ _ _ F), (wf_n _ _ _ _ _ _ W), (fi_chunk _ _ _ _ F). split.
  { rewrite EQ, zlen_app. pose proof (zlen_nonneg a). pose proof (zlen_nonneg b2). lia. }
  destruct b2 as [|[c x] b2].
  - rewrite app_nil_r in EQ. subst a. destruct (arch_split E _ _ _ _ _ _ _ A) as (cs0 & cl & xl & EQ & LN & SZ & LX & CO & HC & N1 & L1 & CB & BC).
    rewrite <- (ar_content _ _ _ _ _ _ _ _ A). symmetry. rewrite <- (app_nil_r (content cs)) at 1. 
    assert (LB : zlen (content cs) <= zlen cs * h_chunk_size h).
    { rewrite (ar_content _ _ _ _ _ _ _ _ A), BC, zlen_app, LX, EQ, zlen_app. change (zlen [(cl, xl)]) with 1.
      assert (LC : zlen (content cs0) = zlen cs0 * h_chunk_size h); [|lia].
      rewrite LN. revert SZ. replace (h_nchunks h - 1) with (zlen cs0) by lia. clear. induction cs0 as [|[c x] cs0 IH]; intros SZ; [reflexivity|].
      unfold content in *. cbn [map concat snd] in *. rewrite zlen_app, zlen_cons. unfold zrep in *.
      replace (Z.to_nat (zlen ((c, x) :: cs0))) with (S (Z.to_nat (zlen cs0))) in SZ by (rewrite zlen_cons; pose proof (zlen_nonneg cs0); lia).
      cbn [repeat] in SZ. injection SZ as S1 S2. rewrite IH by auto. lia. }
    rewrite app_nil_r. unfold sub. cbn [Z.to_nat skipn]. apply firstn_all2. unfold zlen in LB |- *. lia.
  - subst cs. eapply content_prefix; eauto.
Qed.

Theorem truncation f b m k : archive E f b m ->
  let u := unpack_core E (firstn k f) in
  (forall m', snd u = Ok m' -> fst u = b /\ m' = m /\ chunks_end f <= Z.of_nat k) /\
  exists i, 0 <= i <= F_n f /\ fst u = sub 0 (i * F_chunk f) b.
Proof.
  intros HA. destruct (archive_arch E HE _ _ _ HA) as (h & o & cs & tail & A).
  pose proof (ar_wf _ _ _ _ _ _ _ _ A) as W. rewrite (chunks_end_wf _ _ _ _ _ W).
  replace (firstn k f) with (ztake (Z.of_nat k) f) by (rewrite ztake_firstn, Nat2Z.id; reflexivity).
  destruct (shape_trunc h o (table E h o cs) cs tail (Z.of_nat k)) as [S1 (a & b2 & S2 & S3)];
    try (apply W); [apply (zlen_table E _ _ _ _ _ W)|].
  rewrite <- (wf_bytes _ _ _ _ _ _ W) in S1, S3. cbv zeta. split.
  - intros m' X. destruct (S1 m' X) as (Y1 & Y2 & Y3). rewrite (ar_content _ _ _ _ _ _ _ _ A) in Y1. rewrite (ar_meta _ _ _ _ _ _ _ _ A) in Y2. auto.
  - exists (zlen a). rewrite S3. eapply content_parts; eauto.
Qed.

(** ** C19: crashes while packing *)
Lemma firstn_log_of j : forall p x, firstn j (log_of p x) = log_of p (firstn j x).
Proof. induction j as [|j IH]; intros p [|b x]; try reflexivity. cbn [firstn log_of]. rewrite IH. reflexivity. Qed.
Lemma length_log_of x : forall p, List.length (log_of p x) = List.length x.
Proof. induction x as [|b x IH]; intros p; [reflexivity|]. cbn [log_of List.length]. rewrite IH. reflexivity. Qed.
Lemma write_at_nil x : write_at [] 0 x = x.
Proof. destruct x as [|b x]; [reflexivity|]. unfold write_at. rewrite ztake_0, zdrop_all by (unfold zlen; cbn; lia). cbn [app zrep]. rewrite app_nil_r. reflexivity. Qed.

Definition blank (h : header) : bytes := if h_offsets h then words (zrep (h_nchunks h + h_max_app h) (-1)) else [].
Lemma zlen_blank h : header_ok h -> 0 <= h_nchunks h -> zlen (blank h) = table_len h.
Proof.
  intros [_ Hn] H0. unfold header_nums_ok in Hn. unfold blank, table_len. destruct (h_offsets h); [|reflexivity].
  rewrite zlen_words, zlen_zrep. lia.
Qed.

Lemma crash_pack h o cs j : header_ok h -> h_nchunks h = zlen cs ->
  exists t k, crash j (log_after E h o cs) [] = ztake k (header_bytes h ++ osect_bytes E o ++ t ++ concat (map (stored E (h_checksum h)) cs)) /\
    zlen t = table_len h /\
    (Z.of_nat j <= zlen (file_of E h o cs) -> t = blank h /\ k = Z.of_nat j).
Proof.
  intros HO HN. pose proof HO as [_ Hn]. unfold header_nums_ok in Hn. pose proof (zlen_nonneg cs) as NN.
  set (bd := concat (map (stored E (h_checksum h)) cs)).
  assert (FP : first_pass E h o cs = header_bytes h ++ osect_bytes E o ++ blank h ++ bd) by reflexivity.
  assert (LB := zlen_blank h HO ltac:(lia)).
  assert (LF : zlen (file_of E h o cs) = zlen (first_pass E h o cs)).
  { rewrite FP. unfold file_of. fold bd. rewrite !zlen_app. f_equal. f_equal. f_equal. rewrite LB. unfold table_len.
    destruct (h_offsets h); [|reflexivity]. rewrite zlen_app, !zlen_words, zlen_zrep. unfold offs. rewrite zlen_pos_from, zlen_map. lia. }
  rewrite LF. unfold crash, log_after. rewrite firstn_app, length_log_of, fold_left_app, firstn_log_of, poke_log, write_at_nil by lia.
  destruct (Z.le_gt_cases (Z.of_nat j) (zlen (first_pass E h o cs))) as [Q|Q].
  - exists (blank h), (Z.of_nat j). replace (j - List.length (first_pass E h o cs))%nat with O by (unfold zlen in Q; lia).
    cbn [firstn fold_left]. rewrite ztake_firstn, Nat2Z.id, FP. auto.
  - rewrite (firstn_all2 (first_pass E h o cs)) by (unfold zlen in Q; lia).
    set (i := (j - List.length (first_pass E h o cs))%nat).
    set (w := if h_offsets h then words (offs E h o cs) else []).
    assert (LW : zlen w <= zlen (blank h)).
    { rewrite LB. unfold w, table_len. destruct (h_offsets h); [|unfold zlen; cbn; lia]. rewrite zlen_words. unfold offs. rewrite zlen_pos_from, zlen_map. lia. }
    replace (if h_offsets h then log_of (32 + zlen (osect_bytes E o)) (words (offs E h o cs)) else []) with (log_of (32 + zlen (osect_bytes E o)) w)
      by (unfold w; destruct (h_offsets h); reflexivity).
    pose proof (zlen_nonneg (osect_bytes E o)) as NO.
    rewrite firstn_log_of, poke_log by lia. set (y := firstn i w).
    assert (LY : zlen y <= zlen (blank h)) by (unfold y, zlen in *; rewrite firstn_length; lia).
    pose proof (zlen_nonneg y) as NY.
    set (g := write_at _ _ _).
    assert (GE : g = header_bytes h ++ osect_bytes E o ++ (y ++ zdrop (zlen y) (blank h)) ++ bd).
    { unfold g. rewrite FP. rewrite <- (ztake_zdrop (zlen y) (blank h)) at 1.
      replace (header_bytes h ++ osect_bytes E o ++ (ztake (zlen y) (blank h) ++ zdrop (zlen y) (blank h)) ++ bd)
        with ((header_bytes h ++ osect_bytes E o) ++ ztake (zlen y) (blank h) ++ (zdrop (zlen y) (blank h) ++ bd)) by (rewrite <- !app_assoc; reflexivity).
      replace (32 + zlen (osect_bytes E o)) with (zlen (header_bytes h ++ osect_bytes E o)) by (rewrite zlen_app, zlen_header_bytes; reflexivity).
      rewrite write_at_mid by (rewrite zlen_ztake; lia). rewrite <- !app_assoc. reflexivity. }
    exists (y ++ zdrop (zlen y) (blank h)), (zlen g). rewrite ztake_all by (rewrite GE; lia). split; [exact GE|].
    split; [rewrite zlen_app, zlen_zdrop; lia|lia].
Qed.

Theorem pack_crash b csa m oba obp oma f j : pack_bytes_to_bytes E b csa m oba obp oma = Ok f ->
  let g := crash j (pack_log E b csa m oba obp oma) [] in
  let u := unpack_core E g in
  (forall m', snd u = Ok m' -> fst u = b /\ m' = norm m) /\
  (exists i, 0 <= i <= F_n f /\ fst u = sub 0 (i * F_chunk f) b) /\
  (Z.of_nat j <= size f -> size g = Z.of_nat j /\
     (has_offsets f = true -> forall i, 0 <= i < F_n f + F_max f -> F_table f + 8 * (i + 1) <= size g -> i64 (F_table f + 8 * i) g = -1)) /\
  ((List.length (pack_log E b csa m oba obp oma) <= j)%nat -> g = f).
Proof.
  intros H. destruct (pack_arch_log E HE _ _ _ _ _ _ _ H) as (h & o & cs & A & FE & LG). fold (pack_log E b csa m oba obp oma) in LG.
  pose proof (ar_wf _ _ _ _ _ _ _ _ A) as W. pose proof (wf_fields E HE _ _ _ _ _ W) as F.
  pose proof (wf_header _ _ _ _ _ _ W) as HO.
  intros g u. subst u. unfold g. rewrite LG. clear g.
  destruct (crash_pack h o (map fst cs) j HO) as (t & k & CE & ZT & CB).
  { rewrite (wf_n _ _ _ _ _ _ W), zlen_map. reflexivity. }
  rewrite <- FE in CB.
  assert (BE : concat (map (stored E (h_checksum h)) (map fst cs)) = body E (h_checksum h) cs ++ []).
  { unfold body. rewrite map_map, app_nil_r. reflexivity. }
  rewrite BE in CE. rewrite CE.
  destruct (shape_trunc h o t cs [] k) as [S1 (a & b2 & S2 & S3)]; try (apply W); [exact ZT|].
  split; [|split; [|split]].
  - intros m' X. destruct (S1 m' X) as (Y1 & Y2 & Y3). rewrite (ar_content _ _ _ _ _ _ _ _ A) in Y1. rewrite (ar_meta _ _ _ _ _ _ _ _ A) in Y2. auto.
  - exists (zlen a). rewrite S3. eapply content_parts; eauto.
  - intros Hj. destruct (CB Hj) as [-> ->]. change size with (@zlen byte) in *.
    assert (LL : zlen f = zlen (header_bytes h ++ osect_bytes E o ++ blank h ++ body E (h_checksum h) cs ++ [])).
    { rewrite (wf_bytes _ _ _ _ _ _ W), !zlen_app, (zlen_table E _ _ _ _ _ W), ZT. lia. }
    assert (SZ : zlen (ztake (Z.of_nat j) (header_bytes h ++ osect_bytes E o ++ blank h ++ body E (h_checksum h) cs ++ [])) = Z.of_nat j).
    { rewrite zlen_ztake. lia. }
    split; [exact SZ|]. intros OF i Hi. rewrite SZ. intros HT.
    rewrite (fi_offsets _ _ _ _ F) in OF. rewrite (fi_n _ _ _ _ F), (fi_max _ _ _ _ F) in Hi. rewrite (fi_table _ _ _ _ F) in HT.
    pose proof (zlen_nonneg (osect_bytes E o)) as NO. pose proof (zlen_header_bytes h) as LH.
    set (X := header_bytes h ++ _) in *. rewrite (fi_table _ _ _ _ F).
    assert (FX : i64 (32 + zlen (osect_bytes E o) + 8 * i) X = -1).
    { unfold X, blank. rewrite OF. replace (h_nchunks h + h_max_app h) with (i + (1 + (h_nchunks h + h_max_app h - i - 1))) by lia.
      rewrite zrep_add by lia. rewrite (zrep_add _ 1) by lia. change (zrep 1 (-1)) with [-1]. rewrite app_assoc. cbn [app].
      apply i64_words; [unfold fits64; lia|]. rewrite zlen_app, zlen_zrep. lia. }
    rewrite <- FX. unfold i64. f_equal. rewrite <- (ztake_zdrop (Z.of_nat j) X) at 2. symmetry. apply sub_app_l; lia.
  - intros Hj. rewrite BE in FE || idtac. unfold crash in CE. rewrite firstn_all2 in CE by exact Hj. rewrite <- CE.
    unfold log_after. rewrite fold_left_app, poke_log, write_at_nil by lia.
    pose proof (zlen_nonneg (osect_bytes E o)) as NO. pose proof (zlen_header_bytes h) as LH. pose proof HO as [_ Hn]. unfold header_nums_ok in Hn.
    pose proof (wf_n _ _ _ _ _ _ W) as WN. pose proof (zlen_nonneg cs) as NN.
    rewrite FE. unfold first_pass, file_of. destruct (h_offsets h); [|reflexivity].
    rewrite poke_log by lia. rewrite words_zrep_app by lia.
    replace (32 + zlen (osect_bytes E o)) with (zlen (header_bytes h ++ osect_bytes E o)) by (rewrite zlen_app; lia).
    rewrite <- !app_assoc. rewrite (app_assoc (header_bytes h) (osect_bytes E o)). rewrite write_at_mid; [rewrite <- !app_assoc; reflexivity|].
    rewrite !zlen_words, zlen_zrep. unfold offs. rewrite zlen_pos_from, !zlen_map. lia.
Qed.

(** ** C20: bytes that do not matter *)
Lemma zdrop_split a n (g : bytes) : 0 <= a -> 0 <= n -> zdrop a g = sub a n g ++ zdrop (a + n) g.
Proof.
  intros Ha Hn. rewrite <- ztake_zdrop_sub. rewrite <- (ztake_zdrop n (zdrop a g)) at 1. f_equal. rewrite zdrop_zdrop by lia. f_equal. lia.
Qed.

Theorem unpack_relevant f b m g : archive E f b m -> agree 0 32 f g ->
  (has_meta f = true -> agree 32 (32 + u32 52 f) f g /\ agree (64 + u32 48 f) (digest_len (u8 41 f)) f g) ->
  agree (F_body f) (chunks_end f + F_digest f - F_body f) f g ->
  unpack_core E g = (b, Ok m).
Proof.
  intros HA AH AM AB. destruct (archive_arch E HE _ _ _ HA) as (h & o & cs & tail & A).
  pose proof (ar_wf _ _ _ _ _ _ _ _ A) as W. pose proof (wf_fields E HE _ _ _ _ _ W) as F.
  rewrite (fi_digest _ _ _ _ F), (fi_body _ _ _ _ F), (chunks_end_wf _ _ _ _ _ W) in AB.
  rewrite (fi_meta _ _ _ _ F), (wf_flag _ _ _ _ _ _ W) in AM.
  pose proof (zlen_table E _ _ _ _ _ W) as ZT. pose proof (zlen_header_bytes h) as LH. pose proof (zlen_nonneg (osect_bytes E o)) as NO.
  pose proof (zlen_nonneg (table E h o cs)) as NT. pose proof (zlen_nonneg (body E (h_checksum h) cs)) as NB. 
  pose proof (wf_bytes _ _ _ _ _ _ W) as FB.
  assert (S0 : sub 0 32 g = header_bytes h).
  { rewrite <- (sub_ext 0 32 f g) by (auto; lia). rewrite FB. apply sub_at0. change size with (@zlen byte). lia. }
  assert (SB : sub (body_pos E h o) (zlen (body E (h_checksum h) cs)) g = body E (h_checksum h) cs).
  { rewrite <- (agree_sub _ _ f g _ _ AB) by (unfold body_pos; lia). rewrite FB.
    rewrite (app_assoc (osect_bytes E o)), (app_assoc (header_bytes h)). apply sub_at; change size with (@zlen byte); [|reflexivity].
    rewrite !zlen_app, ZT. unfold body_pos. lia. }
  set (B := body E (h_checksum h) cs) in *.
  assert (G : exists o' t' tail', g = header_bytes h ++ osect_bytes E o' ++ t' ++ B ++ tail' /\ is_some o' = is_some o /\ osect_ok E o' /\ osect_val o' = osect_val o /\ zlen t' = table_len h).
  { assert (LB1 : 1 <= zlen B).
    { pose proof (wf_ne _ _ _ _ _ _ W) as NE. pose proof (wf_chunks _ _ _ _ _ _ W) as HC. destruct HC as [|[c x] cs' HC _]; [unfold zlen in NE; cbn in NE; lia|].
      unfold B, body. cbn [map concat fst]. rewrite zlen_app, (zlen_stored E HE). destruct (chunk_ok_len E HE _ _ HC) as [Q _]. cbn [fst] in Q.
      match goal with |- context [zlen (concat ?l)] => pose proof (zlen_nonneg (concat l)) end. pose proof (cks_size_nonneg (h_checksum h)). lia. }
    assert (LG : body_pos E h o + zlen B <= zlen g).
    { assert (Z : size (sub (body_pos E h o) (zlen B) g) = zlen B) by (rewrite SB; reflexivity).
      rewrite size_sub in Z by (unfold body_pos; lia). change size with (@zlen byte) in Z. lia. }
    assert (G0 : g = header_bytes h ++ zdrop 32 g).
    { rewrite <- S0. rewrite <- (zdrop_0 0 g) at 1 by lia. apply (zdrop_split 0 32 g); lia. }
    set (t' := sub (32 + zlen (osect_bytes E o)) (table_len h) g).
    assert (LT : zlen t' = table_len h).
    { unfold t'. change (@zlen byte) with size at 1. rewrite size_sub by lia. change size with (@zlen byte). unfold body_pos in LG. lia. }
    assert (G2 : zdrop (32 + zlen (osect_bytes E o)) g = t' ++ B ++ zdrop (body_pos E h o + zlen B) g).
    { rewrite (zdrop_split _ (table_len h)) by lia. fold t'. f_equal. fold (body_pos E h o).
      rewrite (zdrop_split _ (zlen B)) by (unfold body_pos; lia). rewrite SB. reflexivity. }
    destruct o as [s|]; cbn [is_some osect_bytes] in *.
    - destruct (AM eq_refl) as [AM1 AM2]. pose proof (wf_sect _ _ _ _ _ _ W) as SO. cbn [osect_ok] in SO.
      destruct (mfields3 s (header_bytes h) (table E h (Some s) cs ++ B ++ tail) SO LH) as (M1 & M2 & M3). rewrite <- FB in M1, M2, M3.
      assert (M4 : digest_len (u8 41 f) = cks_size (mh_checksum (ms_h s))) by (unfold digest_len; apply checksum_size_nth; exact M1).
      rewrite M4 in AM2. rewrite M2 in AM2. rewrite M3 in AM1.
      pose proof SO as (O1 & O2 & O3 & O4 & O5 & O6). pose proof (zlen_mheader_bytes _ O1) as L1.
      pose proof (zlen_nonneg (ms_payload s)) as N1. pose proof (zlen_nonneg (ms_pad s)) as N2. pose proof (zlen_msect E HE s SO) as ZM.
      pose proof (cks_size_nonneg (mh_checksum (ms_h s))) as N3.
      set (mh := ms_h s) in *. set (pad' := sub (64 + mh_comp mh) (mh_max mh - mh_comp mh) g).
      assert (LP : zlen pad' = mh_max mh - mh_comp mh).
      { unfold pad'. change (@zlen byte) with size at 1. rewrite size_sub by lia. change size with (@zlen byte). unfold body_pos in LG. cbn [osect_bytes] in LG. lia. }
      exists (Some (mkMS mh (ms_payload s) pad' (ms_val s))), t', (zdrop (body_pos E h (Some s) + zlen B) g).
      split; [|split; [reflexivity|split; [|split; [reflexivity|exact LT]]]].
      + rewrite G0 at 1. f_equal. cbn [osect_bytes]. unfold msect_bytes. cbn [ms_h ms_payload ms_pad].
        assert (Q1 : sub 32 32 g = mheader_bytes mh).
        { rewrite <- (agree_sub _ _ f g _ _ AM1) by lia. rewrite FB. unfold msect_bytes. fold mh. rewrite <- !app_assoc. apply sub_at; change size with (@zlen byte); lia. }
        assert (Q2 : sub 64 (mh_comp mh) g = ms_payload s).
        { rewrite <- (agree_sub _ _ f g _ _ AM1) by lia. rewrite FB. unfold msect_bytes. fold mh. rewrite <- !app_assoc, (app_assoc (header_bytes h)).
          apply sub_at; change size with (@zlen byte); rewrite ?zlen_app; lia. }
        assert (Q3 : sub (64 + mh_max mh) (cks_size (mh_checksum mh)) g = digest E (mh_checksum mh) (ms_payload s)).
        { rewrite <- (agree_sub _ _ f g _ _ AM2) by lia. rewrite FB. unfold msect_bytes. fold mh.
          replace (header_bytes h ++ (mheader_bytes mh ++ ms_payload s ++ ms_pad s ++ digest E (mh_checksum mh) (ms_payload s)) ++ table E h (Some s) cs ++ B ++ tail)
            with ((header_bytes h ++ mheader_bytes mh ++ ms_payload s ++ ms_pad s) ++ digest E (mh_checksum mh) (ms_payload s) ++ table E h (Some s) cs ++ B ++ tail)
            by (rewrite <- !app_assoc; reflexivity).
          apply sub_at; change size with (@zlen byte); [|rewrite (zlen_digest E HE); reflexivity]. rewrite !zlen_app. lia. }
        rewrite (zdrop_split 32 32), Q1 by lia. rewrite <- !app_assoc. f_equal. change (32 + 32) with 64.
        rewrite (zdrop_split 64 (mh_comp mh)), Q2 by lia. f_equal.
        rewrite (zdrop_split _ (mh_max mh - mh_comp mh)) by lia. fold pad'. f_equal.
        replace (64 + mh_comp mh + (mh_max mh - mh_comp mh)) with (64 + mh_max mh) by lia.
        rewrite (zdrop_split _ (cks_size (mh_checksum mh))), Q3 by lia. f_equal.
        rewrite <- G2. f_equal. lia.
      + cbn [osect_ok]. unfold msect_ok. cbn [ms_h ms_payload ms_pad ms_val]. repeat (split; [assumption|]). exact O6.
    - exists None, t', (zdrop (body_pos E h None + zlen B) g). split; [|split; [reflexivity|split; [exact I|split; [reflexivity|exact LT]]]].
      rewrite G0 at 1. f_equal. cbn [osect_bytes app]. rewrite <- G2. reflexivity. }
  destruct G as (o' & t' & tail' & -> & G1 & G2 & G3 & G4).
  rewrite unpack_front; try (apply W); auto.
  - replace (Z.to_nat (h_nchunks h)) with (List.length cs + 0)%nat by (rewrite (wf_n _ _ _ _ _ _ W); unfold zlen; lia).
    unfold B. rewrite uloop_ok by (apply W || exact HE). cbn [uloop fst snd rbind]. rewrite app_nil_r, (ar_content _ _ _ _ _ _ _ _ A), G3, (ar_meta _ _ _ _ _ _ _ _ A). reflexivity.
  - rewrite G1. apply W.
  - rewrite (wf_n _ _ _ _ _ _ W). apply zlen_nonneg.
Qed.

(** ** C15: arbitrary files *)
Lemma uloop_emitted ck f n : forall p, 0 <= p ->
  exists xs, fst (uloop E ck n (zdrop p f)) = concat xs /\ emitted E ck f p xs /\ (List.length xs <= n)%nat /\
    (snd (uloop E ck n (zdrop p f)) = Ok tt -> List.length xs = n).
Proof.
  induction n as [|n IH]; intros p Hp.
  - exists []. split; [reflexivity|]. split; [constructor|]. split; [auto|reflexivity].
  - cbn [uloop]. set (r := zdrop p f).
    assert (STOP : forall e : exn, exists xs : list bytes, fst (@nil byte, @Raise unit e) = concat xs /\ emitted E ck f p xs /\ (List.length xs <= S n)%nat /\
        (snd (@nil byte, @Raise unit e) = Ok tt -> List.length xs = S n)).
    { intros e. exists []. split; [reflexivity|]. split; [constructor|]. split; [cbn; lia|discriminate]. }
    destruct (zlen r <? 16) eqn:R16; [destruct (decode_blosc_header r); apply STOP|].
    destruct ((0 <? zlen (digest_here ck r)) && negb (bytes_eqb (digest_here ck r) (digest E ck (chunk_here r)))) eqn:DG; [apply STOP|].
    destruct (e_decompress E (chunk_here r)) as [x|e] eqn:DC; [|apply STOP].
    pose proof (zlen_nonneg f) as NF.
    assert (U : u32 12 r = u32 (p + 12) f) by (unfold r; apply zdrop_u32; lia).
    assert (LR : zlen r = zlen f - p) by (unfold r in *; rewrite zlen_zdrop in *; lia).
    pose proof (u32_range 12 r) as UR.
    assert (CH : chunk_here r = sub p (u32 (p + 12) f) f) by (unfold chunk_here; rewrite U; apply ztake_zdrop_sub).
    assert (DH : digest_here ck r = sub (p + u32 (p + 12) f) (cks_size ck) f).
    { unfold digest_here. rewrite U. unfold r. rewrite zdrop_zdrop, ztake_zdrop_sub by lia. f_equal. lia. }
    destruct (chunk_ok_len E HE _ _ DC) as [C16 CU].
    assert (CL : zlen (chunk_here r) = u32 12 r).
    { assert (X : u32 12 (chunk_here r) = u32 12 r).
      { rewrite <- (ztake_zdrop (u32 12 r) r) at 2. fold (chunk_here r). symmetry. apply u32_app; lia. }
      lia. }
    assert (FITS : p + u32 (p + 12) f <= zlen f).
    { rewrite <- U, <- CL. unfold chunk_here. rewrite zlen_ztake. lia. }
    destruct (IH (p + u32 (p + 12) f + cks_size ck)) as (xs & I1 & I2 & I3 & I4); [pose proof (cks_size_nonneg ck); lia|].
    assert (AC : after_chunk ck r = zdrop (p + u32 (p + 12) f + cks_size ck) f).
    { unfold after_chunk. rewrite U. unfold r. pose proof (cks_size_nonneg ck). rewrite zdrop_zdrop by lia. f_equal. lia. }
    rewrite AC. destruct (uloop E ck n (zdrop _ f)) as [oo v]. cbn [fst snd] in *.
    exists (x :: xs). split; [cbn [concat]; rewrite I1; reflexivity|].
    split; [|split; [cbn [List.length]; lia|intros V; cbn [List.length]; rewrite I4; auto]].
    constructor; auto.
    + lia.
    + rewrite <- CH. exact DC.
    + rewrite <- CH, <- DH. right. apply andb_false_iff in DG as [DG|DG].
      * left. apply zlen_0. pose proof (zlen_nonneg (digest_here ck r)). lia.
      * right. apply negb_false_iff in DG. apply bytes_eqb_eq in DG. exact DG.
Qed.

Lemma mheader_decode_inv b h : mheader_decode b = Ok h ->
  zlen b = 32 /\ nth_error checksum_names (Z.to_nat (u8 9 b)) = Some (cks_name (mh_checksum h)) /\
  u32 16 b = mh_max h /\ u32 20 b = mh_comp h.
Proof.
  unfold mheader_decode. intros H. destruct (negb (zlen b =? 32)) eqn:L; [discriminate|]. assert (LB : zlen b = 32) by lia. split; [auto|].
  apply rbind_Ok in H as (o & _ & H).
  apply rbind_Ok in H as (ci & H9 & H). apply rbind_Ok in H as (ck & Hck & H).
  apply rbind_Ok in H as (ki & _ & H). apply rbind_Ok in H as (co & _ & H).
  apply rbind_Ok in H as (lvl & _ & H). apply rbind_Ok in H as (sz & _ & H).
  apply rbind_Ok in H as (mx & Hmx & H). apply rbind_Ok in H as (cm & Hcm & H).
  pose proof (decode_uint32_sub 16 b ltac:(lia) ltac:(lia)) as X1. change (16 + 4) with 20 in X1. rewrite X1 in Hmx.
  pose proof (decode_uint32_sub 20 b ltac:(lia) ltac:(lia)) as X2. change (20 + 4) with 24 in X2. rewrite X2 in Hcm.
  injection Hmx as <-. injection Hcm as <-.
  unfold mk_mheader in H. apply rbind_Ok in H as (? & _ & H). apply rbind_Ok in H as (? & _ & H).
  apply rbind_Ok in H as (ck' & HK & H). rewrite check_valid_name in HK. injection HK as <-.
  apply rbind_Ok in H as (? & _ & H). apply rbind_Ok in H as (? & _ & H). apply rbind_Ok in H as (? & _ & H).
  apply rbind_Ok in H as (? & _ & H). apply rbind_Ok in H as (? & _ & H). apply rbind_Ok in H as (? & _ & H).
  injection H as <-. cbn [mh_checksum mh_max mh_comp]. split; [|auto].
  assert (CI : ci = u8 9 b).
  { unfold byte_at in H9. destruct (nth_error b 9) as [y|] eqn:NE; [|discriminate]. injection H9 as <-.
    apply nth_error_split in NE as (b1 & b2 & -> & LB1). unfold u8, sub. change (Z.to_nat 9) with 9%nat. change (Z.to_nat 1) with 1%nat. rewrite skipn_app, LB1, skipn_all2, Nat.sub_diag by lia.
    cbn [skipn app firstn]. rewrite uint_le_dec. cbn [le_dec]. lia. }
  subst ci. assert (NN : 0 <= u8 9 b) by apply uint_le_range. apply cks_of_index_inv in Hck; [|auto]. rewrite Hck. destruct ck; reflexivity.
Qed.

Lemma read_metadata_inv f f' v mh : 0 <= fpos f -> read_metadata E f = (f', Ok (v, mh)) ->
  let r := rest f in let pl := ztake (mh_comp mh) (zdrop 32 r) in
  mheader_decode (ztake 32 r) = Ok mh /\
  (exists plain, codec_decompress E (mh_codec mh) pl = Ok plain /\ e_loads E plain = Ok v) /\
  (32 + mh_comp mh <= zlen r -> 
     (mh_checksum mh <> CkNone -> ztake (cks_size (mh_checksum mh)) (zdrop (32 + mh_max mh) r) = digest E (mh_checksum mh) pl) /\
     rest f' = zdrop (32 + mh_max mh + cks_size (mh_checksum mh)) r).
Proof.
  intros Hp H r pl. unfold read_metadata, METADATA_HEADER_LENGTH in H.
  rewrite (bind_run _ _ _ _ _ (f_read_gen 32 f ltac:(lia))) in H. fold r in H.
  apply bind_Ok in H as (f1 & mh1 & H1 & H). unfold lift in H1. injection H1 as <- HD.
  pose proof (mheader_decode_inv _ _ HD) as (L32 & _ & MM & MC).
  pose proof (u32_range 16 (ztake 32 r)) as U1. pose proof (u32_range 20 (ztake 32 r)) as U2. rewrite MM in U1. rewrite MC in U2. rewrite L32 in H.
  assert (LR : 32 <= zlen r) by (rewrite zlen_ztake in L32; lia).
  rewrite (bind_run _ _ _ _ _ (f_read_gen (mh_comp mh1) (adv 32 f) ltac:(lia))) in H.
  assert (R1 : rest (adv 32 f) = zdrop 32 r) by (apply rest_adv; lia). rewrite R1 in H.
  set (pl1 := ztake (mh_comp mh1) (zdrop 32 r)) in *.
  apply bind_Ok in H as (f2 & [] & HS & H).
  apply bind_Ok in H as (f3 & [] & HC & H). apply bind_Ok in H as (f4 & plain & HP & H). unfold lift in HP. injection HP as <- HP.
  apply bind_Ok in H as (f5 & [] & HSL & H). unfold lift in HSL. injection HSL as <- _.
  apply bind_Ok in H as (f6 & vv & HL & H). unfold lift in HL. injection HL as <- HL. unfold ret in H. injection H as <- <- <-.
  fold pl1 in pl. subst pl. split; [auto|]. split; [exists plain; auto|].
  intros FIT. assert (LP : zlen pl1 = mh_comp mh1) by (unfold pl1; rewrite zlen_ztake, zlen_zdrop; lia). rewrite LP in *.
  rewrite f_seek_rel_ok in HS by (rewrite !fpos_adv; lia). rewrite !adv_adv in HS. apply (f_equal fst) in HS. cbn [fst] in HS.
  assert (R2 : rest f2 = zdrop (32 + mh_max mh1) r).
  { subst f2. unfold r, rest, adv. cbn [fpos fdata]. rewrite zdrop_zdrop by lia. f_equal. lia. }
  assert (P2 : 0 <= fpos f2) by (subst f2; rewrite fpos_adv; lia).
  destruct (cks_eqb (mh_checksum mh1) CkNone) eqn:CK.
  - apply cks_eqb_eq in CK. rewrite CK. injection HC as <-. split; [congruence|]. rewrite R2. f_equal. cbn. lia.
  - rewrite (bind_run _ _ _ _ _ (f_read_gen _ _ (cks_size_nonneg _))) in HC. rewrite R2 in HC.
    destruct (bytes_eqb _ _) eqn:BE in HC; [|discriminate]. apply bytes_eqb_eq in BE. unfold ret in HC. apply (f_equal fst) in HC. cbn [fst] in HC. subst f3. split; [auto|].
    rewrite <- BE, (zlen_digest E HE). rewrite rest_adv; [|exact P2|apply cks_size_nonneg]. rewrite R2, zdrop_zdrop; [f_equal; lia|apply cks_size_nonneg|lia].
Qed.

Lemma read_beginning_any f f' bg : read_beginning E (fp_of f) = (f', Ok bg) ->
  let h := b_header bg in
  header_ok h /\ F_n f = h_nchunks h /\ F_chunk f = h_chunk_size h /\
  nth_error checksum_names (Z.to_nat (u8 6 f)) = Some (cks_name (h_checksum h)) /\
  fdata f' = f /\ 0 <= fpos f' /\
  0 <= F_body f /\
  (has_meta f = false -> b_meta bg = PNone) /\
  (has_meta f = true -> exists ck co plain,
     let pl := sub 64 (u32 52 f) f in
     nth_error checksum_names (Z.to_nat (u8 41 f)) = Some (cks_name ck) /\
     codec_decompress E co pl = Ok plain /\ e_loads E plain = Ok (b_meta bg) /\
     (64 + u32 52 f <= size f -> ck <> CkNone -> sub (64 + u32 48 f) (digest_len (u8 41 f)) f = digest E ck pl)) /\
  (has_meta f = false \/ 64 + u32 52 f <= size f -> rest f' = zdrop (F_body f) f).
Proof.
  intros H. destruct (ro_read_beginning E (fp_of f) f' (Ok bg)) as (FD & _ & FPOS); [cbn; lia|exact H|]. cbn [fdata fp_of] in FD.
  unfold read_beginning, read_bloscpack_header in H. apply bind_Ok in H as (f1 & h & H1 & H).
  rewrite (bind_run _ _ _ _ _ (f_read_gen BLOSCPACK_HEADER_LENGTH (fp_of f) ltac:(unfold BLOSCPACK_HEADER_LENGTH; lia))) in H1.
  rewrite rest_fp_of in H1. apply bind_Ok in H1 as (f1' & h' & H1 & H2). unfold lift in H1. injection H1 as <- HD.
  destruct (FORMAT_VERSION =? h_version h') eqn:V; [|discriminate]. unfold ret in H2. injection H2 as <- <-.
  apply header_decode_inv in HD as (HO & HB). pose proof (zlen_header_bytes h') as LH.
  assert (FE : f = header_bytes h' ++ zdrop 32 f).
  { rewrite <- HB. symmetry. apply ztake_zdrop. }
  change BLOSCPACK_HEADER_LENGTH with 32 in *. rewrite HB, LH in H.
  assert (LF : 32 <= zlen f) by (rewrite FE, zlen_app; pose proof (zlen_nonneg (zdrop 32 f)); lia).
  destruct (hfields h' (zdrop 32 f) HO) as (A1 & A2 & A3 & A4 & A5 & A6 & A7 & A8 & _). rewrite <- FE in A1, A2, A3, A4, A5, A6, A7, A8.
  destruct (odd_bits (h_offsets h') (h_metadata h')) as [O1 O2]. rewrite <- A2 in O1, O2. fold (has_offsets f) in O1. fold (has_meta f) in O2.
  apply bind_Ok in H as (f2 & mm & HM & H). apply bind_Ok in H as (f3 & offs & HOF & H). unfold ret in H. injection H as -> <-. cbn [b_header b_meta].
  pose proof HO as [_ Hn]. unfold header_nums_ok in Hn.
  (* the offsets *)
  assert (P1 : 0 <= fpos (adv 32 (fp_of f))) by (cbn; lia).
  assert (R1 : rest (adv 32 (fp_of f)) = zdrop 32 f) by (rewrite rest_adv, rest_fp_of by (cbn; lia); reflexivity).
  assert (OFF : forall q, 0 <= q -> 0 <= fpos f2 -> rest f2 = zdrop q f -> F_table f = q -> rest f' = zdrop (F_body f) f).
  { intros q Hq P2 R2 TQ. unfold F_body. rewrite TQ, O1. unfold F_n, F_max. rewrite A7, A8.
    unfold read_offsets in HOF. destruct (h_offsets h').
    - unfold total_prospective_chunks in HOF. destruct (0 <=? h_nchunks h') eqn:NN; [|discriminate].
      destruct (f_read_ssize_cases (8 * (h_nchunks h' + h_max_app h')) f2) as [X|[X _]]; [|unfold bind in HOF; rewrite X in HOF; discriminate].
      rewrite (f_read_gen (8 * (h_nchunks h' + h_max_app h')) f2 ltac:(lia)) in X. rewrite (bind_run _ _ _ _ _ X) in HOF. clear X. unfold lift in HOF. apply (f_equal fst) in HOF. cbn [fst] in HOF. rewrite <- HOF.
      rewrite rest_adv by (auto; apply zlen_nonneg). rewrite R2. set (w := 8 * (h_nchunks h' + h_max_app h')).
      assert (0 <= w) by (unfold w; lia). rewrite zlen_ztake. pose proof (zlen_nonneg (zdrop q f)).
      destruct (Z.le_gt_cases w (zlen (zdrop q f))) as [Q|Q].
      + replace (Z.min (Z.max 0 w) (zlen (zdrop q f))) with w by lia. rewrite zdrop_zdrop by lia. f_equal. lia.
      + replace (Z.min (Z.max 0 w) (zlen (zdrop q f))) with (zlen (zdrop q f)) by lia. rewrite zdrop_all by lia.
        symmetry. apply zdrop_all. rewrite zlen_zdrop in Q. lia.
    - injection HOF as <- _. rewrite R2. f_equal. lia. }
  assert (FB0 : 0 <= F_body f).
  { unfold F_body, F_table, F_n, F_max. rewrite O1, A7, A8.
    assert (0 <= u32 48 f) by apply uint_le_range.
    assert (0 <= digest_len (u8 41 f)).
    { unfold digest_len. set (i := Z.to_nat _). clearbody i. do 9 (destruct i as [|i]; [cbn; lia|]). destruct i; cbn; lia. }
    unfold read_offsets in HOF. destruct (h_offsets h'); [|destruct (has_meta f); lia].
    unfold total_prospective_chunks in HOF. destruct (0 <=? h_nchunks h') eqn:NN; [|discriminate]. destruct (has_meta f); lia. }
  split; [auto|]. split; [exact A7|]. split; [exact A5|]. split; [exact A3|]. split; [auto|]. split; [auto|]. split; [auto|].
  rewrite <- O2 in HM. destruct (has_meta f) eqn:HMM.
  - apply bind_Ok in HM as (f2' & [v mh] & HR & HM). unfold ret in HM. injection HM as <- <-. cbn [fst snd].
    destruct (ro_read_metadata E (adv 32 (fp_of f)) f2' (Ok (v, mh))) as (_ & _ & P2); [exact P1|exact HR|].
    apply read_metadata_inv in HR as (I1 & (plain & I2 & I3) & I4); [|exact P1]. rewrite R1 in *.
    apply mheader_decode_inv in I1 as (L32 & D1 & D2 & D3).
    assert (TS : ztake 32 (zdrop 32 f) = sub 32 32 f) by apply ztake_zdrop_sub. rewrite TS in *.
    unfold u32, u8 in D1, D2, D3. rewrite sub_sub_32 in D1, D2, D3 by lia. fold (u8 41 f) in D1. fold (u32 48 f) in D2. fold (u32 52 f) in D3.
    change (32 + 9) with 41 in *. change (32 + 16) with 48 in *. change (32 + 20) with 52 in *. fold (u8 41 f) in D1. fold (u32 48 f) in D2. fold (u32 52 f) in D3.
    rewrite zdrop_zdrop in I2 by lia. change (32 + 32) with 64 in I2. rewrite <- D3 in I2. rewrite ztake_zdrop_sub in I2.
    assert (DL : digest_len (u8 41 f) = cks_size (mh_checksum mh)) by (unfold digest_len; apply checksum_size_nth; exact D1).
    pose proof (u32_range 48 f) as U1. pose proof (u32_range 52 f) as U2. pose proof (cks_size_nonneg (mh_checksum mh)) as NC.
    assert (LZ : zlen (zdrop 32 f) = zlen f - 32) by (rewrite zlen_zdrop; lia).
    split; [discriminate|]. split.
    + intros _. exists (mh_checksum mh), (mh_codec mh), plain. split; [auto|]. split; [auto|]. split; [auto|].
      intros FIT NCK. change size with (@zlen byte) in FIT. destruct I4 as [I4 _]; [lia|]. specialize (I4 NCK).
      rewrite !zdrop_zdrop in I4 by lia. rewrite !ztake_zdrop_sub in I4. rewrite DL.
      change (32 + 32) with 64 in I4. rewrite D3. rewrite <- I4. f_equal. lia.
    + intros [X|FIT]; [discriminate|]. change size with (@zlen byte) in FIT. destruct I4 as [_ I4]; [lia|].
      rewrite zdrop_zdrop in I4 by lia.
      apply (OFF (32 + mh_max mh + cks_size (mh_checksum mh) + 32)); [lia|exact P2|exact I4|]. unfold F_table. rewrite HMM, DL. lia.
  - injection HM as <- <-. cbn [fst snd]. split; [auto|]. split; [discriminate|]. intros _. apply (OFF 32); [lia|exact P1|exact R1|]. unfold F_table. rewrite HMM. reflexivity.
Qed.

Theorem unpack_emits f : exists ck p xs,
  fst (unpack_core E f) = concat xs /\ emitted E ck f p xs /\ zlen xs <= Z.max 0 (F_n f) /\
  (xs <> [] -> nth_error checksum_names (Z.to_nat (u8 6 f)) = Some (cks_name ck)) /\
  (xs <> [] -> has_meta f = false \/ 64 + u32 52 f <= size f -> p = F_body f) /\
  (forall m, snd (unpack_core E f) = Ok m -> zlen xs = Z.max 0 (F_n f)).
Proof.
  rewrite unpack_core_pure. destruct (read_beginning E (fp_of f)) as [f' [bg|e]] eqn:RB.
  2:{ exists CkNone, 0, []. cbn [fst snd]. split; [reflexivity|]. split; [constructor|]. split; [unfold zlen; cbn; lia|].
      split; [congruence|]. split; [congruence|discriminate]. }
  destruct (read_beginning_any _ _ _ RB) as (HO & A1 & _ & A3 & FD & FP & FB & _ & _ & RS).
  set (h := b_header bg) in *.
  assert (RR : exists p, 0 <= p /\ rest f' = zdrop p f /\ (has_meta f = false \/ 64 + u32 52 f <= size f -> zdrop p f = zdrop (F_body f) f)).
  { exists (fpos f'). split; [auto|]. split; [unfold rest; rewrite FD; reflexivity|]. intros X. rewrite <- (RS X). unfold rest. rewrite FD. reflexivity. }
  destruct RR as (p & P0 & RP & RF). rewrite RP.
  destruct (uloop_emitted (h_checksum h) f (Z.to_nat (h_nchunks h)) p P0) as (xs & U1 & U2 & U3 & U4).
  exists (h_checksum h), p, xs. destruct (uloop _ _ _ _) as [oo v]. cbn [fst snd] in *.
  split; [auto|]. split; [auto|]. split; [rewrite A1; unfold zlen; lia|]. split; [auto|]. split.
  - intros NE X. specialize (RF X). destruct xs as [|x xs]; [congruence|]. inversion U2; subst.
    change size with (@zlen byte) in *.
    apply (f_equal zlen) in RF. rewrite !zlen_zdrop in RF.
    lia.
  - intros m X. destruct v as [[]|e]; [|discriminate]. rewrite A1. specialize (U4 eq_refl). unfold zlen. lia.
Qed.

Theorem unpack_meta f m : snd (unpack_core E f) = Ok m ->
  (has_meta f = false -> m = PNone) /\
  (has_meta f = true -> exists ck co plain,
     let pl := sub 64 (u32 52 f) f in
     nth_error checksum_names (Z.to_nat (u8 41 f)) = Some (cks_name ck) /\
     codec_decompress E co pl = Ok plain /\ e_loads E plain = Ok m /\
     (64 + u32 52 f <= size f -> ck <> CkNone -> sub (64 + u32 48 f) (digest_len (u8 41 f)) f = digest E ck pl)).
Proof.
  rewrite unpack_core_pure. destruct (read_beginning E (fp_of f)) as [f' [bg|e]] eqn:RB; [|discriminate].
  destruct (read_beginning_any _ _ _ RB) as (_ & _ & _ & _ & _ & _ & _ & B1 & B2 & _).
  destruct (uloop _ _ _ _) as [oo [[]|e]]; cbn [snd rbind]; [|discriminate]. intros X. injection X as <-. auto.
Qed.
End WithEnv.
