(** Changes that nothing notices: see Unprotected.v. *)
From Verif Require Import Base PyVal Checksums Headers Pretty Args FileIO Append Spec Archive Damage Overlap Unprotected BaseLemmas HeaderProofs IOProofs WfProofs PackProofs SmallProofs BytesProofs MetaProofs AppendProofs ArchiveProofs CrashProofs HistoryProofs DamageProofs OverlapProofs.
From Coq Require Import ZifyBool ZifyNat.
Ltac Zify.zify_post_hook ::= Z.div_mod_to_equations.

Section WithEnv.
Variable E : Env.
Hypothesis HE : EnvOK E.

Lemma skipn_skipn' {A} n p (l : list A) : skipn n (skipn p l) = skipn (p + n) l.
Proof. revert l. induction p as [|p IH]; intros [|x l]; cbn [skipn Nat.add]; try reflexivity; [destruct n; reflexivity|apply IH]. Qed.
Lemma sub_plus p n k (f : bytes) : 0 <= p -> 0 <= n -> 0 <= k -> sub p (n + k) f = sub p n f ++ sub (p + n) k f.
Proof.
  intros. unfold sub. rewrite (Z2Nat.inj_add p n), (Z2Nat.inj_add n k) by lia. rewrite <- (skipn_skipn' (Z.to_nat n) (Z.to_nat p) f).
  generalize (skipn (Z.to_nat p) f) as l. intros l. rewrite <- (firstn_skipn (Z.to_nat n) l) at 1. rewrite firstn_app.
  destruct (Nat.le_gt_cases (Z.to_nat n) (List.length l)) as [L|L].
  - rewrite firstn_firstn, Nat.min_r by lia. f_equal. rewrite firstn_length, Nat.min_l by lia. f_equal. lia.
  - rewrite (skipn_all2 l) by lia. rewrite !firstn_nil. f_equal. rewrite firstn_firstn, Nat.min_r by lia. reflexivity.
Qed.

(** Chunk i of an archive. *)
Lemma piece_of f h o cs tail b m i : arch E f h o cs tail b m -> 0 <= i < F_n f ->
  exists c x, In (c, x) cs /\ piece f i = stored E (h_checksum h) c /\ x = sub (i * F_chunk f) (F_chunk f) b.
Proof.
  intros A Hi. pose proof (ar_wf _ _ _ _ _ _ _ _ A) as W. pose proof (wf_fields E HE _ _ _ _ _ W) as F.
  pose proof Hi as Hi'. rewrite (fi_n _ _ _ _ F), (wf_n _ _ _ _ _ _ W) in Hi'.
  destruct (nth_split_z cs i Hi') as (a & [c x] & b2 & EQ & LA). exists c, x.
  split; [rewrite EQ; apply in_elt|].
  destruct (chunk_pos_wf E HE _ _ _ _ _ a W c x b2 EQ) as [P1 P2]. split.
  - unfold piece. replace (Z.to_nat i) with (List.length a) by (unfold zlen in LA; lia). rewrite P2, P1, (fi_digest _ _ _ _ F).
    rewrite (wf_bytes _ _ _ _ _ _ W). rewrite EQ at 2. rewrite body_app.
    change ((c, x) :: b2) with ([(c, x)] ++ b2). rewrite body_app, body_one. cbn [fst].
    assert (X : sub (body_pos E h o + zlen (body E (h_checksum h) a)) (zlen c + cks_size (h_checksum h))
      ((header_bytes h ++ osect_bytes E o ++ table E h o cs ++ body E (h_checksum h) a) ++ stored E (h_checksum h) c ++ body E (h_checksum h) b2 ++ tail) = stored E (h_checksum h) c).
    { apply sub_at; change size with (@zlen byte).
      - rewrite !zlen_app, zlen_header_bytes, (zlen_table E _ _ _ _ _ W). unfold body_pos. lia.
      - symmetry. apply (zlen_stored E HE). }
    rewrite <- !app_assoc. rewrite <- (app_assoc (header_bytes h)), <- (app_assoc (osect_bytes E o)), <- (app_assoc (table E h o cs)) in X. exact X.
  - destruct (content_parts E HE _ _ _ _ _ _ _ a _ A EQ) as [_ C1].
    assert (EQ' : cs = (a ++ [(c, x)]) ++ b2) by (rewrite <- app_assoc; exact EQ).
    destruct (content_parts E HE _ _ _ _ _ _ _ _ _ A EQ') as [_ C2].
    rewrite zlen_app in C2. change (zlen [(c, x)]) with 1 in C2. rewrite LA in *.
    assert (CC : 0 <= F_chunk f) by (rewrite (fi_chunk _ _ _ _ F); apply (ar_c _ _ _ _ _ _ _ _ A)).
    rewrite Z.mul_add_distr_r, Z.mul_1_l, sub_plus in C2 by nia.
    unfold content in C1, C2. rewrite map_app, concat_app in C2. rewrite C1 in C2. cbn [map snd concat] in C2. rewrite app_nil_r in C2.
    apply app_inv_head in C2. exact C2.
Qed.

Theorem shuffled f b m p : archive E f b m -> Forall (fun i => 0 <= i < F_n f) p -> zlen p = F_n f ->
  unpack_bytes_from_bytes E (reassembled f p) = Ok (concat (map (fun i => sub (i * F_chunk f) (F_chunk f) b) p), m).
Proof.
  intros HA HP HL. destruct (archive_arch E HE _ _ _ HA) as (h & o & cs & tail & A).
  pose proof (ar_wf _ _ _ _ _ _ _ _ A) as W. pose proof (wf_fields E HE _ _ _ _ _ W) as F.
  assert (S : exists cs', map (piece f) p = map (fun cx => stored E (h_checksum h) (fst cx)) cs' /\
                map (fun i => sub (i * F_chunk f) (F_chunk f) b) p = map snd cs' /\ Forall (chunk_ok E) cs' /\ zlen cs' = zlen p).
  { clear HL. induction HP as [|i p Hi HP IH]; [exists []; repeat split; constructor|].
    destruct IH as (cs' & I1 & I2 & I3 & I4). destruct (piece_of _ _ _ _ _ _ _ i A Hi) as (c & x & J1 & J2 & J3).
    exists ((c, x) :: cs'). cbn [map fst snd]. rewrite I1, I2, J2, J3. repeat split.
    - constructor; auto. pose proof (wf_chunks _ _ _ _ _ _ W) as HC. rewrite Forall_forall in HC. rewrite <- J3. apply (HC _ J1).
    - rewrite !zlen_cons. lia. }
  destruct S as (cs' & S1 & S2 & S3 & S4). unfold reassembled. rewrite S1, S2.
  assert (P : sub 0 (F_body f) f = header_bytes h ++ osect_bytes E o ++ table E h o cs).
  { rewrite (fi_body _ _ _ _ F), (wf_bytes _ _ _ _ _ _ W).
    rewrite (app_assoc (header_bytes h)), (app_assoc (header_bytes h ++ _)), <- (app_assoc (header_bytes h)). 
    apply sub_at0. change size with (@zlen byte); rewrite !zlen_app, zlen_header_bytes, (zlen_table E _ _ _ _ _ W). unfold body_pos. lia. }
  rewrite P, <- !app_assoc. fold (body E (h_checksum h) cs'). fold (content cs').
  rewrite <- (ar_meta _ _ _ _ _ _ _ _ A). rewrite <- (app_nil_r (body E (h_checksum h) cs')).
  apply (unpack_content E HE h o (table E h o cs) cs' [] ) with (c := []); try apply W; auto.
  - apply (zlen_table E _ _ _ _ _ W).
  - rewrite app_nil_r. reflexivity.
  - rewrite <- (fi_n _ _ _ _ F). lia.
Qed.

Lemma u8_agree p f g : 0 <= p < 7 -> agree 0 7 f g -> u8 p f = u8 p g.
Proof. intros Hp H. unfold u8. f_equal. apply sub_ext; [lia|]. intros i Hi. apply H. lia. Qed.

Theorem renumbering f b m g j : archive E f b m -> renumbered f g -> 0 <= j <= F_n f -> F_n g = F_n f - j ->
  (has_offsets f = true -> F_max g = F_max f + j) ->
  unpack_bytes_from_bytes E g = Ok (sub 0 ((F_n f - j) * F_chunk f) b, m).
Proof.
  intros HA (G7 & GR & GN) Hj Hn Hm. destruct (archive_arch E HE _ _ _ HA) as (h & o & cs & tail & A).
  pose proof (ar_wf _ _ _ _ _ _ _ _ A) as W. pose proof (wf_fields E HE _ _ _ _ _ W) as F.
  pose proof (wf_bytes _ _ _ _ _ _ W) as FE. pose proof (zlen_header_bytes h) as Z32.
  set (R := osect_bytes E o ++ table E h o cs ++ body E (h_checksum h) cs ++ tail) in *.
  assert (ER : skipn 32 g = R).
  { rewrite <- GR, FE. replace 32%nat with (List.length (header_bytes h)) by (unfold zlen in Z32; lia). 
    rewrite skipn_app, skipn_all, Nat.sub_diag. reflexivity. }
  assert (R1 : 1 <= zlen R).
  { pose proof (wf_chunks _ _ _ _ _ _ W) as HC. pose proof (wf_ne _ _ _ _ _ _ W) as NE. destruct cs as [|[c x] cs]; [unfold zlen in NE; cbn in NE; lia|].
    inversion HC as [|? ? HC1 _]; subst. destruct (chunk_ok_len E HE _ _ HC1) as [L16 _]. cbn [fst] in L16.
    unfold R. change ((c, x) :: cs) with ([(c, x)] ++ cs). rewrite body_app, body_one, !zlen_app, (zlen_stored E HE). cbn [fst].
    pose proof (cks_size_nonneg (h_checksum h)). pose proof (zlen_nonneg (osect_bytes E o)). pose proof (zlen_nonneg tail).
    pose proof (zlen_nonneg (table E h o ([(c, x)] ++ cs))). pose proof (zlen_nonneg (body E (h_checksum h) cs)). lia. }
  assert (LG : 32 <= zlen g).
  { assert (X : zlen (skipn 32 g) = zlen R) by congruence. unfold zlen in *. rewrite skipn_length in X. lia. }
  assert (GE : g = sub 0 32 g ++ R).
  { rewrite <- ER. unfold sub. cbn [Z.to_nat skipn]. symmetry. apply (firstn_skipn 32). }
  assert (DEC : exists hg, header_decode (sub 0 32 g) = Ok hg).
  { apply header_decode_accepts. rewrite size_sub by lia. unfold u8, i32, i64. rewrite !sub_sub_32 by lia. cbn [Z.add].
    fold (u8 5 g) (u8 6 g) (u8 7 g) (i32 8 g) (i32 12 g) (i64 16 g) (i64 24 g).
    split; [change size with (@zlen byte); lia|].
    destruct (hfields h R (wf_header _ _ _ _ _ _ W)) as (A4 & A5 & A6 & _ & _ & _ & _ & _ & AM). rewrite <- FE in A4, A5, A6, AM.
    split; [rewrite <- AM; symmetry; apply sub_ext; [lia|]; intros i Hi; apply G7; lia|].
    rewrite <- !(u8_agree _ f g) by (auto; lia).
    split; [rewrite A5; destruct (h_offsets h), (h_metadata h); lia|].
    split; [|exact GN].
    assert (X : nth_error checksum_names (Z.to_nat (u8 6 f)) <> None) by congruence.
    apply nth_error_Some in X. change (List.length checksum_names) with 9%nat in X. pose proof (u8_range 6 f). lia. }
  destruct DEC as [hg DEC]. apply header_decode_inv in DEC as [HG EG]. rewrite EG in GE.
  destruct (hfields h R (wf_header _ _ _ _ _ _ W)) as (A4 & A5 & A6 & _ & _ & _ & AN & AX & _).
  destruct (hfields hg R HG) as (B4 & B5 & B6 & _ & _ & _ & BN & BX & _).
  rewrite <- FE in A4, A5, A6, AN, AX. rewrite <- GE in B4, B5, B6, BN, BX.
  rewrite <- (u8_agree 4 f g) in B4 by (auto; lia). rewrite <- (u8_agree 5 f g) in B5 by (auto; lia). rewrite <- (u8_agree 6 f g) in B6 by (auto; lia).
  assert (EO : h_offsets hg = h_offsets h) by (destruct (h_offsets h), (h_metadata h), (h_offsets hg), (h_metadata hg); lia || reflexivity).
  assert (EM : h_metadata hg = h_metadata h) by (destruct (h_offsets h), (h_metadata h), (h_offsets hg), (h_metadata hg); lia || reflexivity).
  assert (EC : h_checksum hg = h_checksum h).
  { rewrite A6 in B6. injection B6 as B6. destruct (h_checksum h), (h_checksum hg); try reflexivity; discriminate. }
  pose proof (wf_n _ _ _ _ _ _ W) as WN. unfold F_n, F_max in *.
  set (n := Z.to_nat (h_nchunks h - j)).
  assert (ECS : cs = firstn n cs ++ skipn n cs) by (symmetry; apply firstn_skipn).
  destruct (content_parts E HE _ _ _ _ _ _ _ _ _ A ECS) as [_ CP].
  assert (ZN : zlen (firstn n cs) = h_nchunks h - j) by (unfold zlen in *; rewrite firstn_length; lia).
  rewrite ZN in CP. rewrite AN, <- CP. rewrite <- (ar_meta _ _ _ _ _ _ _ _ A). rewrite GE. unfold R. rewrite <- EC.
  apply (unpack_content E HE hg o (table E h o cs) cs tail) with (c := skipn n cs); try apply W; auto.
  - rewrite <- B4, A4. apply W.
  - rewrite EM. apply W.
  - rewrite (zlen_table E _ _ _ _ _ W). unfold table_len. rewrite EO. destruct (h_offsets h) eqn:HO; [|reflexivity].
    rewrite (fi_offsets _ _ _ _ F), HO in Hm. specialize (Hm eq_refl). lia.
  - lia.
Qed.

(** ** Arguments given to append *)
Theorem arguments_stick f b m oa : archive E f b m -> has_offsets f = true ->
  append_blosc_args E oa f = obargs_of (effective f oa) /\ (forall g, effective g (append_blosc_args E oa f) = effective f oa).
Proof.
  intros HA HO. destruct (archive_arch E HE _ _ _ HA) as (h & o & cs & tail & A).
  pose proof (ar_wf _ _ _ _ _ _ _ _ A) as W. pose proof (wf_fields E HE _ _ _ _ _ W) as F.
  destruct (read_beginning_wf E HE _ _ _ _ _ W) as [RB _]. rewrite (fi_offsets _ _ _ _ F) in HO.
  assert (X : append_blosc_args E oa f = obargs_of (effective f oa)).
  { unfold append_blosc_args. rewrite RB. cbn [snd b_offsets b_header]. rewrite HO.
    pose proof (zlen_positions E h o cs) as ZP. pose proof (wf_ne _ _ _ _ _ _ W) as NE.
    destruct (positions E h o cs) as [|p ps]; [rewrite zlen_nil in ZP; lia|].
    unfold fill_blosc_args, effective. rewrite (fi_typesize _ _ _ _ F).
    pose proof (wf_header _ _ _ _ _ _ W) as (_ & T & _).
    destruct (oa_typesize oa); cbn [rbind opt]; [reflexivity|]. replace (h_typesize h =? -1) with false by lia. reflexivity. }
  split; [exact X|]. intros g. rewrite X. reflexivity.
Qed.
End WithEnv.
