(** Appending to files that are not archives: a last chunk whose digest is wrong
    (C47), null metadata (C50). *)
From Verif Require Import Base PyVal Checksums Headers Pretty Args FileIO Append Spec Archive BaseLemmas HeaderProofs IOProofs WfProofs PackProofs SmallProofs BytesProofs MetaProofs AppendProofs ArchiveProofs CrashProofs AppendSim HistoryProofs.
From Coq Require Import ZifyBool ZifyNat.
Ltac Zify.zify_post_hook ::= Z.div_mod_to_equations.

Section WithEnv.
Variable E : Env.
Hypothesis HE : EnvOK E.

(** *** The start of append_fp, for any bytes after the last offset *)
Lemma read_beginning_front f h o cs tail q : wf E f h o cs tail ->
  let g := header_bytes h ++ osect_bytes E o ++ table E h o cs ++ q in
  read_beginning E (fp_of g) =
    (adv (body_pos E h o) (fp_of g),
     Ok (mkBeg h (osect_val o) (option_map ms_h o) (if h_offsets h then positions E h o cs else []))).
Proof.
  intros W g. pose proof (zlen_table E _ _ _ _ _ W) as ZT. destruct W as [W1 W2 W3 W4 W5 W6 W7 W8 W9].
  assert (R0 : rest (fp_of g) = header_bytes h ++ osect_bytes E o ++ table E h o cs ++ q) by (rewrite rest_fp_of; auto).
  unfold read_beginning. rewrite (bind_run _ _ _ _ _ (read_header_ok h _ _ W1 W2 R0)).
  pose proof (rest_adv_app 32 (fp_of g) _ _ ltac:(cbn; lia) R0 (zlen_header_bytes h)) as R1.
  assert (P1 : 0 <= fpos (adv 32 (fp_of g))) by (cbn; lia).
  rewrite (bind_run _ _ _ (adv (zlen (osect_bytes E o)) (adv 32 (fp_of g))) (osect_val o, option_map ms_h o)).
  2:{ rewrite W3. destruct o as [s|]; cbn [is_some osect_bytes osect_val option_map] in *.
      - rewrite (bind_run _ _ _ _ _ (read_metadata_ok E HE s _ _ W4 P1 R1)). reflexivity.
      - rewrite zlen_nil, adv_0. reflexivity. }
  pose proof (rest_adv_app _ _ _ _ P1 R1 eq_refl) as R2.
  pose proof (zlen_nonneg (osect_bytes E o)).
  assert (P2 : 0 <= fpos (adv (zlen (osect_bytes E o)) (adv 32 (fp_of g)))) by (rewrite !fpos_adv; cbn [fpos fp_of]; lia).
  assert (A : adv (table_len h) (adv (zlen (osect_bytes E o)) (adv 32 (fp_of g))) = adv (body_pos E h o) (fp_of g)).
  { rewrite !adv_adv. f_equal. unfold body_pos. lia. }
  rewrite (bind_run _ _ _ (adv (body_pos E h o) (fp_of g)) (if h_offsets h then positions E h o cs else [])).
  { reflexivity. }
  rewrite <- A. unfold table, table_len in *. destruct (h_offsets h) eqn:Ho.
  - rewrite <- app_assoc in R2. destruct W1 as [W1 Hn]. pose proof Hn as Hn'. unfold header_nums_ok in Hn'.
    apply (read_offsets_ok h _ (words (zrep (h_max_app h) (-1))) _ q); auto.
    + split; auto.
    + lia.
    + rewrite zlen_positions; lia.
    + rewrite zlen_words, zlen_zrep. lia.
  - unfold read_offsets. rewrite Ho, adv_0. reflexivity.
Qed.

Lemma append_start_at f h o cs0 cl xl tail R c x new_size oa nf :
  wf E f h o (cs0 ++ [(cl, xl)]) tail -> h_offsets h = true ->
  16 <= zlen R -> chunk_here R = c -> e_decompress E c = Ok x ->
  let tb := table E h o (cs0 ++ [(cl, xl)]) in
  let g := front E h o tb cs0 ++ R in
  exists q, append_fp E new_size oa (nf, fp_of g) =
    append_tail E new_size (mkBeg h (osect_val o) (option_map ms_h o) (positions E h o (cs0 ++ [(cl, xl)]))) (append_bargs oa h)
      (body_pos E h o + zlen (body E (h_checksum h) cs0)) x (nf, mkfp g q []).
Proof.
  intros W Ho L16 CH CO tb g.
  assert (GE : g = header_bytes h ++ osect_bytes E o ++ table E h o (cs0 ++ [(cl, xl)]) ++ body E (h_checksum h) cs0 ++ R).
  { unfold g, front. rewrite <- !app_assoc. reflexivity. }
  pose proof (read_beginning_front _ _ _ _ _ (body E (h_checksum h) cs0 ++ R) W) as RB. cbv zeta in RB. rewrite <- GE, Ho in RB.
  destruct (wf_split E _ _ _ _ _ _ _ W) as [_ ZF]. fold tb in ZF.
  pose proof (body_pos_nonneg E _ _ _ _ _ W) as BP. pose proof (zlen_nonneg (body E (h_checksum h) cs0)) as NB.
  set (lo := body_pos E h o + zlen (body E (h_checksum h) cs0)) in *.
  unfold append_fp. rewrite (bind_run _ _ _ _ _ (onr_run _ nf _ _ _ RB)). cbn [b_offsets b_header].
  rewrite positions_snoc. fold lo. destruct (positions E h o cs0 ++ [lo]) as [|o0 os] eqn:EP.
  { destruct (positions E h o cs0); discriminate. }
  assert (LAST : List.last (o0 :: os) 0 = lo) by (rewrite <- EP; apply last_last).
  rewrite LAST.
  rewrite (bind_lift _ _ _ _ (fill_ok oa h (wf_header _ _ _ _ _ _ W))).
  rewrite (bind_run _ _ _ _ _ (onr_run _ nf _ _ _ (f_seek_at lo _ ltac:(lia)))).
  set (f1 := at_pos lo (adv (body_pos E h o) (fp_of g))).
  assert (R1 : rest f1 = R).
  { unfold rest, f1, at_pos. cbn [fpos fdata adv fp_of]. unfold g. apply zdrop_app_exact. lia. }
  destruct (read_chunk_spec E (h_checksum h) f1) as (bh & n & RC & _).
  { unfold f1, at_pos; cbn. lia. }
  { rewrite R1. exact L16. }
  rewrite (bind_run _ _ _ _ _ (onr_run _ nf _ _ _ RC)). cbn [fst snd]. rewrite R1, CH.
  rewrite (bind_lift _ _ _ _ CO).
  exists (fpos (adv n f1)). reflexivity.
Qed.

(** Two runs with the same beginning and last chunk: same result, same writes. *)
Lemma tail_sim ns bg ba lo x d1 d2 nf q1 q2 : 0 <= lo -> 0 <= offsets_pos bg ->
  let r1 := append_tail E ns bg ba lo x (nf, mkfp d1 q1 []) in
  let r2 := append_tail E ns bg ba lo x (nf, mkfp d2 q2 []) in
  snd r1 = snd r2 /\ flog (snd (fst r1)) = flog (snd (fst r2)) /\
  fold_left poke (flog (snd (fst r1))) d1 = fdata (snd (fst r1)) /\ fold_left poke (flog (snd (fst r1))) d2 = fdata (snd (fst r2)).
Proof.
  intros Hlo Hop r1 r2. unfold r1, r2. rewrite !append_tail_split.
  destruct (head_sim E ns (b_header bg) (b_offsets bg) ba lo x d1 d2 nf q1 q2 Hlo) as (H1 & H2 & H3 & H4 & H5 & _).
  unfold bind. destruct (append_head _ _ _ _ _ _ _ (nf, mkfp d1 q1 [])) as [[a1 f1] s1], (append_head _ _ _ _ _ _ _ (nf, mkfp d2 q2 [])) as [[a2 f2] s2].
  cbn [fst snd] in *. subst s2 a2. unfold faithful in *.
  destruct s1 as [[k [l|]]|e]; unfold append_end; cbn [fst snd ret].
  - assert (SM : sim (same2 d1 d2) (onr (write_offsets l) ;;; ret k)).
    { apply sim_bind; [|intros; apply sim_ret]. apply same_onr. unfold write_offsets. apply sim_bind; [apply sim_lift|intros y; apply same_write]. }
    assert (SK : forall f', onr (f_seek E (offsets_pos bg)) (a1, f') = ((a1, at_pos (offsets_pos bg) f'), Ok tt)).
    { intros f'. apply onr_run. apply f_seek_at. auto. }
    rewrite !(bind_run _ _ _ _ _ (SK _)).
    destruct (SM (a1, at_pos (offsets_pos bg) f1) (a1, at_pos (offsets_pos bg) f2)) as [(_ & _ & _ & G1 & G2 & G3) G4].
    { split; [reflexivity|]. unfold same, faithful, at_pos. cbn. auto. }
    unfold faithful in *. rewrite <- G1 in G3. auto.
  - rewrite <- H3 in H5. auto.
  - rewrite <- H3 in H5. auto.
Qed.

(** *** C47 *)
Lemma agree_front a q g : agree 0 (zlen a) (a ++ q) g -> exists R, g = a ++ R.
Proof.
  intros H. apply sub_ext in H; [|lia]. unfold sub in H. cbn [Z.to_nat skipn] in H.
  exists (skipn (Z.to_nat (zlen a)) g). rewrite <- (firstn_skipn (Z.to_nat (zlen a)) g) at 1. f_equal. rewrite <- H.
  unfold zlen. rewrite Nat2Z.id, firstn_app, firstn_all, Nat.sub_diag. cbn [firstn]. rewrite app_nil_r. reflexivity.
Qed.

Lemma chunk_at_split a R : chunk_at (zlen a) (a ++ R) = ztake (u32 12 R) R.
Proof.
  pose proof (zlen_nonneg a) as Z0. assert (S : forall p n, 0 <= p -> sub (zlen a + p) n (a ++ R) = sub p n R).
  { intros p n Hp. unfold sub. f_equal. rewrite <- !zdrop_skipn. replace (zlen a + p) with (p + zlen a) by lia.
    rewrite <- (zdrop_zdrop p (zlen a)) by lia. rewrite zdrop_app_exact by reflexivity. reflexivity. }
  unfold chunk_at, u32. rewrite S by lia. replace (zlen a) with (zlen a + 0) by lia. rewrite S by lia.
  unfold sub at 1. cbn [Z.to_nat skipn]. symmetry. apply ztake_firstn.
Qed.

Lemma zlen_one {A} (l : list A) : zlen l = 1 -> exists x, l = [x].
Proof. unfold zlen. destruct l as [|x [|y l]]; cbn [List.length]; intros H; try lia. eauto. Qed.

Record resign (f g new : bytes) (oa : obargs) (b x : bytes) (m : pyval) : Prop := mkResign {
  rs_ok : forall f' k, append_bytes E g new oa = (f', Ok k) ->
    unpack_bytes_from_bytes E f' = Ok (sub 0 ((F_n f - 1) * F_chunk f) b ++ x ++ new, m) /\ k = extra f new;
  rs_raise : forall f' e, append_bytes E g new oa = (f', Raise e) -> f' = g;
  rs_total : (b <> [] \/ new = []) -> extra f new <= F_max f -> blosc_args_ok E (effective f oa) ->
    exists f', append_bytes E g new oa = (f', Ok (extra f new)) }.

Theorem append_resigns f b m g new oa x : archive E f b m -> has_offsets f = true ->
  let lo := F_off f (F_n f - 1) in
  agree 0 lo f g -> e_decompress E (chunk_at lo g) = Ok x -> size x = F_last f -> sizable g new ->
  resign f g new oa b x m.
Proof.
  intros HA HO lo AG DX SX SZG. destruct (archive_arch E HE _ _ _ HA) as (h & o & cs & tail & A).
  pose proof (ar_wf _ _ _ _ _ _ _ _ A) as W. pose proof (wf_fields E HE _ _ _ _ _ W) as F.
  destruct (arch_split _ _ _ _ _ _ _ _ A) as (cs0 & cl & xl & -> & LN & SZ & LX & CO & HC & N1 & L1 & CB & BC).
  rewrite (fi_offsets _ _ _ _ F) in HO. rewrite (fi_last _ _ _ _ F) in SX.
  assert (LO : lo = body_pos E h o + zlen (body E (h_checksum h) cs0)).
  { unfold lo. rewrite (fi_n _ _ _ _ F), <- LN. apply (off_used E HE _ _ _ _ _ _ _ _ W HO). }
  destruct (wf_split E _ _ _ _ _ _ _ W) as [WS ZF]. rewrite <- LO in ZF.
  set (tb := table E h o (cs0 ++ [(cl, xl)])) in *. set (fr := front E h o tb cs0) in *.
  rewrite WS, <- ZF in AG. apply agree_front in AG as [R GE].
  rewrite GE, <- ZF, chunk_at_split in DX. fold (chunk_here R) in DX. set (cg := chunk_here R) in *.
  destruct (chunk_ok_len E HE _ _ DX) as [G16 GU].
  assert (CGR : zlen cg <= zlen R) by (unfold cg, chunk_here; rewrite zlen_ztake; pose proof (u32_range 12 R); lia).
  (* the archive with the damaged chunk signed *)
  set (fd := fr ++ stored E (h_checksum h) cg).
  assert (TBE : table E h o (cs0 ++ [(cg, x)]) = tb) by (unfold tb, table; rewrite !positions_snoc; reflexivity).
  assert (WD : wf E fd h o (cs0 ++ [(cg, x)]) []).
  { destruct W as [W1 W2 W3 W4 W5 W6 W7 W8 W9]. constructor; auto.
    - rewrite zlen_app in *. exact W5.
    - rewrite zlen_app in *. exact W6.
    - apply Forall_app. split; [auto|]. constructor; [exact DX|constructor].
    - rewrite positions_snoc in *. auto.
    - rewrite TBE, body_app, body_one. unfold fd, fr, front. cbn [fst]. rewrite app_nil_r, <- !app_assoc. reflexivity. }
  set (bd := content cs0 ++ x).
  assert (ZBD : zlen bd = zlen b) by (unfold bd; rewrite BC, !zlen_app; change (@zlen byte x) with (size x); lia).
  assert (AD : arch E fd h o (cs0 ++ [(cg, x)]) [] bd m).
  { constructor; auto.
    - rewrite map_app. cbn [map snd]. unfold bytes in *. rewrite SZ. unfold chunk_sizes. change (@zlen byte x) with (size x). rewrite SX. reflexivity.
    - exact (ar_c _ _ _ _ _ _ _ _ A).
    - rewrite ZBD. exact (ar_l _ _ _ _ _ _ _ _ A).
    - rewrite ZBD. exact (ar_empty _ _ _ _ _ _ _ _ A).
    - unfold content, bd. rewrite map_app, concat_app. cbn. rewrite app_nil_r. reflexivity.
    - exact (ar_meta _ _ _ _ _ _ _ _ A).
    - exact (ar_null _ _ _ _ _ _ _ _ A). }
  assert (BIG : zlen fd + 81 * zlen new + 2 ^ 32 <= 2 ^ 63 - 1 + 64).
  { unfold sizable in SZG. change size with (@zlen byte) in SZG. rewrite GE, zlen_app in SZG. unfold fd. rewrite zlen_app, (zlen_stored E HE). pose proof (cks_size_le (h_checksum h)). lia. }
  (* the two runs *)
  destruct (append_start_at f h o cs0 cl xl tail R cg x (zlen new) oa (fp_of new) W HO ltac:(lia) eq_refl DX) as (qg & RG). cbv zeta in RG. fold tb fr in RG. rewrite <- GE, <- LO in RG.
  destruct (append_start E HE _ _ _ _ _ _ _ _ _ (zlen new) oa (fp_of new) AD HO) as (qd & RD). rewrite <- LO in RD.
  assert (BGE : mkBeg h m (option_map ms_h o) (positions E h o (cs0 ++ [(cg, x)])) = mkBeg h (osect_val o) (option_map ms_h o) (positions E h o (cs0 ++ [(cl, xl)]))).
  { rewrite (ar_meta _ _ _ _ _ _ _ _ A), !positions_snoc. reflexivity. }
  rewrite BGE in RD. set (bg := mkBeg _ _ _ _) in *.
  pose proof (body_pos_nonneg E _ _ _ _ _ W) as BP. pose proof (zlen_nonneg (body E (h_checksum h) cs0)) as NB. pose proof (zlen_nonneg (osect_bytes E o)) as NO.
  assert (OP : offsets_pos bg = 32 + zlen (osect_bytes E o)) by (apply (offsets_pos_ok E HE _ _ _ _ _ _ _ _ A)).
  destruct (tail_sim (zlen new) bg (append_bargs oa h) lo x g fd (fp_of new) qg qd ltac:(lia) ltac:(lia)) as (T1 & T2 & T3 & _).
  rewrite <- RG in T1, T2, T3. rewrite <- RD in T1, T2. rewrite T2 in T3.

  (* what the capacity theorem speaks about *)
  set (c := h_chunk_size h) in *. set (l := h_last_chunk h) in *.
  assert (EX : extra f new = if zlen new <=? c - l then 0 else (zlen new - (c - l) + c - 1) / c).
  { unfold extra. rewrite (fi_chunk _ _ _ _ F), (fi_last _ _ _ _ F). reflexivity. }
  pose proof (ar_l _ _ _ _ _ _ _ _ A) as LP. pose proof (ar_empty _ _ _ _ _ _ _ _ A) as EM. pose proof (zlen_nonneg b) as ZB. pose proof (zlen_nonneg new) as ZN.
  destruct (append_outcome64 E HE _ _ _ _ _ _ _ oa new (fp_of new) AD (Z.le_refl 0) (rest_fp_of new) BIG)
    as [(nf' & q & e & RR & BAD)|(_ & BOK & nf' & k & l' & cs0' & cl' & xl' & cs1 & EC & K1 & K2 & KC & K3 & K4 & RR & _ & A')].
  - rewrite RR in T1, T3. cbn [fst snd flog fold_left] in T1, T3. constructor.
    + intros f' k' H. unfold append_bytes in H. change size with (@zlen byte) in H. injection H as H1 H2. congruence.
    + intros f' e' H. unfold append_bytes in H. change size with (@zlen byte) in H. injection H as H1 H2. congruence.
    + intros Hb HK BO. exfalso. unfold effective in BO. rewrite (fi_typesize _ _ _ _ F) in BO. fold (append_bargs oa h) in BO.
      destruct BAD as [(X & _)|[(_ & X & _)|[(_ & X & Y & _)|(_ & X & _ & Y)]]]; try congruence; try contradiction.
      * assert (B0 : zlen b = 0) by (rewrite <- ZBD, X; reflexivity). apply zlen_0 in B0. destruct Hb; contradiction.
      * rewrite EX, (fi_max _ _ _ _ F) in HK. fold c l in Y.
        assert (0 < l) by (apply LP; rewrite <- ZBD; destruct bd; [congruence|rewrite zlen_cons; pose proof (zlen_nonneg bd); lia]).
        destruct (zlen new <=? c - l) eqn:Q.
        { assert (0 <= h_max_app h * c) by (apply Z.mul_nonneg_nonneg; lia). lia. }
        assert (X' : h_max_app h + 1 <= (zlen new - (c - l) + c - 1) / c) by (apply Z.div_le_lower_bound; lia). lia.
  - apply app_inj_tail in EC as [<- EC]. injection EC as <- <-.
    rewrite RR in T1, T3. cbn [fst snd] in T1, T3.
    assert (KK : k = extra f new).
    { rewrite EX. fold c l in K3, K4. destruct (zlen new <=? c - l) eqn:Q.
      - destruct (Z.eq_dec k 0); [auto|]. destruct (K4 ltac:(lia)). lia.
      - destruct (Z.eq_dec k 0) as [->|]; [specialize (K3 eq_refl); lia|]. destruct (K4 ltac:(lia)) as (X1 & X2 & X3 & X4).
        symmetry. eapply ceil_unique; eauto. }
    set (h' := set_counts h l' (h_nchunks h + k) (h_max_app h - k)) in *.
    assert (GD : fdata (snd (fst (append_fp E (zlen new) oa (fp_of new, fp_of g)))) = relaid E h' o cs0 cs1 R).
    { rewrite <- T3. rewrite <- LO. destruct (k =? 0) eqn:K0.
      - cbn [put_at at_pos flog fpos app]. rewrite !fold_left_app. cbn [fold_left]. rewrite !poke_log by lia.
        assert (K0' : k = 0) by lia. destruct (zlen_one cs1 ltac:(unfold bytes in *; lia)) as [cx CX].
        unfold h'. rewrite K0', set_counts_id_k, CX.
        pose proof (squeezed_data_at E f h o cs0 cl xl tail l' cx R W) as SD. cbv zeta in SD. fold tb fr in SD. rewrite <- LO, <- GE in SD. exact SD.
      - cbn [put_at at_pos flog fpos app]. rewrite !fold_left_app. cbn [fold_left]. rewrite !poke_log by lia.
        pose proof (extended_data_at E f h o cs0 cl xl tail l' k cs1 R W HO K1 K2) as SD. cbv zeta in SD. fold tb fr in SD. rewrite <- LO, <- GE in SD. exact SD. }
    assert (W' : wf E (relaid E h' o cs0 cs1 R) h' o (cs0 ++ cs1) (zdrop (zlen (body E (h_checksum h) cs1)) R)).
    { pose proof (ar_wf _ _ _ _ _ _ _ _ A') as WA. apply (relaid_wf_at E f h o cs0 cl xl tail l' k cs1 R W).
      - exact (wf_header _ _ _ _ _ _ WA).
      - exact K2.
      - lia.
      - pose proof (wf_chunks _ _ _ _ _ _ WA) as X. apply Forall_app in X. tauto.
      - intros _. apply (wf_fits _ _ _ _ _ _ WA). exact HO. }
    constructor.
    + intros f' k' H. unfold append_bytes in H. change size with (@zlen byte) in H. injection H as H1 H2. rewrite T1 in H2. injection H2 as <-. split; [|exact KK]. rewrite GD in H1. subst f'.
      unfold unpack_bytes_from_bytes. rewrite (unpack_wf E HE _ _ _ _ _ W'). cbn [rbind].
      rewrite <- (ar_meta _ _ _ _ _ _ _ _ A). do 2 f_equal. unfold content. rewrite map_app, concat_app, KC. f_equal.
      rewrite (fi_n _ _ _ _ F), (fi_chunk _ _ _ _ F), BC.
      assert (LC : zlen (content cs0) = (h_nchunks h - 1) * h_chunk_size h).
      { symmetry. apply sum_const; [lia|]. rewrite <- (map_map snd zlen) in SZ. exact SZ. }
      rewrite <- LC. symmetry. apply (sub_at 0 (zlen (content cs0)) [] (content cs0) xl); reflexivity.
    + intros f' e' H. unfold append_bytes in H. change size with (@zlen byte) in H. injection H as H1 H2. congruence.
    + intros _ _ _. unfold append_bytes. change size with (@zlen byte). eexists. rewrite T1, KK. reflexivity.
Qed.

(** *** C50 *)
Lemma lstrip0_zeros b : exists i, b = repeat x00 i ++ lstrip0 b.
Proof.
  induction b as [|y b [i IH]]; [exists O; reflexivity|].
  destruct y; try (exists O; reflexivity). exists (S i). cbn [lstrip0 repeat app]. f_equal. exact IH.
Qed.
Lemma repeat_snoc {A} (x : A) n : rev (repeat x n) = repeat x n.
Proof.
  induction n as [|n IH]; [reflexivity|]. cbn [repeat rev]. rewrite IH. clear IH. induction n as [|n IH]; [reflexivity|]. cbn [repeat app]. f_equal. exact IH.
Qed.
Lemma strip0_zeros b : exists i j, b = repeat x00 i ++ strip0 b ++ repeat x00 j.
Proof.
  destruct (lstrip0_zeros b) as [i Hi]. destruct (lstrip0_zeros (rev (lstrip0 b))) as [j Hj].
  exists i, j. rewrite Hi at 1. f_equal. unfold strip0. apply (f_equal (@rev byte)) in Hj.
  rewrite rev_involutive, rev_app_distr, repeat_snoc in Hj. exact Hj.
Qed.

Lemma strip0_json p : fits64 p -> 0 <= p -> strip0 (le_enc 8 p) = b_of_string "JSON" -> json_number p.
Proof.
  intros HF Hp H. destruct (strip0_zeros (le_enc 8 p)) as (i & j & EQ). rewrite H in EQ.
  assert (LEN : (i + 4 + j = 8)%nat).
  { apply (f_equal (@List.length byte)) in EQ. rewrite !app_length, !repeat_length in EQ. cbn [List.length b_of_string] in EQ.
    pose proof (zlen_le_enc 8 p) as Z8. unfold zlen in Z8. change (Z.of_nat 8) with 8 in Z8. 
    assert (L8 : List.length (le_enc 8 p) = 8%nat) by lia. rewrite L8 in EQ. change (List.length (b_of_string "JSON")) with 4%nat in EQ. lia. }
  pose proof (f_equal le_dec EQ) as D. rewrite le_dec_enc in D. rewrite Z.mod_small in D by (unfold fits64 in HF; change (2 ^ (8 * Z.of_nat 8)) with 18446744073709551616; lia).
  exists (Z.of_nat i). split; [lia|]. rewrite D.
  assert (CI : (i = 0 \/ i = 1 \/ i = 2 \/ i = 3 \/ i = 4)%nat) by lia.
  destruct CI as [->|[->|[->|[->| ->]]]]; do 5 (destruct j as [|j]; [first [exfalso; lia|vm_compute; reflexivity]|]); exfalso; lia.
Qed.

(** A metadata section that does not start with "JSON" is never accepted. *)
Lemma read_metadata_magic f r q : zlen r = 8 -> rest f = r ++ q -> 0 <= fpos f -> strip0 r <> b_of_string "JSON" ->
  exists f' e, read_metadata E f = (f', Raise e).
Proof.
  intros L8 HR HP HS. unfold read_metadata.
  rewrite (bind_run _ _ _ _ _ (f_read_gen METADATA_HEADER_LENGTH f ltac:(unfold METADATA_HEADER_LENGTH; lia))).
  set (raw := ztake METADATA_HEADER_LENGTH (rest f)). set (f1 := adv _ f). unfold lift at 1, bind at 1.
  destruct (mheader_decode raw) as [mh|e] eqn:MD; [|eauto].
  assert (MG : mh_magic mh = strip0 r).
  { unfold mheader_decode in MD. destruct (negb (zlen raw =? 32)); [discriminate|].
    assert (SL : slice 0 8 raw = r).
    { unfold slice, raw, METADATA_HEADER_LENGTH. rewrite zdrop_0 by lia. rewrite HR, !ztake_firstn.
      change (Z.to_nat (8 - 0)) with 8%nat. change (Z.to_nat 32) with 32%nat. rewrite firstn_firstn. cbn [Nat.min].
      assert (LL : List.length r = 8%nat) by (unfold zlen in L8; lia). rewrite <- LL, firstn_app, firstn_all, Nat.sub_diag. cbn [firstn]. apply app_nil_r. }
    rewrite SL in MD.
    repeat match type of MD with
    | rbind ?a _ = Ok _ => destruct a as [?|?]; cbn [rbind] in MD; [|discriminate MD]
    end.
    unfold mk_mheader in MD.
    repeat match type of MD with
    | rbind ?a _ = Ok _ => destruct a as [?|?]; cbn [rbind] in MD; [|discriminate MD]
    end.
    injection MD as <-. reflexivity. }
  assert (LK : serializer_lookup (mh_magic mh) = Raise KeyError).
  { unfold serializer_lookup. rewrite MG. apply bytes_eqb_neq in HS. rewrite HS. reflexivity. }
  unfold bind. destruct (f_read (mh_comp mh) f1) as [f2 [payload|e]]; [|eauto].
  destruct (f_seek_rel E _ f2) as [f3 [[]|e]]; [|eauto].
  match goal with |- context [match ?t f3 with _ => _ end] => destruct (t f3) as [f4 [[]|e]] end; [|eauto].
  unfold lift. destruct (codec_decompress E (mh_codec mh) payload); [|eauto]. rewrite LK. eauto.
Qed.

Lemma log_of_inj p x : forall y, log_of p x = log_of p y -> x = y.
Proof.
  revert p. induction x as [|b x IH]; intros p [|c y] H; cbn [log_of] in H; try discriminate; [reflexivity|].
  injection H as -> H. f_equal. eauto.
Qed.
Lemma log_of_length p x : List.length (log_of p x) = List.length x.
Proof. revert p. induction x as [|b x IH]; intros p; [reflexivity|]. cbn [log_of List.length]. rewrite IH. reflexivity. Qed.
Lemma app_suffix {A} (a b c d : list A) : a ++ b = c ++ d -> List.length b = List.length d -> a = c /\ b = d.
Proof.
  intros H L. assert (LA : List.length a = List.length c) by (apply (f_equal (@List.length A)) in H; rewrite !app_length in H; lia).
  split.
  - apply (f_equal (firstn (List.length a))) in H. rewrite firstn_app, firstn_all, Nat.sub_diag in H. cbn [firstn] in H. rewrite app_nil_r in H.
    rewrite H, LA, firstn_app, firstn_all, Nat.sub_diag. cbn [firstn]. apply app_nil_r.
  - apply (f_equal (skipn (List.length a))) in H. rewrite skipn_app, skipn_all, Nat.sub_diag in H. cbn [skipn app] in H.
    rewrite H, LA, skipn_app, skipn_all, Nat.sub_diag. reflexivity.
Qed.

Record null_append (f f1 new : bytes) (oa : obargs) (b : bytes) : Prop := mkNullAppend {
  na_same : snd (append_bytes E f1 new oa) = snd (append_bytes E f new oa);
  na_raise : forall f2 e, append_bytes E f1 new oa = (f2, Raise e) -> f2 = f1;
  na_fits : forall f2, append_bytes E f1 new oa = (f2, Ok 0) -> unpack_bytes_from_bytes E f2 = Ok (b ++ new, PNone);
  na_more : forall f2 k, append_bytes E f1 new oa = (f2, Ok k) -> k <> 0 ->
    i64 32 f2 = F_body f1 /\ (~ json_number (F_body f1) -> exists e, unpack_bytes_from_bytes E f2 = Raise e) }.

Theorem append_null f b m ov f1 new oa : archive E f b m -> has_offsets f = true -> rewrite_bytes E f PNone ov = (f1, Ok tt) ->
  sizable f new -> null_append f f1 new oa b.
Proof.
  intros HA HO RW SZF. destruct (archive_arch E HE _ _ _ HA) as (h & o & cs & tail & A).
  pose proof (ar_wf _ _ _ _ _ _ _ _ A) as W. pose proof (wf_fields E HE _ _ _ _ _ W) as F.
  destruct (arch_split _ _ _ _ _ _ _ _ A) as (cs0 & cl & xl & -> & LN & SZ & LX & CO & HC & N1 & L1 & CB & BC).
  unfold rewrite_bytes in RW. injection RW as RW1 RW2.
  destruct (rewrite_outcome E HE _ _ _ _ _ _ _ PNone ov A) as [(q & e & R)|(s & s' & -> & SO & ZL & MV & R & WA)].
  { rewrite R in RW2. discriminate. }
  rewrite R in RW1. cbn [fst put_at fdata fpos] in RW1. rewrite WA in RW1. clear R RW2 WA.
  change (norm PNone) with PNone in MV.
  rewrite (fi_offsets _ _ _ _ F) in HO.
  assert (BP1 : body_pos E h (Some s') = body_pos E h (Some s)) by (unfold body_pos; cbn [osect_bytes]; rewrite ZL; reflexivity).
  assert (PO1 : forall cs, positions E h (Some s') cs = positions E h (Some s) cs) by (intros; unfold positions; rewrite BP1; reflexivity).
  assert (W1 : wf E f1 h (Some s') (cs0 ++ [(cl, xl)]) tail).
  { destruct W as [V1 V2 V3 V4 V5 V6 V7 V8 V9]. constructor; auto.
    - rewrite PO1. auto.
    - rewrite <- RW1. cbn [osect_bytes]. unfold table. rewrite PO1. reflexivity. }
  pose proof (wf_fields E HE _ _ _ _ _ W1) as F1.
  destruct (wf_split E _ _ _ _ _ _ _ W1) as [WS1 ZF1]. rewrite BP1 in ZF1.
  set (lo := body_pos E h (Some s) + zlen (body E (h_checksum h) cs0)) in *.
  set (R := stored E (h_checksum h) cl ++ tail) in *.
  destruct (chunk_ok_len E HE _ _ CO) as [C16 CU].
  assert (RL : 16 <= zlen R) by (unfold R; rewrite zlen_app, (zlen_stored E HE); pose proof (cks_size_nonneg (h_checksum h)); pose proof (zlen_nonneg tail); lia).
  destruct (append_start_at f1 h (Some s') cs0 cl xl tail R cl xl (zlen new) oa (fp_of new) W1 HO RL) as (q1 & RG); [|exact CO|].
  { apply (chunk_here_ok E HE); auto. }
  cbv zeta in RG. rewrite <- WS1, BP1 in RG. fold lo in RG.
  destruct (append_start E HE _ _ _ _ _ _ _ _ _ (zlen new) oa (fp_of new) A HO) as (q0 & RD). fold lo in RD.
  rewrite append_tail_split in RG, RD. cbn [b_header b_offsets] in RG, RD. rewrite PO1 in RG.
  assert (OP1 : forall x, offsets_pos (mkBeg h (osect_val (Some s')) x (positions E h (Some s) (cs0 ++ [(cl, xl)]))) = 32) by (intros; unfold offsets_pos; cbn [b_meta osect_val]; rewrite MV; reflexivity).
  rewrite OP1 in RG. 
  pose proof (offsets_pos_ok E HE _ _ _ _ _ _ _ (positions E h (Some s) (cs0 ++ [(cl, xl)])) A) as OP. rewrite (ar_meta _ _ _ _ _ _ _ _ A) in OP. rewrite OP in RD. clear OP OP1.
  set (offs := positions E h (Some s) (cs0 ++ [(cl, xl)])) in *. set (op := 32 + zlen (osect_bytes E (Some s))) in *.
  pose proof (body_pos_nonneg E _ _ _ _ _ W) as BP. pose proof (zlen_nonneg (body E (h_checksum h) cs0)) as NB. pose proof (zlen_nonneg (osect_bytes E (Some s))) as NO.
  destruct (head_sim E (zlen new) h offs (append_bargs oa h) lo xl f f1 (fp_of new) q0 q1 ltac:(lia)) as (H1 & H2 & H3 & H4 & H5 & H6 & H7).
  unfold bind in RG, RD.
  destruct (append_head _ _ _ _ _ _ _ (fp_of new, mkfp f q0 [])) as [[a1 d1] r1], (append_head _ _ _ _ _ _ _ (fp_of new, mkfp f1 q1 [])) as [[a2 d2] r2].
  cbn [fst snd] in *. subst r2 a2. unfold faithful in *. rewrite <- H3 in H5.
  assert (ND : forall op d l k, 0 <= op -> append_end E op (k, Some l) (a1, d) =
     match encode_offsets l with Ok w => ((a1, put_at w (at_pos op d)), Ok k) | Raise e => ((a1, at_pos op d), Raise e) end).
  { intros p d l k Hp. unfold append_end. cbn [fst snd]. rewrite (bind_run _ _ _ _ _ (onr_run _ a1 _ _ _ (f_seek_at p d Hp))).
    destruct (encode_offsets l) as [w|e] eqn:EO.
    - erewrite bind_run; [reflexivity|]. apply onr_run. unfold write_offsets. rewrite (bind_lift _ _ _ _ EO). apply f_write_put.
    - unfold bind at 1, onr, write_offsets. cbn [fst snd]. rewrite (bind_lift_raise _ _ _ _ EO). reflexivity. }
  (* the outcome of the append to the original *)
  pose proof (append_outcome E HE _ _ _ _ _ _ _ oa new (fp_of new) A (Z.le_refl 0) (rest_fp_of new) SZF) as OUT.
  destruct r1 as [[k [l|]]|e].
  - rewrite ND in RD by lia. rewrite ND in RG by lia. destruct (H6 k l eq_refl) as [KP LL].
    destruct (encode_offsets l) as [w|e] eqn:EO.
    2:{ assert (LG : flog d1 = []).
        { destruct OUT as [(nf' & q & e' & RR & _)|(_ & _ & nf' & k' & l' & cs0' & cl' & xl' & cs1 & _ & _ & _ & _ & _ & _ & RR & _)]; rewrite RD in RR; [|discriminate].
          injection RR as _ RR _. unfold at_pos in RR. congruence. }
        rewrite LG in H5. cbn [fold_left] in H5.
        constructor; unfold append_bytes; change size with (@zlen byte); rewrite ?RG, ?RD; cbn [fst snd at_pos fdata].
        - reflexivity.
        - intros f2 e' H. injection H as H _. congruence.
        - intros f2 H. discriminate.
        - intros f2 k' H. discriminate. }
    destruct OUT as [(nf' & q & e' & RR & _)|(_ & _ & nf' & k' & l' & cs0' & cl' & xl' & cs1 & EC & K1 & K2 & KC & K3 & K4 & RR & _ & A')]; [rewrite RD in RR; discriminate|].
    apply app_inj_tail in EC as [<- EC]. injection EC as <- <-. rewrite RD in RR. injection RR as _ RR <-.
    replace (k =? 0) with false in RR by lia. fold lo op in RR.
    set (h' := set_counts h l' (h_nchunks h + k) (h_max_app h - k)) in *. set (ps := positions E h' (Some s) (cs0 ++ cs1)) in *.
    apply (f_equal flog) in RR. cbn [put_at at_pos flog fpos app] in RR.
    apply encode_offsets_inv in EO as [FIT ->].
    assert (SAME : flog d1 = log_of lo (body E (h_checksum h) cs1) ++ log_of 0 (header_bytes h') /\ log_of op (words l) = log_of op (words ps)).
    { apply app_suffix; [exact RR|]. rewrite !log_of_length. apply Nat2Z.inj. fold (zlen (words l)) (zlen (words ps)).
      rewrite !zlen_words, LL. unfold ps, offs. rewrite !zlen_positions, !zlen_app. unfold bytes in *. change (zlen [(cl, xl)]) with 1. lia. }
    destruct SAME as [LG LW]. apply log_of_inj in LW. rewrite LG, fold_left_app, !poke_log in H5 by lia.
    (* the bytes afterwards *)
    assert (D2 : exists Y, fdata d2 = header_bytes h' ++ Y).
    { rewrite <- H5. rewrite WS1, <- ZF1, write_at_tail. unfold front. rewrite <- !app_assoc.
      eexists. eapply write_front; [|reflexivity]. rewrite !zlen_header_bytes. reflexivity. }
    destruct D2 as [Y D2].
    assert (WR : write_at (fdata d2) 32 (words l) = header_bytes h' ++ words ps ++ zdrop (zlen (words l)) Y).
    { rewrite D2, <- (zlen_header_bytes h'), write_at_tail, LW. reflexivity. }
    assert (PS : exists ps', ps = body_pos E h (Some s) :: ps').
    { unfold ps, positions. destruct (cs0 ++ cs1) as [|cx cy] eqn:EQ.
      - apply (f_equal zlen) in EQ. rewrite zlen_app, zlen_nil in EQ. pose proof (zlen_nonneg cs0). unfold bytes in *. lia.
      - cbn [map pos_from]. unfold h'. rewrite body_pos_counts. eauto. }
    destruct PS as [ps' PS].
    pose proof (ar_wf _ _ _ _ _ _ _ _ A') as WA. pose proof (wf_fits _ _ _ _ _ _ WA HO) as FT. fold ps in FT. rewrite PS in FT.
    inversion FT as [|? ? FT0 _]; subst x l0.
    constructor; unfold append_bytes; change size with (@zlen byte); rewrite ?RG, ?RD; cbn [fst snd put_at at_pos fdata fpos].
    + reflexivity.
    + intros f2 e' H. discriminate.
    + intros f2 H. injection H as _ H. lia.
    + intros f2 k' H _. injection H as <- _. rewrite WR, PS. rewrite (fi_body _ _ _ _ F1), BP1. split.
      * apply (i64_words 32 (header_bytes h') [] (body_pos E h (Some s)) ps'); [exact FT0|rewrite zlen_header_bytes; reflexivity].
      * intros NJ. set (g := header_bytes h' ++ _).
        assert (R0 : rest (fp_of g) = header_bytes h' ++ (le_enc 8 (body_pos E h (Some s)) ++ words ps' ++ zdrop (zlen (words l)) Y)) by (rewrite rest_fp_of; unfold g; rewrite words_cons, <- app_assoc; reflexivity).
        pose proof (rest_adv_app 32 (fp_of g) _ _ ltac:(cbn; lia) R0 (zlen_header_bytes h')) as R1.
        destruct (read_metadata_magic (adv 32 (fp_of g)) _ _ (zlen_le_enc 8 _) R1 ltac:(cbn; lia)) as (f' & e & RM).
        { intros SJ. apply NJ. apply strip0_json; auto. lia. }
        exists e. unfold unpack_bytes_from_bytes, unpack_core, read_beginning.
        rewrite (bind_run _ _ _ _ _ (read_header_ok h' _ _ (wf_header _ _ _ _ _ _ WA) (wf_version _ _ _ _ _ _ WA) R0)).
        replace (h_metadata h') with true by (symmetry; exact (wf_flag _ _ _ _ _ _ WA)).
        erewrite bind_run_raise; [reflexivity|]. erewrite bind_run_raise; [reflexivity|]. exact RM.
  - unfold append_end in RD, RG. cbn [fst snd ret] in RD, RG. unfold ret in RD, RG. assert (K0 : k = 0) by auto. subst k.
    destruct OUT as [(nf' & q & e' & RR & _)|(_ & _ & nf' & k' & l' & cs0' & cl' & xl' & cs1 & EC & K1 & K2 & KC & K3 & K4 & RR & _ & A')]; [rewrite RD in RR; discriminate|].
    apply app_inj_tail in EC as [<- EC]. injection EC as <- <-. rewrite RD in RR. injection RR as _ RR <-.
    change (0 =? 0) with true in RR. cbv iota zeta in RR. fold lo in RR.
    set (h' := set_counts h l' (h_nchunks h + 0) (h_max_app h - 0)) in *.
    rewrite RR in H5. cbn [put_at at_pos flog fpos app] in H5. rewrite fold_left_app, !poke_log in H5 by lia.
    destruct (zlen_one cs1 ltac:(unfold bytes in *; lia)) as [cx CX].
    pose proof (squeezed_data_at E f1 h (Some s') cs0 cl xl tail l' cx R W1) as SD. cbv zeta in SD. rewrite BP1 in SD. fold lo in SD. rewrite <- WS1 in SD.
    assert (HH : h' = set_counts h l' (h_nchunks h) (h_max_app h)) by (unfold h'; apply set_counts_id_k).
    rewrite <- HH, <- CX, H5 in SD.
    pose proof (ar_wf _ _ _ _ _ _ _ _ A') as WA.
    assert (W' : wf E (relaid E h' (Some s') cs0 cs1 R) h' (Some s') (cs0 ++ cs1) (zdrop (zlen (body E (h_checksum h) cs1)) R)).
    { apply (relaid_wf_at E f1 h (Some s') cs0 cl xl tail l' 0 cs1 R W1).
      - exact (wf_header _ _ _ _ _ _ WA).
      - exact K2.
      - lia.
      - pose proof (wf_chunks _ _ _ _ _ _ WA) as X. apply Forall_app in X. tauto.
      - intros _. rewrite relaid_positions, BP1, PO1, <- (relaid_positions E h (Some s) l' 0). apply (wf_fits _ _ _ _ _ _ WA). exact HO. }
    constructor; unfold append_bytes; change size with (@zlen byte); rewrite ?RG, ?RD; cbn [fst snd].
    + reflexivity.
    + intros f2 e' H. discriminate.
    + intros f2 H. injection H as <-. rewrite SD. unfold unpack_bytes_from_bytes. rewrite (unpack_wf E HE _ _ _ _ _ W'). cbn [rbind osect_val].
      rewrite MV. do 2 f_equal. unfold content. rewrite map_app, concat_app. unfold bytes in *. rewrite KC, BC, app_assoc. reflexivity.
    + intros f2 k' H X. injection H as _ <-. contradiction.
  - assert (LG : flog d1 = []).
    { destruct OUT as [(nf' & q & e' & RR & _)|(_ & _ & nf' & k' & l' & cs0' & cl' & xl' & cs1 & _ & _ & _ & _ & _ & _ & RR & _)]; rewrite RD in RR; [|discriminate].
      injection RR as _ RR _. rewrite RR; reflexivity. }
    rewrite LG in H5. cbn [fold_left] in H5.
    constructor; unfold append_bytes; change size with (@zlen byte); rewrite ?RG, ?RD; cbn [fst snd].
    + reflexivity.
    + intros f2 e' H. injection H as H _. congruence.
    + intros f2 H. discriminate.
    + intros f2 k' H. discriminate.
Qed.

(** *** C49 *)
Lemma plan_codec m a h p a' : plan_metadata E m a = Ok (h, p, a') ->
  codec_name (mh_codec h) = ma_codec a' /\
  (grows E m a -> a' = mkMA (ma_magic a) (ma_checksum a) "None" (ma_level a) (ma_max a)) /\ (~ grows E m a -> a' = a).
Proof.
  unfold plan_metadata. intros H.
  apply rbind_Ok in H as (u & H0 & H). apply rbind_Ok in H as (raw & H1 & H).
  apply rbind_Ok in H as ([p1 a1] & H2 & H).
  apply rbind_Ok in H as (mx & H3 & H). destruct (mx <? zlen p1) eqn:Hmx; [discriminate|].
  apply rbind_Ok in H as (co & H4 & H). apply rbind_Ok in H as (h1 & H5 & H). inversion H; subst h1 p1 a1. clear H.
  apply mk_mheader_Ok in H5 as (Hok & c & k & K1 & K2 & ->). apply codec_lookup_inv in H4.
  split.
  { cbn [mh_codec]. unfold check_valid_codec in *. congruence. }
  destruct (should_compress a) eqn:SC.
  - apply rbind_Ok in H2 as (co1 & C1 & H2). apply rbind_Ok in H2 as (z & C2 & H2).
    apply codec_lookup_inv in C1. unfold should_compress in SC.
    destruct co1; cbn [codec_name] in C1; [rewrite C1 in SC; discriminate|]. cbn [codec_compress] in C2.
    destruct (zlen raw <? zlen z) eqn:Hz; inversion H2; subst.
    + split; [reflexivity|]. intros N. exfalso. apply N. split; [auto|]. exists p, z. change size with (@zlen byte). repeat split; auto. lia.
    + split; [|reflexivity]. intros (_ & raw' & z' & Q1 & Q2 & Q3). exfalso. rewrite H1 in Q1. injection Q1 as <-. rewrite C2 in Q2. injection Q2 as <-.
      change size with (@zlen byte) in Q3. lia.
  - inversion H2; subst. split; [|reflexivity]. intros (Q & _). unfold should_compress in SC. rewrite Q in SC. discriminate.
Qed.

Theorem stored_level m a f' tot a' : write_metadata E m a (fp_of []) = (f', Ok (tot, a')) ->
  u8 11 (fdata f') = ma_level a /\
  nth_error codec_names (Z.to_nat (u8 10 (fdata f'))) = Some (ma_codec a') /\
  (grows E m a -> a' = mkMA (ma_magic a) (ma_checksum a) "None" (ma_level a) (ma_max a)) /\ (~ grows E m a -> a' = a).
Proof.
  intros H. destruct (plan_metadata E m a) as [[[h p] a1]|e] eqn:PL; [|rewrite (write_metadata_raise E _ _ _ _ PL) in H; discriminate].
  rewrite (write_metadata_run E HE _ _ _ _ _ (fp_of []) PL (Z.le_refl 0)) in H. injection H as <- _ <-.
  destruct (plan_codec _ _ _ _ _ PL) as (Q1 & Q2). destruct (plan_inv E HE _ _ _ _ _ PL) as [raw P].
  pose proof (mheader_bytes_describe _ (pl_ok _ _ _ _ _ _ P)) as D. unfold mheader_describes in D.
  assert (FD : fdata (put_at (msect_bytes E (sect_of h p m)) (fp_of [])) = mheader_bytes h ++ (p ++ ms_pad (sect_of h p m) ++ digest E (mh_checksum h) p)).
  { cbn [put_at fdata fpos fp_of]. pose proof (write_at_tail [] [] (msect_bytes E (sect_of h p m))) as WT. cbn [app] in WT. rewrite zlen_nil in WT. rewrite WT.
    unfold msect_bytes at 1. cbn [sect_of ms_h ms_payload]. rewrite <- !app_assoc. do 3 f_equal. rewrite zdrop_skipn, skipn_nil. apply app_nil_r. }
  rewrite FD. pose proof (zlen_mheader_bytes _ (pl_ok _ _ _ _ _ _ P)) as L.
  assert (U : forall i, 0 <= i < 32 -> u8 i (mheader_bytes h ++ (p ++ ms_pad (sect_of h p m) ++ digest E (mh_checksum h) p)) = u8 i (mheader_bytes h)).
  { intros i Hi. unfold u8. rewrite sub_app_l by lia. reflexivity. }
  rewrite !U by lia. destruct D as (_ & _ & _ & _ & D3 & D4 & _).
  split; [rewrite D4; exact (pl_level _ _ _ _ _ _ P)|]. split; [rewrite D3, Q1; reflexivity|]. exact Q2.
Qed.

End WithEnv.
