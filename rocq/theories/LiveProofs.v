(** Reading a file while it is appended to: see Overlap.v. *)
From Verif Require Import Base PyVal Checksums Headers Pretty Args FileIO Append Spec Archive Damage Overlap BaseLemmas HeaderProofs IOProofs WfProofs PackProofs SmallProofs BytesProofs MetaProofs AppendProofs ArchiveProofs CrashProofs HistoryProofs DamageProofs OverlapProofs.
From Coq Require Import ZifyBool ZifyNat.
Ltac Zify.zify_post_hook ::= Z.div_mod_to_equations.

Theorem same_reader E : r_unpack E fp f_read f_read_ssize (f_seek_rel E) = fun s => match read_beginning E s with
  | (_, Raise e) => ([], Raise e)
  | (f, Ok bg) => let '((_, out), r) := unpack_fp E (b_header bg) (f, fp_of []) in (fdata out, rbind r (fun _ => Ok (b_meta bg)))
  end.
Proof. reflexivity. Qed.
Corollary same_unpack E b : r_unpack E fp f_read f_read_ssize (f_seek_rel E) (fp_of b) = unpack_core E b.
Proof. reflexivity. Qed.

Section WithEnv.
Variable E : Env.
Hypothesis HE : EnvOK E.

Section Seen.
Variable Sn : nat -> bytes.

(** Every read at [p] of the length of [x] gives [x]. *)
Definition reads (p : Z) (x : bytes) : Prop := forall i, ztake (zlen x) (zdrop p (Sn i)) = x.
Lemma reads_split p x y : 0 <= p -> reads p (x ++ y) -> reads p x /\ reads (p + zlen x) y.
Proof.
  intros Hp H. pose proof (zlen_nonneg x). pose proof (zlen_nonneg y). assert (Q : forall i, exists r, zdrop p (Sn i) = x ++ y ++ r).
  { intros i. exists (zdrop (zlen (x ++ y)) (zdrop p (Sn i))). rewrite <- (ztake_zdrop (zlen (x ++ y)) (zdrop p (Sn i))) at 1. rewrite H, <- app_assoc. reflexivity. }
  split; intros i; destruct (Q i) as [r Hr].
  - rewrite Hr. apply ztake_app_exact. reflexivity.
  - rewrite Z.add_comm, <- zdrop_zdrop by lia. rewrite Hr, zdrop_app_exact by reflexivity. apply ztake_app_exact. reflexivity.
Qed.
Lemma l_read_ok n t p x : reads p x -> zlen x = n -> l_read Sn n (mkLive t p) = (mkLive (S t) (p + n), Ok x).
Proof.
  intros H L. pose proof (zlen_nonneg x). unfold l_read. cbn [lv_pos lv_time]. replace (n <? 0) with false by lia.
  rewrite <- L, H. reflexivity.
Qed.
Lemma l_seek_ok d t p : 0 <= p + d -> l_seek_rel d (mkLive t p) = (mkLive t (p + d), Ok tt).
Proof. intros H. unfold l_seek_rel. cbn [lv_pos lv_time]. replace (p + d <? 0) with false by lia. reflexivity. Qed.

Lemma live_metadata s t p : msect_ok E s -> 0 <= p -> reads p (msect_bytes E s) ->
  exists t', r_metadata E live (l_read Sn) l_seek_rel (mkLive t p) = (mkLive t' (p + zlen (msect_bytes E s)), Ok (ms_val s, ms_h s)).
Proof.
  intros Hs Hp Hr. pose proof (zlen_msect E HE s Hs) as ZL. pose proof (msect_decode E s Hs) as HD.
  pose proof Hs as (H1 & H2 & H3 & H4 & H5 & plain & H6 & H7).
  pose proof (zlen_mheader_bytes _ H1) as L1. pose proof (zlen_nonneg (ms_payload s)) as N1. pose proof (zlen_nonneg (ms_pad s)) as N2.
  unfold msect_bytes in Hr.
  apply reads_split in Hr as [Ra Hr]; [|lia]. rewrite L1 in Hr. apply reads_split in Hr as [Rb Hr]; [|lia]. rewrite H4 in Hr.
  apply reads_split in Hr as [_ Rd]; [|lia]. rewrite H5 in Rd.
  unfold r_metadata, METADATA_HEADER_LENGTH.
  rewrite (bind_run _ _ _ _ _ (l_read_ok 32 t p _ Ra L1)). rewrite (bind_lift _ _ _ _ HD).
  rewrite (bind_run _ _ _ _ _ (l_read_ok _ _ _ _ Rb H4)).
  rewrite (bind_run _ _ _ _ _ (l_seek_ok (mh_max (ms_h s) - mh_comp (ms_h s)) (S (S t)) (p + 32 + mh_comp (ms_h s)) ltac:(lia))).
  assert (X : exists t', (if cks_eqb (mh_checksum (ms_h s)) CkNone then ret tt
     else bind (l_read Sn (cks_size (mh_checksum (ms_h s)))) (fun expected =>
       if bytes_eqb (digest E (mh_checksum (ms_h s)) (ms_payload s)) expected then ret tt else raise ChecksumMismatch))
     (mkLive (S (S t)) (p + 32 + mh_comp (ms_h s) + (mh_max (ms_h s) - mh_comp (ms_h s)))) = (mkLive t' (p + zlen (msect_bytes E s)), Ok tt)).
  { destruct (cks_eqb (mh_checksum (ms_h s)) CkNone) eqn:Hc.
    - apply cks_eqb_eq in Hc. rewrite Hc in ZL. cbn [cks_size] in ZL. exists (S (S t)). unfold ret. f_equal. f_equal. lia.
    - exists (S (S (S t))). rewrite (bind_run _ _ _ _ _ (l_read_ok _ _ _ _ Rd (zlen_digest E HE _ _))), bytes_eqb_refl.
      unfold ret. f_equal. f_equal. lia. }
  destruct X as [t' X]. exists t'. rewrite (bind_run _ _ _ _ _ X).
  rewrite (bind_lift _ _ _ _ H6).
  erewrite bind_run; [|unfold lift, serializer_lookup; rewrite H2; reflexivity].
  rewrite (bind_lift _ _ _ _ H7). reflexivity.
Qed.

Lemma live_chunk ck c t p : 0 <= p -> 16 <= zlen c -> u32 12 c = zlen c -> reads p (stored E ck c) ->
  exists t' d, r_next live (l_read Sn) l_seek_rel ck (mkLive t p) = (mkLive t' (p + zlen (stored E ck c)), Ok (c, d)) /\
    (truthy d = true -> d = Some (digest E ck c)).
Proof.
  intros Hp L U Hr. unfold stored in Hr |- *. apply reads_split in Hr as [Rc Rd]; [|lia].
  assert (R16 : reads p (ztake 16 c)).
  { rewrite <- (ztake_zdrop 16 c) in Rc. apply reads_split in Rc; [tauto|lia]. }
  assert (L16 : zlen (ztake 16 c) = 16) by (rewrite zlen_ztake; lia).
  assert (U16 : u32 12 (ztake 16 c) = zlen c).
  { rewrite <- U. rewrite <- (ztake_zdrop 16 c) at 2. rewrite u32_app by lia. reflexivity. }
  assert (D16 : decode_blosc_header (ztake 16 c) = Ok (mkBH (u8 0 (ztake 16 c)) (u8 1 (ztake 16 c)) (u8 2 (ztake 16 c)) (u8 3 (ztake 16 c)) (u32 4 (ztake 16 c)) (u32 8 (ztake 16 c)) (zlen c))).
  { rewrite decode_blosc_header_ok by lia. rewrite U16. reflexivity. }
  unfold r_next, r_chunk, BLOSC_HEADER_LENGTH. 
  assert (X : exists t' d, bind (l_read Sn 16) (fun raw => bind (lift (decode_blosc_header raw)) (fun bh =>
     bind (l_seek_rel (-16)) (fun _ => bind (l_read Sn (bh_ctbytes bh)) (fun compressed =>
     bind (if 0 <? cks_size ck then bind (l_read Sn (cks_size ck)) (fun x => ret (Some x)) else ret None) (fun d => ret (compressed, bh, d))))))
     (mkLive t p) = (mkLive t' (p + zlen (c ++ digest E ck c)), Ok (c, mkBH (u8 0 (ztake 16 c)) (u8 1 (ztake 16 c)) (u8 2 (ztake 16 c)) (u8 3 (ztake 16 c)) (u32 4 (ztake 16 c)) (u32 8 (ztake 16 c)) (zlen c), d))
     /\ (truthy d = true -> d = Some (digest E ck c))).
  { rewrite (bind_run _ _ _ _ _ (l_read_ok 16 t p _ R16 L16)). rewrite (bind_lift _ _ _ _ D16).
    rewrite (bind_run _ _ _ _ _ (l_seek_ok (-16) (S t) (p + 16) ltac:(lia))). replace (p + 16 + -16) with p by lia. cbn [bh_ctbytes].
    rewrite (bind_run _ _ _ _ _ (l_read_ok _ (S t) p _ Rc eq_refl)). rewrite zlen_app, (zlen_digest E HE).
    destruct (0 <? cks_size ck) eqn:Hc.
    - exists (S (S (S t))), (Some (digest E ck c)). split; [|auto].
      erewrite bind_run. 2:{ rewrite (bind_run _ _ _ _ _ (l_read_ok _ _ _ _ Rd (zlen_digest E HE _ _))). reflexivity. }
      unfold ret. f_equal. f_equal. lia.
    - exists (S (S t)), None. split; [|discriminate]. pose proof (cks_size_nonneg ck). erewrite bind_run; [|reflexivity]. unfold ret. f_equal. f_equal. lia. }
  destruct X as (t' & d & X & Y). exists t', d. split; [|exact Y]. erewrite bind_run; [|exact X]. reflexivity.
Qed.

(** Whatever is read, the output only grows. *)
Lemma unpack_loop_grows {Src} (next : SM Src (bytes * option bytes)) ck n : forall s out, at_end out ->
  exists s' r out', unpack_loop E next ck (plain_put E) n (s, out) = ((s', grow out out'), r).
Proof.
  induction n as [|n IH]; intros s out HA.
  - exists s, (Ok tt), []. rewrite grow_nil. reflexivity.
  - cbn [unpack_loop]. destruct (next s) as [s1 [[c d]|e]] eqn:N.
    2:{ exists s1, (Raise e), []. rewrite grow_nil. apply bind_run_raise. apply onl_run. auto. }
    rewrite (bind_run _ _ _ _ _ (onl_run _ _ _ _ _ N)). cbn [fst snd].
    destruct (truthy d); [destruct (bytes_eqb _ _)|].
    2:{ exists s1, (Raise ChecksumMismatch), []. rewrite grow_nil. reflexivity. }
    all: rewrite (bind_run _ _ _ (s1, out) tt) by reflexivity; destruct (e_decompress E c) as [x|e] eqn:D;
      [|exists s1, (Raise e), []; rewrite grow_nil; apply bind_run_raise; apply onr_run; unfold plain_put, lift; rewrite D; reflexivity];
      assert (P : plain_put E c out = (grow out x, Ok (zlen x)))
        by (unfold plain_put; rewrite (bind_lift _ _ _ _ D); rewrite (bind_run _ _ _ _ _ (f_write_end x out HA)); reflexivity);
      rewrite (bind_run _ _ _ _ _ (onr_run _ _ _ _ _ P));
      destruct (IH s1 (grow out x) (at_end_grow _ _ HA)) as (s' & r & out' & ->); exists s', r, (x ++ out'); rewrite grow_grow; reflexivity.
Qed.

Lemma live_loop ck cs : Forall (chunk_ok E) cs -> forall n t p out, 0 <= p -> at_end out -> reads p (body E ck cs) ->
  exists s' r out', unpack_loop E (r_next live (l_read Sn) l_seek_rel ck) ck (plain_put E) (List.length cs + n) (mkLive t p, out)
    = ((s', grow out (content cs ++ out')), r).
Proof.
  induction 1 as [|[c x] cs H _ IH]; intros n t p out Hp HA Hr.
  - apply unpack_loop_grows. auto.
  - unfold chunk_ok in H. cbn [fst snd] in H. destruct (chunk_ok_len E HE c x H) as [L U]. unfold body in Hr. cbn [map concat fst] in Hr. fold (body E ck cs) in Hr.
    pose proof (zlen_nonneg (stored E ck c)). apply reads_split in Hr as [R1 R2]; [|lia].
    destruct (live_chunk ck c t p Hp L U R1) as (t' & d & N & T). cbn [List.length Nat.add unpack_loop].
    rewrite (bind_run _ _ _ _ _ (onl_run _ _ _ _ _ N)). cbn [fst snd].
    rewrite (bind_run _ _ _ (mkLive t' (p + zlen (stored E ck c)), out) tt).
    2:{ destruct (truthy d); [|reflexivity]. rewrite (T eq_refl), bytes_eqb_refl. reflexivity. }
    assert (P : plain_put E c out = (grow out x, Ok (zlen x)))
        by (unfold plain_put; rewrite (bind_lift _ _ _ _ H); rewrite (bind_run _ _ _ _ _ (f_write_end x out HA)); reflexivity).
    rewrite (bind_run _ _ _ _ _ (onr_run _ _ _ _ _ P)).
    destruct (IH n t' (p + zlen (stored E ck c)) (grow out x) ltac:(lia) (at_end_grow _ _ HA) R2) as (s' & r & out' & ->).
    exists s', r, out'. rewrite grow_grow. unfold content. cbn [map concat snd]. rewrite <- app_assoc. reflexivity.
Qed.

Lemma live_offsets h t p : header_ok h -> 0 <= h_nchunks h -> 0 <= p -> (forall i, p + table_len h <= zlen (Sn i)) ->
  exists t' l, r_offsets live (l_read_ssize Sn) h (mkLive t p) = (mkLive t' (p + table_len h), Ok l).
Proof.
  intros [_ Hn] H0 Hp HL. unfold header_nums_ok in Hn. unfold table_len in *. unfold r_offsets.
  destruct (h_offsets h); [|exists t, []; rewrite Z.add_0_r; reflexivity].
  unfold total_prospective_chunks. replace (0 <=? h_nchunks h) with true by lia. specialize (HL t).
  set (N := h_nchunks h + h_max_app h) in *. assert (0 <= h_max_app h) by lia.
  assert (L : zlen (ztake (8 * N) (zdrop p (Sn t))) = 8 * N) by (rewrite zlen_ztake, zlen_zdrop; lia).
  assert (X : l_read_ssize Sn (8 * N) (mkLive t p) = (mkLive (S t) (p + 8 * N), Ok (ztake (8 * N) (zdrop p (Sn t))))).
  { unfold l_read_ssize, l_read. cbn [lv_pos lv_time]. replace (zlen (zdrop p (Sn t)) <? 8 * N) with false by (rewrite zlen_zdrop; lia).
    rewrite andb_false_r. replace (8 * N <? 0) with false by lia. rewrite L. reflexivity. }
  rewrite (bind_run _ _ _ _ _ X).
  destruct (decode_offsets_any (Z.to_nat (h_nchunks h)) (ztake (8 * N) (zdrop p (Sn t)))) as [l Hl]; [lia|].
  exists (S t), l. unfold lift. rewrite decode_offsets_cap by lia. rewrite Hl. reflexivity.
Qed.

Lemma live_unpack h o cs n : header_ok h -> h_version h = 3 -> h_metadata h = is_some o -> osect_ok E o ->
  Forall (chunk_ok E) cs -> h_nchunks h = zlen cs + Z.of_nat n ->
  ztake 32 (Sn 0) = header_bytes h -> reads 32 (osect_bytes E o) -> reads (body_pos E h o) (body E (h_checksum h) cs) ->
  (forall i, body_pos E h o <= zlen (Sn i)) ->
  exists rest r, unpack_live E Sn = (content cs ++ rest, r) /\ (forall v, r = Ok v -> v = osect_val o).
Proof.
  intros W1 W2 W3 W4 W5 WN R0 R1 R3 HL. pose proof (zlen_nonneg (osect_bytes E o)) as NO. pose proof (zlen_nonneg cs) as NC.
  assert (P2 : 0 <= body_pos E h o).
  { destruct W1 as [_ HN]. unfold header_nums_ok in HN. unfold body_pos, table_len. destruct (h_offsets h); lia. }
  assert (RB : exists t' l, r_beginning E live (l_read Sn) (l_read_ssize Sn) l_seek_rel (mkLive 0 0) = (mkLive t' (body_pos E h o), Ok (mkBeg h (osect_val o) (option_map ms_h o) l))).
  { unfold r_beginning.
    rewrite (bind_run _ _ _ (mkLive 1 32) h).
    2:{ unfold r_header, BLOSCPACK_HEADER_LENGTH. rewrite (bind_run _ _ _ (mkLive 1 32) (header_bytes h)).
        - rewrite (bind_lift _ _ _ _ (header_decode_bytes h W1)). unfold FORMAT_VERSION. rewrite W2. reflexivity.
        - unfold l_read. cbn [lv_pos lv_time]. rewrite zdrop_skipn. cbn [Z.to_nat skipn Z.ltb Z.compare]. rewrite R0, zlen_header_bytes. reflexivity. }
    assert (X : exists t', (if h_metadata h then bind (r_metadata E live (l_read Sn) l_seek_rel) (fun r => ret (fst r, Some (snd r))) else ret (PNone, None)) (mkLive 1 32)
                = (mkLive t' (32 + zlen (osect_bytes E o)), Ok (osect_val o, option_map ms_h o))).
    { rewrite W3. destruct o as [s|]; cbn [is_some osect_bytes osect_val option_map] in *.
      - destruct (live_metadata s 1 32 W4 ltac:(lia) R1) as [t' X]. exists t'. rewrite (bind_run _ _ _ _ _ X). reflexivity.
      - exists 1%nat. rewrite zlen_nil, Z.add_0_r. reflexivity. }
    destruct X as [t' X]. rewrite (bind_run _ _ _ _ _ X).
    destruct (live_offsets h t' (32 + zlen (osect_bytes E o)) W1 ltac:(lia) ltac:(lia)) as (t2 & l & Y); [intros i; apply HL|].
    exists t2, l. rewrite (bind_run _ _ _ _ _ Y). reflexivity. }
  destruct RB as (t' & l & RB). unfold unpack_live, r_unpack. rewrite RB. cbn [b_header b_meta].
  destruct (live_loop (h_checksum h) cs W5 n t' (body_pos E h o) (fp_of []) P2 eq_refl R3) as (s' & r & out' & X).
  replace (Z.to_nat (h_nchunks h)) with (List.length cs + n)%nat by (unfold zlen in WN; lia). rewrite X.
  exists out'. eexists. split; [reflexivity|]. destruct r; cbn [rbind]; congruence.
Qed.
End Seen.

(** Bytes no write touches. *)
Lemma replay_other log : forall d i, Forall (fun w => 0 <= fst w /\ Z.to_nat (fst w) <> i) log -> (i < List.length d)%nat ->
  nth_error (replay log d) i = nth_error d i.
Proof.
  induction log as [|[p x] log IH]; intros d i F L; [reflexivity|]. inversion F as [|? ? [F1 F2] F']; subst. cbn [fst] in *.
  unfold replay in *. cbn [fold_left]. rewrite IH; auto.
  - rewrite nth_poke by auto. replace (i =? Z.to_nat p)%nat with false by lia. replace (i <? List.length d)%nat with true by lia. reflexivity.
  - rewrite poke_length by auto. lia.
Qed.
Lemma replay_length log : forall d, Forall (fun w : Z * byte => 0 <= fst w) log -> (List.length d <= List.length (replay log d))%nat.
Proof.
  induction log as [|[p x] log IH]; intros d F; [reflexivity|]. inversion F; subst. cbn [fst] in *. unfold replay in *. cbn [fold_left].
  etransitivity; [|apply IH; auto]. rewrite poke_length by auto. lia.
Qed.
Lemma Forall_firstn {A} (P : A -> Prop) n l : Forall P l -> Forall P (firstn n l).
Proof. intros H. rewrite <- (firstn_skipn n l) in H. apply Forall_app in H. tauto. Qed.

Theorem live_reader Sn f b m new oa f' k : archive E f b m -> sizable f new -> append_bytes E f new oa = (f', Ok k) ->
  (forall i, glimpse E f new oa (Sn i)) ->
  exists rest r, unpack_live E Sn = (sub 0 ((F_n f - 1) * F_chunk f) b ++ rest, r) /\ (forall v, r = Ok v -> v = m).
Proof.
  intros HA HS HP HG. destruct (archive_arch E HE _ _ _ HA) as (h & o & cs & tail & A).
  destruct (append_shape_arch E HE _ _ _ _ _ _ _ _ _ _ _ A HS HP) as (cs0 & cl & xl & cs1 & l & -> & [_ Ho K1 K2 KC K3 K4 LOG D A']).
  set (h' := set_counts h l (h_nchunks h + k) (h_max_app h - k)) in *.
  pose proof (ar_wf _ _ _ _ _ _ _ _ A) as W. pose proof (ar_wf _ _ _ _ _ _ _ _ A') as W'.
  destruct (wf_split E _ _ _ _ _ _ _ W) as [WS ZF].
  pose proof (wf_fields E HE _ _ _ _ _ W) as F. rewrite (fi_chunk _ _ _ _ F), (fi_n _ _ _ _ F).
  pose proof (body_pos_nonneg E _ _ _ _ _ W) as BP. pose proof (zlen_nonneg (body E (h_checksum h) cs0)) as NB. pose proof (zlen_nonneg (osect_bytes E o)) as NO.
  destruct (arch_split _ _ _ _ _ _ _ _ A) as (cs0' & cl' & xl' & EQ & LN & SZ & LX & _ & C0 & N1 & L1 & _ & BE).
  apply app_inj_tail in EQ as [<- EQ]. injection EQ as <- <-.
  set (lo := body_pos E h o + zlen (body E (h_checksum h) cs0)) in *.
  assert (TP : body_pos E h o = 32 + zlen (osect_bytes E o) + 8 * (h_nchunks h + h_max_app h)) by (unfold body_pos, table_len; rewrite Ho; reflexivity).
  assert (LF : lo <= zlen f).
  { rewrite WS, zlen_app, ZF. match goal with |- _ <= _ + zlen ?x => pose proof (zlen_nonneg x) end. lia. }
  set (ws := words (positions E h' o (cs0 ++ cs1))) in *.
  assert (LW : zlen ws <= 8 * (h_nchunks h + h_max_app h)).
  { unfold ws. rewrite zlen_words, zlen_positions, zlen_app. lia. }
  assert (RG : Forall (fun w => 0 <= fst w /\ (fst w < 32 \/ 32 + zlen (osect_bytes E o) <= fst w < body_pos E h o \/ lo <= fst w)) (append_log E f new oa)).
  { rewrite LOG. repeat (apply Forall_app; split).
    - eapply Forall_impl; [|apply log_of_range]. cbn beta. intros w Hw. lia.
    - eapply Forall_impl; [|apply log_of_range]. cbn beta. rewrite zlen_header_bytes. intros w Hw. lia.
    - destruct (k =? 0); [constructor|]. eapply Forall_impl; [|apply log_of_range]. cbn beta. intros w Hw. lia. }
  assert (KEEP : forall i p, (32 <= p < 32 + zlen (osect_bytes E o) \/ body_pos E h o <= p < lo) -> nth_error (Sn i) (Z.to_nat p) = nth_error f (Z.to_nat p)).
  { intros i p Hp. destruct (HG i) as [G _]. destruct (G (Z.to_nat p)) as [j ->]. apply replay_other; [|unfold zlen in LF; lia].
    apply Forall_firstn. eapply Forall_impl; [|exact RG]. cbn beta. intros w Hw. lia. }
  assert (LEN : forall i, zlen f <= zlen (Sn i)).
  { intros i. destruct (Z.eq_dec (zlen f) 0) as [Q|Q]; [rewrite Q; apply zlen_nonneg|]. destruct (HG i) as [G _].
    destruct (G (List.length f - 1)%nat) as [j G1].
    assert (X : nth_error (crash j (append_log E f new oa) f) (List.length f - 1) <> None).
    { apply nth_error_Some. pose proof (replay_length (firstn j (append_log E f new oa)) f) as RL. unfold replay in RL. unfold crash.
      assert (Forall (fun w : Z * byte => 0 <= fst w) (firstn j (append_log E f new oa))) as RF.
      { apply Forall_firstn. eapply Forall_impl; [|exact RG]. cbn beta. tauto. }
      specialize (RL RF). unfold zlen in Q. lia. }
    rewrite <- G1 in X. apply nth_error_Some in X. unfold zlen in *. lia. }
  assert (READ : forall p x, 32 <= p -> (p + zlen x <= 32 + zlen (osect_bytes E o) \/ body_pos E h o <= p /\ p + zlen x <= lo) ->
            ztake (zlen x) (zdrop p f) = x -> reads Sn p x).
  { intros p x Hp Hr Hx i. rewrite <- Hx at 2. apply nth_error_ext. intros q. rewrite !ztake_firstn, !zdrop_skipn.
    destruct (lt_dec q (Z.to_nat (zlen x))) as [Q|Q].
    - rewrite !nth_firstn_lt by auto. rewrite !nth_skipn.
      replace (Z.to_nat p + q)%nat with (Z.to_nat (p + Z.of_nat q)) by lia. apply KEEP. lia.
    - rewrite !(proj2 (nth_error_None _ _)); auto; rewrite firstn_length; lia. }
  assert (FE : f = header_bytes h ++ osect_bytes E o ++ table E h o (cs0 ++ [(cl, xl)]) ++ body E (h_checksum h) cs0 ++ stored E (h_checksum h) cl ++ tail).
  { rewrite WS at 1. unfold front. rewrite <- !app_assoc. reflexivity. }
  pose proof (zlen_header_bytes h) as LH. pose proof (zlen_table E _ _ _ _ _ W) as LT.
  assert (R1 : reads Sn 32 (osect_bytes E o)).
  { apply READ; [lia|lia|]. rewrite FE, <- LH, zdrop_app_exact by reflexivity. apply ztake_app_exact. reflexivity. }
  assert (R3 : reads Sn (body_pos E h o) (body E (h_checksum h) cs0)).
  { apply READ; [lia|lia|]. rewrite FE. rewrite (app_assoc (osect_bytes E o)), (app_assoc (header_bytes h)).
    rewrite zdrop_app_exact by (rewrite !zlen_app; unfold body_pos; lia). apply ztake_app_exact. reflexivity. }
  assert (PRE : sub 0 ((h_nchunks h - 1) * h_chunk_size h) b = content cs0).
  { rewrite BE. unfold sub. cbn [Z.to_nat skipn]. rewrite <- ztake_firstn. apply ztake_app_exact.
    unfold content. rewrite <- LN. clear -SZ LN. rewrite <- LN in SZ. clear LN.
    induction cs0 as [|[c x] r IH]; [reflexivity|]. rewrite zlen_cons in *. pose proof (zlen_nonneg r).
    rewrite zrep_add in SZ by lia. cbn [map app zrep Z.to_nat Pos.to_nat repeat snd] in SZ. change (zrep 1 (h_chunk_size h)) with [h_chunk_size h] in SZ. cbn [app] in SZ.
    injection SZ as S1 S2. cbn [map concat snd]. rewrite zlen_app, <- (IH S2). lia. }
  rewrite PRE. rewrite <- (ar_meta _ _ _ _ _ _ _ _ A).
  assert (Z32 : forall d, sub 0 32 d = ztake 32 d) by (intros d; unfold sub; cbn [Z.to_nat skipn]; symmetry; apply ztake_firstn).
  destruct (HG 0%nat) as [_ [G|G]]; rewrite !Z32 in G.
  - apply (live_unpack Sn h o cs0 1); auto.
    + apply (wf_header _ _ _ _ _ _ W). + apply (wf_version _ _ _ _ _ _ W). + apply (wf_flag _ _ _ _ _ _ W). + apply (wf_sect _ _ _ _ _ _ W).
    + lia.
    + rewrite G, FE. apply ztake_app_exact. auto.
    + intros i. specialize (LEN i). lia.
  - apply (live_unpack Sn h' o cs0 (Z.to_nat (k + 1))); auto.
    + apply (wf_header _ _ _ _ _ _ W'). + apply (wf_version _ _ _ _ _ _ W'). + apply (wf_flag _ _ _ _ _ _ W'). + apply (wf_sect _ _ _ _ _ _ W').
    + unfold h'. cbn [h_nchunks set_counts]. lia.
    + rewrite G, HP. cbn [fst]. rewrite (wf_bytes _ _ _ _ _ _ W'). apply ztake_app_exact. rewrite zlen_header_bytes. reflexivity.
    + replace (body_pos E h' o) with (body_pos E h o); [exact R3|]. unfold body_pos, table_len, h'. cbn [h_offsets h_nchunks h_max_app set_counts]. destruct (h_offsets h); lia.
    + intros i. specialize (LEN i). replace (body_pos E h' o) with (body_pos E h o); [lia|]. unfold body_pos, table_len, h'. cbn [h_offsets h_nchunks h_max_app set_counts]. destruct (h_offsets h); lia.
Qed.
End WithEnv.
