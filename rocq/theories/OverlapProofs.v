(** Overlapping operations: see Overlap.v. *)
From Verif Require Import Base PyVal Checksums Headers Pretty Args FileIO Append Spec Archive Damage Overlap BaseLemmas HeaderProofs IOProofs WfProofs PackProofs SmallProofs BytesProofs MetaProofs AppendProofs ArchiveProofs CrashProofs HistoryProofs DamageProofs.
From Coq Require Import ZifyBool ZifyNat.
Ltac Zify.zify_post_hook ::= Z.div_mod_to_equations.

(** ** Two writers *)
Lemma nth_poke d p b i : 0 <= p -> nth_error (poke d (p, b)) i =
  if (i =? Z.to_nat p)%nat then Some b else if (i <? List.length d)%nat then nth_error d i
  else if (i <? Z.to_nat p)%nat then Some x00 else None.
Proof.
  intros Hp. unfold poke. set (n := Z.to_nat p). destruct (n <? List.length d)%nat eqn:L.
  - destruct (lt_eq_lt_dec i n) as [[H|H]|H].
    + replace (i =? n)%nat with false by lia. replace (i <? List.length d)%nat with true by lia.
      rewrite nth_error_app1 by (rewrite firstn_length; lia). apply nth_firstn_lt. auto.
    + subst i. rewrite Nat.eqb_refl. rewrite nth_error_app2 by (rewrite firstn_length; lia).
      replace (n - List.length (firstn n d))%nat with O by (rewrite firstn_length; lia). reflexivity.
    + replace (i =? n)%nat with false by lia.
      rewrite nth_error_app2 by (rewrite firstn_length; lia).
      replace (i - List.length (firstn n d))%nat with (S (i - S n)) by (rewrite firstn_length; lia). cbn [nth_error]. rewrite nth_skipn.
      replace (S n + (i - S n))%nat with i by lia. destruct (i <? List.length d)%nat eqn:M; [reflexivity|].
      replace (i <? n)%nat with false by lia. apply nth_error_None. lia.
  - destruct (i <? List.length d)%nat eqn:M.
    + replace (i =? n)%nat with false by lia. rewrite nth_error_app1 by lia. reflexivity.
    + rewrite nth_error_app2 by lia. destruct (lt_eq_lt_dec i n) as [[H|H]|H].
      * replace (i =? n)%nat with false by lia. replace (i <? n)%nat with true by lia.
        rewrite nth_error_app1 by (rewrite repeat_length; lia). apply nth_error_repeat. lia.
      * subst i. rewrite Nat.eqb_refl. rewrite nth_error_app2 by (rewrite repeat_length; lia).
        rewrite repeat_length, Nat.sub_diag. reflexivity.
      * replace (i =? n)%nat with false by lia. replace (i <? n)%nat with false by lia.
        apply nth_error_None. rewrite app_length, repeat_length. cbn. lia.
Qed.
Lemma poke_length d p b : 0 <= p -> List.length (poke d (p, b)) = Nat.max (List.length d) (S (Z.to_nat p)).
Proof.
  intros Hp. unfold poke. destruct (Z.to_nat p <? List.length d)%nat eqn:L.
  - rewrite app_length, firstn_length. cbn [List.length]. rewrite skipn_length. lia.
  - rewrite !app_length, repeat_length. cbn. lia.
Qed.
Lemma poke_comm d p a q b : 0 <= p -> 0 <= q < zlen d -> p <> q ->
  poke (poke d (p, a)) (q, b) = poke (poke d (q, b)) (p, a).
Proof.
  intros Hp Hq N. apply nth_error_ext. intros i. rewrite !nth_poke, !poke_length by lia. unfold zlen in Hq.
  destruct (i =? Z.to_nat q)%nat eqn:E1, (i =? Z.to_nat p)%nat eqn:E2; try (exfalso; lia).
  - destruct (i <? _)%nat eqn:E3; [reflexivity|exfalso; lia].
  - destruct (i <? Nat.max _ _)%nat eqn:E3; [reflexivity|exfalso; lia].
  - destruct (i <? List.length d)%nat eqn:E3.
    + replace (i <? Nat.max (List.length d) (S (Z.to_nat p)))%nat with true by lia.
      replace (i <? Nat.max (List.length d) (S (Z.to_nat q)))%nat with true by lia. reflexivity.
    + replace (i <? Nat.max (List.length d) (S (Z.to_nat q)))%nat with false by lia.
      destruct (i <? Nat.max (List.length d) (S (Z.to_nat p)))%nat eqn:E4; destruct (i <? Z.to_nat p)%nat eqn:E5; try reflexivity; try (exfalso; lia).
      destruct (i <? Z.to_nat q)%nat eqn:E6; [exfalso; lia|reflexivity].
Qed.
Lemma replay_comm T a : forall d q b, Forall (fun w => 0 <= fst w /\ ~ (32 <= fst w < T)) a -> 32 <= q < T -> T <= zlen d ->
  replay a (poke d (q, b)) = poke (replay a d) (q, b).
Proof.
  induction a as [|[p x] a IH]; intros d q b F Hq L; [reflexivity|]. inversion F as [|? ? [F1 F2] F']; subst. cbn [fst] in *.
  unfold replay in *. cbn [fold_left]. rewrite <- (poke_comm d p x q b) by lia. apply IH; auto.
  unfold zlen in *. rewrite poke_length by lia. lia.
Qed.
Lemma merged_replay T a b l : merged a b l -> Forall (fun w => 0 <= fst w /\ ~ (32 <= fst w < T)) a -> Forall (fun w => 32 <= fst w < T) b ->
  forall d, T <= zlen d -> replay l d = replay b (replay a d).
Proof.
  induction 1 as [|[p x] a b l M IH|[p x] a b l M IH]; intros FA FB d L; [reflexivity| |].
  - inversion FA as [|? ? [F1 F2] F']; subst. cbn [fst] in *. unfold replay in *. cbn [fold_left]. apply IH; auto. unfold zlen in *. rewrite poke_length by lia. lia.
  - inversion FB as [|? ? F1 F']; subst. cbn [fst] in *. change (replay l (poke d (p, x)) = replay b (poke (replay a d) (p, x))).
    rewrite <- (replay_comm T) by (auto; lia). apply IH; auto. unfold zlen in *. rewrite poke_length by lia. lia.
Qed.

Lemma merged_left {A} (x y z l : list A) : merged y z l -> merged (x ++ y) z (x ++ l).
Proof. induction x; intros; cbn [app]; [auto|constructor; auto]. Qed.
Lemma merged_right {A} (x y z l : list A) : merged y z l -> merged y (x ++ z) (x ++ l).
Proof. induction x; intros; cbn [app]; [auto|constructor; auto]. Qed.
Lemma merged_app {A} (a b : list A) : merged a b (a ++ b).
Proof. rewrite <- (app_nil_r a) at 1. rewrite <- (app_nil_r b) at 1 2. apply merged_left, merged_right. constructor. Qed.
(** First [i] of a, then [j] of b, then the rest of a and of b. *)
Lemma merged_4 {A} i j (a b : list A) : merged a b (firstn i a ++ firstn j b ++ skipn i a ++ skipn j b).
Proof. rewrite <- (firstn_skipn i a) at 1. rewrite <- (firstn_skipn j b) at 1. apply merged_left, merged_right, merged_app. Qed.

Lemma zlen_cons_inv {A} (l : list A) k : zlen l = k + 1 -> 0 <= k -> exists x r, l = x :: r.
Proof. unfold zlen. destruct l as [|x r]; cbn [List.length]; intros; [lia|eauto]. Qed.

Section WithEnv.
Variable E : Env.
Hypothesis HE : EnvOK E.

(** A successful append: the file, its writes, and the result. *)
Record appended (f b new : bytes) (m : pyval) (oa : obargs) (f' : bytes) (k : Z) (h : header) (o : option msect)
   (cs0 : list (bytes * bytes)) (cl xl tail : bytes) (cs1 : list (bytes * bytes)) (l : Z) : Prop := mkAppended {
  ap_arch : arch E f h o (cs0 ++ [(cl, xl)]) tail b m;
  ap_off : h_offsets h = true;
  ap_k : 0 <= k <= h_max_app h;
  ap_n : zlen cs1 = k + 1;
  ap_content : concat (map snd cs1) = xl ++ new;
  ap_k0 : k = 0 -> zlen new <= h_chunk_size h - h_last_chunk h;
  ap_k1 : 0 < k -> h_chunk_size h - h_last_chunk h < zlen new;
  ap_log : append_log E f new oa = log_of (body_pos E h o + zlen (body E (h_checksum h) cs0)) (body E (h_checksum h) cs1) ++
     log_of 0 (header_bytes (set_counts h l (h_nchunks h + k) (h_max_app h - k))) ++
     (if k =? 0 then [] else log_of (32 + zlen (osect_bytes E o)) (words (positions E (set_counts h l (h_nchunks h + k) (h_max_app h - k)) o (cs0 ++ cs1))));
  ap_data : f' = relaid E (set_counts h l (h_nchunks h + k) (h_max_app h - k)) o cs0 cs1 (stored E (h_checksum h) cl ++ tail);
  ap_arch' : arch E f' (set_counts h l (h_nchunks h + k) (h_max_app h - k)) o (cs0 ++ cs1)
     (zdrop (zlen (body E (h_checksum h) cs1)) (stored E (h_checksum h) cl ++ tail)) (b ++ new) m }.

Lemma append_shape_arch f h o cs tail b m new oa f' k : arch E f h o cs tail b m -> sizable f new -> append_bytes E f new oa = (f', Ok k) ->
  exists cs0 cl xl cs1 l, cs = cs0 ++ [(cl, xl)] /\ appended f b new m oa f' k h o cs0 cl xl tail cs1 l.
Proof.
  intros A HS H. unfold append_bytes in H. unfold append_log, sizable in *. change size with (@zlen byte) in *. injection H as E1 E2.
  destruct (append_outcome E HE _ _ _ _ _ _ _ oa new (fp_of new) A (Z.le_refl 0) (rest_fp_of new) HS)
    as [(nf' & q & e & R & BAD)|(Ho & BOK & nf' & k' & l & cs0 & cl & xl & cs1 & -> & K1 & K2 & KC & K3 & K4 & R & D & A')].
  { rewrite R in E2. discriminate. }
  rewrite E1 in D. rewrite R in E2. cbn [snd] in E2. injection E2 as <-. rewrite <- D in A'.
  exists cs0, cl, xl, cs1, l. split; [reflexivity|]. constructor; auto.
  - intros HK. apply K4 in HK. tauto.
  - unfold append_log. change size with (@zlen byte). rewrite R. cbn [fst snd]. destruct (k' =? 0); cbn [put_at at_pos flog app fpos]; rewrite <- ?app_assoc, ?app_nil_r; reflexivity.
Qed.

Lemma log_of_range p x : Forall (fun w => p <= fst w < p + zlen x) (log_of p x).
Proof.
  apply Forall_forall. intros w Hw. apply log_of_In in Hw as (j & N & ->).
  assert (j < List.length x)%nat by (apply nth_error_Some; congruence). unfold zlen. lia.
Qed.

(** *** Append and metadata rewrite *)
Theorem append_rewrite_overlap f b m new oa f' k m' ov g l : archive E f b m -> sizable f new ->
  append_bytes E f new oa = (f', Ok k) -> m' <> PNone -> rewrite_bytes E f m' ov = (g, Ok tt) ->
  merged (append_log E f new oa) (rewrite_log E f m' ov) l ->
  rewrite_bytes E f' m' ov = (replay l f, Ok tt) /\ archive E (replay l f) (b ++ new) (norm m') /\
  unpack_bytes_from_bytes E (replay l f) = Ok (b ++ new, norm m').
Proof.
  intros HA HS HAP HN HR HM. destruct (archive_arch E HE _ _ _ HA) as (h & o & cs & tail & A).
  destruct (append_shape_arch _ _ _ _ _ _ _ _ _ _ _ A HS HAP) as (cs0 & cl & xl & cs1 & lc & -> & [_ Ho K1 K2 KC K3 K4 LOG D A']).
  set (h' := set_counts h lc (h_nchunks h + k) (h_max_app h - k)) in *.
  pose proof (ar_wf _ _ _ _ _ _ _ _ A) as W.
  destruct o as [s|]; [|unfold rewrite_bytes in HR; rewrite (rewrite_none E _ _ _ _ _ _ m' ov A) in HR; discriminate].
  destruct (rewrite_some E HE _ _ _ _ _ _ _ m' ov A) as (q1 & R1). destruct (rewrite_some E HE _ _ _ _ _ _ _ m' ov A') as (q2 & R2).
  unfold rewrite_bytes, rewrite_log in *. rewrite R1 in HR, HM. rewrite R2.
  destruct (pyeq m m'); [discriminate|]. destruct (recreate_metadata (ms_h s) ov) as [a|e] eqn:RC; [|discriminate].
  destruct (plan_metadata E m' a) as [[[mh p] a']|e] eqn:PL; [|discriminate].
  destruct (new_sect_len E HE _ _ _ _ _ _ _ (wf_sect _ _ _ _ _ _ W) RC PL) as [OK' LEN'].
  set (s' := sect_of mh p m') in *. cbn [fst snd put_at flog fpos fdata app] in HM |- *.
  pose proof (body_pos_nonneg E _ _ _ _ _ W) as BP. pose proof (zlen_nonneg (body E (h_checksum h) cs0)) as NB. pose proof (zlen_nonneg (msect_bytes E s)) as NO.
  cbn [osect_bytes] in *.
  assert (BPE : body_pos E h (Some s) = 32 + zlen (msect_bytes E s) + 8 * (h_nchunks h + h_max_app h)) by (unfold body_pos, table_len; rewrite Ho; reflexivity).
  pose proof (wf_header _ _ _ _ _ _ W) as [_ HN']. unfold header_nums_ok in HN'.
  pose proof (wf_n _ _ _ _ _ _ W) as WN. pose proof (wf_ne _ _ _ _ _ _ W) as WE.
  assert (BP2 : 32 + zlen (msect_bytes E s) <= body_pos E h (Some s)) by (unfold body_pos, table_len, osect_bytes; rewrite Ho; lia).
  assert (LF : 32 + zlen (msect_bytes E s) <= zlen f).
  { destruct (wf_split E _ _ _ _ _ _ _ W) as [WS ZF]. rewrite WS, zlen_app, ZF. match goal with |- _ <= _ + zlen ?x => pose proof (zlen_nonneg x) end. lia. }
  assert (RL : replay l f = write_at f' 32 (msect_bytes E s')).
  { rewrite (merged_replay (32 + zlen (msect_bytes E s)) _ _ _ HM); auto.
    - unfold replay at 2. pose proof (append_log_complete E HE _ _ _ new oa HA HS) as C. unfold crash in C. rewrite firstn_all, HAP in C. rewrite C. cbn [fst].
      apply poke_log. lia.
    - rewrite LOG. repeat (apply Forall_app; split).
      + eapply Forall_impl; [|apply log_of_range]. cbn beta. intros w Hw. lia.
      + eapply Forall_impl; [|apply log_of_range]. cbn beta. rewrite zlen_header_bytes. intros w Hw. lia.
      + destruct (k =? 0); [constructor|]. eapply Forall_impl; [|apply log_of_range]. cbn beta. intros w Hw. lia.
    - eapply Forall_impl; [|apply log_of_range]. cbn beta. rewrite LEN'. intros w Hw. lia. }
  rewrite RL. split; [reflexivity|].
  assert (AR : archive E (write_at f' 32 (msect_bytes E s')) (b ++ new) (norm m')).
  { apply (ar_rewrite E f' (b ++ new) m m' ov); auto.
    - eapply ar_append; eauto.
    - unfold rewrite_bytes. rewrite R2. reflexivity. }
  split; [exact AR|]. apply (archive_unpack E HE). exact AR.
Qed.

(** *** Two appends *)
Lemma replay_app a b d : replay (a ++ b) d = replay b (replay a d).
Proof. unfold replay. apply fold_left_app. Qed.
Lemma replay_log p x d : 0 <= p -> replay (log_of p x) d = write_at d p x.
Proof. apply poke_log. Qed.

Lemma replay_over f b new m oa f' k h o cs0 cl xl tail cs1 l hb t R :
  appended f b new m oa f' k h o cs0 cl xl tail cs1 l -> zlen hb = 32 -> zlen t = table_len h ->
  let h' := set_counts h l (h_nchunks h + k) (h_max_app h - k) in
  exists t' R', zlen t' = table_len h /\
    replay (append_log E f new oa) (hb ++ osect_bytes E o ++ t ++ body E (h_checksum h) cs0 ++ R)
    = header_bytes h' ++ osect_bytes E o ++ t' ++ body E (h_checksum h) (cs0 ++ cs1) ++ R'.
Proof.
  intros [A Ho K1 K2 KC K3 K4 LOG D A'] Lh Lt h'. fold h' in LOG, D, A'.
  pose proof (ar_wf _ _ _ _ _ _ _ _ A) as W. pose proof (zlen_nonneg (body E (h_checksum h) cs0)) as NB. pose proof (zlen_nonneg (osect_bytes E o)) as NO.
  pose proof (body_pos_nonneg E _ _ _ _ _ W) as BP.
  rewrite LOG, !replay_app, !replay_log by lia.
  set (lo := body_pos E h o + zlen (body E (h_checksum h) cs0)).
  set (a := hb ++ osect_bytes E o ++ t ++ body E (h_checksum h) cs0).
  assert (LA : zlen a = lo) by (unfold a, lo, body_pos; rewrite !zlen_app; lia).
  replace (hb ++ osect_bytes E o ++ t ++ body E (h_checksum h) cs0 ++ R) with (a ++ R) by (unfold a; rewrite <- !app_assoc; reflexivity).
  rewrite <- LA, write_at_tail. unfold a. rewrite <- !app_assoc.
  erewrite (write_front hb); [|rewrite Lh; symmetry; apply zlen_header_bytes|reflexivity].
  set (R' := zdrop _ R). rewrite body_app.
  destruct (k =? 0) eqn:KZ.
  - exists t, R'. rewrite <- !app_assoc. split; [auto|reflexivity].
  - rewrite replay_log by lia. set (ws := words _).
    assert (LW : zlen ws <= zlen t).
    { unfold ws. rewrite zlen_words, zlen_positions, zlen_app. rewrite Lt. unfold table_len. rewrite Ho.
      pose proof (wf_n _ _ _ _ _ _ W) as WN. rewrite zlen_app in WN. change (zlen [(cl, xl)]) with 1 in WN. unfold bytes in *. lia. }
    exists (ws ++ zdrop (zlen ws) t), R'. rewrite <- !app_assoc. split.
    { rewrite zlen_app, zlen_zdrop. pose proof (zlen_nonneg ws). lia. }
    rewrite (app_assoc (header_bytes h') (osect_bytes E o)).
    replace (32 + zlen (osect_bytes E o)) with (zlen (header_bytes h' ++ osect_bytes E o)) by (rewrite zlen_app, zlen_header_bytes; lia).
    rewrite <- (ztake_zdrop (zlen ws) t) at 1. rewrite <- !app_assoc.
    rewrite (app_assoc (header_bytes h') (osect_bytes E o)). rewrite (app_assoc (header_bytes h') (osect_bytes E o)).
    apply write_at_mid. rewrite zlen_ztake. pose proof (zlen_nonneg ws). lia.
Qed.

Lemma unpack_content h o t cs R : header_ok h -> h_version h = 3 -> h_metadata h = is_some o -> osect_ok E o ->
  zlen t = table_len h -> Forall (chunk_ok E) cs -> forall a c, cs = a ++ c -> h_nchunks h = zlen a ->
  unpack_bytes_from_bytes E (header_bytes h ++ osect_bytes E o ++ t ++ body E (h_checksum h) cs ++ R) = Ok (content a, osect_val o).
Proof.
  intros H1 H2 H3 H4 H5 H6 a c -> Hn. apply Forall_app in H6 as [HA _]. pose proof (zlen_nonneg a).
  unfold unpack_bytes_from_bytes. rewrite (unpack_front E HE); auto; [|lia].
  rewrite body_app, <- app_assoc, Hn. replace (Z.to_nat (zlen a)) with (List.length a + 0)%nat by (unfold zlen; lia).
  rewrite (uloop_ok E HE) by auto. cbn [uloop fst snd rbind]. rewrite app_nil_r. reflexivity.
Qed.

Theorem last_append_wins f b m newA oaA fA kA newB oaB fB kB : archive E f b m -> sizable f newA -> sizable f newB ->
  append_bytes E f newA oaA = (fA, Ok kA) -> append_bytes E f newB oaB = (fB, Ok kB) ->
  unpack_bytes_from_bytes E (replay (append_log E f newA oaA ++ append_log E f newB oaB) f) = Ok (b ++ newB, m).
Proof.
  intros HA SA SB HPA HPB. destruct (archive_arch E HE _ _ _ HA) as (h & o & cs & tail & A).
  destruct (append_shape_arch _ _ _ _ _ _ _ _ _ _ _ A SA HPA) as (cs0 & cl & xl & csA & lA & -> & PA).
  destruct (append_shape_arch _ _ _ _ _ _ _ _ _ _ _ A SB HPB) as (cs0' & cl' & xl' & csB & lB & EQ & PB).
  apply app_inj_tail in EQ as [<- EQ]. injection EQ as <- <-.
  pose proof (ar_wf _ _ _ _ _ _ _ _ A) as W. destruct (wf_split E _ _ _ _ _ _ _ W) as [WS ZF].
  assert (FE : f = header_bytes h ++ osect_bytes E o ++ table E h o (cs0 ++ [(cl, xl)]) ++ body E (h_checksum h) cs0 ++ stored E (h_checksum h) cl ++ tail).
  { rewrite WS at 1. unfold front. rewrite <- !app_assoc. reflexivity. }
  rewrite replay_app. rewrite FE at 3.
  destruct (replay_over _ _ _ _ _ _ _ _ _ _ _ _ _ _ _ (header_bytes h) (table E h o (cs0 ++ [(cl, xl)])) (stored E (h_checksum h) cl ++ tail) PA (zlen_header_bytes h) (zlen_table E _ _ _ _ _ W)) as (tA & RA & LA & ->).
  rewrite body_app, <- app_assoc.
  destruct (replay_over _ _ _ _ _ _ _ _ _ _ _ _ _ _ _ (header_bytes (set_counts h lA (h_nchunks h + kA) (h_max_app h - kA))) tA (body E (h_checksum h) csA ++ RA) PB (zlen_header_bytes _) LA) as (tB & RB & LB & ->).
  pose proof (ap_arch' _ _ _ _ _ _ _ _ _ _ _ _ _ _ _ PB) as AB. pose proof (ar_wf _ _ _ _ _ _ _ _ AB) as WB.
  set (hB := set_counts h lB (h_nchunks h + kB) (h_max_app h - kB)) in *.
  change (h_checksum h) with (h_checksum hB).
  rewrite (unpack_content hB o tB (cs0 ++ csB) RB (wf_header _ _ _ _ _ _ WB) (wf_version _ _ _ _ _ _ WB) (wf_flag _ _ _ _ _ _ WB) (wf_sect _ _ _ _ _ _ WB)) with (a := cs0 ++ csB) (c := []).
  - rewrite (ar_content _ _ _ _ _ _ _ _ AB), (ar_meta _ _ _ _ _ _ _ _ AB). reflexivity.
  - rewrite LB. unfold table_len, hB. cbn [h_offsets h_nchunks h_max_app set_counts]. destruct (h_offsets h); lia.
  - apply (wf_chunks _ _ _ _ _ _ WB).
  - rewrite app_nil_r. reflexivity.
  - apply (wf_n _ _ _ _ _ _ WB).
Qed.

(** *** Crash between the chunks and the header of an append (C26) *)
Theorem silent_mix f b m new oa f' k : archive E f b m -> sizable f new -> append_bytes E f new oa = (f', Ok k) ->
  exists j, unpack_bytes_from_bytes E (crash j (append_log E f new oa) f) = Ok (b ++ sub 0 (F_chunk f - F_last f) new, m).
Proof.
  intros HA HS HP. destruct (archive_arch E HE _ _ _ HA) as (h & o & cs & tail & A).
  destruct (append_shape_arch _ _ _ _ _ _ _ _ _ _ _ A HS HP) as (cs0 & cl & xl & cs1 & l & -> & [_ Ho K1 K2 KC K3 K4 LOG D A']).
  pose proof (ar_wf _ _ _ _ _ _ _ _ A) as W. destruct (wf_split E _ _ _ _ _ _ _ W) as [WS ZF].
  pose proof (wf_fields E HE _ _ _ _ _ W) as F. rewrite (fi_chunk _ _ _ _ F), (fi_last _ _ _ _ F).
  pose proof (body_pos_nonneg E _ _ _ _ _ W) as BP. pose proof (zlen_nonneg (body E (h_checksum h) cs0)) as NB.
  set (lo := body_pos E h o + zlen (body E (h_checksum h) cs0)) in *.
  exists (List.length (log_of lo (body E (h_checksum h) cs1))). unfold crash. rewrite LOG.
  rewrite firstn_app, firstn_all, Nat.sub_diag. cbn [firstn]. rewrite app_nil_r, poke_log by lia.
  rewrite WS at 1. rewrite <- ZF, write_at_tail. unfold front. rewrite <- !app_assoc.
  set (R := zdrop _ _). rewrite (app_assoc (body E (h_checksum h) cs0)), <- body_app.
  destruct (zlen_cons_inv cs1 k K2) as (cx & cs2 & ->). { lia. }
  pose proof (ar_wf _ _ _ _ _ _ _ _ A') as W'.
  rewrite (unpack_content h o _ (cs0 ++ cx :: cs2) R (wf_header _ _ _ _ _ _ W) (wf_version _ _ _ _ _ _ W) (wf_flag _ _ _ _ _ _ W) (wf_sect _ _ _ _ _ _ W)) with (a := cs0 ++ [cx]) (c := cs2).
  - rewrite (ar_meta _ _ _ _ _ _ _ _ A). f_equal. f_equal.
    rewrite <- (ar_content _ _ _ _ _ _ _ _ A). unfold content. rewrite !map_app, !concat_app. cbn [map concat snd]. rewrite !app_nil_r, <- app_assoc. f_equal.
    destruct (arch_split _ _ _ _ _ _ _ _ A) as (cs0' & cl' & xl' & EQ & LN & SZ & LX & _ & _ & N1 & L1 & _).
    apply app_inj_tail in EQ as [<- EQ]. injection EQ as <- <-.
    pose proof (ar_sizes _ _ _ _ _ _ _ _ A') as SZ'. cbn [h_nchunks h_chunk_size h_last_chunk set_counts] in SZ'.
    cbn [map concat] in KC. destruct (Z.eq_dec k 0) as [->|NK].
    + assert (cs2 = []) by (rewrite zlen_cons in K2; apply zlen_0; lia). subst cs2. cbn in KC. rewrite app_nil_r in KC. rewrite KC. f_equal.
      unfold sub. cbn [Z.to_nat skipn]. rewrite firstn_all2; [reflexivity|]. specialize (K3 eq_refl). unfold zlen in K3. lia.
    + assert (XL : zlen (snd cx) = h_chunk_size h).
      { rewrite map_app in SZ'. cbn [map] in SZ'. unfold bytes in *. rewrite SZ in SZ'. unfold chunk_sizes in SZ'.
        replace (h_nchunks h + k - 1) with (h_nchunks h - 1 + (1 + (k - 1))) in SZ' by lia. rewrite !zrep_add in SZ' by lia.
        rewrite <- !app_assoc in SZ'. apply app_inv_head in SZ'. change (zrep 1 (h_chunk_size h)) with [h_chunk_size h] in SZ'. cbn [app] in SZ'. congruence. }
      assert (X : snd cx = ztake (h_chunk_size h) (xl ++ new)).
      { rewrite <- KC. rewrite ztake_app_exact by auto. reflexivity. }
      rewrite X. rewrite ztake_firstn, firstn_app. unfold zlen in LX. unfold bytes in *. rewrite firstn_all2 by lia. f_equal.
      unfold sub. cbn [Z.to_nat skipn]. f_equal. lia.
  - apply (zlen_table E _ _ _ _ _ W).
  - apply (wf_chunks _ _ _ _ _ _ W').
  - rewrite <- app_assoc. reflexivity.
  - rewrite (wf_n _ _ _ _ _ _ W), !zlen_app. reflexivity.
Qed.
End WithEnv.
