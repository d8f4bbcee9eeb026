(** An archive appended to itself. *)
From Verif Require Import Base PyVal Checksums Headers Pretty Args FileIO Append Stream Itself Spec Archive BaseLemmas HeaderProofs IOProofs WfProofs PackProofs SmallProofs BytesProofs MetaProofs
  AppendProofs CrashProofs ArchiveProofs HistoryProofs ExcPack NumpyProofs EmbedProofs MemoryProofs MixProofs StreamProofs.
From Verif Require DamageProofs.
From Coq Require Import ZifyBool ZifyNat.
Ltac Zify.zify_post_hook ::= Z.div_mod_to_equations.

(** ** What the reads return *)
Fixpoint shown (view : nat -> bytes) (ns : list Z) (i : nat) (p : Z) : list bytes :=
  match ns with [] => [] | n :: r => sub p n (view i) :: shown view r (S i) (p + n) end.
Lemma size_sub_in p n (v : bytes) : 0 <= p -> 0 <= n -> p + n <= size v -> size (sub p n v) = n.
Proof. intros. unfold sub, size in *. rewrite firstn_length, skipn_length. lia. Qed.
Lemma f_read_at2 n f p l : 0 <= n -> f_read n (mkfp f p l) = (mkfp f (p + size (sub p n f)) l, Ok (sub p n f)).
Proof. intros H. rewrite f_read_gen by lia. unfold rest. cbn [fpos fdata]. rewrite DamageProofs.ztake_zdrop_sub. reflexivity. Qed.
Lemma seen_read view n i p : 0 <= n -> seen view n (i, p) = ((S i, p + size (sub p n (view i))), Ok (sub p n (view i))).
Proof. intros H. unfold seen. cbn [fst snd]. rewrite (f_read_at2 n (view i) p) by exact H. reflexivity. Qed.
Lemma seen_yields view top : (forall i, top <= size (view i)) -> forall ns i p, Forall (fun n => 0 <= n) ns -> 0 <= p -> p + zsum ns <= top ->
  (exists s, yields (map (seen view) ns) (i, p) (shown view ns i p) s) /\ map (fun x => zlen x) (shown view ns i p) = ns.
Proof.
  intros T. induction ns as [|n ns IH]; intros i p F P L; [split; [eexists; reflexivity|reflexivity]|].
  inversion F; subst. cbn [zsum fold_right] in L. fold (zsum ns) in L.
  assert (SN : 0 <= zsum ns) by (clear -H2; induction H2; cbn; [lia|fold (zsum l); lia]).
  pose proof (size_sub_in p n (view i) P ltac:(lia) ltac:(specialize (T i); lia)) as SZ.
  destruct (IH (S i) (p + n) ltac:(assumption) ltac:(lia) ltac:(lia)) as ((s & Y) & M). cbn [shown map]. split.
  - exists s, (S i, p + n). split; [|exact Y]. rewrite seen_read, SZ by assumption. reflexivity.
  - rewrite M. f_equal. exact SZ.
Qed.
Lemma shown_nth view top : (forall i, top <= size (view i)) -> forall ns i p, Forall (fun n => 0 <= n) ns -> 0 <= p -> p + zsum ns <= top ->
  forall k, p <= k < p + zsum ns -> exists j, nth_error (concat (shown view ns i p)) (Z.to_nat (k - p)) = nth_error (view j) (Z.to_nat k).
Proof.
  intros T. induction ns as [|n ns IH]; intros i p F P L k K; [cbn in K; lia|].
  inversion F; subst. cbn [zsum fold_right] in L, K. fold (zsum ns) in L, K.
  assert (SN : 0 <= zsum ns) by (clear -H2; induction H2; cbn; [lia|fold (zsum l); lia]).
  pose proof (size_sub_in p n (view i) P ltac:(lia) ltac:(specialize (T i); lia)) as SZ. unfold size in SZ. cbn [shown concat].
  destruct (Z.lt_ge_cases k (p + n)) as [C|C].
  - exists i. rewrite nth_error_app1 by lia. apply nth_sub; lia.
  - destruct (IH (S i) (p + n) ltac:(assumption) ltac:(lia) ltac:(lia) k ltac:(lia)) as (j & J). exists j. rewrite nth_error_app2 by lia.
    rewrite <- J. f_equal. lia.
Qed.
Lemma takes_concat ps : forall ns, map (fun x : bytes => zlen x) ps = ns -> takes ns (concat ps) = ps.
Proof.
  induction ps as [|x ps IH]; intros ns <-; [reflexivity|]. cbn [map concat takes]. rewrite ztake_app_exact, zdrop_app_exact by reflexivity. f_equal. apply IH. reflexivity.
Qed.

(** ** Programs that do not look at the source *)
Definition deaf {S1 S2 T A} (m1 : SM (S1 * T) A) (m2 : SM (S2 * T) A) : Prop :=
  forall s1 s2 t, snd (fst (m1 (s1, t))) = snd (fst (m2 (s2, t))) /\ snd (m1 (s1, t)) = snd (m2 (s2, t)).
Lemma deaf_onr {S1 S2 T A} (m : SM T A) : @deaf S1 S2 T A (onr m) (onr m).
Proof. intros s1 s2 t. unfold onr. cbn [fst snd]. destruct (m t). split; reflexivity. Qed.
Lemma deaf_lift {S1 S2 T A} (r : res A) : @deaf S1 S2 T A (lift r) (lift r).
Proof. intros s1 s2 t. split; reflexivity. Qed.
Lemma deaf_bind {S1 S2 T A B} (m1 : SM (S1 * T) A) (m2 : SM (S2 * T) A) (k1 : A -> SM (S1 * T) B) k2 : deaf m1 m2 -> (forall a, deaf (k1 a) (k2 a)) -> deaf (bind m1 k1) (bind m2 k2).
Proof.
  intros M K s1 s2 t. unfold bind. destruct (M s1 s2 t) as [M1 M2]. destruct (m1 (s1, t)) as [[u1 t1] r1]. destruct (m2 (s2, t)) as [[u2 t2] r2]. cbn [fst snd] in M1, M2. subst t2 r2.
  destruct r1 as [a|e]; [apply K|split; reflexivity].
Qed.

Section WithEnv.
Variable E : Env.
Hypothesis HE : EnvOK E.

(** ** What may be there meanwhile *)
Lemma write_at_before d p x : 0 <= p <= zlen d -> agree 0 p d (write_at d p x).
Proof.
  intros P i I. destruct x as [|b x]; [reflexivity|]. rewrite write_at_unfold by discriminate.
  assert (L : List.length (ztake p d) = Z.to_nat p) by (pose proof (zlen_ztake p d); unfold zlen in *; lia).
  rewrite nth_error_app1 by lia. rewrite <- (ztake_zdrop p d) at 1. rewrite nth_error_app1 by lia. reflexivity.
Qed.
Theorem meanwhile_front f b m oa g : archive E f b m -> meanwhile E f oa g -> size f <= size g /\ agree 0 (F_last_start f) f g.
Proof.
  intros HA [->|(w & e & H & SG)]; [split; [lia|intros i _; reflexivity]|].
  destruct (archive_arch E HE _ _ _ HA) as (h & o & cs & tail & A).
  destruct (arch_split E _ _ _ _ _ _ _ A) as (cs0 & cl & xl & -> & LN & _ & _ & _ & _ & N1 & _).
  pose proof (arch_loose E _ _ _ _ _ _ _ A) as L. pose proof (lo_wf _ _ _ _ _ _ _ _ L) as W.
  destruct (h_offsets h) eqn:Ho.
  2:{ unfold append_stream in H. rewrite (from_no_offsets E HE _ _ _ _ _ _ _ _ _ _ _ L Ho) in H. cbn [fst snd adv fp_of fdata] in H. injection H as <- _. split; [lia|intros i _; reflexivity]. }
  assert (SF : 0 <= size f) by (unfold size; lia). pose proof (stream_loose E HE _ _ _ _ _ _ _ _ _ _ _ _ _ _ L SF H) as ST. cbn beta iota in ST.
  destruct ST as [->|[(x0 & cs' & tail' & W0 & L' & X & ->)|(-> & HZ)]]; [split; [lia|intros i _; reflexivity]| |lia].
  assert (FL : F_last_start f = body_pos E h o + zlen (body E (h_checksum h) cs0)).
  { unfold F_last_start. pose proof (wf_fields E HE _ _ _ _ _ W) as F. rewrite (fi_n _ _ _ _ F). replace (h_nchunks h - 1) with (zlen cs0) by lia.
    eapply (off_used E HE); eassumption. }
  destruct (wf_split E _ _ _ _ _ _ _ W) as [WS ZF]. pose proof (body_pos_nonneg E _ _ _ _ _ W). pose proof (zlen_nonneg (body E (h_checksum h) cs0)).
  split; [apply write_at_ge|]. rewrite FL. apply write_at_before. split; [lia|]. rewrite <- ZF. apply (f_equal zlen) in WS. rewrite zlen_app in WS. pose proof (zlen_nonneg (stored E (h_checksum h) cl ++ tail)). lia.
Qed.

(** ** The append *)
Theorem itself_is f b m view oa : archive E f b m -> (forall i, size f <= size (view i)) -> view O = f ->
  exists x, size x = size f /\ agree 0 (Z.min (size f) (F_chunk f - F_last f)) f x /\
    (forall k, 0 <= k < size f -> exists j, nth_error x (Z.to_nat k) = nth_error (view j) (Z.to_nat k)) /\
    append_to_itself E f view oa = append_bytes E f x oa.
Proof.
  intros HA HV V0. destruct (archive_arch E HE _ _ _ HA) as (h & o & cs & tail & A).
  destruct (arch_split E _ _ _ _ _ _ _ A) as (cs0 & cl & xl & -> & LN & _ & LX & _ & _ & N1 & L1 & _).
  pose proof (arch_loose E _ _ _ _ _ _ _ A) as L. pose proof (lo_wf _ _ _ _ _ _ _ _ L) as W.
  pose proof (wf_fields E HE _ _ _ _ _ W) as F. rewrite (fi_chunk _ _ _ _ F), (fi_last _ _ _ _ F).
  assert (TRIV : append_to_itself E f view oa = append_bytes E f f oa ->
    exists x, size x = size f /\ agree 0 (Z.min (size f) (h_chunk_size h - h_last_chunk h)) f x /\
    (forall k, 0 <= k < size f -> exists j, nth_error x (Z.to_nat k) = nth_error (view j) (Z.to_nat k)) /\
    append_to_itself E f view oa = append_bytes E f x oa).
  { intros H. exists f. split; [reflexivity|]. split; [intros i _; reflexivity|]. split; [intros k _; exists O; rewrite V0; reflexivity|exact H]. }
  unfold append_to_itself, append_bytes in *. 
  destruct (h_offsets h) eqn:Ho.
  2:{ apply TRIV. rewrite <- same_append. rewrite !(from_no_offsets E HE _ _ _ _ _ _ _ _ _ _ _ L Ho). reflexivity. }
  destruct (from_start E HE (seen view) _ _ _ _ _ _ _ _ _ (size f) oa (O, 0) L Ho) as (q & FS).
  rewrite FS in *. clear FS. revert TRIV.
  set (bg := mkBeg h m (option_map ms_h o) (positions E h o (cs0 ++ [(cl, xl)]))). set (ba := append_bargs oa h). set (lo := body_pos E h o + zlen (body E (h_checksum h) cs0)).
  assert (FR : forall x, size x = size f -> exists q, append_fp E (size x) oa (fp_of x, fp_of f) = tail_from E f_read (size f) bg ba lo xl (fp_of x, mkfp f q [])).
  { intros x SX. rewrite <- same_append, SX. exact (from_start E HE f_read _ _ _ _ _ _ _ _ _ (size f) oa (fp_of x) L Ho). }
  intros TRIV. set (room := h_chunk_size h - zlen xl). assert (R0 : 0 <= room) by lia. rewrite <- LX in TRIV |- *. fold room in TRIV |- *.
  unfold tail_from in *. cbn [b_header b_offsets bg] in *. cbv zeta in *. fold room in TRIV, FR |- *.
  assert (SF : 0 <= size f) by (unfold size; lia).
  assert (LO : 0 <= lo) by (unfold lo; pose proof (body_pos_nonneg E _ _ _ _ _ W); pose proof (zlen_nonneg (body E (h_checksum h) cs0)); lia).
  assert (S0 : forall n, 0 <= n <= size f -> seen view n (O, 0) = ((1%nat, n), Ok (sub 0 n f))).
  { intros n B. rewrite seen_read, V0, size_sub_in by lia. reflexivity. }
  assert (F0 : forall n x, 0 <= n <= size x -> f_read n (fp_of x) = (mkfp x n [], Ok (sub 0 n x))).
  { intros n x B. unfold fp_of. rewrite f_read_at2, size_sub_in by lia. reflexivity. }
  destruct (size f <=? room) eqn:FITS.
  { apply TRIV. destruct (FR f eq_refl) as (q2 & FF). rewrite FF. clear FF FR TRIV.
    rewrite (bind_run _ _ _ _ _ (onl_run _ _ (mkfp f q []) _ _ (S0 (size f) ltac:(lia)))), (bind_run _ _ _ _ _ (onl_run _ _ (mkfp f q2 []) _ _ (F0 (size f) f ltac:(lia)))).
    rewrite !(bind_run _ _ _ _ _ (onr_run _ _ _ _ _ (f_seek_at lo _ LO))). unfold at_pos. cbn [fdata flog].
    match goal with |- (fdata (snd (fst (?m1 (?s1, ?t)))), _) = (fdata (snd (fst (?m2 (?s2, ?t)))), _) => assert (D : deaf m1 m2) end.
    { repeat first [apply deaf_onr | apply deaf_lift | apply deaf_bind; [|intros ?]]. }
    destruct (D (1%nat, size f) (mkfp f (size f) []) (mkfp f lo [])) as [D1 D2]. rewrite D1, D2. reflexivity. }
  destruct (calculate_nchunks (size f - room) (CSInt (h_chunk_size h))) as [[[k c1] l1]|e] eqn:EN.
  2:{ apply TRIV. destruct (FR f eq_refl) as (q2 & FF). rewrite FF. clear FF FR TRIV.
    rewrite (bind_run _ _ _ _ _ (onl_run _ _ (mkfp f q []) _ _ (S0 room ltac:(lia)))), (bind_run _ _ _ _ _ (onl_run _ _ (mkfp f q2 []) _ _ (F0 room f ltac:(lia)))).
    rewrite !(bind_lift_raise _ _ _ _ eq_refl). reflexivity. }
  destruct (calculate_partition (size f - room) _ _ _ _ ltac:(lia) EN) as (K1 & KS & KL & _ & _ & KC & _ & _).
  set (ns := chunk_sizes k c1 l1) in *. 
  assert (NS : zsum ns = size f - room) by (unfold ns; rewrite zsum_chunk_sizes; lia).
  assert (NN : Forall (fun n => 0 <= n) ns) by (apply chunk_sizes_nonneg; lia).
  destruct (seen_yields view (size f) HV ns 1%nat room NN R0 ltac:(lia)) as ((sv & YV) & MV).
  pose proof (shown_nth view (size f) HV ns 1%nat room NN R0 ltac:(lia)) as NV.
  set (ps := shown view ns 1 room) in *. set (x := sub 0 room f ++ concat ps).
  assert (S1 : zlen (sub 0 room f) = room) by (rewrite <- size_zlen; apply size_sub_in; lia).
  assert (SC : zlen (concat ps) = size f - room).
  { rewrite <- NS, <- MV. clear. induction ps as [|y ps IH]; [reflexivity|]. cbn [concat map zsum fold_right]. fold (zsum (map (fun x => zlen x) ps)). rewrite zlen_app, IH. reflexivity. }
  assert (SX : size x = size f) by (unfold x; rewrite size_zlen, zlen_app; lia).
  assert (XA : agree 0 room f x).
  { intros i I. unfold x. rewrite nth_error_app1 by (unfold zlen in S1; lia). pose proof (nth_sub 0 room f i ltac:(lia) ltac:(lia)) as T. rewrite Z.sub_0_r in T. symmetry. exact T. }
  exists x. split; [exact SX|]. split; [intros i I; apply XA; lia|]. split.
  { intros i I. destruct (Z.lt_ge_cases i room) as [C|C]; [exists O; rewrite V0; symmetry; apply XA; lia|].
    destruct (NV i ltac:(lia)) as (j & J). exists j. rewrite <- J. unfold x. rewrite nth_error_app2 by (unfold zlen in S1; lia). f_equal. unfold zlen in S1. lia. }
  clear TRIV. destruct (FR x SX) as (q2 & FF). rewrite FF. clear FF FR.
  rewrite (bind_run _ _ _ _ _ (onl_run _ _ (mkfp f q []) _ _ (S0 room ltac:(lia)))), (bind_run _ _ _ _ _ (onl_run _ _ (mkfp f q2 []) _ _ (F0 room x ltac:(lia)))).
  replace (sub 0 room x) with (sub 0 room f) by (unfold x, sub; cbn [Z.to_nat skipn]; rewrite firstn_app; unfold sub, zlen in S1; cbn [Z.to_nat skipn] in S1;
    replace (Z.to_nat room - List.length (firstn (Z.to_nat room) f))%nat with O by lia; cbn [firstn]; rewrite app_nil_r, firstn_firstn, Nat.min_id; reflexivity).
  rewrite !(bind_lift _ _ _ _ eq_refl).
  destruct (h_max_app h <? k); [reflexivity|].
  rewrite !(bind_run _ _ _ _ _ (onr_run _ _ _ _ _ (f_seek_at lo _ LO))). unfold at_pos. cbn [fdata flog].
  destruct (compress_chunk_str E ba (xl ++ sub 0 room f)) as [c|e]; [|rewrite !(bind_lift_raise _ _ _ _ eq_refl); reflexivity].
  rewrite !(bind_lift _ _ _ _ eq_refl).
  destruct (write_compressed_chunk c (digest E (h_checksum h) c) (mkfp f lo [])) as [w1 [[]|e]] eqn:EW.
  2:{ rewrite !(bind_run_raise _ _ _ _ _ (onr_run _ _ _ _ _ EW)). reflexivity. }
  rewrite !(bind_run _ _ _ _ _ (onr_run _ _ _ _ _ EW)). cbn [fst snd]. fold ns.
  destruct (fp_source_yields ns (mkfp x room []) NN R0) as (sx & YX). unfold rest in YX. cbn [fdata fpos] in YX.
  replace (zdrop room x) with (concat ps) in YX by (unfold x; rewrite zdrop_app_exact by (symmetry; exact S1); reflexivity).
  rewrite takes_concat in YX by exact MV.
  destruct (pack_loop_same (compress_chunk_str E ba) (compress_chunk_str E ba) (fps_put E) (map (seen view) ns) (map f_read ns) 0 (1%nat, room) (mkfp x room []) ps ps sv sx
    (mkCFS w1 0 h (zrep k (-1))) YV YX) as [P1 P2]; [clear; induction ps; constructor; auto|].
  destruct (pack_loop (compress_chunk_str E ba) (fps_put E) 0 (map (seen view) ns) (1%nat, room, mkCFS w1 0 h (zrep k (-1)))) as [[a1 k1] r1].
  destruct (pack_loop (compress_chunk_str E ba) (fps_put E) 0 (map f_read ns) (mkfp x room [], mkCFS w1 0 h (zrep k (-1)))) as [[a2 k2] r2]. cbn [fst snd] in P1, P2. subst k2 r2.
  destruct r1 as [?|e]; [|reflexivity].
  match goal with |- (fdata (snd (fst (?m1 (?s1, ?t)))), _) = (fdata (snd (fst (?m2 (?s2, ?t)))), _) => assert (D : deaf m1 m2) end.
  { repeat first [apply deaf_onr | apply deaf_lift | apply deaf_bind; [|intros ?]]. }
  destruct (D a1 a2 (s_fp k1)) as [D1 D2]. rewrite D1, D2. reflexivity.
Qed.
End WithEnv.

Section WithEnv2.
Variable E : Env.
Hypothesis HE : EnvOK E.

(** ** What the new contents are, and what comes of it *)
Theorem itself_result f b m view oa : archive E f b m -> view O = f -> (forall i, glimpse E f oa (view i)) ->
  exists x, size x = size f /\ agree 0 (Z.min (size f) (F_last_start f)) f x /\ agree 0 (Z.min (size f) (F_chunk f - F_last f)) f x /\
    (forall k, 0 <= k < size f -> exists g, meanwhile E f oa g /\ nth_error x (Z.to_nat k) = nth_error g (Z.to_nat k)) /\
    append_to_itself E f view oa = append_bytes E f x oa /\
    (sizable f f -> match append_to_itself E f view oa with
      | (f', Ok k) => unpack_bytes_from_bytes E f' = Ok (b ++ x, m)
      | (f', Raise e) => f' = f end).
Proof.
  intros HA V0 GV. destruct (itself_is E HE f b m view oa HA (fun i => proj1 (GV i)) V0) as (x & SX & AX & NX & EX).
  assert (MX : forall k, 0 <= k < size f -> exists g, meanwhile E f oa g /\ nth_error x (Z.to_nat k) = nth_error g (Z.to_nat k)).
  { intros k K. destruct (NX k K) as (j & J). destruct (proj2 (GV j) k K) as (g & G1 & G2). exists g. split; [exact G1|congruence]. }
  exists x. split; [exact SX|]. split.
  { intros i I. destruct (MX i ltac:(lia)) as (g & G1 & G2). rewrite G2. apply (proj2 (meanwhile_front E HE _ _ _ _ _ HA G1)). lia. }
  split; [exact AX|]. split; [exact MX|]. split; [exact EX|].
  intros HS. rewrite EX. destruct (append_bytes E f x oa) as [f' [k|e]] eqn:AB.
  - eapply (append_appends E HE); [exact HA| |exact AB]. unfold sizable in *. rewrite SX. exact HS.
  - refine (proj1 (append_fails_clean E HE _ _ _ _ _ _ _ HA _ AB)). unfold sizable in *. rewrite SX. exact HS.
Qed.
Lemma agree_whole f x : size x = size f -> agree 0 (size f) f x -> x = f.
Proof.
  unfold size. intros SX AX. symmetry. apply nth_error_ext. intros i. destruct (Nat.lt_ge_cases i (List.length f)) as [C|C].
  - specialize (AX (Z.of_nat i) ltac:(lia)). rewrite Nat2Z.id in AX. exact AX.
  - rewrite (proj2 (nth_error_None f i)), (proj2 (nth_error_None x i)) by lia. reflexivity.
Qed.
(** One read is enough, or the reads are shown nothing new: the file as it was. *)
Theorem itself_faithful f b m view oa f' k : archive E f b m -> view O = f -> (forall i, glimpse E f oa (view i)) -> sizable f f ->
  size f <= F_chunk f - F_last f \/ (forall i, view i = f) ->
  append_to_itself E f view oa = (f', Ok k) -> unpack_bytes_from_bytes E f' = Ok (b ++ f, m).
Proof.
  intros HA V0 GV HS C H. destruct C as [C|C].
  - destruct (itself_result f b m view oa HA V0 GV) as (x & SX & _ & AX & _ & _ & R). specialize (R HS). rewrite H in R.
    rewrite (agree_whole f x SX) in R; [exact R|]. intros i I. apply AX. lia.
  - destruct (itself_is E HE f b m view oa HA (fun i => proj1 (GV i)) V0) as (x & SX & _ & NX & EX). rewrite EX in H.
    assert (x = f) as ->. { apply agree_whole; [exact SX|]. intros i I. destruct (NX i I) as (j & J). rewrite J, C. reflexivity. }
    eapply (append_appends E HE); eauto.
Qed.
End WithEnv2.
