(** What errors and full disks leave of the files. *)
From Verif Require Import Base PyVal Checksums Headers Args FileIO Append Spec Archive BaseLemmas IOProofs PackProofs MetaProofs CrashProofs
  Damage HistoryProofs DamageProofs Overlap Torn TornProofs Fault FaultProofs.
From Coq Require Import ZifyBool ZifyNat.
Ltac Zify.zify_post_hook ::= Z.div_mod_to_equations.

Lemma start_pos d : 0 <= fpos (fp_of d).
Proof. cbn. lia. Qed.
(** Programs that leave the position alone write one string. *)
Fixpoint straight {S A} (p : io S A) : Prop :=
  match p with
  | Done _ => True
  | Do m k => (forall s f, snd (fst (m (s, f))) = f) /\ forall x, straight (k x)
  | Write _ k => straight k
  end.
Lemma f_write_app x y f : 0 <= fpos f -> fst (f_write y (fst (f_write x f))) = fst (f_write (x ++ y) f).
Proof.
  intros Hp. cbn [f_write fst fdata fpos flog]. rewrite zlen_app, write_at_app, log_of_app, app_assoc by lia. f_equal. lia.
Qed.
Lemma straight_play {S A} (p : io S A) : straight p -> forall s f, 0 <= fpos f -> exists x, snd (fst (play p (s, f))) = fst (f_write x f).
Proof.
  induction p as [r0|X m k IH|x k IH]; intros C s f Hp.
  - exists []. destruct f as [d q l]. cbn. f_equal; [lia|rewrite app_nil_r; reflexivity].
  - destruct C as [Q C]. specialize (Q s f). cbn [play]. unfold bind. destruct (m (s, f)) as [[s1 f1] [x|e]]; cbn [fst snd] in Q; subst f1.
    + apply IH; auto.
    + exists []. destruct f as [d q l]. cbn. f_equal; [lia|rewrite app_nil_r; reflexivity].
  - rewrite play_write. destruct (IH C s (fst (f_write x f)) (pos_write x f Hp)) as [y Y]. exists (x ++ y). rewrite Y. apply f_write_app, Hp.
Qed.

Section WithEnv.
Variable E : Env.
Hypothesis HE : EnvOK E.

(** ** Errors are crashes, and crashes are errors *)
Lemma broken_is_crash {S A} (p : io S A) s d : calm p -> forall g, breaks p (s, fp_of d) g ->
  exists j, (j <= List.length (flog (snd (fst (play p (s, fp_of d))))))%nat /\ g = crash j (flog (snd (fst (play p (s, fp_of d))))) d.
Proof.
  intros C g B. destruct (play p (s, fp_of d)) as [[s' f'] r] eqn:P. cbn [fst snd].
  destruct (breaks_crash p C s (fp_of d) g s' f' r (start_pos _) B P) as (ext & j & L & J & G).
  cbn [fp_of flog app fdata] in *. rewrite L. exists j. auto.
Qed.
Lemma crash_is_broken {S A} (p : io S A) s d j : calm p -> flog (snd (fst (play p (s, fp_of d)))) <> [] ->
  (j <= List.length (flog (snd (fst (play p (s, fp_of d))))))%nat -> breaks p (s, fp_of d) (crash j (flog (snd (fst (play p (s, fp_of d))))) d).
Proof.
  intros C NE J. destruct (play p (s, fp_of d)) as [[s' f'] r] eqn:P. cbn [fst snd] in *.
  destruct (crash_breaks p C s (fp_of d) s' f' r (flog f') j (start_pos _) P eq_refl NE J) as (g & B & G). cbn [fp_of fdata] in G. rewrite <- G. exact B.
Qed.

Definition packing (n c l : Z) (b : bytes) m oba obp oma := play (pack_io E (fp_source E) n c l m oba obp oma) (fp_of b, fp_of []).
Lemma packing_core b csa m oba obp oma n c l : calculate_nchunks (zlen b) csa = Ok (n, c, l) ->
  snd (fst (packing n c l b m oba obp oma)) = s_fp (fst (pack_bytes_core E b csa m oba obp oma)) /\
  snd (packing n c l b m oba obp oma) = unres (snd (pack_bytes_core E b csa m oba obp oma)).
Proof.
  intros H. unfold packing, pack_bytes_core. rewrite H, play_pack. destruct (pack _ _ n c l m oba obp oma _) as [[s' k] r]. auto.
Qed.

Theorem pack_errors b csa m oba obp oma g : broken_pack E b csa m oba obp oma g ->
  exists j, (j <= List.length (pack_log E b csa m oba obp oma))%nat /\ g = crash j (pack_log E b csa m oba obp oma) [].
Proof.
  intros (n & c & l & CN & B). destruct (packing_core b csa m oba obp oma n c l CN) as [P _]. unfold pack_log. rewrite <- P.
  apply broken_is_crash; [apply calm_pack|exact B].
Qed.
Theorem pack_errors_all b csa m oba obp oma j : pack_log E b csa m oba obp oma <> [] -> (j <= List.length (pack_log E b csa m oba obp oma))%nat ->
  broken_pack E b csa m oba obp oma (crash j (pack_log E b csa m oba obp oma) []).
Proof.
  intros NE J. destruct (calculate_nchunks (zlen b) csa) as [[[n c] l]|e] eqn:CN.
  2:{ exfalso. apply NE. unfold pack_log, pack_bytes_core. rewrite CN. reflexivity. }
  exists n, c, l. split; [exact CN|]. destruct (packing_core b csa m oba obp oma n c l CN) as [P _]. unfold pack_log in *. rewrite <- P in *.
  apply crash_is_broken; auto. apply calm_pack.
Qed.
Lemma append_play f new oa : append_log E f new oa = flog (snd (fst (play (append_io E f_read (zlen new) oa) (fp_of new, fp_of f)))) /\
  append_bytes E f new oa = (fdata (snd (fst (play (append_io E f_read (zlen new) oa) (fp_of new, fp_of f)))), snd (play (append_io E f_read (zlen new) oa) (fp_of new, fp_of f))).
Proof. rewrite play_append. split; reflexivity. Qed.
Theorem append_errors f new oa g : broken_append E f new oa g -> exists j, (j <= List.length (append_log E f new oa))%nat /\ g = crash j (append_log E f new oa) f.
Proof. intros B. rewrite (proj1 (append_play f new oa)). apply broken_is_crash; [apply calm_append|exact B]. Qed.
Theorem append_errors_all f new oa j : append_log E f new oa <> [] -> (j <= List.length (append_log E f new oa))%nat ->
  broken_append E f new oa (crash j (append_log E f new oa) f).
Proof. intros NE J. rewrite (proj1 (append_play f new oa)) in *. apply crash_is_broken; auto. apply calm_append. Qed.
Lemma rewrite_play f m ov : rewrite_log E f m ov = flog (snd (fst (play (@rewrite_io E unit m ov) (tt, fp_of f)))) /\
  rewrite_bytes E f m ov = (fdata (snd (fst (play (@rewrite_io E unit m ov) (tt, fp_of f)))), snd (play (@rewrite_io E unit m ov) (tt, fp_of f))).
Proof. rewrite play_rewrite. unfold rewrite_log, rewrite_bytes. destruct (rewrite_metadata E m ov (fp_of f)) as [f' r]. split; reflexivity. Qed.
Theorem rewrite_errors f m ov g : broken_rewrite E f m ov g -> exists j, (j <= List.length (rewrite_log E f m ov))%nat /\ g = crash j (rewrite_log E f m ov) f.
Proof. intros B. rewrite (proj1 (rewrite_play f m ov)). apply broken_is_crash; [apply calm_rewrite|exact B]. Qed.
Theorem rewrite_errors_all f m ov j : rewrite_log E f m ov <> [] -> (j <= List.length (rewrite_log E f m ov))%nat ->
  broken_rewrite E f m ov (crash j (rewrite_log E f m ov) f).
Proof. intros NE J. rewrite (proj1 (rewrite_play f m ov)) in *. apply crash_is_broken; auto. apply calm_rewrite. Qed.

(** ** The output of unpacking *)
Lemma straight_unpack : straight (unpack_io E).
Proof.
  split; [intros s f; unfold onl; cbn [fst snd]; destruct (read_beginning E s); reflexivity|]. intros bg.
  induction (Z.to_nat (h_nchunks (b_header bg))) as [|n IH]; [exact I|]. cbn [unpack_loop_io].
  split; [intros s f; unfold onl; cbn [fst snd]; destruct (fp_next E _ s); reflexivity|]. intros cd.
  match goal with |- straight (Try ?r _) => destruct r end; [|exact I]. cbn [Try]. destruct (e_decompress E (fst cd)); [exact IH|exact I].
Qed.
Lemma write_empty x : write_at [] 0 x = x.
Proof. destruct x as [|b x]; [reflexivity|]. rewrite write_at_unfold by discriminate. rewrite ztake_firstn, zdrop_skipn, skipn_nil, firstn_nil, app_nil_r. reflexivity. Qed.
Lemma unpack_play f : exists x, snd (fst (play (unpack_io E) (fp_of f, fp_of []))) = fst (f_write x (fp_of [])) /\ x = fst (unpack_core E f).
Proof.
  destruct (straight_play _ straight_unpack (fp_of f) (fp_of []) (start_pos _)) as [x X]. exists x. split; [exact X|].
  rewrite <- (play_unpack E f). cbv zeta. cbn [fst]. rewrite X. cbn [f_write fst fdata fp_of fpos]. symmetry. apply write_empty.
Qed.
Lemma crash_start j x : crash j (log_of 0 x) [] = firstn j x.
Proof. unfold crash. rewrite firstn_log, poke_log, write_empty by lia. reflexivity. Qed.
Theorem unpack_errors f g : broken_unpack E f g -> exists j, g = firstn j (fst (unpack_core E f)).
Proof.
  intros B. destruct (unpack_play f) as (x & X & <-). apply broken_is_crash in B as (j & J & G); [|apply calm_unpack].
  rewrite X in G. cbn [f_write fst flog fp_of app fpos] in G. rewrite crash_start in G. eauto.
Qed.
Theorem unpack_errors_all f j : fst (unpack_core E f) <> [] -> broken_unpack E f (firstn j (fst (unpack_core E f))).
Proof.
  intros NE. destruct (unpack_play f) as (x & X & EQ). rewrite <- EQ in *.
  pose proof (crash_is_broken (unpack_io E) (fp_of f) [] (Nat.min j (List.length x)) (calm_unpack E)) as H. rewrite X in H.
  cbn [f_write fst flog fp_of app fpos] in H. rewrite length_log, crash_start in H.
  replace (firstn (Nat.min j (List.length x)) x) with (firstn j x) in H.
  - apply H; [destruct x; [congruence|discriminate]|lia].
  - destruct (Nat.le_ge_cases j (List.length x)); [rewrite Nat.min_l by lia; reflexivity|rewrite Nat.min_r, !firstn_all2 by lia; reflexivity].
Qed.

(** ** Full disks *)
Theorem append_disk_ok cap f new oa : size (fst (append_bytes E f new oa)) <= cap -> append_on_disk E cap f new oa = append_bytes E f new oa.
Proof.
  intros H. rewrite (proj2 (append_play f new oa)) in *. unfold append_on_disk. cbv zeta. rewrite disk_enough; [reflexivity|apply calm_append|cbn; lia|exact H].
Qed.
Theorem append_disk_full cap f new oa : size f <= cap -> cap < size (fst (append_bytes E f new oa)) ->
  exists j w, nth_error (append_log E f new oa) j = Some w /\ cap <= fst w /\ (forall v, In v (firstn j (append_log E f new oa)) -> fst v < cap) /\
  append_on_disk E cap f new oa = (crash j (append_log E f new oa) f, Raise OSError) /\ broken_append E f new oa (crash j (append_log E f new oa) f).
Proof.
  intros HF H. rewrite (proj2 (append_play f new oa)) in H. cbn [fst] in H. rewrite (proj1 (append_play f new oa)).
  destruct (disk_full (append_io E f_read (zlen new) oa) cap (calm_append E _ _ _) (fp_of new) (fp_of f) (start_pos _) HF H) as (R1 & R2 & R3).
  destruct (play (append_io E f_read (zlen new) oa) (fp_of new, fp_of f)) as [[s' f'] r] eqn:P. cbn [fst snd] in *.
  destruct (disk_full_at _ cap (calm_append E _ _ _) _ _ _ _ _ (start_pos _) HF P H) as (ext & j & w & L & N & W & V & G).
  cbn [fp_of flog app fdata] in L, G. rewrite L. exists j, w. split; [exact N|]. split; [exact W|]. split; [exact V|].
  unfold append_on_disk. cbv zeta. rewrite R1, G. split; [reflexivity|]. unfold broken_append. rewrite <- G. exact R2.
Qed.
Theorem unpack_disk cap f : 0 <= cap -> unpack_on_disk E cap f =
  if size (fst (unpack_core E f)) <=? cap then unpack_core E f else (sub 0 cap (fst (unpack_core E f)), Raise OSError).
Proof.
  intros HC. destruct (unpack_play f) as (x & X & EQ). pose proof (play_unpack E f) as PU. cbv zeta in PU.
  assert (SX : fdata (snd (fst (play (unpack_io E) (fp_of f, fp_of [])))) = fst (unpack_core E f)) by (rewrite <- PU; reflexivity).
  destruct (size (fst (unpack_core E f)) <=? cap) eqn:B; unfold unpack_on_disk; cbv zeta.
  - rewrite disk_enough; [exact PU|apply calm_unpack|cbn; lia|rewrite SX; lia].
  - assert (Z0 : size (fdata (fp_of [])) <= cap) by exact HC. assert (H : cap < size (fdata (snd (fst (play (unpack_io E) (fp_of f, fp_of [])))))) by (rewrite SX; lia).
    destruct (disk_full (unpack_io E) cap (calm_unpack E) (fp_of f) (fp_of []) (start_pos _) Z0 H) as (R1 & R2 & R3).
    destruct (play (unpack_io E) (fp_of f, fp_of [])) as [[s' f'] r] eqn:P. cbn [fst snd] in *. subst f'.
    destruct (disk_full_at _ cap (calm_unpack E) _ _ _ _ _ (start_pos _) Z0 P H) as (ext & j & w & L & N & W & V & G).
    rewrite R1. f_equal. cbn [f_write fst flog fp_of app fpos fdata] in L, G. subst ext. rewrite G in R3 |- *. rewrite crash_start in R3 |- *.
    assert (J : (j < List.length x)%nat) by (rewrite <- (length_log x 0); apply nth_error_Some; congruence).
    assert (W2 : fst w = Z.of_nat j).
    { destruct (nth_error x j) as [b|] eqn:NB; [|apply nth_error_None in NB; lia]. rewrite (nth_log x 0 j b NB) in N. injection N as <-. reflexivity. }
    unfold size in R3. rewrite firstn_length in R3. rewrite <- EQ. unfold sub. cbn [skipn Z.to_nat]. f_equal. lia.
Qed.
Theorem rewrite_disk cap f b m m' ov : archive E f b m -> size f <= cap -> rewrite_on_disk E cap f m' ov = rewrite_bytes E f m' ov.
Proof.
  intros HA HF. assert (SZ : size (fst (rewrite_bytes E f m' ov)) = size f).
  { destruct (rewrite_bytes E f m' ov) as [f' [[]|e]] eqn:R; cbn [fst]; [|rewrite (rewrite_fails_clean E HE _ _ _ _ _ R); reflexivity].
    apply (rewrite_frame E HE _ _ _ _ _ _ HA R). }
  rewrite (proj2 (rewrite_play f m' ov)) in *. cbn [fst] in SZ. unfold rewrite_on_disk. cbv zeta. rewrite disk_enough; [reflexivity|apply calm_rewrite|cbn; lia|rewrite SZ; exact HF].
Qed.
Theorem pack_disk cap b csa m oba obp oma f : 0 <= cap -> pack_bytes_to_bytes E b csa m oba obp oma = Ok f ->
  pack_on_disk E cap b csa m oba obp oma = if size f <=? cap then (f, Ok tt) else (crash (Z.to_nat cap) (pack_log E b csa m oba obp oma) [], Raise OSError).
Proof.
  intros HC HP. pose proof HP as HP0. unfold pack_bytes_to_bytes in HP. destruct (pack_bytes_core E b csa m oba obp oma) as [k r] eqn:PC.
  destruct r as [o|e]; [|discriminate]. cbn [rbind] in HP. assert (FD : fdata (s_fp k) = f) by congruence. clear HP.
  destruct (calculate_nchunks (zlen b) csa) as [[[n c] l]|e] eqn:CN; [|unfold pack_bytes_core in PC; rewrite CN in PC; congruence].
  destruct (packing_core b csa m oba obp oma n c l CN) as [P1 P2]. rewrite PC in P1, P2. cbn [fst snd unres rbind] in P1, P2.
  unfold pack_on_disk. rewrite CN. cbv zeta. unfold packing in *. destruct (size f <=? cap) eqn:B.
  - rewrite disk_enough; [rewrite P1, P2, FD; reflexivity|apply calm_pack|cbn; lia|rewrite P1, FD; lia].
  - assert (Z0 : size (fdata (fp_of [])) <= cap) by exact HC.
    assert (H : cap < size (fdata (snd (fst (play (pack_io E (fp_source E) n c l m oba obp oma) (fp_of b, fp_of [])))))) by (rewrite P1, FD; lia).
    destruct (disk_full _ cap (calm_pack E (fp_source E) n c l m oba obp oma) (fp_of b) (fp_of []) (start_pos _) Z0 H) as (R1 & R2 & R3).
    assert (LOG : pack_log E b csa m oba obp oma = flog (s_fp k)) by (unfold pack_log; rewrite PC; reflexivity).
    destruct (play (pack_io E (fp_source E) n c l m oba obp oma) (fp_of b, fp_of [])) as [[s' f'] r] eqn:P. cbn [fst snd] in P1, H. subst f'.
    destruct (disk_full_at _ cap (calm_pack E (fp_source E) n c l m oba obp oma) _ _ _ _ _ (start_pos _) Z0 P H) as (ext & j & w & L & N & W & V & G).
    cbn [fp_of flog app fdata] in L, G. subst ext. rewrite R1, G, <- LOG in *. f_equal. f_equal.
    assert (J : (j < List.length (pack_log E b csa m oba obp oma))%nat) by (apply nth_error_Some; congruence).
    destruct (pack_crash E HE b csa m oba obp oma f j HP0) as (_ & _ & A1 & _). destruct (pack_crash E HE b csa m oba obp oma f (S j) HP0) as (_ & _ & A2 & _).
    assert (SJ : crash (S j) (pack_log E b csa m oba obp oma) [] = poke (crash j (pack_log E b csa m oba obp oma) []) w).
    { unfold crash. assert (FS : firstn (S j) (pack_log E b csa m oba obp oma) = firstn j (pack_log E b csa m oba obp oma) ++ [w]).
      { clear - N. revert j N. generalize (pack_log E b csa m oba obp oma). intros q. induction q as [|y q IH]; intros [|j] N; cbn [nth_error] in N; try discriminate.
        - injection N as ->. reflexivity.
        - cbn [firstn app]. f_equal. apply (IH j N). }
      rewrite FS, fold_left_app. reflexivity. }
    assert (JF : Z.of_nat j < size f).
    { destruct (Z.lt_ge_cases (Z.of_nat j) (size f)) as [X|X]; [exact X|exfalso].
      (* after size f writes the file already has its full size *)
      destruct (pack_crash E HE b csa m oba obp oma f (Z.to_nat (size f)) HP0) as (_ & _ & A3 & _). destruct A3 as [A3 _]; [unfold size in *; lia|].
      assert (LE : size (crash (Z.to_nat (size f)) (pack_log E b csa m oba obp oma) []) <= size (crash j (pack_log E b csa m oba obp oma) [])).
      { unfold crash. rewrite <- (firstn_skipn (Z.to_nat (size f)) (firstn j (pack_log E b csa m oba obp oma))), firstn_firstn, Nat.min_l, fold_left_app by lia.
        apply pokes_grow. destruct (play_log _ (calm_pack E (fp_source E) n c l m oba obp oma) _ _ _ _ _ (start_pos _) P) as (e2 & Q1 & _ & Q2 & _).
        cbn [fp_of flog app] in Q1. rewrite LOG, Q1. apply Forall_forall. intros v Hv. rewrite Forall_forall in Q2. apply Q2.
        rewrite <- (firstn_skipn j e2). apply in_or_app. left. rewrite <- (firstn_skipn (Z.to_nat (size f)) (firstn j e2)). apply in_or_app. right. exact Hv. }
      unfold size in *. lia. }
    destruct A1 as [A1 _]; [lia|]. destruct A2 as [A2 _]; [lia|]. rewrite SJ in A2. destruct w as [q y]. cbn [fst] in W.
    rewrite poke_write in A2 by lia. rewrite size_write in A2 by lia. change (zlen [y]) with 1 in A2. cbn [Z.eqb] in A2. lia.
Qed.
End WithEnv.
