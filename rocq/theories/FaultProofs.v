(** Errors in the middle of a program, and full disks. *)
From Verif Require Import Base PyVal Checksums Headers Args FileIO Append Spec Archive BaseLemmas IOProofs PackProofs MetaProofs CrashProofs Damage Fault.
From Coq Require Import ZifyBool ZifyNat.
Ltac Zify.zify_post_hook ::= Z.div_mod_to_equations.

(** ** Programs in general *)
Definition quiet {S X} (m : SM (S * fp) X) : Prop :=
  forall s f s' f' r, 0 <= fpos f -> m (s, f) = ((s', f'), r) -> fdata f' = fdata f /\ flog f' = flog f /\ 0 <= fpos f'.
Fixpoint calm {S A} (p : io S A) : Prop :=
  match p with
  | Done _ => True
  | Do m k => quiet m /\ forall x, calm (k x)
  | Write _ k => calm k
  end.
Lemma quiet_onl {S X} (m : SM S X) : quiet (onl m).
Proof. intros s f s' f' r Hp H. unfold onl in H. cbn [fst snd] in H. destruct (m s) as [s1 r1]. inversion H; subst. auto. Qed.
Lemma quiet_onr {S X} (m : SM fp X) : read_only m -> quiet (@onr S fp X m).
Proof. intros R s f s' f' r Hp H. unfold onr in H. cbn [fst snd] in H. destruct (m f) as [f1 r1] eqn:Q. inversion H; subst. exact (R _ _ _ Hp Q). Qed.
Lemma calm_try {S A X} (r : res X) (k : X -> io S A) : (forall x, calm (k x)) -> calm (Try r k).
Proof. intros H. destruct r; cbn; auto. Qed.

Lemma play_do_ok {S A X} (m : SM (S * fp) X) (k : X -> io S A) st st' x : m st = (st', Ok x) -> play (Do m k) st = play (k x) st'.
Proof. intros H. cbn [play]. rewrite (bind_run _ _ _ _ _ H). reflexivity. Qed.
Lemma play_write {S A} x (k : io S A) s f : play (Write x k) (s, f) = play k (s, fst (f_write x f)).
Proof. reflexivity. Qed.
Lemma play_try {S A X} (r : res X) (k : X -> io S A) st : play (Try r k) st = bind (lift r) (fun x => play (k x)) st.
Proof. destruct r; reflexivity. Qed.

Lemma pos_write x f : 0 <= fpos f -> 0 <= fpos (fst (f_write x f)).
Proof. intros. cbn. pose proof (zlen_nonneg x). lia. Qed.

(** The file only grows, and its log describes it. *)
Lemma play_log {S A} (p : io S A) : calm p -> forall s f s' f' r, 0 <= fpos f -> play p (s, f) = ((s', f'), r) ->
  exists ext, flog f' = flog f ++ ext /\ fdata f' = fold_left poke ext (fdata f) /\ Forall (fun w => 0 <= fst w) ext /\ 0 <= fpos f'.
Proof.
  induction p as [r0|X m k IH|x k IH]; intros C s f s' f' r Hp H.
  - inversion H; subst. exists []. rewrite app_nil_r. auto.
  - destruct C as [Q C]. cbn [play] in H. unfold bind in H. destruct (m (s, f)) as [[s1 f1] r1] eqn:M.
    destruct (Q _ _ _ _ _ Hp M) as (D & L & P1). destruct r1 as [x|e].
    + destruct (IH x (C x) _ _ _ _ _ P1 H) as (ext & L1 & D1 & R). exists ext. rewrite L1, D1, D, L. auto.
    + inversion H; subst. exists []. rewrite app_nil_r. auto.
  - rewrite play_write in H. cbn [calm] in C. pose proof (zlen_nonneg x).
    destruct (IH C _ _ _ _ _ (pos_write x f Hp) H) as (ext & L1 & D1 & F & P1). cbn [f_write fst fdata flog fpos] in *.
    exists (log_of (fpos f) x ++ ext). rewrite L1, app_assoc, fold_left_app, poke_log, D1 by lia.
    split; [reflexivity|]. split; [reflexivity|]. split; [apply Forall_app; split; [apply log_nonneg; lia|exact F]|exact P1].
Qed.

Lemma length_log x : forall p, List.length (log_of p x) = List.length x.
Proof. induction x; intros p; cbn; auto. Qed.
Lemma firstn_log x : forall p i, firstn i (log_of p x) = log_of p (firstn i x).
Proof. induction x as [|b x IH]; intros p [|i]; cbn; auto. rewrite IH. reflexivity. Qed.
Lemma crash_app_more j (l1 l2 : list (Z * byte)) d : crash (List.length l1 + j) (l1 ++ l2) d = crash j l2 (fold_left poke l1 d).
Proof. unfold crash. rewrite firstn_app_2, fold_left_app. reflexivity. Qed.
Lemma crash_app_less j (l1 l2 : list (Z * byte)) d : (j <= List.length l1)%nat -> crash j (l1 ++ l2) d = crash j l1 d.
Proof. intros H. unfold crash. rewrite firstn_app, (proj2 (Nat.sub_0_le _ _) H). cbn [firstn]. rewrite app_nil_r. reflexivity. Qed.

(** An error leaves the file as a crash does. *)
Lemma breaks_crash {S A} (p : io S A) : calm p -> forall s f g s' f' r, 0 <= fpos f ->
  breaks p (s, f) g -> play p (s, f) = ((s', f'), r) ->
  exists ext j, flog f' = flog f ++ ext /\ (j <= List.length ext)%nat /\ g = crash j ext (fdata f).
Proof.
  induction p as [r0|X m k IH|x k IH]; intros C s f g s' f' r Hp B H.
  - destruct B.
  - destruct (play_log (Do m k) C _ _ _ _ _ Hp H) as (ext & L & _). destruct C as [Q C].
    destruct B as [->|([s1 f1] & x & M & B1)].
    + exists ext, O. split; [exact L|]. split; [lia|reflexivity].
    + rewrite (play_do_ok _ _ _ _ _ M) in H. destruct (Q _ _ _ _ _ Hp M) as (D & L1 & P1).
      destruct (IH x (C x) _ _ _ _ _ _ P1 B1 H) as (ext' & j & L' & J & G). rewrite L1 in L'. rewrite D in G. exists ext', j. auto.
  - destruct (play_log (Write x k) C _ _ _ _ _ Hp H) as (ext & L & _). cbn [calm] in C. rewrite play_write in H. pose proof (zlen_nonneg x).
    destruct (play_log k C _ _ _ _ _ (pos_write x f Hp) H) as (ext' & L' & D' & _).
    destruct B as [(i & ->)|B1]; cbn [f_write fst snd fdata flog fpos] in *.
    + exists (log_of (fpos f) x ++ ext'), (Nat.min i (List.length x)). rewrite L', app_assoc, app_length, length_log. split; [reflexivity|]. split; [lia|].
      rewrite crash_app_less by (rewrite length_log; lia). unfold crash. rewrite firstn_log, poke_log by lia. f_equal.
      destruct (Nat.le_ge_cases i (List.length x)); [rewrite Nat.min_l by lia; reflexivity|].
      rewrite Nat.min_r, !firstn_all2 by lia. reflexivity.
    + destruct (IH C _ _ _ _ _ _ (pos_write x f Hp) B1 H) as (e2 & j & L2 & J & G). cbn [f_write fst fdata flog fpos] in *.
      exists (log_of (fpos f) x ++ e2), (List.length (log_of (fpos f) x) + j)%nat. rewrite L2, app_assoc, app_length. split; [reflexivity|]. split; [lia|].
      rewrite crash_app_more, poke_log by lia. exact G.
Qed.

(** Every point of the log can be the one where the error happens. *)
Lemma crash_breaks {S A} (p : io S A) : calm p -> forall s f s' f' r ext j, 0 <= fpos f ->
  play p (s, f) = ((s', f'), r) -> flog f' = flog f ++ ext -> ext <> [] -> (j <= List.length ext)%nat ->
  exists g, breaks p (s, f) g /\ g = crash j ext (fdata f).
Proof.
  induction p as [r0|X m k IH|x k IH]; intros C s f s' f' r ext j Hp H L NE J.
  - inversion H; subst. rewrite <- (app_nil_r (flog f')) in L at 1. apply app_inv_head in L. congruence.
  - destruct C as [Q C]. cbn [play] in H. unfold bind in H. destruct (m (s, f)) as [[s1 f1] r1] eqn:M.
    destruct (Q _ _ _ _ _ Hp M) as (D & L1 & P1). destruct r1 as [x|e].
    + rewrite <- L1 in L. destruct (IH x (C x) _ _ _ _ _ ext j P1 H L NE J) as (g & B & G). exists g. rewrite <- D. split; [|exact G].
      right. eexists _, x. split; [exact M|exact B].
    + inversion H; subst. rewrite L1 in L. rewrite <- (app_nil_r (flog f)) in L at 1. apply app_inv_head in L. congruence.
  - rewrite play_write in H. cbn [calm] in C. pose proof (zlen_nonneg x).
    destruct (play_log k C _ _ _ _ _ (pos_write x f Hp) H) as (ext' & L' & D' & _). cbn [f_write fst fdata flog fpos] in *.
    assert (X : ext = log_of (fpos f) x ++ ext') by (rewrite L', <- app_assoc in L; apply app_inv_head in L; auto). subst ext.
    rewrite app_length, length_log in J. destruct (Nat.le_gt_cases j (List.length x)) as [J1|J1].
    + exists (fdata (fst (f_write (firstn j x) f))). split; [left; exists j; reflexivity|]. cbn [f_write fst fdata].
      rewrite crash_app_less by (rewrite length_log; lia). unfold crash. rewrite firstn_log, poke_log by lia. reflexivity.
    + destruct (IH C _ _ _ _ _ ext' (j - List.length x)%nat (pos_write x f Hp) H L') as (g & B & G); [destruct ext'; [cbn in J; lia|discriminate]|lia|].
      exists g. split; [right; exact B|]. rewrite G. cbn [f_write fst fdata].
      replace j with (List.length (log_of (fpos f) x) + (j - List.length x))%nat at 2 by (rewrite length_log; lia).
      rewrite crash_app_more, poke_log by lia. reflexivity.
Qed.

(** ** Full disks *)
Lemma size_write d p x : 0 <= p -> size (write_at d p x) = if zlen x =? 0 then size d else Z.max (size d) (p + zlen x).
Proof.
  intros Hp. destruct x as [|b x]; [reflexivity|]. replace (zlen (b :: x) =? 0) with false by (rewrite zlen_cons; pose proof (zlen_nonneg x); lia).
  rewrite !size_zlen, zlen_write_at by (auto; discriminate). reflexivity.
Qed.
Lemma play_grows {S A} (p : io S A) s f : calm p -> 0 <= fpos f -> size (fdata f) <= size (fdata (snd (fst (play p (s, f))))).
Proof.
  intros C Hp. destruct (play p (s, f)) as [[s' f'] r] eqn:H. destruct (play_log p C _ _ _ _ _ Hp H) as (ext & _ & D & F & _).
  cbn [fst snd]. rewrite D. apply pokes_grow. exact F.
Qed.

Lemma disk_enough {S A} (p : io S A) cap : calm p -> forall s f, 0 <= fpos f ->
  size (fdata (snd (fst (play p (s, f))))) <= cap -> play_disk cap p (s, f) = play p (s, f).
Proof.
  induction p as [r0|X m k IH|x k IH]; intros C s f Hp H; [reflexivity| |].
  - destruct C as [Q C]. cbn [play play_disk] in *. unfold bind in *. destruct (m (s, f)) as [[s1 f1] r1] eqn:M.
    destruct (Q _ _ _ _ _ Hp M) as (D & L & P1). destruct r1 as [x|e]; [|reflexivity]. apply IH; auto.
  - cbn [calm] in C. rewrite play_write in *. cbn [play_disk snd]. pose proof (zlen_nonneg x).
    pose proof (play_grows k s (fst (f_write x f)) C (pos_write x f Hp)) as G.
    assert (G2 : size (write_at (fdata f) (fpos f) x) <= cap) by (eapply Z.le_trans; [exact G|exact H]). clear G.
    rewrite size_write in G2 by lia. destruct (zlen x =? 0) eqn:Z0.
    + rewrite orb_true_r. unfold bind. cbn [onr f_write fst snd]. apply (IH C); [exact (pos_write x f Hp)|auto].
    + replace (fpos f + zlen x <=? cap) with true by lia. cbn [orb]. unfold bind. cbn [onr f_write fst snd]. apply (IH C); [exact (pos_write x f Hp)|auto].
Qed.

Lemma disk_full {S A} (p : io S A) cap : calm p -> forall s f, 0 <= fpos f -> size (fdata f) <= cap ->
  cap < size (fdata (snd (fst (play p (s, f))))) ->
  snd (play_disk cap p (s, f)) = Raise OSError /\ breaks p (s, f) (fdata (snd (fst (play_disk cap p (s, f))))) /\
  size (fdata (snd (fst (play_disk cap p (s, f))))) <= cap.
Proof.
  induction p as [r0|X m k IH|x k IH]; intros C s f Hp F H.
  - cbn in H. lia.
  - destruct C as [Q C]. cbn [play play_disk] in *. unfold bind in *. destruct (m (s, f)) as [[s1 f1] r1] eqn:M.
    destruct (Q _ _ _ _ _ Hp M) as (D & L & P1). destruct r1 as [x|e].
    + destruct (IH x (C x) s1 f1 P1 ltac:(rewrite D; exact F) H) as (R1 & R2 & R3). split; [exact R1|]. split; [|exact R3].
      right. eexists _, x. split; [exact M|exact R2].
    + cbn [fst snd] in H. rewrite D in H. lia.
  - cbn [calm] in C. rewrite play_write in *. cbn [play_disk snd]. pose proof (zlen_nonneg x).
    destruct ((fpos f + zlen x <=? cap) || (zlen x =? 0)) eqn:B.
    + unfold bind. cbn [onr f_write fst snd]. destruct (IH C s (fst (f_write x f)) (pos_write x f Hp)) as (R1 & R2 & R3); [|exact H|].
      * cbn [f_write fst fdata]. rewrite size_write by lia. destruct (zlen x =? 0); lia.
      * split; [exact R1|]. split; [|exact R3]. right. exact R2.
    + unfold bind. cbn [onr f_write fst snd raise fdata]. split; [reflexivity|]. split.
      * left. eexists. rewrite ztake_firstn. reflexivity.
      * rewrite size_write by lia. set (t := ztake _ x). assert (zlen t = Z.min (Z.max 0 (cap - fpos f)) (zlen x)) by (subst t; rewrite zlen_ztake; lia).
        destruct (zlen t =? 0) eqn:T; lia.
Qed.

(** Which write does not fit. *)
Lemma nth_log x : forall p j b, nth_error x j = Some b -> nth_error (log_of p x) j = Some (p + Z.of_nat j, b).
Proof.
  induction x as [|y x IH]; intros p [|j] b H; try discriminate.
  - injection H as ->. cbn. do 2 f_equal. lia.
  - cbn [log_of nth_error] in *. rewrite (IH _ _ _ H). do 2 f_equal. lia.
Qed.
Lemma log_below x p w : In w (log_of p x) -> fst w < p + zlen x.
Proof. intros H. apply log_of_In in H as (j & N & ->). assert (j < List.length x)%nat by (apply nth_error_Some; congruence). unfold zlen. lia. Qed.
Lemma disk_full_at {S A} (p : io S A) cap : calm p -> forall s f s' f' r, 0 <= fpos f -> size (fdata f) <= cap ->
  play p (s, f) = ((s', f'), r) -> cap < size (fdata f') ->
  exists ext j w, flog f' = flog f ++ ext /\ nth_error ext j = Some w /\ cap <= fst w /\ (forall v, In v (firstn j ext) -> fst v < cap) /\
  fdata (snd (fst (play_disk cap p (s, f)))) = crash j ext (fdata f).
Proof.
  induction p as [r0|X m k IH|x k IH]; intros C s f s' f' r Hp F H G.
  - inversion H; subst. lia.
  - destruct C as [Q C]. cbn [play play_disk] in *. unfold bind in *. destruct (m (s, f)) as [[s1 f1] r1] eqn:M.
    destruct (Q _ _ _ _ _ Hp M) as (D & L & P1). destruct r1 as [x|e].
    + destruct (IH x (C x) s1 f1 _ _ _ P1 ltac:(rewrite D; exact F) H G) as (ext & j & w & R). exists ext, j, w. rewrite L, D in R. exact R.
    + inversion H; subst. rewrite D in G. lia.
  - cbn [calm] in C. rewrite play_write in *. cbn [play_disk snd]. pose proof (zlen_nonneg x).
    destruct ((fpos f + zlen x <=? cap) || (zlen x =? 0)) eqn:B.
    + unfold bind. cbn [onr f_write fst snd]. destruct (IH C s (fst (f_write x f)) s' f' r (pos_write x f Hp)) as (ext & j & w & R1 & R2 & R3 & R4 & R5); [|exact H|exact G|].
      * cbn [f_write fst fdata]. rewrite size_write by lia. destruct (zlen x =? 0); lia.
      * cbn [f_write fst fdata flog] in R1, R5. exists (log_of (fpos f) x ++ ext), (List.length (log_of (fpos f) x) + j)%nat, w.
        split; [rewrite R1, app_assoc; reflexivity|]. split; [rewrite nth_error_app2 by lia; rewrite <- R2; f_equal; lia|]. split; [exact R3|]. split.
        -- intros v. rewrite firstn_app_2. intros V. apply in_app_or in V as [V|V]; [|exact (R4 v V)]. pose proof (log_below _ _ _ V).
           apply orb_prop in B as [B|B]; [lia|]. destruct x; [destruct V|]. rewrite zlen_cons in B. pose proof (zlen_nonneg x). lia.
        -- rewrite crash_app_more, poke_log by lia. exact R5.
    + destruct (play_log k C _ _ _ _ _ (pos_write x f Hp) H) as (ext & L & _). cbn [f_write fst flog] in L.
      set (j := Z.to_nat (Z.max 0 (cap - fpos f))). destruct (nth_error x j) as [b|] eqn:NX.
      2:{ apply nth_error_None in NX. unfold zlen in *. lia. }
      assert (J : (j < List.length x)%nat) by (apply nth_error_Some; congruence).
      exists (log_of (fpos f) x ++ ext), j, (fpos f + Z.of_nat j, b). split; [rewrite L, app_assoc; reflexivity|].
      split; [rewrite nth_error_app1 by (rewrite length_log; exact J); apply nth_log, NX|]. cbn [fst]. split; [lia|]. split.
      * intros v. rewrite firstn_app, length_log. replace (j - List.length x)%nat with O by lia. cbn [firstn]. rewrite app_nil_r, firstn_log. intros V.
        pose proof (log_below _ _ _ V) as U. unfold zlen in U. rewrite firstn_length in U.
        destruct j as [|j'] eqn:JJ; [cbn in V; destruct V|]. lia.
      * unfold bind. cbn [onr f_write fst snd raise fdata]. rewrite crash_app_less by (rewrite length_log; lia).
        unfold crash. rewrite firstn_log, poke_log, ztake_firstn by lia. reflexivity.
Qed.

(** ** The programs are those of FileIO.v and Append.v *)
Section WithEnv.
Variable E : Env.

Lemma play_chunk {S A} c dig (k : io S A) st : play (chunk_io c dig k) st = bind (onr (write_compressed_chunk c dig)) (fun _ => play k) st.
Proof. unfold chunk_io, write_compressed_chunk. destruct st as [s f]. cbn [play]. destruct (0 <? zlen dig); reflexivity. Qed.
Lemma play_metadata {S A} m a (k : Z -> io S A) st : play (metadata_io E m a k) st = bind (onr (write_metadata E m a)) (fun r => play (k (fst r))) st.
Proof.
  unfold metadata_io, write_metadata. destruct st as [s f]. destruct (plan_metadata E m a) as [[[h payload] a']|e]; [|reflexivity]. cbn [Try].
  destruct (mheader_encode h) as [raw|e] eqn:H; [|unfold bind, lift; cbn [Try play]; unfold onr; cbn [fst snd]; rewrite H; reflexivity]. cbn [Try].
  unfold onr at 1, bind at 1. cbn [fst snd]. unfold bind at 1. cbn [lift]. rewrite (bind_lift _ _ _ _ H).
  destruct (cks_eqb (mh_checksum h) CkNone); reflexivity.
Qed.
Lemma write_chunk_ok c dig f : exists f2, write_compressed_chunk c dig f = (f2, Ok tt).
Proof. unfold write_compressed_chunk, bind. cbn [f_write]. destruct (0 <? zlen dig); eexists; reflexivity. Qed.
Lemma put_runs i c f mt h storage f2 : write_compressed_chunk c (do_checksum E (h_checksum h) c) f = (f2, Ok tt) ->
  fps_put E i c (mkCFS f mt h storage) =
  if h_offsets h then match set_nth (Z.to_nat i) (fpos f) storage with
                      | Some st => (mkCFS f2 mt h st, Ok tt)
                      | None => (mkCFS f2 mt h storage, Raise IndexError) end
  else (mkCFS f2 mt h storage, Ok tt).
Proof.
  intros W. unfold fps_put. rewrite (bind_run _ _ _ (mkCFS f mt h storage) (fpos f)) by reflexivity.
  rewrite (bind_run _ _ _ (mkCFS f2 mt h storage) tt) by (unfold on_fp; cbn [s_fp s_header s_meta_total s_storage]; rewrite W; reflexivity).
  reflexivity.
Qed.
Lemma play_loop {S A Chunk} (compress : Chunk -> res bytes) h mt (k : list Z -> io S A) steps : forall i storage s f,
  exists s' f' storage' r, pack_loop compress (fps_put E) i steps (s, mkCFS f mt h storage) = ((s', mkCFS f' mt h storage'), r) /\
  play (loop_io E compress h i steps storage k) (s, f) = match r with Ok _ => play (k storage') (s', f') | Raise e => ((s', f'), Raise e) end.
Proof.
  induction steps as [|st rest IH]; intros i storage s f.
  - do 4 eexists. split; reflexivity.
  - cbn [pack_loop loop_io]. destruct (st s) as [s1 [chunk|e]] eqn:ST.
    2:{ do 4 eexists. split; [apply bind_run_raise, onl_run, ST|]. cbn [play]. apply bind_run_raise, onl_run, ST. }
    rewrite (bind_run _ _ _ _ _ (onl_run _ _ _ _ _ ST)), (play_do_ok _ _ _ _ _ (onl_run _ _ _ _ _ ST)).
    destruct (compress chunk) as [c|e]; [|do 4 eexists; split; reflexivity]. cbn [Try].
    rewrite (bind_lift (Ok c) _ _ c eq_refl). rewrite (play_do_ok _ _ _ (s1, f) (fpos f)) by reflexivity.
    rewrite play_chunk. destruct (write_chunk_ok c (do_checksum E (h_checksum h) c) f) as [f2 W].
    rewrite (bind_run _ _ _ _ _ (onr_run _ _ _ _ _ W)). pose proof (put_runs i c f mt h storage f2 W) as P.
    destruct (h_offsets h) eqn:HO.
    + destruct (set_nth (Z.to_nat i) (fpos f) storage) as [st2|] eqn:SN.
      * rewrite (bind_run _ _ _ _ _ (onr_run _ _ _ _ _ P)). apply IH.
      * do 4 eexists. split; [apply bind_run_raise, onr_run, P|reflexivity].
    + rewrite (bind_run _ _ _ _ _ (onr_run _ _ _ _ _ P)). apply IH.
Qed.

Definition unres {A} (r : res A) : res unit := rbind r (fun _ => Ok tt).
(** What pack does to the file. *)
Theorem play_pack {S Chunk} (src : plain_source S Chunk) n c l m oba obp oma s f :
  play (pack_io E src n c l m oba obp oma) (s, f) =
  let '((s', k), r) := pack src (fp_sink E) n c l m oba obp oma (s, cfs_of f) in ((s', s_fp k), unres r).
Proof.
  unfold pack_io, pack. cbv zeta.
  destruct (handle_max_apps _ n _) as [ma|e]; [|reflexivity]. rewrite (bind_lift (Ok ma) _ _ ma eq_refl). cbn [Try].
  destruct (mk_header _ _ _ _ _ c l n ma) as [h|e] eqn:MH; [|reflexivity]. rewrite (bind_lift (Ok h) _ _ h eq_refl). cbn [Try].
  rewrite (bind_run _ _ _ (s, mkCFS f 0 h []) tt) by reflexivity.
  destruct (header_encode h) as [raw|e] eqn:HR.
  2:{ cbn [Try play]. rewrite (bind_run_raise (onr _) _ _ (s, mkCFS f 0 h []) e); [reflexivity|].
      apply onr_run. cbn [fp_sink cs_write_header]. unfold fps_write_header, on_fp. cbn [s_fp s_header]. rewrite (bind_lift_raise _ _ _ _ HR). reflexivity. }
  cbn [Try]. rewrite play_write.
  assert (WH : cs_write_header (fp_sink E) (mkCFS f 0 h []) = (mkCFS (fst (f_write raw f)) 0 h [], Ok tt)).
  { cbn [fp_sink cs_write_header]. unfold fps_write_header, on_fp. cbn [s_fp s_header]. rewrite (bind_lift _ _ _ _ HR). reflexivity. }
  rewrite (bind_run _ _ _ _ _ (onr_run _ _ _ _ _ WH)). generalize (fst (f_write raw f)). clear WH HR raw f. intros f.
  set (ba := match oba with Some a => a | None => default_bargs end).
  assert (G : forall f mt storage (o : option margs),
      play (loop_io E (ps_compress src ba) h 0 (ps_steps src n c l) storage (fun storage' =>
        if h_offsets h then
          Do (onr (f_seek E (BLOSCPACK_HEADER_LENGTH + mt))) (fun _ =>
          Try (encode_offsets storage') (fun b => Write b (Done (Ok tt))))
        else Done (Ok tt))) (s, f) =
      let '((s', k), r) := (pack_loop (ps_compress src ba) (fps_put E) 0 (ps_steps src n c l) ;;;
        onr (fps_finalize E) ;;; ret o) (s, mkCFS f mt h storage) in ((s', s_fp k), unres r)).
  { clear f. intros f mt storage o. match goal with |- play (loop_io _ ?co _ _ ?st _ ?kk) _ = _ =>
        destruct (play_loop co h mt kk st 0 storage s f) as (s' & f' & st' & r & P & Q) end.
    rewrite Q. destruct r as [[]|e]; [|rewrite (bind_run_raise _ _ _ _ _ P); reflexivity]. rewrite (bind_run _ _ _ _ _ P).
    destruct (h_offsets h) eqn:HO.
    2:{ unfold bind, onr, fps_finalize. cbn [fst snd s_header]. rewrite HO. reflexivity. }
    assert (FZ : fps_finalize E (mkCFS f' mt h st') = on_fp (f_seek E (BLOSCPACK_HEADER_LENGTH + mt) ;;; write_offsets st') (mkCFS f' mt h st')).
    { unfold fps_finalize. cbn [s_header s_meta_total s_storage]. rewrite HO. reflexivity. }
    unfold on_fp in FZ. cbn [s_fp s_meta_total s_header s_storage] in FZ. unfold bind, write_offsets in FZ. cbn [play].
    destruct (f_seek E (BLOSCPACK_HEADER_LENGTH + mt) f') as [f2 [[]|e]] eqn:SK.
    2:{ rewrite (bind_run_raise _ _ _ _ _ (onr_run _ _ _ _ _ SK)), (bind_run_raise _ _ _ _ _ (onr_run _ _ _ _ _ FZ)). reflexivity. }
    rewrite (bind_run _ _ _ _ _ (onr_run _ _ _ _ _ SK)). unfold bind, lift in FZ.
    destruct (encode_offsets st') as [b|e]; cbn [f_write] in FZ.
    + rewrite (bind_run _ _ _ _ _ (onr_run _ _ _ _ _ FZ)). reflexivity.
    + rewrite (bind_run_raise _ _ _ _ _ (onr_run _ _ _ _ _ FZ)). reflexivity. }
  assert (REST : forall f mt (o : option margs),
    play (if h_offsets h then
      match total_prospective_chunks h with
      | None => Done (Raise TypeError)
      | Some t => Write (concat (zrep t minus1)) (loop_io E (ps_compress src ba) h 0 (ps_steps src n c l) (zrep (h_nchunks h) (-1)) (fun storage' =>
        if h_offsets h then
          Do (onr (f_seek E (BLOSCPACK_HEADER_LENGTH + mt))) (fun _ =>
          Try (encode_offsets storage') (fun b => Write b (Done (Ok tt))))
        else Done (Ok tt)))
      end
    else loop_io E (ps_compress src ba) h 0 (ps_steps src n c l) [] (fun storage' =>
        if h_offsets h then
          Do (onr (f_seek E (BLOSCPACK_HEADER_LENGTH + mt))) (fun _ =>
          Try (encode_offsets storage') (fun b => Write b (Done (Ok tt))))
        else Done (Ok tt))) (s, f) =
    let '((s', k), r) := (onr fps_init_offsets ;;;
      pack_loop (ps_compress src ba) (fps_put E) 0 (ps_steps src n c l) ;;;
      onr (fps_finalize E) ;;; ret o) (s, mkCFS f mt h []) in ((s', s_fp k), unres r)).
  { clear f. intros f mt o. destruct (h_offsets h) eqn:HO.
    - assert (IO : fps_init_offsets (mkCFS f mt h []) = match total_prospective_chunks h with
        | None => (mkCFS f mt h (zrep (h_nchunks h) (-1)), Raise TypeError)
        | Some t => (mkCFS (fst (f_write (concat (zrep t minus1)) f)) mt h (zrep (h_nchunks h) (-1)), Ok tt) end).
      { unfold fps_init_offsets. cbn [s_header s_fp s_meta_total]. rewrite HO. destruct (total_prospective_chunks h); reflexivity. }
      destruct (total_prospective_chunks h) as [t|].
      + rewrite (bind_run _ _ _ _ _ (onr_run _ _ _ _ _ IO)). rewrite play_write. apply G.
      + rewrite (bind_run_raise _ _ _ _ _ (onr_run _ _ _ _ _ IO)). reflexivity.
    - assert (IO : fps_init_offsets (mkCFS f mt h []) = (mkCFS f mt h [], Ok tt)) by (unfold fps_init_offsets; cbn [s_header]; rewrite HO; reflexivity).
      rewrite (bind_run _ _ _ _ _ (onr_run _ _ _ _ _ IO)). apply G. }
  cbn [fp_sink cs_init_offsets cs_put cs_finalize cs_write_metadata].
  destruct (is_none m) eqn:NM.
  - rewrite (bind_run (ret oma) _ _ _ _ eq_refl). apply REST.
  - rewrite play_metadata. set (mar := match oma with Some a => a | None => default_margs end).
    destruct (write_metadata E m mar f) as [f1 [[mt a']|e]] eqn:WM.
    + assert (P : fps_write_metadata E m mar (mkCFS f 0 h []) = (mkCFS f1 mt h [], Ok a')).
      { unfold fps_write_metadata, bind, on_fp. cbn [s_fp s_meta_total s_header s_storage]. rewrite WM. reflexivity. }
      rewrite (bind_run _ _ _ _ _ (onr_run _ _ _ _ _ WM)).
      rewrite (bind_run _ _ _ (s, mkCFS f1 mt h []) (Some a')) by (rewrite (bind_run _ _ _ _ _ (onr_run _ _ _ _ _ P)); reflexivity).
      apply (REST f1 mt (Some a')).
    + assert (P : fps_write_metadata E m mar (mkCFS f 0 h []) = (mkCFS f1 0 h [], Raise e)).
      { unfold fps_write_metadata, bind, on_fp. cbn [s_fp s_meta_total s_header s_storage]. rewrite WM. reflexivity. }
      rewrite (bind_run_raise _ _ _ _ _ (onr_run _ _ _ _ _ WM)).
      rewrite (bind_run_raise _ _ _ (s, mkCFS f1 0 h []) e) by (rewrite (bind_run_raise _ _ _ _ _ (onr_run _ _ _ _ _ P)); reflexivity). reflexivity.
Qed.

Lemma play_do {S A X} (m : SM (S * fp) X) (k : X -> io S A) st : play (Do m k) st = bind m (fun x => play (k x)) st.
Proof. reflexivity. Qed.
Lemma bind_ext {S A B} (m : SM S A) (k k' : A -> SM S B) s : (forall x s', k x s' = k' x s') -> bind m k s = bind m k' s.
Proof. intros H. unfold bind. destruct (m s) as [s' [x|e]]; auto. Qed.
Lemma try_ext {S A X} (r : res X) (k : X -> io S A) (k' : X -> SM (S * fp) A) st :
  (forall x, play (k x) st = k' x st) -> play (Try r k) st = bind (lift r) k' st.
Proof. intros H. destruct r; [apply H|reflexivity]. Qed.

Theorem play_append new_size o nf f : play (append_io E f_read new_size o) (nf, f) = append_fp E new_size o (nf, f).
Proof.
  unfold append_io, append_fp. rewrite play_do. apply bind_ext. intros bg st. destruct (b_offsets bg) as [|o0 os]; [reflexivity|].
  apply try_ext. intros ba. rewrite play_do. apply bind_ext. intros [] st1. rewrite play_do. apply bind_ext. intros r st2.
  apply try_ext. intros dec. destruct (new_size <=? _).
  - rewrite play_do. apply bind_ext. intros fu st3. rewrite play_do. apply bind_ext. intros [] st4. apply try_ext. intros c.
    rewrite play_chunk. apply bind_ext. intros [] st5. apply try_ext. intros raw. rewrite play_do. apply bind_ext. intros [] [s6 f6]. reflexivity.
  - rewrite play_do. apply bind_ext. intros fu st3. apply try_ext. intros [[nn cc] ll]. destruct (_ <? nn); [reflexivity|].
    rewrite play_do. apply bind_ext. intros [] st4. apply try_ext. intros c. rewrite play_chunk. apply bind_ext. intros [] [s5 f5]. cbn [fst snd].
    match goal with |- play (loop_io _ ?co ?h _ ?stp _ ?kk) _ = _ =>
        destruct (play_loop co h 0 kk stp 0 (zrep nn (-1)) s5 f5) as (s' & f' & st' & r' & P & Q) end.
    rewrite Q. unfold fp_source_steps. rewrite P. destruct r' as [[]|e]; [|reflexivity]. cbn [s_fp s_storage].
    apply try_ext. intros raw. rewrite play_do. apply bind_ext. intros [] [s6 f6]. rewrite play_write.
    rewrite (bind_run _ _ _ (s6, fst (f_write raw f6)) tt) by reflexivity. rewrite play_do. apply bind_ext. intros [] [s7 f7].
    unfold write_offsets. destruct (encode_offsets _) as [b|e]; reflexivity.
Qed.

Theorem play_rewrite {S} m ov (s : S) f : play (rewrite_io E m ov) (s, f) = let '(f', r) := rewrite_metadata E m ov f in ((s, f'), r).
Proof.
  unfold rewrite_io, rewrite_metadata, rewrite_metadata_fp. rewrite play_do. unfold bind at 1 2. unfold onr at 1. cbn [fst snd].
  destruct (seek_to_metadata f) as [f1 [z|e]]; [|reflexivity]. rewrite (play_do_ok _ _ _ (s, f1) (fpos f1)) by reflexivity.
  rewrite (bind_run f_tell _ _ f1 (fpos f1)) by reflexivity. rewrite play_do. unfold bind at 1 2. unfold onr at 1. cbn [fst snd].
  destruct (read_metadata E f1) as [f2 [[old oldh]|e]]; [|reflexivity]. destruct (pyeq old m); [reflexivity|].
  destruct (recreate_metadata oldh ov) as [a|e]; [|reflexivity]. cbn [Try]. rewrite (bind_lift (Ok a) _ _ a eq_refl).
  rewrite play_do. unfold bind at 1 2. unfold onr at 1. cbn [fst snd]. destruct (f_seek E (fpos f1) f2) as [f3 [[]|e]]; [|reflexivity].
  rewrite play_metadata. unfold bind. unfold onr at 1. cbn [fst snd]. destruct (write_metadata E m a f3) as [f4 [r|e]]; reflexivity.
Qed.

Lemma bind_assoc {S A B C} (m : SM S A) (k : A -> SM S B) (k2 : B -> SM S C) s : bind (bind m k) k2 s = bind m (fun x => bind (k x) k2) s.
Proof. unfold bind. destruct (m s) as [s' [x|e]]; reflexivity. Qed.
Lemma play_unpack_loop {A} ck n (k : io fp A) : forall st, play (unpack_loop_io E ck n k) st = bind (unpack_loop E (fp_next E ck) ck (plain_put E) n) (fun _ => play k) st.
Proof.
  induction n as [|n IH]; intros st; [reflexivity|]. cbn [unpack_loop_io unpack_loop]. rewrite play_do, bind_assoc. apply bind_ext.
  intros cd [s1 f1]. rewrite bind_assoc, play_try.
  assert (G : forall st, play (Try (e_decompress E (fst cd)) (fun d => Write d (unpack_loop_io E ck n k))) st =
    bind (bind (onr (plain_put E (fst cd))) (fun _ => unpack_loop E (fp_next E ck) ck (plain_put E) n)) (fun _ => play k) st).
  { intros [s f]. rewrite bind_assoc. destruct (e_decompress E (fst cd)) as [x|e] eqn:DC; cbn [Try].
    - assert (PP : plain_put E (fst cd) f = (fst (f_write x f), Ok (zlen x))) by (unfold plain_put; rewrite (bind_lift _ _ _ _ DC); reflexivity).
      rewrite play_write, IH, (bind_run _ _ _ _ _ (onr_run _ _ _ _ _ PP)). reflexivity.
    - assert (PP : plain_put E (fst cd) f = (f, Raise e)) by (unfold plain_put; rewrite (bind_lift_raise _ _ _ _ DC); reflexivity).
      rewrite (bind_run_raise _ _ _ _ _ (onr_run _ _ _ _ _ PP)). reflexivity. }
  destruct (truthy (snd cd)); [destruct (bytes_eqb _ _)|]; try reflexivity; apply G.
Qed.
Theorem play_unpack f : let r := play (unpack_io E) (fp_of f, fp_of []) in (fdata (snd (fst r)), snd r) = unpack_core E f.
Proof.
  unfold unpack_io, unpack_core. rewrite play_do. unfold bind. unfold onl. cbn [fst snd]. destruct (read_beginning E (fp_of f)) as [f1 [bg|e]]; [|reflexivity].
  rewrite play_unpack_loop. unfold bind, unpack_fp. destruct (unpack_loop _ _ _ _ _ _) as [[s out] [x|e]]; reflexivity.
Qed.

(** They write nothing outside of [Write]. *)
Lemma calm_chunk {S A} c dig (k : io S A) : calm k -> calm (chunk_io c dig k).
Proof. intros H. unfold chunk_io. cbn [calm]. destruct (0 <? _); exact H. Qed.
Lemma calm_metadata {S A} m a (k : Z -> io S A) : (forall z, calm (k z)) -> calm (metadata_io E m a k).
Proof.
  intros H. apply calm_try. intros [[h p] a']. apply calm_try. intros raw. cbn [calm]. destruct (cks_eqb _ _); apply H.
Qed.
Lemma calm_loop {S A Chunk} (co : Chunk -> res bytes) h (k : list Z -> io S A) steps : (forall z, calm (k z)) -> forall i storage, calm (loop_io E co h i steps storage k).
Proof.
  intros H. induction steps as [|st rest IH]; intros i storage; cbn [loop_io]; [apply H|]. split; [apply quiet_onl|]. intros x.
  apply calm_try. intros c. split; [apply quiet_onr, ro_tell|]. intros off. apply calm_chunk. destruct (h_offsets h); [destruct (set_nth _ _ _)|]; cbn; auto.
Qed.
Lemma calm_pack {S Chunk} (src : plain_source S Chunk) n c l m oba obp oma : calm (pack_io E src n c l m oba obp oma).
Proof.
  unfold pack_io. cbv zeta. apply calm_try. intros ma. apply calm_try. intros h. apply calm_try. intros raw. cbn [calm].
  assert (G : forall total, calm (if h_offsets h then
      match total_prospective_chunks h with
      | None => Done (Raise TypeError)
      | Some t => Write (concat (zrep t minus1)) (loop_io E (ps_compress src (match oba with Some a => a | None => default_bargs end)) h 0 (ps_steps src n c l) (zrep (h_nchunks h) (-1)) (fun storage' =>
        if h_offsets h then
          Do (onr (f_seek E (BLOSCPACK_HEADER_LENGTH + total))) (fun _ =>
          Try (encode_offsets storage') (fun b => Write b (Done (Ok tt))))
        else Done (Ok tt)))
      end
    else loop_io E (ps_compress src (match oba with Some a => a | None => default_bargs end)) h 0 (ps_steps src n c l) [] (fun storage' =>
        if h_offsets h then
          Do (onr (f_seek E (BLOSCPACK_HEADER_LENGTH + total))) (fun _ =>
          Try (encode_offsets storage') (fun b => Write b (Done (Ok tt))))
        else Done (Ok tt)))).
  { intros total. assert (K : forall z, calm (if h_offsets h then
          Do (onr (f_seek E (BLOSCPACK_HEADER_LENGTH + total))) (fun _ =>
          Try (encode_offsets z) (fun b => Write b (Done (Ok tt))))
        else @Done S unit (Ok tt))).
    { intros z. destruct (h_offsets h); [|exact I]. split; [apply quiet_onr, ro_seek|]. intros []. apply calm_try. intros b. exact I. }
    destruct (h_offsets h); [destruct (total_prospective_chunks h); [|exact I]; cbn [calm]|]; apply calm_loop; exact K. }
  destruct (is_none m); [apply G|apply calm_metadata, G].
Qed.
Lemma calm_append rd new_size o : calm (@append_io E fp rd new_size o).
Proof.
  unfold append_io. split; [apply quiet_onr, ro_read_beginning|]. intros bg. destruct (b_offsets bg) as [|o0 os]; [exact I|].
  apply calm_try. intros ba. split; [apply quiet_onr, ro_seek|]. intros []. split; [apply quiet_onr, ro_read_compressed_chunk|]. intros r.
  apply calm_try. intros dec. destruct (new_size <=? _).
  - split; [apply quiet_onl|]. intros fu. split; [apply quiet_onr, ro_seek|]. intros []. apply calm_try. intros c. apply calm_chunk. apply calm_try. intros raw.
    split; [apply quiet_onr, ro_seek|]. intros []. exact I.
  - split; [apply quiet_onl|]. intros fu. apply calm_try. intros [[nn cc] ll]. destruct (_ <? nn); [exact I|].
    split; [apply quiet_onr, ro_seek|]. intros []. apply calm_try. intros c. apply calm_chunk. apply calm_loop. intros z. apply calm_try. intros raw.
    split; [apply quiet_onr, ro_seek|]. intros []. cbn [calm]. split; [apply quiet_onr, ro_seek|]. intros []. apply calm_try. intros b. exact I.
Qed.
Lemma calm_rewrite {S} m ov : calm (@rewrite_io E S m ov).
Proof.
  unfold rewrite_io. split.
  { apply quiet_onr. unfold seek_to_metadata. apply ro_bind; [apply ro_read_bloscpack_header|]. intros h. apply ro_if; [apply ro_tell|apply ro_raise]. }
  intros _. split; [apply quiet_onr, ro_tell|]. intros pos. split; [apply quiet_onr, ro_read_metadata|]. intros [old oldh]. destruct (pyeq old m); [exact I|].
  apply calm_try. intros a. split; [apply quiet_onr, ro_seek|]. intros []. apply calm_metadata. intros z. exact I.
Qed.
Lemma calm_unpack_loop {A} ck n (k : io fp A) : calm k -> calm (unpack_loop_io E ck n k).
Proof.
  intros H. induction n as [|n IH]; cbn [unpack_loop_io]; [exact H|]. split; [apply quiet_onl|]. intros cd. apply calm_try. intros []. apply calm_try. intros d. exact IH.
Qed.
Lemma calm_unpack : calm (unpack_io E).
Proof. split; [apply quiet_onl|]. intros bg. apply calm_unpack_loop. exact I. Qed.
End WithEnv.
