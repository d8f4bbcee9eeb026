(** The command line. *)
From Verif Require Import Base PyVal Checksums Headers Pretty Args FileIO Append Files Cli Spec Archive BaseLemmas HeaderProofs IOProofs WfProofs PackProofs SmallProofs BytesProofs MetaProofs AppendProofs ArchiveProofs HistoryProofs FilesProofs.
From Coq Require Import ZifyBool ZifyNat.
Ltac Zify.zify_post_hook ::= Z.div_mod_to_equations.

(** ** File names *)
Lemma length_append a : forall b, String.length (a ++ b) = (String.length a + String.length b)%nat.
Proof. induction a as [|c a IH]; intros b; [reflexivity|]. cbn [String.append String.length]. rewrite IH. reflexivity. Qed.
Lemma substring_all s : substring 0 (String.length s) s = s.
Proof. induction s as [|c s IH]; [reflexivity|]. cbn [String.length substring]. rewrite IH. reflexivity. Qed.
Lemma substring_0_0 s : substring 0 0 s = ""%string.
Proof. destruct s; reflexivity. Qed.
Lemma substring_prefix a : forall b, substring 0 (String.length a) (a ++ b) = a.
Proof. induction a as [|c a IH]; intros b; [apply substring_0_0|]. cbn [String.append String.length substring]. rewrite IH. reflexivity. Qed.
Lemma substring_suffix a : forall b, substring (String.length a) (String.length b) (a ++ b) = b.
Proof. induction a as [|c a IH]; intros b; [apply substring_all|]. cbn [String.append String.length substring]. apply IH. Qed.
Lemma substring_split s : forall n, (n <= String.length s)%nat ->
  s = (substring 0 n s ++ substring n (String.length s - n) s)%string.
Proof.
  induction s as [|c s IH]; intros [|n] H; [reflexivity|cbn in H; lia| |].
  - rewrite Nat.sub_0_r, substring_0_0, substring_all. reflexivity.
  - cbn [String.length] in *. rewrite Nat.sub_succ. cbn [substring String.append]. f_equal. apply IH. lia.
Qed.

Theorem ext_iff s : ends_with_ext s = true <-> exists base, s = (base ++ ".blp")%string.
Proof.
  unfold ends_with_ext, EXTENSION. split.
  - intros H. apply andb_prop in H as [H1 H2]. apply Nat.leb_le in H1. apply String.eqb_eq in H2.
    exists (substring 0 (String.length s - 4) s). rewrite <- H2.
    replace 4%nat with (String.length s - (String.length s - 4))%nat at 3 by lia. apply substring_split. lia.
  - intros [base ->]. rewrite length_append. cbn [String.length].
    replace (String.length base + 4 - 4)%nat with (String.length base) by lia.
    pose proof (substring_suffix base ".blp") as H. cbn [String.length] in H. rewrite H.
    apply andb_true_intro. split; [apply Nat.leb_le; lia|reflexivity].
Qed.
Theorem strip_inverts base : strip_ext (base ++ ".blp") = base.
Proof.
  unfold strip_ext. rewrite length_append. cbn [String.length].
  replace (String.length base + 4 - 4)%nat with (String.length base) by lia. apply substring_prefix.
Qed.
Lemma append_ne base : (base ++ ".blp")%string <> base.
Proof. intros H. apply (f_equal String.length) in H. rewrite length_append in H. cbn in H. lia. Qed.
Lemma append_nonempty base : (base ++ ".blp")%string <> ""%string.
Proof. destruct base; discriminate. Qed.

Section WithEnv.
Variable E : Env.
Hypothesis HE : EnvOK E.

Theorem default_names co force : co_out co = None \/ co_out co = Some ""%string ->
  decompress_out (mkDO (compress_out co) None force false) = Ok (co_in co).
Proof.
  intros H. assert (C : compress_out co = (co_in co ++ ".blp")%string) by (unfold compress_out; destruct H as [-> | ->]; reflexivity).
  unfold decompress_out. cbn [do_no_check do_in do_out]. rewrite C.
  replace (ends_with_ext (co_in co ++ ".blp")) with true by (symmetry; apply ext_iff; eauto).
  cbn [or_default]. rewrite strip_inverts. reflexivity.
Qed.

Theorem decompress_refuses o s : do_no_check o = false -> (forall base, do_in o <> (base ++ ".blp")%string) ->
  cli_decompress E o s = (s, Raise (SystemExit 1)).
Proof.
  intros H1 H2. unfold cli_decompress, decompress_out. rewrite H1.
  destruct (ends_with_ext (do_in o)) eqn:X; [apply ext_iff in X as [b X]; exfalso; eapply H2; eauto|]. reflexivity.
Qed.
Theorem append_refuses o s : ao_no_check o = false -> (forall base, ao_orig o <> (base ++ ".blp")%string) ->
  exists c, cli_append E o s = (s, Raise (SystemExit c)).
Proof.
  intros H1 H2. unfold cli_append. rewrite H1.
  destruct (ends_with_ext (ao_orig o)) eqn:X; [apply ext_iff in X as [b X]; exfalso; eapply H2; eauto|].
  unfold blosc_choices. destruct (_ && _ && _); eexists; reflexivity.
Qed.

(** ** What may change *)
Lemma pack_file_frame i o cs m oba obp oma s p : p <> o ->
  fst (pack_file_to_file E i o cs m oba obp oma s) p = s p.
Proof.
  intros Hp. unfold pack_file_to_file, pack_file_racing, getsize, open_rb, open_wb, meanwhile, bind, lift.
  destruct (s i) as [b|] eqn:SI; [|reflexivity]. destruct (calculate_nchunks (zlen b) cs) as [[[n c] l]|]; [|reflexivity]. rewrite SI.
  destruct (String.eqb o ""); [reflexivity|].
  destruct (pack _ _ _ _ _ _ _ _ _ _) as [[st k] [r|e]]; cbn [fst].
  - rewrite fs_set_same. destruct (_ =? 0); cbn [fst raise ret]; rewrite !fs_set_other by auto; reflexivity.
  - rewrite !fs_set_other by auto. reflexivity.
Qed.
Lemma unpack_file_frame i o s p : p <> o -> fst (unpack_file_from_file E i o s) p = s p.
Proof.
  intros Hp. unfold unpack_file_from_file, getsize, open_rb, open_wb, bind.
  destruct (s i) as [b|] eqn:SI; [|reflexivity]. try rewrite SI.
  destruct (String.eqb o ""); [reflexivity|].
  destruct (unpack_core _ _) as [x [r|e]]; cbn [fst].
  - rewrite fs_set_same. destruct (_ =? 0); cbn [fst raise ret]; rewrite !fs_set_other by auto; reflexivity.
  - rewrite !fs_set_other by auto. reflexivity.
Qed.

Lemma compress_inv o s s' r : cli_compress E o s = (s', r) -> s' = s \/
  ((co_force o = true \/ s (compress_out o) = None) /\ forall p, p <> compress_out o -> s' p = s p).
Proof.
  unfold cli_compress. unfold bind at 1, lift. destruct (blosc_choices _ _ _); [|intros H; injection H; auto].
  unfold bind at 1. destruct (match co_chunk o with None => _ | Some _ => _ end) as [cs|]; [|intros H; injection H; auto].
  unfold bind at 1. destruct (check_valid_checksum _); [|intros H; injection H; auto].
  unfold bind at 1. unfold check_files. destruct (fs_exists s (co_in o)); cbn [negb]; [|intros H; injection H; auto].
  destruct (fs_exists s (compress_out o) && negb (co_force o)) eqn:F; [intros H; injection H; auto|].
  unfold bind. destruct (process_metadata_args E (co_meta o) s) as [s0 r0] eqn:PM.
  assert (s0 = s) as -> by (unfold process_metadata_args in PM; destruct (co_meta o); injection PM; auto).
  destruct r0 as [m|e]; [|intros H; injection H; auto].
  intros H. right. split.
  { destruct (co_force o); [auto|]. right. unfold fs_exists in F. destruct (s (compress_out o)); [discriminate|reflexivity]. }
  intros p Hp. rewrite <- (pack_file_frame (co_in o) (compress_out o) cs m
    (Some (mkBA (co_typesize o) (co_clevel o) (co_shuffle o) (co_cname o)))
    (Some (mk_bpargs (co_offsets o) (Some (co_checksum o)) (bp_max_app default_bpargs))) (Some default_margs) s p Hp).
  destruct (pack_file_to_file _ _ _ _ _ _ _ _ _) as [s2 [a2|e]]; [injection H as <- _; reflexivity|].
  destruct e; injection H as <- _; reflexivity.
Qed.
Lemma decompress_inv o s s' r : cli_decompress E o s = (s', r) -> s' = s \/
  exists out, decompress_out o = Ok out /\ (do_force o = true \/ s out = None) /\ forall p, p <> out -> s' p = s p.
Proof.
  unfold cli_decompress. unfold bind at 1, lift. destruct (decompress_out o) as [out|]; [|intros H; injection H; auto].
  unfold bind. unfold check_files. destruct (fs_exists s (do_in o)); cbn [negb]; [|intros H; injection H; auto].
  destruct (fs_exists s out && negb (do_force o)) eqn:F; [intros H; injection H; auto|].
  intros H. right. exists out. split; [reflexivity|]. split.
  { destruct (do_force o); [auto|]. right. unfold fs_exists in F. destruct (s out); [discriminate|reflexivity]. }
  intros p Hp. rewrite <- (unpack_file_frame (do_in o) out s p Hp).
  destruct (unpack_file_from_file _ _ _ _) as [s2 [a|e]]; [injection H as <- _; reflexivity|].
  destruct e; injection H as <- _; reflexivity.
Qed.

Theorem compress_never_overwrites o s p d s' r : co_force o = false -> s p = Some d ->
  cli_compress E o s = (s', r) -> s' p = Some d.
Proof.
  intros HF Hp H. apply compress_inv in H as [->|[HO HFr]]; [exact Hp|].
  rewrite HFr; [exact Hp|]. intros ->. destruct HO; congruence.
Qed.
Theorem decompress_never_overwrites o s p d s' r : do_force o = false -> s p = Some d ->
  cli_decompress E o s = (s', r) -> s' p = Some d.
Proof.
  intros HF Hp H. apply decompress_inv in H as [->|(out & _ & HO & HFr)]; [exact Hp|].
  rewrite HFr; [exact Hp|]. intros ->. destruct HO; congruence.
Qed.
Theorem compress_only_output o s p s' r : p <> compress_out o -> cli_compress E o s = (s', r) -> s' p = s p.
Proof. intros Hp H. apply compress_inv in H as [->|[HO HFr]]; [reflexivity|auto]. Qed.
Theorem decompress_only_output o s p s' r : decompress_out o <> Ok p -> cli_decompress E o s = (s', r) -> s' p = s p.
Proof. intros Hp H. apply decompress_inv in H as [->|(out & H & HO & HFr)]; [reflexivity|]. apply HFr. congruence. Qed.

(** ** Round trip *)
Lemma blosc_choices_ok l c : 0 <= l <= 9 -> e_cname_ok E c = true -> blosc_choices E l c = Ok tt.
Proof. intros H1 H2. unfold blosc_choices, MIN_CLEVEL, MAX_CLEVEL. rewrite H2. replace (_ && _) with true by lia. reflexivity. Qed.

Definition chosen_chunk (o : copts) : res csarg :=
  match co_chunk o with None => Ok (CSStr "1M") | Some t => z <~ chunk_size_option t ;; Ok (CSInt z) end.
Definition the_metadata (s : fs) (o : option path) : res pyval := snd (process_metadata_args E o s).

Lemma compress_Ok o s s1 : cli_compress E o s = (s1, Ok tt) ->
  exists b cs m a, s (co_in o) = Some b /\ (co_force o = true \/ s (compress_out o) = None) /\
    chosen_chunk o = Ok cs /\ the_metadata s (co_meta o) = Ok m /\
    pack_file_to_file E (co_in o) (compress_out o) cs m
                    (Some (mkBA (co_typesize o) (co_clevel o) (co_shuffle o) (co_cname o)))
                    (Some (mk_bpargs (co_offsets o) (Some (co_checksum o)) (bp_max_app default_bpargs)))
                    (Some default_margs) s = (s1, Ok a).
Proof.
  unfold cli_compress. fold (chosen_chunk o). unfold bind at 1, lift. destruct (blosc_choices _ _ _); [|discriminate].
  unfold bind at 1. destruct (chosen_chunk o) as [cs|]; [|discriminate].
  unfold bind at 1. destruct (check_valid_checksum _); [|discriminate].
  unfold bind at 1. unfold check_files, fs_exists. destruct (s (co_in o)) as [b|] eqn:Hb; cbn [negb]; [|discriminate].
  destruct (match s (compress_out o) with Some _ => true | None => false end && negb (co_force o)) eqn:F; [discriminate|].
  unfold bind, the_metadata. destruct (process_metadata_args E (co_meta o) s) as [s0 r0] eqn:PM.
  assert (s0 = s) as -> by (unfold process_metadata_args in PM; destruct (co_meta o); injection PM; auto).
  destruct r0 as [m|e]; [|discriminate]. cbn [snd].
  destruct (pack_file_to_file _ _ _ _ _ _ _ _ _) as [s' [a'|e]] eqn:EP; [|destruct e; discriminate].
  intros H. injection H as ->. exists b, cs, m, a'. repeat split; auto.
  destruct (co_force o); [auto|]. right. destruct (s (compress_out o)); [discriminate|reflexivity].
Qed.
Lemma open_wb_needed i cs m oba obp oma s s1 a : pack_file_to_file E i ""%string cs m oba obp oma s = (s1, Ok a) -> False.
Proof.
  unfold pack_file_to_file, pack_file_racing, getsize, open_rb, open_wb, meanwhile, bind, lift.
  destruct (s i) as [b|] eqn:SI; [|discriminate]. destruct (calculate_nchunks (zlen b) cs) as [[[n c] l]|]; [|discriminate]. rewrite SI. discriminate.
Qed.

Theorem cli_round_trip o s s1 b dout force nc out s2 r :
  s (co_in o) = Some b -> co_in o <> compress_out o ->
  cli_compress E o s = (s1, Ok tt) ->
  let od := mkDO (compress_out o) dout force nc in
  decompress_out od = Ok out -> out <> ""%string -> out <> compress_out o ->
  (force = true \/ s1 out = None) ->
  cli_decompress E od s1 = (s2, r) ->
  (exists m, the_metadata s (co_meta o) = Ok m /\ r = Ok (norm m)) /\ s2 out = Some b /\
  (forall p, p <> compress_out o -> p <> out -> s2 p = s p).
Proof.
  intros Hb Hne HC od Hout Ho1 Ho2 Hf HD.
  apply compress_Ok in HC as (b' & cs & m & a & Hb' & _ & _ & HM & HP). rewrite Hb in Hb'. injection Hb' as <-.
  assert (NE : compress_out o <> ""%string) by (intros X; rewrite X in HP; eapply open_wb_needed; eauto).
  destruct (pack_file_ok E HE _ _ _ _ _ _ _ _ _ _ _ Hb Hne NE HP) as [FR PF].
  destruct (pack_bytes_to_bytes E b cs m _ _ _) as [f|e] eqn:EP; [|discriminate]. destruct PF as [_ PF].
  unfold cli_decompress in HD. rewrite (bind_lift _ _ _ _ Hout) in HD.
  unfold bind, check_files, fs_exists in HD. cbn [od do_in do_force] in HD. rewrite PF in HD. cbn [negb] in HD.
  replace ((match s1 out with Some _ => true | None => false end) && negb force) with false in HD
    by (destruct Hf as [-> | ->]; [rewrite andb_false_r|]; reflexivity).
  destruct (unpack_file_from_file E (compress_out o) out s1) as [s3 r3] eqn:EU.
  destruct (unpack_file_ok E _ _ _ _ _ _ PF (not_eq_sym Ho2) Ho1 EU) as [FR2 U].
  rewrite (bytes_roundtrip E HE _ _ _ _ _ _ _ EP) in U. destruct U as [-> U].
  injection HD as <- <-. split; [eauto|]. split; [exact U|].
  intros p H1 H2. rewrite FR2, FR; auto.
Qed.

Theorem cli_compress_total o s b m z :
  s (co_in o) = Some b -> size b <= 2 ^ 55 ->
  co_in o <> compress_out o -> compress_out o <> ""%string ->
  (co_force o = true \/ s (compress_out o) = None) ->
  blosc_args_ok E (mkBA (co_typesize o) (co_clevel o) (co_shuffle o) (co_cname o)) ->
  In (co_checksum o) checksum_names ->
  (match co_chunk o with None => z = 2 ^ 20 | Some t => chunk_size_option t = Ok z end) -> 1 <= z <= BUFMAX ->
  the_metadata s (co_meta o) = Ok m ->
  (m <> PNone -> exists raw p, meta_fits E m default_margs raw p (10 * size raw)) ->
  exists s1, cli_compress E o s = (s1, Ok tt).
Proof.
  intros Hb Hsz Hne Hno Hf HB HK HZ HZ2 HM HMF.
  assert (HCS : exists cs, chosen_chunk o = Ok cs /\ asked cs z).
  { unfold chosen_chunk. destruct (co_chunk o) as [t|].
    - exists (CSInt z). rewrite HZ. split; reflexivity.
    - subst z. exists (CSStr "1M"). split; reflexivity. }
  destruct HCS as (cs & HCS & HAS).
  set (oba := Some (mkBA (co_typesize o) (co_clevel o) (co_shuffle o) (co_cname o))).
  set (obp := Some (mk_bpargs (co_offsets o) (Some (co_checksum o)) (bp_max_app default_bpargs))).
  assert (PP : exists f, pack_bytes_to_bytes E b cs m oba obp (Some default_margs) = Ok f).
  { change (size b) with (zlen b) in *. pose proof (zlen_nonneg b) as B0.
    set (n := if zlen b =? 0 then 1 else (zlen b + z - 1) / z).
    assert (N : n <= zlen b + 1).
    { unfold n. destruct (zlen b =? 0) eqn:Z0; [lia|]. apply Z.div_le_upper_bound; [lia|]. nia. }
    assert (N1 : 0 <= n). { unfold n. destruct (zlen b =? 0) eqn:Z0; [lia|]. apply Z.div_pos; lia. }
    apply (pack_valid E HE b cs m oba obp (Some default_margs) n).
    - unfold n. change (size b) with (zlen b). destruct (zlen b =? 0) eqn:Z0; [left; lia|]. right. split; [lia|]. eauto.
    - lia.
    - exact HB.
    - exact HK.
    - intros _. exists (10 * n). change (size b) with (zlen b). split; [reflexivity|]. lia.
    - intros H. destruct (HMF H) as (raw & p & MF). eauto. }
  destruct PP as [f PP].
  unfold cli_compress. fold (chosen_chunk o).
  destruct HB as (HB1 & HB2 & HB3). cbn [ba_typesize ba_clevel ba_cname] in *.
  rewrite (bind_lift _ _ _ _ (blosc_choices_ok _ _ HB2 HB3)). rewrite (bind_lift _ _ _ _ HCS).
  apply In_checksum_names in HK as [ck HK].
  assert (CV : check_valid_checksum (co_checksum o) = Ok ck) by (rewrite HK; destruct ck; reflexivity).
  rewrite CV. rewrite (bind_lift _ _ _ _ eq_refl).
  unfold bind at 1. unfold check_files, fs_exists. rewrite Hb. cbn [negb].
  replace ((match s (compress_out o) with Some _ => true | None => false end) && negb (co_force o)) with false
    by (destruct Hf as [-> | ->]; [rewrite andb_false_r|]; reflexivity).
  unfold the_metadata in HM. unfold bind. destruct (process_metadata_args E (co_meta o) s) as [s0 r0] eqn:PM.
  assert (s0 = s) as -> by (unfold process_metadata_args in PM; destruct (co_meta o); injection PM; auto).
  cbn [snd] in HM. subst r0. fold oba obp.
  destruct (pack_file_to_file _ _ _ _ _ _ _ _ _) as [s' r] eqn:EP.
  destruct (pack_file_ok E HE _ _ _ _ _ _ _ _ _ _ _ Hb Hne Hno EP) as [_ PF]. rewrite PP in PF.
  destruct PF as [[a ->] _]. eauto.
Qed.

(** ** blpk append *)
Lemma sub_of_prefix p n k (f : bytes) : 0 <= p -> 0 <= n -> p + n <= k -> sub p n (sub 0 k f) = sub p n f.
Proof.
  intros. unfold sub. cbn [Z.to_nat skipn]. rewrite !firstn_skipn_comm, firstn_firstn. do 2 f_equal. lia.
Qed.
Lemma append_file_run s p q oa f x : s p = Some f -> s q = Some x ->
  append_file E p q oa s = (fs_set s p (fst (append_bytes E f x oa)),
    match snd (append_bytes E f x oa) with
    | Raise e => Raise e
    | Ok _ => if size x =? 0 then Raise ZeroDivisionError else Ok tt
    end).
Proof.
  intros Hp Hq. unfold append_file, getsize, open_rb, bind. rewrite Hp, Hq.
  unfold append_bytes. change (size x) with (zlen x).
  destruct (append_fp E (zlen x) oa (fp_of x, fp_of f)) as [[nf g] [k|e]]; cbn [fst snd]; [|reflexivity].
  rewrite fs_set_same. destruct (zlen x =? 0); reflexivity.
Qed.

Lemma append_bytes_archive f b m x oa : archive E f b m -> sizable f x ->
  archive E (fst (append_bytes E f x oa)) (match snd (append_bytes E f x oa) with Ok _ => b ++ x | Raise _ => b end) m.
Proof.
  intros A Z. destruct (append_bytes E f x oa) as [f' [k|e]] eqn:R; cbn [fst snd].
  - eapply ar_append; eauto.
  - eapply ar_append_failed; eauto.
Qed.

Theorem cli_append_ok o s f b m x s' r :
  s (ao_orig o) = Some f -> s (ao_new o) = Some x -> archive E f b m -> sizable f x ->
  cli_append E o s = (s', r) ->
  (forall p, p <> ao_orig o -> s' p = s p) /\
  exists f' b' m', s' (ao_orig o) = Some f' /\ archive E f' b' m' /\
    match r with
    | Ok _ => b' = b ++ x /\ exists v, the_metadata s (ao_meta o) = Ok v /\ m' = (if is_none v then m else norm v)
    | Raise _ => m' = m /\ (b' = b \/ b' = b ++ x)
    end.
Proof.
  intros Hf Hx A Z H. unfold cli_append in H.
  assert (SAME : forall e, (s, Raise e) = (s', r) -> (forall p, p <> ao_orig o -> s' p = s p) /\
    exists f' b' m', s' (ao_orig o) = Some f' /\ archive E f' b' m' /\
    match r with
    | Ok _ => b' = b ++ x /\ exists v, the_metadata s (ao_meta o) = Ok v /\ m' = (if is_none v then m else norm v)
    | Raise _ => m' = m /\ (b' = b \/ b' = b ++ x)
    end).
  { intros e HH. injection HH as <- <-. split; [auto|]. exists f, b, m. auto. }
  unfold bind at 1, lift in H. destruct (blosc_choices _ _ _); [|apply (SAME _ H)].
  unfold bind at 1 in H. destruct (negb (ao_no_check o) && _); [apply (SAME _ H)|].
  unfold bind at 1 in H. unfold fs_exists in H. rewrite Hf, Hx in H. cbn [negb] in H.
  unfold bind at 1 in H. unfold the_metadata in *. destruct (process_metadata_args E (ao_meta o) s) as [s0 r0] eqn:PM.
  assert (s0 = s) as -> by (unfold process_metadata_args in PM; destruct (ao_meta o); injection PM; auto).
  cbn [snd] in *. destruct r0 as [v|e]; [|apply (SAME _ H)].
  set (oa := obargs_of _) in *. clearbody oa.
  unfold bind at 1 in H. rewrite (append_file_run _ _ _ oa _ _ Hf Hx) in H.
  pose proof (append_bytes_archive _ _ _ _ oa A Z) as A'.
  destruct (append_bytes E f x oa) as [f1 r1]; cbn [fst snd] in *.
  set (s1 := fs_set s (ao_orig o) f1) in *.
  assert (FR : forall p, p <> ao_orig o -> s1 p = s p) by (intros p Hp; apply fs_set_other; auto).
  assert (S1 : s1 (ao_orig o) = Some f1) by apply fs_set_same.
  destruct r1 as [k|e]; [|injection H as H1 H2; subst s' r; split; [exact FR|]; eauto 10].
  destruct (size x =? 0); [injection H as H1 H2; subst s' r; split; [exact FR|]; eauto 10|].
  destruct (is_none v) eqn:NV; [injection H as H1 H2; subst s' r; split; [exact FR|]; exists f1, (b ++ x), m; do 2 (split; [assumption|]); split; [reflexivity|]; exists v; rewrite NV; auto|].
  unfold bind, open_rb in H. rewrite S1 in H.
  assert (HS : s' = fs_set s1 (ao_orig o) (fdata (fst (rewrite_metadata E v default_overrides (fp_of f1))))) by (apply (f_equal fst) in H; auto).
  assert (HR : r = snd (rewrite_metadata E v default_overrides (fp_of f1))) by (apply (f_equal snd) in H; auto).
  subst s'. split; [intros p Hp; rewrite fs_set_other, FR; auto|].
  assert (RB : rewrite_bytes E f1 v default_overrides = (fdata (fst (rewrite_metadata E v default_overrides (fp_of f1))), r)) by (rewrite HR; reflexivity).
  eexists. destruct r as [[]|e].
  - exists (b ++ x), (norm v). split; [apply fs_set_same|]. split.
    + eapply ar_rewrite; [exact A'| |exact RB]. intros ->. discriminate.
    + split; [reflexivity|]. exists v. split; [reflexivity|]. rewrite NV. reflexivity.
  - exists (b ++ x), m. split; [apply fs_set_same|]. split; [eapply ar_rewrite_failed; eauto|]. auto.
Qed.

(** With -m on a file that has no metadata section the data is appended although
    the command fails. *)
Theorem cli_append_half_done o s f b m x v :
  s (ao_orig o) = Some f -> s (ao_new o) = Some x -> x <> [] -> archive E f b m -> sizable f x ->
  0 <= ao_clevel o <= 9 -> e_cname_ok E (ao_cname o) = true ->
  (ao_no_check o = true \/ exists base, ao_orig o = (base ++ ".blp")%string) ->
  the_metadata s (ao_meta o) = Ok v -> v <> PNone -> has_meta f = false ->
  (exists k, snd (append_bytes E f x (obargs_of (mkBA (ao_typesize o) (ao_clevel o) (ao_shuffle o) (ao_cname o)))) = Ok k) ->
  exists s' f', cli_append E o s = (s', Raise NoMetadataFound) /\ s' (ao_orig o) = Some f' /\
    unpack_bytes_from_bytes E f' = Ok (b ++ x, m).
Proof.
  intros Hf Hx Hne A Z HL HC Hext HM Hv Hmeta [k Hk]. unfold cli_append.
  rewrite (bind_lift _ _ _ _ (blosc_choices_ok _ _ HL HC)).
  assert (X : negb (ao_no_check o) && negb (ends_with_ext (ao_orig o)) = false).
  { destruct Hext as [-> | Hext]; [reflexivity|]. apply ext_iff in Hext. rewrite Hext. apply andb_false_r. }
  rewrite X, (bind_lift _ _ _ _ eq_refl). unfold bind at 1. unfold fs_exists. rewrite Hf, Hx. cbn [negb].
  unfold bind at 1. unfold the_metadata in *. destruct (process_metadata_args E (ao_meta o) s) as [s0 r0] eqn:PM.
  assert (s0 = s) as -> by (unfold process_metadata_args in PM; destruct (ao_meta o); injection PM; auto).
  cbn [snd] in HM. subst r0. unfold bind at 1.
  set (oa := obargs_of _) in *.
  rewrite (append_file_run _ _ _ oa _ _ Hf Hx), Hk.
  assert (HZ : (size x =? 0) = false) by (destruct x; [congruence|reflexivity]). rewrite HZ.
  assert (NV : is_none v = false) by (destruct v; auto; congruence). rewrite NV.
  unfold bind, open_rb. rewrite fs_set_same.
  pose proof (append_bytes_archive _ _ _ _ oa A Z) as A'. rewrite Hk in A'.
  destruct (append_bytes E f x oa) as [f1 r1] eqn:RA; cbn [fst snd] in *. subst r1.
  destruct (append_frame E HE _ _ _ _ _ _ _ A Z RA) as (L1 & H12 & _).
  assert (HM1 : has_meta f1 = false).
  { rewrite <- Hmeta. unfold has_meta, u8. rewrite <- (sub_of_prefix 5 1 12 f1), <- (sub_of_prefix 5 1 12 f), H12 by lia. reflexivity. }
  pose proof (rewrite_no_section E HE _ _ _ v default_overrides A' HM1) as RW. unfold rewrite_bytes in RW.
  injection RW as RW1 RW2. rewrite RW1, RW2. eexists _, f1. split; [reflexivity|]. split; [apply fs_set_same|].
  apply (archive_unpack E HE). exact A'.
Qed.

(** ** blpk info *)
Theorem info_read_only p s : fst (cli_info E p s) = s.
Proof. reflexivity. Qed.

Lemma read_chunk_bh ck f g c bh d : 0 <= fpos f -> read_compressed_chunk E ck f = (g, Ok (c, bh, d)) ->
  decode_blosc_header (ztake 16 (rest f)) = Ok bh.
Proof.
  intros Hp H. unfold read_compressed_chunk, BLOSC_HEADER_LENGTH in H.
  rewrite (bind_run _ _ _ _ _ (f_read_gen 16 f ltac:(lia))) in H.
  apply bind_Ok in H as (s1 & x & H1 & H). unfold lift in H1. apply (f_equal snd) in H1. cbn [snd] in H1. rewrite H1. f_equal.
  apply bind_Ok in H as (s2 & [] & H2 & H). apply bind_Ok in H as (s3 & y & H3 & H). apply bind_Ok in H as (s4 & z & H4 & H).
  unfold ret in H. injection H as _ _ <- _. reflexivity.
Qed.
Lemma flags_ok z : 0 <= z < 256 -> z / 32 <= 4 -> exists fl, decode_blosc_flags z = Ok fl.
Proof.
  intros H1 H2. unfold decode_blosc_flags.
  assert (X : Z.land (Z.shiftr z 5) 7 = z / 32).
  { rewrite Z.shiftr_div_pow2 by lia. change 7 with (Z.ones 3). rewrite Z.land_ones by lia. change (2 ^ 5) with 32. change (2 ^ 3) with 8.
    apply Z.mod_small. split; [apply Z.div_pos; lia|]. lia. }
  rewrite X. assert (Y : exists c, cname_mapping (z / 32) = Ok c).
  { assert (0 <= z / 32) by (apply Z.div_pos; lia). unfold cname_mapping.
    repeat (match goal with |- context [?a =? ?b] => destruct (Z.eqb_spec a b); [eexists; reflexivity|] end). lia. }
  destruct Y as [c ->]. eexists. reflexivity.
Qed.
Lemma u8_range p f : 0 <= u8 p f < 256.
Proof.
  unfold u8. pose proof (uint_le_range (sub p 1 f)) as H.
  assert (size (sub p 1 f) <= 1) by (unfold size, sub; rewrite firstn_length; lia).
  assert (256 ^ size (sub p 1 f) <= 256 ^ 1) by (apply Z.pow_le_mono_r; lia). change (256 ^ 1) with 256 in *. lia.
Qed.
Lemma sub_shift P p n (f : bytes) : 0 <= P -> 0 <= p -> sub p n (zdrop P f) = sub (P + p) n f.
Proof. intros. unfold sub. rewrite <- !zdrop_skipn, zdrop_zdrop by lia. do 2 f_equal. lia. Qed.
Lemma nth_error_firstn {A} (l : list A) : forall n i, (i < n)%nat -> nth_error (firstn n l) i = nth_error l i.
Proof. induction l as [|x l IH]; intros [|n] [|i] H; try reflexivity; try lia. apply IH. lia. Qed.

Theorem info_true s p f b m :
  s p = Some f -> archive E f b m -> u8 (F_body f + 2) f / 32 <= 4 ->
  exists i, cli_info E p s = (s, Ok i) /\
    header_describes (sub 0 32 f) (i_header i) /\
    zlen (i_offsets i) = (if has_offsets f then Z.min 5 (F_n f) else 0) /\
    (forall k, 0 <= k < zlen (i_offsets i) -> nth_error (i_offsets i) (Z.to_nat k) = Some (F_off f k)) /\
    i_meta i = m /\
    (if has_meta f then exists mh, i_mheader i = Some mh /\ mheader_describes (sub 32 32 f) mh else i_mheader i = None) /\
    let P := F_body f in
    i_blosc i = mkBH (u8 P f) (u8 (P + 1) f) (u8 (P + 2) f) (u8 (P + 3) f) (u32 (P + 4) f) (u32 (P + 8) f) (u32 (P + 12) f) /\
    bh_nbytes (i_blosc i) = Z.min (F_chunk f) (size b).
Proof.
  intros Hs HA HFL. destruct (archive_arch E HE _ _ _ HA) as (h & o & cs & tail & A).
  pose proof (ar_wf _ _ _ _ _ _ _ _ A) as W. pose proof (wf_fields E HE _ _ _ _ _ W) as F.
  pose proof (wf_header _ _ _ _ _ _ W) as HO. pose proof (wf_ne _ _ _ _ _ _ W) as NE.
  destruct cs as [|[c x] cs]; [change (zlen (@nil (bytes * bytes))) with 0 in NE; lia|].
  destruct (read_beginning_wf E HE _ _ _ _ _ W) as [RB RR].
  pose proof (wf_chunks _ _ _ _ _ _ W) as HC. inversion HC as [|? ? HC1 _]; subst. unfold chunk_ok in HC1; cbn [fst snd] in HC1.
  destruct (chunk_ok_len E HE _ _ HC1) as [L16 U12].
  assert (BP : 0 <= body_pos E h o).
  { rewrite <- (fi_body _ _ _ _ F). destruct (size_from_header E HE _ _ _ HA) as (_ & N1 & M0 & _).
    unfold F_body, F_table. pose proof (u32_range 48 f). assert (0 <= digest_len (u8 41 f)).
    { unfold digest_len. destruct (nth_in_or_default (Z.to_nat (u8 41 f)) digest_sizes 0) as [IN| ->]; [|lia].
      revert IN. generalize (nth (Z.to_nat (u8 41 f)) digest_sizes 0). intros v IN. cbn in IN. lia. }
    destruct (has_meta f), (has_offsets f); lia. }
  set (q := adv (body_pos E h o) (fp_of f)) in *.
  assert (P0 : 0 <= fpos q) by (unfold q; rewrite fpos_adv; cbn [fpos fp_of]; lia).
  assert (R0 : rest q = zdrop (body_pos E h o) f) by (unfold q; rewrite rest_adv by (cbn; lia); rewrite rest_fp_of; reflexivity).
  assert (RL : 16 <= zlen (rest q)).
  { rewrite RR. unfold body. cbn [map concat fst]. unfold stored. rewrite !zlen_app.
    match goal with |- context [zlen c + ?z + ?y + ?w] => assert (0 <= z /\ 0 <= y /\ 0 <= w) by (repeat split; apply zlen_nonneg) end. lia. }
  destruct (read_chunk_spec E (h_checksum h) q P0 RL) as (bh & n & RC & _).
  pose proof (read_chunk_bh _ _ _ _ _ _ P0 RC) as DB.
  rewrite decode_blosc_header_ok in DB by (rewrite zlen_ztake; lia). injection DB as DB.
  assert (SH : forall p k, 0 <= p -> 0 <= k -> p + k <= 16 -> sub p k (ztake 16 (rest q)) = sub (F_body f + p) k f).
  { intros p' k Hp Hk Hpk. rewrite (fi_body _ _ _ _ F), <- sub_shift, <- R0 by lia.
    rewrite <- (ztake_zdrop 16 (rest q)) at 2. rewrite sub_app_l; [reflexivity|lia|lia|]. rewrite zlen_ztake. lia. }
  unfold u8, u32 in DB. rewrite !SH in DB by lia. rewrite Z.add_0_r in DB.
  destruct (flags_ok (u8 (F_body f + 2) f) (u8_range _ _) HFL) as [fl HFl].
  eexists. unfold cli_info. rewrite Hs. rewrite (bind_run _ _ _ _ _ RB). cbn [b_header].
  rewrite (bind_run _ _ _ _ _ RC). cbn [fst snd ret]. rewrite <- DB at 1. cbn [bh_flags].
  change (uint_le (sub (F_body f + 2) 1 f)) with (u8 (F_body f + 2) f). rewrite HFl. cbn [rbind].
  split; [reflexivity|]. cbn [i_header i_offsets i_meta i_mheader i_blosc b_header b_offsets b_meta b_mheader].
  split.
  { replace (sub 0 32 f) with (header_bytes h); [apply header_decode_describes, header_decode_bytes, HO|].
    rewrite (wf_bytes _ _ _ _ _ _ W). symmetry. apply sub_at0. change size with (@zlen byte). rewrite zlen_header_bytes. reflexivity. }
  rewrite (fi_offsets _ _ _ _ F), (fi_n _ _ _ _ F), (fi_meta _ _ _ _ F).
  pose proof (zlen_positions E h o ((c, x) :: cs)) as ZP.
  split.
  { destruct (h_offsets h); [|reflexivity]. rewrite (wf_n _ _ _ _ _ _ W), <- ZP. unfold zlen. rewrite firstn_length. lia. }
  split.
  { intros k Hk. destruct (h_offsets h) eqn:Ho; [|cbn in Hk; lia].
    assert (K : 0 <= k < 5 /\ k < zlen ((c, x) :: cs)).
    { unfold zlen in Hk, ZP |- *. rewrite firstn_length in Hk. lia. }
    rewrite nth_error_firstn by lia.
    destruct (nth_split_z ((c, x) :: cs) k ltac:(lia)) as (a & [c1 x1] & b2 & EQ & LA). rewrite EQ in *.
    rewrite <- LA at 2. rewrite (off_used E HE _ _ _ _ _ _ _ _ W Ho).
    unfold positions. rewrite map_app, pos_from_app. rewrite nth_error_app2; [|unfold zlen in LA; pose proof (zlen_pos_from (body_pos E h o) (map (fun cx => stored E (h_checksum h) (fst cx)) a)) as ZZ; rewrite zlen_map in ZZ; unfold zlen in ZZ; lia].
    replace (Z.to_nat k - _)%nat with O by (pose proof (zlen_pos_from (body_pos E h o) (map (fun cx => stored E (h_checksum h) (fst cx)) a)) as ZZ; rewrite zlen_map in ZZ; unfold zlen in *; lia).
    reflexivity. }
  split; [exact (ar_meta _ _ _ _ _ _ _ _ A)|]. split.
  { rewrite (ar_meta _ _ _ _ _ _ _ _ A). pose proof (ar_null _ _ _ _ _ _ _ _ A) as NU. pose proof (wf_flag _ _ _ _ _ _ W) as FL. rewrite FL.
    pose proof (ar_meta _ _ _ _ _ _ _ _ A) as AM. pose proof (wf_sect _ _ _ _ _ _ W) as SO.
    destruct o as [sct|]; cbn [is_some option_map osect_ok osect_val] in *.
    - destruct (is_none m) eqn:Em; [destruct m; try discriminate; exfalso; apply NU; reflexivity|].
      exists (ms_h sct). split; [reflexivity|]. destruct SO as (MO & _).
      replace (sub 32 32 f) with (mheader_bytes (ms_h sct)); [apply mheader_bytes_describe; exact MO|].
      rewrite (wf_bytes _ _ _ _ _ _ W). cbn [osect_bytes]. unfold msect_bytes. rewrite <- !app_assoc. symmetry.
      apply sub_at; change size with (@zlen byte); [rewrite zlen_header_bytes; reflexivity|rewrite zlen_mheader_bytes by exact MO; reflexivity].
    - destruct (is_none m); reflexivity. }
  cbv zeta. split; [symmetry; exact DB|].
  rewrite <- DB. cbn [bh_nbytes]. rewrite <- SH by lia.
  assert (UX : uint_le (sub 4 4 (ztake 16 (rest q))) = zlen x).
  { pose proof (ok_decompress_len E HE _ _ HC1) as (_ & _ & U4). change (size x) with (zlen x) in U4. rewrite <- U4. unfold u32. f_equal.
    rewrite RR. unfold body. cbn [map concat fst]. unfold stored. rewrite <- !app_assoc.
    rewrite ztake_app_le by lia. rewrite <- (ztake_zdrop 16 c) at 2. rewrite sub_app_l; [reflexivity|lia|lia|]. rewrite zlen_ztake. lia. }
  rewrite UX. rewrite (fi_chunk _ _ _ _ F).
  pose proof (arch_chunk_data E _ _ _ [] c x cs tail b m A) as CD. change (zlen (@nil (bytes * bytes))) with 0 in CD. rewrite Z.mul_0_l in CD.
  rewrite <- CD. pose proof (ar_c _ _ _ _ _ _ _ _ A). change (zlen (sub 0 (h_chunk_size h) b)) with (size (sub 0 (h_chunk_size h) b)). rewrite size_sub by lia.
  unfold size. lia.
Qed.

End WithEnv.
