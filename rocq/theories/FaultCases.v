(** Proofs behind PropsFault.v, and files for its examples. *)
From Verif Require Import Base PyVal Checksums Headers Args FileIO Append Spec Json Toy MetaProofs Archive Damage DamageProofs HistoryProofs CrashProofs
  Overlap Torn TornProofs Fault FaultProofs DiskProofs PropsPack PropsAppend.
From Coq Require Import ZifyBool ZifyNat.

Definition ex_plog := pack_log toy_env ex_data (CSInt 20) ex_meta None (Some ex_bp) None.
Definition ex_nooff : bytes := crash 704 ex_plog [].
Definition ex_half : bytes := fst (append_on_disk toy_env 730 ex_file ex_new1 no_obargs).
Definition ex_torn24 : bytes := crash 24 (rewrite_log toy_env ex_file ex_meta2 default_overrides) ex_file.

Lemma model_pack E S Chunk (src : plain_source S Chunk) n c l m oba obp oma s f :
  let k := snd (fst (pack src (fp_sink E) n c l m oba obp oma (s, cfs_of f))) in
  let r := play (pack_io E src n c l m oba obp oma) (s, f) in
  snd (fst r) = s_fp k /\ fst (fst r) = fst (fst (pack src (fp_sink E) n c l m oba obp oma (s, cfs_of f))) /\
  snd r = match snd (pack src (fp_sink E) n c l m oba obp oma (s, cfs_of f)) with Ok _ => Ok tt | Raise e => Raise e end.
Proof. cbv zeta. rewrite play_pack. destruct (pack _ _ _ _ _ _ _ _ _ _) as [[s' k] [o|e]]; auto. Qed.
Lemma model_rest E :
  (forall new_size o nf f, play (append_io E f_read new_size o) (nf, f) = append_fp E new_size o (nf, f)) /\
  (forall S m ov (s : S) f, play (rewrite_io E m ov) (s, f) = let '(f', r) := rewrite_metadata E m ov f in ((s, f'), r)) /\
  (forall f, let r := play (unpack_io E) (fp_of f, fp_of []) in (fdata (snd (fst r)), snd r) = unpack_core E f).
Proof. split; [exact (play_append E)|]. split; [intros; apply play_rewrite|exact (play_unpack E)]. Qed.

Lemma pack_fault E : EnvOK E -> forall b csa m oba obp oma f g,
  pack_bytes_to_bytes E b csa m oba obp oma = Ok f -> broken_pack E b csa m oba obp oma g ->
  size g <= size f /\
  (forall m', snd (unpack_core E g) = Ok m' -> fst (unpack_core E g) = b /\ m' = norm m) /\
  (exists i, 0 <= i <= F_n f /\ fst (unpack_core E g) = sub 0 (i * F_chunk f) b).
Proof.
  intros HE b csa m oba obp oma f g HP HB. pose proof HB as (n & c & l & CN & B).
  pose proof (pack_errors E b csa m oba obp oma g HB) as (j & J & ->).
  destruct (pack_crash E HE b csa m oba obp oma f j HP) as (A1 & A2 & A3 & A4). split; [|split; [exact A1|exact A2]].
  destruct (Z.le_gt_cases (Z.of_nat j) (size f)) as [X|X]; [destruct (A3 X); lia|].
  destruct (pack_crash E HE b csa m oba obp oma f (List.length (pack_log E b csa m oba obp oma)) HP) as (_ & _ & _ & A5).
  assert (FF : f = fold_left poke (skipn j (pack_log E b csa m oba obp oma)) (crash j (pack_log E b csa m oba obp oma) [])).
  { rewrite <- (A5 (le_n _)) at 1. unfold crash. rewrite firstn_all, <- fold_left_app, firstn_skipn. reflexivity. }
  rewrite FF. apply pokes_grow.
  destruct (packing_core E b csa m oba obp oma n c l CN) as [P _]. unfold packing in P.
  destruct (play (pack_io E (fp_source E) n c l m oba obp oma) (fp_of b, fp_of [])) as [[s' f'] r] eqn:PL. cbn [fst snd] in P.
  destruct (play_log _ (calm_pack E (fp_source E) n c l m oba obp oma) _ _ _ _ _ (start_pos []) PL) as (e2 & Q1 & _ & Q2 & _). cbn [fp_of flog app] in Q1.
  assert (L : pack_log E b csa m oba obp oma = e2) by (unfold pack_log; rewrite <- P; exact Q1). rewrite L.
  apply Forall_forall. intros v Hv. rewrite Forall_forall in Q2. apply Q2. rewrite <- (firstn_skipn j e2). apply in_or_app. right. exact Hv.
Qed.
Lemma append_fault E : EnvOK E -> forall f b m new oa d,
  archive E f b m -> sizable f new -> has_offsets f = true -> broken_append E f new oa d ->
  sub 0 12 d = sub 0 12 f /\ sub 32 (F_table f - 32) d = sub 32 (F_table f - 32) f /\ F_table d = F_table f /\
  (forall i, 0 <= i < F_n f -> F_off d i = F_off f i) /\
  (forall i, 0 <= i < F_n f - 1 ->
     chunk_at (F_off d i) d = chunk_at (F_off f i) f /\
     e_decompress E (chunk_at (F_off d i) d) = Ok (sub (i * F_chunk f) (F_chunk f) b)).
Proof. intros HE f b m new oa d HA HS HO B. apply append_errors in B as (j & _ & ->). exact (append_crash_chunks E HE f b m new oa j HA HS HO). Qed.
Lemma rewrite_fault E : EnvOK E -> forall f b m m' ov g,
  archive E f b m -> broken_rewrite E f m' ov g ->
  mixture f (fst (rewrite_bytes E f m' ov)) g /\
  agree 0 32 f g /\ agree (F_table f) (size f - F_table f) f g /\
  (64 + u32 52 g <= size g ->
   (exists e, unpack_core E g = ([], Raise e)) \/ (exists m'', unpack_core E g = (b, Ok m''))).
Proof.
  intros HE f b m m' ov g HA B. apply rewrite_errors in B as (j & _ & ->).
  pose proof (crash_mixture E HE f b m m' ov j HA) as [MX _]. cbv zeta in MX.
  destruct (rewrite_bytes E f m' ov) as [f' r] eqn:R. cbn [fst] in MX |- *.
  destruct (torn_rewrite E HE f b m m' ov f' r _ HA R MX) as (T1 & T2 & _ & _ & T3). auto.
Qed.
Lemma unpack_fault E : EnvOK E -> forall f b m g, archive E f b m -> broken_unpack E f g -> exists rest, b = g ++ rest.
Proof.
  intros HE f b m g HA B. apply unpack_errors in B as (j & ->). pose proof (archive_unpack E HE f b m HA) as U. unfold unpack_bytes_from_bytes in U.
  destruct (unpack_core E f) as [o [m'|e]]; cbn [rbind] in U; [|discriminate]. injection U as -> _. cbn [fst]. exists (skipn j b). symmetry. apply firstn_skipn.
Qed.
Lemma every_point E :
  (forall b csa m oba obp oma j, pack_log E b csa m oba obp oma <> [] -> (j <= List.length (pack_log E b csa m oba obp oma))%nat ->
     broken_pack E b csa m oba obp oma (crash j (pack_log E b csa m oba obp oma) [])) /\
  (forall f new oa j, append_log E f new oa <> [] -> (j <= List.length (append_log E f new oa))%nat ->
     broken_append E f new oa (crash j (append_log E f new oa) f)) /\
  (forall f m ov j, rewrite_log E f m ov <> [] -> (j <= List.length (rewrite_log E f m ov))%nat ->
     broken_rewrite E f m ov (crash j (rewrite_log E f m ov) f)) /\
  (forall f j, fst (unpack_core E f) <> [] -> broken_unpack E f (firstn j (fst (unpack_core E f)))).
Proof. split; [exact (pack_errors_all E)|]. split; [exact (append_errors_all E)|]. split; [exact (rewrite_errors_all E)|exact (unpack_errors_all E)]. Qed.
Lemma disk_pack E : EnvOK E -> forall cap b csa m oba obp oma f,
  0 <= cap -> pack_bytes_to_bytes E b csa m oba obp oma = Ok f ->
  (size f <= cap -> pack_on_disk E cap b csa m oba obp oma = (f, Ok tt)) /\
  (cap < size f -> exists g, pack_on_disk E cap b csa m oba obp oma = (g, Raise OSError) /\ size g = cap /\
     (forall m', snd (unpack_core E g) = Ok m' -> fst (unpack_core E g) = b /\ m' = norm m)).
Proof.
  intros HE cap b csa m oba obp oma f HC HP. rewrite (pack_disk E HE cap b csa m oba obp oma f HC HP). split; intros H.
  - replace (size f <=? cap) with true by lia. reflexivity.
  - replace (size f <=? cap) with false by lia. eexists. split; [reflexivity|].
    destruct (pack_crash E HE b csa m oba obp oma f (Z.to_nat cap) HP) as (A1 & _ & A3 & _). destruct A3 as [A3 _]; [lia|]. split; [lia|exact A1].
Qed.
Lemma disk_append E cap f new oa : size f <= cap ->
  (size (fst (append_bytes E f new oa)) <= cap -> append_on_disk E cap f new oa = append_bytes E f new oa) /\
  (cap < size (fst (append_bytes E f new oa)) ->
   exists j w, nth_error (append_log E f new oa) j = Some w /\ cap <= fst w /\ (forall v, In v (firstn j (append_log E f new oa)) -> fst v < cap) /\
   append_on_disk E cap f new oa = (crash j (append_log E f new oa) f, Raise OSError) /\ broken_append E f new oa (crash j (append_log E f new oa) f)).
Proof. intros H. split; [apply append_disk_ok|exact (append_disk_full E cap f new oa H)]. Qed.

Lemma pack_case : pack_bytes_to_bytes toy_env ex_data (CSInt 20) ex_meta None (Some ex_bp) None = Ok ex_file /\
  broken_pack toy_env ex_data (CSInt 20) ex_meta None (Some ex_bp) None (firstn 650 ex_nooff) /\
  fst (unpack_core toy_env (firstn 650 ex_nooff)) = sub 0 20 ex_data.
Proof.
  split; [vm_compute; reflexivity|]. split; [|vm_compute; reflexivity].
  replace (firstn 650 ex_nooff) with (crash 650 ex_plog []) by (vm_compute; reflexivity).
  apply pack_errors_all; [intros X; apply (f_equal (@List.length _)) in X; vm_compute in X; discriminate|].
  apply Nat.leb_le. vm_compute. reflexivity.
Qed.
Lemma append_case : archive toy_env ex_file ex_data (norm ex_meta) /\ sizable ex_file ex_new1 /\ has_offsets ex_file = true /\
  broken_append toy_env ex_file ex_new1 no_obargs ex_half /\ size ex_half = 730 /\ size ex_file = 704.
Proof.
  split; [exact ex_file_archive|]. split; [vm_compute; discriminate|]. split; [vm_compute; reflexivity|]. split.
  - destruct (disk_append toy_env 730 ex_file ex_new1 no_obargs) as [_ H]; [vm_compute; discriminate|].
    destruct H as (j & w & _ & _ & _ & D & B); [vm_compute; reflexivity|]. unfold ex_half. rewrite D. exact B.
  - split; vm_compute; reflexivity.
Qed.
Lemma rewrite_case : archive toy_env ex_file ex_data (norm ex_meta) /\
  broken_rewrite toy_env ex_file ex_meta2 default_overrides ex_torn24 /\ ex_torn24 <> ex_file /\ 64 + u32 52 ex_torn24 <= size ex_torn24.
Proof.
  split; [exact ex_file_archive|]. split.
  - apply rewrite_errors_all; [intros X; apply (f_equal (@List.length _)) in X; vm_compute in X; discriminate|]. apply Nat.leb_le. vm_compute. reflexivity.
  - split; [intros X; apply (f_equal (fun x => sub 50 10 x)) in X; vm_compute in X; discriminate|vm_compute; discriminate].
Qed.
Lemma unpack_case : archive toy_env ex_file ex_data (norm ex_meta) /\ broken_unpack toy_env ex_file (firstn 30 ex_data).
Proof.
  split; [exact ex_file_archive|]. assert (U : fst (unpack_core toy_env ex_file) = ex_data) by (vm_compute; reflexivity).
  rewrite <- U. apply unpack_errors_all. rewrite U. vm_compute. discriminate.
Qed.
Lemma disk_case : size ex_file = 704 /\ size (fst (append_bytes toy_env ex_file ex_new1 no_obargs)) = 757 /\
  append_on_disk toy_env 730 ex_file ex_new1 no_obargs = (ex_half, Raise OSError) /\
  pack_on_disk toy_env 700 ex_data (CSInt 20) ex_meta None (Some ex_bp) None = (firstn 700 ex_nooff, Raise OSError) /\
  unpack_on_disk toy_env 25 ex_file = (firstn 25 ex_data, Raise OSError).
Proof. repeat split; vm_compute; reflexivity. Qed.
Lemma append_not_atomic : exists E f b m new oa cap cap' g g' h x,
  EnvOK E /\ archive E f b m /\ sizable f new /\ size f <= cap /\ size f <= cap' /\
  append_on_disk E cap f new oa = (g, Raise OSError) /\ (exists e, unpack_bytes_from_bytes E g = Raise e) /\
  append_on_disk E cap' f new oa = (g', Raise OSError) /\ unpack_bytes_from_bytes E g' = Ok (b ++ x, m) /\ x <> [] /\ x <> new /\
  append_bytes E g' new oa = (h, Ok 2) /\ unpack_bytes_from_bytes E h = Ok (b ++ x ++ new, m).
Proof.
  exists toy_env, ex_file, ex_data, (norm ex_meta), ex_new1, no_obargs, 710, 730, (fst (append_on_disk toy_env 710 ex_file ex_new1 no_obargs)), ex_half,
    (fst (append_bytes toy_env ex_half ex_new1 no_obargs)), (firstn 13 ex_new1).
  split; [exact toy_env_ok|]. split; [exact ex_file_archive|]. split; [vm_compute; discriminate|]. split; [vm_compute; discriminate|]. split; [vm_compute; discriminate|].
  split; [vm_compute; reflexivity|]. split; [exists BloscError; vm_compute; reflexivity|]. split; [vm_compute; reflexivity|]. split; [vm_compute; reflexivity|].
  split; [vm_compute; discriminate|]. split; [vm_compute; discriminate|]. split; vm_compute; reflexivity.
Qed.
