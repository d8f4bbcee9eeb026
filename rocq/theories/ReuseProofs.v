(** Proofs about argument objects used for several packs. *)
From Verif Require Import Base PyVal Checksums Headers Args FileIO NumpyIO NumpySpec Spec Archive Reuse ReuseSpec BaseLemmas HeaderProofs IOProofs WfProofs PackProofs SmallProofs BytesProofs MetaProofs AppendProofs ArchiveProofs ResignProofs NumpyProofs NumpyUnpack ExcPack.
From Coq Require Import ZifyBool ZifyNat.
Ltac Zify.zify_post_hook ::= Z.div_mod_to_equations.

Section WithEnv.
Variable E : Env.
Variable N : NpEnv.

Lemma write_cases m a : margs_after_write E m a = a \/ (margs_after_write E m a = without_codec a /\ grows E m a).
Proof.
  unfold margs_after_write. destruct (serializer_lookup (ma_magic a)); cbn [rbind]; [|auto].
  destruct (e_dumps E m) as [raw|] eqn:ED; [|auto]. destruct (should_compress a) eqn:SC; [|auto].
  destruct (codec_lookup (ma_codec a)) as [co|] eqn:CL; cbn [rbind]; [|auto].
  destruct (codec_compress E co raw (ma_level a)) as [z|] eqn:CC; [|auto].
  destruct (zlen raw <? zlen z) eqn:LT; [|auto]. right. split; [reflexivity|].
  unfold codec_lookup in CL. destruct (find _ codec_avail) as [c'|] eqn:FI; [|discriminate]. injection CL as ->.
  apply find_some in FI as [_ FI]. apply String.eqb_eq in FI. destruct co; cbn [codec_compress codec_name] in *.
  - unfold should_compress in SC. rewrite FI in SC. discriminate.
  - split; [exact FI|]. exists raw, z. split; [exact ED|]. split; [exact CC|]. unfold size, zlen in *. lia.
Qed.

Lemma write_grows m a : grows E m a -> serializer_lookup (ma_magic a) = Ok tt -> margs_after_write E m a = without_codec a.
Proof.
  intros (CO & raw & z & ED & EZ & LT) SL. unfold margs_after_write, should_compress. rewrite SL, ED, CO. cbn [rbind].
  change (codec_lookup "zlib") with (Ok CoZlib). cbn [rbind codec_compress]. rewrite EZ. cbn [negb String.eqb Ascii.eqb Bool.eqb].
  replace (zlen raw <? zlen z) with true by (unfold size, zlen in *; lia). reflexivity.
Qed.

Lemma plan_after m a h p a' : plan_metadata E m a = Ok (h, p, a') -> margs_after_write E m a = a' /\ serializer_lookup (ma_magic a) = Ok tt.
Proof.
  unfold plan_metadata, margs_after_write. destruct (serializer_lookup (ma_magic a)) as [[]|]; cbn [rbind]; [|discriminate].
  destruct (e_dumps E m) as [raw|]; cbn [rbind]; [|discriminate]. destruct (should_compress a).
  - destruct (codec_lookup (ma_codec a)) as [co|]; cbn [rbind]; [|discriminate].
    destruct (codec_compress E co raw (ma_level a)) as [z|]; cbn [rbind]; [|discriminate].
    destruct (zlen raw <? zlen z); cbn [rbind]; intros H.
    all: destruct (effective_max_meta_size _ _) as [mx|]; cbn [rbind] in H; [|discriminate].
    all: destruct (mx <? _); [discriminate|]; destruct (codec_lookup _) as [c2|]; cbn [rbind] in H; [|discriminate].
    all: destruct (mk_mheader _ _ _ _ _ _ _ _ _) as [hh|]; cbn [rbind] in H; [|discriminate]; injection H as _ _ <-; auto.
  - cbn [rbind]. intros H.
    destruct (effective_max_meta_size _ _) as [mx|]; cbn [rbind] in H; [|discriminate].
    destruct (mx <? _); [discriminate|]; destruct (codec_lookup _) as [c2|]; cbn [rbind] in H; [|discriminate].
    destruct (mk_mheader _ _ _ _ _ _ _ _ _) as [hh|]; cbn [rbind] in H; [|discriminate]; injection H as _ _ <-; auto.
Qed.

Lemma pack_after {Src Chunk} (src : plain_source Src Chunk) n c l m ba bp a s k s' r :
  pack src (fp_sink E) n c l m (Some ba) (Some bp) (Some a) (s, k) = (s', Ok r) ->
  r = Some (if is_none m then a else margs_after_write E m a) /\
  (is_none m = false -> serializer_lookup (ma_magic a) = Ok tt) /\
  exists x h, handle_max_apps (bp_offsets bp) n (bp_max_app bp) = Ok x /\
    mk_header FORMAT_VERSION (bp_offsets bp) (negb (is_none m)) (bp_checksum bp) (ba_typesize ba) c l n x = Ok h.
Proof.
  intros H. unfold pack in H.
  apply bind_Ok in H as (st0 & mx & H1 & H). unfold lift in H1. injection H1 as <- Hma.
  apply bind_Ok in H as (st1 & h & H1 & H). unfold lift in H1. injection H1 as <- Hh.
  apply bind_Ok in H as (st2 & [] & _ & H). apply bind_Ok in H as (st3 & [] & _ & H).
  apply bind_Ok in H as (st4 & oma & HM & H). apply bind_Ok in H as (st5 & [] & _ & H).
  apply bind_Ok in H as (st6 & [] & _ & H). apply bind_Ok in H as (st7 & [] & _ & H). injection H as _ <-.
  assert (G : oma = Some (if is_none m then a else margs_after_write E m a) /\ (is_none m = false -> serializer_lookup (ma_magic a) = Ok tt)).
  { destruct (is_none m); [injection HM as _ <-; split; [reflexivity|discriminate]|].
    apply bind_Ok in HM as (st8 & a' & HM & H8). injection H8 as _ <-.
    destruct st3 as [s3 k3]. unfold onr in HM. cbn [fst snd fp_sink cs_write_metadata] in HM. unfold fps_write_metadata in HM.
    destruct (on_fp (write_metadata E m a) k3) as [k4 r4] eqn:HW. unfold on_fp in HW.
    destruct (write_metadata E m a (s_fp k3)) as [f5 r5] eqn:HW5. destruct (plan_metadata E m a) as [[[hh pp] a'']|e] eqn:PL.
    2:{ rewrite (write_metadata_raise E _ _ _ _ PL) in HW5. injection HW5 as <- <-. injection HW as <- <-.
        unfold bind, on_fp in HM. rewrite (write_metadata_raise E _ _ _ _ PL) in HM. discriminate HM. }
    destruct (plan_after _ _ _ _ _ PL) as [PA PS]. split; [|auto]. f_equal. rewrite PA.
    unfold write_metadata in HW5. rewrite (bind_lift _ _ _ _ PL) in HW5. destruct r5 as [[t5 a5]|e].
    2:{ injection HW as <- <-. unfold bind at 1, on_fp in HM. unfold write_metadata in HM. rewrite (bind_lift _ _ _ _ PL), HW5 in HM. discriminate HM. }
    pose proof HW5 as HW6. apply bind_Ok in HW6 as (? & ? & _ & HW6).
    apply bind_Ok in HW6 as (? & ? & _ & HW6). apply bind_Ok in HW6 as (? & ? & _ & HW6). apply bind_Ok in HW6 as (? & ? & _ & HW6).
    apply bind_Ok in HW6 as (? & ? & _ & HW6). injection HW6 as _ _ <-.
    unfold bind at 1, on_fp in HM. unfold write_metadata in HM. rewrite (bind_lift _ _ _ _ PL), HW5 in HM. cbn [fst snd] in HM.
    injection HM as _ <-. reflexivity. }
  destruct G as [G1 G2]. split; [exact G1|]. split; [exact G2|]. eauto.
Qed.

(** ** What a successful pack says about the object agrees with the model of it *)
Theorem bytes_object b cs m ba bp a k r : pack_bytes_core E b cs m (Some ba) (Some bp) (Some a) = (k, Ok r) ->
  r = Some (margs_after_pack E (zlen b) cs m ba bp a) /\ (is_none m = false -> margs_after_pack E (zlen b) cs m ba bp a = margs_after_write E m a /\ serializer_lookup (ma_magic a) = Ok tt).
Proof.
  unfold pack_bytes_core, margs_after_pack. destruct (calculate_nchunks (zlen b) cs) as [[[n c] l]|]; cbn [rbind]; [|discriminate].
  destruct (pack _ _ _ _ _ _ _ _ _ _) as [[s k1] r1] eqn:HP. intros H. injection H as -> ->.
  apply pack_after in HP as (-> & S & x & h & -> & HH). cbn [rbind]. rewrite HH. split; [reflexivity|]. intros Hm. rewrite Hm. auto.
Qed.
Theorem array_object x cs ba bp a k r : pack_ndarray E N x (fp_sink E) cs (Some ba) (Some bp) (Some a) (cfs_of (fp_of [])) = (k, Ok r) ->
  dt_hasobject (nd_dtype x) = false /\
  r = Some (margs_after_pack E (nd_size x * nd_itemsize x) cs (ndarray_meta N x) (with_typesize ba (nd_itemsize x)) bp a) /\
  margs_after_pack E (nd_size x * nd_itemsize x) cs (ndarray_meta N x) (with_typesize ba (nd_itemsize x)) bp a = margs_after_write E (ndarray_meta N x) a /\
  serializer_lookup (ma_magic a) = Ok tt.
Proof.
  unfold pack_ndarray, margs_after_pack. destruct (dt_hasobject (nd_dtype x)); [discriminate|].
  destruct (calculate_nchunks _ cs) as [[[n c] l]|]; cbn [rbind]; [|discriminate].
  destruct (pack _ _ _ _ _ _ _ _ _ _) as [[s k1] r1] eqn:HP. intros H. injection H as -> ->.
  apply pack_after in HP as (-> & S & y & h & -> & HH). cbn [rbind]. unfold with_typesize. unfold np_bargs in HH. rewrite HH.
  split; [reflexivity|]. split; [reflexivity|]. split; [reflexivity|]. apply S. reflexivity.
Qed.

Lemma after_pack_cases len cs m ba bp a :
  margs_after_pack E len cs m ba bp a = a \/ (margs_after_pack E len cs m ba bp a = without_codec a /\ grows E m a).
Proof.
  unfold margs_after_pack. destruct (rbind _ _) as [h|]; [|auto]. destruct (is_none m); [auto|]. apply write_cases.
Qed.

Lemma no_codec_twice a : without_codec (without_codec a) = without_codec a.
Proof. reflexivity. Qed.
Lemma grows_codec m a : ~ grows E m (without_codec a).
Proof. intros (H & _). discriminate H. Qed.

Variable bp : bpargs.

Lemma job_step o j : let o1 := fst (run_job E N bp o j) in
  ob_ba o1 = with_typesize (ob_ba o) (last_item (ba_typesize (ob_ba o)) [j]) /\
  (ob_ma o1 = ob_ma o \/ (ob_ma o1 = without_codec (ob_ma o) /\ grows E (job_meta N j) (ob_ma o))) /\
  (forall f, snd (run_job E N bp o j) = Ok f -> job_meta N j <> PNone -> grows E (job_meta N j) (ob_ma o) -> ob_ma o1 = without_codec (ob_ma o)).
Proof.
  destruct o as [ba a]. destruct j as [b cs m|x cs]; cbn [run_job fst snd ob_ba ob_ma last_item fold_left job_meta].
  - split; [destruct ba; reflexivity|]. split; [apply after_pack_cases|]. intros f H Hm G.
    unfold pack_bytes_to_bytes in H. destruct (pack_bytes_core _ _ _ _ _ _ _) as [k [r|]] eqn:HC; [|discriminate].
    apply bytes_object in HC as (_ & HC). destruct HC as [-> HS]; [destruct m; reflexivity || congruence|]. apply write_grows; auto.
  - destruct (dt_hasobject (nd_dtype x)) eqn:HO; cbn [ob_ba ob_ma].
    + split; [destruct ba; reflexivity|]. split; [auto|]. intros f H. unfold pack_ndarray_to_bytes in H.
      destruct (pack_ndarray _ _ _ _ _ _ _ _ _) as [k [r|]] eqn:HC; [|discriminate]. apply array_object in HC as (HC & _). congruence.
    + split; [destruct ba; reflexivity|]. split; [apply after_pack_cases|]. intros f H Hm G. unfold pack_ndarray_to_bytes in H.
      destruct (pack_ndarray _ _ _ _ _ _ _ _ _) as [k [r|]] eqn:HC; [|discriminate]. apply array_object in HC as (_ & _ & HC & HS).
      unfold np_bargs. unfold with_typesize in HC. rewrite HC. apply write_grows; auto.
Qed.

Lemma last_item_cons t j l : last_item t (j :: l) = last_item (last_item t [j]) l.
Proof. reflexivity. Qed.

Theorem objects_after l : forall o,
  let o1 := snd (run_jobs E N bp o l) in
  ob_ba o1 = with_typesize (ob_ba o) (last_item (ba_typesize (ob_ba o)) l) /\
  (ob_ma o1 = ob_ma o \/ (ob_ma o1 = without_codec (ob_ma o) /\ Exists (fun j => grows E (job_meta N j) (ob_ma o)) l)) /\
  (forall i j f, nth_error l i = Some j -> nth_error (fst (run_jobs E N bp o l)) i = Some (Ok f) -> job_meta N j <> PNone ->
     grows E (job_meta N j) (ob_ma o) -> ob_ma o1 = without_codec (ob_ma o)).
Proof.
  induction l as [|j l IH]; intros o.
  - cbn. split; [destruct (ob_ba o); reflexivity|]. split; [auto|]. intros [|i] j f H; discriminate.
  - cbn [run_jobs]. pose proof (job_step o j) as S. cbv zeta in S. destruct (run_job E N bp o j) as [o1 x]. cbn [fst snd] in S.
    specialize (IH o1). cbv zeta in IH. destruct (run_jobs E N bp o1 l) as [xs o2]. cbn [fst snd] in *.
    destruct S as (S1 & S2 & S3), IH as (I1 & I2 & I3). split; [|split].
    + rewrite I1, S1, last_item_cons. reflexivity.
    + destruct S2 as [S2|[S2 G]].
      * rewrite S2 in I2. destruct I2 as [I2|[I2 G]]; [auto|]. right. split; [exact I2|]. right. exact G.
      * right. split; [|left; exact G]. rewrite S2 in I2. destruct I2 as [I2|[I2 _]]; exact I2.
    + intros [|i] j' f Hj Hx Hm G; cbn [nth_error] in *.
      * injection Hj as ->. injection Hx as ->. rewrite (S3 f eq_refl Hm G) in I2. destruct I2 as [I2|[I2 _]]; exact I2.
      * destruct S2 as [S2|[S2 _]].
        -- rewrite S2 in I3. eapply I3; eauto.
        -- rewrite S2 in I2. destruct I2 as [I2|[I2 _]]; exact I2.
Qed.

(** What a job gives with objects of its own. *)
Definition alone (ba : bargs) (a : margs) (j : job) : res bytes :=
  match j with
  | JBytes b cs m => pack_bytes_to_bytes E b cs m (Some ba) (Some bp) (Some a)
  | JArray x cs => pack_ndarray_to_bytes E N x cs (Some ba) (Some bp) (Some a)
  end.
Lemma run_job_alone o j : snd (run_job E N bp o j) = alone (ob_ba o) (ob_ma o) j.
Proof. destruct j; reflexivity. Qed.
Lemma array_any_typesize x cs ba t a : pack_ndarray_to_bytes E N x cs (Some (with_typesize ba t)) (Some bp) (Some a) = pack_ndarray_to_bytes E N x cs (Some ba) (Some bp) (Some a).
Proof. reflexivity. Qed.

Lemma jobs_at pre j post o : nth_error (fst (run_jobs E N bp o (pre ++ j :: post))) (List.length pre) =
  Some (alone (ob_ba (snd (run_jobs E N bp o pre))) (ob_ma (snd (run_jobs E N bp o pre))) j) /\
  firstn (List.length pre) (fst (run_jobs E N bp o (pre ++ j :: post))) = fst (run_jobs E N bp o pre).
Proof.
  revert o. induction pre as [|p pre IH]; intros o; cbn [app run_jobs List.length].
  - cbn [fst snd]. rewrite <- run_job_alone. destruct (run_job E N bp o j) as [o1 x]. destruct (run_jobs E N bp o1 post) as [xs o2]. split; reflexivity.
  - destruct (run_job E N bp o p) as [o1 x]. specialize (IH o1). destruct (run_jobs E N bp o1 (pre ++ j :: post)) as [xs o2].
    destruct (run_jobs E N bp o1 pre) as [ys o3]. cbn [fst snd nth_error firstn] in *. destruct IH as [I1 I2]. split; [exact I1|]. rewrite I2. reflexivity.
Qed.

Lemma nth_firstn {A} (l : list A) k i : (i < k)%nat -> nth_error (firstn k l) i = nth_error l i.
Proof. revert k i. induction l as [|x l IH]; intros [|k] [|i] H; cbn; try reflexivity; try lia. apply IH. lia. Qed.

Theorem row ba0 a0 pre j post xs o' : run_jobs E N bp (mkObjs ba0 a0) (pre ++ j :: post) = (xs, o') ->
  exists a, nth_error xs (List.length pre) =
    Some match j with
         | JBytes b cs m => pack_bytes_to_bytes E b cs m (Some (with_typesize ba0 (last_item (ba_typesize ba0) pre))) (Some bp) (Some a)
         | JArray x cs => pack_ndarray_to_bytes E N x cs (Some ba0) (Some bp) (Some a)
         end /\
    (a = a0 \/ (a = without_codec a0 /\ Exists (fun j => grows E (job_meta N j) a0) pre)) /\
    (forall i j' f, nth_error pre i = Some j' -> nth_error xs i = Some (Ok f) -> job_meta N j' <> PNone -> grows E (job_meta N j') a0 -> a = without_codec a0).
Proof.
  intros H. destruct (jobs_at pre j post (mkObjs ba0 a0)) as [J1 J2]. rewrite H in J1, J2. cbn [fst] in J1, J2.
  destruct (objects_after pre (mkObjs ba0 a0)) as (O1 & O2 & O3). cbn [ob_ba ob_ma] in O1, O2, O3.
  exists (ob_ma (snd (run_jobs E N bp (mkObjs ba0 a0) pre))). rewrite O1 in J1. split; [|split].
  - rewrite J1. destruct j; reflexivity.
  - exact O2.
  - intros i j' f Hj Hx. apply (O3 i j' f Hj). rewrite <- J2. rewrite nth_firstn; [exact Hx|]. apply nth_error_Some. congruence.
Qed.

Theorem harmless ba0 a0 jobs : 
  Forall (fun j => ~ grows E (job_meta N j) a0 /\ match j with JBytes _ _ _ => True | JArray x _ => dt_hasobject (nd_dtype x) = true \/ nd_itemsize x = ba_typesize ba0 end) jobs ->
  run_jobs E N bp (mkObjs ba0 a0) jobs = (map (alone ba0 a0) jobs, mkObjs ba0 a0).
Proof.
  induction 1 as [|j jobs [H1 H2] _ IH]; [reflexivity|]. cbn [run_jobs map].
  pose proof (job_step (mkObjs ba0 a0) j) as (S1 & S2 & _). cbn [ob_ba ob_ma] in S1, S2.
  pose proof (run_job_alone (mkObjs ba0 a0) j) as RA. cbn [ob_ba ob_ma] in RA.
  destruct (run_job E N bp (mkObjs ba0 a0) j) as [[ba1 a1] x]. cbn [fst snd ob_ba ob_ma] in *.
  assert (ba1 = ba0) as ->.
  { rewrite S1. destruct ba0 as [t c s n]. unfold with_typesize, last_item. cbn [fold_left ba_typesize ba_clevel ba_shuffle ba_cname] in *. f_equal.
    destruct j as [|y]; [reflexivity|]. destruct (dt_hasobject (nd_dtype y)); [reflexivity|]. destruct H2; [discriminate|assumption]. }
  assert (a1 = a0) as -> by (destruct S2 as [S2|[_ G]]; [exact S2|contradiction]).
  rewrite IH, RA. reflexivity.
Qed.

Hypothesis HE : EnvOK E.
Lemma packed_typesize b cs m ba bp' a f : pack_bytes_to_bytes E b cs m (Some ba) (Some bp') (Some a) = Ok f ->
  F_typesize f = ba_typesize ba /\ 1 <= ba_typesize ba <= 255.
Proof.
  intros H. pose proof (pack_only_valid E HE _ _ _ _ _ _ _ H) as (n0 & _ & _ & (V & _) & _). split; [|exact V].
  apply pack_bytes_inv in H as (n & c & l & h & o & cs' & Ec & P & -> & _); auto.
  pose proof (calculate_partition _ _ _ _ _ (zlen_nonneg b) Ec) as CP.
  destruct (packed_wf E HE b n c l m (Some ba) (Some bp') (Some a) h o cs') as [W _]; try lia; auto.
  pose proof (packed_header E _ _ _ _ _ _ _ _ _ _ _ P) as (Hok & Hv & Ho & Hmd & Hck & Hts & Hcs & Hl & Hnc).
  rewrite (fi_typesize _ _ _ _ (wf_fields E HE _ _ _ _ _ W)). exact Hts.
Qed.

Theorem typesize_sticks ba0 a0 pre b cs m post xs o' : run_jobs E N bp (mkObjs ba0 a0) (pre ++ JBytes b cs m :: post) = (xs, o') ->
  match nth_error xs (List.length pre) with
  | Some (Ok f) => F_typesize f = last_item (ba_typesize ba0) pre /\ 1 <= last_item (ba_typesize ba0) pre <= 255
  | Some (Raise _) => True
  | None => False
  end.
Proof.
  intros H. apply row in H as (a & -> & _). destruct (pack_bytes_to_bytes _ _ _ _ _ _ _) as [f|] eqn:HP; [|exact I].
  apply packed_typesize in HP. exact HP.
Qed.

Theorem all_come_back N' ba0 a0 jobs xs o' i j f : run_jobs E N bp (mkObjs ba0 a0) jobs = (xs, o') ->
  nth_error jobs i = Some j -> nth_error xs i = Some (Ok f) ->
  match j with
  | JBytes b cs m => unpack_bytes_from_bytes E f = Ok (b, norm m)
  | JArray x cs => nd_ok x -> NpOK N N' (nd_dtype x) -> exists r, unpack_ndarray_from_bytes E N' f = Ok r /\ same_array x r
  end.
Proof.
  intros H Hj Hx. apply nth_error_split in Hj as (pre & post & -> & <-). apply row in H as (a & HR & _). rewrite Hx in HR.
  destruct j as [b cs m|x cs]; injection HR as HR; symmetry in HR.
  - eapply bytes_roundtrip; eauto.
  - intros H1 H2. eapply np_roundtrip; eauto.
Qed.
End WithEnv.
