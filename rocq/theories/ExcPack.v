(** Which exceptions can come out of packing, and on what grounds. *)
From Verif Require Import Base PyVal Checksums Headers Pretty Args FileIO Append Spec ExcSpec BaseLemmas HeaderProofs IOProofs WfProofs PackProofs.
From Coq Require Import ZifyBool ZifyNat.
Ltac Zify.zify_post_hook ::= Z.div_mod_to_equations.

Section PackErrors.
Variable E : Env.
Hypothesis HE : EnvOK E.

Lemma set_nth_some {A} (v : A) (l : list A) : forall i, (i < List.length l)%nat -> exists l', set_nth i v l = Some l'.
Proof.
  induction l as [|x l IH]; intros [|i] H; cbn in *; try lia; [eauto|]. destruct (IH i ltac:(lia)) as (l' & ->). eauto.
Qed.
Lemma set_nth_keeps {A} (P : A -> Prop) (v : A) (l : list A) : forall i l', set_nth i v l = Some l' -> Forall P l -> P v ->
  Forall P l' /\ List.length l' = List.length l.
Proof.
  induction l as [|x l IH]; intros [|i] l' H F V; cbn in H; try discriminate.
  - injection H as <-. inversion F; subst. split; [constructor; auto|reflexivity].
  - destruct (set_nth i v l) as [r|] eqn:S; [|discriminate]. injection H as <-. inversion F; subst. destruct (IH _ _ S) as [F' L]; auto.
    split; [constructor; auto|cbn; congruence].
Qed.

(** The loop: only the compressor raises. *)
Definition placed (k : cfs) : Prop := at_end (s_fp k) /\ Forall (fun o => -1 <= o <= size (fdata (s_fp k))) (s_storage k).
Lemma put_outcome k i c : placed k -> (h_offsets (s_header k) = true -> 0 <= i < zlen (s_storage k)) ->
  exists k', fps_put E i c k = (k', Ok tt) /\ placed k' /\ s_header k' = s_header k /\ s_meta_total k' = s_meta_total k /\
    zlen (s_storage k') = zlen (s_storage k).
Proof.
  intros [A F] I. unfold fps_put. rewrite (bind_run _ _ _ k (fpos (s_fp k))) by (destruct k; reflexivity).
  set (k1 := mkCFS (grow (s_fp k) (stored E (h_checksum (s_header k)) c)) (s_meta_total k) (s_header k) (s_storage k)).
  rewrite (bind_run _ _ k k1 tt).
  2:{ unfold on_fp. rewrite do_checksum_digest by exact HE. rewrite (write_compressed_chunk_end E _ _ _ A). reflexivity. }
  assert (A1 : at_end (s_fp k1)) by (apply at_end_grow; exact A).
  assert (G : size (fdata (s_fp k)) <= size (fdata (s_fp k1))).
  { cbn [k1 s_fp grow fdata]. unfold size. rewrite app_length. lia. }
  assert (F1 : Forall (fun o => -1 <= o <= size (fdata (s_fp k1))) (s_storage k1)).
  { eapply Forall_impl; [|exact F]. cbn beta. lia. }
  cbn [k1 s_header s_storage]. destruct (h_offsets (s_header k)) eqn:O.
  - destruct (set_nth_some (fpos (s_fp k)) (s_storage k) (Z.to_nat i)) as (st & S); [specialize (I eq_refl); unfold zlen in I; lia|].
    rewrite S. eexists. split; [reflexivity|]. cbn [s_header s_storage s_meta_total].
    apply (set_nth_keeps (fun o => -1 <= o <= size (fdata (s_fp k1)))) in S as [F2 L]; [|exact F1|].
    + repeat split; auto. unfold zlen. congruence.
    + unfold at_end in A. unfold size, zlen in *. lia.
  - exists k1. repeat split; auto.
Qed.
Lemma loop_outcome ba sizes : forall i nf k, placed k -> 0 <= i -> (h_offsets (s_header k) = true -> i + zlen sizes <= zlen (s_storage k)) ->
  match pack_loop (compress_chunk_str E ba) (fps_put E) i (map f_read sizes) (nf, k) with
  | ((_, k'), Ok _) => placed k' /\ s_header k' = s_header k /\ s_meta_total k' = s_meta_total k
  | (_, Raise e) => foreign_write E e
  end.
Proof.
  induction sizes as [|n sizes IH]; intros i nf k P I L; cbn [map pack_loop].
  - cbn. auto.
  - destruct (f_read n nf) as [nf' r] eqn:R. assert (exists x, r = Ok x) as [x ->] by (unfold f_read in R; injection R as _ <-; eauto).
    rewrite (bind_run _ _ _ _ _ (onl_run _ _ _ _ _ R)).
    destruct (compress_chunk_str E ba x) as [c|e] eqn:C.
    2:{ rewrite (bind_lift_raise _ _ _ _ eq_refl). unfold foreign_write. exists ba, x. exact C. }
    rewrite (bind_lift _ _ _ _ eq_refl).
    assert (ZL : zlen (n :: sizes) = 1 + zlen sizes) by (unfold zlen; cbn [List.length]; lia).
    assert (ZN : 0 <= zlen sizes) by apply zlen_nonneg.
    destruct (put_outcome k i c P) as (k' & PE & P' & H' & M' & S'); [intros O; specialize (L O); lia|].
    rewrite (bind_run _ _ _ _ _ (onr_run _ _ _ _ _ PE)).
    specialize (IH (i + 1) nf' k' P' ltac:(lia)). rewrite H', M', S' in IH.
    specialize (IH ltac:(intros O; specialize (L O); lia)). exact IH.
Qed.

(** Writing the offsets at the end. *)
Lemma encode_offsets_outcome l e : encode_offsets l = Raise e -> e = StructError /\ exists o, In o l /\ (o < - 2 ^ 63 \/ 2 ^ 63 <= o).
Proof.
  induction l as [|x l IH]; cbn [encode_offsets]; [discriminate|].
  destruct (encode_int64 x) as [b|e1] eqn:X; cbn [rbind].
  - destruct (encode_offsets l) as [bs|e2]; cbn [rbind]; [discriminate|]. intros H. injection H as <-.
    destruct (IH eq_refl) as (-> & o & I & B). split; [reflexivity|]. exists o. cbn; auto.
  - intros H. injection H as <-. unfold encode_int64, pack_int in X. destruct (_ && _) eqn:B; [discriminate|]. injection X as <-.
    split; [reflexivity|]. exists x. split; [cbn; auto|]. lia.
Qed.
Lemma finalize_outcome k : placed k -> 0 <= s_meta_total k ->
  match fps_finalize E k with
  | (_, Ok _) => True
  | (k', Raise e) => e = StructError /\ h_offsets (s_header k) = true /\ 2 ^ 63 <= size (fdata (s_fp k'))
  end.
Proof.
  intros [A F] M. unfold fps_finalize. destruct (h_offsets (s_header k)) eqn:O; [|exact I]. unfold on_fp.
  rewrite (bind_run _ _ _ (mkfp (fdata (s_fp k)) (BLOSCPACK_HEADER_LENGTH + s_meta_total k) (flog (s_fp k))) tt).
  2:{ unfold f_seek. replace (_ <? 0) with false by (unfold BLOSCPACK_HEADER_LENGTH; lia). reflexivity. }
  unfold write_offsets. destruct (encode_offsets (s_storage k)) as [bs|e] eqn:X.
  - rewrite (bind_lift _ _ _ _ eq_refl). cbn. exact I.
  - rewrite (bind_lift_raise _ _ _ _ eq_refl). cbn [s_fp fdata]. apply encode_offsets_outcome in X as (-> & o & I & B).
    split; [reflexivity|]. split; [reflexivity|]. rewrite Forall_forall in F. specialize (F o I). lia.
Qed.

(** The arguments. *)
Lemma calc_outcome b cs e : calculate_nchunks (size b) cs = Raise e ->
  e = ValueError \/ e = ChunkingException /\ 2 ^ 63 <= size b \/ e = IndexError /\ cs = CSStr "" \/
  e = OverflowError /\ (exists s, cs = CSStr s) \/ e = TypeError /\ cs = CSOther.
Proof.
  unfold calculate_nchunks. destruct (size b <? 0) eqn:N; [intros H; injection H as <-; auto|]. destruct (size b =? 0) eqn:Z0; [discriminate|].
  destruct (match cs with CSInt z => Ok z | CSStr s => reverse_pretty s | CSOther => Raise TypeError end) as [z|e1] eqn:C; cbn [rbind].
  2:{ intros H. injection H as <-. destruct cs as [z|s|]; [discriminate| |injection C as <-; auto 8].
    unfold reverse_pretty in C. destruct (rev _) as [|a r] eqn:R.
    { injection C as <-. right. right. left. split; [reflexivity|].
      destruct s as [|x s]; [reflexivity|]. cbn [list_ascii_of_string rev] in R. destruct (rev _); discriminate. }
    destruct (suffix_bits a) as [k|]; [|injection C as <-; auto].
    unfold float_times in C. destruct (number_text _) as [t|]; [|injection C as <-; auto].
    destruct (inf_or_nan t) as [[|]|]; [injection C as <-; eauto 8|injection C as <-; auto|].
    unfold decimal_times in C. destruct (parse_decimal t) as [[[ng mm] x]|]; [|injection C as <-; auto].
    destruct (if 0 <=? x then _ else _). unfold int_of_scaled in C. destruct (_ && _); [injection C as <-; eauto 8|discriminate]. }
  unfold check_range. destruct (_ && _) eqn:B; cbn [rbind]; [|intros H; injection H as <-; auto].
  unfold BLOSC_MAX_BUFFERSIZE in B.
  destruct (size b <? z) eqn:SZ.
  - rewrite Z.eqb_refl. replace (MAX_CHUNKS <? 1) with false by reflexivity. discriminate.
  - destruct (z =? size b) eqn:EQ; [replace (MAX_CHUNKS <? 1) with false by reflexivity; discriminate|].
    destruct (size b mod z =? 0) eqn:MZ; (match goal with |- (if ?t then _ else _) = _ -> _ => destruct t eqn:Q end; [|discriminate]);
      intros H; injection H as <-; right; left; (split; [reflexivity|]); unfold MAX_CHUNKS in Q;
      (assert (size b / z <= size b) by (apply Z.div_le_upper_bound; nia)); [lia|].
    destruct (Z.eq_dec z 1) as [->|]; [rewrite Z.mod_1_r in MZ; discriminate|].
    assert (size b / z < size b) by (apply Z.div_lt; lia). lia.
Qed.
Lemma apps_outcome o n x e : handle_max_apps o n x = Raise e -> e = ValueError \/ e = TypeError /\ x = MAOther \/ o = true /\ exists g, x = MACall g /\ g n = Raise e.
Proof.
  unfold handle_max_apps, check_range. destruct (_ && _); cbn [rbind]; [|intros H; injection H as <-; auto].
  destruct o; cbn [andb]; [|discriminate]. destruct (negb _); [|discriminate]. destruct x as [v|f|].
  - destruct (_ && _); cbn [rbind]; [discriminate|intros H; injection H as <-; auto].
  - destruct (f n) as [[v|]|e0] eqn:F; [|intros H; injection H as <-; auto|intros H; injection H as <-; eauto 9]. destruct (v <? 0); cbn [rbind]; [intros H; injection H as <-; auto|discriminate].
  - cbn [rbind]. intros H. injection H as <-. auto.
Qed.
Lemma cks_outcome s e : check_valid_checksum s = Raise e -> e = NoSuchChecksum /\ ~ In s checksum_names.
Proof.
  unfold check_valid_checksum. destruct (find _ _) as [c|] eqn:F; [discriminate|]. intros H. injection H as <-. split; [reflexivity|].
  intros H. unfold checksum_names in H. cbn [In] in H. repeat destruct H as [<-|H]; try (vm_compute in F; discriminate). destruct H.
Qed.
Lemma codec_outcome s e : codec_lookup s = Raise e -> e = KeyError /\ ~ In s codec_names.
Proof.
  unfold codec_lookup. destruct (find _ _) as [c|] eqn:F; [discriminate|]. intros H. injection H as <-. split; [reflexivity|].
  intros H. unfold codec_names in H. cbn [In] in H. repeat destruct H as [<-|H]; try (vm_compute in F; discriminate). destruct H.
Qed.
Lemma range_outcome v lo hi e : check_range v lo hi = Raise e -> e = ValueError.
Proof. unfold check_range. destruct (_ && _); [discriminate|]. congruence. Qed.
Lemma nums_outcome a b c d f e : check_header_nums a b c d f = Raise e -> e = ValueError.
Proof.
  unfold check_header_nums, check_range. intros H.
  repeat match type of H with context [if ?x then _ else _] => destruct x; cbn [rbind] in H end; congruence.
Qed.
Lemma mk_header_outcome v o mt ck ts cs lc n x e : mk_header v o mt ck ts cs lc n x = Raise e ->
  e = ValueError \/ e = NoSuchChecksum /\ ~ In ck checksum_names.
Proof.
  unfold mk_header. destruct (check_range v _ _) eqn:R; cbn [rbind]; [|intros H; injection H as <-; apply range_outcome in R; auto].
  destruct (check_valid_checksum ck) eqn:C; cbn [rbind]; [|intros H; injection H as <-; apply cks_outcome in C; auto].
  destruct (check_header_nums _ _ _ _ _) eqn:N; cbn [rbind]; [discriminate|]. intros H; injection H as <-; apply nums_outcome in N; auto.
Qed.
Definition meta_error (m : pyval) (ma : margs) (e : exn) : Prop :=
  e = ValueError \/ e = NoSuchChecksum /\ ~ In (ma_checksum ma) checksum_names \/
  e = KeyError /\ (ma_magic ma <> b_of_string "JSON" \/ ~ In (ma_codec ma) codec_names) \/
  e = MetadataSectionTooSmall \/ e = UnboundLocalError /\ ma_max ma = MMOther \/ (exists g n, ma_max ma = MMCall g /\ g n = Raise e) \/ foreign_meta E e.
Lemma plan_outcome m ma e : plan_metadata E m ma = Raise e -> meta_error m ma e.
Proof.
  unfold plan_metadata, meta_error. destruct (serializer_lookup (ma_magic ma)) as [[]|e1] eqn:S; cbn [rbind].
  2:{ intros H; injection H as <-. unfold serializer_lookup in S. destruct (bytes_eqb _ _) eqn:B; [discriminate|]. injection S as <-.
      right. right. left. split; [reflexivity|]. left. intros X. rewrite X in B. vm_compute in B. discriminate. }
  destruct (e_dumps E m) as [raw|e1] eqn:D; cbn [rbind].
  2:{ intros H; injection H as <-. do 6 right. left. eauto. }
  destruct (if should_compress ma then _ else _) as [[payload a']|e1] eqn:C; cbn [rbind].
  2:{ intros H; injection H as <-. destruct (should_compress ma); [|discriminate].
      destruct (codec_lookup (ma_codec ma)) as [k|e2] eqn:L; cbn [rbind] in C.
      - destruct (codec_compress E k raw (ma_level ma)) as [x|e2] eqn:Z; cbn [rbind] in C; [destruct (_ <? _); discriminate|].
        injection C as <-. unfold codec_compress in Z. destruct k; [discriminate|]. do 6 right. right. eauto.
      - injection C as <-. apply codec_outcome in L as [-> L]. auto 8. }
  assert (A : ma_max a' = ma_max ma /\ ma_checksum a' = ma_checksum ma /\ ma_level a' = ma_level ma /\ ma_magic a' = ma_magic ma /\
              exists k, codec_lookup (ma_codec a') = Ok k).
  { unfold should_compress in C. destruct (negb _) eqn:NB in C.
    - destruct (codec_lookup (ma_codec ma)) as [k|e2] eqn:L; cbn [rbind] in C; [|discriminate].
      destruct (codec_compress E k raw _) as [x|e2]; cbn [rbind] in C; [|discriminate]. destruct (_ <? _); injection C as <- <-; cbn; eauto 8.
    - injection C as <- <-. repeat split. apply Bool.negb_false_iff, String.eqb_eq in NB. rewrite NB. exists CoNone. reflexivity. }
  destruct A as (A1 & A2 & A3 & A4 & k & A5). clear C. cbv zeta. unfold effective_max_meta_size. rewrite A1.
  destruct (match ma_max ma with MMInt z => Ok z | MMCall f => f (zlen raw) | MMOther => Raise UnboundLocalError end) as [mx|e1] eqn:X; cbn [rbind].
  2:{ intros H; injection H as <-. destruct (ma_max ma) eqn:MM; [discriminate|do 5 right; left; eauto|]. injection X as <-. auto 8. }
  destruct (mx <? zlen payload); [intros H; injection H as <-; auto 8|]. rewrite A5. cbn [rbind].
  destruct (mk_mheader _ _ _ _ _ _ _ _ _) as [h|e1] eqn:MH; cbn [rbind]; [discriminate|]. intros H; injection H as <-.
  unfold mk_mheader in MH. unfold check_str in MH. rewrite A2, A4 in MH.
  destruct (8 <? zlen (ma_magic ma)); cbn [rbind] in MH; [injection MH as <-; auto|].
  destruct (check_options _) eqn:CO; cbn [rbind] in MH; [|vm_compute in CO; discriminate].
  destruct (check_valid_checksum _) eqn:CK; cbn [rbind] in MH; [|injection MH as <-; apply cks_outcome in CK; auto 8].
  destruct (check_valid_codec _) eqn:CC; cbn [rbind] in MH; [|destruct k; discriminate].
  repeat match type of MH with context [check_range ?a ?b ?c] => let R := fresh "R" in destruct (check_range a b c) eqn:R; cbn [rbind] in MH; [|injection MH as <-; apply range_outcome in R; auto] end.
  destruct (8 <? zlen (@nil byte)); cbn [rbind] in MH; [injection MH as <-; auto|discriminate].
Qed.
(** ** The whole *)
Lemma init_outcome k : s_storage k = [] -> at_end (s_fp k) -> 0 <= h_nchunks (s_header k) -> exists k', fps_init_offsets k = (k', Ok tt) /\
  placed k' /\ s_header k' = s_header k /\ s_meta_total k' = s_meta_total k /\
  (h_offsets (s_header k) = true -> zlen (s_storage k') = h_nchunks (s_header k)).
Proof.
  intros S A N. unfold fps_init_offsets. destruct (h_offsets (s_header k)) eqn:O.
  - unfold total_prospective_chunks. replace (0 <=? _) with true by lia. unfold on_fp. cbn [s_fp].
    rewrite (f_write_end _ _ A). eexists. split; [reflexivity|]. cbn [s_header s_meta_total s_storage].
    split; [|split; [reflexivity|split; [reflexivity|intros _; rewrite zlen_zrep; lia]]].
    split; cbn [s_fp s_storage]; [apply at_end_grow; exact A|]. apply Forall_forall. intros o I. apply repeat_spec in I. subst o.
    unfold size. lia.
  - exists k. split; [reflexivity|]. split; [split; [exact A|rewrite S; constructor]|]. repeat split. discriminate.
Qed.
Lemma pack_outcome b n c l m oba obp oma : 1 <= n ->
  forall cs, match pack (fp_source E) (fp_sink E) n c l m oba obp oma (fp_of b, cfs_of (fp_of [])) with
  | (_, Ok _) => True
  | ((_, k), Raise e) => pack_error E b cs m (the_bpargs obp) (the_margs oma) (fdata (s_fp k)) e
  end.
Proof.
  intros N1 cs.
  unfold pack. change (match obp with Some a => a | None => default_bpargs end) with (the_bpargs obp).
  change (match oma with Some a => a | None => default_margs end) with (the_margs oma).
  set (ba := match oba with Some a => a | None => default_bargs end). set (bp := the_bpargs obp). set (ma := the_margs oma).
  cbv zeta. cbn [fp_source fp_sink cs_configure cs_write_header cs_write_metadata cs_init_offsets cs_put cs_finalize ps_steps ps_compress].
  destruct (handle_max_apps (bp_offsets bp) n (bp_max_app bp)) as [mx|e] eqn:MX.
  2:{ rewrite (bind_lift_raise _ _ _ _ eq_refl). apply apps_outcome in MX. unfold pack_error. destruct MX as [->|[[-> X]|[O (g & Y & Z0)]]]; [auto|auto 8|do 5 right; left; eauto]. }
  rewrite (bind_lift _ _ _ _ eq_refl).
  destruct (mk_header _ _ _ _ _ _ _ _ _) as [h|e] eqn:MH.
  2:{ rewrite (bind_lift_raise _ _ _ _ eq_refl). apply mk_header_outcome in MH. unfold pack_error. intuition auto 8. }
  rewrite (bind_lift _ _ _ _ eq_refl).
  pose proof (mk_header_ok _ _ _ _ _ _ _ _ _ _ MH) as HO. apply mk_header_Ok in MH as (_ & _ & ck & _ & Hh).
  set (k0 := mkCFS (fp_of []) 0 h []). rewrite (bind_run _ _ _ (fp_of b, k0) tt) by reflexivity.
  set (k1 := mkCFS (grow (fp_of []) (header_bytes h)) 0 h []).
  rewrite (bind_run _ _ _ (fp_of b, k1) tt).
  2:{ apply onr_run. unfold fps_write_header, on_fp. cbn [k0 s_header s_fp s_meta_total s_storage]. rewrite (bind_lift _ _ _ _ (header_encode_ok h HO)).
      rewrite f_write_end by reflexivity. reflexivity. }
  assert (A1 : at_end (s_fp k1)) by (apply at_end_grow; reflexivity).
  (* metadata *)
  assert (M : match (if is_none m then ret oma else a <- onr (fps_write_metadata E m ma) ;; ret (Some a)) (fp_of b, k1) with
    | (st, Ok _) => exists k2, st = (fp_of b, k2) /\ at_end (s_fp k2) /\ s_header k2 = h /\ s_storage k2 = [] /\ 0 <= s_meta_total k2
    | (_, Raise e) => m <> PNone /\ meta_error m ma e
    end).
  { destruct (is_none m) eqn:NM; [exists k1; cbn; repeat split; auto; lia|].
    assert (MN : m <> PNone) by (intros ->; discriminate).
    unfold fps_write_metadata. destruct (plan_metadata E m ma) as [[[mh p] a']|e] eqn:PL.
    - pose proof (write_metadata_run E HE _ _ _ _ _ (s_fp k1) PL ltac:(unfold at_end in A1; rewrite A1; apply zlen_nonneg)) as W.
      rewrite (put_at_end _ _ A1) in W. unfold bind, onr, on_fp. cbn [fst snd]. rewrite W. cbn [fst snd ret].
      eexists. split; [reflexivity|]. cbn [s_fp s_header s_storage s_meta_total k1]. split; [apply at_end_grow; exact A1|]. repeat split.
      pose proof (zlen_nonneg (msect_bytes E (sect_of mh p m))). lia.
    - pose proof (write_metadata_raise E _ _ _ (s_fp k1) PL) as W. unfold bind, onr, on_fp. cbn [fst snd]. rewrite W. cbn [fst snd].
      split; [exact MN|]. apply plan_outcome. exact PL. }
  match goal with |- context [bind ?x _ (fp_of b, k1)] => unfold bind at 1; destruct (x (fp_of b, k1)) as [st [oma'|e]] end.
  2:{ destruct st as [? k]. destruct M as [MN M]. unfold meta_error in M. unfold pack_error. intuition auto 14. }
  destruct M as (k2 & -> & A2 & H2 & S2 & T2).
  destruct (init_outcome k2 S2 A2) as (k3 & I3 & P3 & H3 & T3 & L3); [rewrite H2, Hh; cbn; lia|].
  rewrite (bind_run _ _ _ _ _ (onr_run _ _ _ _ _ I3)).
  pose proof (loop_outcome ba (chunk_sizes n c l) 0 (fp_of b) k3 P3 ltac:(lia)) as LO.
  rewrite H3, H2 in LO. rewrite H2 in L3.
  specialize (LO ltac:(intros O; rewrite (L3 O), Hh; cbn [h_nchunks]; unfold chunk_sizes; rewrite zlen_app, zlen_zrep; unfold zlen; cbn [List.length]; lia)).
  unfold bind at 1. unfold fp_source_steps. fold ba.
  destruct (pack_loop _ _ 0 _ (fp_of b, k3)) as [[nf k4] [u|e]].
  2:{ unfold pack_error. auto 14. }
  destruct LO as (P4 & H4 & T4).
  pose proof (finalize_outcome k4 P4 ltac:(lia)) as F. unfold bind, onr. cbn [fst snd]. destruct (fps_finalize E k4) as [k5 [u5|e]]; [exact I|].
  rewrite H4, Hh in F. cbn [h_offsets] in F. unfold pack_error. intuition auto 14.
Qed.
Lemma calc_pos sz cs n c l : calculate_nchunks sz cs = Ok (n, c, l) -> 1 <= n.
Proof.
  unfold calculate_nchunks. destruct (sz <? 0) eqn:N; [discriminate|]. destruct (sz =? 0) eqn:Z0; [intros H; injection H as <- _ _; lia|].
  destruct (match cs with CSInt z => Ok z | CSStr s => reverse_pretty s | CSOther => Raise TypeError end) as [z|e]; cbn [rbind]; [|discriminate].
  destruct (check_range z 1 BLOSC_MAX_BUFFERSIZE) as [[]|e] eqn:R; cbn [rbind]; [|discriminate]. apply check_range_Ok in R.
  set (w := if sz <? z then sz else z). assert (W : 1 <= w <= sz) by (unfold w; destruct (sz <? z) eqn:?; lia).
  assert (Q : 1 <= sz / w) by (apply Z.div_le_lower_bound; lia).
  destruct (w =? sz); [|destruct (sz mod w =? 0)]; (destruct (MAX_CHUNKS <? _); [discriminate|]); intros H; injection H as <- _ _; lia.
Qed.
Lemma pack_exceptions b cs m oba obp oma k e : pack_bytes_core E b cs m oba obp oma = (k, Raise e) ->
  pack_error E b cs m (the_bpargs obp) (the_margs oma) (fdata (s_fp k)) e.
Proof.
  unfold pack_bytes_core. destruct (calculate_nchunks (zlen b) cs) as [[[n c] l]|e1] eqn:C.
  - apply calc_pos in C. pose proof (pack_outcome b n c l m oba obp oma C cs) as P.
    destruct (pack _ _ _ _ _ _ _ _ _ _) as [[? s] r]. intros H. injection H as <- ->. exact P.
  - intros H. injection H as <- <-. apply calc_outcome in C. unfold pack_error. intuition auto 14.
Qed.
End PackErrors.

(** ** A table of offsets too long for a read call *)
Lemma unpack_overflow E f h : header_decode (ztake 32 f) = Ok h -> h_version h = 3 -> h_offsets h = true -> h_metadata h = false ->
  0 <= h_nchunks h -> 2 ^ 60 <= h_nchunks h + h_max_app h -> zlen f < 8 * (h_nchunks h + h_max_app h) ->
  unpack_core E f = ([], Raise OverflowError).
Proof.
  intros HD HV HO HM H0 HT HQ.
  unfold unpack_core, read_beginning, read_bloscpack_header, BLOSCPACK_HEADER_LENGTH.
  assert (R : f_read 32 (fp_of f) = (adv (zlen (ztake 32 f)) (fp_of f), Ok (ztake 32 f))) by (rewrite f_read_gen by lia; rewrite rest_fp_of; reflexivity).
  set (g := adv _ _) in R.
  assert (RG : zlen (rest g) <= zlen f).
  { unfold g. rewrite rest_adv by (cbn; try lia; apply zlen_nonneg). rewrite rest_fp_of, zlen_zdrop. pose proof (zlen_nonneg f). pose proof (zlen_nonneg (ztake 32 f)). lia. }
  assert (X : f_read_ssize (8 * (h_nchunks h + h_max_app h)) g = (g, Raise OverflowError)).
  { unfold f_read_ssize. fold (rest g). replace (2 ^ 63 <=? _) with true by lia. replace (zlen (rest g) <? _) with true by lia. reflexivity. }
  unfold bind at 1 2. rewrite R. unfold bind at 1, lift. rewrite HD. unfold FORMAT_VERSION. rewrite HV, Z.eqb_refl. unfold ret at 1. rewrite HM. unfold bind at 1. cbn [ret].
  unfold read_offsets. rewrite HO. unfold total_prospective_chunks. replace (0 <=? h_nchunks h) with true by lia.
  unfold bind. rewrite X. reflexivity.
Qed.
