(** Proofs about sources and sinks of different kinds. *)
From Verif Require Import Base PyVal Checksums Headers Args FileIO MemoryIO NumpyIO NumpySpec Spec Archive Embed Mix BaseLemmas HeaderProofs IOProofs WfProofs PackProofs SmallProofs BytesProofs MetaProofs AppendProofs ArchiveProofs DamageProofs MemoryProofs NumpyProofs NumpyUnpack EmbedProofs.
From Coq Require Import ZifyBool ZifyNat.
Ltac Zify.zify_post_hook ::= Z.div_mod_to_equations.

Section WithEnv.
Variable E : Env.
Hypothesis HE : EnvOK E.

(** ** What a source delivers and what a sink takes *)
Fixpoint feeds {Src} (next : SM Src (bytes * option bytes)) (ck : cks) (s : Src) (cs : list bytes) (s' : Src) : Prop :=
  match cs with
  | [] => s = s'
  | c :: cs' => exists s1 d, next s = (s1, Ok (c, d)) /\ (truthy d = true -> d = Some (digest E ck c)) /\ feeds next ck s1 cs' s'
  end.
Fixpoint accepts {Snk} (put : bytes -> SM Snk Z) (t : Snk) (cs : list bytes) (t' : Snk) : Prop :=
  match cs with
  | [] => t = t'
  | c :: cs' => exists t1 v, put c t = (t1, Ok v) /\ accepts put t1 cs' t'
  end.

Lemma loop_any {Src Snk} (next : SM Src (bytes * option bytes)) (put : bytes -> SM Snk Z) ck :
  forall cs s t s' t', feeds next ck s cs s' -> accepts put t cs t' ->
  unpack_loop E next ck put (List.length cs) (s, t) = ((s', t'), Ok tt).
Proof.
  induction cs as [|c cs IH]; intros s t s' t' HF HA; cbn [feeds accepts List.length unpack_loop] in *.
  - subst. reflexivity.
  - destruct HF as (s1 & d & N & T & HF). destruct HA as (t1 & v & P & HA).
    rewrite (bind_run _ _ _ _ _ (onl_run _ _ _ _ _ N)). cbn [fst snd].
    erewrite bind_run. 2:{ instantiate (1 := tt). destruct (truthy d) eqn:Td; [|reflexivity]. rewrite (T eq_refl), bytes_eqb_refl. reflexivity. }
    rewrite (bind_run _ _ _ _ _ (onr_run _ _ _ _ _ P)). apply IH; auto.
Qed.

Definition good (x c : bytes) : Prop := e_decompress E c = Ok x.

Lemma feeds_file ck : forall cs xs, Forall2 good xs cs -> forall before q log,
  feeds (fp_next E ck) ck (between before (concat (map (stored E ck) cs) ++ q) log) cs
        (between (before ++ concat (map (stored E ck) cs)) q log).
Proof.
  intros cs xs H. induction H as [|x c xs cs H _ IH]; intros before q log; cbn [feeds map concat app].
  - rewrite app_nil_r. reflexivity.
  - rewrite <- app_assoc. destruct (next_at E HE ck c x before (concat (map (stored E ck) cs) ++ q) log H) as (d & N & T).
    eexists _, d. split; [exact N|]. split; [exact T|]. rewrite app_assoc. apply IH.
Qed.

Lemma feeds_memory s ck : forall cs i,
  (forall j c, nth_error cs j = Some c ->
     nth_error (cm_chunks s) (i + j) = Some (Some c) /\ nth_error (cm_digests s) (i + j) = Some (Some (digest E ck c))) ->
  feeds (mem_next s) ck i cs (i + List.length cs)%nat.
Proof.
  induction cs as [|c cs IH]; intros i H; cbn [feeds List.length].
  - lia.
  - destruct (H O c eq_refl) as [N1 N2]. rewrite Nat.add_0_r in N1, N2.
    exists (S i), (Some (digest E ck c)). split; [unfold mem_next; rewrite N1, N2; reflexivity|]. split; [auto|].
    replace (i + S (List.length cs))%nat with (S i + List.length cs)%nat by lia. apply IH.
    intros j d Hj. replace (S i + j)%nat with (i + S j)%nat by lia. apply H. exact Hj.
Qed.
Lemma feeds_stored h cs m ma : feeds (mem_next (stored_in E h cs 0 m ma)) (h_checksum h) O cs (List.length cs).
Proof.
  apply (feeds_memory _ _ cs O). intros j c Hj. cbn [stored_in cm_chunks cm_digests Nat.add]. split.
  - apply nth_app_map. exact Hj.
  - apply (nth_app_map (fun c => Some (digest E (h_checksum h) c))). exact Hj.
Qed.

Lemma accepts_file : forall cs xs, Forall2 good xs cs -> forall out, at_end out -> accepts (plain_put E) out cs (grow out (concat xs)).
Proof.
  intros cs xs H. induction H as [|x c xs cs H _ IH]; intros out HA; cbn [accepts concat].
  - rewrite grow_nil. reflexivity.
  - exists (grow out x), (zlen x). split.
    + unfold plain_put. unfold good in H. rewrite (bind_lift _ _ _ _ H), (bind_run _ _ _ _ _ (f_write_end x out HA)). reflexivity.
    + rewrite <- grow_grow. apply IH. apply at_end_grow. exact HA.
Qed.
Lemma accepts_list : forall cs xs, Forall2 good xs cs -> forall t l k, holds t l (List.length cs + k) ->
  exists t', accepts (pms_put E) t cs t' /\ holds t' (l ++ xs) k /\ kind t t'.
Proof.
  intros cs xs H. induction H as [|x c xs cs H _ IH]; intros t l k Ht; cbn [accepts].
  - exists t. rewrite app_nil_r. auto using kind_refl.
  - destruct (holds_put E t l (List.length cs + k) c x Ht H) as (t1 & P1 & H1 & K1).
    destruct (IH t1 (l ++ [x]) k H1) as (t' & A & Ht' & K'). exists t'. split; [eauto|].
    rewrite <- app_assoc in Ht'. split; [exact Ht'|]. eapply kind_trans; [exact K1|exact K'].
Qed.
Lemma accepts_array : forall cs xs, Forall2 good xs cs -> forall s, 0 <= ns_pos s -> ns_pos s + zlen (concat xs) <= zlen (ns_buf s) ->
  accepts (nps_put E) s cs (nps_wr (concat xs) s).
Proof.
  intros cs xs H. induction H as [|x c xs cs H _ IH]; intros s Hp Hl; cbn [accepts concat].
  - rewrite nps_wr_nil by auto. reflexivity.
  - cbn [concat] in Hl. rewrite zlen_app in Hl. pose proof (zlen_nonneg x). pose proof (zlen_nonneg (concat xs)).
    exists (nps_wr x s), (zlen x). split.
    + unfold nps_put. rewrite H. replace (ns_pos s + zlen x <=? zlen (ns_buf s)) with true by lia. reflexivity.
    + rewrite <- nps_wr_wr by lia. apply IH; [cbn [nps_wr ns_pos]; lia|].
      rewrite zlen_wr by lia. cbn [nps_wr ns_pos]. lia.
Qed.

(** ** Packing to memory from any source *)
Lemma yields_ret chunks : yields (map (@ret unit bytes) chunks) tt chunks tt.
Proof. induction chunks as [|x l IH]; cbn [map yields]; [reflexivity|]. exists tt. split; [reflexivity|exact IH]. Qed.

Lemma loop_source_end {Src Chunk Snk} (f : Chunk -> res bytes) (put : Z -> bytes -> SM Snk unit) :
  forall (steps : list (SM Src Chunk)) i s k x s' s2 k2, yields steps s x s' ->
  pack_loop f put i steps (s, k) = ((s2, k2), Ok tt) -> s2 = s'.
Proof.
  induction steps as [|st steps IH]; intros i s k x s' s2 k2 Y H.
  - destruct x; [|destruct Y]. cbn in *. unfold ret in H. congruence.
  - destruct x as [|y x]; [destruct Y|]. destruct Y as (s1 & A & Y). cbn [pack_loop] in H.
    rewrite (bind_run _ _ _ _ _ (onl_run _ _ _ _ _ A)) in H.
    apply bind_Ok in H as (z1 & c & Hc & H). unfold lift in Hc. injection Hc as <- _.
    apply bind_Ok in H as ([z2 k1] & v & Hp & H). unfold onr in Hp. cbn [fst snd] in Hp.
    destruct (put i c k) as [kk rr]. injection Hp as <- <- ->. eapply IH; eauto.
Qed.
Lemma pack_source_end {Src Chunk Snk} (src : plain_source Src Chunk) (snk : compressed_sink Snk) n c l m oba obp oma s k x s' s2 k2 r :
  yields (ps_steps src n c l) s x s' -> pack src snk n c l m oba obp oma (s, k) = ((s2, k2), Ok r) -> s2 = s'.
Proof.
  intros Y H. rewrite pack_split in H. destruct (pack_prefix _ _ _ _ _ _ _ _ k) as [k' [a|e]]; [|discriminate].
  unfold pack_rest in H. apply bind_Ok in H as ([z1 k1] & [] & Hl & H).
  apply (loop_source_end _ _ _ _ _ _ _ _ _ _ Y) in Hl. subst z1.
  unfold bind, onr in H. cbn [fst snd] in H. destruct (cs_finalize snk k1) as [k3 [[]|e]]; [|discriminate]. unfold ret in H. congruence.
Qed.

Lemma mem_any_inv {Src Chunk} (src : plain_source Src Chunk) n c l m oba obp oma s s' x xs s2 k r :
  yields (ps_steps src n c l) s x s' -> Forall2 (fun a b => ps_compress src (the_bargs oba) a = e_compress E (the_bargs oba) b) x xs ->
  pack src (mem_sink E) n c l m oba obp oma (s, cms_new) = ((s2, k), Ok r) ->
  s2 = s' /\ exists cs h, Forall2 (fun x z => e_compress E (the_bargs oba) x = Ok z) xs cs /\ h_nchunks h = n /\ zlen xs <= Z.max 0 n /\
    k = stored_in E h cs (Z.to_nat n - List.length cs) m (if is_none m then None else Some (the_margs oma)).
Proof.
  intros Y F H. split; [eapply pack_source_end; eauto|].
  destruct (pack_same src (mem_source E xs) (mem_sink E) n c l m oba obp oma s tt x xs s' tt cms_new Y (yields_ret xs) F) as [P1 P2].
  rewrite H in P1, P2. cbn [fst snd] in P1, P2.
  destruct (pack (mem_source E xs) (mem_sink E) n c l m oba obp oma (tt, cms_new)) as [[[] k2] r2] eqn:HM. cbn [fst snd] in P1, P2. subst k2 r2.
  apply (mem_pack_inv E) in HM. exact HM.
Qed.

Lemma chunk_sizes_repeat n c l : chunk_sizes n c l = repeat c (Z.to_nat (n - 1)) ++ [l].
Proof. reflexivity. Qed.
Lemma forall2_refl {A} (R : A -> A -> Prop) l : (forall x, R x x) -> Forall2 R l l.
Proof. intros H. induction l; constructor; auto. Qed.

(** reading out of memory *)
Lemma memory_to_file h cs xs m ma d log : Forall2 good xs cs -> h_nchunks h = zlen cs ->
  unpack_memory_to_file E (stored_in E h cs 0 m ma) (between d [] log) =
  (between (d ++ concat xs) [] (log ++ numbered (size d) (concat xs)), Ok tt).
Proof.
  intros HF Hn. unfold unpack_memory_to_file. cbn [stored_in cm_header]. rewrite Hn. unfold zlen. rewrite Nat2Z.id.
  fold (stored_in E h cs 0 m ma).
  rewrite (loop_any _ _ _ _ _ _ _ _ (feeds_stored h cs m ma) (accepts_file cs xs HF _ (between_end d log))), grow_between. reflexivity.
Qed.
Lemma memory_to_list h cs xs m ma n t : Forall2 good xs cs -> h_nchunks h = zlen cs -> n = zlen cs ->
  t = pms_new None \/ t = pms_new (Some n) ->
  exists j t', mem_unpack E (stored_in E h cs 0 m ma) (O, t) = ((j, t'), Ok tt) /\ pms_chunks t' = map Some xs.
Proof.
  intros HF Hn -> Ht. destruct (mem_unpack_stored E h cs xs 0 m ma t [] 0 HF ltac:(lia)) as (t' & H' & _ & U).
  - destruct Ht as [-> | ->]; [apply holds_new_grow|].
    replace (List.length cs + 0)%nat with (Z.to_nat (zlen cs)) by (unfold zlen; lia). apply holds_new.
  - cbn [app] in H'. eexists _, t'. split; [exact U|]. apply holds_chunks. exact H'.
Qed.

(** ** Files through memory *)
Lemma file_memory_inv before b after log csa m oba obp oma i s :
  pack_to_memory E (between before (b ++ after) log) (size b) csa m oba obp oma = (i, s, Ok tt) ->
  i = between (before ++ b) after log /\ exists n c l h cs, calculate_nchunks (size b) csa = Ok (n, c, l) /\
    Forall2 (fun x z => e_compress E (the_bargs oba) x = Ok z) (takes (chunk_sizes n c l) b) cs /\ h_nchunks h = n /\ zlen cs = n /\
    s = stored_in E h cs 0 m (if is_none m then None else Some (the_margs oma)).
Proof.
  intros H. unfold pack_to_memory in H. rewrite size_zlen in H. destruct (calculate_nchunks (zlen b) csa) as [[[n c] l]|e] eqn:Ec; [|discriminate].
  pose proof (calculate_partition _ _ _ _ _ (zlen_nonneg b) Ec) as CP.
  destruct (pack _ _ _ _ _ _ _ _ _ _) as [[i' s'] r] eqn:P. destruct r as [r|e]; [|discriminate]. injection H as -> ->.
  assert (Y : yields (ps_steps (fp_source E) n c l) (between before (b ++ after) log) (takes (chunk_sizes n c l) b) (between (before ++ b) after log)).
  { cbn [fp_source ps_steps]. unfold fp_source_steps. apply yields_at; [apply chunk_sizes_nonneg; lia|]. rewrite zsum_chunk_sizes by lia. lia. }
  assert (ZT : zlen (takes (chunk_sizes n c l) b) = n) by (unfold zlen; rewrite takes_length; apply zlen_chunk_sizes; lia).
  apply (mem_any_inv _ _ _ _ _ _ _ _ _ _ _ (takes (chunk_sizes n c l) b) _ _ _ Y) in P as (-> & cs & h & HF & Hh & _ & ->).
  2:{ apply forall2_refl. reflexivity. }
  split; [reflexivity|]. rewrite size_zlen. pose proof (F2_length _ _ _ HF) as LF.
  assert (zlen cs = n) by (unfold zlen in *; lia).
  exists n, c, l, h, cs. repeat (split; [assumption|]). f_equal. unfold zlen in *; lia.
Qed.

Theorem file_through_memory before b after log csa m oba obp oma i s :
  pack_to_memory E (between before (b ++ after) log) (size b) csa m oba obp oma = (i, s, Ok tt) ->
  i = between (before ++ b) after log /\ cm_meta s = m /\
  (forall d log2, unpack_memory_to_file E s (between d [] log2) = (between (d ++ b) [] (log2 ++ numbered (size d) b), Ok tt)) /\
  exists n c l xs, calculate_nchunks (size b) csa = Ok (n, c, l) /\ concat xs = b /\ map size xs = repeat c (Z.to_nat (n - 1)) ++ [l] /\
    forall t, t = pms_new None \/ t = pms_new (Some n) ->
    exists j t', mem_unpack E s (O, t) = ((j, t'), Ok tt) /\ pms_chunks t' = map Some xs.
Proof.
  intros H. apply file_memory_inv in H as (Hi & n & c & l & h & cs & Ec & HF & Hh & Hn & ->).
  pose proof Ec as Ec'. rewrite size_zlen in Ec'. pose proof (calculate_partition _ _ _ _ _ (zlen_nonneg b) Ec') as CP.
  pose proof (decompressed E HE _ _ _ HF) as HD. fold good in HD.
  assert (CB : concat (takes (chunk_sizes n c l) b) = b).
  { rewrite concat_takes by (apply chunk_sizes_nonneg; lia). rewrite zsum_chunk_sizes by lia. apply ztake_all. lia. }
  split; [exact Hi|]. split; [reflexivity|]. split.
  - intros d log2. rewrite (memory_to_file h cs _ m _ d log2 HD) by congruence. rewrite CB. reflexivity.
  - exists n, c, l, (takes (chunk_sizes n c l) b). split; [exact Ec|]. split; [exact CB|]. split.
    + rewrite <- chunk_sizes_repeat. apply (takes_sizes (chunk_sizes n c l) b); [apply chunk_sizes_nonneg; lia|]. rewrite zsum_chunk_sizes by lia. lia.
    + intros t Ht. eapply memory_to_list; eauto; congruence.
Qed.

(** whatever can be packed to a file can be packed to memory, where the same bytes lie *)
Lemma file_memory_run b csa m oba obp oma n c l v h cs before after log :
  calculate_nchunks (zlen b) csa = Ok (n, c, l) ->
  handle_max_apps (bp_offsets (the_bpargs obp)) n (bp_max_app (the_bpargs obp)) = Ok v ->
  mk_header 3 (bp_offsets (the_bpargs obp)) (negb (is_none m)) (bp_checksum (the_bpargs obp))
            (ba_typesize (the_bargs oba)) c l n v = Ok h ->
  Forall2 (fun x z => e_compress E (the_bargs oba) x = Ok z) (takes (chunk_sizes n c l) b) cs ->
  pack_to_memory E (between before (b ++ after) log) (size b) csa m oba obp oma =
  (between (before ++ b) after log, stored_in E h cs 0 m (if is_none m then None else Some (the_margs oma)), Ok tt).
Proof.
  intros Ec H1 H2 HF. pose proof (calculate_partition _ _ _ _ _ (zlen_nonneg b) Ec) as CP.
  assert (ZT : zlen (takes (chunk_sizes n c l) b) = n) by (unfold zlen; rewrite takes_length; apply zlen_chunk_sizes; lia).
  pose proof (F2_length _ _ _ HF) as LF. assert (zlen cs = n) by (unfold zlen in *; lia).
  assert (Y : yields (ps_steps (fp_source E) n c l) (between before (b ++ after) log) (takes (chunk_sizes n c l) b) (between (before ++ b) after log)).
  { cbn [fp_source ps_steps]. unfold fp_source_steps. apply yields_at; [apply chunk_sizes_nonneg; lia|]. rewrite zsum_chunk_sizes by lia. lia. }
  unfold pack_to_memory. rewrite size_zlen, Ec.
  destruct (pack_same (fp_source E) (mem_source E (takes (chunk_sizes n c l) b)) (mem_sink E) n c l m oba obp oma
     (between before (b ++ after) log) tt _ _ _ tt cms_new Y (yields_ret _)) as [P1 P2].
  { apply forall2_refl. reflexivity. }
  rewrite (mem_pack_run E _ cs n c l m oba obp oma v h H1 H2 HF) in P1, P2. cbv zeta in P1, P2.
  replace (List.length cs <=? Z.to_nat n)%nat with true in P1, P2 by (unfold zlen in *; lia). cbn [fst snd] in P1, P2.
  destruct (pack (fp_source E) _ _ _ _ _ _ _ _ _) as [[i s] r] eqn:P. cbn [fst snd] in P1, P2. subst s r.
  rewrite (pack_source_end _ _ _ _ _ _ _ _ _ _ _ _ _ _ _ _ Y P). cbn [rbind].
  replace (Z.to_nat n - List.length cs)%nat with O by (unfold zlen in *; lia). reflexivity.
Qed.

Theorem memory_like_file b csa m oba obp oma f before after log :
  pack_bytes_to_bytes E b csa m oba obp oma = Ok f ->
  exists s cs ds, pack_to_memory E (between before (b ++ after) log) (size b) csa m oba obp oma = (between (before ++ b) after log, s, Ok tt) /\
    cm_chunks s = map Some cs /\ cm_digests s = map Some ds /\ List.length cs = List.length ds /\
    skipn (Z.to_nat (F_body f)) f = concat (map (fun p => fst p ++ snd p) (combine cs ds)).
Proof.
  intros H. apply pack_bytes_inv in H as (n & c & l & h & o & cs & Ec & P & Hf & _); auto.
  pose proof (calculate_partition _ _ _ _ _ (zlen_nonneg b) Ec) as CP.
  pose proof (packed_header E _ _ _ _ _ _ _ _ _ _ _ P) as (Hok & Hv & Ho & Hmd & Hck & Hts & Hcs & Hl & Hnc).
  destruct (packed_wf E HE b n c l m oba obp oma h o cs) as [W V]; try lia; auto.
  destruct P. exists (stored_in E h cs 0 m (if is_none m then None else Some (the_margs oma))), cs, (map (digest E (h_checksum h)) cs).
  split; [apply (file_memory_run b csa m oba obp oma n c l (h_max_app h)); auto|].
  cbn [stored_in cm_chunks cm_digests repeat]. rewrite !app_nil_r, map_map, map_length. repeat (split; [reflexivity|]).
  assert (BB : map (fun p => fst p ++ snd p) (combine cs (map (digest E (h_checksum h)) cs)) = map (stored E (h_checksum h)) cs).
  { clear. induction cs as [|x cs IH]; [reflexivity|]. cbn [map combine fst snd]. rewrite IH. reflexivity. }
  rewrite BB, Hf.
  pose proof (fi_body _ _ _ _ (wf_fields E HE _ _ _ _ _ W)) as FB.
  rewrite FB. unfold file_of, body_pos. rewrite (app_assoc (osect_bytes E o)), (app_assoc (header_bytes h)).
  rewrite <- zdrop_skipn. apply zdrop_app_exact.
  rewrite !zlen_app, zlen_header_bytes. unfold table_len. destruct (h_offsets h); [|change (zlen (@nil byte)) with 0; lia].
  rewrite zlen_app, !zlen_words, zlen_zrep. unfold offs. rewrite zlen_pos_from, zlen_map.
  destruct Hok as [_ Hnum]. unfold header_nums_ok in Hnum.
  pose proof (F2_length _ _ _ pk_comp) as LF.
  assert (zlen (takes (chunk_sizes n c l) b) = n) by (unfold zlen; rewrite takes_length; apply zlen_chunk_sizes; lia).
  unfold zlen in *. lia.
Qed.

Lemma to_memory_parts inp n csa m oba obp oma i s :
  pack_to_memory E inp n csa m oba obp oma = (i, s, Ok tt) ->
  exists k c l r, calculate_nchunks n csa = Ok (k, c, l) /\ pack (fp_source E) (mem_sink E) k c l m oba obp oma (inp, cms_new) = ((i, s), Ok r).
Proof.
  intros H. unfold pack_to_memory in H. destruct (calculate_nchunks n csa) as [[[k c] l]|e]; [|discriminate].
  destruct (pack _ _ _ _ _ _ _ _ _ _) as [[i' s'] r] eqn:P. destruct r as [r|e]; [|discriminate]. injection H as -> ->.
  exists k, c, l, r. auto.
Qed.

(** metadata of any kind can be kept in memory *)
Theorem memory_any_metadata before b after log csa m oba obp oma i s m' oma' :
  pack_to_memory E (between before (b ++ after) log) (size b) csa m oba obp oma = (i, s, Ok tt) ->
  m <> PNone -> m' <> PNone ->
  exists s', pack_to_memory E (between before (b ++ after) log) (size b) csa m' oba obp oma' = (i, s', Ok tt) /\
    cm_header s' = cm_header s /\ cm_chunks s' = cm_chunks s /\ cm_digests s' = cm_digests s /\ cm_meta s' = m'.
Proof.
  intros H Hm Hm'. assert (I : is_none m = false) by (destruct m; try reflexivity; congruence). assert (I' : is_none m' = false) by (destruct m'; try reflexivity; congruence).
  pose proof H as H0. apply to_memory_parts in H0 as (k & c & l & r & Ec & P).
  assert (exists v, handle_max_apps (bp_offsets (the_bpargs obp)) k (bp_max_app (the_bpargs obp)) = Ok v) as [v H1].
  { unfold pack in P. fold (the_bpargs obp) in P. destruct (handle_max_apps _ _ _) as [v|e]; [eauto|]. unfold bind, lift in P. discriminate. }
  assert (exists h, mk_header 3 (bp_offsets (the_bpargs obp)) (negb (is_none m)) (bp_checksum (the_bpargs obp))
            (ba_typesize (the_bargs oba)) c l k v = Ok h) as [h H2].
  { unfold pack in P. fold (the_bpargs obp) in P. rewrite (bind_lift _ _ _ _ H1) in P. unfold FORMAT_VERSION in P.
    fold (the_bargs oba) in P. destruct (mk_header _ _ _ _ _ _ _ _ _) as [h|e]; [eauto|]. unfold bind, lift in P. discriminate. }
  pose proof H as H0. apply file_memory_inv in H0 as (Hi & n & c2 & l2 & h2 & cs & Ec2 & HF & Hh & Hn & Hs).
  rewrite Ec in Ec2. injection Ec2 as <- <- <-. rewrite size_zlen in Ec.
  rewrite (file_memory_run b csa m oba obp oma k c l v h cs before after log Ec H1 H2 HF) in H. injection H as Hi2 Hs2.
  exists (stored_in E h cs 0 m' (Some (the_margs oma'))).
  rewrite (file_memory_run b csa m' oba obp oma' k c l v h cs before after log Ec H1) by (auto; rewrite I'; rewrite I in H2; exact H2).
  rewrite I', <- Hi2, <- Hs2. repeat split.
Qed.

(** ** Lists of chunks to files *)
Lemma list_file_inv chunks n c l m oba obp oma f : pack_list_to_file E chunks n c l m oba obp oma = (f, Ok tt) -> zlen chunks = n -> 1 <= n ->
  exists h o cs, wf E f h o (combine cs chunks) [] /\ f = file_of E h o cs /\ osect_val o = norm m /\ h_nchunks h = n /\
    Forall2 good chunks cs.
Proof.
  intros H Hn H1. unfold pack_list_to_file in H. destruct (pack _ _ _ _ _ _ _ _ _ _) as [[[] k] [r|e]] eqn:P; [|discriminate].
  injection H as H.
  assert (ZS : zlen (ps_steps (mem_source E chunks) n c l) = n) by (cbn [mem_source ps_steps]; rewrite zlen_map; exact Hn).
  destruct (pack_inv E HE _ _ _ _ _ _ _ _ H1 ZS _ _ _ _ P) as (h & o & ch & cs & PI).
  destruct (pack_run E HE _ _ _ _ _ _ _ _ H1 ZS _ _ _ _ _ _ PI) as (oma' & k' & R & D & _).
  rewrite P in R. injection R as <- _. rewrite H in D.
  pose proof (pack_inputs_header E _ _ _ _ _ _ _ _ _ _ _ _ _ _ PI) as (Hok & Hv & Ho & Hmd & Hck & Hts & Hcs & Hl & Hnc).
  assert (ch = chunks).
  { destruct PI. destruct (yields_det _ _ _ _ _ _ pi_yields (yields_ret chunks)) as [-> _]. reflexivity. } subst ch.
  exists h, o, cs. split.
  { rewrite D. rewrite <- (map_id chunks).
    apply (pack_inputs_wf E HE (mem_source E chunks) n c l m oba obp oma H1 ZS (fun x => x) tt tt h o chunks cs); [|exact PI].
    intros x z Hz. cbn in Hz. unfold compress_chunk_str in Hz. eauto. }
  split; [exact D|]. destruct PI. split; [|split; [exact Hnc|]].
  - destruct (meta_plan_ok E HE m oma o pi_meta) as (_ & _ & ->). destruct m; reflexivity.
  - apply (decompressed E HE (the_bargs oba)). exact pi_comp.
Qed.

(** ** Files to lists *)
Definition full_to (k : Z) (xs : list bytes) : list (option bytes) := map Some xs ++ repeat None (Z.to_nat k - List.length xs).

Lemma holds_full t l k : holds t l k -> match t with PMfixed _ _ => pms_chunks t = map Some l ++ repeat None k | PMgrow _ => pms_chunks t = map Some l end.
Proof. destruct t; cbn; [intros [-> _]; reflexivity|auto]. Qed.

Lemma split_good (cs : list (bytes * bytes)) : Forall (chunk_ok E) cs -> Forall2 good (map snd cs) (map fst cs).
Proof. induction 1; cbn; constructor; auto. Qed.

(** a sink that is full: the loop stops there *)
Lemma loop_stops {Src Snk} (next : SM Src (bytes * option bytes)) (put : bytes -> SM Snk Z) ck e :
  forall cs c s t t1 t2 n s', feeds next ck s (cs ++ [c]) s' -> accepts put t cs t1 -> put c t1 = (t2, Raise e) ->
  unpack_loop E next ck put (List.length cs + S n) (s, t) = ((s', t2), Raise e).
Proof.
  induction cs as [|x cs IH]; intros c s t t1 t2 n s' HF HA HP; cbn [feeds accepts List.length unpack_loop app Nat.add] in *.
  - subst t1. destruct HF as (s1 & d & N & T & <-).
    rewrite (bind_run _ _ _ _ _ (onl_run _ _ _ _ _ N)). cbn [fst snd].
    erewrite bind_run. 2:{ instantiate (1 := tt). destruct (truthy d) eqn:Td; [|reflexivity]. rewrite (T eq_refl), bytes_eqb_refl. reflexivity. }
    rewrite (bind_run_raise _ _ _ _ _ (onr_run _ _ _ _ _ HP)). reflexivity.
  - destruct HF as (s1 & d & N & T & HF). destruct HA as (t0 & v & P & HA).
    rewrite (bind_run _ _ _ _ _ (onl_run _ _ _ _ _ N)). cbn [fst snd].
    erewrite bind_run. 2:{ instantiate (1 := tt). destruct (truthy d) eqn:Td; [|reflexivity]. rewrite (T eq_refl), bytes_eqb_refl. reflexivity. }
    rewrite (bind_run _ _ _ _ _ (onr_run _ _ _ _ _ P)). eapply IH; eauto.
Qed.

Lemma file_list_wf f h o cs tail before after log t : wf E f h o cs tail ->
  (t = pms_new None -> exists t',
    unpack_file_to_list E (between before (f ++ after) log) t =
      (between (before ++ sub 0 (size f - size tail) f) (tail ++ after) log, t', Ok (osect_val o)) /\ pms_chunks t' = map Some (map snd cs)) /\
  (forall k, t = pms_new (Some k) -> zlen cs <= k -> exists t',
    unpack_file_to_list E (between before (f ++ after) log) t =
      (between (before ++ sub 0 (size f - size tail) f) (tail ++ after) log, t', Ok (osect_val o)) /\ pms_chunks t' = full_to k (map snd cs)) /\
  (forall k, t = pms_new (Some k) -> k < zlen cs -> exists i t',
    unpack_file_to_list E (between before (f ++ after) log) t = (i, t', Raise IndexError) /\ pms_chunks t' = map Some (firstn (Z.to_nat k) (map snd cs))).
Proof.
  intros W. pose proof (zlen_table E _ _ _ _ _ W) as ZT. destruct W as [W1 W2 W3 W4 W5 W6 W7 W8 W9].
  set (x := header_bytes h ++ osect_bytes E o ++ table E h o cs ++ body E (h_checksum h) cs).
  assert (Fx : f = x ++ tail) by (rewrite W9; unfold x; rewrite <- !app_assoc; reflexivity).
  assert (Sx : sub 0 (size f - size tail) f = x).
  { rewrite Fx, size_cat. replace (size x + size tail - size tail) with (size x) by lia. unfold sub. cbn [Z.to_nat skipn].
    rewrite firstn_app, size_zlen. unfold zlen. rewrite Nat2Z.id, Nat.sub_diag, firstn_all. cbn [firstn]. apply app_nil_r. }
  rewrite Sx. rewrite Fx. rewrite <- app_assoc. set (q := tail ++ after).
  assert (RB : exists l, read_beginning E (between before (x ++ q) log) =
     (between (before ++ header_bytes h ++ osect_bytes E o ++ table E h o cs) (body E (h_checksum h) cs ++ q) log, Ok (mkBeg h (osect_val o) (option_map ms_h o) l))).
  { unfold x. rewrite <- !app_assoc. apply (read_beginning_at E HE); auto; lia. }
  destruct RB as [l RB].
  pose proof (split_good cs W7) as G.
  assert (BD : body E (h_checksum h) cs = concat (map (stored E (h_checksum h)) (map fst cs))) by (unfold body; rewrite map_map; reflexivity).
  pose proof (feeds_file (h_checksum h) _ _ G (before ++ header_bytes h ++ osect_bytes E o ++ table E h o cs) q log) as FD.
  rewrite <- BD in FD. rewrite <- !app_assoc in FD.
  assert (Nn : Z.to_nat (h_nchunks h) = List.length (map fst cs)) by (rewrite W5, map_length; unfold zlen; lia).
  unfold unpack_file_to_list. rewrite RB. cbn [b_header b_meta]. rewrite Nn. unfold x. split; [|split].
  - intros ->. destruct (accepts_list _ _ G (pms_new None) [] 0 (holds_new_grow _)) as (t' & A & Ht & K). exists t'.
    rewrite (loop_any _ _ _ _ _ _ _ _ FD A). split; [reflexivity|].
    apply holds_full in Ht. destruct t'; [destruct K|]. exact Ht.
  - intros k -> Hk. destruct (accepts_list _ _ G (pms_new (Some k)) [] (Z.to_nat k - List.length cs)) as (t' & A & Ht & K).
    { replace (List.length (map fst cs) + (Z.to_nat k - List.length cs))%nat with (Z.to_nat k) by (rewrite map_length; unfold zlen in Hk; lia). apply holds_new. }
    exists t'. rewrite (loop_any _ _ _ _ _ _ _ _ FD A). split; [reflexivity|].
    apply holds_full in Ht. destruct t'; [|destruct K]. rewrite Ht. unfold full_to. rewrite map_length. reflexivity.
  - intros k -> Hk. set (j := Z.to_nat k).
    assert (Hj : (j < List.length cs)%nat) by (unfold j, zlen in *; lia).
    destruct (nth_error cs j) as [cx|] eqn:EN; [|apply nth_error_None in EN; lia].
    apply nth_error_split in EN as (c1 & c2 & EN & LN).
    assert (G1 : Forall2 good (map snd c1) (map fst c1)) by (apply split_good; rewrite EN in W7; apply Forall_app in W7; tauto).
    destruct (accepts_list _ _ G1 (pms_new (Some k)) [] 0) as (t1 & A & Ht & K).
    { rewrite map_length, LN, Nat.add_0_r. apply holds_new. }
    assert (Hd : e_decompress E (fst cx) = Ok (snd cx)).
    { rewrite EN in W7. apply Forall_app in W7 as [_ W7]. inversion W7; subst. assumption. }
    assert (P : pms_put E (fst cx) t1 = (t1, Raise IndexError)).
    { unfold pms_put. rewrite Hd. destruct t1 as [y i|y]; [|destruct K]. cbn [holds app repeat] in Ht. destruct Ht as [-> ->].
      rewrite set_nth_out; [reflexivity|]. rewrite app_nil_r, map_length. lia. }
    pose proof (split_good (c1 ++ [cx]) ltac:(rewrite EN in W7; apply Forall_app in W7 as [W7 W7']; apply Forall_app; split; auto; inversion W7'; auto)) as G2.
    pose proof (feeds_file (h_checksum h) _ _ G2 (before ++ header_bytes h ++ osect_bytes E o ++ table E h o cs)
      (concat (map (stored E (h_checksum h)) (map fst c2)) ++ q) log) as F2.
    assert (BS : concat (map (stored E (h_checksum h)) (map fst (c1 ++ [cx]))) ++ concat (map (stored E (h_checksum h)) (map fst c2)) ++ q = body E (h_checksum h) cs ++ q).
    { rewrite app_assoc, <- concat_app, <- !map_app, <- app_assoc. cbn [app]. rewrite <- EN, <- BD. reflexivity. }
    rewrite BS in F2. rewrite (map_app fst c1) in F2 at 1. cbn [map] in F2.
    replace (List.length (map fst cs)) with (List.length (map fst c1) + S (List.length c2))%nat by (rewrite EN, !map_length, app_length; reflexivity).
    rewrite (loop_stops _ _ _ _ _ _ _ _ _ _ _ _ F2 A P). eexists _, t1. split; [reflexivity|].
    apply holds_full in Ht. destruct t1; [|destruct K]. rewrite Ht. cbn [app repeat]. rewrite app_nil_r, EN, map_app.
    fold j. rewrite <- LN. rewrite <- (map_length snd c1). rewrite firstn_app, Nat.sub_diag, firstn_all. cbn [firstn]. rewrite app_nil_r. reflexivity.
Qed.

Lemma front_tail (x tail : bytes) : x ++ tail = sub 0 (size (x ++ tail) - size tail) (x ++ tail) ++ tail.
Proof.
  rewrite size_cat. replace (size x + size tail - size tail) with (size x) by lia. f_equal.
  unfold sub. cbn [Z.to_nat skipn]. rewrite firstn_app, size_zlen. unfold zlen. rewrite Nat2Z.id, Nat.sub_diag, firstn_all. cbn [firstn]. symmetry. apply app_nil_r.
Qed.
Lemma full_exact xs n : n = zlen xs -> full_to n xs = map Some xs.
Proof. intros ->. unfold full_to, zlen. rewrite Nat2Z.id, Nat.sub_diag. apply app_nil_r. Qed.

Theorem archive_to_list f b m : archive E f b m ->
  exists xs tail, concat xs = b /\ map size xs = repeat (F_chunk f) (Z.to_nat (F_n f - 1)) ++ [F_last f] /\ f = sub 0 (size f - size tail) f ++ tail /\
  forall before after log,
  (forall t, t = pms_new None \/ t = pms_new (Some (F_n f)) -> exists t', unpack_file_to_list E (between before (f ++ after) log) t =
     (between (before ++ sub 0 (size f - size tail) f) (tail ++ after) log, t', Ok m) /\ pms_chunks t' = map Some xs) /\
  (forall k, F_n f < k -> exists t', unpack_file_to_list E (between before (f ++ after) log) (pms_new (Some k)) =
     (between (before ++ sub 0 (size f - size tail) f) (tail ++ after) log, t', Ok m) /\ pms_chunks t' = map Some xs ++ repeat None (Z.to_nat (k - F_n f))) /\
  (forall k, k < F_n f -> exists i t', unpack_file_to_list E (between before (f ++ after) log) (pms_new (Some k)) = (i, t', Raise IndexError) /\
     pms_chunks t' = map Some (firstn (Z.to_nat k) xs)).
Proof.
  intros HA. destruct (archive_arch E HE _ _ _ HA) as (h & o & cs & tail & A). pose proof (ar_wf _ _ _ _ _ _ _ _ A) as W.
  pose proof (wf_fields E HE _ _ _ _ _ W) as FI. pose proof (wf_n _ _ _ _ _ _ W) as Wn. pose proof (wf_ne _ _ _ _ _ _ W) as We.
  assert (Fn : F_n f = zlen (map snd cs)) by (rewrite (fi_n _ _ _ _ FI), Wn, zlen_map; reflexivity).
  exists (map snd cs), tail. split; [exact (ar_content _ _ _ _ _ _ _ _ A)|]. split.
  { rewrite map_map. transitivity (map (fun cx : bytes * bytes => zlen (snd cx)) cs); [reflexivity|].
    etransitivity; [exact (ar_sizes _ _ _ _ _ _ _ _ A)|]. rewrite (fi_chunk _ _ _ _ FI), (fi_last _ _ _ _ FI), (fi_n _ _ _ _ FI). reflexivity. }
  split.
  { assert (X : f = (header_bytes h ++ osect_bytes E o ++ table E h o cs ++ body E (h_checksum h) cs) ++ tail)
      by (rewrite (wf_bytes _ _ _ _ _ _ W) at 1; rewrite <- !app_assoc; reflexivity).
    rewrite X. apply front_tail. }
  intros before after log. rewrite <- (ar_meta _ _ _ _ _ _ _ _ A). split; [|split].
  - intros t Ht. destruct (file_list_wf f h o cs tail before after log t W) as (L1 & L2 & _). destruct Ht as [Ht|Ht].
    + apply L1. exact Ht.
    + destruct (L2 _ Ht) as (t' & U & C); [rewrite Fn, zlen_map; lia|]. exists t'. split; [exact U|]. rewrite C. apply full_exact. exact Fn.
  - intros k Hk. destruct (file_list_wf f h o cs tail before after log (pms_new (Some k)) W) as (_ & L2 & _).
    destruct (L2 k eq_refl) as (t' & U & C); [rewrite Fn, zlen_map in Hk; lia|]. exists t'. split; [exact U|]. rewrite C. unfold full_to.
    do 2 f_equal. rewrite Fn. unfold zlen. pose proof (zlen_nonneg cs). rewrite Fn in Hk. unfold zlen in Hk. lia.
  - intros k Hk. destruct (file_list_wf f h o cs tail before after log (pms_new (Some k)) W) as (_ & _ & L3).
    apply L3; [reflexivity|]. rewrite Fn, zlen_map in Hk. exact Hk.
Qed.

Theorem list_through_file chunks n c l m oba obp oma f :
  pack_list_to_file E chunks n c l m oba obp oma = (f, Ok tt) -> zlen chunks = n -> 1 <= n ->
  unpack_bytes_from_bytes E f = Ok (concat chunks, norm m) /\
  (forall before after log d log2, unpack_through E (between before (f ++ after) log) (between d [] log2) =
     (between (before ++ f) after log, between (d ++ concat chunks) [] (log2 ++ numbered (size d) (concat chunks)), Ok (norm m))) /\
  forall before after log t, t = pms_new None \/ t = pms_new (Some n) ->
  exists t', unpack_file_to_list E (between before (f ++ after) log) t = (between (before ++ f) after log, t', Ok (norm m)) /\
    pms_chunks t' = map Some chunks.
Proof.
  intros H Hn H1. destruct (list_file_inv chunks n c l m oba obp oma f H Hn H1) as (h & o & cs & W & Hf & V & Hh & G).
  pose proof (F2_length _ _ _ G) as LG.
  assert (CS : map snd (combine cs chunks) = chunks) by (apply combine_snd; lia).
  assert (SF : sub 0 (size f - size (@nil byte)) f = f).
  { change (size (@nil byte)) with 0. rewrite Z.sub_0_r. unfold sub. cbn [Z.to_nat skipn]. rewrite size_zlen. unfold zlen. rewrite Nat2Z.id. apply firstn_all. }
  split; [|split].
  - unfold unpack_bytes_from_bytes. rewrite (unpack_wf E HE _ _ _ _ _ W). unfold content. rewrite CS, V. reflexivity.
  - intros. rewrite (unpack_through_wf E HE _ _ _ _ _ before after log d log2 W). unfold content. rewrite CS, V, SF. reflexivity.
  - intros before after log t Ht. destruct (file_list_wf f h o _ [] before after log t W) as (L1 & L2 & _).
    rewrite SF, CS, V in L1, L2. cbn [app] in L1, L2. destruct Ht as [Ht|Ht]; [apply L1; exact Ht|].
    destruct (L2 _ Ht) as (t' & U & C). { rewrite <- (zlen_map snd), CS. lia. }
    exists t'. split; [exact U|]. rewrite C. apply full_exact. auto.
Qed.

(** ** Arrays through memory *)
Lemma nps_new_object N N' a : nd_ok a -> NpOK N N' (nd_dtype a) ->
  nps_new N' (ndarray_meta N a) =
  Ok (mkNPS (nd_dtype a) (nd_shape a) (isfortran a) (mem_read (n_junk N') (n_base N') (nd_size a * nd_itemsize a)) 0).
Proof.
  intros Ha [L D].
  set (d1 := PStr (n_repr N (dt_desc (nd_dtype a)))) in *.
  unfold ndarray_meta. fold d1. unfold nps_new. cbn [is_none].
  set (m := PDict _).
  replace (getitem m (u "container")) with (Ok (PStr (u "numpy"))) by reflexivity. cbn [rbind].
  replace (negb (zs_eqb (u "numpy") (u "numpy"))) with false by reflexivity. cbn iota.
  replace (getitem m (u "dtype")) with (Ok d1) by reflexivity. cbn [rbind]. rewrite L. cbn [rbind].
  replace (getitem m (u "shape")) with (Ok (PTuple (map PInt (nd_shape a)))) by reflexivity. cbn [rbind]. rewrite D. cbn [rbind].
  replace (getitem m (u "order")) with (Ok (PStr (if isfortran a then u "F" else u "C"))) by reflexivity. cbn [rbind].
  cbn [shape_arg]. rewrite (shape_list_ints (nd_shape a)) by (apply Ha). cbn [rbind].
  replace (order_arg (PStr (if isfortran a then u "F" else u "C"))) with (Ok (isfortran a)) by (destruct (isfortran a); reflexivity).
  reflexivity.
Qed.

Lemma array_memory_inv N a csa oba obp oma s r : nd_ok a -> pack_ndarray E N a (mem_sink E) csa oba obp oma cms_new = (s, Ok r) ->
  exists n c l h cs, calculate_nchunks (nd_size a * nd_itemsize a) csa = Ok (n, c, l) /\ 
    Forall2 good (takes (chunk_sizes n c l) (image N a)) cs /\ concat (takes (chunk_sizes n c l) (image N a)) = image N a /\ h_nchunks h = zlen cs /\
    s = stored_in E h cs 0 (ndarray_meta N a) (Some (the_margs oma)).
Proof.
  intros Ha H. pose proof H as H'. apply (pack_ndarray_inv E N) in H' as (Ho & Hi & n & c & l & Ec & Hd); auto.
  pose proof (calculate_partition _ _ _ _ _ (size_nonneg a Ha) Ec) as CP.
  pose proof (last_divides a n c l csa Ha ltac:(lia) Ec Hd) as Hl.
  unfold pack_ndarray in H. rewrite Ho, Ec in H. set (b := source_array N a) in *.
  assert (Y1 : yields (ps_steps (np_source E b) n c l) tt (np_chunks c l (nd_itemsize a) (Z.to_nat (n - 1)) (nd_ptr b)) tt).
  { cbn [np_source ps_steps]. unfold b at 1 2 3. rewrite source_array_item.
    replace (nd_itemsize a =? 0) with false by lia. replace (c mod nd_itemsize a =? 0) with true by lia.
    cbn [negb]. apply np_yields; try assumption; pose proof (calculate_bounded _ _ _ _ _ (size_nonneg a Ha) Ec); lia. }
  pose proof (np_views (nd_mem b) (nd_itemsize a) c l (Z.to_nat (n - 1)) ltac:(lia) ltac:(lia) ltac:(lia) Hd Hl (nd_ptr b)
    (nd_size a * nd_itemsize a)) as V.
  rewrite Z2Nat.id in V by lia. specialize (V ltac:(lia)).
  change (zrep (n - 1) c ++ [l]) with (chunk_sizes n c l) in V.
  change (mem_read (nd_mem b) (nd_ptr b) (nd_size a * nd_itemsize a)) with (image N a) in V.
  destruct (pack (np_source E b) _ _ _ _ _ _ _ _ _) as [[u1 k1] r1] eqn:P. injection H as -> ->.
  assert (ZI : zlen (image N a) = nd_size a * nd_itemsize a) by (apply zlen_image; auto).
  apply (mem_any_inv (np_source E b) n c l _ _ _ _ _ _ _ (takes (chunk_sizes n c l) (image N a)) _ _ _ Y1) in P as (_ & cs & h & HF & Hh & Hle & ->).
  2:{ rewrite <- V. clear. induction (np_chunks _ _ _ _ _) as [|x q IH]; constructor; auto. }
  assert (ZT : zlen (takes (chunk_sizes n c l) (image N a)) = n) by (unfold zlen; rewrite takes_length; apply zlen_chunk_sizes; lia).
  pose proof (F2_length _ _ _ HF) as LF. assert (Zc : zlen cs = n) by (unfold zlen in *; lia).
  exists n, c, l, h, cs. split; [exact Ec|]. split; [apply (decompressed E HE _ _ _ HF)|]. split.
  { rewrite concat_takes by (apply chunk_sizes_nonneg; lia). rewrite zsum_chunk_sizes by lia. apply ztake_all. lia. }
  split; [congruence|]. replace (Z.to_nat n - List.length cs)%nat with O by (unfold zlen in *; lia). reflexivity.
Qed.

Theorem array_through_memory N N' a csa oba obp oma s r : nd_ok a -> NpOK N N' (nd_dtype a) ->
  pack_ndarray E N a (mem_sink E) csa oba obp oma cms_new = (s, Ok r) ->
  exists x, unpack_array_from_memory E N' s = Ok x /\ same_array a x.
Proof.
  intros Ha HN H. apply array_memory_inv in H as (n & c & l & h & cs & Ec & G & C & Hh & ->); auto.
  unfold unpack_array_from_memory. cbn [stored_in cm_meta]. rewrite (nps_new_object N N' a Ha HN). cbn [rbind].
  set (st := mkNPS _ _ _ _ _). fold (stored_in E h cs 0 (ndarray_meta N a) (Some (the_margs oma))).
  replace (Z.to_nat (h_nchunks (cm_header (stored_in E h cs 0 (ndarray_meta N a) (Some (the_margs oma)))))) with (List.length cs)
    by (cbn [stored_in cm_header]; rewrite Hh; unfold zlen; lia).
  pose proof (size_nonneg a Ha) as Z0. pose proof (zlen_image N a Ha) as ZI.
  assert (A : accepts (nps_put E) st cs (nps_wr (image N a) st)).
  { rewrite <- C. apply accepts_array; auto; cbn [st ns_pos ns_buf]; [lia|]. rewrite C, ZI, zlen_mem_read. lia. }
  change (h_checksum (cm_header (stored_in E h cs 0 (ndarray_meta N a) (Some (the_margs oma))))) with (h_checksum h).
  rewrite (loop_any _ _ _ _ _ _ _ _ (feeds_stored h cs (ndarray_meta N a) (Some (the_margs oma))) A). cbn [rbind].
  eexists. split; [reflexivity|]. unfold nps_array, nps_wr, st. cbn [ns_fortran ns_dtype ns_shape ns_buf ns_pos].
  rewrite ztake_0 by lia. rewrite Z.add_0_l, ZI, (zdrop_all (nd_size a * nd_itemsize a)) by (rewrite zlen_mem_read; lia).
  cbn [app]. rewrite app_nil_r. apply nd_of_same. exact Ha.
Qed.

(** ** Lists of another length than announced *)
Definition tbl0 (h : header) : bytes := if h_offsets h then words (zrep (h_nchunks h + h_max_app h) (-1)) else [].
Definition start_state (h : header) (o : option msect) : cfs :=
  mkCFS (grow (fp_of []) (header_bytes h ++ osect_bytes E o ++ tbl0 h)) (zlen (osect_bytes E o)) h
        (if h_offsets h then zrep (h_nchunks h) (-1) else []).

Lemma prefix_inv n c l m oba obp oma k a : 1 <= n ->
  pack_prefix (fp_sink E) n c l m oba obp oma (cfs_of (fp_of [])) = (k, Ok a) ->
  exists h o, k = start_state h o /\ header_ok h /\ h_version h = 3 /\ h_nchunks h = n /\ h_offsets h = bp_offsets (the_bpargs obp) /\
    h_metadata h = is_some o /\ osect_ok E o /\ osect_val o = norm m.
Proof.
  intros Hn H. unfold pack_prefix in H. set (ma := the_margs oma) in *.
  apply bind_Ok in H as (st0 & max_app & H1 & H). unfold lift in H1. injection H1 as <- Hma.
  apply bind_Ok in H as (st1 & h & H1 & H). unfold lift in H1. injection H1 as <- Hh.
  unfold FORMAT_VERSION in *.
  pose proof (mk_header_ok _ _ _ _ _ _ _ _ _ _ Hh) as Hok.
  pose proof (mk_header_Ok _ _ _ _ _ _ _ _ _ _ Hh) as (_ & Hnum & ck & Hck & Hheq).
  unfold header_nums_ok in Hnum.
  assert (Hnc : h_nchunks h = n) by (rewrite Hheq; reflexivity).
  assert (Hv : h_version h = 3) by (rewrite Hheq; reflexivity).
  assert (Ho : h_offsets h = bp_offsets (the_bpargs obp)) by (rewrite Hheq; reflexivity).
  assert (Hmd : h_metadata h = negb (is_none m)) by (rewrite Hheq; reflexivity).
  clear Hheq.
  cbn [fp_sink cs_configure cs_write_header cs_write_metadata cs_init_offsets cs_put cs_finalize] in H.
  set (k0 := fps_configure (the_bargs oba) h (cfs_of (fp_of []))) in H.
  rewrite (bind_run _ _ _ k0 tt) in H by reflexivity.
  set (k1 := mkCFS (grow (fp_of []) (header_bytes h)) 0 h []).
  rewrite (bind_run _ _ _ k1 tt) in H.
  2:{ unfold fps_write_header, on_fp, k0, fps_configure, cfs_of; cbn [s_header s_fp s_meta_total s_storage].
      rewrite (bind_lift _ _ _ _ (header_encode_ok h Hok)), f_write_end by reflexivity. reflexivity. }
  assert (A1 : at_end (s_fp k1)) by (apply at_end_grow; reflexivity).
  apply bind_Ok in H as (k2' & oma2 & HM & H).
  assert (M : exists o, meta_plan E m ma o /\
     k2' = mkCFS (grow (fp_of []) (header_bytes h ++ osect_bytes E o)) (zlen (osect_bytes E o)) h []).
  { unfold meta_plan. destruct (is_none m) eqn:Hm.
    - exists None. inversion HM; subst. unfold k1. cbn [osect_bytes]. rewrite app_nil_r. auto.
    - apply bind_Ok in HM as (? & a' & HM1 & HM2). inversion HM2; subst; clear HM2.
      destruct (plan_metadata E m ma) as [[[mh p] a'']|e] eqn:HP.
      + exists (Some (sect_of mh p m)). split; [eauto 6|].
        unfold fps_write_metadata in HM1. erewrite (bind_run _ _ k1) in HM1.
        2:{ unfold on_fp. erewrite write_metadata_run by (eauto; cbn; unfold zlen; lia).
            rewrite put_at_end by exact A1. reflexivity. }
        cbn [fst snd s_fp s_meta_total s_header s_storage k1] in HM1. rewrite grow_grow in HM1.
        inversion HM1; subst. cbn [osect_bytes]. auto.
      + unfold fps_write_metadata in HM1. erewrite (bind_run_raise _ _ k1) in HM1.
        2:{ unfold on_fp. rewrite (write_metadata_raise E _ _ _ _ HP). reflexivity. }
        discriminate. }
  destruct M as (o & Hplan & ->). clear HM.
  set (k2 := mkCFS (grow (fp_of []) (header_bytes h ++ osect_bytes E o)) (zlen (osect_bytes E o)) h []) in *.
  assert (A2 : at_end (s_fp k2)) by (apply at_end_grow; reflexivity).
  rewrite (bind_run _ _ _ (start_state h o) tt) in H.
  2:{ unfold fps_init_offsets, start_state, tbl0. cbn [k2 s_header s_fp s_meta_total].
      destruct (h_offsets h) eqn:Hoo.
      - unfold total_prospective_chunks. replace (0 <=? h_nchunks h) with true by lia.
        unfold on_fp; cbn [s_fp s_meta_total s_header s_storage].
        rewrite f_write_end by exact A2. rewrite grow_grow, minus1_words, <- app_assoc. reflexivity.
      - unfold k2. rewrite app_nil_r. reflexivity. }
  injection H as <- _. exists h, o. destruct (meta_plan_ok E HE m oma o Hplan) as (O1 & O2 & O3).
  split; [reflexivity|]. split; [exact Hok|]. split; [exact Hv|]. split; [exact Hnc|]. split; [exact Ho|].
  split; [congruence|]. split; [exact O1|]. rewrite O3. destruct m; reflexivity.
Qed.

Lemma ret_yields_det chunks x s' : yields (map (@ret unit bytes) chunks) tt x s' -> x = chunks.
Proof. intros H. destruct (yields_det _ _ _ _ _ _ H (yields_ret chunks)) as [-> _]. reflexivity. Qed.

Lemma zlen_tbl0 h : header_ok h -> 1 <= h_nchunks h -> zlen (tbl0 h) = table_len h.
Proof.
  intros [_ Hnum] Hn. unfold header_nums_ok in Hnum. unfold tbl0, table_len. destruct (h_offsets h); [|reflexivity].
  rewrite zlen_words, zlen_zrep. lia.
Qed.

(** The file written for a list that is not longer than announced, or of any
    length when there are no offsets. *)
Lemma list_file_any chunks n c l m oba obp oma f : pack_list_to_file E chunks n c l m oba obp oma = (f, Ok tt) -> 1 <= n ->
  zlen chunks <= n \/ bp_offsets (the_bpargs obp) = false ->
  exists h o cs tb, header_ok h /\ h_version h = 3 /\ h_nchunks h = n /\ h_offsets h = bp_offsets (the_bpargs obp) /\
    h_metadata h = is_some o /\ osect_ok E o /\ osect_val o = norm m /\ zlen tb = table_len h /\ Forall2 good chunks cs /\
    f = header_bytes h ++ osect_bytes E o ++ tb ++ concat (map (stored E (h_checksum h)) cs).
Proof.
  intros H Hn Hl. unfold pack_list_to_file in H. rewrite pack_split in H.
  destruct (pack_prefix _ _ _ _ _ _ _ _ _) as [k [a|e]] eqn:HP; [|discriminate].
  apply prefix_inv in HP as (h & o & -> & Hok & Hv & Hnc & Ho & Hmd & SO & V); auto.
  unfold pack_rest in H. cbn [mem_source ps_steps ps_compress fp_sink cs_put cs_finalize] in H.
  set (k3 := start_state h o) in *.
  destruct ((pack_loop (compress_chunk_str E (the_bargs oba)) (fps_put E) 0 (map ret chunks)) (tt, k3)) as [[[] k4] r4] eqn:HL.
  destruct r4 as [[]|e].
  2:{ unfold bind in H. rewrite HL in H. discriminate. }
  rewrite (bind_run _ _ _ _ _ HL) in H.
  pose proof HL as HL'. apply pack_loop_inv in HL' as (chunks' & cs & HY & HF). apply ret_yields_det in HY as HC. subst chunks'.
  assert (A3 : at_end (s_fp k3)) by (apply at_end_grow; reflexivity).
  rewrite (pack_loop_run E (compress_chunk_str E (the_bargs oba)) _ tt chunks tt cs k3 0 [] (Z.to_nat n - List.length chunks) HY HF A3 eq_refl) in HL.
  2:{ unfold k3, start_state. cbn [s_header s_storage]. intros Hoo. rewrite Hoo. unfold zrep. cbn [app]. f_equal. rewrite map_length, Hnc.
      destruct Hl as [Hl|Hl]; [unfold zlen in Hl; lia|congruence]. }
  apply (f_equal (fun p => snd (fst p))) in HL. cbn [fst snd] in HL. set (bd := concat (map (stored E (h_checksum h)) cs)).
  change (h_checksum (s_header k3)) with (h_checksum h) in HL. change (s_header k3) with h in HL. fold bd in HL.
  exists h, o, cs.
  assert (G : Forall2 good chunks cs) by (apply (decompressed E HE (the_bargs oba)); exact HF).
  pose proof (zlen_tbl0 h Hok ltac:(lia)) as ZT.
  assert (FP : grow (s_fp k3) bd = grow (fp_of []) (header_bytes h ++ osect_bytes E o ++ tbl0 h ++ bd)).
  { unfold k3, start_state. cbn [s_fp]. rewrite grow_grow, <- !app_assoc. reflexivity. }
  destruct (h_offsets h) eqn:Hoo.
  - set (off := pos_from (fpos (s_fp k3)) (map (stored E (h_checksum h)) cs) ++ repeat (-1) (Z.to_nat n - List.length chunks)) in *.
    cbn [app] in HL. fold off in HL.
    destruct (fps_finalize E k4) as [k5 r5] eqn:HFin.
    assert (r5 = Ok tt /\ f = fdata (s_fp k5)) as [-> Hf].
    { unfold bind, onr in H. cbn [fst snd] in H. rewrite HFin in H. destruct r5 as [[]|e]; [|discriminate]. cbn in H. injection H as <-. auto. }
    rewrite <- HL in HFin. unfold fps_finalize in HFin. cbn [s_header] in HFin. rewrite Hoo in HFin.
    unfold on_fp in HFin. cbn [s_fp s_meta_total s_storage s_header] in HFin. change (s_meta_total k3) with (zlen (osect_bytes E o)) in HFin.
    pose proof (zlen_nonneg (osect_bytes E o)) as Z0. unfold BLOSCPACK_HEADER_LENGTH in HFin.
    rewrite (bind_run _ _ _ _ _ (f_seek_ok (32 + zlen (osect_bytes E o)) _ ltac:(lia))) in HFin.
    unfold write_offsets in HFin. destruct (encode_offsets off) as [x|e] eqn:EO; [|rewrite (bind_lift_raise _ _ _ _ eq_refl) in HFin; discriminate HFin].
    apply encode_offsets_inv in EO as [FF EO].
    rewrite (bind_lift _ _ _ _ eq_refl) in HFin. subst x. rewrite FP in HFin.
    assert (Lo : zlen off = n).
    { unfold off. rewrite zlen_app, zlen_pos_from, zlen_map. destruct Hl as [Hl|Hl]; [|congruence].
      apply F2_length in HF. unfold zlen in *. rewrite repeat_length. lia. }
    exists (words off ++ words (zrep (h_max_app h) (-1))).
    assert (D : f = header_bytes h ++ osect_bytes E o ++ (words off ++ words (zrep (h_max_app h) (-1))) ++ bd).
    { rewrite Hf. unfold f_write in HFin. apply (f_equal fst) in HFin. cbn [fst] in HFin. rewrite <- HFin. cbn [s_fp fdata fpos grow fp_of app].
      unfold tbl0. rewrite Hoo. destruct Hok as [_ Hnum]. unfold header_nums_ok in Hnum.
      rewrite words_zrep_app by lia. rewrite <- !app_assoc, (app_assoc (header_bytes h)), (app_assoc (header_bytes h)).
      replace (32 + zlen (osect_bytes E o)) with (zlen (header_bytes h ++ osect_bytes E o)) by (rewrite zlen_app, zlen_header_bytes; reflexivity).
      apply write_at_mid. rewrite !zlen_words, zlen_zrep, Lo. lia. }
    repeat (split; [auto; fail|]). split.
    { unfold table_len. rewrite Hoo, zlen_app, !zlen_words, zlen_zrep, Lo. destruct Hok as [_ Hnum]. unfold header_nums_ok in Hnum. lia. }
    split; [exact G|exact D].
  - exists (tbl0 h).
    assert (Hf : f = fdata (s_fp k4)).
    { destruct (fps_finalize E k4) as [k5 r5] eqn:HFin.
      assert (K : k5 = k4).
      { rewrite <- HL in HFin. unfold fps_finalize in HFin. cbn [s_header] in HFin. rewrite Hoo in HFin.
        apply (f_equal fst) in HFin. cbn [fst] in HFin. rewrite <- HL. symmetry. exact HFin. }
      unfold bind, onr in H. cbn [fst snd] in H. rewrite HFin, K in H. destruct r5 as [[]|e]; [|discriminate H].
      cbn [fst snd] in H. apply (f_equal fst) in H. symmetry. exact H. }
    repeat (split; [auto; fail|]). rewrite Hf, <- HL. cbn [s_fp]. rewrite FP. reflexivity.
Qed.

Lemma good_chunk_ok ds cs : Forall2 good ds cs -> Forall (chunk_ok E) (combine cs ds).
Proof. induction 1 as [|d c ds cs H _ IH]; cbn [combine]; constructor; auto. Qed.
Lemma combine_body ck ds cs : Forall2 good ds cs -> body E ck (combine cs ds) = concat (map (stored E ck) cs).
Proof. intros G. apply F2_length in G. unfold body. f_equal. rewrite <- (map_map fst (stored E ck)). f_equal. apply combine_fst. lia. Qed.

Lemma unpack_parts h o tb q : header_ok h -> h_version h = 3 -> h_metadata h = is_some o -> osect_ok E o -> 1 <= h_nchunks h ->
  zlen tb = table_len h ->
  unpack_core E (header_bytes h ++ osect_bytes E o ++ tb ++ q) =
  (fst (uloop E (h_checksum h) (Z.to_nat (h_nchunks h)) q),
   rbind (snd (uloop E (h_checksum h) (Z.to_nat (h_nchunks h)) q)) (fun _ => Ok (osect_val o))).
Proof.
  intros H1 H2 H3 H4 H5 H6. rewrite (unpack_core_pure E).
  destruct (read_beginning_at E HE [] h o tb q [] H1 H2 H3 H4 H5 H6) as [l R].
  change (fp_of (header_bytes h ++ osect_bytes E o ++ tb ++ q)) with (between [] (header_bytes h ++ osect_bytes E o ++ tb ++ q) []).
  rewrite R. cbn [b_header b_meta]. rewrite rest_between. destruct (uloop _ _ _ _); reflexivity.
Qed.

Theorem list_too_short chunks n c l m oba obp oma f : pack_list_to_file E chunks n c l m oba obp oma = (f, Ok tt) -> zlen chunks < n ->
  unpack_core E f = (concat chunks, Raise IndexError).
Proof.
  intros H Hl. assert (Hn : 1 <= n) by (pose proof (zlen_nonneg chunks); lia).
  destruct (list_file_any _ _ _ _ _ _ _ _ _ H Hn (or_introl (Z.lt_le_incl _ _ Hl))) as (h & o & cs & tb & H1 & H2 & H3 & H4 & H5 & H6 & H7 & H8 & G & ->).
  rewrite unpack_parts by (auto; lia). rewrite <- (combine_body (h_checksum h) _ _ G).
  pose proof (F2_length _ _ _ G) as LG.
  replace (Z.to_nat (h_nchunks h)) with (List.length (combine cs chunks) + S (Z.to_nat (n - zlen chunks - 1)))%nat
    by (rewrite combine_length; unfold zlen in *; lia).
  rewrite <- (app_nil_r (body E _ _)).
  rewrite (uloop_ok E HE) by (apply good_chunk_ok; exact G). cbn [uloop]. change (zlen (@nil byte) <? 16) with true. cbv iota.
  cbn [fst snd]. rewrite app_nil_r. unfold content. rewrite combine_snd by lia. reflexivity.
Qed.

Theorem list_too_long chunks n c l m oba obp oma f : pack_list_to_file E chunks n c l m oba obp oma = (f, Ok tt) -> 1 <= n <= zlen chunks ->
  bp_offsets (the_bpargs obp) = false ->
  unpack_core E f = (concat (firstn (Z.to_nat n) chunks), Ok (norm m)).
Proof.
  intros H [Hn Hl] Ho.
  destruct (list_file_any _ _ _ _ _ _ _ _ _ H Hn (or_intror Ho)) as (h & o & cs & tb & H1 & H2 & H3 & H4 & H5 & H6 & H7 & H8 & G & ->).
  rewrite unpack_parts by (auto; lia). pose proof (F2_length _ _ _ G) as LG.
  assert (G1 : Forall2 good (firstn (Z.to_nat n) chunks) (firstn (Z.to_nat n) cs)).
  { clear -G. revert cs G. generalize (Z.to_nat n). intros k. revert chunks. induction k as [|k IH]; intros ds cs G; [constructor|].
    destruct G; constructor; auto. }
  rewrite <- (firstn_skipn (Z.to_nat n) cs), map_app, concat_app, <- (combine_body (h_checksum h) _ _ G1).
  replace (Z.to_nat (h_nchunks h)) with (List.length (combine (firstn (Z.to_nat n) cs) (firstn (Z.to_nat n) chunks)) + 0)%nat
    by (rewrite combine_length, !firstn_length; unfold zlen in *; lia).
  rewrite (uloop_ok E HE) by (apply good_chunk_ok; exact G1). cbn [uloop fst snd rbind]. rewrite app_nil_r, H7. unfold content.
  rewrite combine_snd by (rewrite !firstn_length; lia). reflexivity.
Qed.

Lemma set_nth_short {A} k (v : A) xs : (List.length xs <= k)%nat -> set_nth k v xs = None.
Proof. revert k. induction xs as [|x xs IH]; intros [|k] H; cbn in *; try reflexivity; try lia. rewrite IH by lia. reflexivity. Qed.

Lemma pack_loop_app {Src Chunk Snk} (compress : Chunk -> res bytes) (put : Z -> bytes -> SM Snk unit) a b i s :
  pack_loop compress put i (a ++ b : list (SM Src Chunk)) s =
  match pack_loop compress put i a s with
  | (s', Ok _) => pack_loop compress put (i + zlen a) b s'
  | (s', Raise e) => (s', Raise e)
  end.
Proof.
  revert i s. induction a as [|st a IH]; intros i s; cbn [app pack_loop].
  - unfold ret. rewrite Z.add_0_r. reflexivity.
  - rewrite zlen_cons. unfold bind. destruct (onl st s) as [s1 [x|e]]; [|reflexivity].
    destruct (lift (compress x) s1) as [s2 [y|e]]; [|reflexivity].
    destruct (onr (put i y) s2) as [s3 [[]|e]]; [|reflexivity]. rewrite IH. destruct (pack_loop _ _ _ a s3) as [s4 [[]|e]]; [|reflexivity].
    replace (i + 1 + zlen a) with (i + (1 + zlen a)) by lia. reflexivity.
Qed.

Lemma loop_over ba a x b ca cx k : Forall2 (fun x c => compress_chunk_str E ba x = Ok c) a ca -> compress_chunk_str E ba x = Ok cx ->
  at_end (s_fp k) -> h_offsets (s_header k) = true -> s_storage k = zrep (zlen a) (-1) ->
  exists k', pack_loop (compress_chunk_str E ba) (fps_put E) 0 (map (@ret unit bytes) (a ++ x :: b)) (tt, k) = ((tt, k'), Raise IndexError).
Proof.
  intros HF HX HA Ho HS. rewrite map_app, pack_loop_app.
  rewrite (pack_loop_run E _ _ tt a tt ca k 0 [] 0 (yields_ret a) HF HA eq_refl)
    by (intros _; rewrite HS; unfold zrep, zlen; rewrite map_length; cbn [app]; f_equal; lia).
  rewrite Ho. cbn [app map pack_loop]. rewrite zlen_map. set (k1 := mkCFS _ _ _ _).
  assert (A1 : at_end (s_fp k1)) by (apply at_end_grow; exact HA).
  rewrite (bind_run _ _ _ (tt, k1) x) by reflexivity. rewrite (bind_lift _ _ _ _ HX).
  assert (P : exists k2, fps_put E (0 + zlen a) cx k1 = (k2, Raise IndexError)).
  { unfold fps_put. rewrite (bind_run _ _ k1 k1 (fpos (s_fp k1))).
    2:{ unfold on_fp, f_tell. destruct k1; reflexivity. }
    erewrite bind_run.
    2:{ unfold on_fp. rewrite do_checksum_digest by exact HE.
        rewrite write_compressed_chunk_end by exact A1. reflexivity. }
    cbn [s_header s_storage s_fp s_meta_total].
    change (h_offsets (s_header k1)) with (h_offsets (s_header k)). rewrite Ho. rewrite set_nth_short; [eexists; reflexivity|].
    unfold k1. cbn [s_storage]. rewrite app_nil_r. pose proof (zlen_pos_from (fpos (s_fp k)) (map (stored E (h_checksum (s_header k))) ca)) as Z1.
    apply F2_length in HF. rewrite zlen_map in Z1. unfold zlen in *. lia. }
  destruct P as [k2 P]. exists k2. unfold bind, onr. cbn [fst snd]. rewrite P. reflexivity.
Qed.

Theorem list_too_long_table chunks n c l m oba obp oma f r : pack_list_to_file E chunks n c l m oba obp oma = (f, r) ->
  1 <= n < zlen chunks -> bp_offsets (the_bpargs obp) = true ->
  r <> Ok tt /\
  (forall f0, pack_list_to_file E (firstn (Z.to_nat n) chunks) n c l m oba obp oma = (f0, Ok tt) -> Forall (fun x => size x <= BUFMAX) chunks -> r = Raise IndexError).
Proof.
  intros H [Hn Hl] Ho.
  assert (SP : exists a x b, chunks = a ++ x :: b /\ zlen a = n /\ firstn (Z.to_nat n) chunks = a).
  { pose proof (firstn_skipn (Z.to_nat n) chunks) as FS. destruct (skipn (Z.to_nat n) chunks) as [|x b] eqn:SK.
    - apply (f_equal (@List.length bytes)) in SK. rewrite skipn_length in SK. cbn in SK. unfold zlen in Hl. lia.
    - exists (firstn (Z.to_nat n) chunks), x, b. split; [symmetry; exact FS|]. split; [|reflexivity]. unfold zlen. rewrite firstn_length. unfold zlen in Hl. lia. }
  destruct SP as (a & x & b & -> & Za & FA). rewrite FA. clear FA Hl.
  unfold pack_list_to_file in *. rewrite pack_split in H. rewrite pack_split.
  destruct (pack_prefix _ _ _ _ _ _ _ _ _) as [k [oma'|e]] eqn:HP; [|split; [apply (f_equal snd) in H; cbn [fst snd rbind] in H; congruence|intros f0 H0; apply (f_equal snd) in H0; cbn [fst snd rbind] in H0; discriminate]].
  apply prefix_inv in HP as (h & o & -> & Hok & Hv & Hnc & Hho & Hmd & SO & V); auto.
  unfold pack_rest in *. cbn [mem_source ps_steps ps_compress fp_sink cs_put cs_finalize] in *.
  assert (A3 : at_end (s_fp (start_state h o))) by (apply at_end_grow; reflexivity).
  assert (S3 : s_storage (start_state h o) = zrep (zlen a) (-1)) by (unfold start_state; cbn [s_storage]; rewrite Hho, Ho, Hnc, Za; reflexivity).
  assert (O3 : h_offsets (s_header (start_state h o)) = true) by (cbn [start_state s_header]; congruence).
  assert (HLa : forall f0, (let '((_, k), r) := (pack_loop (compress_chunk_str E (the_bargs oba)) (fps_put E) 0 (map (@ret unit bytes) a) ;;;
       onr (fps_finalize E) ;;; ret oma') (tt, start_state h o) in (fdata (s_fp k), rbind r (fun _ => Ok tt))) = (f0, Ok tt) ->
       exists ca, Forall2 (fun x c => compress_chunk_str E (the_bargs oba) x = Ok c) a ca).
  { intros f0 HL. unfold bind at 1 in HL. destruct (pack_loop _ _ 0 (map ret a) (tt, start_state h o)) as [[[] k4] [[]|e]] eqn:E4; [|discriminate].
    apply pack_loop_inv in E4 as (ch & ca & HY & HF). apply ret_yields_det in HY. subst ch. eauto. }
  split.
  - intros ->. unfold bind at 1 in H. destruct (pack_loop _ _ 0 (map ret (a ++ x :: b)) (tt, start_state h o)) as [[[] k4] [[]|e]] eqn:E4; [|discriminate].
    pose proof E4 as E5. apply pack_loop_inv in E5 as (ch & cs & HY & HF). apply ret_yields_det in HY. subst ch.
    apply Forall2_app_inv_l in HF as (ca & cb & HFa & HFb & ->). inversion HFb as [|? cx ? cb' HX HFr]; subst.
    destruct (loop_over (the_bargs oba) a x b ca cx _ HFa HX A3 O3 S3) as [k' K]. rewrite K in E4. discriminate.
  - intros f0 H0 HB. destruct (HLa _ H0) as [ca HFa].
    assert (BA : blosc_args_ok E (the_bargs oba)).
    { destruct HFa as [|y cy a' ca' HY _]; [unfold zlen in Za; cbn in Za; lia|]. apply (ok_compress_only E HE) in HY. tauto. }
    apply Forall_app in HB as [_ HB]. inversion HB as [|? ? HBx _]; subst.
    destruct (ok_compress_total E HE _ x BA HBx) as [cx HX].
    destruct (loop_over (the_bargs oba) a x b ca cx _ HFa HX A3 O3 S3) as [k' K]. unfold bind at 1 in H. rewrite K in H. apply (f_equal snd) in H. cbn [fst snd rbind] in H. congruence.
Qed.
End WithEnv.
