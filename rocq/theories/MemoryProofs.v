(** Proofs about memory_io.py. *)
From Verif Require Import Base PyVal Checksums Headers Args FileIO MemoryIO Spec BaseLemmas HeaderProofs IOProofs WfProofs PackProofs SmallProofs BytesProofs MetaProofs.
From Coq Require Import ZifyBool ZifyNat.
Ltac Zify.zify_post_hook ::= Z.div_mod_to_equations.

Section WithEnv.
Variable E : Env.
Hypothesis HE : EnvOK E.

(** ** Packing *)
Definition stored_in (h : header) (cs : list bytes) (k : nat) (m : pyval) (ma : option margs) : cms :=
  mkCMS h (map Some cs ++ repeat None k) (map (fun c => Some (digest E (h_checksum h) c)) cs ++ repeat None k) m ma.

Lemma set_nth_at {A} (l : list A) v x r n : n = List.length l -> set_nth n v (l ++ x :: r) = Some (l ++ v :: r).
Proof. intros ->. apply set_nth_mid. Qed.
Lemma set_nth_out {A} (l : list A) v n : (List.length l <= n)%nat -> set_nth n v l = None.
Proof.
  revert n. induction l as [|x l IH]; intros [|n] H; cbn in *; try lia; try reflexivity. rewrite IH by lia. reflexivity.
Qed.

Lemma put_room h cs k m ma c i : i = zlen cs ->
  cms_put E i c (stored_in h cs (S k) m ma) = (stored_in h (cs ++ [c]) k m ma, Ok tt).
Proof.
  intros ->. unfold cms_put, stored_in. cbn [cm_chunks cm_digests cm_header cm_meta cm_margs repeat].
  unfold zlen. rewrite Nat2Z.id. rewrite !set_nth_at by (rewrite map_length; reflexivity).
  rewrite do_checksum_digest by exact HE. rewrite !map_app. cbn [map]. rewrite <- !app_assoc. reflexivity.
Qed.
Lemma put_full h cs m ma c i : i = zlen cs ->
  cms_put E i c (stored_in h cs 0 m ma) = (stored_in h cs 0 m ma, Raise IndexError).
Proof.
  intros ->. unfold cms_put, stored_in. cbn [cm_chunks repeat]. rewrite app_nil_r.
  unfold zlen. rewrite Nat2Z.id, set_nth_out by (rewrite map_length; lia). reflexivity.
Qed.

Lemma mem_loop a h m ma : forall chunks cs, Forall2 (fun x c => e_compress E a x = Ok c) chunks cs -> forall done k,
  pack_loop (compress_chunk_str E a) (cms_put E) (zlen done) (map (@ret unit bytes) chunks) (tt, stored_in h done k m ma) =
  if (List.length cs <=? k)%nat then ((tt, stored_in h (done ++ cs) (k - List.length cs) m ma), Ok tt)
  else ((tt, stored_in h (done ++ firstn k cs) 0 m ma), Raise IndexError).
Proof.
  induction 1 as [|x c chunks cs Hc _ IH]; intros done k.
  - cbn. rewrite app_nil_r, Nat.sub_0_r. reflexivity.
  - cbn [map pack_loop].
    rewrite (bind_run _ _ _ (tt, stored_in h done k m ma) x) by reflexivity.
    unfold compress_chunk_str at 1. rewrite (bind_lift _ _ _ _ Hc).
    destruct k as [|k].
    + erewrite bind_run_raise; [|apply onr_run, put_full; reflexivity].
      cbn. rewrite app_nil_r. reflexivity.
    + rewrite (bind_run _ _ _ _ _ (onr_run _ _ _ _ _ (put_room h done k m ma c _ eq_refl))). cbn [fst snd].
      replace (zlen done + 1) with (zlen (done ++ [c])) by (rewrite zlen_app; reflexivity).
      rewrite IH. cbn [List.length Nat.leb Nat.sub firstn]. rewrite <- !app_assoc. reflexivity.
Qed.

(** what pack leaves in the sink *)
Lemma mem_pack_run chunks cs n c l m oba obp oma v h :
  handle_max_apps (bp_offsets (the_bpargs obp)) n (bp_max_app (the_bpargs obp)) = Ok v ->
  mk_header 3 (bp_offsets (the_bpargs obp)) (negb (is_none m)) (bp_checksum (the_bpargs obp))
            (ba_typesize (the_bargs oba)) c l n v = Ok h ->
  Forall2 (fun x z => e_compress E (the_bargs oba) x = Ok z) chunks cs ->
  pack (mem_source E chunks) (mem_sink E) n c l m oba obp oma (tt, cms_new) =
  (let ma := if is_none m then None else Some (the_margs oma) in
   if (List.length cs <=? Z.to_nat n)%nat
   then ((tt, stored_in h cs (Z.to_nat n - List.length cs) m ma), Ok (if is_none m then oma else ma))
   else ((tt, stored_in h (firstn (Z.to_nat n) cs) 0 m ma), Raise IndexError)).
Proof.
  intros H1 H2 HF. unfold pack. fold (the_bargs oba) (the_bpargs obp) (the_margs oma).
  rewrite (bind_lift _ _ _ _ H1). unfold FORMAT_VERSION. rewrite (bind_lift _ _ _ _ H2).
  cbn [mem_sink cs_configure cs_write_header cs_write_metadata cs_init_offsets cs_put cs_finalize].
  apply mk_header_Ok in H2 as (_ & _ & ck & _ & Hh).
  assert (Hn : h_nchunks h = n) by (subst h; reflexivity).
  rewrite (bind_run _ _ _ (tt, stored_in h [] (Z.to_nat n) PNone None) tt).
  2:{ cbn [fst snd]. unfold cms_configure, stored_in, zrep. rewrite Hn. reflexivity. }
  rewrite (bind_run _ _ _ (tt, stored_in h [] (Z.to_nat n) PNone None) tt) by reflexivity.
  set (ma := if is_none m then None else Some (the_margs oma)).
  rewrite (bind_run _ _ _ (tt, stored_in h [] (Z.to_nat n) m ma) (if is_none m then oma else ma)).
  2:{ unfold ma. destruct m; reflexivity. }
  rewrite (bind_run _ _ _ (tt, stored_in h [] (Z.to_nat n) m ma) tt) by reflexivity.
  pose proof (mem_loop (the_bargs oba) h m ma chunks cs HF [] (Z.to_nat n)) as L.
  change (zlen (@nil bytes)) with 0 in L. cbn [app] in L. cbn [mem_source ps_steps ps_compress].
  destruct (List.length cs <=? Z.to_nat n)%nat.
  - rewrite (bind_run _ _ _ _ _ L). reflexivity.
  - rewrite (bind_run_raise _ _ _ _ _ L). reflexivity.
Qed.

Lemma mem_pack_inv chunks n c l m oba obp oma s r :
  pack (mem_source E chunks) (mem_sink E) n c l m oba obp oma (tt, cms_new) = ((tt, s), Ok r) ->
  exists cs h, Forall2 (fun x z => e_compress E (the_bargs oba) x = Ok z) chunks cs /\ h_nchunks h = n /\
    zlen chunks <= Z.max 0 n /\
    s = stored_in h cs (Z.to_nat n - List.length cs) m (if is_none m then None else Some (the_margs oma)).
Proof.
  intros H.
  assert (exists v, handle_max_apps (bp_offsets (the_bpargs obp)) n (bp_max_app (the_bpargs obp)) = Ok v) as [v H1].
  { unfold pack in H. fold (the_bpargs obp) in H. destruct (handle_max_apps _ _ _) as [v|e]; [eauto|].
    unfold bind, lift in H. discriminate. }
  assert (exists h, mk_header 3 (bp_offsets (the_bpargs obp)) (negb (is_none m)) (bp_checksum (the_bpargs obp))
            (ba_typesize (the_bargs oba)) c l n v = Ok h) as [h H2].
  { unfold pack in H. fold (the_bpargs obp) in H. rewrite (bind_lift _ _ _ _ H1) in H. unfold FORMAT_VERSION in H.
    fold (the_bargs oba) in H. destruct (mk_header _ _ _ _ _ _ _ _ _) as [h|e]; [eauto|].
    unfold bind, lift in H. discriminate. }
  assert (exists cs, Forall2 (fun x z => e_compress E (the_bargs oba) x = Ok z) chunks cs) as [cs HF].
  { unfold pack in H. fold (the_bargs oba) (the_bpargs obp) (the_margs oma) in H.
    rewrite (bind_lift _ _ _ _ H1) in H. unfold FORMAT_VERSION in H. rewrite (bind_lift _ _ _ _ H2) in H.
    cbn [mem_sink cs_configure cs_write_header cs_write_metadata cs_init_offsets cs_put cs_finalize] in H.
    apply bind_Ok in H as (s1 & [] & _ & H). apply bind_Ok in H as (s2 & [] & _ & H).
    apply bind_Ok in H as (s3 & o & _ & H). apply bind_Ok in H as (s4 & [] & _ & H).
    apply bind_Ok in H as (s5 & [] & H & _). cbn [mem_source ps_steps ps_compress] in H. revert H. clear. revert s4.
    generalize 0. induction chunks as [|x chunks IH]; intros i s4 H; [exists []; constructor|].
    cbn [map pack_loop] in H. apply bind_Ok in H as (s6 & y & Hy & H). unfold onl, ret in Hy. injection Hy as <- <-.
    apply bind_Ok in H as (s7 & z & Hz & H). unfold compress_chunk_str, lift in Hz.
    apply bind_Ok in H as (s8 & [] & _ & H). apply IH in H as [cs HF].
    exists (z :: cs). constructor; [|exact HF]. destruct (e_compress _ _ _); congruence. }
  rewrite (mem_pack_run chunks cs n c l m oba obp oma v h H1 H2 HF) in H.
  apply mk_header_Ok in H2 as (_ & _ & ck & _ & Hh).
  exists cs, h. split; [exact HF|]. split; [subst h; reflexivity|].
  cbv zeta in H. destruct (List.length cs <=? Z.to_nat n)%nat eqn:L; [|discriminate]. injection H as <- _.
  apply F2_length in HF. split; [unfold zlen; lia|reflexivity].
Qed.

(** ** Unpacking *)
(** the sink holds the chunks [l] and has room for [k] more *)
Definition holds (s : pms) (l : list bytes) (k : nat) : Prop :=
  match s with
  | PMgrow x => x = map Some l
  | PMfixed x i => x = map Some l ++ repeat None k /\ i = List.length l
  end.
Lemma holds_put s l k c x : holds s l (S k) -> e_decompress E c = Ok x ->
  exists s', pms_put E c s = (s', Ok (zlen x)) /\ holds s' (l ++ [x]) k /\ (match s, s' with PMgrow _, PMgrow _ | PMfixed _ _, PMfixed _ _ => True | _, _ => False end).
Proof.
  intros H Hd. unfold pms_put. rewrite Hd. destruct s as [y i|y]; cbn [holds] in H.
  - destruct H as [-> ->]. cbn [repeat]. rewrite set_nth_at by (rewrite map_length; reflexivity).
    eexists. split; [reflexivity|]. split; [|exact I]. cbn [holds]. rewrite map_app, <- app_assoc, app_length. cbn. split; [reflexivity|lia].
  - subst y. eexists. split; [reflexivity|]. split; [|exact I]. cbn [holds]. rewrite map_app. reflexivity.
Qed.

Definition kind (s s' : pms) : Prop := match s, s' with PMgrow _, PMgrow _ | PMfixed _ _, PMfixed _ _ => True | _, _ => False end.
Lemma kind_trans s t r : kind s t -> kind t r -> kind s r.
Proof. destruct s, t, r; cbn; tauto. Qed.
Lemma kind_refl s : kind s s.
Proof. destruct s; exact I. Qed.

(** [n] rounds over slots that hold well-digested chunks *)
Lemma mem_rounds s ck : forall cs xs i t l k,
  (forall j c, nth_error cs j = Some c ->
     nth_error (cm_chunks s) (i + j) = Some (Some c) /\ nth_error (cm_digests s) (i + j) = Some (Some (digest E ck c))) ->
  Forall2 (fun x c => e_decompress E c = Ok x) xs cs -> holds t l (List.length cs + k) ->
  exists t', holds t' (l ++ xs) k /\ kind t t' /\
    forall n, unpack_loop E (mem_next s) ck (pms_put E) (List.length cs + n) (i, t) =
              unpack_loop E (mem_next s) ck (pms_put E) n ((i + List.length cs)%nat, t').
Proof.
  induction cs as [|c cs IH]; intros xs i t l k Hs HF Ht.
  - inversion HF; subst. exists t. rewrite app_nil_r, Nat.add_0_r. cbn in *. auto using kind_refl.
  - inversion HF as [|x ? xs' ? Hx HF']; subst.
    destruct (Hs O c eq_refl) as [N1 N2]. rewrite Nat.add_0_r in N1, N2.
    destruct (holds_put t l (List.length cs + k) c x Ht Hx) as (t1 & P1 & H1 & K1).
    destruct (IH xs' (S i) t1 (l ++ [x]) k) as (t' & Ht' & K' & L); auto.
    { intros j d Hj. replace (S i + j)%nat with (i + S j)%nat by lia. apply Hs. exact Hj. }
    exists t'. split; [rewrite <- app_assoc in Ht'; exact Ht'|]. split; [eapply kind_trans; eauto|]. intros n.
    replace (i + List.length (c :: cs))%nat with (S i + List.length cs)%nat by (cbn; lia). rewrite <- L.
    cbn [List.length Nat.add unpack_loop].
    rewrite (bind_run _ _ _ (S i, t) (c, Some (digest E ck c))).
    2:{ apply onl_run. unfold mem_next. rewrite N1, N2. reflexivity. }
    cbn [fst snd]. rewrite bytes_eqb_refl.
    rewrite (bind_run _ _ _ (S i, t) tt) by (destruct (truthy _); reflexivity).
    rewrite (bind_run _ _ _ _ _ (onr_run _ _ _ _ _ P1)). reflexivity.
Qed.

Lemma nth_app_map {A B} (f : A -> B) l r j x : nth_error l j = Some x -> nth_error (map f l ++ r) j = Some (f x).
Proof.
  intros H. rewrite nth_error_app1 by (rewrite map_length; apply nth_error_Some; congruence).
  apply map_nth_error. exact H.
Qed.
Lemma nth_after {A} (l r : list A) j : nth_error (l ++ r) (List.length l + j) = nth_error r j.
Proof. rewrite nth_error_app2 by lia. f_equal. lia. Qed.

Lemma decompressed a chunks cs : Forall2 (fun x z => e_compress E a x = Ok z) chunks cs ->
  Forall2 (fun x c => e_decompress E c = Ok x) chunks cs.
Proof. induction 1; constructor; auto. eapply ok_decompress; eauto. Qed.

Lemma mem_unpack_stored h cs xs k m ma t l r : Forall2 (fun x c => e_decompress E c = Ok x) xs cs ->
  h_nchunks h = zlen cs + Z.of_nat k -> holds t l (List.length cs + r) ->
  exists t', holds t' (l ++ xs) r /\ kind t t' /\
    mem_unpack E (stored_in h cs k m ma) (O, t) =
      match k with
      | O => ((List.length cs, t'), Ok tt)
      | S _ => ((S (List.length cs), t'), Raise TypeError)
      end.
Proof.
  intros HF Hn Ht. unfold mem_unpack. cbn [stored_in cm_header]. rewrite Hn.
  destruct (mem_rounds (stored_in h cs k m ma) (h_checksum h) cs xs O t l r) as (t' & Ht' & K & L); auto.
  { intros j c Hj. cbn [stored_in cm_chunks cm_digests Nat.add]. split.
    - apply nth_app_map. exact Hj.
    - apply (nth_app_map (fun c => Some (digest E (h_checksum h) c))). exact Hj. }
  exists t'. split; [exact Ht'|]. split; [exact K|].
  replace (Z.to_nat (zlen cs + Z.of_nat k)) with (List.length cs + k)%nat by (unfold zlen; lia).
  cbn [stored_in cm_header] in L |- *. unfold stored_in in L |- *. rewrite L. cbn [Nat.add]. destruct k as [|k]; [reflexivity|].
  cbn [unpack_loop]. erewrite bind_run_raise; [reflexivity|]. apply onl_run. unfold mem_next. cbn [cm_chunks cm_digests].
  pose proof (nth_after (map Some cs) (repeat None (S k)) 0) as N1.
  pose proof (nth_after (map (fun c => Some (digest E (h_checksum h) c)) cs) (repeat None (S k)) 0) as N2.
  rewrite map_length, Nat.add_0_r in N1, N2. rewrite N1, N2. reflexivity.
Qed.

Lemma holds_chunks t l : holds t l 0 -> pms_chunks t = map Some l.
Proof. destruct t; cbn; [intros [-> _]; apply app_nil_r|auto]. Qed.
Lemma holds_new_grow k : holds (pms_new None) [] k.
Proof. reflexivity. Qed.
Lemma holds_new n : holds (pms_new (Some n)) [] (Z.to_nat n).
Proof. cbn. auto. Qed.

Theorem mem_roundtrip chunks n c l m oba obp oma s r :
  pack (mem_source E chunks) (mem_sink E) n c l m oba obp oma (tt, cms_new) = ((tt, s), Ok r) -> zlen chunks = n ->
  cm_meta s = m /\ h_nchunks (cm_header s) = n /\
  forall t, t = pms_new None \/ t = pms_new (Some n) ->
  exists i t', mem_unpack E s (O, t) = ((i, t'), Ok tt) /\ pms_chunks t' = map Some chunks.
Proof.
  intros H Hn. apply mem_pack_inv in H as (cs & h & HF & Hh & Hl & ->).
  cbn [stored_in cm_meta cm_header]. split; [reflexivity|]. split; [exact Hh|]. intros t Ht.
  pose proof (F2_length _ _ _ HF) as LF. replace (Z.to_nat n - List.length cs)%nat with O by (unfold zlen in *; lia).
  destruct (mem_unpack_stored h cs chunks 0 m (if is_none m then None else Some (the_margs oma)) t [] 0) as (t' & H' & _ & U).
  - apply (decompressed _ _ _ HF).
  - rewrite Hh. unfold zlen in *. lia.
  - destruct Ht as [-> | ->]; [apply holds_new_grow|].
    replace (List.length cs + 0)%nat with (Z.to_nat n) by (unfold zlen in *; lia). apply holds_new.
  - cbn [app] in H'. eexists _, t'. split; [exact U|]. apply holds_chunks. exact H'.
Qed.

(** chunks missing at the end are noticed, chunks in excess refused *)
Theorem mem_too_few chunks n c l m oba obp oma s r t :
  pack (mem_source E chunks) (mem_sink E) n c l m oba obp oma (tt, cms_new) = ((tt, s), Ok r) -> zlen chunks < n ->
  t = pms_new None \/ t = pms_new (Some n) ->
  exists st, mem_unpack E s (O, t) = (st, Raise TypeError).
Proof.
  intros H Hn Ht. apply mem_pack_inv in H as (cs & h & HF & Hh & Hl & ->).
  pose proof (F2_length _ _ _ HF) as LF.
  destruct (Z.to_nat n - List.length cs)%nat as [|k] eqn:K; [unfold zlen in *; lia|].
  destruct (mem_unpack_stored h cs chunks (S k) m (if is_none m then None else Some (the_margs oma)) t [] (S k)) as (t' & H' & _ & U).
  - apply (decompressed _ _ _ HF).
  - rewrite Hh. unfold zlen in *. lia.
  - destruct Ht as [-> | ->]; [apply holds_new_grow|].
    replace (List.length cs + S k)%nat with (Z.to_nat n) by (unfold zlen in *; lia). apply holds_new.
  - eexists. exact U.
Qed.

Theorem mem_accepts (chunks : list bytes) n c l m oba obp oma ck :
  -1 <= c <= BUFMAX -> -1 <= l <= BUFMAX -> (c = -1 \/ l <= c) -> 0 <= n <= 2 ^ 63 - 1 ->
  blosc_args_ok E (the_bargs oba) -> bp_checksum (the_bpargs obp) = cks_name ck ->
  (bp_offsets (the_bpargs obp) = true -> exists v, reserve_of (bp_max_app (the_bpargs obp)) n v /\ 0 <= v <= 2 ^ 63 - 1) ->
  Forall (fun x => zlen x <= BUFMAX) chunks ->
  let res := pack (mem_source E chunks) (mem_sink E) n c l m oba obp oma (tt, cms_new) in
  (zlen chunks <= n -> exists s r, res = ((tt, s), Ok r)) /\
  (n < zlen chunks -> exists s, res = (s, Raise IndexError)).
Proof.
  intros Hc Hl Hcl Hn HA Hck Hr HB.
  assert (exists v, handle_max_apps (bp_offsets (the_bpargs obp)) n (bp_max_app (the_bpargs obp)) = Ok v) as [v H1].
  { destruct (bp_offsets (the_bpargs obp)) eqn:Ho.
    - destruct (Hr eq_refl) as (v & V1 & V2). eexists. apply max_apps_reserve; eauto; lia.
    - eexists. apply max_apps_unused; [lia|auto]. }
  pose proof (max_apps_sum _ _ _ _ H1) as [V0 V1].
  assert (H2 : exists h, mk_header 3 (bp_offsets (the_bpargs obp)) (negb (is_none m)) (bp_checksum (the_bpargs obp))
            (ba_typesize (the_bargs oba)) c l n v = Ok h).
  { rewrite Hck. eexists. apply mk_header_intro; [lia|]. unfold header_nums_ok. destruct HA as (? & _).
    assert (n <> -1) by lia. specialize (V1 H0). lia. }
  destruct H2 as [h H2].
  assert (exists cs, Forall2 (fun x z => e_compress E (the_bargs oba) x = Ok z) chunks cs) as [cs HF].
  { induction HB as [|x chunks Hx _ [cs IH]]; [exists []; constructor|].
    destruct (ok_compress_total E HE (the_bargs oba) x HA Hx) as [z Hz]. exists (z :: cs). constructor; auto. }
  pose proof (F2_length _ _ _ HF) as LF.
  cbv zeta. rewrite (mem_pack_run chunks cs n c l m oba obp oma v h H1 H2 HF). cbv zeta.
  split; intros Hz; destruct (List.length cs <=? Z.to_nat n)%nat eqn:L; try (unfold zlen in *; lia).
  - eexists _, _. reflexivity.
  - eexists. reflexivity.
Qed.

(** a chunk changed in memory is noticed before it is decompressed *)
Theorem mem_tampered chunks n c l m oba obp oma s r t j bad x :
  pack (mem_source E chunks) (mem_sink E) n c l m oba obp oma (tt, cms_new) = ((tt, s), Ok r) ->
  t = pms_new None \/ t = pms_new (Some n) ->
  nth_error (cm_chunks s) j = Some (Some x) ->
  digest E (h_checksum (cm_header s)) bad <> digest E (h_checksum (cm_header s)) x ->
  exists l', set_nth j (Some bad) (cm_chunks s) = Some l' /\
  exists i t', mem_unpack E (mkCMS (cm_header s) l' (cm_digests s) (cm_meta s) (cm_margs s)) (O, t) = ((i, t'), Raise ChecksumMismatch) /\
    exists k, pms_chunks t' = map Some (firstn j chunks) ++ repeat None k.
Proof.
  intros H Ht Hj Hd. apply mem_pack_inv in H as (cs & h & HF & Hh & Hl & ->).
  cbn [stored_in cm_header cm_chunks cm_digests cm_meta cm_margs] in *.
  pose proof (F2_length _ _ _ HF) as LF.
  set (k := (Z.to_nat n - List.length cs)%nat) in *.
  assert (Hjl : (j < List.length cs)%nat).
  { destruct (Nat.lt_ge_cases j (List.length cs)) as [?|Hge]; auto. exfalso.
    rewrite nth_error_app2 in Hj by (rewrite map_length; lia). apply nth_error_In in Hj. apply repeat_spec in Hj. discriminate. }
  destruct (nth_error_split cs j) with (a := x) as (pre & post & Hcs & Hp).
  { rewrite nth_error_app1 in Hj by (rewrite map_length; lia). rewrite nth_error_map in Hj. destruct (nth_error cs j); cbn in Hj; congruence. }
  assert (SN : set_nth j (Some bad) (map Some cs ++ repeat None k) = Some (map Some pre ++ Some bad :: map Some post ++ repeat None k)).
  { rewrite Hcs, map_app, <- app_assoc. cbn [map app]. apply set_nth_at. rewrite map_length. auto. }
  eexists. split; [exact SN|].
  assert (HFp : Forall2 (fun x c => e_decompress E c = Ok x) (firstn j chunks) pre).
  { pose proof (decompressed _ _ _ HF) as D. rewrite Hcs in D. apply Forall2_app_inv_r in D as (a1 & a2 & D1 & _ & ->).
    pose proof (F2_length _ _ _ D1) as LD. rewrite <- Hp, <- LD, firstn_app, Nat.sub_diag, firstn_all. cbn. rewrite app_nil_r. exact D1. }
  set (s' := mkCMS h _ _ m _). 
  assert (exists q, holds t [] (List.length pre + q)) as [q Hq].
  { destruct Ht as [-> | ->]; [exists O; apply holds_new_grow|]. exists (Z.to_nat n - List.length pre)%nat.
    replace (List.length pre + _)%nat with (Z.to_nat n) by (unfold zlen in *; lia). apply holds_new. }
  destruct (mem_rounds s' (h_checksum h) pre (firstn j chunks) O t [] q) as (t' & Ht' & K & L); auto.
  { intros i z Hi. cbn [s' cm_chunks cm_digests Nat.add]. split; [apply nth_app_map; exact Hi|].
    rewrite Hcs, map_app, <- app_assoc. apply (nth_app_map (fun c => Some (digest E (h_checksum h) c))). exact Hi. }
  exists (S (List.length pre)), t'. split.
  - unfold mem_unpack. change (cm_header s') with h. rewrite Hh.
    assert (Z.to_nat n = (List.length pre + S (Z.to_nat n - List.length pre - 1))%nat) as -> by (unfold zlen in *; lia).
    rewrite L. cbn [unpack_loop Nat.add].
    rewrite (bind_run _ _ _ (S (List.length pre), t') (bad, Some (digest E (h_checksum h) x))).
    2:{ apply onl_run. unfold mem_next. cbn [s' cm_chunks cm_digests].
        rewrite Hcs, map_app, <- app_assoc. cbn [map app].
        pose proof (nth_after (map Some pre) (Some bad :: map Some post ++ repeat None k) 0) as N1.
        pose proof (nth_after (map (fun c => Some (digest E (h_checksum h) c)) pre)
          (Some (digest E (h_checksum h) x) :: map (fun c => Some (digest E (h_checksum h) c)) post ++ repeat None k) 0) as N2.
        rewrite map_length, Nat.add_0_r in N1, N2. rewrite N1, N2. reflexivity. }
    cbn [fst snd].
    assert (LX : forall y, zlen (digest E (h_checksum h) y) = cks_size (h_checksum h)) by (intros; apply zlen_digest; exact HE).
    destruct (digest E (h_checksum h) x) as [|b0 dx] eqn:DX.
    { exfalso. pose proof (LX x) as L1. pose proof (LX bad) as L2. rewrite DX in L1. change (zlen (@nil byte)) with 0 in L1.
      destruct (digest E (h_checksum h) bad) as [|b1 dy]; [congruence|]. rewrite zlen_cons in L2. pose proof (zlen_nonneg dy). lia. }
    cbn [truthy]. destruct (bytes_eqb (b0 :: dx) (digest E (h_checksum h) bad)) eqn:B.
    + apply bytes_eqb_eq in B. congruence.
    + erewrite bind_run_raise; reflexivity.
  - destruct t' as [y i|y]; cbn [holds pms_chunks app] in *.
    + destruct Ht' as [-> _]. exists q. reflexivity.
    + subst y. exists O. rewrite app_nil_r. reflexivity.
Qed.
End WithEnv.
