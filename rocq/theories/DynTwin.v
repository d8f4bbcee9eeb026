(** Proofs: packing with any value as 'offsets' makes the same file as packing with its
    truth value, except for the options byte of the header. *)
From Verif Require Import Base PyVal Checksums Headers Pretty Args FileIO Cli Objects Dynamic Spec DynSpec BaseLemmas HeaderProofs IOProofs DynProofs DynPackProofs.
From Coq Require Import ZifyBool ZifyNat.
Local Ltac Zify.zify_post_hook ::= Z.div_mod_to_equations.

Section Env.
Context (E : Env) (x : byte).

Lemma write_at_app u r p z : zlen u <= p -> write_at (u ++ r) p z = u ++ write_at r (p - zlen u) z.
Proof.
  intros H. unfold write_at. destruct z as [|b z]; [reflexivity|]. rewrite ztake_app_ge, zlen_app, <- app_assoc by lia.
  f_equal. f_equal. replace (p - (zlen u + zlen r)) with (p - zlen u - zlen r) by lia. f_equal.
  rewrite zdrop_app_ge by (unfold zlen in *; cbn [List.length]; lia). f_equal. f_equal. lia.
Qed.

(** Two files that differ at most in byte 5, both written from byte 6 on. *)
Definition twinf (f g : fp) : Prop :=
  fpos g = fpos f /\ 6 <= fpos f /\
  exists a y r, zlen a = 5 /\ fdata f = (a ++ [y]) ++ r /\ fdata g = (a ++ [x]) ++ r.
Definition keepf {A} (m : SM fp A) : Prop :=
  forall f g, twinf f g -> twinf (fst (m f)) (fst (m g)) /\ snd (m g) = snd (m f).
Definition twin (s t : cfs) : Prop :=
  twinf (s_fp s) (s_fp t) /\ s_meta_total t = s_meta_total s /\ 0 <= s_meta_total s /\ s_header t = s_header s /\ s_storage t = s_storage s.
Definition keep {A} (m : SM cfs A) : Prop :=
  forall s t, twin s t -> twin (fst (m s)) (fst (m t)) /\ snd (m t) = snd (m s).

Lemma keepf_write z : keepf (f_write z).
Proof.
  intros f g (P & P6 & a & y & r & La & Df & Dg). cbn [f_write fst snd]. split; auto. unfold twinf. cbn [fpos fdata].
  rewrite P. split; auto. split; [unfold zlen; lia|]. exists a, y, (write_at r (fpos f - 6) z). split; auto.
  assert (L : forall w : byte, zlen (a ++ [w]) = 6) by (intros w; rewrite zlen_app, La; reflexivity).
  rewrite Df, Dg, !write_at_app by (rewrite L; lia). rewrite !L. auto.
Qed.
Lemma keepf_seek p : 6 <= p -> keepf (f_seek E p).
Proof.
  intros H f g (P & P6 & T). unfold f_seek. replace (p <? 0) with false by lia. cbn [fst snd]. split; auto.
  unfold twinf. cbn [fpos fdata]. auto.
Qed.
Lemma keepf_ret {A} (v : A) : keepf (ret v).
Proof. intros f g T. cbn. auto. Qed.
Lemma keepf_raise {A} e : keepf (@raise fp A e).
Proof. intros f g T. cbn. auto. Qed.
Lemma keepf_lift {A} (r : res A) : keepf (lift r).
Proof. intros f g T. unfold lift. destruct r; cbn; auto. Qed.
Lemma keepf_tell : keepf f_tell.
Proof. intros f g T. cbn. split; auto. destruct T as (-> & _). reflexivity. Qed.
Lemma keepf_bind {A B} (m : SM fp A) (k : A -> SM fp B) : keepf m -> (forall a, keepf (k a)) -> keepf (bind m k).
Proof.
  intros Hm Hk f g T. destruct (Hm f g T) as [T' R]. unfold bind. destruct (m f) as [f' rf], (m g) as [g' rg]. cbn [fst snd] in *. subst rg.
  destruct rf as [a|e]; cbn [fst snd]; auto. apply Hk, T'.
Qed.
Lemma keep_bind {A B} (m : SM cfs A) (k : A -> SM cfs B) : keep m -> (forall a, keep (k a)) -> keep (bind m k).
Proof.
  intros Hm Hk f g T. destruct (Hm f g T) as [T' R]. unfold bind. destruct (m f) as [f' rf], (m g) as [g' rg]. cbn [fst snd] in *. subst rg.
  destruct rf as [a|e]; cbn [fst snd]; auto. apply Hk, T'.
Qed.
Lemma keep_on {A} (m : SM fp A) : keepf m -> keep (on_fp m).
Proof.
  intros H s t (T & T1 & T2 & T3 & T4). destruct (H _ _ T) as [T' R]. unfold on_fp.
  destruct (m (s_fp s)) as [f' rf], (m (s_fp t)) as [g' rg]. cbn [fst snd] in *. subst rg. split; auto.
  unfold twin. cbn [s_fp s_meta_total s_header s_storage]. auto.
Qed.

Lemma meta_total m a f f' n b : write_metadata E m a f = (f', Ok (n, b)) -> 0 <= n.
Proof.
  unfold write_metadata. intros H. unfold lift at 1 in H. unfold bind at 1 in H.
  destruct (plan_metadata E m a) as [[[h p] a']|e] eqn:P; [|discriminate].
  assert (M : 0 <= mh_max h /\ 0 <= cks_size (mh_checksum h)).
  { split; [|destruct (mh_checksum h); vm_compute; discriminate].
    unfold plan_metadata in P. apply rbind_Ok in P as (u1 & _ & P). apply rbind_Ok in P as (raw & _ & P). cbv zeta in P.
    apply rbind_Ok in P as ([p' a''] & _ & P). apply rbind_Ok in P as (mx & _ & P). destruct (mx <? zlen p'); [discriminate|].
    apply rbind_Ok in P as (co & _ & P). apply rbind_Ok in P as (h' & Q & P). injection P as <- <- <-.
    apply mk_mheader_Ok in Q as (Q & _). apply Q. }
  apply (f_equal snd) in H. cbn [snd] in H.
  unfold lift in H. unfold bind in H. destruct (mheader_encode h); [|discriminate].
  cbn [f_write f_write_nulls ret] in H. unfold f_write, f_write_nulls in H. unfold f_write in H.
  destruct (cks_eqb (mh_checksum h) CkNone); cbn [ret] in H; unfold ret in H; cbn [snd] in H; unfold METADATA_HEADER_LENGTH in H; apply Ok_inj in H; apply (f_equal fst) in H; cbn [fst] in H; rewrite <- H; lia.
Qed.

Lemma keep_metadata m a : keep (fps_write_metadata E m a).
Proof.
  intros s t T. unfold fps_write_metadata.
  assert (K : keep (on_fp (write_metadata E m a))).
  { apply keep_on. unfold write_metadata. apply keepf_bind; [apply keepf_lift|]. intros [[h p] a'].
    apply keepf_bind; [apply keepf_lift|]. intros raw. unfold f_write_nulls.
    repeat (apply keepf_bind; [solve [apply keepf_write | destruct (cks_eqb _ _); [apply keepf_ret|apply keepf_write]]|intros _]).
    apply keepf_ret. }
  destruct (K s t T) as [T' R]. unfold bind. unfold on_fp in *.
  destruct (write_metadata E m a (s_fp s)) as [f' rf] eqn:Wf, (write_metadata E m a (s_fp t)) as [g' rg] eqn:Wg.
  cbn [fst snd] in *. subst rg. destruct rf as [[n b]|e]; cbn [fst snd]; auto. split; auto.
  apply meta_total in Wf. destruct T' as (T1 & T2 & T3 & T4 & T5). unfold twin. cbn [s_fp s_meta_total s_header s_storage] in *.
  rewrite T2. repeat split; auto; try apply T1. lia.
Qed.
Lemma keep_init : keep fps_init_offsets.
Proof.
  intros s t T. pose proof T as (T1 & T2 & T3 & T4 & T5). unfold fps_init_offsets. rewrite T4.
  destruct (h_offsets (s_header s)); [|cbn; auto].
  assert (T' : twin (mkCFS (s_fp s) (s_meta_total s) (s_header s) (zrep (h_nchunks (s_header s)) (-1)))
                    (mkCFS (s_fp t) (s_meta_total t) (s_header s) (zrep (h_nchunks (s_header s)) (-1))))
    by (unfold twin; cbn [s_fp s_meta_total s_header s_storage]; auto).
  destruct (total_prospective_chunks (s_header s)); [|cbn; auto]. apply (keep_on _ (keepf_write _)), T'.
Qed.
Lemma keep_put i c : keep (fps_put E i c).
Proof.
  unfold fps_put. apply keep_bind; [apply keep_on, keepf_tell|]. intros off. apply keep_bind.
  - intros s t T. pose proof T as (T1 & T2 & T3 & T4 & T5). rewrite T4.
    apply (keep_on (write_compressed_chunk c (do_checksum E (h_checksum (s_header s)) c))); auto.
    unfold write_compressed_chunk. apply keepf_bind; [apply keepf_write|]. intros _. destruct (0 <? _); [apply keepf_write|apply keepf_ret].
  - intros _ s t T. pose proof T as (T1 & T2 & T3 & T4 & T5). rewrite T4, T5. destruct (h_offsets (s_header s)); [|cbn; auto].
    destruct (set_nth _ _ _); cbn [fst snd]; auto. split; auto. unfold twin. cbn [s_fp s_meta_total s_header s_storage]. auto.
Qed.
Lemma keep_finalize : keep (fps_finalize E).
Proof.
  intros s t T. pose proof T as (T1 & T2 & T3 & T4 & T5). unfold fps_finalize. rewrite T4, T5, T2. destruct (h_offsets (s_header s)); [|cbn; auto].
  apply (keep_on (f_seek E (BLOSCPACK_HEADER_LENGTH + s_meta_total s) ;;; write_offsets (s_storage s))); auto.
  apply keepf_bind; [apply keepf_seek; unfold BLOSCPACK_HEADER_LENGTH; lia|]. intros _. unfold write_offsets.
  apply keepf_bind; [apply keepf_lift|]. intros b. apply keepf_write.
Qed.

(** Pairs of a source and a sink. *)
Definition keep2 {A} (m : SM (fp * cfs) A) : Prop :=
  forall f s t, twin s t -> fst (fst (m (f, t))) = fst (fst (m (f, s))) /\ twin (snd (fst (m (f, s)))) (snd (fst (m (f, t)))) /\
                            snd (m (f, t)) = snd (m (f, s)).
Lemma keep2_bind {A B} (m : SM (fp * cfs) A) (k : A -> SM (fp * cfs) B) : keep2 m -> (forall a, keep2 (k a)) -> keep2 (bind m k).
Proof.
  intros Hm Hk f s t T. destruct (Hm f s t T) as (T1 & T2 & T3). unfold bind.
  destruct (m (f, s)) as [[f' s'] r], (m (f, t)) as [[g' t'] q]. cbn [fst snd] in *. subst g' q.
  destruct r as [a|e]; cbn [fst snd]; auto. apply Hk, T2.
Qed.
Lemma keep2_onr {A} (m : SM cfs A) : keep m -> keep2 (onr m).
Proof.
  intros H f s t T. destruct (H s t T) as (T1 & T2). unfold onr. cbn [fst snd].
  destruct (m s) as [s' r], (m t) as [t' q]. cbn [fst snd] in *. subst. auto.
Qed.
Lemma keep2_onl {A} (m : SM fp A) : keep2 (onl m).
Proof. intros f s t T. unfold onl. cbn [fst snd]. destruct (m f) as [f' r]. cbn [fst snd]. auto. Qed.
Lemma keep2_lift {A} (r : res A) : keep2 (lift r).
Proof. intros f s t T. unfold lift. destruct r; cbn; auto. Qed.
Lemma keep2_ret {A} (v : A) : keep2 (ret v).
Proof. intros f s t T. cbn; auto. Qed.
Lemma keep2_loop {C} (compress : C -> res bytes) steps : forall i, keep2 (pack_loop compress (fps_put E) i steps).
Proof.
  induction steps as [|st r IH]; intros i; cbn [pack_loop]; [apply keep2_ret|].
  apply keep2_bind; [apply keep2_onl|]. intros c. apply keep2_bind; [apply keep2_lift|]. intros z.
  apply keep2_bind; [apply keep2_onr, keep_put|]. intros _. apply IH.
Qed.
End Env.

Section Pack.
Context (E : Env).

(** What pack does after writing the header. *)
Definition after_header (n c l : Z) (m : pyval) (ba : bargs) (oma : option margs) : SM (fp * cfs) (option margs) :=
  oma' <- (if is_none m then ret oma
           else a <- onr (fps_write_metadata E m (match oma with Some a => a | None => default_margs end)) ;; ret (Some a)) ;;
  onr fps_init_offsets ;;;
  pack_loop (compress_chunk_str E ba) (fps_put E) 0 (fp_source_steps n c l) ;;;
  onr (fps_finalize E) ;;;
  ret oma'.
Lemma keep2_after x n c l m ba oma : keep2 x (after_header n c l m ba oma).
Proof.
  unfold after_header. apply keep2_bind.
  { destruct (is_none m); [apply keep2_ret|]. apply keep2_bind; [apply keep2_onr, keep_metadata|]. intros a. apply keep2_ret. }
  intros oma'. apply keep2_bind; [apply keep2_onr, keep_init|]. intros _.
  apply keep2_bind; [apply keep2_loop|]. intros _. apply keep2_bind; [apply keep2_onr, keep_finalize|]. intros _. apply keep2_ret.
Qed.

Definition sink_with (w : SM cfs unit) : compressed_sink cfs :=
  mkCS cfs fps_configure w (fps_write_metadata E) fps_init_offsets (fps_put E) (fps_finalize E).
Lemma pack_eq w n c l m oba bp oma st h ma :
  handle_max_apps (bp_offsets bp) n (bp_max_app bp) = Ok ma ->
  mk_header FORMAT_VERSION (bp_offsets bp) (negb (is_none m)) (bp_checksum bp)
            (ba_typesize (match oba with Some a => a | None => default_bargs end)) c l n ma = Ok h ->
  pack (fp_source E) (sink_with w) n c l m oba (Some bp) oma st =
  (onr w ;;; after_header n c l m (match oba with Some a => a | None => default_bargs end) oma)
    (fst st, fps_configure (match oba with Some a => a | None => default_bargs end) h (snd st)).
Proof.
  intros HM HH. unfold pack, sink_with, fp_source. cbn [cs_configure cs_write_header cs_write_metadata cs_init_offsets cs_put cs_finalize ps_steps ps_compress].
  rewrite (bind_lift _ _ _ _ HM), (bind_lift _ _ _ _ HH).
  unfold bind at 1. cbv beta iota. reflexivity.
Qed.

Definition d_result (z : (fp * cfs) * res (option margs)) : res bytes := rbind (snd z) (fun _ => Ok (fdata (s_fp (snd (fst z))))).

Theorem d_pack_exact b cs m oba off ck ma oma g :
  d_pack_bytes E b cs m oba off ck ma oma = Ok g <->
  exists k f, d_flag off (DBool (negb (is_none m))) = Ok k /\
    pack_bytes_to_bytes E b cs m oba (Some (mkBPA (d_truth off) ck ma)) oma = Ok f /\ g = with_byte 5 (bZ k) f.
Proof.
  unfold d_pack_bytes, pack_bytes_to_bytes, pack_bytes_core.
  destruct (calculate_nchunks (zlen b) cs) as [[[n c] l]|e].
  2:{ split; [discriminate|]. intros (k & f & _ & Q & _). discriminate. }
  set (bp := mkBPA (d_truth off) ck ma).
  assert (RA : forall w, (forall a, handle_max_apps (bp_offsets bp) n (bp_max_app bp) <> Ok a) ->
     exists e, snd (pack (fp_source E) (sink_with w) n c l m oba (Some bp) oma (fp_of b, cfs_of (fp_of []))) = Raise e).
  { intros w N. unfold pack. destruct (handle_max_apps _ _ _) as [a|e] eqn:HM; [destruct (N a eq_refl)|].
    exists e. reflexivity. }
  destruct (handle_max_apps (bp_offsets bp) n (bp_max_app bp)) as [mx|e1] eqn:HM.
  2:{ destruct (RA (d_write_header off) ltac:(congruence)) as (e2 & R2). destruct (RA fps_write_header ltac:(congruence)) as (e3 & R3).
      change (d_fp_sink E off) with (sink_with (d_write_header off)). change (fp_sink E) with (sink_with fps_write_header).
      destruct (pack _ (sink_with (d_write_header off)) _ _ _ _ _ _ _ _) as [[f2 s2] r2], (pack _ (sink_with fps_write_header) _ _ _ _ _ _ _ _) as [[f3 s3] r3].
      cbn [snd] in *. subst. split; [discriminate|]. intros (k & f & _ & Q & _). discriminate. }
  clear RA. set (ba := match oba with Some a => a | None => default_bargs end).
  assert (RB : forall w, (forall a, mk_header FORMAT_VERSION (bp_offsets bp) (negb (is_none m)) (bp_checksum bp) (ba_typesize ba) c l n mx <> Ok a) ->
     exists e, snd (pack (fp_source E) (sink_with w) n c l m oba (Some bp) oma (fp_of b, cfs_of (fp_of []))) = Raise e).
  { intros w N. unfold pack. rewrite (bind_lift _ _ _ _ HM). fold ba. destruct (mk_header _ _ _ _ _ _ _ _ _) as [a|e] eqn:HH; [destruct (N a eq_refl)|].
    exists e. reflexivity. }
  destruct (mk_header FORMAT_VERSION (bp_offsets bp) (negb (is_none m)) (bp_checksum bp) (ba_typesize ba) c l n mx) as [h|e1] eqn:HH.
  2:{ destruct (RB (d_write_header off) ltac:(congruence)) as (e2 & R2). destruct (RB fps_write_header ltac:(congruence)) as (e3 & R3).
      change (d_fp_sink E off) with (sink_with (d_write_header off)). change (fp_sink E) with (sink_with fps_write_header).
      destruct (pack _ (sink_with (d_write_header off)) _ _ _ _ _ _ _ _) as [[f2 s2] r2], (pack _ (sink_with fps_write_header) _ _ _ _ _ _ _ _) as [[f3 s3] r3].
      cbn [snd] in *. subst. split; [discriminate|]. intros (k & f & _ & Q & _). discriminate. }
  clear RB.
  change (d_fp_sink E off) with (sink_with (d_write_header off)). change (fp_sink E) with (sink_with fps_write_header).
  rewrite !(pack_eq _ n c l m oba bp oma _ h mx HM HH). cbn [fst snd]. fold ba.
  pose proof (mk_header_ok _ _ _ _ _ _ _ _ _ _ HH) as OKH.
  apply mk_header_Ok in HH as (_ & _ & ckc & EC & Hh).
  unfold cfs_of, fps_configure. cbn [s_fp s_meta_total s_storage].
  (* the typed header *)
  assert (WT : onr fps_write_header (fp_of b, mkCFS (fp_of []) 0 h []) =
               ((fp_of b, mkCFS (mkfp (header_bytes h) 32 (log_of 0 (header_bytes h))) 0 h []), Ok tt)).
  { unfold onr, fps_write_header, on_fp. cbn [fst snd s_header s_fp]. rewrite (bind_lift _ _ _ _ (header_encode_ok h OKH)).
    unfold f_write, fp_of. cbn [fdata fpos flog]. rewrite Z.add_0_l, zlen_header_bytes.
    change (write_at [] 0 (header_bytes h)) with (write_at [] (zlen (@nil byte)) (header_bytes h)). rewrite write_at_end. reflexivity. }
  (* the other header *)
  set (dh := d_header_of off h).
  assert (G : d_good dh (h_checksum h)).
  { unfold d_good, dh, d_header_of. cbn [d_checksum d_version d_typesize d_chunk_size d_last_chunk d_nchunks d_max_app as_int].
    split; [reflexivity|]. split; [|repeat (split; [eexists; reflexivity|]); eexists; reflexivity]. destruct OKH as (H1 & H2). split; [exact H1|exact H2]. }
  pose proof (d_good_encode dh (h_checksum h) G) as DE. unfold dh in DE. cbn [d_header_of d_offsets d_metadata] in DE. fold dh in DE.
  assert (HM' : h_metadata h = negb (is_none m)) by (rewrite Hh; reflexivity).
  assert (HB : typed_header dh (h_checksum h) false false = mkH (h_version h) false false (h_checksum h) (h_typesize h) (h_chunk_size h) (h_last_chunk h) (h_nchunks h) (h_max_app h)) by reflexivity.
  rewrite HM', HB in DE.
  destruct (header_bytes_split h) as (a & r & La & S).
  assert (HS : header_bytes h = a ++ bZ (opt_bits (h_offsets h) (h_metadata h)) :: r).
  { rewrite <- (S (h_offsets h) (h_metadata h) _ eq_refl). destruct h; reflexivity. }
  rewrite (S false false 0 eq_refl) in DE.
  destruct (d_flag off (DBool (negb (is_none m)))) as [k|e1] eqn:DF.
  2:{ cbn [rbind] in DE. split; [|intros (k & f & Q & _); discriminate].
      assert (W : onr (d_write_header off) (fp_of b, mkCFS (fp_of []) 0 h []) = ((fp_of b, mkCFS (fp_of []) 0 h []), Raise e1)).
      { unfold onr, d_write_header, on_fp. cbn [fst snd s_header s_fp]. fold dh. rewrite (bind_lift_raise _ _ _ _ DE). reflexivity. }
      rewrite (bind_run_raise _ _ _ _ _ W). discriminate. }
  cbn [rbind] in DE. rewrite with_byte_at in DE by exact La.
  assert (LH : zlen (a ++ bZ k :: r) = 32).
  { pose proof (zlen_header_bytes h) as Q. rewrite HS in Q. unfold zlen in *. rewrite app_length in *. cbn [List.length] in *. exact Q. }
  assert (WD : onr (d_write_header off) (fp_of b, mkCFS (fp_of []) 0 h []) =
               ((fp_of b, mkCFS (mkfp (a ++ bZ k :: r) 32 (log_of 0 (a ++ bZ k :: r))) 0 h []), Ok tt)).
  { unfold onr, d_write_header, on_fp. cbn [fst snd s_header s_fp]. fold dh. rewrite (bind_lift _ _ _ _ DE).
    unfold f_write, fp_of. cbn [fdata fpos flog]. rewrite Z.add_0_l, LH.
    change (write_at [] 0 (a ++ bZ k :: r)) with (write_at [] (zlen (@nil byte)) (a ++ bZ k :: r)). rewrite write_at_end. reflexivity. }
  rewrite (bind_run _ _ _ _ _ WD), (bind_run _ _ _ _ _ WT).
  assert (TW : twin (bZ k) (mkCFS (mkfp (header_bytes h) 32 (log_of 0 (header_bytes h))) 0 h [])
                           (mkCFS (mkfp (a ++ bZ k :: r) 32 (log_of 0 (a ++ bZ k :: r))) 0 h [])).
  { unfold twin, twinf. cbn [s_fp s_meta_total s_header s_storage fpos fdata]. repeat split; try lia.
    exists a, (bZ (opt_bits (h_offsets h) (h_metadata h))), r. rewrite HS, <- !app_assoc. auto. }
  destruct (keep2_after (bZ k) n c l m ba oma (fp_of b) _ _ TW) as (_ & T2 & T3).
  destruct (after_header n c l m ba oma (fp_of b, mkCFS (mkfp (header_bytes h) 32 _) 0 h [])) as [[f1 s1] r1].
  destruct (after_header n c l m ba oma (fp_of b, mkCFS (mkfp (a ++ bZ k :: r) 32 _) 0 h [])) as [[f2 s2] r2].
  cbn [fst snd] in *. subst r2.
  destruct T2 as ((_ & _ & a' & y & r' & La' & D1 & D2) & _).
  destruct r1 as [v|e1]; cbn [rbind].
  - rewrite D1, D2. split.
    + intros Q. apply Ok_inj in Q. subst g. exists k, ((a' ++ [y]) ++ r'). repeat split; auto.
      rewrite <- !app_assoc. cbn [app]. symmetry. apply with_byte_at, La'.
    + intros (k' & f & Q1 & Q2 & ->). apply Ok_inj in Q1, Q2. subst k' f. f_equal.
      rewrite <- !app_assoc. cbn [app]. symmetry. apply with_byte_at, La'.
  - split; [discriminate|]. intros (k' & f & _ & Q & _). discriminate.
Qed.

Theorem d_pack_flags b cs m oba off ck ma oma g :
  d_pack_bytes E b cs m oba off ck ma oma = Ok g <->
  exists o k f, d_int off = Ok o /\ binary (int_text (Z.b2z (negb (is_none m))) ++ int_text o) k /\ k <= 255 /\
    pack_bytes_to_bytes E b cs m oba (Some (mkBPA (d_truth off) ck ma)) oma = Ok f /\ g = with_byte 5 (bZ k) f.
Proof.
  rewrite d_pack_exact. split.
  - intros (k & f & H1 & H2 & H3). apply d_flag_iff in H1 as (o & i & HO & HI & B & L).
    exists o, k, f. repeat split; auto. replace (Z.b2z (negb (is_none m))) with i; auto. destruct (is_none m); cbn in *; congruence.
  - intros (o & k & f & HO & B & L & P & Q). exists k, f. repeat split; auto. apply d_flag_iff.
    exists o, (Z.b2z (negb (is_none m))). repeat split; auto.
Qed.

(** Only the truth value and the int() of 'offsets' count. *)
Lemma d_pack_same b cs m oba off off' ck ma oma : d_int off = d_int off' -> d_truth off = d_truth off' ->
  d_pack_bytes E b cs m oba off ck ma oma = d_pack_bytes E b cs m oba off' ck ma oma.
Proof.
  intros HI HT. unfold d_pack_bytes, d_fp_sink, d_write_header, d_header_encode, d_header_of, d_create_options.
  cbn [d_offsets d_metadata d_version d_checksum d_typesize d_chunk_size d_last_chunk d_nchunks d_max_app]. rewrite HI, HT. reflexivity.
Qed.
Lemma d_header_typed h : d_header_encode (d_header_of (DBool (h_offsets h)) h) = header_encode h.
Proof.
  unfold d_header_encode, d_header_of, header_encode, d_pack. cbn [d_offsets d_metadata d_version d_checksum d_typesize d_chunk_size d_last_chunk d_nchunks d_max_app as_int].
  rewrite str_list, check_valid_name. destruct (h_offsets h), (h_metadata h); reflexivity.
Qed.
Lemma d_pack_bool b cs m oba t ck ma oma :
  d_pack_bytes E b cs m oba (DBool t) ck ma oma = pack_bytes_to_bytes E b cs m oba (Some (mkBPA t ck ma)) oma.
Proof.
  unfold d_pack_bytes, pack_bytes_to_bytes, pack_bytes_core. cbn [d_truth].
  destruct (calculate_nchunks (zlen b) cs) as [[[n c] l]|e]; [|reflexivity].
  change (d_fp_sink E (DBool t)) with (sink_with (d_write_header (DBool t))). change (fp_sink E) with (sink_with fps_write_header).
  set (bp := mkBPA t ck ma). set (ba := match oba with Some a => a | None => default_bargs end).
  destruct (handle_max_apps (bp_offsets bp) n (bp_max_app bp)) as [mx|e] eqn:HM.
  2:{ unfold pack. rewrite HM. reflexivity. }
  destruct (mk_header FORMAT_VERSION (bp_offsets bp) (negb (is_none m)) (bp_checksum bp) (ba_typesize ba) c l n mx) as [h|e] eqn:HH.
  2:{ unfold pack. rewrite !(bind_lift _ _ _ _ HM). fold ba. rewrite HH. reflexivity. }
  rewrite !(pack_eq _ n c l m oba bp oma _ h mx HM HH). cbn [fst snd]. fold ba.
  apply mk_header_Ok in HH as (_ & _ & ckc & EC & Hh). assert (HO : h_offsets h = t) by (rewrite Hh; reflexivity).
  assert (W : onr (d_write_header (DBool t)) (fp_of b, fps_configure ba h (cfs_of (fp_of []))) = onr fps_write_header (fp_of b, fps_configure ba h (cfs_of (fp_of [])))).
  { unfold onr, d_write_header, fps_write_header, fps_configure. cbn [snd s_header]. rewrite <- HO, d_header_typed. reflexivity. }
  unfold bind. rewrite W. destruct (onr fps_write_header _) as [[f0 s0] [u0|e]]; [|reflexivity]. destruct (after_header _ _ _ _ _ _ _) as [[f1 s1] r1]; reflexivity.
Qed.
Theorem d_pack_typed b cs m oba off ck ma oma : d_int off = Ok (Z.b2z (d_truth off)) ->
  d_pack_bytes E b cs m oba off ck ma oma = pack_bytes_to_bytes E b cs m oba (Some (mkBPA (d_truth off) ck ma)) oma.
Proof.
  intros H. rewrite <- d_pack_bool. apply d_pack_same; [|reflexivity]. rewrite H. destruct (d_truth off); reflexivity.
Qed.
End Pack.

(** A metadata header that was accepted is written as the one with typed arguments. *)
Lemma checked_str v n : d_check_str v n = Ok tt -> exists b, v = DBytes b /\ check_str b n = Ok tt.
Proof. destruct v; try discriminate. cbn [d_check_str]. eauto. Qed.
Lemma checked_range v lo hi : d_check_range v lo hi = Ok tt -> exists z, as_int v = Some z /\ check_range z lo hi = Ok tt.
Proof. unfold d_check_range. destruct (as_int v); try discriminate. eauto. Qed.
Theorem mheader_typed kw dh : new_mheader kw = Ok dh ->
  exists magic o c k user lvl sz mx cm h raw,
    dh = mkDMH (DBytes magic) (DStr o) (DStr (t_ (cks_name c))) (DStr (t_ (codec_name k)))
               (dm_level dh) (dm_size dh) (dm_max dh) (dm_comp dh) (DBytes user) /\
    is_int (dm_level dh) lvl /\ is_int (dm_size dh) sz /\ is_int (dm_max dh) mx /\ is_int (dm_comp dh) cm /\
    mk_mheader magic (string_of_list_ascii o) (cks_name c) (codec_name k) lvl sz mx cm user = Ok h /\
    mheader_encode h = Ok raw /\ d_mheader_encode dh = Ok raw.
Proof.
  unfold new_mheader. cbv zeta. intros H. apply rbind_Ok in H as (u0 & _ & H).
  do 9 (let P := fresh "P" in apply rbind_Ok in H as ([] & P & H)).
  apply checked_str in P as (magic & E1 & Q1). apply checked_str in P7 as (user & E8 & Q8).
  apply checked_range in P3 as (lvl & E4 & Q4). apply checked_range in P4 as (sz & E5 & Q5).
  apply checked_range in P5 as (mx & E6 & Q6). apply checked_range in P6 as (cm & E7 & Q7).
  destruct (arg kw "meta_options" _) as [|b|y|t i|o|b|n|t] eqn:EO; try discriminate P0. cbn [d_check_options] in P0.
  destruct (arg kw "meta_checksum" _) as [|b|y|t i|c0|b|n|t] eqn:EC; try discriminate P1;
    [|cbn [d_check_checksum d_not_valid] in P1; destruct (n =? 1)%nat; discriminate P1].
  destruct (arg kw "meta_codec" _) as [|b|y|t i|k0|b|n|t] eqn:EK; try discriminate P2;
    [|cbn [d_check_codec d_not_valid] in P2; destruct (n =? 1)%nat; discriminate P2].
  cbn [d_check_checksum d_check_codec] in P1, P2. apply rbind_Ok in P1 as (c & P1 & _). apply rbind_Ok in P2 as (k & P2 & _).
  pose proof (check_valid_checksum_inv _ _ P1) as NC. pose proof (check_valid_codec_inv _ _ P2) as NK.
  assert (C0 : c0 = t_ (cks_name c)) by (rewrite <- NC; symmetry; apply list_str).
  assert (K0 : k0 = t_ (codec_name k)) by (rewrite <- NK; symmetry; apply list_str). subst c0 k0.
  unfold t_ in P1, P2. rewrite str_list in P1, P2. rewrite E1, E8 in H. apply Ok_inj in H.
  assert (MK : mk_mheader magic (string_of_list_ascii o) (cks_name c) (codec_name k) lvl sz mx cm user = Ok (mkMH magic (string_of_list_ascii o) c k lvl sz mx cm user)).
  { unfold mk_mheader. rewrite Q1, P0, P1, P2, Q4, Q5, Q6, Q7, Q8. reflexivity. }
  pose proof (mk_mheader_Ok _ _ _ _ _ _ _ _ _ _ MK) as (OK & _). pose proof (mheader_encode_ok _ OK) as EN.
  exists magic, o, c, k, user, lvl, sz, mx, cm, (mkMH magic (string_of_list_ascii o) c k lvl sz mx cm user), (mheader_bytes (mkMH magic (string_of_list_ascii o) c k lvl sz mx cm user)).
  subst dh. cbn [dm_level dm_size dm_max dm_comp]. split; [reflexivity|]. rewrite <- !as_int_iff. do 6 (split; [assumption|]).
  rewrite <- EN. unfold d_mheader_encode, mheader_encode, d_pack.
  cbn [dm_magic dm_options dm_checksum dm_codec dm_level dm_size dm_max dm_comp dm_user mh_magic mh_options mh_checksum mh_codec mh_level mh_size mh_max mh_comp mh_user].
  unfold t_. rewrite !str_list, P1, P2, E4, E5, E6, E7. reflexivity.
Qed.
