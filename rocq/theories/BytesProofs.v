(** The bytes API: what pack_bytes_to_bytes produces (C01, C02, C11). *)
From Verif Require Import Base PyVal Checksums Headers Pretty Args FileIO Spec BaseLemmas HeaderProofs IOProofs WfProofs PackProofs SmallProofs.
From Coq Require Import ZifyBool ZifyNat.
Ltac Zify.zify_post_hook ::= Z.div_mod_to_equations.

(** ** Reading a source piecewise *)
Fixpoint takes (l : list Z) (r : bytes) : list bytes :=
  match l with [] => [] | n :: l' => ztake n r :: takes l' (zdrop n r) end.
Definition zsum (l : list Z) : Z := fold_right Z.add 0 l.

Lemma takes_length l r : List.length (takes l r) = List.length l.
Proof. revert r; induction l; intros; cbn; auto. Qed.
Lemma zsum_nonneg l : Forall (fun n => 0 <= n) l -> 0 <= zsum l.
Proof. unfold zsum. induction 1; cbn [fold_right]; lia. Qed.

Lemma concat_takes l : forall r, Forall (fun n => 0 <= n) l -> concat (takes l r) = ztake (zsum l) r.
Proof.
  induction l as [|n l IH]; intros r H; [cbn; rewrite ztake_0 by lia; reflexivity|].
  inversion H as [|? ? H1 H2]; subst. cbn [takes concat zsum fold_right]. fold (zsum l).
  rewrite IH by auto. pose proof (zsum_nonneg l H2).
  destruct (Z.le_gt_cases (zlen r) n).
  - rewrite (ztake_all n), (zdrop_all n), (ztake_all (n + _)) by lia.
    replace (ztake (zsum l) (@nil byte)) with (@nil byte); [apply app_nil_r|].
    rewrite ztake_firstn. destruct (Z.to_nat _); reflexivity.
  - rewrite <- (ztake_zdrop n r) at 3. rewrite ztake_app_ge by (rewrite zlen_ztake; lia).
    f_equal. f_equal. rewrite zlen_ztake. lia.
Qed.

Lemma fp_source_yields l : forall f, Forall (fun n => 0 <= n) l -> 0 <= fpos f ->
  exists f', yields (map f_read l) f (takes l (rest f)) f'.
Proof.
  induction l as [|n l IH]; intros f H Hp; [exists f; reflexivity|].
  inversion H as [|? ? H1 H2]; subst. cbn [map takes yields].
  set (k := zlen (ztake n (rest f))). assert (0 <= k) by apply zlen_nonneg.
  assert (R : rest (adv k f) = zdrop n (rest f)).
  { rewrite rest_adv by lia. unfold k. rewrite zlen_ztake. destruct (Z.le_gt_cases n (zlen (rest f))).
    - f_equal. lia.
    - rewrite !zdrop_all by lia. reflexivity. }
  destruct (IH (adv k f) H2) as (f' & HY); [rewrite fpos_adv; lia|]. rewrite R in HY.
  exists f', (adv k f). split; [apply f_read_gen; auto|exact HY].
Qed.

Lemma yields_det {Src Chunk} (steps : list (SM Src Chunk)) : forall s l s' l2 s2,
  yields steps s l s' -> yields steps s l2 s2 -> l = l2 /\ s' = s2.
Proof.
  induction steps as [|st steps IH]; intros s [|x l] s' [|y l2] s2; cbn [yields]; try tauto.
  - intros -> ->; auto.
  - intros (s1 & H1 & H) (s3 & H3 & H'). rewrite H1 in H3. injection H3 as -> ->.
    destruct (IH _ _ _ _ _ H H') as [-> ->]. auto.
Qed.

Lemma chunk_sizes_nonneg n c l : 0 <= c -> 0 <= l -> Forall (fun n => 0 <= n) (chunk_sizes n c l).
Proof.
  intros. unfold chunk_sizes. apply Forall_app. split; [|repeat constructor; auto].
  unfold zrep. induction (Z.to_nat (n - 1)); cbn; constructor; auto.
Qed.
Lemma zlen_chunk_sizes n c l : 1 <= n -> zlen (chunk_sizes n c l) = n.
Proof. intros. unfold chunk_sizes. rewrite zlen_app, zlen_zrep. change (zlen [l]) with 1. lia. Qed.
Lemma zsum_chunk_sizes n c l : 1 <= n -> zsum (chunk_sizes n c l) = (n - 1) * c + l.
Proof.
  intros. unfold chunk_sizes, zrep, zsum. rewrite fold_right_app. cbn [fold_right].
  replace (n - 1) with (Z.of_nat (Z.to_nat (n - 1))) at 2 by lia.
  generalize (Z.to_nat (n - 1)) as k. intros k. induction k as [|k IH]; cbn [repeat fold_right]; [lia|].
  rewrite IH. rewrite Nat2Z.inj_succ. lia.
Qed.

(** Consecutive equal pieces are the specification's [chunks_of]. *)
Lemma takes_cut k : forall fuel c l x, 0 < c -> 0 <= l <= c -> Z.of_nat k * c + l = zlen x -> ((0 < k)%nat -> 0 < l) ->
  (k <= fuel)%nat -> takes (repeat c k ++ [l]) x = cut fuel c x.
Proof.
  induction k as [|k IH]; intros fuel c l x Hc Hl Hx Hk Hf.
  - cbn [repeat app takes]. rewrite ztake_all by lia.
    destruct fuel; cbn [cut]; [reflexivity|]. rewrite size_zlen. replace (zlen x <=? c) with true by lia. reflexivity.
  - destruct fuel as [|fuel]; [lia|]. cbn [repeat app takes cut]. rewrite size_zlen.
    rewrite Nat2Z.inj_succ in Hx.
    assert (0 <= Z.of_nat k * c) by (apply Z.mul_nonneg_nonneg; lia).
    replace (zlen x <=? c) with false by lia. f_equal.
    + unfold sub. rewrite ztake_firstn. reflexivity.
    + rewrite <- zdrop_skipn. apply IH; try lia. rewrite zlen_zdrop. lia.
Qed.
Lemma takes_chunks n c l x : 1 <= n -> (n - 1) * c + l = zlen x -> 0 <= l <= c ->
  (0 < zlen x -> 1 <= c /\ 0 < l) -> (zlen x = 0 -> n = 1) -> takes (chunk_sizes n c l) x = chunks_of c x.
Proof.
  intros Hn Hx Hl Hp H1. unfold chunks_of, chunk_sizes, zrep.
  destruct (Z.eq_dec (zlen x) 0) as [E|E].
  - rewrite (H1 E) in *. apply zlen_0 in E. subst x. change (zlen (@nil byte)) with 0 in Hx.
    replace l with 0 by lia. reflexivity.
  - pose proof (zlen_nonneg x). destruct (Hp ltac:(lia)). apply takes_cut; try lia; [rewrite Z2Nat.id by lia; lia|].
    assert ((n - 1) * 1 <= (n - 1) * c) by (apply Z.mul_le_mono_nonneg_l; lia). unfold zlen in *. lia.
Qed.
Lemma takes_sizes l : forall r, Forall (fun n => 0 <= n) l -> zsum l <= zlen r -> map zlen (takes l r) = l.
Proof.
  induction l as [|n l IH]; intros r H Hr; [reflexivity|]. inversion H as [|? ? H1 H2]; subst.
  cbn [takes map]. cbn [zsum fold_right] in Hr. fold (zsum l) in Hr. pose proof (zsum_nonneg l H2).
  rewrite zlen_ztake. f_equal; [lia|]. apply IH; auto. rewrite zlen_zdrop. lia.
Qed.

Section WithEnv.
Variable E : Env.
Hypothesis HE : EnvOK E.

Lemma fp_source_run n c l b : 1 <= n -> 0 <= c -> 0 <= l ->
  exists s', yields (ps_steps (fp_source E) n c l) (fp_of b) (takes (chunk_sizes n c l) b) s'.
Proof.
  intros. destruct (fp_source_yields (chunk_sizes n c l) (fp_of b)) as (s' & H').
  - apply chunk_sizes_nonneg; auto. - cbn; lia.
  - rewrite rest_fp_of in H'. exists s'. exact H'.
Qed.
Lemma zlen_fp_steps n c l : 1 <= n -> zlen (ps_steps (fp_source E) n c l) = n.
Proof. intros. cbn [fp_source ps_steps fp_source_steps]. unfold fp_source_steps. rewrite zlen_map. apply zlen_chunk_sizes; auto. Qed.

(** Everything there is to know about a successful pack_bytes_to_bytes, as a
    relation between arguments and result. *)
Record packed (b : bytes) (n c l : Z) (m : pyval) (oba : option bargs) (obp : option bpargs) (oma : option margs)
   (h : header) (o : option msect) (cs : list bytes) : Prop := {
  pk_max : handle_max_apps (bp_offsets (the_bpargs obp)) n (bp_max_app (the_bpargs obp)) = Ok (h_max_app h);
  pk_header : mk_header 3 (bp_offsets (the_bpargs obp)) (negb (is_none m)) (bp_checksum (the_bpargs obp))
                (ba_typesize (the_bargs oba)) c l n (h_max_app h) = Ok h;
  pk_meta : meta_plan E m (the_margs oma) o;
  pk_comp : Forall2 (fun x k => e_compress E (the_bargs oba) x = Ok k) (takes (chunk_sizes n c l) b) cs;
  pk_fits : h_offsets h = true -> Forall fits64 (offs E h o cs) }.

Definition pack_of (b : bytes) (n c l : Z) (m : pyval) (oba : option bargs) (obp : option bpargs) (oma : option margs) :=
  pack (fp_source E) (fp_sink E) n c l m oba obp oma (fp_of b, cfs_of (fp_of [])).

Lemma packed_run b n c l m oba obp oma h o cs : 1 <= n -> 0 <= c -> 0 <= l ->
  packed b n c l m oba obp oma h o cs ->
  exists st oma' k', pack_of b n c l m oba obp oma = ((st, k'), Ok oma') /\
    fdata (s_fp k') = file_of E h o cs /\ flog (s_fp k') = log_after E h o cs.
Proof.
  intros Hn Hc Hl P. destruct P. destruct (fp_source_run n c l b Hn Hc Hl) as (s' & HY).
  exists s'. apply (pack_run E HE (fp_source E) n c l m oba obp oma Hn (zlen_fp_steps n c l Hn) (fp_of b) s' h o (takes (chunk_sizes n c l) b) cs).
  constructor; auto.
Qed.
Lemma packed_inv b n c l m oba obp oma st k' oma' : 1 <= n -> 0 <= c -> 0 <= l ->
  pack_of b n c l m oba obp oma = ((st, k'), Ok oma') ->
  exists h o cs, packed b n c l m oba obp oma h o cs /\
    fdata (s_fp k') = file_of E h o cs /\ flog (s_fp k') = log_after E h o cs.
Proof.
  intros Hn Hc Hl H. pose proof H as H'. unfold pack_of in H'.
  apply (pack_inv E HE (fp_source E) n c l m oba obp oma Hn (zlen_fp_steps n c l Hn)) in H' as (h & o & chunks & cs & P).
  assert (PK : packed b n c l m oba obp oma h o cs).
  { destruct P. destruct (fp_source_run n c l b Hn Hc Hl) as (s2 & HY).
    destruct (yields_det _ _ _ _ _ _ pi_yields HY) as [-> ->]. constructor; auto. }
  exists h, o, cs. split; [exact PK|].
  destruct (packed_run b n c l m oba obp oma h o cs Hn Hc Hl PK) as (st2 & oma2 & k2 & R & D & L).
  rewrite R in H. injection H as <- <- <-. auto.
Qed.

Lemma packed_header b n c l m oba obp oma h o cs : packed b n c l m oba obp oma h o cs ->
  header_ok h /\ h_version h = 3 /\ h_offsets h = bp_offsets (the_bpargs obp) /\ h_metadata h = negb (is_none m) /\
  bp_checksum (the_bpargs obp) = cks_name (h_checksum h) /\ h_typesize h = ba_typesize (the_bargs oba) /\
  h_chunk_size h = c /\ h_last_chunk h = l /\ h_nchunks h = n.
Proof.
  intros P. destruct P. pose proof (mk_header_ok _ _ _ _ _ _ _ _ _ _ pk_header0) as Hok.
  apply mk_header_Ok in pk_header0 as (_ & _ & k & Hc & Hh). rewrite Hh in *. split; [exact Hok|]. cbn. repeat split; auto.
Qed.

Lemma packed_wf b n c l m oba obp oma h o cs : 1 <= n -> 0 <= c -> 0 <= l ->
  packed b n c l m oba obp oma h o cs ->
  wf E (file_of E h o cs) h o (combine cs (takes (chunk_sizes n c l) b)) [] /\
  osect_val o = norm m.
Proof.
  intros Hn Hc Hl P. split.
  - destruct P. destruct (fp_source_run n c l b Hn Hc Hl) as (s' & HY).
    rewrite <- (map_id (takes _ b)).
    apply (pack_inputs_wf E HE (fp_source E) n c l m oba obp oma Hn (zlen_fp_steps n c l Hn) (fun x => x) (fp_of b) s' h o (takes (chunk_sizes n c l) b) cs).
    + intros x k Hk. cbn in Hk. unfold compress_chunk_str in Hk. eauto.
    + constructor; auto.
  - destruct P. destruct (meta_plan_ok E HE m oma o pk_meta0) as (_ & _ & ->). destruct m; reflexivity.
Qed.

Lemma combine_snd {A B} (l : list A) : forall l' : list B, List.length l = List.length l' -> map snd (combine l l') = l'.
Proof. induction l; intros [|y l'] H; cbn in *; try lia; auto. f_equal. apply IHl. lia. Qed.
Lemma combine_fst {A B} (l : list A) : forall l' : list B, List.length l = List.length l' -> map fst (combine l l') = l.
Proof. induction l; intros [|y l'] H; cbn in *; try lia; auto. f_equal. apply IHl. lia. Qed.

Lemma packed_content b n c l m oba obp oma h o cs : 1 <= n -> 0 <= c -> 0 <= l ->
  packed b n c l m oba obp oma h o cs ->
  content (combine cs (takes (chunk_sizes n c l) b)) = ztake ((n - 1) * c + l) b.
Proof.
  intros Hn Hc Hl P. destruct P. unfold content. rewrite combine_snd by (symmetry; eapply F2_length; eauto).
  rewrite concat_takes by (apply chunk_sizes_nonneg; auto). rewrite zsum_chunk_sizes by auto. reflexivity.
Qed.

(** *** The bytes API *)
Lemma pack_bytes_core_eq b csa m oba obp oma n c l : calculate_nchunks (zlen b) csa = Ok (n, c, l) ->
  pack_bytes_core E b csa m oba obp oma = (snd (fst (pack_of b n c l m oba obp oma)), snd (pack_of b n c l m oba obp oma)).
Proof.
  intros H. unfold pack_bytes_core, pack_of. rewrite H. destruct (pack _ _ _ _ _ _ _ _ _ _) as [[? ?] ?]. reflexivity.
Qed.

Lemma pack_bytes_inv b csa m oba obp oma f : pack_bytes_to_bytes E b csa m oba obp oma = Ok f ->
  exists n c l h o cs, calculate_nchunks (zlen b) csa = Ok (n, c, l) /\
    packed b n c l m oba obp oma h o cs /\ f = file_of E h o cs /\
    flog (s_fp (fst (pack_bytes_core E b csa m oba obp oma))) = log_after E h o cs.
Proof.
  intros H. unfold pack_bytes_to_bytes in H.
  destruct (calculate_nchunks (zlen b) csa) as [[[n c] l]|e] eqn:Ec.
  2:{ unfold pack_bytes_core in H. rewrite Ec in H. discriminate. }
  pose proof (calculate_partition _ _ _ _ _ (zlen_nonneg b) Ec) as CP.
  rewrite (pack_bytes_core_eq _ _ _ _ _ _ _ _ _ Ec) in H |- *.
  destruct (pack_of b n c l m oba obp oma) as [[st k'] r] eqn:Ep. cbn [fst snd] in *.
  destruct r as [oma'|e]; [|discriminate]. cbn in H. injection H as <-.
  apply packed_inv in Ep as (h & o & cs & P & D & L); try lia.
  exists n, c, l, h, o, cs. rewrite D. auto.
Qed.
Lemma pack_bytes_intro b csa m oba obp oma n c l h o cs : calculate_nchunks (zlen b) csa = Ok (n, c, l) ->
  packed b n c l m oba obp oma h o cs -> pack_bytes_to_bytes E b csa m oba obp oma = Ok (file_of E h o cs).
Proof.
  intros Ec P. pose proof (calculate_partition _ _ _ _ _ (zlen_nonneg b) Ec) as CP.
  unfold pack_bytes_to_bytes. rewrite (pack_bytes_core_eq _ _ _ _ _ _ _ _ _ Ec).
  apply packed_run in P as (st & oma' & k' & R & D & L); try lia. rewrite R. cbn. rewrite D. reflexivity.
Qed.

Lemma calc_takes b csa n c l : calculate_nchunks (zlen b) csa = Ok (n, c, l) ->
  takes (chunk_sizes n c l) b = chunks_of c b.
Proof.
  intros Ec. pose proof (calculate_partition _ _ _ _ _ (zlen_nonneg b) Ec) as CP.
  apply takes_chunks; try tauto; lia.
Qed.

Theorem bytes_roundtrip b csa m oba obp oma f :
  pack_bytes_to_bytes E b csa m oba obp oma = Ok f -> unpack_bytes_from_bytes E f = Ok (b, norm m).
Proof.
  intros H. apply pack_bytes_inv in H as (n & c & l & h & o & cs & Ec & P & -> & _).
  pose proof (calculate_partition _ _ _ _ _ (zlen_nonneg b) Ec) as CP.
  destruct (packed_wf b n c l m oba obp oma h o cs) as [W V]; try lia; auto.
  unfold unpack_bytes_from_bytes. rewrite (unpack_wf E HE _ _ _ _ _ W).
  rewrite (packed_content b n c l m oba obp oma h o cs) by (auto; lia).
  cbn [rbind]. rewrite V. do 2 f_equal. apply ztake_all. lia.
Qed.

(** *** Totality (C02) *)
Lemma fits_pos_from p l : 0 <= p -> p + zlen (concat l) <= 2 ^ 63 - 1 -> Forall fits64 (pos_from p l).
Proof.
  intros Hp H. eapply Forall_impl; [|apply pos_from_range; auto]. unfold end_from, fits64. intros a Ha.
  change (2 ^ 63 - 1) with 9223372036854775807 in H. lia.
Qed.

Lemma compress_all a l : blosc_args_ok E a -> Forall (fun x => zlen x <= BUFMAX) l ->
  exists cs, Forall2 (fun x k => e_compress E a x = Ok k) l cs /\ zlen (concat cs) <= zlen (concat l) + 16 * zlen l.
Proof.
  intros Ha. induction 1 as [|x l Hx _ (cs & H1 & H2)].
  - exists []. split; [constructor|cbn; lia].
  - destruct (ok_compress_total E HE a x Ha Hx) as [k Hk].
    exists (k :: cs). split; [constructor; auto|].
    cbn [concat]. rewrite !zlen_app. apply (ok_compress_size E HE) in Hk. pose proof (zlen_cons x l) as ZC.
    change size with (@zlen byte) in Hk. destruct Hk as [Hk _]. unfold bytes in *. lia.
Qed.

Lemma zlen_stored_all ck cs : zlen (concat (map (stored E ck) cs)) = zlen (concat cs) + cks_size ck * zlen cs.
Proof.
  induction cs as [|x cs IH]; [cbn; lia|]. cbn [map concat].
  rewrite !zlen_app, zlen_cons, IH, (zlen_stored E HE). lia.
Qed.
Lemma cks_size_le c : cks_size c <= 64.
Proof. destruct c; cbn; lia. Qed.

Lemma pack_total b csa m oba obp oma n c l ck mx :
  calculate_nchunks (zlen b) csa = Ok (n, c, l) ->
  blosc_args_ok E (the_bargs oba) ->
  bp_checksum (the_bpargs obp) = cks_name ck ->
  handle_max_apps (bp_offsets (the_bpargs obp)) n (bp_max_app (the_bpargs obp)) = Ok mx ->
  (m <> PNone -> exists p, plan_metadata E m (the_margs oma) = Ok p) ->
  (bp_offsets (the_bpargs obp) = true ->
   32 + (32 + 4294967295 + 64) + 8 * (n + mx) + zlen b + 80 * n <= 2 ^ 63 - 1) ->
  exists f, pack_bytes_to_bytes E b csa m oba obp oma = Ok f.
Proof.
  intros Ec Ha Hck Hmx Hm Hbig.
  pose proof (calculate_partition _ _ _ _ _ (zlen_nonneg b) Ec) as CP.
  set (h := mkH 3 (bp_offsets (the_bpargs obp)) (negb (is_none m)) ck (ba_typesize (the_bargs oba)) c l n mx).
  assert (MS : 0 <= mx /\ (n <> -1 -> n + mx <= 2 ^ 63 - 1)) by (eapply max_apps_sum; eauto).
  assert (Hh : mk_header 3 (bp_offsets (the_bpargs obp)) (negb (is_none m)) (bp_checksum (the_bpargs obp))
                (ba_typesize (the_bargs oba)) c l n mx = Ok h).
  { rewrite Hck. apply mk_header_intro; [lia|]. unfold header_nums_ok. destruct Ha as (Ht & _).
    repeat split; try lia. }
  assert (exists o, meta_plan E m (the_margs oma) o) as [o Ho].
  { unfold meta_plan. destruct (is_none m) eqn:Em; [eauto|].
    destruct Hm as [[[mh p] a'] Hp]; [destruct m; discriminate|]. eauto 8. }
  destruct (compress_all (the_bargs oba) (takes (chunk_sizes n c l) b) Ha) as (cs & HF & HL).
  { assert (FB : Forall (fun z => z <= BUFMAX) (chunk_sizes n c l)).
    { unfold chunk_sizes. apply Forall_app. split; [|repeat constructor; lia].
      unfold zrep. clear -CP. induction (Z.to_nat (n - 1)); cbn; constructor; auto; lia. }
    rewrite <- (takes_sizes (chunk_sizes n c l) b) in FB.
    - rewrite Forall_map in FB. exact FB.
    - apply chunk_sizes_nonneg; lia.
    - rewrite zsum_chunk_sizes by lia. lia. }
  rewrite (concat_takes _ _ (chunk_sizes_nonneg n c l ltac:(lia) ltac:(lia))) in HL.
  rewrite zsum_chunk_sizes in HL by lia. rewrite zlen_ztake in HL.
  assert (ZT : zlen (takes (chunk_sizes n c l) b) = n).
  { unfold zlen. rewrite takes_length. apply zlen_chunk_sizes; lia. }
  eexists. apply (pack_bytes_intro _ _ _ _ _ _ n c l h o cs Ec). constructor; auto.
  intros Hoff. cbn in Hoff. specialize (Hbig Hoff).
  destruct (meta_plan_ok E HE m oma o Ho) as (O1 & _ & _).
  assert (OS : zlen (osect_bytes E o) <= 32 + 4294967295 + 64).
  { destruct o as [s|]; cbn [osect_bytes]; [|cbn; lia]. rewrite (zlen_msect E HE) by exact O1.
    destruct O1 as ((_ & _ & _ & _ & Hx & _) & _). pose proof (cks_size_le (mh_checksum (ms_h s))). lia. }
  apply fits_pos_from; unfold body_pos, table_len; cbn [h h_offsets h_nchunks h_max_app h_checksum].
  - rewrite Hoff. pose proof (zlen_nonneg (osect_bytes E o)). lia.
  - rewrite Hoff, zlen_stored_all. apply F2_length in HF.
    assert (zlen cs = n) by (unfold zlen in *; lia).
    pose proof (cks_size_le ck). pose proof (cks_size_nonneg ck).
    assert (cks_size ck * zlen cs <= 64 * n) by (rewrite H; apply Z.mul_le_mono_nonneg_r; lia).
    unfold bytes in *. lia.
Qed.

End WithEnv.
