(** What packing writes, exactly. *)
From Verif Require Import Base PyVal Checksums Headers Args FileIO Spec BaseLemmas HeaderProofs IOProofs WfProofs.
From Coq Require Import ZifyBool ZifyNat.
Ltac Zify.zify_post_hook ::= Z.div_mod_to_equations.

(* ---------------------------------------------------------------- *)
(** ** Writing at arbitrary positions *)

Lemma F2_length {A B} (R : A -> B -> Prop) l l' : Forall2 R l l' -> List.length l = List.length l'.
Proof. induction 1; cbn; auto. Qed.

Definition put_at (x : bytes) (f : fp) : fp :=
  mkfp (write_at (fdata f) (fpos f) x) (fpos f + zlen x) (flog f ++ log_of (fpos f) x).
Lemma f_write_put x f : f_write x f = (put_at x f, Ok tt).
Proof. reflexivity. Qed.
Lemma put_at_end x f : at_end f -> put_at x f = grow f x.
Proof. intros H. unfold put_at, grow. rewrite H, write_at_end. reflexivity. Qed.

Lemma write_at_unfold d p x : x <> [] ->
  write_at d p x = ztake p d ++ zrep (p - zlen d) x00 ++ x ++ zdrop (p + zlen x) d.
Proof. destruct x; [congruence|reflexivity]. Qed.

Lemma write_at_app d p x y : 0 <= p -> write_at (write_at d p x) (p + zlen x) y = write_at d p (x ++ y).
Proof.
  intros Hp. destruct x as [|b x'].
  { cbn [write_at app]. rewrite zlen_nil, Z.add_0_r. reflexivity. }
  destruct y as [|b' y'].
  { rewrite app_nil_r. reflexivity. }
  set (x := b :: x') in *. set (y := b' :: y') in *.
  assert (x <> []) by discriminate. assert (y <> []) by discriminate.
  assert (x ++ y <> []) by discriminate.
  rewrite (write_at_unfold d p x), (write_at_unfold d p (x ++ y)) by auto.
  rewrite write_at_unfold by auto.
  pose proof (zlen_nonneg x). pose proof (zlen_nonneg y). pose proof (zlen_nonneg d).
  set (A := ztake p d ++ zrep (p - zlen d) x00 ++ x).
  assert (LA : zlen A = p + zlen x) by (unfold A; rewrite !zlen_app, zlen_ztake, zlen_zrep; lia).
  replace (ztake p d ++ zrep (p - zlen d) x00 ++ x ++ zdrop (p + zlen x) d) with (A ++ zdrop (p + zlen x) d)
    by (unfold A; rewrite <- !app_assoc; reflexivity).
  rewrite ztake_app_exact by lia.
  replace (zrep (p + zlen x - zlen (A ++ zdrop (p + zlen x) d)) x00) with (@nil byte).
  2:{ unfold zrep. replace (Z.to_nat _) with O; [reflexivity|]. rewrite zlen_app. pose proof (zlen_nonneg (zdrop (p + zlen x) d)). lia. }
  rewrite zdrop_app_ge by lia. rewrite zdrop_zdrop by lia.
  rewrite zlen_app, LA. unfold A. rewrite <- !app_assoc. change ([] ++ ?z) with z.
  replace (p + zlen x + zlen y - (p + zlen x) + (p + zlen x)) with (p + (zlen x + zlen y)) by lia. reflexivity.
Qed.

Lemma put_put x y f : 0 <= fpos f -> put_at y (put_at x f) = put_at (x ++ y) f.
Proof.
  intros H. unfold put_at; cbn. rewrite write_at_app, zlen_app, log_of_app, app_assoc by auto.
  f_equal. lia.
Qed.
Lemma put_nil f : put_at [] f = f.
Proof. destruct f. unfold put_at; cbn. rewrite app_nil_r, Z.add_0_r. reflexivity. Qed.

Lemma write_at_mid a x y q : zlen x = zlen y -> write_at (a ++ x ++ q) (zlen a) y = a ++ y ++ q.
Proof.
  intros H. destruct y as [|b y'].
  { rewrite zlen_nil in H. apply zlen_0 in H. subst. reflexivity. }
  set (y := b :: y') in *. rewrite write_at_unfold by discriminate.
  rewrite ztake_app_exact by reflexivity.
  replace (zrep _ x00) with (@nil byte).
  2:{ unfold zrep. replace (Z.to_nat _) with O; [reflexivity|]. rewrite zlen_app. pose proof (zlen_nonneg (x ++ q)). lia. }
  rewrite zdrop_app_ge by (pose proof (zlen_nonneg y); lia).
  rewrite zdrop_app_exact by lia. reflexivity.
Qed.
(** Overwriting the end, possibly beyond it. *)
Lemma write_at_tail a x y : write_at (a ++ x) (zlen a) y = a ++ y ++ zdrop (zlen y) x.
Proof.
  destruct y as [|b y'].
  { cbn [write_at app]. rewrite zdrop_0 by (rewrite zlen_nil; lia). reflexivity. }
  set (y := b :: y') in *. rewrite write_at_unfold by discriminate.
  rewrite ztake_app_exact by reflexivity.
  replace (zrep _ x00) with (@nil byte).
  2:{ unfold zrep. replace (Z.to_nat _) with O; [reflexivity|]. rewrite zlen_app. pose proof (zlen_nonneg x). lia. }
  rewrite zdrop_app_ge by (pose proof (zlen_nonneg y); lia).
  cbn [app]. do 3 f_equal. lia.
Qed.

(* ---------------------------------------------------------------- *)
Section WithEnv.
Variable E : Env.
Hypothesis HE : EnvOK E.

(** ** The metadata section *)

Lemma serializer_lookup_inv b u : serializer_lookup b = Ok u -> b = b_of_string "JSON".
Proof. unfold serializer_lookup. destruct (bytes_eqb _ _) eqn:H; [|discriminate]. intros _. apply bytes_eqb_eq; auto. Qed.

Lemma should_compress_inv a : should_compress a = false -> ma_codec a = "None"%string.
Proof. unfold should_compress. destruct (String.eqb _ _) eqn:H; [|discriminate]. intros _. apply String.eqb_eq; auto. Qed.

Record planned (m : pyval) (a : margs) (h : mheader) (p : bytes) (raw : bytes) : Prop := {
  pl_dumps : e_dumps E m = Ok raw;
  pl_ok : mheader_ok h;
  pl_magic : mh_magic h = b_of_string "JSON";
  pl_user : mh_user h = [];
  pl_opts : mh_options h = create_metadata_options;
  pl_comp : zlen p = mh_comp h;
  pl_fit : mh_comp h <= mh_max h;
  pl_size : mh_size h = zlen raw;
  pl_small : mh_comp h <= mh_size h;
  pl_dec : codec_decompress E (mh_codec h) p = Ok raw;
  pl_ck : ma_checksum a = cks_name (mh_checksum h);
  pl_max : effective_max_meta_size a (zlen raw) = Ok (mh_max h);
  pl_level : mh_level h = ma_level a;
  pl_codec : codec_name (mh_codec h) = ma_codec a \/ (mh_codec h = CoNone /\ p = raw) }.

Lemma plan_inv m a h p a' : plan_metadata E m a = Ok (h, p, a') -> exists raw, planned m a h p raw.
Proof.
  unfold plan_metadata. intros H.
  apply rbind_Ok in H as (u & H0 & H). apply serializer_lookup_inv in H0.
  apply rbind_Ok in H as (raw & H1 & H). exists raw.
  apply rbind_Ok in H as ([p1 a1] & H2 & H).
  assert (HA : zlen p1 <= zlen raw /\
     ma_checksum a1 = ma_checksum a /\ ma_magic a1 = ma_magic a /\
     ma_level a1 = ma_level a /\ ma_max a1 = ma_max a /\
     forall co, codec_lookup (ma_codec a1) = Ok co -> codec_decompress E co p1 = Ok raw /\
      (ma_codec a1 = ma_codec a \/ (co = CoNone /\ p1 = raw))).
  { destruct (should_compress a) eqn:SC.
    - apply rbind_Ok in H2 as (co & C1 & H2). apply rbind_Ok in H2 as (z & C2 & H2).
      destruct (zlen raw <? zlen z) eqn:Hz; inversion H2; subst.
      + do 5 (split; [auto; lia|]). intros co' Hco. cbn in Hco; inversion Hco; subst; auto.
      + do 5 (split; [auto; lia|]). intros co' Hco. rewrite C1 in Hco; inversion Hco; subst. split; auto.
        destruct co'; cbn in *; [congruence|]. eapply ok_zdecompress; eauto.
    - inversion H2; subst. apply should_compress_inv in SC. rewrite SC.
      do 5 (split; [auto; lia|]). intros co' Hco. cbn in Hco; inversion Hco; subst; auto. }
  destruct HA as (A1 & A2 & A3 & A4 & A5 & A6).
  apply rbind_Ok in H as (mx & H3 & H). destruct (mx <? zlen p1) eqn:Hmx; [discriminate|].
  apply rbind_Ok in H as (co & H4 & H). destruct (A6 co H4) as [A7 A8].
  apply codec_lookup_inv in H4.
  apply rbind_Ok in H as (h1 & H5 & H). inversion H; subst h1 p1 a1. clear H.
  apply mk_mheader_Ok in H5 as (Hok & c & k & K1 & K2 & ->).
  assert (k = co) by (destruct k, co; cbn in K2; congruence). subst k.
  constructor; cbn -[b_of_string zlen]; auto; try congruence; try lia.
  - unfold effective_max_meta_size in *. rewrite A5 in H3. exact H3.
Qed.

(** The section that writing [m] produces. *)
Definition sect_of (h : mheader) (p : bytes) (m : pyval) : msect :=
  mkMS h p (zrep (mh_max h - mh_comp h) x00) (norm m).

Lemma sect_of_ok m a h p raw : planned m a h p raw -> msect_ok E (sect_of h p m).
Proof.
  intros P. destruct P. unfold msect_ok, sect_of; cbn [ms_h ms_payload ms_pad ms_val].
  repeat (split; auto).
  - rewrite zlen_zrep. lia.
  - exists raw. split; auto. apply (ok_json E HE); auto.
Qed.

Lemma write_metadata_run m a h p a' f : plan_metadata E m a = Ok (h, p, a') -> 0 <= fpos f ->
  write_metadata E m a f =
    (put_at (msect_bytes E (sect_of h p m)) f, Ok (zlen (msect_bytes E (sect_of h p m)), a')).
Proof.
  intros H Hp. pose proof (plan_inv _ _ _ _ _ H) as [raw P]. pose proof (sect_of_ok _ _ _ _ _ P) as SO.
  pose proof (zlen_msect E HE _ SO) as ZL.
  destruct P. unfold write_metadata. rewrite (bind_lift _ _ _ _ H).
  rewrite (bind_lift _ _ _ _ (mheader_encode_ok h pl_ok0)).
  rewrite (bind_run _ _ _ _ _ (f_write_put _ _)).
  rewrite (bind_run _ _ _ _ _ (f_write_put _ _)).
  unfold f_write_nulls. rewrite (bind_run _ _ _ _ _ (f_write_put _ _)).
  assert (forall x g, 0 <= fpos g -> 0 <= fpos (put_at x g)) as PP.
  { intros x g Hg. cbn. pose proof (zlen_nonneg x). unfold zlen in *. lia. }
  rewrite (bind_run _ _ _ (put_at (msect_bytes E (sect_of h p m)) f) tt).
  - unfold ret. rewrite ZL. cbn [sect_of ms_h]. do 3 f_equal. unfold METADATA_HEADER_LENGTH. lia.
  - unfold msect_bytes, sect_of; cbn [ms_h ms_payload ms_pad].
    rewrite !put_put by auto. rewrite <- ?app_assoc.
    destruct (cks_eqb (mh_checksum h) CkNone) eqn:Hc.
    + apply cks_eqb_eq in Hc. rewrite Hc. unfold digest; cbn [cks_digest]. rewrite app_nil_r. reflexivity.
    + rewrite f_write_put, put_put by auto. rewrite <- ?app_assoc. reflexivity.
Qed.

Lemma write_metadata_raise m a e f : plan_metadata E m a = Raise e -> write_metadata E m a f = (f, Raise e).
Proof. intros H. unfold write_metadata. rewrite (bind_lift_raise _ _ _ _ H). reflexivity. Qed.

(* ---------------------------------------------------------------- *)
(** ** The chunk loop *)

(** The chunks that the steps of a source yield. *)
Fixpoint yields {Src Chunk} (steps : list (SM Src Chunk)) (s : Src) (l : list Chunk) (s' : Src) : Prop :=
  match steps, l with
  | [], [] => s = s'
  | st :: steps', x :: l' => exists s1, st s = (s1, Ok x) /\ yields steps' s1 l' s'
  | _, _ => False
  end.
Lemma yields_len {Src Chunk} (steps : list (SM Src Chunk)) : forall s l s', yields steps s l s' -> zlen l = zlen steps.
Proof.
  induction steps as [|st steps IH]; intros s [|x l] s'; cbn [yields]; try tauto.
  intros (s1 & _ & H). rewrite !zlen_cons, (IH _ _ _ H). reflexivity.
Qed.

Lemma set_nth_mid {A} (d : list A) v x r : set_nth (List.length d) v (d ++ x :: r) = Some (d ++ v :: r).
Proof. induction d; cbn; [reflexivity|]. rewrite IHd. reflexivity. Qed.

Lemma write_compressed_chunk_end c ck f : at_end f ->
  write_compressed_chunk c (digest E ck c) f = (grow f (stored E ck c), Ok tt).
Proof.
  intros H. unfold write_compressed_chunk. rewrite (bind_run _ _ _ _ _ (f_write_end c f H)).
  unfold stored. destruct (0 <? zlen (digest E ck c)) eqn:Hd.
  - rewrite (f_write_end _ _ (at_end_grow _ _ H)), grow_grow. reflexivity.
  - pose proof (zlen_nonneg (digest E ck c)).
    rewrite (zlen_0 (digest E ck c)) by lia. rewrite app_nil_r. reflexivity.
Qed.

Lemma fps_put_run (k : cfs) i c done r : at_end (s_fp k) -> i = zlen done ->
  (h_offsets (s_header k) = true -> s_storage k = done ++ (-1) :: r) ->
  fps_put E i c k =
    (mkCFS (grow (s_fp k) (stored E (h_checksum (s_header k)) c)) (s_meta_total k) (s_header k)
       (if h_offsets (s_header k) then done ++ fpos (s_fp k) :: r else s_storage k), Ok tt).
Proof.
  intros HA -> HS. unfold fps_put.
  rewrite (bind_run _ _ _ k (fpos (s_fp k))) by (destruct k; reflexivity).
  erewrite (bind_run _ _ k).
  2:{ unfold on_fp. rewrite do_checksum_digest by exact HE. rewrite (write_compressed_chunk_end _ _ _ HA). reflexivity. }
  cbn [s_header s_storage s_fp s_meta_total]. destruct (h_offsets (s_header k)); [|reflexivity].
  rewrite HS by auto. unfold zlen. rewrite Nat2Z.id, set_nth_mid. reflexivity.
Qed.

Lemma pack_loop_run {Src Chunk} (compress : Chunk -> res bytes) (steps : list (SM Src Chunk)) :
  forall s chunks s' cs k i done n,
  yields steps s chunks s' -> Forall2 (fun x c => compress x = Ok c) chunks cs ->
  at_end (s_fp k) -> i = zlen done ->
  (h_offsets (s_header k) = true -> s_storage k = done ++ repeat (-1) (List.length steps + n)) ->
  pack_loop compress (fps_put E) i steps (s, k) =
    ((s', mkCFS (grow (s_fp k) (concat (map (stored E (h_checksum (s_header k))) cs)))
                (s_meta_total k) (s_header k)
                (if h_offsets (s_header k)
                 then done ++ pos_from (fpos (s_fp k)) (map (stored E (h_checksum (s_header k))) cs) ++ repeat (-1) n
                 else s_storage k)), Ok tt).
Proof.
  induction steps as [|st steps IH]; intros s chunks s' cs k i done n HY HF HA Hi HS;
    destruct chunks as [|x chunks]; cbn [yields] in HY; try tauto.
  - subst s'. inversion HF; subst. cbn [pack_loop map concat pos_from app]. rewrite grow_nil. unfold ret.
    destruct (h_offsets (s_header k)) eqn:Ho; destruct k; cbn in *; [|reflexivity]. rewrite HS by auto. reflexivity.
  - destruct HY as (s1 & Hst & HY). inversion HF as [|? c ? cs' Hc HF']; subst. cbn [pack_loop].
    rewrite (bind_run _ _ _ _ _ (onl_run _ _ _ _ _ Hst)).
    rewrite (bind_lift _ _ _ _ Hc).
    cbn [List.length Nat.add repeat] in HS.
    rewrite (bind_run _ _ _ _ _ (onr_run _ _ _ _ _ (fps_put_run k (zlen done) c done _ HA eq_refl HS))).
    set (k1 := mkCFS (grow (s_fp k) _) _ _ _).
    rewrite (IH s1 chunks s' cs' k1 (zlen done + 1) (done ++ [fpos (s_fp k)]) n HY HF').
    + unfold k1; cbn [s_fp s_header s_meta_total s_storage]. rewrite grow_grow. cbn [map concat pos_from].
      destruct (h_offsets (s_header k)); [|reflexivity].
      rewrite <- !app_assoc. cbn [app grow fpos]. reflexivity.
    + unfold k1; cbn [s_fp]. apply at_end_grow; auto.
    + rewrite zlen_app. reflexivity.
    + unfold k1; cbn [s_header s_storage]. intros Ho. rewrite Ho, <- app_assoc. reflexivity.
Qed.

Lemma pack_loop_inv {Src Chunk Snk} (compress : Chunk -> res bytes) (put : Z -> bytes -> SM Snk unit)
      (steps : list (SM Src Chunk)) : forall i s k s' k',
  pack_loop compress put i steps (s, k) = ((s', k'), Ok tt) ->
  exists chunks cs, yields steps s chunks s' /\ Forall2 (fun x c => compress x = Ok c) chunks cs.
Proof.
  induction steps as [|st steps IH]; intros i s k s' k' H; cbn [pack_loop] in H.
  - inversion H; subst. exists [], []. split; [reflexivity|constructor].
  - apply bind_Ok in H as ([s1 k1] & x & H1 & H).
    unfold onl in H1; cbn in H1. destruct (st s) as [s1' r] eqn:Est. inversion H1; subst; clear H1.
    apply bind_Ok in H as ([s2 k2] & c & H2 & H). unfold lift in H2. inversion H2; subst; clear H2.
    apply bind_Ok in H as ([s3 k3] & u & H3 & H).
    unfold onr in H3; cbn in H3. destruct (put i c k2) as [kk r] eqn:Ep. inversion H3; subst; clear H3.
    apply IH in H as (chunks & cs & HY & HF).
    exists (x :: chunks), (c :: cs). split; [cbn [yields]; eauto|constructor; auto].
Qed.

(* ---------------------------------------------------------------- *)
(** ** The whole of pack, writing into a fresh file *)

(** What has been written just before the offsets are filled in. *)
Definition first_pass (h : header) (o : option msect) (cs : list bytes) : bytes :=
  header_bytes h ++ osect_bytes E o ++
  (if h_offsets h then words (zrep (h_nchunks h + h_max_app h) (-1)) else []) ++
  concat (map (stored E (h_checksum h)) cs).
(** Positions of the chunks. *)
Definition offs (h : header) (o : option msect) (cs : list bytes) : list Z :=
  pos_from (body_pos E h o) (map (stored E (h_checksum h)) cs).
(** The final contents. *)
Definition file_of (h : header) (o : option msect) (cs : list bytes) : bytes :=
  header_bytes h ++ osect_bytes E o ++
  (if h_offsets h then words (offs h o cs) ++ words (zrep (h_max_app h) (-1)) else []) ++
  concat (map (stored E (h_checksum h)) cs).
Definition log_after (h : header) (o : option msect) (cs : list bytes) : list (Z * byte) :=
  log_of 0 (first_pass h o cs) ++
  (if h_offsets h then log_of (32 + zlen (osect_bytes E o)) (words (offs h o cs)) else []).

Definition meta_plan (m : pyval) (ma : margs) (o : option msect) : Prop :=
  if is_none m then o = None
  else exists mh p a', plan_metadata E m ma = Ok (mh, p, a') /\ o = Some (sect_of mh p m).

Lemma words_zrep_app a b : 0 <= a -> 0 <= b -> words (zrep (a + b) (-1)) = words (zrep a (-1)) ++ words (zrep b (-1)).
Proof. intros. rewrite <- words_app. f_equal. unfold zrep. rewrite <- repeat_app. f_equal. lia. Qed.

Section Pack.
Context {Src Chunk : Type}.
Variable src : plain_source Src Chunk.
Variables (n csz last : Z) (m : pyval) (oba : option bargs) (obp : option bpargs) (oma : option margs).
Let ba := match oba with Some a => a | None => default_bargs end.
Let bp := match obp with Some a => a | None => default_bpargs end.
Let ma := match oma with Some a => a | None => default_margs end.
Hypothesis Hn : 1 <= n.
Hypothesis Hsteps : zlen (ps_steps src n csz last) = n.

Record pack_inputs (s : Src) (s' : Src) (h : header) (o : option msect) (chunks : list Chunk) (cs : list bytes) : Prop := {
  pi_max : handle_max_apps (bp_offsets bp) n (bp_max_app bp) = Ok (h_max_app h);
  pi_header : mk_header 3 (bp_offsets bp) (negb (is_none m)) (bp_checksum bp) (ba_typesize ba) csz last n
                (h_max_app h) = Ok h;
  pi_meta : meta_plan m ma o;
  pi_yields : yields (ps_steps src n csz last) s chunks s';
  pi_comp : Forall2 (fun x c => ps_compress src ba x = Ok c) chunks cs;
  pi_fits : h_offsets h = true -> Forall fits64 (offs h o cs) }.

Lemma pack_inputs_header s s' h o chunks cs : pack_inputs s s' h o chunks cs ->
  header_ok h /\ h_version h = 3 /\ h_offsets h = bp_offsets bp /\ h_metadata h = negb (is_none m) /\
  bp_checksum bp = cks_name (h_checksum h) /\ h_typesize h = ba_typesize ba /\ h_chunk_size h = csz /\
  h_last_chunk h = last /\ h_nchunks h = n.
Proof.
  intros P. destruct P. pose proof (mk_header_ok _ _ _ _ _ _ _ _ _ _ pi_header0) as Hok.
  apply mk_header_Ok in pi_header0 as (_ & _ & c & Hc & Hh). rewrite Hh in *. split; [exact Hok|]. cbn. repeat split; auto.
Qed.

Lemma meta_plan_ok o : meta_plan m ma o -> osect_ok E o /\ is_some o = negb (is_none m) /\
  osect_val o = (if is_none m then PNone else norm m).
Proof.
  unfold meta_plan. destruct (is_none m); [intros ->; cbn; auto|].
  intros (mh & p & a' & H & ->). apply plan_inv in H as [raw P]. cbn. split; [|auto].
  eapply sect_of_ok; eauto.
Qed.

Lemma pack_run s s' h o chunks cs : pack_inputs s s' h o chunks cs ->
  exists oma' k', pack src (fp_sink E) n csz last m oba obp oma (s, cfs_of (fp_of [])) = ((s', k'), Ok oma') /\
    fdata (s_fp k') = file_of h o cs /\ flog (s_fp k') = log_after h o cs.
Proof.
  intros P. pose proof (pack_inputs_header _ _ _ _ _ _ P) as (Hok & Hv & Ho & Hmd & Hck & Hts & Hcs & Hl & Hnc).
  destruct P as [P1 P2 P3 P4 P5 P6].
  pose proof Hok as [_ Hnum]. unfold header_nums_ok in Hnum.
  unfold pack. fold ba bp ma.
  rewrite (bind_lift _ _ _ _ P1). unfold FORMAT_VERSION. rewrite (bind_lift _ _ _ _ P2).
  cbn [fp_sink cs_configure cs_write_header cs_write_metadata cs_init_offsets cs_put cs_finalize].
  set (k0 := fps_configure ba h (cfs_of (fp_of []))).
  rewrite (bind_run _ _ _ (s, k0) tt) by reflexivity.
  set (k1 := mkCFS (grow (fp_of []) (header_bytes h)) 0 h []).
  rewrite (bind_run _ _ _ (s, k1) tt).
  2:{ apply onr_run. unfold fps_write_header, on_fp, k0, fps_configure, cfs_of; cbn [s_header s_fp s_meta_total s_storage].
      rewrite (bind_lift _ _ _ _ (header_encode_ok h Hok)), f_write_end by reflexivity. reflexivity. }
  assert (A1 : at_end (s_fp k1)) by (apply at_end_grow; reflexivity).
  set (k2 := mkCFS (grow (fp_of []) (header_bytes h ++ osect_bytes E o)) (zlen (osect_bytes E o)) h []).
  assert (M : exists oma', (if is_none m then ret oma else a <- onr (fps_write_metadata E m ma);; ret (Some a)) (s, k1)
              = ((s, k2), Ok oma')).
  { unfold meta_plan in P3. destruct (is_none m) eqn:Hm.
    - subst o. exists oma. unfold ret, k1, k2. cbn [osect_bytes]. rewrite app_nil_r. reflexivity.
    - destruct P3 as (mh & p & a' & HP & ->). exists (Some a').
      rewrite (bind_run _ _ _ (s, k2) a'); [reflexivity|]. apply onr_run. unfold fps_write_metadata.
      erewrite (bind_run _ _ k1).
      2:{ unfold on_fp. erewrite write_metadata_run by (eauto; cbn; unfold zlen; lia).
          rewrite put_at_end by exact A1. reflexivity. }
      cbn [fst snd s_fp s_meta_total s_header s_storage k1]. unfold k2.
      rewrite grow_grow. cbn [osect_bytes]. rewrite Z.add_0_l. reflexivity. }
  destruct M as (oma' & M). rewrite (bind_run _ _ _ _ _ M). clear M.
  assert (A2 : at_end (s_fp k2)) by (apply at_end_grow; reflexivity).
  set (tb := if h_offsets h then words (zrep (h_nchunks h + h_max_app h) (-1)) else []).
  set (k3 := mkCFS (grow (fp_of []) (header_bytes h ++ osect_bytes E o ++ tb)) (zlen (osect_bytes E o)) h
                   (if h_offsets h then zrep n (-1) else [])).
  rewrite (bind_run _ _ _ (s, k3) tt).
  2:{ apply onr_run. unfold fps_init_offsets, k3, tb. cbn [k2 s_header s_fp s_meta_total].
      destruct (h_offsets h) eqn:Hoo.
      - unfold total_prospective_chunks. replace (0 <=? h_nchunks h) with true by lia.
        unfold on_fp; cbn [s_fp s_meta_total s_header s_storage].
        rewrite f_write_end by exact A2. rewrite grow_grow, minus1_words, <- app_assoc, Hnc. reflexivity.
      - unfold k2. rewrite app_nil_r. reflexivity. }
  assert (A3 : at_end (s_fp k3)) by (apply at_end_grow; reflexivity).
  erewrite (bind_run _ _ (s, k3)).
  2:{ apply (pack_loop_run (ps_compress src ba) _ s chunks s' cs k3 0 [] 0 P4 P5 A3 eq_refl).
      cbn [k3 s_header s_storage]. intros ->. rewrite Nat.add_0_r. unfold zrep. cbn [app]. f_equal.
      unfold zlen in Hsteps. lia. }
  assert (POS : fpos (s_fp k3) = body_pos E h o).
  { cbn [k3 s_fp grow fp_of fpos]. rewrite !zlen_app, zlen_header_bytes. unfold body_pos, table_len, tb.
    destruct (h_offsets h); [rewrite zlen_words, zlen_zrep|change (zlen (@nil byte)) with 0]; lia. }
  cbn [k3 s_header s_meta_total s_storage]. fold k3. rewrite POS. cbn [app].
  set (bd := concat (map (stored E (h_checksum h)) cs)).
  assert (FP : grow (s_fp k3) bd = grow (fp_of []) (first_pass h o cs)).
  { cbn [k3 s_fp]. rewrite grow_grow. unfold first_pass, tb, bd. rewrite <- !app_assoc. reflexivity. }
  rewrite FP. fold (offs h o cs). rewrite app_nil_r.
  set (k4 := mkCFS _ _ _ _).
  destruct (h_offsets h) eqn:Hoo.
  - set (f5 := put_at (words (offs h o cs)) (mkfp (first_pass h o cs) (32 + zlen (osect_bytes E o)) (log_of 0 (first_pass h o cs)))).
    exists oma', (mkCFS f5 (zlen (osect_bytes E o)) h (offs h o cs)).
    rewrite (bind_run _ _ _ (s', mkCFS f5 (zlen (osect_bytes E o)) h (offs h o cs)) tt).
    2:{ apply onr_run. unfold fps_finalize, k4. cbn [s_header]. rewrite Hoo. unfold on_fp. cbn [s_fp s_meta_total s_storage s_header].
        pose proof (zlen_nonneg (osect_bytes E o)). unfold BLOSCPACK_HEADER_LENGTH.
        rewrite (bind_run _ _ _ _ _ (f_seek_ok (32 + zlen (osect_bytes E o)) _ ltac:(lia))).
        unfold write_offsets. rewrite (bind_lift _ _ _ _ (encode_offsets_words _ (P6 eq_refl))). reflexivity. }
    split; [reflexivity|]. cbn [s_fp f5 put_at fdata fpos flog]. unfold log_after. rewrite Hoo. split; [|reflexivity].
    unfold first_pass, file_of. rewrite Hoo.
    rewrite words_zrep_app by lia. rewrite <- !app_assoc.
    rewrite (app_assoc (header_bytes h)), (app_assoc (header_bytes h)).
    replace (32 + zlen (osect_bytes E o)) with (zlen (header_bytes h ++ osect_bytes E o)) by (rewrite zlen_app, zlen_header_bytes; reflexivity).
    apply write_at_mid. rewrite !zlen_words, zlen_zrep. unfold offs. rewrite zlen_pos_from, zlen_map.
    apply yields_len in P4. apply F2_length in P5. unfold zlen in *. lia.
  - exists oma', k4. rewrite (bind_run _ _ _ (s', k4) tt).
    2:{ apply onr_run. unfold fps_finalize, k4. cbn [s_header]. rewrite Hoo. reflexivity. }
    split; [reflexivity|]. cbn [k4 s_fp grow fp_of fdata flog app fpos]. unfold file_of, log_after, first_pass.
    rewrite Hoo. cbn [app]. rewrite app_nil_r. auto.
Qed.

Lemma pack_inv s s' k' oma' :
  pack src (fp_sink E) n csz last m oba obp oma (s, cfs_of (fp_of [])) = ((s', k'), Ok oma') ->
  exists h o chunks cs, pack_inputs s s' h o chunks cs.
Proof.
  intros H. unfold pack in H. fold ba bp ma in H.
  apply bind_Ok in H as (st0 & max_app & H1 & H). unfold lift in H1. injection H1 as <- Hma.
  apply bind_Ok in H as (st1 & h & H1 & H). unfold lift in H1. injection H1 as <- Hh.
  unfold FORMAT_VERSION in *.
  pose proof (mk_header_ok _ _ _ _ _ _ _ _ _ _ Hh) as Hok.
  pose proof (mk_header_Ok _ _ _ _ _ _ _ _ _ _ Hh) as (_ & Hnum & ck & Hck & Hheq).
  unfold header_nums_ok in Hnum.
  assert (Hnc : h_nchunks h = n) by (rewrite Hheq; reflexivity).
  assert (Hmx : h_max_app h = max_app) by (rewrite Hheq; reflexivity).
  clear Hheq.
  cbn [fp_sink cs_configure cs_write_header cs_write_metadata cs_init_offsets cs_put cs_finalize] in H.
  set (k0 := fps_configure ba h (cfs_of (fp_of []))) in H.
  rewrite (bind_run _ _ _ (s, k0) tt) in H by reflexivity.
  set (k1 := mkCFS (grow (fp_of []) (header_bytes h)) 0 h []).
  rewrite (bind_run _ _ _ (s, k1) tt) in H.
  2:{ apply onr_run. unfold fps_write_header, on_fp, k0, fps_configure, cfs_of; cbn [s_header s_fp s_meta_total s_storage].
      rewrite (bind_lift _ _ _ _ (header_encode_ok h Hok)), f_write_end by reflexivity. reflexivity. }
  assert (A1 : at_end (s_fp k1)) by (apply at_end_grow; reflexivity).
  apply bind_Ok in H as ([s2 k2'] & oma2 & HM & H).
  assert (M : exists o, meta_plan m ma o /\ s2 = s /\
     k2' = mkCFS (grow (fp_of []) (header_bytes h ++ osect_bytes E o)) (zlen (osect_bytes E o)) h []).
  { unfold meta_plan. destruct (is_none m) eqn:Hm.
    - exists None. inversion HM; subst. unfold k1. cbn [osect_bytes]. rewrite app_nil_r. auto.
    - apply bind_Ok in HM as ([? ?] & a & HM1 & HM2). inversion HM2; subst; clear HM2.
      unfold onr in HM1; cbn [fst snd] in HM1.
      destruct (plan_metadata E m ma) as [[[mh p] a']|e] eqn:HP.
      + exists (Some (sect_of mh p m)). split; [eauto 6|].
        unfold fps_write_metadata in HM1. erewrite (bind_run _ _ k1) in HM1.
        2:{ unfold on_fp. erewrite write_metadata_run by (eauto; cbn; unfold zlen; lia).
            rewrite put_at_end by exact A1. reflexivity. }
        cbn [fst snd s_fp s_meta_total s_header s_storage k1] in HM1. rewrite grow_grow in HM1.
        inversion HM1; subst. cbn [osect_bytes]. auto.
      + unfold fps_write_metadata in HM1. erewrite (bind_run_raise _ _ k1) in HM1.
        2:{ unfold on_fp. rewrite (write_metadata_raise _ _ _ _ HP). reflexivity. }
        discriminate. }
  destruct M as (o & Hplan & -> & ->). clear HM.
  set (k2 := mkCFS (grow (fp_of []) (header_bytes h ++ osect_bytes E o)) (zlen (osect_bytes E o)) h []) in *.
  assert (A2 : at_end (s_fp k2)) by (apply at_end_grow; reflexivity).
  set (tb := if h_offsets h then words (zrep (h_nchunks h + h_max_app h) (-1)) else []).
  set (k3 := mkCFS (grow (fp_of []) (header_bytes h ++ osect_bytes E o ++ tb)) (zlen (osect_bytes E o)) h
                   (if h_offsets h then zrep n (-1) else [])).
  rewrite (bind_run _ _ _ (s, k3) tt) in H.
  2:{ apply onr_run. unfold fps_init_offsets, k3, tb. cbn [k2 s_header s_fp s_meta_total].
      destruct (h_offsets h) eqn:Hoo.
      - unfold total_prospective_chunks. replace (0 <=? h_nchunks h) with true by lia.
        unfold on_fp; cbn [s_fp s_meta_total s_header s_storage].
        rewrite f_write_end by exact A2. rewrite grow_grow, minus1_words, <- app_assoc, Hnc. reflexivity.
      - unfold k2. rewrite app_nil_r. reflexivity. }
  assert (A3 : at_end (s_fp k3)) by (apply at_end_grow; reflexivity).
  apply bind_Ok in H as ([s4 k4'] & [] & HL & H).
  pose proof HL as HL'. apply pack_loop_inv in HL' as (chunks & cs & HY & HF).
  rewrite (pack_loop_run (ps_compress src ba) _ s chunks s4 cs k3 0 [] 0 HY HF A3 eq_refl) in HL.
  2:{ cbn [k3 s_header s_storage]. intros ->. rewrite Nat.add_0_r. unfold zrep. cbn [app]. f_equal.
      unfold zlen in Hsteps. lia. }
  assert (POS : fpos (s_fp k3) = body_pos E h o).
  { cbn [k3 s_fp grow fp_of fpos]. rewrite !zlen_app, zlen_header_bytes. unfold body_pos, table_len, tb.
    destruct (h_offsets h); [rewrite zlen_words, zlen_zrep|change (zlen (@nil byte)) with 0]; lia. }
  cbn [k3 s_header s_meta_total s_storage] in HL. fold k3 in HL. rewrite POS in HL. cbn [app] in HL.
  fold (offs h o cs) in HL. rewrite app_nil_r in HL.
  apply bind_Ok in H as ([s5 k5] & [] & HFin & H). injection H as -> -> ->.
  unfold onr in HFin. cbn [fst snd] in HFin.
  destruct (fps_finalize E k4') as [k6 r6] eqn:E6. injection HFin as -> -> ->.
  injection HL as HL.
  exists h, o, chunks, cs. constructor; auto.
  - rewrite Hmx. exact Hma.
  - rewrite Hmx. exact Hh.
  - intros Hoo. rewrite <- HL, Hoo in E6. unfold fps_finalize in E6. cbn [s_header] in E6. rewrite Hoo in E6.
    unfold on_fp in E6. cbn [s_fp s_meta_total s_storage s_header] in E6.
    pose proof (zlen_nonneg (osect_bytes E o)). unfold BLOSCPACK_HEADER_LENGTH in E6.
    rewrite (bind_run _ _ _ _ _ (f_seek_ok (32 + zlen (osect_bytes E o)) _ ltac:(lia))) in E6.
    unfold write_offsets in E6.
    destruct (encode_offsets (offs h o cs)) as [b|e] eqn:EO.
    + apply encode_offsets_inv in EO as [F _]. exact F.
    + discriminate E6.
Qed.

(** Packing yields a well-formed file. *)
Lemma pack_inputs_wf (view : Chunk -> bytes) s s' h o chunks cs :
  (forall x c, ps_compress src ba x = Ok c -> exists a, e_compress E a (view x) = Ok c) ->
  pack_inputs s s' h o chunks cs ->
  wf E (file_of h o cs) h o (combine cs (map view chunks)) [].
Proof.
  intros HV P. pose proof (pack_inputs_header _ _ _ _ _ _ P) as (Hok & Hv & Ho & Hmd & Hck & Hts & Hcs & Hl & Hnc).
  destruct P as [P1 P2 P3 P4 P5 P6].
  destruct (meta_plan_ok o P3) as (O1 & O2 & O3).
  pose proof (yields_len _ _ _ _ P4) as L1. pose proof (F2_length _ _ _ P5) as L2.
  assert (MC : map (fun cx => stored E (h_checksum h) (fst cx)) (combine cs (map view chunks))
               = map (stored E (h_checksum h)) cs).
  { rewrite <- (map_map fst (stored E (h_checksum h))). f_equal.
    clear -L2. revert chunks L2. induction cs as [|c cs IH]; intros [|x chunks] L; cbn in *; try lia; [reflexivity|].
    f_equal. apply IH. lia. }
  assert (LC : zlen (combine cs (map view chunks)) = n).
  { unfold zlen in *. rewrite combine_length, map_length. lia. }
  constructor; auto; try congruence; try lia.
  - clear -HV P5 HE. induction P5 as [|x c chunks cs H _ IH]; cbn; constructor; auto.
    destruct (HV _ _ H) as [a Ha]. unfold chunk_ok; cbn. eapply ok_decompress; eauto.
  - intros Hoo. unfold positions. rewrite MC. apply P6; auto.
  - unfold file_of, table, positions, body, offs. rewrite MC, app_nil_r. reflexivity.
Qed.

End Pack.
End WithEnv.
