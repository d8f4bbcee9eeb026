(** Proofs for C98: the messages while a file is packed. *)
From Verif Require Import Base PyVal Checksums Headers Pretty Args FileIO Append Objects Log Report Chatter Verbose Opening Closing Spec Archive ObjectsSpec FormatSpec ReadSpec ReviseSpec WriteSpec ChatSpec OpeningSpec ClosingSpec
  BaseLemmas HeaderProofs IOProofs WfProofs PackProofs DamageProofs CrcProofs SmallProofs BytesProofs MetaProofs FormatProofs ResignProofs ObjectsProofs ReportProofs ReadProofs ExcPack ReviseProofs WriteProofs ChatProofs OpeningProofs.
From Verif Require NumpyProofs.
Notation pack_prefix := NumpyProofs.pack_prefix.
Notation pack_split := NumpyProofs.pack_split.
Notation pack_rest := NumpyProofs.pack_rest.
From Coq Require Import ZifyBool ZifyNat.
Ltac Zify.zify_post_hook ::= Z.div_mod_to_equations.

(** ** Steps with the log alone *)
Definition hearsL {A} (D : SM logst A) (r : res A) (ms : list (Z * text)) : Prop := forall l, known l -> D l = (heard l ms, r).
Lemma hl_pure {A} (r : res A) : hearsL (lift r) r [].
Proof. intros l K. rewrite heard_nil. reflexivity. Qed.
Lemma hl_lift {A B} (r : res A) x (K : A -> SM logst B) R ms : r = Ok x -> hearsL (K x) R ms -> hearsL (bind (lift r) K) R ms.
Proof. intros -> H l L. rewrite (bind_lift _ _ _ _ eq_refl). exact (H l L). Qed.
Lemma hl_raise {A B} (r : res A) e (K : A -> SM logst B) : r = Raise e -> hearsL (bind (lift r) K) (Raise e) [].
Proof. intros -> l L. rewrite (bind_lift_raise _ _ _ _ eq_refl), heard_nil. reflexivity. Qed.
Lemma hl_debug {A} m (K : SM logst A) R ms : plain m -> hearsL K R ms -> hearsL (debug m ;;; K) R ((2, m) :: ms).
Proof.
  intros P H l L. rewrite (bind_run _ _ _ _ _ (say_one m "DEBUG" 2 l P eq_refl L)).
  rewrite (H _ (heard_known _ _ L)), heard_heard. reflexivity.
Qed.
Lemma hl_debug_as {A} m m' (K : SM logst A) R ms : m = m' -> plain m' -> hearsL K R ms -> hearsL (debug m ;;; K) R ((2, m') :: ms).
Proof. intros ->. apply hl_debug. Qed.
Lemma hl_bind {A B} (D : SM logst A) x ms (K : A -> SM logst B) R ms' : hearsL D (Ok x) ms -> hearsL (K x) R ms' -> hearsL (bind D K) R (ms ++ ms').
Proof. intros H HK l L. rewrite (bind_run _ _ _ _ _ (H l L)), (HK _ (heard_known _ _ L)), heard_heard. reflexivity. Qed.
Lemma hl_bind_raise {A B} (D : SM logst A) e ms (K : A -> SM logst B) : hearsL D (Raise e) ms -> hearsL (bind D K) (Raise e) ms.
Proof. intros H l L. rewrite (bind_run_raise _ _ _ _ _ (H l L)). reflexivity. Qed.
Lemma hears_onr {S A} (D : SM logst A) r (s : S) ms : hearsL D r ms -> hears (onr D) (lift r) s ms.
Proof. intros H l L. rewrite (onr_run _ _ _ _ _ (H l L)). reflexivity. Qed.

(** ** Steps of a sink *)
Lemma hears_sink {A} (D : SM (fp * logst) A) M k ms : hears D M (s_fp k) ms -> hears (sink_fp D) (on_fp M) k ms.
Proof.
  intros H l L. unfold sink_fp, on_fp. cbn [fst snd]. rewrite (H l L). destruct (M (s_fp k)) as [f r]. reflexivity.
Qed.
Lemma hears_snk {S K A} (D : SM (K * logst) A) (M : SM K A) (s : S) k ms : hears D M k ms -> hears (on_snk D) (onr M) (s, k) ms.
Proof. intros H l L. unfold on_snk, onr. cbn [fst snd]. rewrite (H l L). destruct (M k) as [k' r]. reflexivity. Qed.
Lemma hears_any {S A B} (D : SM (S * logst) A) M s ms (K : A -> SM (S * logst) B) K' :
  hears D M s ms -> (forall s' x, M s = (s', Ok x) -> hears (K x) (K' x) s' []) -> hears (bind D K) (bind M K') s ms.
Proof.
  intros H HK. destruct (M s) as [s' [x|e]] eqn:R.
  - rewrite <- (app_nil_r ms). apply (hears_bind _ _ _ _ _ _ _ _ _ H R). apply HK. reflexivity.
  - exact (hears_bind_raise _ _ _ _ _ _ _ _ H R).
Qed.
Lemma f_write_ok x f : exists f', f_write x f = (f', Ok tt).
Proof. destruct f. eexists. reflexivity. Qed.
Lemma hears_write {A} x (K : unit -> SM (fp * logst) A) K' f ms : (forall f', hears (K tt) (K' tt) f' ms) -> hears (bind (onl (f_write x)) K) (bind (f_write x) K') f ms.
Proof. intros H. destruct (f_write_ok x f) as (f' & W). apply (hears_step _ _ _ _ _ _ _ W). apply H. Qed.
Lemma hears_notes {S A} m ls (K : SM (S * logst) A) M s ms : lines m ls -> Forall (fun x => x <> []) ls -> hears K M s (map (pair 2) ms) -> hears (note m ;;; K) M s (map (pair 2) (ls ++ ms)).
Proof. intros L N H. rewrite map_app. apply hears_lines; auto. Qed.

Section WithEnv.
Variable E : Env.
Variable dg : Z -> bytes -> bytes.
Hypothesis HD : forall code d, 0 <= code < 9 -> is_digest E code d (dg code d).
Hypothesis EK : EnvOK E.
Variable nm_app nm_meta : text.
Hypothesis NA : lacks nl nm_app.
Hypothesis NM : lacks nl nm_meta.

(** ** The metadata *)
Definition plan_end (a : margs) (raw p : bytes) (co : codec) : res (mheader * bytes * margs) :=
  let a' := with_codec a (codec_index co) in
  mx <~ effective_max_meta_size a' (zlen raw) ;;
  (if mx <? zlen p then Raise MetadataSectionTooSmall
   else co0 <~ codec_lookup (ma_codec a') ;;
        h <~ mk_mheader (ma_magic a') create_metadata_options (ma_checksum a') (codec_name co0) (ma_level a') (zlen raw) mx (zlen p) [] ;;
        Ok (h, p, a')).
Definition tail_said (a : margs) (raw p : bytes) (co : Z) : list text :=
  let lvl := ma_level a in
  match (match ma_max a with MMInt z => Ok z | MMCall g => g (size raw) | MMOther => Raise UnboundLocalError end) with
  | Raise _ => []
  | Ok mx => (t_ "max meta size is deemed to be: " ++ int_text mx) ::
  match place (ma_checksum a) checksum_names with
  | Some ck =>
      if (mx <? size p) || (lvl <? 0) || (9 <? lvl) || (2 ^ 32 <=? size raw) || (2 ^ 32 <=? mx) then []
      else
        let s := meta_section ck co lvl mx raw p (dg ck p) in
        [t_ "raw_metadata_header: " ++ oval_repr (OBytes (sub 0 32 s));
         t_ "metadata has " ++ int_text (mx - size p) ++ t_ " preallocated empty bytes"] ++
        (if ck =? 0 then [] else [t_ "metadata checksum " ++ named ck (dg ck p)]) ++
        [t_ "metadata section occupies a total of " ++ double_pretty_size (size s)]
  | None => []
  end end.
Definition deemed (a : margs) (raw : bytes) : list text :=
  match effective_max_meta_size a (zlen raw) with Ok mx => [t_ "max meta size is deemed to be: " ++ int_text mx] | Raise _ => [] end.
Definition told_tail (h : mheader) (p : bytes) : list text :=
  [t_ "raw_metadata_header: " ++ oval_repr (OBytes (mheader_bytes h));
   t_ "metadata has " ++ int_text (mh_max h - mh_comp h) ++ t_ " preallocated empty bytes"] ++
  (if cks_eqb (mh_checksum h) CkNone then [] else [t_ "metadata checksum (" ++ t_ (cks_name (mh_checksum h)) ++ t_ "): " ++ oval_repr (OBytes (digest E (mh_checksum h) p))]) ++
  [t_ "metadata section occupies a total of " ++ double_pretty_size (METADATA_HEADER_LENGTH + mh_comp h + (mh_max h - mh_comp h) + cks_size (mh_checksum h))].
Lemma tail_is a raw p co : ma_magic a = b_of_string "JSON" ->
  match plan_end a raw p co with
  | Raise _ => tail_said a raw p (codec_index co) = deemed a raw
  | Ok (h, p', a') => p' = p /\ mheader_ok h /\ ma_checksum a' = cks_name (mh_checksum h) /\ tail_said a raw p (codec_index co) = deemed a raw ++ told_tail h p
  end.
Proof.
  intros MJ. unfold plan_end, tail_said, deemed. cbv zeta. unfold effective_max_meta_size, with_codec. cbn [ma_max ma_codec ma_magic ma_checksum ma_level]. rewrite codec_name_nth.
  change size with (@zlen byte). destruct (match ma_max a with MMInt z => Ok z | MMCall g => g (zlen raw) | MMOther => Raise UnboundLocalError end) as [mx|e]; [|reflexivity].
  cbn [rbind]. pose proof (place_cks (ma_checksum a)) as PK.
  destruct (Z.ltb_spec mx (zlen p)) as [L|L]; [destruct (place _ _); reflexivity|]. cbn [orb].
  replace (codec_lookup (codec_name co)) with (@Ok codec co) by (destruct co; reflexivity). cbn [rbind]. rewrite MJ.
  unfold mk_mheader. change (check_str (b_of_string "JSON") 8) with (@Ok unit tt). cbn [rbind].
  replace (check_options create_metadata_options) with (@Ok unit tt) by reflexivity. cbn [rbind].
  destruct (check_valid_checksum (ma_checksum a)) as [ck|e]; destruct PK as [-> PK]; [|reflexivity]. cbn [rbind]. rewrite check_valid_codec_name. cbn [rbind].
  pose proof (zlen_nonneg raw). pose proof (zlen_nonneg p). change (2 ^ 32) with 4294967296.
  destruct ((ma_level a <? 0) || (9 <? ma_level a)) eqn:LV; cbn [orb]; [rewrite check_range_out by (unfold MAX_CLEVEL; lia); reflexivity|]. rewrite check_range_in by (unfold MAX_CLEVEL; lia). cbn [rbind].
  destruct (Z.leb_spec 4294967296 (zlen raw)); cbn [orb]; [rewrite check_range_out by (unfold MAX_META_SIZE; lia); reflexivity|]. rewrite check_range_in by (unfold MAX_META_SIZE; lia). cbn [rbind].
  destruct (Z.leb_spec 4294967296 mx); cbn [orb]; [rewrite check_range_out by (unfold MAX_META_SIZE; lia); reflexivity|]. rewrite !check_range_in by (unfold MAX_META_SIZE; lia). cbn [rbind].
  change (check_str [] 8) with (@Ok unit tt). cbn [rbind]. set (h := mkMH _ _ ck co _ _ _ _ _).
  assert (OK : mheader_ok h) by (unfold h, mheader_ok; cbn [mh_magic mh_options mh_level mh_size mh_max mh_comp mh_user]; repeat split; try lia; cbn; lia).
  split; [reflexivity|]. split; [exact OK|]. split; [exact PK|].
  assert (SE : meta_section (cks_index ck) (codec_index co) (ma_level a) mx raw p (dg (cks_index ck) p) =
    mheader_bytes h ++ p ++ zrep (mh_max h - mh_comp h) x00 ++ digest E (mh_checksum h) p).
  { unfold mheader_bytes, meta_section, h. cbn [mh_magic mh_options mh_level mh_size mh_max mh_comp mh_user mh_checksum mh_codec].
    rewrite !le_enc_le, <- (dg_digest E dg HD), <- !app_assoc. reflexivity. }
  rewrite SE, sub_at0 by (rewrite size_zlen, zlen_mheader_bytes by exact OK; reflexivity).
  assert (SZ : METADATA_HEADER_LENGTH + mh_comp h + (mh_max h - mh_comp h) + cks_size (mh_checksum h) =
    zlen (mheader_bytes h ++ p ++ zrep (mh_max h - mh_comp h) x00 ++ digest E (mh_checksum h) p)).
  { rewrite !zlen_app, zlen_mheader_bytes, zlen_zrep, (zlen_digest E EK) by exact OK. unfold METADATA_HEADER_LENGTH. change (mh_comp h) with (zlen p). change (mh_max h) with mx. lia. }
  unfold told_tail. rewrite SZ. change (mh_max h - mh_comp h) with (mx - zlen p). change (mh_checksum h) with ck. rewrite (dg_digest E dg HD).
  destruct ck; reflexivity.
Qed.
Lemma silent_end a raw p co : hearsL (mx <- lift (effective_max_meta_size (with_codec a (codec_index co)) (zlen raw)) ;;
  debug (t_ "max meta size is deemed to be: " ++ int_text mx) ;;;
  (if mx <? zlen p then raise MetadataSectionTooSmall
   else co0 <- lift (codec_lookup (ma_codec (with_codec a (codec_index co)))) ;;
        h <- lift (mk_mheader (ma_magic (with_codec a (codec_index co))) create_metadata_options (ma_checksum (with_codec a (codec_index co))) (codec_name co0)
                              (ma_level (with_codec a (codec_index co))) (zlen raw) mx (zlen p) []) ;;
        ret (h, p, with_codec a (codec_index co)))) (plan_end a raw p co) (map (pair 2) (deemed a raw)).
Proof.
  unfold plan_end, deemed. cbv zeta. change (effective_max_meta_size (with_codec a (codec_index co)) (zlen raw)) with (effective_max_meta_size a (zlen raw)).
  destruct (effective_max_meta_size _ _) as [mx|e]; [|exact (hl_raise _ _ _ eq_refl)]. apply (hl_lift _ mx); [reflexivity|]. cbn [rbind map].
  apply hl_debug; [split; [rewrite lacks_app; split; [apply lacks_t; reflexivity|apply int_lacks]|discriminate]|].
  intros l _. rewrite heard_nil. unfold bind, lift. destruct (mx <? zlen p); [reflexivity|].
  destruct (codec_lookup _) as [c|e]; [|reflexivity]. cbn [rbind]. destruct (mk_mheader _ _ _ _ _ _ _ _ _) as [h|e]; reflexivity.
Qed.
Definition raw_line (c : bool) (p : bytes) : text := t_ "Raw " ++ t_ (if c then "compressed" else "uncompressed") ++ t_ " metadata of size " ++ in_quotes (int_text (zlen p)) ++ t_ ": " ++ oval_repr (OBytes p).
Lemma raw_line_is (c : bool) p : t_ "Raw " ++ t_ (if c then "compressed" else "uncompressed") ++ t_ " metadata of size '" ++ int_text (zlen p) ++ t_ "': " ++ oval_repr (OBytes p) = raw_line c p.
Proof. unfold raw_line, in_quotes. rewrite <- !app_assoc. reflexivity. Qed.
Lemma raw_line_plain c p : plain (raw_line c p).
Proof.
  rewrite <- raw_line_is. split; [|discriminate]. cbn [oval_repr]. rewrite !lacks_app. repeat split; try (apply lacks_t; reflexivity); [destruct c; apply lacks_t; reflexivity|apply int_lacks|apply bytes_repr_lacks].
Qed.
Definition useless_line (x y : bytes) : text := t_ "metadata compression requested, but it was not beneficial, deactivating (raw: " ++ in_quotes (int_text (size x)) ++ t_ " vs. compressed: " ++ in_quotes (int_text (size y)) ++ t_ ") ".
Lemma useless_line_is x y : t_ "metadata compression requested, but it was not beneficial, deactivating (raw: '" ++ int_text (zlen x) ++ t_ "' vs. compressed: '" ++ int_text (zlen y) ++ t_ "') " = useless_line x y.
Proof. unfold useless_line, in_quotes. rewrite <- !app_assoc. reflexivity. Qed.
Lemma useless_line_plain x y : plain (useless_line x y).
Proof. rewrite <- useless_line_is. split; [|discriminate]. rewrite !lacks_app. repeat split; try (apply lacks_t; reflexivity); apply int_lacks. Qed.
Lemma plan_hears m a : exists pm, hearsL (w_plan E m a) (plan_metadata E m a) (map (pair 2) pm) /\
  match plan_metadata E m a with
  | Raise _ => section_said E dg m a = pm
  | Ok (h, p, a') => mheader_ok h /\ ma_checksum a' = cks_name (mh_checksum h) /\ section_said E dg m a = pm ++ told_tail h p
  end.
Proof.
  unfold w_plan, plan_metadata, section_said, serializer_lookup. cbv zeta. rewrite same_eqb.
  destruct (bytes_eqb (ma_magic a) (b_of_string "JSON")) eqn:MJ; cbn [negb rbind].
  2:{ exists []. split; [exact (hl_raise _ _ _ eq_refl)|reflexivity]. }
  apply bytes_eqb_eq in MJ. destruct (e_dumps E m) as [raw|e]; cbn [rbind].
  2:{ exists []. split; [apply (hl_lift _ tt); [reflexivity|]; exact (hl_raise _ _ _ eq_refl)|reflexivity]. }
  pose proof (place_codec (ma_codec a)) as PC.
  assert (FIN : forall pre p co c, c = should_compress (with_codec a (codec_index co)) ->
    exists pm, pm = pre ++ raw_line c p :: deemed a raw /\
    match plan_end a raw p co with
    | Raise _ => pre ++ raw_line c p :: tail_said a raw p (codec_index co) = pm
    | Ok (h, p', a') => mheader_ok h /\ ma_checksum a' = cks_name (mh_checksum h) /\ pre ++ raw_line c p :: tail_said a raw p (codec_index co) = pm ++ told_tail h p'
    end).
  { intros pre p co c _. eexists. split; [reflexivity|]. pose proof (tail_is a raw p co MJ) as T. destruct (plan_end a raw p co) as [[[h p'] a']|e].
    - destruct T as (-> & OK & CK & ->). split; [exact OK|]. split; [exact CK|]. rewrite <- app_assoc. reflexivity.
    - rewrite T. reflexivity. }
  unfold packed_text.
  destruct (String.eqb_spec (ma_codec a) "None") as [N|N].
  { (* none is asked for *)
    assert (SC : should_compress a = false) by (unfold should_compress; rewrite N; reflexivity).
    assert (WC : with_codec a (codec_index CoNone) = a) by (unfold with_codec; destruct a; cbn in *; subst; reflexivity).
    destruct (FIN [] raw CoNone false ltac:(rewrite WC; auto)) as (pm & -> & T). rewrite SC. cbn [rbind].
    pose proof (silent_end a raw raw CoNone) as SE. unfold plan_end in T, SE. cbv zeta in T, SE. rewrite WC in T, SE.
    eexists. split; [|replace (place (ma_codec a) codec_names) with (Some 0) by (rewrite N; reflexivity); cbn [Z.eqb]; exact T].
    apply (hl_lift _ tt); [reflexivity|]. apply (hl_lift _ raw); [reflexivity|]. apply (hl_lift _ (raw, a)); [reflexivity|].
    cbv beta iota. rewrite SC. apply (hl_debug_as _ _ _ _ _ (raw_line_is false raw)); [exact (raw_line_plain false raw)|]. exact SE. }
  assert (SC : should_compress a = true) by (unfold should_compress; destruct (String.eqb_spec (ma_codec a) "None"); [contradiction|reflexivity]).
  assert (CL : codec_lookup (ma_codec a) = match place (ma_codec a) codec_names with None => Raise KeyError | Some _ => Ok CoZlib end /\
    (place (ma_codec a) codec_names = None \/ place (ma_codec a) codec_names = Some 1 /\ ma_codec a = codec_name CoZlib)).
  { unfold codec_lookup. unfold check_valid_codec in PC. destruct (find _ codec_avail) as [c|]; destruct PC as [-> PC]; [|auto].
    destruct c; [contradiction (N PC)|]. auto. }
  rewrite SC. destruct CL as (CL & [PL|[PL CZ]]); rewrite PL in *.
  { exists []. rewrite CL. cbn [rbind]. split; [|reflexivity]. apply (hl_lift _ tt); [reflexivity|]. apply (hl_lift _ raw); [reflexivity|].
    apply hl_bind_raise. exact (hl_raise _ _ _ eq_refl). }
  rewrite CL. cbn [rbind codec_compress Z.eqb].
  destruct (e_zcompress E raw (ma_level a)) as [z|e] eqn:CZE; cbn [rbind].
  2:{ exists []. split; [|reflexivity]. apply (hl_lift _ tt); [reflexivity|]. apply (hl_lift _ raw); [reflexivity|].
      apply hl_bind_raise. apply (hl_lift _ CoZlib); [reflexivity|]. cbn [codec_compress]. rewrite CZE. exact (hl_raise _ _ _ eq_refl). }
  change (zlen raw <? zlen z) with (size raw <? size z). destruct (size raw <? size z) eqn:LT; cbn [rbind].
  - (* of no use *)
    set (ln := useless_line raw z).
    destruct (FIN [ln] raw CoNone false eq_refl) as (pm & -> & T).
    pose proof (silent_end a raw raw CoNone) as SE. eexists. split; [|exact T].
    apply (hl_lift _ tt); [reflexivity|]. apply (hl_lift _ raw); [reflexivity|].
    change (map (pair 2) ([ln] ++ raw_line false raw :: deemed a raw)) with ([(2, ln)] ++ (2, raw_line false raw) :: map (pair 2) (deemed a raw)).
    apply (hl_bind _ (raw, nullify_codec a)).
    + apply (hl_lift _ CoZlib); [reflexivity|]. cbn [codec_compress]. rewrite CZE. apply (hl_lift _ z); [reflexivity|]. change (zlen raw <? zlen z) with (size raw <? size z). rewrite LT.
      apply (hl_debug_as _ _ _ _ _ (useless_line_is raw z)); [exact (useless_line_plain raw z)|]. apply (hl_pure (Ok _)).
    + cbv beta iota. change (should_compress (nullify_codec a)) with false. apply (hl_debug_as _ _ _ _ _ (raw_line_is false raw)); [exact (raw_line_plain false raw)|]. exact SE.
  - assert (WC : with_codec a (codec_index CoZlib) = a) by (unfold with_codec; rewrite codec_name_nth, <- CZ; destruct a; reflexivity).
    destruct (FIN [] z CoZlib true ltac:(rewrite WC; auto)) as (pm & -> & T).
    pose proof (silent_end a raw z CoZlib) as SE. unfold plan_end in T, SE. cbv zeta in T, SE. rewrite WC in T, SE. eexists. split; [|exact T].
    apply (hl_lift _ tt); [reflexivity|]. apply (hl_lift _ raw); [reflexivity|].
    change (map (pair 2) ([] ++ raw_line true z :: deemed a raw)) with ([] ++ (2, raw_line true z) :: map (pair 2) (deemed a raw)).
    apply (hl_bind _ (z, a)).
    + apply (hl_lift _ CoZlib); [reflexivity|]. cbn [codec_compress]. rewrite CZE. apply (hl_lift _ z); [reflexivity|]. change (zlen raw <? zlen z) with (size raw <? size z). rewrite LT.
      apply (hl_pure (Ok _)).
    + cbv beta iota. rewrite SC. apply (hl_debug_as _ _ _ _ _ (raw_line_is true z)); [exact (raw_line_plain true z)|]. exact SE.
Qed.
Lemma section_hears m a f : hears (w_metadata E m a) (write_metadata E m a) f (map (pair 2) (section_said E dg m a)).
Proof.
  destruct (plan_hears m a) as (pm & H & T). unfold w_metadata, write_metadata.
  destruct (plan_metadata E m a) as [[[h p] a']|e].
  2:{ rewrite T. exact (hears_bind_raise _ _ _ _ _ _ _ _ (hears_onr _ _ f _ H) eq_refl). }
  destruct T as (OK & CK & ->). rewrite map_app. apply (hears_bind _ _ _ _ _ _ _ _ _ (hears_onr _ _ f _ H) eq_refl). cbv beta iota.
  apply (hears_lift _ _ _ _ _ _ (mheader_encode_ok h OK)). unfold told_tail. cbn [app map].
  apply hears_note; [apply raw_plain; [apply lacks_t; reflexivity|discriminate]|].
  apply hears_write. intros f1. apply hears_write. intros f2. apply hears_write. intros f3.
  apply hears_note; [split; [rewrite !lacks_app; repeat split; try (apply lacks_t; reflexivity); apply int_lacks|discriminate]|].
  rewrite map_app. rewrite CK. cbv zeta.
  set (tot := METADATA_HEADER_LENGTH + mh_comp h + (mh_max h - mh_comp h) + cks_size (mh_checksum h)).
  assert (EN : forall f4 : fp, hears (note (t_ "metadata section occupies a total of " ++ double_pretty_size tot) ;;; ret (tot, a')) (ret (tot, a')) f4
     (map (pair 2) [t_ "metadata section occupies a total of " ++ double_pretty_size tot])).
  { intros f4. apply hears_note; [|apply hears_pure]. split; [|discriminate]. rewrite lacks_app. split; [apply lacks_t; reflexivity|apply size_text_lacks]. }
  destruct (cks_eqb (mh_checksum h) CkNone).
  - exact (EN f3).
  - set (dgst := digest E (mh_checksum h) p). destruct (f_write_ok dgst f3) as (f4 & W).
    refine (hears_bind _ _ _ [_] _ _ _ _ _ _ W (EN f4)). intros l L. rewrite W. cbn [fst snd].
    rewrite (bind_run _ _ _ _ _ (onl_run _ _ _ _ _ W)). apply onr_run. refine (say_one _ "DEBUG" 2 l _ eq_refl L). split; [|discriminate].
    cbn [oval_repr]. rewrite !lacks_app. repeat split; try (apply lacks_t; reflexivity); [destruct (mh_checksum h); apply lacks_t; reflexivity|apply bytes_repr_lacks].
Qed.

(** ** The beginning *)
Definition bargs_fields (a : bargs) : list text :=
  [field "typesize" (int_text (ba_typesize a)); field "clevel" (int_text (ba_clevel a)); field "shuffle" (oval_repr (OBool (ba_shuffle a))); field "cname" (repr_quoted (t_ (ba_cname a)))].
Definition bpargs_fields (a : bpargs) : list text :=
  [field "offsets" (oval_repr (OBool (bp_offsets a))); field "checksum" (repr_quoted (t_ (bp_checksum a)));
   field "max_app_chunks" (match bp_max_app a with MAInt z => int_text z | _ => nm_app end)].
Definition margs_fields (a : margs) : list text :=
  [field "magic_format" ("b"%char :: repr_quoted (map ascii_of_byte (ma_magic a))); field "meta_checksum" (repr_quoted (t_ (ma_checksum a)));
   field "meta_codec" (repr_quoted (t_ (ma_codec a))); field "meta_level" (int_text (ma_level a));
   field "max_meta_size" (match ma_max a with MMInt z => int_text z | _ => nm_meta end)].
Ltac fields_lack := repeat constructor; (apply field_lacks; [cbv; intuition discriminate|auto using int_lacks, bool_lacks, bytes_repr_lacks, repr_quoted_lacks]).
Lemma bargs_lines a : lines (pformat_text (bargs_obj a)) (t_ "BloscArgs:" :: map (app (repeat " "%char 4)) (bargs_fields a)).
Proof. apply (report_lines (t_ "BloscArgs:") 4 (bargs_fields a)); [cbv; intuition discriminate| |discriminate]. unfold bargs_fields. fields_lack. Qed.
Lemma bpargs_lines a : lines (pformat_text (bpargs_obj nm_app a)) (t_ "BloscpackArgs:" :: map (app (repeat " "%char 4)) (bpargs_fields a)).
Proof.
  replace (pformat_text (bpargs_obj nm_app a)) with (t_ "BloscpackArgs:" ++ nl :: repeat " "%char 4 ++ join_text (nl :: repeat " "%char 4) (bpargs_fields a)).
  2:{ unfold bpargs_fields. destruct (bp_max_app a) eqn:M; unfold bpargs_obj; rewrite M; reflexivity. }
  apply report_lines; [cbv; intuition discriminate| |discriminate]. unfold bpargs_fields. destruct (bp_max_app a); fields_lack.
Qed.
Lemma margs_lines a : lines (pformat_text (margs_obj nm_meta a)) (t_ "MetadataArgs:" :: map (app (repeat " "%char 4)) (margs_fields a)).
Proof.
  replace (pformat_text (margs_obj nm_meta a)) with (t_ "MetadataArgs:" ++ nl :: repeat " "%char 4 ++ join_text (nl :: repeat " "%char 4) (margs_fields a)).
  2:{ unfold margs_fields. destruct (ma_max a) eqn:M; unfold margs_obj; rewrite M; reflexivity. }
  apply report_lines; [cbv; intuition discriminate| |discriminate]. unfold margs_fields. destruct (ma_max a); fields_lack.
Qed.
Lemma htext_lines h : lines (header_text h) (t_ "BloscpackHeader:" :: map (app (repeat " "%char 4)) (header_fields h)).
Proof. unfold header_text. rewrite pformat_header. cbn [snd]. apply report_lines; [cbv; intuition discriminate|apply header_fields_lacks|discriminate]. Qed.
Lemma args_split m ba bp oma ma : args_said nm_app nm_meta m ba bp oma ma =
  (t_ "BloscArgs:" :: map (app (repeat " "%char 4)) (bargs_fields ba)) ++ (t_ "BloscpackArgs:" :: map (app (repeat " "%char 4)) (bpargs_fields bp)) ++
  (if is_none m then match oma with None => [] | Some _ => [t_ "metadata_args will be silently ignored"] end
   else t_ "MetadataArgs:" :: map (app (repeat " "%char 4)) (margs_fields ma)).
Proof.
  unfold args_said, bargs_fields, bpargs_fields, margs_fields, quoted.
  replace (yes_no (ba_shuffle ba)) with (oval_repr (OBool (ba_shuffle ba))) by (destruct (ba_shuffle ba); reflexivity).
  replace (yes_no (bp_offsets bp)) with (oval_repr (OBool (bp_offsets bp))) by (destruct (bp_offsets bp); reflexivity).
  destruct m, oma; reflexivity.
Qed.
Lemma hears_skip {S A} (K : SM (S * logst) A) M s ms : hears K M s ms -> hears (ret tt ;;; K) M s ms.
Proof. intros H l L. exact (H l L). Qed.
Lemma header_told k hd : header_encode (s_header k) = Ok hd -> hears w_header fps_write_header k [(2, t_ "raw_bloscpack_header: " ++ oval_repr (OBytes hd))].
Proof.
  intros H. enough (X : hears (sink_fp (b <- lift (header_encode (s_header k)) ;; note (t_ "raw_bloscpack_header: " ++ oval_repr (OBytes b)) ;;; onl (f_write b)))
    (on_fp (b <- lift (header_encode (s_header k)) ;; f_write b)) k [(2, t_ "raw_bloscpack_header: " ++ oval_repr (OBytes hd))]) by exact X.
  apply hears_sink. apply (hears_lift _ _ _ _ _ _ H). apply hears_note; [apply raw_plain; [apply lacks_t; reflexivity|discriminate]|]. apply hears_onl.
Qed.
Lemma header_written k hd : header_encode (s_header k) = Ok hd -> exists k', fps_write_header k = (k', Ok tt).
Proof.
  intros H. unfold fps_write_header, on_fp. rewrite (bind_lift _ _ _ _ H). destruct (f_write_ok hd (s_fp k)) as (f' & ->). eexists. reflexivity.
Qed.
Lemma sink_metadata_hears m a k : hears (w_sink_metadata E m a) (fps_write_metadata E m a) k (map (pair 2) (section_said E dg m a)).
Proof. apply hears_any; [apply hears_sink, section_hears|]. intros s' x _. apply hears_onl. Qed.
Lemma room_hears off a n : 1 <= n < 2 ^ 63 -> hearsL (w_max_apps nm_app off n a) (reserve off a n) (map (pair 2) (room_said nm_app off a n)).
Proof.
  intros H. rewrite <- reserve_exact by exact H. unfold room_said. rewrite <- reserve_exact by exact H. unfold w_max_apps, handle_max_apps. change (2 ^ 63) with 9223372036854775808 in *.
  rewrite check_range_in by (unfold MAX_CHUNKS; lia). cbn [rbind]. apply (hl_lift _ tt); [reflexivity|]. replace (n =? -1) with false by lia. cbn [negb]. rewrite andb_true_r.
  assert (PI : forall s z, existsb (Ascii.eqb nl) (t_ s) = false -> t_ s <> [] -> plain (t_ s ++ int_text z)).
  { intros s z X Y. split; [rewrite lacks_app; split; [apply lacks_t; exact X|apply int_lacks]|]. destruct (t_ s); [congruence|discriminate]. }
  destruct off; cbn [negb].
  - assert (FIN : forall v, 0 <= v -> hearsL (v' <- (if MAX_CHUNKS <? n + v
           then debug (t_ "max_app_chunks was too large, setting to max value: " ++ int_text (MAX_CHUNKS - n)) ;;; ret (MAX_CHUNKS - n)
           else ret v) ;; debug (t_ "max_app_chunks was set to: " ++ int_text v') ;;; ret v') (Ok (if MAX_CHUNKS <? n + v then MAX_CHUNKS - n else v))
        (map (pair 2) ((if (if MAX_CHUNKS <? n + v then MAX_CHUNKS - n else v) <? v then [t_ "max_app_chunks was too large, setting to max value: " ++ int_text (if MAX_CHUNKS <? n + v then MAX_CHUNKS - n else v)] else []) ++
          [t_ "max_app_chunks was set to: " ++ int_text (if MAX_CHUNKS <? n + v then MAX_CHUNKS - n else v)]))).
    { intros v V. destruct (Z.ltb_spec MAX_CHUNKS (n + v)) as [L|L].
      - replace (MAX_CHUNKS - n <? v) with true by lia. rewrite map_app. apply (hl_bind _ (MAX_CHUNKS - n)).
        + apply hl_debug; [apply PI; [reflexivity|discriminate]|exact (hl_pure (Ok _))].
        + apply hl_debug; [apply PI; [reflexivity|discriminate]|exact (hl_pure (Ok _))].
      - replace (v <? v) with false by lia. cbn [app map]. apply (hl_lift (Ok v) v); [reflexivity|].
        apply hl_debug; [apply PI; [reflexivity|discriminate]|exact (hl_pure (Ok _))]. }
    destruct a as [v|g|].
    + unfold check_range. destruct ((0 <=? v) && (v <=? MAX_CHUNKS)) eqn:CR; cbn [rbind].
      * rewrite map_app. apply (hl_bind _ v); [apply hl_debug; [split; [apply lacks_t; reflexivity|discriminate]|exact (hl_pure (Ok v))]|]. apply FIN. lia.
      * apply hl_bind_raise. apply hl_debug; [split; [apply lacks_t; reflexivity|discriminate]|]. exact (hl_raise _ _ _ eq_refl).
    + destruct (g n) as [[v|]|e]; [destruct (Z.ltb_spec v 0)| |]; cbn [rbind].
      2:{ rewrite map_app. apply (hl_bind _ v); [apply hl_debug; [split; [apply lacks_t; reflexivity|discriminate]|exact (hl_pure (Ok v))]|]. apply FIN. lia. }
      all: apply hl_bind_raise; apply hl_debug; [split; [apply lacks_t; reflexivity|discriminate]|]; exact (hl_pure (Raise _)).
    + exact (hl_raise (Raise TypeError) _ _ eq_refl).
  - rewrite map_app. apply (hl_bind _ tt).
    + destruct (match a with MAOther => _ | _ => false end); [exact (hl_pure (Ok tt))|]. intros l L. refine (say_one _ "DEBUG" 2 l _ eq_refl L). split; [apply lacks_t; reflexivity|discriminate].
    + apply hl_debug; [split; [apply lacks_t; reflexivity|discriminate]|exact (hl_pure (Ok 0))].
Qed.
Lemma begin_hears n c l m oba obp oma k0 : 1 <= n < 2 ^ 63 -> 0 <= l <= c -> c <= BUFMAX ->
  hears (w_begin E nm_app nm_meta n c l m oba obp oma) (pack_prefix (fp_sink E) n c l m oba obp oma) k0 (map (pair 2) (begin_said E dg nm_app nm_meta n c l m oba obp oma)).
Proof.
  intros HN HL HC. unfold w_begin, pack_prefix, begin_said, the_bargs, the_bpargs, the_margs. cbv zeta.
  set (ba := match oba with Some a => a | None => mkBA 8 7 true "blosclz" end).
  set (bp := match obp with Some a => a | None => mkBPA _ _ _ end). set (ma := match oma with Some a => a | None => mkMA _ _ _ _ _ end).
  change (match oba with Some a => a | None => default_bargs end) with ba.
  change (match obp with Some a => a | None => default_bpargs end) with bp. change (match oma with Some a => a | None => default_margs end) with ma.
  set (off := bp_offsets bp). set (ts := ba_typesize ba). rewrite reserve_exact by exact HN. rewrite args_split, <- !app_assoc.
  replace (match m with PNone => false | _ => true end) with (negb (is_none m)) by (destruct m; reflexivity).
  apply hears_notes; [apply bargs_lines|repeat constructor; discriminate|]. apply hears_notes; [apply bpargs_lines|repeat constructor; discriminate|].
  match goal with |- hears (bind _ (fun _ => ?K)) ?M _ (map _ (_ ++ ?ms)) => assert (R : hears K M k0 (map (pair 2) ms)) end.
  2:{ revert R. clearbody ma bp ba. destruct (is_none m); [destruct oma|]; intros R; cbn [app] in *.
      - cbn [map]. apply hears_note; [split; [apply lacks_t; reflexivity|discriminate]|exact R].
      - apply hears_skip. exact R.
      - refine (hears_notes _ (t_ "MetadataArgs:" :: map (app (repeat " "%char 4)) (margs_fields ma)) _ _ _ _ (margs_lines ma) _ R). repeat constructor; discriminate. }
  pose proof (room_hears off (bp_max_app bp) n HN) as RH.
  destruct (reserve off (bp_max_app bp) n) as [r|e] eqn:RS; [|rewrite app_nil_r; exact (hears_bind_raise _ _ _ _ _ _ _ _ (hears_onr _ _ k0 _ RH) eq_refl)]. apply reserve_ok in RS as (R0 & R1); [|exact HN].
  rewrite map_app. apply (hears_bind _ _ _ _ _ _ _ _ _ (hears_onr _ _ k0 _ RH) eq_refl).
  pose proof (header_exact_new off (negb (is_none m)) (bp_checksum bp) ts c l n r ltac:(lia) HL HN R0 R1) as HE. pose proof (place_cks (bp_checksum bp)) as PK.
  destruct (place (bp_checksum bp) checksum_names) as [k|]; [|exact (hears_lift_raise _ _ _ _ _ HE)].
  destruct HE as (ck & <- & HE). destruct ((ts <? 0) || (255 <? ts)); [exact (hears_lift_raise _ _ _ _ _ HE)|]. destruct HE as (HE1 & HE2).
  assert (CN : bp_checksum bp = cks_name ck).
  { destruct (check_valid_checksum (bp_checksum bp)) as [c'|e]; destruct PK as [PK1 PK2]; [|discriminate]. injection PK1 as PK1. rewrite PK2. f_equal. destruct ck, c'; (reflexivity || discriminate). }
  apply (hears_lift _ _ _ _ _ _ HE1). set (h := mkH 3 off (negb (is_none m)) ck ts c l n r) in *. set (hd := head _ _ _ _ _ _ _ _) in *.
  match goal with |- hears _ _ _ (map _ ([?a1; ?a2; ?a3; ?a4; ?a5; ?a6; ?a7; ?a8; ?a9; ?a10; ?a11] ++ ?ms)) =>
    assert (LS : [a1; a2; a3; a4; a5; a6; a7; a8; a9; a10] = t_ "BloscpackHeader:" :: map (app (repeat " "%char 4)) (header_fields h));
    [|change ([a1; a2; a3; a4; a5; a6; a7; a8; a9; a10; a11] ++ ms) with ([a1; a2; a3; a4; a5; a6; a7; a8; a9; a10] ++ a11 :: ms); rewrite LS; clear LS] end.
  { assert (U : forall z, 0 <= z -> size_value z = double_pretty_size z) by (intros z Hz; unfold size_value; replace (z =? -1) with false by lia; reflexivity).
    unfold header_fields, h, quoted. cbn [h_version h_offsets h_metadata h_checksum h_typesize h_chunk_size h_last_chunk h_nchunks h_max_app]. rewrite CN, !U by lia.
    destruct off, (is_none m); reflexivity. }
  apply hears_notes; [apply htext_lines|repeat constructor; discriminate|]. cbn [fp_sink cs_configure cs_write_header cs_write_metadata cs_init_offsets map].
  apply (hears_step _ _ (fps_configure ba h k0) tt); [reflexivity|].
  assert (HD1 : header_encode (s_header (fps_configure ba h k0)) = Ok hd) by exact HE2.
  destruct (header_written _ _ HD1) as (k1 & HW).
  refine (hears_bind _ _ _ [_] _ _ _ _ _ (header_told _ _ HD1) HW _).
  apply hears_any.
  - destruct (is_none m); cbn [negb]; [exact (hears_pure (Ok oma) k1)|]. apply hears_any; [apply sink_metadata_hears|]. intros s' x _. exact (hears_pure (Ok (Some x)) s').
  - intros s' x _. destruct (fps_init_offsets s') as [s2 [[]|e]] eqn:IO; [apply (hears_step _ _ _ _ _ _ _ IO); exact (hears_pure (Ok x) s2)|exact (hears_step_raise _ _ _ _ _ _ IO)].
Qed.

(** ** The table *)
Lemma table_line s : t_ "Writing '" ++ int_text (zlen s) ++ t_ "' offsets: '" ++ list_text s ++ t_ "'" =
  t_ "Writing " ++ in_quotes (int_text (zlen s)) ++ t_ " offsets: " ++ in_quotes (ints s).
Proof. unfold in_quotes, list_text, ints. rewrite commas_join, <- !app_assoc. reflexivity. Qed.
Lemma table_plain (s : list Z) : plain (t_ "Writing '" ++ int_text (zlen s) ++ t_ "' offsets: '" ++ list_text s ++ t_ "'").
Proof.
  split; [|discriminate]. unfold list_text. rewrite commas_join, !lacks_app. repeat split; try (apply lacks_t; reflexivity); [apply int_lacks|].
  apply commas_lacks, Forall_forall. intros x Hx. apply in_map_iff in Hx as (z & <- & _). apply int_lacks.
Qed.
Lemma finalize_hears k : 0 <= s_meta_total k -> (h_offsets (s_header k) = true -> Forall (fun o => 0 <= o) (s_storage k)) ->
  hears (w_finalize E) (fps_finalize E) k (map (pair 2) (if negb (h_offsets (s_header k)) then []
    else (t_ "Writing " ++ in_quotes (int_text (zlen (s_storage k))) ++ t_ " offsets: " ++ in_quotes (ints (s_storage k))) ::
         if existsb (fun o => 2 ^ 63 <=? o) (s_storage k) then [] else [t_ "Raw offsets: " ++ oval_repr (OBytes (concat (map (le 8) (s_storage k))))])).
Proof.
  intros M F l L. unfold w_finalize, fps_finalize. cbn [fst]. destruct (h_offsets (s_header k)); cbn [negb map fst snd]; [|rewrite heard_nil; reflexivity]. specialize (F eq_refl).
  refine (hears_sink _ _ k _ _ l L). set (q := BLOSCPACK_HEADER_LENGTH + s_meta_total k). rewrite <- table_line.
  assert (SK : exists f', f_seek E q (s_fp k) = (f', Ok tt)).
  { unfold f_seek. replace (q <? 0) with false by (unfold q, BLOSCPACK_HEADER_LENGTH; lia). eexists. reflexivity. }
  destruct SK as (f' & SK). apply (hears_step _ _ _ _ _ _ _ SK). unfold w_offsets, write_offsets. apply hears_note; [apply table_plain|].
  pose proof (encode_big E dg HD [] (s_storage k) (Forall_nil _) F) as EB. cbn [app] in EB. change (words []) with (@nil byte) in EB. cbn [app] in EB.
  destruct (existsb _ (s_storage k)); [exact (hears_lift_raise _ _ _ _ _ EB)|]. apply (hears_lift _ _ _ _ _ _ EB). cbn [map].
  apply hears_note; [apply raw_plain; [apply lacks_t; reflexivity|discriminate]|]. apply hears_onl.
Qed.

(** ** All of it *)
Lemma on_snk_run {S K A} (D : SM (K * logst) A) (s : S) k l k' l' r : D (k, l) = ((k', l'), r) -> on_snk D ((s, k), l) = (((s, k'), l'), r).
Proof. intros H. unfold on_snk. cbn [fst snd]. rewrite H. reflexivity. Qed.
Lemma lay_count ck a : forall xs g, snd (lay E dg ck a xs g) = None -> List.length (snd (fst (lay E dg ck a xs g))) = List.length xs.
Proof.
  induction xs as [|x xs IH]; intros g; [reflexivity|]. cbn [lay]. destruct (e_compress E a x) as [z|e]; [|discriminate]. cbn [fst snd]. intros H. cbn [List.length]. rewrite IH by exact H. reflexivity.
Qed.
Theorem pack_told b n c l m oba obp oma lg : 1 <= n < 2 ^ 63 -> 0 <= l <= c -> c <= BUFMAX -> In (l_level lg) ["NORMAL"; "VERBOSE"; "DEBUG"]%string ->
  w_pack E nm_app nm_meta n c l m oba obp oma ((fp_of b, cfs_of (fp_of [])), lg) =
  let r := pack (fp_source E) (fp_sink E) n c l m oba obp oma (fp_of b, cfs_of (fp_of [])) in
  ((fst r, heard lg (map (pair 2) (told_pack E dg nm_app nm_meta n c l (pieces n c l b) m oba obp oma))), snd r).
Proof.
  intros HN HL HC K. apply known_in in K. cbv zeta. unfold w_pack. rewrite pack_split.
  pose proof (begin_hears n c l m oba obp oma (cfs_of (fp_of [])) HN HL HC lg K) as BH. pose proof (begin_exact E dg HD EK n c l m oba obp oma HN HL HC) as B.
  unfold told_pack, told_packing, end_said. set (bs := begin_said E dg nm_app nm_meta n c l m oba obp oma) in *.
  destruct (reference_begin E dg n c l m oba obp oma) as [g [[[code q] args]|e]]; cbn [fst snd].
  2:{ destruct B as (k & B & _). rewrite B in BH |- *. cbn [fst snd] in *. rewrite (bind_run_raise _ _ _ _ _ (on_snk_run _ (fp_of b) _ _ _ _ _ BH)), !app_nil_r. reflexivity. }
  destruct B as (k0 & ck & B & -> & KD & KP & KQ & KM & KC & KO & KS). rewrite B in BH |- *. cbn [fst snd] in BH.
  rewrite (bind_run _ _ _ _ _ (on_snk_run _ (fp_of b) _ _ _ _ _ BH)). clear BH. unfold pack_rest.
  cbn [fp_sink cs_put cs_finalize ps_compress ps_steps fp_source]. cbv zeta.
  set (ba := match oba with Some a => a | None => mkBA 8 7 true "blosclz" end). change (the_bargs oba) with ba. change (match oba with Some a => a | None => default_bargs end) with ba.
  replace (match obp with Some a => bp_offsets a | None => true end) with (bp_offsets (the_bpargs obp)) by (destruct obp; reflexivity).
  set (off := bp_offsets (the_bpargs obp)) in *. set (lg1 := heard lg (map (pair 2) bs)). pose proof (heard_known _ (map (pair 2) bs) K) as K1. fold lg1 in K1.
  (* the chunks *)
  assert (P : placed k0).
  { split; [unfold at_end; rewrite KP, KD; reflexivity|]. rewrite KS. destruct off; [|constructor]. unfold zrep. apply Forall_forall. intros o I. apply repeat_spec in I. unfold size. lia. }
  destruct (BytesProofs.fp_source_run E n c l b ltac:(lia) ltac:(lia) ltac:(lia)) as (s' & Y). cbn [fp_source ps_steps] in Y.
  pose proof (loop_says E dg HD (Chunk:=bytes) n (@zlen byte) (compress_chunk_str E ba) (fp_source_steps n c l) _ (fp_of b) s' 0 k0 lg1 Y P ltac:(lia)) as LS.
  pose proof (BytesProofs.zlen_fp_steps E n c l ltac:(lia)) as ZS. cbn [fp_source ps_steps] in ZS. unfold fp_source_steps in ZS, LS |- *. rewrite KO, KS, KC, (takes_pieces E dg HD) in LS by lia.
  specialize (LS ltac:(intros ->; unfold zrep, zlen in ZS |- *; rewrite map_length in *; rewrite repeat_length; lia) K1). cbv zeta in LS. rewrite spoken_heard in LS by exact K1.
  unfold lg1 in LS. rewrite heard_heard in LS.
  set (sizes := chunk_sizes n c l) in *.
  assert (LN : List.length sizes = Z.to_nat n) by (unfold sizes, chunk_sizes, zrep; rewrite app_length, repeat_length; cbn [List.length]; lia).
  destruct (loop_exact E dg HD ba sizes 0 (fp_of b) k0 []) as (nf' & k' & LP & LD & LQ & LT & LH & LM).
  { rewrite KP. apply zlen_nonneg. } { cbn [fpos fp_of]. lia. }
  { unfold sizes, chunk_sizes, zrep. apply Forall_app. split; [apply Forall_forall; intros x I; apply repeat_spec in I; lia|repeat constructor; lia]. }
  { reflexivity. }
  { cbn [app]. rewrite KO, KS. intros ->. rewrite LN. reflexivity. }
  rewrite KC, KO, KD, KP in *. cbn [app] in *.
  change (rest (fp_of b)) with (zdrop 0 b) in *. rewrite zdrop_0 in * by lia.
  rewrite <- takes_reads in LP, LD, LT. unfold sizes in LP, LD, LT. rewrite (takes_pieces E dg HD) in LP, LD, LT by lia. rewrite <- (lay_putl E dg HD) in LP, LD, LT.
  pose proof (putl_starts E dg HD ck ba (pieces n c l b) (zlen g) g (zlen_nonneg g)) as ST. rewrite <- (lay_putl E dg HD) in ST.
  pose proof (lay_count (cks_index ck) ba (pieces n c l b) g) as CT.
  destruct (lay E dg (cks_index ck) ba (pieces n c l b) g) as [[f starts] o]. cbn [fst snd] in *.
  change (compress_chunk_str E ba) with (e_compress E ba) in *.
  unfold sizes, lg1 in *. rewrite LP in LS. cbn [fst snd] in LS. rewrite <- map_app in LS.
  set (cs := pack_story _ _ _ _ _) in *.
  destruct o as [e|].
  { rewrite (bind_run_raise _ _ _ _ _ LS), (bind_run_raise _ _ _ _ _ LP), orb_true_r, app_nil_r. reflexivity. }
  rewrite (bind_run _ _ _ _ _ LS), (bind_run _ _ _ _ _ LP). rewrite orb_false_r.
  set (lg2 := heard lg (map (pair 2) (bs ++ cs))). pose proof (heard_known _ (map (pair 2) (bs ++ cs)) K) as K2. fold lg2 in K2. rewrite app_assoc, map_app.
  pose proof (finalize_hears k' ltac:(rewrite LM; exact KM) ltac:(rewrite LH, KO; intros X; rewrite (LT eq_refl X); exact ST) lg2 K2) as FH.
  rewrite LH, KO in FH.
  assert (EQ : (if negb off then [] else (t_ "Writing " ++ in_quotes (int_text (zlen (s_storage k'))) ++ t_ " offsets: " ++ in_quotes (ints (s_storage k'))) ::
         if existsb (fun o => 2 ^ 63 <=? o) (s_storage k') then [] else [t_ "Raw offsets: " ++ oval_repr (OBytes (concat (map (le 8) (s_storage k'))))]) =
      (if negb off then [] else (t_ "Writing " ++ in_quotes (int_text (Z.of_nat (List.length (pieces n c l b)))) ++ t_ " offsets: " ++ in_quotes (ints starts)) ::
         if existsb (fun o => 2 ^ 63 <=? o) starts then [] else [t_ "Raw offsets: " ++ oval_repr (OBytes (concat (map (le 8) starts)))])).
  { destruct off; [|reflexivity]. rewrite (LT eq_refl eq_refl). unfold zlen. rewrite (CT eq_refl). reflexivity. }
  rewrite EQ in FH. clear EQ. unfold lg2 in FH. rewrite heard_heard in FH.
  destruct (fps_finalize E k') as [k2 [[]|e]] eqn:FF; cbn [fst snd] in FH.
  - fold lg2. fold lg2 in FH. rewrite (bind_run _ _ _ _ _ (on_snk_run _ nf' _ _ _ _ _ FH)), (bind_run _ _ _ _ _ (onr_run _ nf' _ _ _ FF)). reflexivity.
  - fold lg2. fold lg2 in FH. rewrite (bind_run_raise _ _ _ _ _ (on_snk_run _ nf' _ _ _ _ _ FH)), (bind_run_raise _ _ _ _ _ (onr_run _ nf' _ _ _ FF)). reflexivity.
Qed.
End WithEnv.
Theorem section_told : forall E dg, (forall code d, 0 <= code < 9 -> is_digest E code d (dg code d)) -> EnvOK E ->
  forall m a f lg, In (l_level lg) ["NORMAL"; "VERBOSE"; "DEBUG"]%string ->
  w_metadata E m a (f, lg) =
  ((fst (write_metadata E m a f), heard lg (map (pair 2) (section_said E dg m a))), snd (write_metadata E m a f)).
Proof. intros E dg HD EK m a f lg K. apply known_in in K. exact (section_hears E dg HD EK m a f lg K). Qed.
