(** Proofs for C97: the messages about the beginning of a file. *)
From Verif Require Import Base PyVal Checksums Headers Pretty Args FileIO Append Objects Log Report Chatter Verbose Opening Spec Archive ObjectsSpec FormatSpec ReadSpec ReviseSpec WriteSpec ChatSpec OpeningSpec
  BaseLemmas HeaderProofs IOProofs WfProofs PackProofs DamageProofs CrcProofs SmallProofs BytesProofs MetaProofs FormatProofs ResignProofs ObjectsProofs ReportProofs ReadProofs ChatProofs.
From Coq Require Import ZifyBool ZifyNat.
Ltac Zify.zify_post_hook ::= Z.div_mod_to_equations.

Definition known (l : logst) : Prop := rank (l_level l) <> None.
Lemma heard_nil l : heard l [] = l.
Proof. unfold heard. cbn [filter map]. rewrite app_nil_r. destruct l; reflexivity. Qed.
Lemma heard_heard l a b : heard (heard l a) b = heard l (a ++ b).
Proof. unfold heard. cbn [l_level l_prefix l_out]. rewrite filter_app, map_app, app_assoc. reflexivity. Qed.
Lemma heard_known l ms : known l -> known (heard l ms).
Proof. exact (fun H => H). Qed.
Lemma map_filter_pair r k (l : list text) : map snd (filter (fun m : Z * text => fst m <=? r) (map (pair k) l)) = if k <=? r then l else [].
Proof.
  induction l as [|x l IH]; [destruct (k <=? r); reflexivity|]. cbn [map filter fst]. destruct (k <=? r); [cbn [map snd]; f_equal|]; exact IH.
Qed.
(** A message of any number of lines *)
Lemma say_lines m ls level k l : lines m ls -> Forall (fun x => x <> []) ls -> rank level = Some k -> known l ->
  verbose m level l = (heard l (map (pair k) ls), Ok tt).
Proof.
  intros L N K R. unfold known in R. destruct (rank (l_level l)) as [j|] eqn:RJ; [|congruence].
  rewrite (log_verbose _ level l k j _ K RJ L). unfold heard. rewrite RJ.
  assert (F : filter has_text ls = ls).
  { clear L. induction N as [|x t X N IH]; [reflexivity|]. cbn [filter]. rewrite IH. destruct x; [congruence|reflexivity]. }
  rewrite F. do 2 f_equal. rewrite <- (map_map snd (fun m0 => l_prefix l ++ t_ ": " ++ m0)), map_filter_pair.
  f_equal. destruct (k <=? j); reflexivity.
Qed.
Lemma say_one m level k l : plain m -> rank level = Some k -> known l -> verbose m level l = (heard l [(k, m)], Ok tt).
Proof.
  intros [L N] K R. apply (say_lines m [m]); auto. split; [discriminate|]. split; [repeat constructor; exact L|reflexivity].
Qed.

Definition hears {S A} (D : SM (S * logst) A) (M : SM S A) (s : S) (ms : list (Z * text)) : Prop :=
  forall l, known l -> D (s, l) = ((fst (M s), heard l ms), snd (M s)).
Lemma hears_pure {S A} (r : res A) (s : S) : hears (lift r) (lift r) s [].
Proof. intros l K. unfold lift. cbn [fst snd]. rewrite heard_nil. reflexivity. Qed.
Lemma hears_bind {S A B} (D : SM (S * logst) A) M s ms (K : A -> SM (S * logst) B) K' s' x ms' :
  hears D M s ms -> M s = (s', Ok x) -> hears (K x) (K' x) s' ms' -> hears (bind D K) (bind M K') s (ms ++ ms').
Proof.
  intros H R HK l L. specialize (H l L). rewrite R in H. cbn [fst snd] in H. rewrite (bind_run _ _ _ _ _ H), (bind_run _ _ _ _ _ R).
  rewrite (HK _ (heard_known _ _ L)), heard_heard. reflexivity.
Qed.
Lemma hears_bind_raise {S A B} (D : SM (S * logst) A) M s ms (K : A -> SM (S * logst) B) K' s' e :
  hears D M s ms -> M s = (s', Raise e) -> hears (bind D K) (bind M K') s ms.
Proof.
  intros H R l L. specialize (H l L). rewrite R in H. cbn [fst snd] in H. rewrite (bind_run_raise _ _ _ _ _ H), (bind_run_raise _ _ _ _ _ R). reflexivity.
Qed.
Lemma hears_onl {S A} (M : SM S A) s : hears (onl M) M s [].
Proof. intros l L. rewrite heard_nil. apply onl_run. destruct (M s); reflexivity. Qed.
Lemma hears_step {S A B} (M : SM S A) s s' x (K : A -> SM (S * logst) B) K' ms : M s = (s', Ok x) -> hears (K x) (K' x) s' ms -> hears (bind (onl M) K) (bind M K') s ms.
Proof. intros R H. exact (hears_bind _ _ _ [] _ _ _ _ _ (hears_onl M s) R H). Qed.
Lemma hears_step_raise {S A B} (M : SM S A) s s' e (K : A -> SM (S * logst) B) K' : M s = (s', Raise e) -> hears (bind (onl M) K) (bind M K') s [].
Proof. intros R. exact (hears_bind_raise _ _ _ [] _ _ _ _ (hears_onl M s) R). Qed.
Lemma hears_lift {S A B} (r : res A) (s : S) x (K : A -> SM (S * logst) B) K' ms : r = Ok x -> hears (K x) (K' x) s ms -> hears (bind (lift r) K) (bind (lift r) K') s ms.
Proof. intros R H. subst r. exact (hears_bind _ _ _ [] _ _ _ _ _ (hears_pure (Ok x) s) eq_refl H). Qed.
Lemma hears_lift_raise {S A B} (r : res A) (s : S) e (K : A -> SM (S * logst) B) K' : r = Raise e -> hears (bind (lift r) K) (bind (lift r) K') s [].
Proof. intros R. subst r. exact (hears_bind_raise _ _ _ [] _ _ _ _ (hears_pure (Raise e) s) eq_refl). Qed.
Lemma hears_note {S A} m (K : SM (S * logst) A) M s ms : plain m -> hears K M s ms -> hears (note m ;;; K) M s ((2, m) :: ms).
Proof.
  intros P H l L. rewrite (bind_run _ _ _ _ _ (onr_run _ s _ _ _ (say_one m "DEBUG" 2 l P eq_refl L))).
  rewrite (H _ (heard_known _ _ L)), heard_heard. reflexivity.
Qed.
Lemma hears_tell {S A} m (K : SM (S * logst) A) M s ms : plain m -> hears K M s ms -> hears (tell m ;;; K) M s ((1, m) :: ms).
Proof.
  intros P H l L. rewrite (bind_run _ _ _ _ _ (onr_run _ s _ _ _ (say_one m "VERBOSE" 1 l P eq_refl L))).
  rewrite (H _ (heard_known _ _ L)), heard_heard. reflexivity.
Qed.
Lemma hears_lines {S A} m ls (K : SM (S * logst) A) M s ms : lines m ls -> Forall (fun x => x <> []) ls -> hears K M s ms -> hears (note m ;;; K) M s (map (pair 2) ls ++ ms).
Proof.
  intros P N H l L. rewrite (bind_run _ _ _ _ _ (onr_run _ s _ _ _ (say_lines m ls "DEBUG" 2 l P N eq_refl L))).
  rewrite (H _ (heard_known _ _ L)), heard_heard. reflexivity.
Qed.

(** ** The texts *)
Lemma raw_plain p b : lacks nl (t_ p) -> p <> ""%string -> plain (t_ p ++ oval_repr (OBytes b)).
Proof.
  intros L N. split; [cbn [oval_repr]; apply lacks_app; split; [exact L|apply bytes_repr_lacks]|].
  destruct p; [congruence|discriminate].
Qed.
Lemma quotes_repr s : existsb (fun c => Ascii.eqb c squote || (Z.of_nat (nat_of_ascii c) =? 92) || (Z.of_nat (nat_of_ascii c) <? 32) || (127 <=? Z.of_nat (nat_of_ascii c))) s = false ->
  repr_quoted s = in_quotes s.
Proof.
  intros H. unfold repr_quoted.
  assert (Q : existsb (Ascii.eqb squote) s = false).
  { induction s as [|c s IH]; [reflexivity|]. cbn [existsb] in *. apply orb_false_iff in H as [H1 H2]. rewrite IH by exact H2.
    rewrite Ascii.eqb_sym. destruct (Ascii.eqb c squote); [discriminate|reflexivity]. }
  rewrite Q. cbn [andb]. unfold in_quotes.
  assert (F : flat_map (repr_char squote) s = s); [|rewrite F; reflexivity].
  clear Q. induction s as [|c s IH]; [reflexivity|]. cbn [existsb] in H. apply orb_false_iff in H as [H1 H2]. cbn [flat_map]. rewrite IH by exact H2.
  unfold repr_char. cbv zeta. destruct (Ascii.eqb c squote || (Z.of_nat (nat_of_ascii c) =? 92)); [discriminate|]. cbn [orb] in H1.
  replace (Z.of_nat (nat_of_ascii c) =? 9) with false by lia. replace (Z.of_nat (nat_of_ascii c) =? 10) with false by lia.
  replace (Z.of_nat (nat_of_ascii c) =? 13) with false by lia. rewrite H1. reflexivity.
Qed.
Lemma cks_quotes ck : repr_quoted (t_ (cks_name ck)) = in_quotes (t_ (nth (Z.to_nat (cks_index ck)) checksum_names ""%string)).
Proof. destruct ck; reflexivity. Qed.
Lemma codec_quotes co : repr_quoted (t_ (codec_name co)) = in_quotes (if codec_index co =? 0 then t_ "None" else t_ "zlib").
Proof. destruct co; reflexivity. Qed.
Lemma bits_quotes x : repr_quoted (t_ (decode_bitfield (Zb x))) = in_quotes (digits8 (Zb x)).
Proof. destruct x; reflexivity. Qed.
Lemma unled_lstrip x : lstrip0 x = unled x.
Proof. induction x as [|c x IH]; [reflexivity|]. cbn [unled]. destruct c; try reflexivity. exact IH. Qed.
Lemma bare_strip x : strip0 x = bare x.
Proof. unfold strip0, bare. rewrite !unled_lstrip. reflexivity. Qed.
Lemma bool_text b : oval_repr (OBool b) = yes_no b.
Proof. destruct b; reflexivity. Qed.
Lemma commas_join l : join_text (t_ ", ") l = commas l.
Proof. induction l as [|x [|y t] IH]; [reflexivity|reflexivity|]. change (x ++ t_ ", " ++ join_text (t_ ", ") (y :: t) = x ++ t_ ", " ++ commas (y :: t)). rewrite IH. reflexivity. Qed.
Lemma commas_lacks l : Forall (lacks nl) l -> lacks nl (commas l).
Proof.
  induction 1 as [|x t X T IH]; [intros []|]. destruct t as [|y t]; [exact X|].
  change (commas (x :: y :: t)) with (x ++ t_ ", " ++ commas (y :: t)). rewrite !lacks_app. repeat split; auto. cbv. intuition discriminate.
Qed.

Section WithEnv.
Variable E : Env.
Variable dg : Z -> bytes -> bytes.
Hypothesis HD : forall code d, 0 <= code < 9 -> is_digest E code d (dg code d).

(** ** The header *)
Lemma decode_exact f :
  match header_fault f with
  | None | Some FormatVersionMismatch => exists ck, cks_index ck = u8 6 f /\
      header_decode (sub 0 32 f) = Ok (mkH (u8 4 f) (has_offsets f) (has_meta f) ck (u8 7 f) (F_chunk f) (F_last f) (F_n f) (F_max f)) /\
      header_fault f = if F_version f =? 3 then None else Some FormatVersionMismatch
  | Some e => header_decode (sub 0 32 f) = Raise e
  end.
Proof.
  unfold header_fault.
  destruct (Z.ltb_spec (size f) 32) as [L|L].
  { unfold header_decode. rewrite <- size_zlen, size_sub by lia. unfold BLOSCPACK_HEADER_LENGTH.
    replace (Z.min 32 (Z.max 0 (size f - 0)) =? 32) with false by lia. reflexivity. }
  assert (SZ : size (sub 0 32 f) = 32) by (rewrite size_sub by lia; lia).
  assert (U : forall p n, 0 <= p -> 0 <= n -> p + n <= 32 -> sub p n (sub 0 32 f) = sub p n f) by (intros; rewrite sub_sub_32 by lia; f_equal).
  rewrite same_eqb.
  destruct (bytes_eqb (sub 0 4 f) (b_of_string "blpk")) eqn:M; cbn [negb].
  2:{ unfold header_decode. rewrite <- size_zlen, SZ. unfold BLOSCPACK_HEADER_LENGTH. cbn [Z.eqb Pos.eqb negb].
      rewrite <- (U 0 4) in M by lia. rewrite sub_slice in M by lia. change (0 + 4) with 4 in M. unfold MAGIC. rewrite M. reflexivity. }
  apply bytes_eqb_eq in M. rewrite <- (U 0 4) in M by lia.
  pose proof (header_decode_fields _ SZ M) as HF.
  unfold u8, i32, i64 in HF. rewrite !U in HF by lia. fold (u8 4 f) (u8 5 f) (u8 6 f) (u8 7 f) (i32 8 f) (i32 12 f) (i64 16 f) (i64 24 f) in HF.
  pose proof (u8_range 5 f). pose proof (u8_range 6 f). pose proof (u8_range 4 f). pose proof (u8_range 7 f).
  destruct (Z.leb_spec 4 (u8 5 f)) as [L5|L5].
  { rewrite HF, decode_options_raise by lia. reflexivity. }
  rewrite decode_options_ok in HF by lia. cbn [rbind fst snd] in HF.
  destruct (Z.leb_spec 9 (u8 6 f)) as [L6|L6].
  { rewrite HF, cks_of_index_raise by lia. reflexivity. }
  destruct (cks_of_index_ok (u8 6 f) ltac:(lia)) as (ck & CK & CI & _). rewrite CK in HF. cbn [rbind] in HF.
  pose proof (nums_bool E dg HD (F_chunk f) (F_last f) (F_n f) (F_max f) (u8 7 f) ltac:(lia)) as NB.
  assert (BAD : ~ header_nums_ok (u8 7 f) (F_chunk f) (F_last f) (F_n f) (F_max f) -> header_decode (sub 0 32 f) = Raise ValueError).
  { intros N. rewrite HF. unfold mk_header.
    rewrite check_range_in by (unfold MAX_FORMAT_VERSION; lia). cbn [rbind]. rewrite check_valid_name. cbn [rbind].
    destruct (check_header_nums _ _ _ _ _) as [[]|e] eqn:X; [|apply check_header_nums_raise in X; subst; reflexivity].
    apply check_header_nums_iff in X. contradiction. }
  destruct ((F_chunk f <? -1) || (BUFMAX <? F_chunk f) || (F_last f <? -1) || (BUFMAX <? F_last f)); [apply BAD; rewrite <- NB; discriminate|].
  destruct ((F_n f <? -1) || (F_max f <? 0) || ((F_n f =? -1) && (0 <? F_max f)) || (2 ^ 63 <=? F_n f + F_max f)); [apply BAD; rewrite <- NB; discriminate|].
  destruct ((0 <=? F_chunk f) && (F_chunk f <? F_last f)); [apply BAD; rewrite <- NB; discriminate|].
  pose proof (proj1 NB eq_refl) as OK. rewrite mk_header_intro in HF by (auto; lia).
  assert (G : exists ck, cks_index ck = u8 6 f /\
      header_decode (sub 0 32 f) = Ok (mkH (u8 4 f) (has_offsets f) (has_meta f) ck (u8 7 f) (F_chunk f) (F_last f) (F_n f) (F_max f))).
  { exists ck. split; [exact CI|]. rewrite HF. unfold has_offsets, has_meta. replace (Z.odd (u8 5 f / 2)) with (2 <=? u8 5 f); [reflexivity|].
    assert (V : u8 5 f = 0 \/ u8 5 f = 1 \/ u8 5 f = 2 \/ u8 5 f = 3) by lia. destruct V as [->|[->|[->| ->]]]; reflexivity. }
  destruct G as (c & G1 & G2).
  destruct (F_version f =? 3) eqn:V; cbn [negb]; exists c; auto.
Qed.

Definition header_line (f : bytes) : text := t_ "bloscpack header: BloscpackHeader(format_version=" ++ int_text (u8 4 f) ++
           t_ ", offsets=" ++ yes_no (has_offsets f) ++ t_ ", metadata=" ++ yes_no (has_meta f) ++
           t_ ", checksum=" ++ in_quotes (t_ (nth (Z.to_nat (u8 6 f)) checksum_names ""%string)) ++
           t_ ", typesize=" ++ int_text (u8 7 f) ++ t_ ", chunk_size=" ++ int_text (F_chunk f) ++
           t_ ", last_chunk=" ++ int_text (F_last f) ++ t_ ", nchunks=" ++ int_text (F_n f) ++
           t_ ", max_app_chunks=" ++ int_text (F_max f) ++ t_ ")".
Lemma repr_is h : header_repr h = t_ "BloscpackHeader(format_version=" ++ int_text (h_version h) ++
           t_ ", offsets=" ++ oval_repr (OBool (h_offsets h)) ++ t_ ", metadata=" ++ oval_repr (OBool (h_metadata h)) ++
           t_ ", checksum=" ++ repr_quoted (t_ (cks_name (h_checksum h))) ++
           t_ ", typesize=" ++ int_text (h_typesize h) ++ t_ ", chunk_size=" ++ int_text (h_chunk_size h) ++
           t_ ", last_chunk=" ++ int_text (h_last_chunk h) ++ t_ ", nchunks=" ++ int_text (h_nchunks h) ++
           t_ ", max_app_chunks=" ++ int_text (h_max_app h) ++ t_ ")".
Proof.
  assert (X : header_repr h = t_ "BloscpackHeader" ++ t_ "(" ++ join_text (t_ ", ")
    [t_ "format_version" ++ t_ "=" ++ int_text (h_version h); t_ "offsets" ++ t_ "=" ++ oval_repr (OBool (h_offsets h));
     t_ "metadata" ++ t_ "=" ++ oval_repr (OBool (h_metadata h)); t_ "checksum" ++ t_ "=" ++ repr_quoted (t_ (cks_name (h_checksum h)));
     t_ "typesize" ++ t_ "=" ++ int_text (h_typesize h); t_ "chunk_size" ++ t_ "=" ++ int_text (h_chunk_size h);
     t_ "last_chunk" ++ t_ "=" ++ int_text (h_last_chunk h); t_ "nchunks" ++ t_ "=" ++ int_text (h_nchunks h);
     t_ "max_app_chunks" ++ t_ "=" ++ int_text (h_max_app h)] ++ t_ ")") by reflexivity.
  rewrite X. cbn [join_text]. rewrite <- !app_assoc. reflexivity.
Qed.
Lemma header_line_is f ck : cks_index ck = u8 6 f ->
  t_ "bloscpack header: " ++ header_repr (mkH (u8 4 f) (has_offsets f) (has_meta f) ck (u8 7 f) (F_chunk f) (F_last f) (F_n f) (F_max f)) = header_line f.
Proof.
  intros C. rewrite repr_is. cbn [h_version h_offsets h_metadata h_checksum h_typesize h_chunk_size h_last_chunk h_nchunks h_max_app].
  rewrite !bool_text, cks_quotes, C. reflexivity.
Qed.
Lemma yes_no_lacks b : lacks nl (yes_no b).
Proof. destruct b; cbv; intuition discriminate. Qed.
Lemma header_line_plain f ck : cks_index ck = u8 6 f -> plain (header_line f).
Proof.
  intros C. split; [|discriminate]. unfold header_line. rewrite <- C, <- cks_quotes.
  rewrite !lacks_app. repeat split; first [apply int_lacks | apply yes_no_lacks | apply repr_quoted_lacks | (apply lacks_t; reflexivity)].
Qed.
Lemma header_hears f : hears o_read_header read_bloscpack_header (fp_of f) (header_said f).
Proof.
  unfold o_read_header, read_bloscpack_header, header_said. apply hears_note; [split; [apply lacks_t; reflexivity|discriminate]|].
  pose proof (f_read_at E dg HD 32 f 0 [] ltac:(lia)) as RD. fold (fp_of f) in RD. unfold BLOSCPACK_HEADER_LENGTH.
  apply (hears_step _ _ _ _ _ _ _ RD). apply hears_note; [apply raw_plain; [apply lacks_t; reflexivity|discriminate]|].
  pose proof (decode_exact f) as X. fold (header_line f).
  assert (G : (exists ck, cks_index ck = u8 6 f /\
      header_decode (sub 0 32 f) = Ok (mkH (u8 4 f) (has_offsets f) (has_meta f) ck (u8 7 f) (F_chunk f) (F_last f) (F_n f) (F_max f)) /\
      header_fault f = if F_version f =? 3 then None else Some FormatVersionMismatch) ->
    hears (h <- lift (header_decode (sub 0 32 f)) ;; note (t_ "bloscpack header: " ++ header_repr h) ;;; (if FORMAT_VERSION =? h_version h then ret h else raise FormatVersionMismatch))
          (h <- lift (header_decode (sub 0 32 f)) ;; (if FORMAT_VERSION =? h_version h then ret h else raise FormatVersionMismatch))
          (mkfp f (0 + size (sub 0 32 f)) []) [(2, header_line f)]).
  { intros (ck & C & D & _). apply (hears_lift _ _ _ _ _ _ D). rewrite (header_line_is f ck C). apply hears_note; [exact (header_line_plain f ck C)|].
    destruct (FORMAT_VERSION =? _); apply hears_pure. }
  destruct (header_fault f) as [e|]; [|exact (G X)].
  destruct e; try exact (G X); exact (hears_lift_raise _ _ _ _ _ X).
Qed.

(** ** The metadata *)
Lemma mtext_lines h : lines (mheader_text h) (t_ "MetadataHeader:" :: map (app (repeat " "%char 4)) (mheader_fields h)).
Proof.
  unfold mheader_text. rewrite pformat_mheader. cbn [snd]. apply report_lines; [cbv; intuition discriminate|apply mheader_fields_lacks|discriminate].
Qed.
Lemma u32_size z : 0 <= z -> size_value z = double_pretty_size z.
Proof. intros H. unfold size_value. replace (z =? -1) with false by lia. reflexivity. Qed.
Lemma named_cks ck d : t_ "metadata checksum OK (" ++ t_ (cks_name ck) ++ t_ "): " ++ oval_repr (OBytes d) = t_ "metadata checksum OK " ++ named (cks_index ck) d.
Proof. destruct ck; reflexivity. Qed.
Lemma metadata_hears f : 32 <= size f -> hears (o_read_metadata E) (read_metadata E) (mkfp f 32 []) (metadata_said E dg f).
Proof.
  intros L32. unfold o_read_metadata, read_metadata, METADATA_HEADER_LENGTH, metadata_said. cbv zeta.
  pose proof (f_read_at E dg HD 32 f 32 [] ltac:(lia)) as RD.
  apply (hears_step _ _ _ _ _ _ _ RD). apply hears_note; [apply raw_plain; [apply lacks_t; reflexivity|discriminate]|].
  destruct (Z.ltb_spec (size f) 64) as [L|L]; cbn [orb].
  { apply (hears_lift_raise _ _ ValueError). unfold mheader_decode. rewrite <- size_zlen, size_sub by lia.
    replace (Z.min 32 (Z.max 0 (size f - 32)) =? 32) with false by lia. reflexivity. }
  assert (SZ : size (sub 32 32 f) = 32) by (rewrite size_sub by lia; lia). rewrite SZ in *. change (32 + 32) with 64 in *.
  assert (U : forall i k, 0 <= i -> 0 <= k -> i + k <= 32 -> sub i k (sub 32 32 f) = sub (32 + i) k f) by (intros; apply sub_sub_32; lia).
  pose proof (mheader_decode_fields _ SZ) as HF. unfold u8, u32 in HF. rewrite !U in HF by lia.
  change (32 + 9) with 41 in HF. change (32 + 10) with 42 in HF. change (32 + 8) with 40 in HF. change (32 + 11) with 43 in HF.
  change (32 + 12) with 44 in HF. change (32 + 16) with 48 in HF. change (32 + 20) with 52 in HF. change (32 + 24) with 56 in HF. change (32 + 0) with 32 in HF.
  fold (u8 41 f) (u8 42 f) (u8 40 f) (u8 43 f) (u32 44 f) (u32 48 f) (u32 52 f) in HF.
  pose proof (u8_range 41 f) as R41. pose proof (u8_range 42 f) as R42. pose proof (u8_range 43 f) as R43.
  destruct (Z.leb_spec 9 (u8 41 f)) as [L41|L41]; cbn [orb].
  { apply (hears_lift_raise _ _ IndexError). rewrite HF, cks_of_index_raise by lia. reflexivity. }
  destruct (cks_of_index_ok (u8 41 f) ltac:(lia)) as (ck & CK & CI & _). rewrite CK in HF. cbn [rbind] in HF.
  destruct (Z.leb_spec 2 (u8 42 f)) as [L42|L42]; cbn [orb].
  { apply (hears_lift_raise _ _ IndexError). rewrite HF, codec_of_index_raise by lia. reflexivity. }
  destruct (codec_of_index_ok (u8 42 f) ltac:(lia)) as (co & CO & COI & _). rewrite CO in HF. cbn [rbind] in HF.
  assert (Q8 : forall p, 0 <= p -> zlen (strip0 (sub p 8 f)) <= 8).
  { intros p Hp. unfold zlen. pose proof (strip0_length (sub p 8 f)) as Q1. assert (Q2 : size (sub p 8 f) <= 8) by (rewrite size_sub by lia; lia). unfold size in Q2. lia. }
  destruct (u8_byte 40 f) as [x40 X40].
  destruct (Z.ltb_spec 9 (u8 43 f)) as [L43|L43].
  { apply (hears_lift_raise _ _ ValueError). rewrite HF. unfold mk_mheader.
    rewrite (check_str_in _ 8 (Q8 32 ltac:(lia))), X40, check_options_bitfield, check_valid_name, check_valid_codec_name. cbn [rbind].
    unfold check_range, MAX_CLEVEL. replace ((0 <=? u8 43 f) && (u8 43 f <=? 9)) with false by lia. reflexivity. }
  pose proof (u32_range 44 f) as R44. pose proof (u32_range 48 f) as R48. pose proof (u32_range 52 f) as R52.
  rewrite mk_mheader_intro in HF.
  2:{ unfold mheader_ok; cbn [mh_magic mh_options mh_level mh_size mh_max mh_comp mh_user]. rewrite X40. repeat split; auto using check_options_bitfield; try lia; try (apply Q8; lia). }
  set (h := mkMH _ _ ck co _ _ _ _ _) in HF.
  apply (hears_lift _ _ _ _ _ _ HF).
  match goal with |- hears _ _ _ (map (pair 2) ?ls ++ _) => assert (LS : t_ "MetadataHeader:" :: map (app (repeat " "%char 4)) (mheader_fields h) = ls) end.
  { unfold mheader_fields, h. cbn [mh_magic mh_options mh_checksum mh_codec mh_level mh_size mh_max mh_comp mh_user map]. unfold field.
    rewrite X40, bits_quotes, cks_quotes, codec_quotes, CI, COI, !u32_size, !bare_strip by lia. reflexivity. }
  rewrite <- LS. apply hears_lines; [apply mtext_lines|repeat constructor; discriminate|]. clear LS.
  set (payload := sub 64 (u32 52 f) f). set (pp := 64 + size payload + (u32 48 f - u32 52 f)).
  pose proof (f_read_at E dg HD (u32 52 f) f 64 [] ltac:(lia)) as RP. fold payload in RP.
  change (mh_comp h) with (u32 52 f). apply (hears_step _ _ _ _ _ _ _ RP). change (mh_max h) with (u32 48 f).
  change (mh_checksum h) with ck. change (mh_codec h) with co. change (mh_magic h) with (strip0 (sub 32 8 f)).
  destruct ((pp <? 0) && negb (e_mem E)) eqn:SK.
  { eapply hears_step_raise. unfold f_seek_rel. cbn [fpos fdata flog]. fold pp. apply andb_true_iff in SK as [S1 S2]. rewrite S1. apply negb_true_iff in S2. rewrite S2. reflexivity. }
  assert (RS : f_seek_rel E (u32 48 f - u32 52 f) (mkfp f (64 + size payload) []) = (mkfp f (Z.max 0 pp) [], Ok tt)).
  { unfold f_seek_rel. cbn [fpos fdata flog]. fold pp. destruct (Z.ltb_spec pp 0) as [PP|PP].
    - cbn [andb] in SK. apply negb_false_iff in SK. rewrite SK, Z.max_l by lia. reflexivity.
    - rewrite Z.max_r by lia. reflexivity. }
  apply (hears_step _ _ _ _ _ _ _ RS). rewrite <- CI, digest_len_cks, (dg_digest E dg HD), same_eqb. set (stored := sub (Z.max 0 pp) (cks_size ck) f).
  pose proof (cks_size_nonneg ck) as CN.
  pose proof (f_read_at E dg HD (cks_size ck) f (Z.max 0 pp) [] CN) as RG. fold stored in RG.
  set (D := if cks_eqb ck CkNone then ret tt else _). set (M := if cks_eqb ck CkNone then ret tt else _).
  destruct ((0 <? cks_index ck) && negb (bytes_eqb stored (digest E ck payload))) eqn:CB.
  { assert (CC : cks_eqb ck CkNone = false) by (destruct ck; try reflexivity; discriminate).
    assert (B : bytes_eqb (digest E ck payload) stored = false).
    { destruct (bytes_eqb (digest E ck payload) stored) eqn:B; [|reflexivity]. apply bytes_eqb_eq in B. rewrite B, bytes_eqb_refl, andb_false_r in CB. discriminate. }
    assert (RM : M (mkfp f (Z.max 0 pp) []) = (mkfp f (Z.max 0 pp + size stored) [], Raise ChecksumMismatch)).
    { unfold M. rewrite CC, (bind_run _ _ _ _ _ RG), B. reflexivity. }
    refine (hears_bind_raise _ _ _ [] _ _ _ _ _ RM). unfold D, M. rewrite CC. apply (hears_step _ _ _ _ _ _ _ RG). cbv zeta. rewrite B. apply hears_pure. }
  assert (ST : M (mkfp f (Z.max 0 pp) []) = (mkfp f (Z.max 0 pp + size stored) [], Ok tt) /\
    hears D M (mkfp f (Z.max 0 pp) []) (if 0 <? cks_index ck then [(2, t_ "metadata checksum OK " ++ named (cks_index ck) stored)] else [])).
  { unfold D, M. destruct (cks_eqb ck CkNone) eqn:CC.
    - assert (ck = CkNone) as -> by (destruct ck; auto; discriminate). change (size stored) with 0. rewrite Z.add_0_r. split; [reflexivity|apply hears_pure].
    - assert (I : 0 <? cks_index ck = true) by (destruct ck; try reflexivity; discriminate). rewrite I in *. cbn [andb] in CB. apply negb_false_iff, bytes_eqb_eq in CB.
      split; [rewrite (bind_run _ _ _ _ _ RG), CB, bytes_eqb_refl; reflexivity|].
      apply (hears_step _ _ _ _ _ _ _ RG). cbv zeta. rewrite <- CB, bytes_eqb_refl, named_cks.
      assert (P : plain (t_ "metadata checksum OK " ++ named (cks_index ck) stored)).
      { rewrite <- named_cks. split; [|discriminate]. cbn [oval_repr]. plain_. }
      intros l K. apply onr_run. exact (say_one _ "DEBUG" 2 l P eq_refl K). }
  destruct ST as [RM ST]. refine (hears_bind _ _ _ _ _ _ _ _ _ ST RM _).
  rewrite <- COI.
  replace (if codec_index co =? 0 then Ok payload else e_zdecompress E payload) with (codec_decompress E co payload) by (destruct co; reflexivity).
  destruct (codec_decompress E co payload) as [text|e] eqn:CD; [|apply (hears_lift_raise _ _ e); reflexivity]. apply (hears_lift _ _ text); [reflexivity|].
  match goal with |- hears _ _ _ [(1, ?x)] => replace (t_ "read " ++ t_ (if String.eqb (codec_name co) "None" then "uncompressed" else "compressed") ++
        t_ " metadata of size: '" ++ int_text (u32 52 f) ++ t_ "'") with x by (destruct co; reflexivity) end.
  apply hears_tell.
  { split; [|discriminate]. unfold in_quotes. destruct co; plain_. }
  destruct (serializer_lookup (strip0 (sub 32 8 f))) as [u0|e] eqn:SL; [|exact (hears_lift_raise _ _ _ _ _ eq_refl)]. apply (hears_lift _ _ u0); [reflexivity|].
  destruct (e_loads E text) as [m|e]; [|exact (hears_lift_raise _ _ _ _ _ eq_refl)]. apply (hears_lift _ _ m); [reflexivity|]. apply hears_pure.
Qed.

(** ** The offsets *)
Lemma offsets_hears f q h : 0 <= q -> h_offsets h = has_offsets f -> h_nchunks h = F_n f -> h_max_app h = F_max f -> 0 <= F_max f ->
  hears (o_read_offsets h) (read_offsets h) (mkfp f q []) (offsets_said f q).
Proof.
  intros Hq HO HN HM M0. unfold offsets_said, o_read_offsets, read_offsets, total_prospective_chunks. cbv zeta. rewrite HO, HN, HM.
  destruct (has_offsets f); cbn [negb orb]; [|apply hears_pure].
  destruct (Z.ltb_spec (F_n f) 0) as [N|N]; [replace (0 <=? F_n f) with false by lia; apply hears_pure|]. cbn [orb].
  replace (0 <=? F_n f) with true by lia. set (t := 8 * (F_n f + F_max f)). set (left := Z.max 0 (size f - q)).
  assert (ZR : zlen (rest (mkfp f q [])) = left) by (unfold rest; cbn [fpos fdata]; rewrite zlen_zdrop, <- size_zlen; unfold left; lia).
  destruct ((2 ^ 63 <=? t) && (left <? t)) eqn:OV.
  { eapply hears_step_raise. unfold f_read_ssize. fold (rest (mkfp f q [])). rewrite ZR, OV. reflexivity. }
  assert (RD : f_read_ssize t (mkfp f q []) = (mkfp f (q + size (sub q t f)) [], Ok (sub q t f))).
  { unfold f_read_ssize. fold (rest (mkfp f q [])). rewrite ZR, OV. apply (f_read_at E dg HD). unfold t. lia. }
  assert (SS : size (sub q t f) = Z.min t left) by (rewrite size_sub by (unfold t; lia); reflexivity).
  apply (hears_step _ _ _ _ _ _ _ RD). apply hears_note; [apply raw_plain; [apply lacks_t; reflexivity|discriminate]|].
  rewrite !decode_offsets_cap by lia.
  destruct (Z.ltb_spec left (8 * F_n f)) as [SH|SH].
  - intros l K. rewrite heard_nil. rewrite (decode_offsets_struct E dg HD); [reflexivity|]. rewrite <- size_zlen, SS. lia.
  - rewrite (decode_offsets_map E dg HD) by (rewrite <- size_zlen, SS; unfold t; lia).
    assert (ME : map (fun i => i64 (8 * Z.of_nat i) (sub q t f)) (seq 0 (Z.to_nat (F_n f))) = map (fun i => i64 (q + 8 * Z.of_nat i) f) (seq 0 (Z.to_nat (F_n f)))).
    { apply map_ext_in. intros i Hi. apply in_seq in Hi. apply (i64_sub E dg HD); unfold t; lia. }
    rewrite ME. set (os := map _ _).
    assert (TX : t_ "Offsets: " ++ list_text os = t_ "Offsets: [" ++ commas (map (fun i => int_text (i64 (q + 8 * Z.of_nat i) f)) (seq 0 (Z.to_nat (F_n f)))) ++ t_ "]").
    { unfold list_text, os. rewrite commas_join, map_map. reflexivity. }
    rewrite <- TX. intros l K. unfold bind at 1. unfold lift at 1. cbn [fst snd lift].
    refine (hears_note _ _ (lift (Ok os)) _ [] _ _ l K).
    + split; [|discriminate]. unfold list_text. rewrite commas_join, !lacks_app. repeat split; try (apply lacks_t; reflexivity).
      apply commas_lacks, Forall_forall. intros x Hx. apply in_map_iff in Hx as (z & <- & _). apply int_lacks.
    + apply hears_pure.
Qed.

(** ** All of it *)
Lemma opening_hears f : hears (o_read_beginning E) (read_beginning E) (fp_of f) (told_opening E dg f).
Proof.
  unfold o_read_beginning, read_beginning, told_opening. pose proof (header_exact E dg HD f) as H. pose proof (header_hears f) as HH.
  assert (L32 : header_fault f = None -> 32 <= size f) by (unfold header_fault; destruct (Z.ltb_spec (size f) 32); [discriminate|lia]).
  destruct (header_fault f) as [e|].
  { destruct H as [g H]. rewrite app_nil_r. exact (hears_bind_raise _ _ _ _ _ _ _ _ HH H). }
  destruct H as (ck & CI & NO & H). refine (hears_bind _ _ _ _ _ _ _ _ _ HH H _). clear H HH. set (h := mkH _ _ _ ck _ _ _ _ _). specialize (L32 eq_refl).
  change (h_metadata h) with (has_meta f). unfold metadata_part.
  pose proof (metadata_exact E dg HD f L32) as M.
  assert (MX : 0 <= F_max f) by (unfold header_nums_ok in NO; lia).
  assert (OF : forall q mm, 0 <= q -> hears (o <- o_read_offsets h ;; ret (mkBeg h (fst mm) (snd mm) o)) (o <- read_offsets h ;; ret (mkBeg h (fst mm) (snd mm) o)) (mkfp f q []) (offsets_said f q)).
  { intros q mm Q. pose proof (offsets_hears f q h Q eq_refl eq_refl eq_refl MX) as OH.
    destruct (read_offsets h (mkfp f q [])) as [g [o|e]] eqn:RO; [|exact (hears_bind_raise _ _ _ _ _ _ _ _ OH RO)].
    rewrite <- (app_nil_r (offsets_said f q)). refine (hears_bind _ _ _ _ _ _ _ _ _ OH RO _). apply hears_pure. }
  destruct (has_meta f).
  - pose proof (metadata_hears f L32) as MH.
    destruct (metadata_at_32 E dg f) as [[m q]|e].
    + destruct M as (mh & M & Q & _). refine (hears_bind _ _ _ _ _ _ _ (m, Some mh) _ _ _ _); [| |exact (OF q _ Q)].
      * rewrite <- (app_nil_r (metadata_said E dg f)). refine (hears_bind _ _ _ _ _ _ _ _ _ MH M _). apply hears_pure.
      * rewrite (bind_run _ _ _ _ _ M). reflexivity.
    + destruct M as (g & M). rewrite app_nil_r. refine (hears_bind_raise _ _ _ _ _ _ g e _ _).
      * exact (hears_bind_raise _ _ _ _ _ _ _ _ MH M).
      * rewrite (bind_run_raise _ _ _ _ _ M). reflexivity.
  - exact (OF 32 (PNone, None) ltac:(lia)).
Qed.
Lemma known_in l : In (l_level l) ["NORMAL"; "VERBOSE"; "DEBUG"]%string -> known l.
Proof. unfold known. cbn [In]. intros [<-|[<-|[<-|[]]]]; discriminate. Qed.
Theorem opening_told f l : In (l_level l) ["NORMAL"; "VERBOSE"; "DEBUG"]%string ->
  o_read_beginning E (fp_of f, l) = ((fst (read_beginning E (fp_of f)), heard l (told_opening E dg f)), snd (read_beginning E (fp_of f))).
Proof. intros H. apply opening_hears, known_in, H. Qed.
Lemma spoken_heard l ms : known l -> spoken l ms = heard l (map (pair 2) ms).
Proof.
  unfold known, spoken, heard. intros K. destruct (rank (l_level l)) as [r|] eqn:R; [|congruence].
  rewrite <- (map_map snd (fun m0 => l_prefix l ++ t_ ": " ++ m0)), map_filter_pair. unfold rank in R.
  destruct (String.eqb_spec (l_level l) "DEBUG") as [D|D].
  - rewrite D in R |- *. cbn in R. injection R as <-. reflexivity.
  - destruct (String.eqb (l_level l) "NORMAL"); [injection R as <-|destruct (String.eqb (l_level l) "VERBOSE"); [injection R as <-|congruence]];
      (destruct l; cbn; rewrite app_nil_r; reflexivity).
Qed.
Theorem unpack_told f l : In (l_level l) ["NORMAL"; "VERBOSE"; "DEBUG"]%string ->
  o_unpack E f l = (fst (unpack_core E f), heard l (told_opening E dg f ++ map (pair 2) (told_unpacking E dg f)), snd (unpack_core E f)).
Proof.
  intros H. pose proof (opening_told f l H) as X. apply known_in in H.
  pose proof (unpack_says E dg HD f (heard l (told_opening E dg f))) as Y.
  rewrite <- heard_heard, <- spoken_heard by exact H. rewrite <- Y. unfold o_unpack, d_unpack. rewrite X.
  destruct (read_beginning E (fp_of f)) as [g [bg|e]]; reflexivity.
Qed.
End WithEnv.
