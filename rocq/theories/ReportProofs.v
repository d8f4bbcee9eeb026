(** Proofs about what 'blpk' prints. *)
From Verif Require Import Base PyVal Checksums Headers Pretty Args FileIO Append Files Cli Objects Log ObjectsSpec ReprSpec Report ReportSpec Spec
  BaseLemmas HeaderProofs PrettyProofs ObjectsProofs ReprProofs IOProofs CliProofs.

(** ** Which exceptions can come out *)
Section Avoid.
Variable E : Env.
Variable bad : exn -> bool.
Hypothesis Bad : forall e, e <> ChunkingException -> (forall n, e <> SystemExit n) -> bad e = false.
Definition okr {A} (r : res A) : Prop := match r with Ok _ => True | Raise e => bad e = false end.
Definition ok {S A} (m : SM S A) : Prop := forall s, okr (snd (m s)).
Hypothesis Hcompress : forall a x, okr (e_compress E a x).
Hypothesis Hdecompress : forall x, okr (e_decompress E x).
Hypothesis Hzcompress : forall x k, okr (e_zcompress E x k).
Hypothesis Hzdecompress : forall x, okr (e_zdecompress E x).
Hypothesis Hdumps : forall v, okr (e_dumps E v).
Hypothesis Hloads : forall x, okr (e_loads E x).

Lemma okr_bind {A B} (r : res A) (k : A -> res B) : okr r -> (forall a, okr (k a)) -> okr (rbind r k).
Proof. destruct r; cbn [rbind]; auto. Qed.
Lemma ok_bind {S A B} (m : SM S A) (k : A -> SM S B) : ok m -> (forall a, ok (k a)) -> ok (bind m k).
Proof. intros H K s. unfold bind. specialize (H s). destruct (m s) as [s' [a|e]]; [apply K|exact H]. Qed.
Lemma ok_lift {S A} (r : res A) : okr r -> ok (@lift S A r). Proof. intros H s. exact H. Qed.
Lemma ok_ret {S A} (a : A) : ok (@ret S A a). Proof. intros s. exact I. Qed.
Lemma ok_raise {S A} e : bad e = false -> ok (@raise S A e). Proof. intros H s. exact H. Qed.
Lemma ok_onl {S T A} (m : SM S A) : ok m -> ok (@onl S T A m).
Proof. intros H st. unfold onl. specialize (H (fst st)). destruct (m (fst st)). exact H. Qed.
Lemma ok_onr {S T A} (m : SM T A) : ok m -> ok (@onr S T A m).
Proof. intros H st. unfold onr. specialize (H (snd st)). destruct (m (snd st)). exact H. Qed.
Lemma ok_on_fp {A} (m : SM fp A) : ok m -> ok (on_fp m).
Proof. intros H st. unfold on_fp. specialize (H (s_fp st)). destruct (m (s_fp st)). exact H. Qed.
Lemma ok_read n : ok (f_read n). Proof. intros s. exact I. Qed.
Lemma ok_read_ssize n : bad OverflowError = false -> ok (f_read_ssize n).
Proof. intros B s. unfold f_read_ssize. destruct (_ && _); [exact B|exact Logic.I]. Qed.
Lemma ok_write x : ok (f_write x). Proof. intros s. exact I. Qed.
Lemma ok_tell : ok f_tell. Proof. intros s. exact I. Qed.
Lemma ok_nulls n : ok (f_write_nulls n). Proof. intros s. exact I. Qed.

Ltac fine := apply Bad; [discriminate|intros; discriminate].
Lemma ok_seek p : ok (f_seek E p).
Proof. intros s. unfold f_seek. destruct (p <? 0); cbn [snd okr]; [destruct (e_mem E); fine|exact I]. Qed.
Lemma ok_seek_rel p : ok (f_seek_rel E p).
Proof. intros s. unfold f_seek_rel. destruct (_ <? 0); [destruct (e_mem E)|]; cbn [snd okr]; [exact I|fine|exact I]. Qed.
Hint Resolve ok_ret ok_read ok_write ok_tell ok_nulls ok_seek ok_seek_rel : nx.
Hint Resolve Hcompress Hdecompress Hzcompress Hzdecompress Hdumps Hloads : nx.
Ltac go :=
  repeat first
    [ solve [eauto 2 with nx]
    | match goal with
      | |- okr (Ok _) => exact I
      | |- okr (Raise _) => cbn [okr]; fine
      | |- okr (rbind _ _) => apply okr_bind; [|intros]
      | |- okr (match ?x with _ => _ end) => destruct x
      | |- ok (bind _ _) => apply ok_bind; [|intros]
      | |- ok (lift _) => apply ok_lift
      | |- ok (raise _) => apply ok_raise; fine
      | |- ok (onl _) => apply ok_onl
      | |- ok (onr _) => apply ok_onr
      | |- ok (on_fp _) => apply ok_on_fp
      | |- ok (match ?x with _ => _ end) => destruct x
      | |- ok (let (_, _) := ?x in _) => destruct x
      end ].
Lemma n_range v lo hi : okr (check_range v lo hi). Proof. unfold check_range. go. Qed.
Lemma n_str v n : okr (check_str v n). Proof. unfold check_str. go. Qed.
Lemma n_options s : okr (check_options s). Proof. unfold check_options. go. Qed.
Lemma n_options0 s n : okr (check_options_zero s n). Proof. unfold check_options_zero. go. Qed.
Lemma n_pack n lo hi z : okr (pack_int n lo hi z). Proof. unfold pack_int. go. Qed.
Lemma n_du32 b : okr (decode_uint32 b). Proof. unfold decode_uint32. go. Qed.
Lemma n_di32 b : okr (decode_int32 b). Proof. unfold decode_int32. go. Qed.
Lemma n_di64 b : okr (decode_int64 b). Proof. unfold decode_int64. go. Qed.
Lemma n_byte i b : okr (byte_at i b). Proof. unfold byte_at. go. Qed.
Lemma n_cks s : okr (check_valid_checksum s). Proof. unfold check_valid_checksum. go. Qed.
Lemma n_codec s : okr (check_valid_codec s). Proof. unfold check_valid_codec. go. Qed.
Lemma n_codecl s : okr (codec_lookup s). Proof. unfold codec_lookup. go. Qed.
Lemma n_cksi s : okr (cks_of_index s). Proof. unfold cks_of_index. go. Qed.
Lemma n_codeci s : okr (codec_of_index s). Proof. unfold codec_of_index. go. Qed.
Lemma n_ser s : okr (serializer_lookup s). Proof. unfold serializer_lookup. go. Qed.
Hint Resolve n_range n_str n_options n_options0 n_pack n_du32 n_di32 n_di64 n_byte n_cks n_codec n_codecl n_cksi n_codeci n_ser : nx.
Lemma n_enc8 z : okr (encode_uint8 z). Proof. apply n_pack. Qed.
Lemma n_enc32 z : okr (encode_uint32 z). Proof. apply n_pack. Qed.
Lemma n_enci32 z : okr (encode_int32 z). Proof. apply n_pack. Qed.
Lemma n_enci64 z : okr (encode_int64 z). Proof. apply n_pack. Qed.
Hint Resolve n_enc8 n_enc32 n_enci32 n_enci64 : nx.
Lemma n_decode_options s : okr (decode_options s). Proof. unfold decode_options. go. Qed.
Lemma n_nums a b c d e : okr (check_header_nums a b c d e). Proof. unfold check_header_nums. go. Qed.
Hint Resolve n_decode_options n_nums : nx.
Lemma n_mk_header a b c d e f g h i : okr (mk_header a b c d e f g h i). Proof. unfold mk_header. go. Qed.
Lemma n_mk_mheader a b c d e f g h i : okr (mk_mheader a b c d e f g h i). Proof. unfold mk_mheader. go. Qed.
Hint Resolve n_mk_header n_mk_mheader : nx.
Lemma n_henc h : okr (header_encode h). Proof. unfold header_encode. go. Qed.
Lemma n_hdec h : okr (header_decode h). Proof. unfold header_decode. go. Qed.
Lemma n_mhenc h : okr (mheader_encode h). Proof. unfold mheader_encode. go. Qed.
Lemma n_mhdec h : okr (mheader_decode h). Proof. unfold mheader_decode. go. Qed.
Lemma n_bh b : okr (decode_blosc_header b). Proof. unfold decode_blosc_header. go. Qed.
Lemma n_flags b : okr (decode_blosc_flags b). Proof. unfold decode_blosc_flags, cname_mapping. go. Qed.
Hint Resolve n_henc n_hdec n_mhenc n_mhdec n_bh n_flags : nx.
(** A callable given for the number of reserved entries or the space for the metadata
    does not fail badly. *)
Definition tame_apps (b : bpargs) : Prop := forall g n, bp_max_app b = MACall g -> okr (g n).
Definition tame_meta (a : margs) : Prop := forall g n, ma_max a = MMCall g -> okr (g n).
Lemma n_apps o n b : tame_apps b -> okr (handle_max_apps o n (bp_max_app b)).
Proof.
  intros T. unfold handle_max_apps. apply okr_bind; [go|intros]. destruct (_ && _); [|go]. apply okr_bind; [|intros; go].
  destruct (bp_max_app b) as [v|g|] eqn:X; [go| |go]. specialize (T g n X). destruct (g n) as [[v|]|e]; [go|go|exact T].
Qed.
Lemma n_eff a z : tame_meta a -> okr (effective_max_meta_size a z).
Proof. intros T. unfold effective_max_meta_size. destruct (ma_max a) as [v|g|] eqn:X; [go|apply (T g z X)|go]. Qed.
Lemma n_zc c d l : okr (codec_compress E c d l). Proof. unfold codec_compress. go. Qed.
Lemma n_zd c d : okr (codec_decompress E c d). Proof. unfold codec_decompress. go. Qed.
Lemma n_cc a b : okr (compress_chunk_str E a b). Proof. unfold compress_chunk_str. go. Qed.
Hint Resolve n_zc n_zd n_cc : nx.
Lemma n_plan m a : tame_meta a -> okr (plan_metadata E m a).
Proof.
  intros T. unfold plan_metadata. do 2 (apply okr_bind; [go|intros]). cbv zeta.
  assert (F : forall (p : bytes) a', tame_meta a' ->
    okr (mx <~ effective_max_meta_size a' (zlen a1) ;; if mx <? zlen p then Raise MetadataSectionTooSmall else
         co <~ codec_lookup (ma_codec a') ;;
         h <~ mk_mheader (ma_magic a') create_metadata_options (ma_checksum a') (codec_name co) (ma_level a') (zlen a1) mx (zlen p) [] ;;
         Ok (h, p, a'))).
  { intros p a' T'. apply okr_bind; [apply n_eff; exact T'|intros; go]. }
  destruct (should_compress a); [|apply F; exact T].
  destruct (codec_lookup (ma_codec a)) as [co|e] eqn:X; cbn [rbind].
  2:{ pose proof (n_codecl (ma_codec a)) as Y. rewrite X in Y. exact Y. }
  destruct (codec_compress E co a1 (ma_level a)) as [z|e] eqn:X'; cbn [rbind].
  2:{ pose proof (n_zc co a1 (ma_level a)) as Y. rewrite X' in Y. exact Y. }
  destruct (_ <? _); apply F; exact T.
Qed.
Lemma n_wm m a : tame_meta a -> ok (write_metadata E m a). Proof. intros T. pose proof (n_plan m a T). unfold write_metadata. go. Qed.
Lemma n_rm : ok (read_metadata E). Proof. unfold read_metadata. go. Qed.
Lemma n_rbh : ok read_bloscpack_header. Proof. unfold read_bloscpack_header. go. Qed.
Lemma n_doff n : forall r, okr (decode_offsets n r). Proof. induction n; intros; cbn [decode_offsets]; go. Qed.
Hint Resolve n_rm n_rbh n_doff : nx.
Lemma n_ro h : ok (read_offsets h). Proof. assert (forall n, ok (f_read_ssize n)) by (intros; apply ok_read_ssize; fine). unfold read_offsets. go. Qed.
Hint Resolve n_ro : nx.
Lemma n_rb : ok (read_beginning E). Proof. unfold read_beginning. go. Qed.
Lemma n_eoff l : okr (encode_offsets l). Proof. induction l; cbn [encode_offsets]; go. Qed.
Hint Resolve n_rb n_eoff : nx.
Lemma n_wo l : ok (write_offsets l). Proof. unfold write_offsets. go. Qed.
Lemma n_rcc c : ok (read_compressed_chunk E c). Proof. unfold read_compressed_chunk. go. Qed.
Lemma n_wcc c d : ok (write_compressed_chunk c d). Proof. unfold write_compressed_chunk. go. Qed.
Hint Resolve n_wo n_rcc n_wcc : nx.
Lemma n_put i c : ok (fps_put E i c).
Proof.
  unfold fps_put. go.
  - intros s. apply ok_on_fp. go.
  - intros s. destruct (h_offsets _); [destruct (set_nth _ _ _)|]; cbn [snd]; go.
Qed.
Hint Resolve n_put : nx.
Lemma n_loop {Src Chunk Snk} (c : Chunk -> res bytes) (p : Z -> bytes -> SM Snk unit) (st : list (SM Src Chunk)) :
  (forall x, okr (c x)) -> (forall i x, ok (p i x)) -> Forall ok st -> forall i, ok (pack_loop c p i st).
Proof. intros HC HP. induction 1; intros i; cbn [pack_loop]; go. Qed.
Lemma n_steps a b c : Forall ok (fp_source_steps a b c).
Proof. unfold fp_source_steps. apply Forall_forall. intros m H. apply in_map_iff in H as (z & <- & _). go. Qed.
Lemma n_pack_all n c l m a b d : tame_apps (the_bpargs b) -> tame_meta (the_margs d) -> ok (pack (fp_source E) (fp_sink E) n c l m a b d).
Proof.
  intros TB TD. unfold pack. change (match b with Some a => a | None => default_bpargs end) with (the_bpargs b).
  change (match d with Some a => a | None => default_margs end) with (the_margs d).
  pose proof (fun o n => n_apps o n _ TB). pose proof (fun m => n_wm m _ TD). cbn [fp_source fp_sink cs_configure cs_write_header cs_write_metadata cs_init_offsets cs_put cs_finalize ps_compress ps_steps]. go.
  - intros s. exact I.
  - unfold fps_write_header. intros s. apply ok_on_fp. go.
  - unfold fps_write_metadata. go. intros s. exact I.
  - unfold fps_init_offsets. intros s. destruct (h_offsets _); [destruct (total_prospective_chunks _)|]; cbn [snd]; go. all: apply ok_on_fp; go.
  - apply n_loop; [intros; go|intros; go|apply n_steps].
  - unfold fps_finalize. intros s. destruct (h_offsets _); [|exact I]. apply ok_on_fp. go.
Qed.
Lemma n_getsize p : ok (getsize p). Proof. intros s. unfold getsize. cbn [snd]. go. Qed.
Lemma n_open p : ok (open_rb p). Proof. intros s. unfold open_rb. cbn [snd]. go. Qed.
Lemma n_openw p : ok (open_wb p). Proof. intros s. unfold open_wb. destruct (String.eqb p ""); cbn [snd]; go. Qed.
Hint Resolve n_getsize n_open n_openw : nx.
Lemma n_rev s : okr (reverse_pretty s).
Proof.
  assert (X : forall t k, okr (float_times t k)).
  { intros t k. unfold float_times, decimal_times, int_of_scaled. go. }
  unfold reverse_pretty. go.
Qed.
Lemma n_uloop {Src Snk} (next : SM Src (bytes * option bytes)) c (p : bytes -> SM Snk Z) : ok next -> (forall x, ok (p x)) ->
  forall n, ok (unpack_loop E next c p n).
Proof. intros HN HP. induction n; cbn [unpack_loop]; go. Qed.
Lemma n_unpack b : okr (snd (unpack_core E b)).
Proof.
  unfold unpack_core. pose proof (n_rb (fp_of b)) as H. destruct (read_beginning E (fp_of b)) as [f [bg|e]]; [|exact H].
  assert (U : ok (unpack_fp E (b_header bg))).
  { unfold unpack_fp. apply n_uloop; [unfold fp_next; go|unfold plain_put; intros; go]. }
  specialize (U (f, fp_of [])). destruct (unpack_fp E _ _) as [[? ?] r]. cbn [snd] in *. go.
Qed.
Lemma n_unpack_file i o : ok (unpack_file_from_file E i o).
Proof.
  unfold unpack_file_from_file. go. intros s. pose proof (n_unpack (if String.eqb i o then [] else a0)) as H. destruct (unpack_core E _). exact H.
Qed.
Lemma n_meta o : ok (process_metadata_args E o).
Proof. unfold process_metadata_args. destruct o; [|go]. intros s'. cbn [snd]. go. Qed.
Lemma n_recreate h ov : okr (recreate_metadata h ov).
Proof. unfold recreate_metadata, check_valid_serializer. go. Qed.
Lemma recreate_tame h ov a : recreate_metadata h ov = Ok a -> tame_meta a.
Proof.
  unfold recreate_metadata. intros X. repeat match type of X with rbind ?r _ = _ => destruct r; cbn [rbind] in X; [|discriminate] end.
  injection X as <-. intros g n Y. discriminate.
Qed.
Lemma n_rewrite m ov : ok (rewrite_metadata E m ov).
Proof.
  unfold rewrite_metadata, seek_to_metadata, rewrite_metadata_fp.
  assert (X : forall h pos, ok (bind (lift (recreate_metadata h ov)) (fun a => bind (f_seek E pos) (fun _ => bind (write_metadata E m a) (fun _ => ret tt))))).
  { intros h pos s. pose proof (n_recreate h ov) as R. unfold bind at 1, lift. destruct (recreate_metadata h ov) as [a|e] eqn:Q; [|exact R].
    pose proof (n_wm m a (recreate_tame h ov a Q)) as W. revert s. change (ok (bind (f_seek E pos) (fun _ => bind (write_metadata E m a) (fun _ => ret tt)))). go. }
  go.
Qed.
(** [pack_file_to_file] only fails badly if [calculate_nchunks] does. *)
Lemma n_pack_file i o cs m a b c s e : tame_apps (the_bpargs b) -> tame_meta (the_margs c) -> snd (pack_file_to_file E i o cs m a b c s) = Raise e -> bad e = true ->
  exists d, s i = Some d /\ calculate_nchunks (size d) cs = Raise e.
Proof.
  intros TB TC. unfold pack_file_to_file, pack_file_racing. unfold bind at 1. unfold getsize at 1. destruct (s i) as [d|] eqn:Hs.
  2:{ cbn [snd]. intros H. injection H as <-. rewrite Bad by (intros; discriminate). discriminate. }
  unfold bind at 1. unfold lift. change (size d) with (zlen d). destruct (calculate_nchunks (zlen d) cs) as [[[n c'] l]|e'] eqn:C.
  2:{ cbn [snd]. intros H _. injection H as <-. eauto. }
  intros H B. exfalso. match type of H with snd (?m s) = _ => assert (X : ok m) end.
  { go.
    - intros s'. exact I.
    - intros s'. match goal with |- context [pack ?x ?y n c' l m a b c ?z] => pose proof (n_pack_all n c' l m a b c TB TC z) as H2; destruct (pack x y n c' l m a b c z) as [[? ?] ?] end.
      exact H2. }
  specialize (X s). rewrite H in X. cbn [okr] in X. congruence.
Qed.
Hypothesis Hchunk : bad ChunkingException = false.
Lemma n_calc z cs : okr (calculate_nchunks z cs).
Proof. unfold calculate_nchunks. go; apply n_rev. Qed.
Hint Resolve n_calc : nx.
Lemma n_fill o h : okr (fill_blosc_args o h). Proof. unfold fill_blosc_args. go. Qed.
Hint Resolve n_fill : nx.
Lemma n_append_fp n o : ok (append_fp E n o).
Proof.
  unfold append_fp. go. intros st. cbv zeta.
  match goal with |- context [pack_loop ?c ?p ?i ?l ?z] =>
    assert (HL : ok (pack_loop c p i l)) by (apply n_loop; [intros; go|intros; go|apply n_steps]); specialize (HL z);
    destruct (pack_loop c p i l z) as [[nf sk] [q|e]] end; [|exact HL].
  match goal with |- okr (snd (?m (nf, s_fp sk))) => assert (X : ok m) by go; apply X end.
Qed.
Lemma n_append_file o n oa : ok (append_file E o n oa).
Proof. unfold append_file. go. intros s. cbv zeta. cbn [snd]. apply n_append_fp. Qed.
End Avoid.

(** ** Printing *)
Definition plus (l : logst) (out : list text) : logst := mkLog (l_level l) (l_prefix l) (l_out l ++ map (app (l_prefix l)) out).
Definition told (mark : string) (m : text) : list text := map (app (t_ mark)) (filter has_text (split_nl m)).
Lemma plus_nil l : plus l [] = l. Proof. destruct l. unfold plus. cbn. rewrite app_nil_r. reflexivity. Qed.
Lemma plus_plus l a b : plus (plus l a) b = plus l (a ++ b).
Proof. unfold plus. cbn. rewrite map_app, app_assoc. reflexivity. Qed.
Lemma plus_level l a : l_level (plus l a) = l_level l. Proof. reflexivity. Qed.
Lemma told_lines mark m : message_lines mark m (told mark m).
Proof. exists (split_nl m). split; [apply lines_exist|]. reflexivity. Qed.
Lemma plus_adds l out : adds l (plus l out) out. Proof. repeat split. Qed.
Lemma normal_run m l : rank (l_level l) <> None -> normal m l = (plus l (told ": " m), Ok tt).
Proof.
  intros R. destruct (rank (l_level l)) as [j|] eqn:RJ; [|congruence].
  assert (J : 0 <= j) by (unfold rank in RJ; repeat match type of RJ with context [if ?b then _ else _] => destruct b end; congruence || (injection RJ as <-; lia)).
  unfold normal. rewrite (log_verbose _ "NORMAL" l 0 j _ eq_refl RJ (lines_exist m)). replace (0 <=? j) with true by lia.
  unfold plus, told. rewrite map_map. reflexivity.
Qed.
Lemma say_run m s l : rank (l_level l) <> None -> say m (s, l) = ((s, plus l (told ": " m)), Ok tt).
Proof. intros R. unfold say, onr. cbn [fst snd]. rewrite normal_run by exact R. reflexivity. Qed.
Lemma error_run {A} m code (s : fs) l : onr (@error A m code) (s, l) = ((s, plus l (told ": error: " m)), Raise (SystemExit code)).
Proof.
  unfold onr. cbn [fst snd]. rewrite (log_error m code l _ (lines_exist m)). unfold plus, told. rewrite map_map. reflexivity.
Qed.
Lemma fail_run {A} m s l : @fail A m (s, l) = ((s, plus l (told ": error: " m)), Raise (SystemExit 1)).
Proof. apply error_run. Qed.
Lemma say_then {A} m (k : SM fsl A) s l : rank (l_level l) <> None -> (say m ;;; k) (s, l) = k (s, plus l (told ": " m)).
Proof. intros R. exact (bind_run _ (fun _ => k) _ _ _ (say_run m s l R)). Qed.
Lemma on_fs_run {A} (m : SM fs A) s l : on_fs m (s, l) = ((fst (m s), l), snd (m s)).
Proof. unfold on_fs, onl. cbn [fst snd]. destruct (m s). reflexivity. Qed.

(** *** What info prints, concretely *)
Definition ind4 : text := repeat " "%char 4.
Definition header_lines_of (h : header) : list text := t_ "BloscpackHeader:" :: map (app ind4) (header_fields h).
Definition mheader_lines_of (h : mheader) : list text := t_ "MetadataHeader:" :: map (app ind4) (mheader_fields h).
Lemma told_one mark m : lacks nl m -> m <> [] -> told mark m = [t_ mark ++ m].
Proof. intros L N. unfold told. rewrite split_nl_one by exact L. destruct m; [congruence|reflexivity]. Qed.
Lemma told_header h : told ": " (header_text h) = map (app (t_ ": ")) (header_lines_of h).
Proof.
  unfold told, header_text. rewrite pformat_header. cbn [snd]. f_equal.
  rewrite <- (lines_unique _ _ (report_lines (t_ "BloscpackHeader:") 4 (header_fields h) ltac:(cbv; intuition discriminate) (header_fields_lacks h) ltac:(discriminate))).
  apply nonempty_fields; [discriminate|]. unfold header_fields. repeat (constructor; [apply field_ne|]). constructor.
Qed.
Lemma told_mheader h : told ": " (mheader_text h) = map (app (t_ ": ")) (mheader_lines_of h).
Proof.
  unfold told, mheader_text. rewrite pformat_mheader. cbn [snd]. f_equal.
  rewrite <- (lines_unique _ _ (report_lines (t_ "MetadataHeader:") 4 (mheader_fields h) ltac:(cbv; intuition discriminate) (mheader_fields_lacks h) ltac:(discriminate))).
  apply nonempty_fields; [discriminate|]. unfold mheader_fields. repeat (constructor; [apply field_ne|]). constructor.
Qed.
Lemma header_block_of h : header_block h (header_lines_of h).
Proof.
  destruct (header_lines 4 h (header_text h)) as (ls & L & F); [unfold header_text; rewrite pformat_header; reflexivity|].
  exists ls. split; [|exact F]. apply lines_unique in L. unfold header_lines_of, ind4.
  rewrite (lines_unique _ _ (report_lines (t_ "BloscpackHeader:") 4 (header_fields h) ltac:(cbv; intuition discriminate) (header_fields_lacks h) ltac:(discriminate))).
  symmetry. exact L.
Qed.
Lemma mheader_block_of h : metadata_header_block h (mheader_lines_of h).
Proof.
  destruct (mheader_lines 4 h (mheader_text h)) as (ls & L & F); [unfold mheader_text; rewrite pformat_mheader; reflexivity|].
  exists ls. split; [|exact F]. apply lines_unique in L. unfold mheader_lines_of, ind4.
  rewrite (lines_unique _ _ (report_lines (t_ "MetadataHeader:") 4 (mheader_fields h) ltac:(cbv; intuition discriminate) (mheader_fields_lacks h) ltac:(discriminate))).
  symmetry. exact L.
Qed.

(** *** Dictionaries and offsets *)
Definition simple (v : oval) : Prop := match v with OCall _ => False | _ => True end.
Lemma odict_line l : Forall (fun kv => simple (snd kv)) l -> Forall (fun kv => repr_quoted (t_ (fst kv)) = t_ "'" ++ t_ (fst kv) ++ t_ "'") l ->
  dict_line l (odict_text l).
Proof.
  intros S Q. unfold odict_text.
  exists (map (fun kv => pair_text (fst kv) (oval_repr (snd kv))) l). split.
  - clear Q. induction S as [|[k v] l Hv _ IH]; constructor; [|exact IH]. cbn [fst snd] in *. exists (oval_repr v). split; [|reflexivity].
    apply read_repr. intros n ->. exact Hv.
  - f_equal. f_equal. f_equal. apply map_ext_in. intros [k v] I. rewrite Forall_forall in Q. specialize (Q _ I). cbn [fst snd oval_repr] in *. rewrite Q.
    unfold pair_text. rewrite <- !app_assoc. reflexivity.
Qed.
Lemma blosc_line h : dict_line (blosc_items h) (blosc_header_text h).
Proof. apply odict_line; repeat constructor. Qed.
Lemma flags_line f : dict_line (flags_items f) (blosc_flags_text f).
Proof. apply odict_line; repeat constructor. Qed.
Lemma join_commas l : l <> [] -> join_text (t_ ",") l ++ t_ "," = concat (map (fun t => t ++ t_ ",") l).
Proof.
  induction l as [|x l IH]; [congruence|]. intros _. destruct l as [|y l].
  - cbn [join_text map concat]. rewrite app_nil_r. reflexivity.
  - change (join_text (t_ ",") (x :: y :: l)) with (x ++ t_ "," ++ join_text (t_ ",") (y :: l)).
    cbn [map concat]. cbn [map concat] in IH. rewrite <- IH by discriminate. rewrite !app_assoc. reflexivity.
Qed.
Lemma offsets_text_eq l : l <> [] -> offsets_text l = t_ "[" ++ concat (map (fun t => t ++ t_ ",") (map int_text (firstn 5 l))) ++ t_ "...]".
Proof.
  intros N. unfold offsets_text. rewrite <- join_commas by (destruct l; [congruence|discriminate]). rewrite <- app_assoc. reflexivity.
Qed.
Lemma offsets_lacks l : lacks nl (offsets_text l).
Proof.
  assert (X : forall l, Forall (lacks nl) l -> lacks nl (join_text (t_ ",") l)).
  { induction 1 as [|x r Hx F IH]; [intros []|]. destruct r; [exact Hx|]. cbn [join_text] in *. rewrite !lacks_app. repeat split; auto. cbv. intuition discriminate. }
  unfold offsets_text. rewrite !lacks_app. repeat split; try (cbv; intuition discriminate). apply X. apply Forall_map. apply Forall_forall. intros z _. apply int_lacks.
Qed.
Lemma odict_lacks l : Forall (fun kv => lacks nl (oval_repr (snd kv))) l -> Forall (fun kv => lacks nl (repr_quoted (t_ (fst kv)))) l -> lacks nl (odict_text l).
Proof.
  intros F G. assert (X : forall l, Forall (lacks nl) l -> lacks nl (join_text (t_ ", ") l)).
  { induction 1 as [|x r Hx F' IH]; [intros []|]. destruct r; [exact Hx|]. cbn [join_text] in *. rewrite !lacks_app. repeat split; auto. cbv. intuition discriminate. }
  unfold odict_text. rewrite !lacks_app. repeat split; try (cbv; intuition discriminate). apply X. apply Forall_map. apply Forall_forall. intros [k v] I.
  rewrite Forall_forall in F, G. specialize (F _ I). specialize (G _ I). cbn [fst snd oval_repr] in *. rewrite !lacks_app. repeat split; auto; cbv; intuition discriminate.
Qed.
Lemma blosc_lacks h : lacks nl (blosc_header_text h).
Proof. apply odict_lacks; repeat constructor; cbn [fst snd oval_repr]; try apply int_lacks; apply repr_quoted_lacks. Qed.
Lemma flags_lacks f : lacks nl (blosc_flags_text f).
Proof. apply odict_lacks; repeat constructor; cbn [fst snd]; try apply bool_lacks; try apply repr_quoted_lacks; cbn [oval_repr]; apply repr_quoted_lacks. Qed.
Lemma app_ne {A} (x y : list A) : x <> [] -> x ++ y <> []. Proof. destruct x; [congruence|discriminate]. Qed.

(** ** The commands *)
Section Commands.
Variable E : Env.
Variable T : Texts.
Hypothesis HN : NoExit E.

Definition exits (e : exn) : bool := match e with SystemExit _ => true | _ => false end.
Definition exits_or_chunking (e : exn) : bool := match e with SystemExit _ | ChunkingException => true | _ => false end.
Lemma exits_Bad e : e <> ChunkingException -> (forall n, e <> SystemExit n) -> exits e = false.
Proof. intros _ H. destruct e; try reflexivity. destruct (H code); reflexivity. Qed.
Lemma exits_or_Bad e : e <> ChunkingException -> (forall n, e <> SystemExit n) -> exits_or_chunking e = false.
Proof. intros H0 H. destruct e; try reflexivity; [congruence|]. destruct (H code); reflexivity. Qed.
Lemma outside_ok {A} (r : res A) : outside r -> okr exits r /\ okr exits_or_chunking r.
Proof.
  intros [H1 H2]. destruct r as [a|e]; [split; exact I|]. cbn [okr]. split; destruct e; try reflexivity; try congruence; destruct (H1 code); reflexivity.
Qed.
Definition gives_up (c : command) (s : fs) (e : exn) (out : list text) : Prop :=
  (exists m, complaint E T s c m /\ e = SystemExit 1 /\ message_lines ": error: " m out) \/ (e <> SystemExit 1 /\ out = []).

Lemma quoted_in s : t_ "input file " ++ quoted s ++ t_ " does not exist!" = t_ "input file '" ++ t_ s ++ t_ "' does not exist!".
Proof. unfold quoted. rewrite <- !app_assoc. reflexivity. Qed.
Lemma check_files_run i o f s l : r_check_files i o f (s, l) =
  if negb (fs_exists s i) then ((s, plus l (told ": error: " (t_ "input file '" ++ t_ i ++ t_ "' does not exist!"))), Raise (SystemExit 1))
  else if fs_exists s o && negb f then ((s, plus l (told ": error: " (t_ "output file '" ++ t_ o ++ t_ "' exists!"))), Raise (SystemExit 1))
  else ((s, l), Ok tt).
Proof.
  unfold r_check_files. cbn [fst]. rewrite !fail_run. unfold quoted. rewrite <- !app_assoc. reflexivity.
Qed.
Lemma chunk_option_exit t n : chunk_size_option t = Raise (SystemExit n) -> n = 1.
Proof.
  unfold chunk_size_option. destruct (String.eqb t "max"); [discriminate|].
  destruct (rev (list_ascii_of_string t)) as [|c r]; cbn [rbind]; [discriminate|].
  match goal with |- context [match suffix_bits c with Some _ => ?a | None => ?b end] =>
    assert (X : okr exits (match suffix_bits c with Some _ => a | None => b end)) end.
  { destruct (suffix_bits c); [apply n_rev, exits_Bad|]. unfold int_of_text. destruct (number_text _); [|reflexivity].
    destruct (take_sign _) as [? ?]. destruct (take_digits _ _ _) as [[? ?] [|? ?]]; [destruct (_ =? 0)|]; reflexivity. }
  match goal with |- context [match ?y with Ok z => Ok z | Raise e => _ end] => destruct y as [z|e] end.
  - cbn [rbind]. destruct (z <? 0); [intros H; injection H as <-; reflexivity|discriminate].
  - cbn [okr] in X. destruct (is_ValueError e); cbn [rbind]; intros H; injection H; intros; subst; [reflexivity|discriminate].
Qed.

Lemma nothing c s l (r : fs) e : e <> SystemExit 1 ->
  exists out, ((r, l), @Raise unit e) = ((r, plus l out), Raise e) /\ gives_up c s e out.
Proof. intros H. exists []. rewrite plus_nil. split; [reflexivity|]. right. auto. Qed.
Lemma complains c s l (r : fs) m : complaint E T s c m ->
  exists out, ((r, plus l (told ": error: " m)), @Raise unit (SystemExit 1)) = ((r, plus l out), Raise (SystemExit 1)) /\ gives_up c s (SystemExit 1) out.
Proof. intros H. eexists. split; [reflexivity|]. left. exists m. split; [exact H|]. split; [reflexivity|]. apply told_lines. Qed.
Lemma choices_exit a b e : blosc_choices E a b = Raise e -> e <> SystemExit 1.
Proof. unfold blosc_choices. destruct (_ && _); [discriminate|]. intros H. injection H as <-. discriminate. Qed.
Lemma meta_exit o s : forall e, snd (process_metadata_args E o s) = Raise e -> e <> SystemExit 1.
Proof.
  intros e H EQ. subst e.
  pose proof (n_meta E exits exits_Bad (fun x => proj1 (outside_ok _ (nx_loads E HN x))) o s) as X. rewrite H in X. discriminate.
Qed.
Lemma exists_Some (s : fs) p : fs_exists s p = true -> exists d, s p = Some d.
Proof. unfold fs_exists. destruct (s p); [eauto|discriminate]. Qed.
Lemma exists_None (s : fs) p : fs_exists s p = false -> s p = None.
Proof. unfold fs_exists. destruct (s p); [discriminate|reflexivity]. Qed.
Lemma meta_state o s : fst (process_metadata_args E o s) = s.
Proof. unfold process_metadata_args. destruct o; reflexivity. Qed.

Definition chunk_step (o : copts) : SM fsl csarg :=
  match co_chunk o with
  | None => ret (CSStr "1M")
  | Some t => match chunk_size_option t with
              | Ok z => ret (CSInt z)
              | Raise (SystemExit _) => fail (t_option T t)
              | Raise e => raise e
              end
  end.
Lemma chunk_step_run o s l :
  (exists cs, chunk_step o (s, l) = ((s, l), Ok cs) /\
     match co_chunk o with None => Ok (CSStr "1M") | Some t => z <~ chunk_size_option t ;; Ok (CSInt z) end = Ok cs /\
     match co_chunk o with None => cs = CSStr "1M" | Some t => exists z, chunk_size_option t = Ok z /\ cs = CSInt z end) \/
  (exists e out, chunk_step o (s, l) = ((s, plus l out), Raise e) /\
     match co_chunk o with None => Ok (CSStr "1M") | Some t => z <~ chunk_size_option t ;; Ok (CSInt z) end = Raise e /\
     gives_up (CmdCompress o) s e out).
Proof.
  unfold chunk_step. destruct (co_chunk o) as [t|] eqn:CH; [|left; eexists; split; [reflexivity|]; split; [reflexivity|reflexivity]].
    destruct (chunk_size_option t) as [z|e] eqn:CO; [left; eexists; split; [reflexivity|]; split; [reflexivity|]; eauto|]. right.
    assert (X : (exists n, e = SystemExit n) \/ forall n, e <> SystemExit n) by (destruct e; (left; eexists; reflexivity) || (right; intros; discriminate)).
    destruct X as [[n ->]|X].
    - pose proof (chunk_option_exit _ _ CO) as ->. rewrite fail_run. eexists _, _. split; [reflexivity|]. split; [reflexivity|].
      left. eexists. split; [apply (cp_chunk E T s o t CH CO)|]. split; [reflexivity|apply told_lines].
    - exists e, []. rewrite plus_nil. split; [destruct e; try reflexivity; destruct (X code); reflexivity|]. split; [reflexivity|]. right. auto.
Qed.
Theorem compress_outcome o s l : exists out,
  r_compress E T o (s, l) = ((fst (cli_compress E o s), plus l out), snd (cli_compress E o s)) /\
  match snd (cli_compress E o s) with Ok _ => out = [] | Raise e => gives_up (CmdCompress o) s e out end.
Proof.
  unfold r_compress, cli_compress, bind, lift.
  destruct (blosc_choices E (co_clevel o) (co_cname o)) as [[]|e] eqn:BC; [|apply nothing; eapply choices_exit; exact BC].
  destruct (chunk_step_run o s l) as [(cs & C1 & C2 & C3)|(e & out & C1 & C2 & C3)]; unfold chunk_step in C1; rewrite C1, C2; [|exists out; auto].
  destruct (check_valid_checksum (co_checksum o)) as [ck|e]; [|apply nothing; discriminate].
  rewrite check_files_run. unfold check_files.
  destruct (fs_exists s (co_in o)) eqn:EI; cbn [negb].
  2:{ apply complains, cp_in, exists_None, EI. }
  destruct (fs_exists s (compress_out o) && negb (co_force o)) eqn:EO.
  { apply andb_prop in EO as [EO EF]. destruct (exists_Some _ _ EO) as [d Hd]. apply complains. apply (cp_out E T s o d Hd). destruct (co_force o); [discriminate|reflexivity]. }
  rewrite on_fs_run. pose proof (meta_exit (co_meta o) s) as ME. pose proof (meta_state (co_meta o) s) as MS.
  destruct (process_metadata_args E (co_meta o) s) as [s1 [m|e]]; cbn [fst snd] in MS, ME |- *; subst s1; [|apply nothing; apply ME; reflexivity].
  rewrite on_fs_run.
  match goal with |- context [pack_file_to_file E ?a ?b ?c ?d ?e ?f ?g s] =>
    pose proof (n_pack_file E exits_or_chunking exits_or_Bad
      (fun ba x => proj2 (outside_ok _ (nx_compress E HN ba x))) (fun x k => proj2 (outside_ok _ (nx_zcompress E HN x k)))
      (fun x => proj2 (outside_ok _ (nx_dumps E HN x))) a b c d e f g s) as NP;
    assert (NP' : forall x, snd (pack_file_to_file E a b c d e f g s) = Raise x -> exits_or_chunking x = true -> exists y, s a = Some y /\ calculate_nchunks (size y) c = Raise x)
      by (intros; apply NP; auto; intros ? ? G; injection G as <-; exact Logic.I); clear NP; rename NP' into NP;
    destruct (pack_file_to_file E a b c d e f g s) as [s1 [r|e1]] end; cbn [fst snd] in *.
  { exists []. rewrite plus_nil. auto. }
  assert (X : e1 = ChunkingException \/ (e1 <> ChunkingException /\ e1 <> SystemExit 1)).
  { destruct e1; try (right; split; discriminate); [left; reflexivity|]. exfalso. destruct (NP _ eq_refl eq_refl) as (d & _ & CN).
    assert (Y : okr exits (calculate_nchunks (size d) cs)) by (apply n_calc; [apply exits_Bad|reflexivity]). rewrite CN in Y. discriminate. }
  destruct X as [-> | [X1 X2]].
  - rewrite fail_run. apply complains. destruct (NP _ eq_refl eq_refl) as (d & Hd & CN). apply (cp_chunking E T s o d cs Hd CN C3).
  - exists []. rewrite plus_nil. destruct e1; try (split; [reflexivity|right; auto]). congruence.
Qed.

Lemma vacant_spec m : (py_true m = false <-> vacant m).
Proof.
  split.
  - destruct m as [|b|z|r|t|x|x|x]; cbn [py_true]; intros H; try (destruct x; [constructor|discriminate]); try constructor.
    + destruct b; [discriminate|constructor].
    + assert (z = 0) as -> by (destruct (Z.eqb_spec z 0); [auto|discriminate]). constructor.
    + apply negb_false_iff, orb_prop in H as [H|H]; apply zs_eqb_eq in H as ->; constructor.
    + apply negb_false_iff, zs_eqb_eq in H as ->. constructor.
  - intros []; reflexivity.
Qed.
Lemma log_metadata_run m s l : rank (l_level l) <> None ->
  log_metadata T m (s, l) = ((s, plus l (told ": " (t_ "Metadata:") ++ told ": " (t_pprint T m))), Ok tt).
Proof.
  intros R. unfold log_metadata. rewrite say_then by exact R. rewrite say_run by exact R. rewrite plus_plus. reflexivity.
Qed.
Lemma decompress_out_run o s l : 
  (exists p, r_decompress_out o (s, l) = ((s, l), Ok p) /\ decompress_out o = Ok p) \/
  (exists out, r_decompress_out o (s, l) = ((s, plus l out), Raise (SystemExit 1)) /\ decompress_out o = Raise (SystemExit 1) /\
     gives_up (CmdDecompress o) s (SystemExit 1) out).
Proof.
  unfold r_decompress_out, decompress_out. destruct (do_no_check o) eqn:NC.
  - destruct (do_out o) as [p|] eqn:DO; [left; eexists; split; reflexivity|]. right. rewrite fail_run. eexists. split; [reflexivity|]. split; [reflexivity|].
    left. eexists. split; [apply cp_no_out; assumption|]. split; [reflexivity|apply told_lines].
  - destruct (ends_with_ext (do_in o)) eqn:EX; [left; eexists; split; reflexivity|]. right. rewrite fail_run. eexists. split; [reflexivity|]. split; [reflexivity|].
    left. eexists. split; [apply cp_ext; [exact NC|]|].
    { intros base EQ. assert (ends_with_ext (do_in o) = true) by (apply ext_iff; eauto). congruence. }
    split; [reflexivity|]. unfold quoted. rewrite <- !app_assoc. apply told_lines.
Qed.
Theorem decompress_outcome o s l : rank (l_level l) <> None -> exists out,
  r_decompress E T o (s, l) = ((fst (main E (CmdDecompress o) s), plus l out), snd (main E (CmdDecompress o) s)) /\
  match snd (cli_decompress E o s) with Ok m => decompress_report T m out | Raise e => gives_up (CmdDecompress o) s e out end /\
  snd (main E (CmdDecompress o) s) = match snd (cli_decompress E o s) with Ok _ => Ok tt | Raise e => Raise e end.
Proof.
  intros RK. cbn [main]. unfold r_decompress, cli_decompress, bind, lift.
  destruct (decompress_out_run o s l) as [(p & R1 & R2)|(out & R1 & R2 & R3)]; rewrite R1, R2; [|exists out; auto].
  rewrite check_files_run. unfold check_files.
  destruct (fs_exists s (do_in o)) eqn:EI; cbn [negb].
  2:{ destruct (complains (CmdDecompress o) s l s _ (cp_din E T s o (exists_None _ _ EI))) as (out & X1 & X2). exists out. split; [exact X1|]. split; [exact X2|reflexivity]. }
  destruct (fs_exists s p && negb (do_force o)) eqn:EO.
  { apply andb_prop in EO as [EO EF]. destruct (exists_Some _ _ EO) as [d Hd]. assert (F : do_force o = false) by (destruct (do_force o); [discriminate|reflexivity]).
    destruct (complains (CmdDecompress o) s l s _ (cp_dout E T s o p d R2 Hd F)) as (out & X1 & X2). exists out. split; [exact X1|]. split; [exact X2|reflexivity]. }
  rewrite on_fs_run.
  pose proof (n_unpack_file E exits exits_Bad (fun x => proj1 (outside_ok _ (nx_decompress E HN x))) (fun x => proj1 (outside_ok _ (nx_zdecompress E HN x)))
      (fun x => proj1 (outside_ok _ (nx_loads E HN x))) (do_in o) p s) as NU.
  destruct (unpack_file_from_file E (do_in o) p s) as [s1 [m|e]]; cbn [fst snd okr] in *.
  - destruct (py_true m) eqn:PT.
    + rewrite log_metadata_run by exact RK. eexists. split; [reflexivity|]. split; [|reflexivity]. split.
      * intros V. apply vacant_spec in V. congruence.
      * intros _. exists (split_nl (t_pprint T m)). split; [apply lines_exist|]. rewrite told_one; [reflexivity|cbv; intuition discriminate|discriminate].
    + exists []. rewrite plus_nil. split; [reflexivity|]. split; [|reflexivity]. split; [reflexivity|]. intros V. destruct V. apply vacant_spec. exact PT.
  - exists []. rewrite plus_nil. split; [destruct e; reflexivity|]. split; [|destruct e; reflexivity].
    destruct e; cbn [snd]; try (right; split; [discriminate|reflexivity]).
Qed.

Theorem append_outcome_said o s l : exists out,
  r_append E o (s, l) = ((fst (cli_append E o s), plus l out), snd (cli_append E o s)) /\
  match snd (cli_append E o s) with Ok _ => out = [] | Raise e => gives_up (CmdAppend o) s e out end.
Proof.
  unfold r_append, cli_append, bind, lift.
  destruct (blosc_choices E (ao_clevel o) (ao_cname o)) as [[]|e] eqn:BC; [|apply nothing; eapply choices_exit; exact BC].
  destruct (negb (ao_no_check o) && negb (ends_with_ext (ao_orig o))) eqn:EX.
  { rewrite fail_run. unfold quoted. rewrite <- !app_assoc. apply andb_prop in EX as [EX1 EX2]. apply complains.
    apply (cp_aext E T s o); [destruct (ao_no_check o); [discriminate|reflexivity]|].
    intros base EQ. assert (ends_with_ext (ao_orig o) = true) as X by (apply ext_iff; eauto). rewrite X in EX2. discriminate. }
  unfold ret. cbn [fst].
  destruct (fs_exists s (ao_orig o)) eqn:E1; cbn [negb].
  2:{ rewrite fail_run. unfold quoted. rewrite <- !app_assoc. exact (complains (CmdAppend o) s l s _ (cp_orig E T s o (exists_None _ _ E1))). }
  destruct (fs_exists s (ao_new o)) eqn:E2; cbn [negb].
  2:{ rewrite fail_run. unfold quoted. rewrite <- !app_assoc. exact (complains (CmdAppend o) s l s _ (cp_new E T s o (exists_None _ _ E2))). }
  rewrite on_fs_run. pose proof (meta_exit (ao_meta o) s) as ME. pose proof (meta_state (ao_meta o) s) as MS.
  destruct (process_metadata_args E (ao_meta o) s) as [s1 [m|e]]; cbn [fst snd] in MS, ME |- *; subst s1; [|apply nothing; apply ME; reflexivity].
  rewrite on_fs_run.
  match goal with |- context [append_file E ?a ?b ?c s] =>
    pose proof (n_append_file E exits exits_Bad (fun ba x => proj1 (outside_ok _ (nx_compress E HN ba x))) (fun x => proj1 (outside_ok _ (nx_decompress E HN x)))
      (fun x => proj1 (outside_ok _ (nx_zdecompress E HN x))) (fun x => proj1 (outside_ok _ (nx_loads E HN x))) eq_refl a b c s) as NA;
    destruct (append_file E a b c s) as [s1 [r|e1]] end; cbn [fst snd okr] in *.
  2:{ apply nothing. intros ->. discriminate. }
  destruct (is_none m); [exists []; rewrite plus_nil; split; reflexivity|].
  rewrite on_fs_run. unfold open_rb. destruct (s1 (ao_orig o)) as [d|]; cbn [fst snd]; [|apply nothing; discriminate].
  pose proof (n_rewrite E exits exits_Bad (fun x k => proj1 (outside_ok _ (nx_zcompress E HN x k))) (fun x => proj1 (outside_ok _ (nx_zdecompress E HN x)))
    (fun x => proj1 (outside_ok _ (nx_dumps E HN x))) (fun x => proj1 (outside_ok _ (nx_loads E HN x))) m default_overrides (fp_of d)) as NR.
  exists []. rewrite plus_nil. split; [reflexivity|]. destruct (snd (rewrite_metadata E m default_overrides (fp_of d))) as [|e]; [reflexivity|].
  right. split; [|reflexivity]. intros ->. discriminate.
Qed.

(** *** info *)
Definition meta_lines (m : pyval) (omh : option mheader) : list text :=
  match omh with
  | Some mh => if is_none m then [] else t_ "Metadata:" :: filter has_text (split_nl (t_pprint T m)) ++ mheader_lines_of mh
  | None => []
  end.
Definition offsets_lines (l : list Z) : list text := match l with [] => [] | _ => [t_ "'offsets':"; offsets_text l] end.
Definition head_lines (h : header) (l : list Z) (m : pyval) (omh : option mheader) (b : blosc_header) : list text :=
  header_lines_of h ++ offsets_lines l ++ meta_lines m omh ++ [t_ "First chunk blosc header:"; blosc_header_text b; t_ "First chunk blosc flags: "].
Lemma head_ok h l m omh b : (is_none m = false -> omh <> None) ->
  info_head T h (firstn 5 l) m (if is_none m then None else omh) b (map (app (t_ ": ")) (head_lines h l m omh b)).
Proof.
  intros HM. exists (header_lines_of h), (offsets_lines l), (meta_lines m omh), (blosc_header_text b).
  split; [apply header_block_of|]. split.
  { assert (RI : forall k, Forall2 (fun z t => read_int t = Some z) k (map int_text k)) by (induction k; constructor; [apply read_int_text|assumption]).
    unfold offsets_report, offsets_lines. destruct l as [|z l]; [reflexivity|]. pose proof (offsets_text_eq (z :: l) ltac:(discriminate)) as OT.
    specialize (RI (firstn 5 (z :: l))). destruct (firstn 5 (z :: l)) as [|y k] eqn:F5; [discriminate|].
    exists (map int_text (y :: k)). split; [exact RI|]. rewrite OT. reflexivity. }
  split.
  { unfold metadata_report, meta_lines. destruct (is_none m) eqn:N.
    - split; [destruct m; (reflexivity || discriminate)|]. destruct omh; reflexivity.
    - destruct omh as [mh|]; [|destruct (HM eq_refl); reflexivity]. eexists _, _. split; [intros ->; discriminate|]. split; [apply lines_exist|].
      split; [apply mheader_block_of|reflexivity]. }
  split; [apply blosc_line|]. reflexivity.
Qed.
Lemma told_plain m : lacks nl m -> m <> [] -> told ": " m = map (app (t_ ": ")) [m].
Proof. exact (told_one ": " m). Qed.
Definition info_read (d : bytes) : fp * res (beginning * blosc_header) :=
  (bg <- read_beginning E ;; r <- read_compressed_chunk E (h_checksum (b_header bg)) ;; ret (bg, snd (fst r))) (fp_of d).
Definition info_tail (bg : beginning) (bh : blosc_header) : SM fsl unit :=
  say (header_text (b_header bg)) ;;;
  (match b_offsets bg with
   | [] => ret tt
   | l => say (t_ "'offsets':") ;;; say (offsets_text l)
   end) ;;;
  (if is_none (b_meta bg) then ret tt
   else log_metadata T (b_meta bg) ;;;
        match b_mheader bg with Some mh => say (mheader_text mh) | None => raise AttributeError end) ;;;
  say (t_ "First chunk blosc header:") ;;;
  say (blosc_header_text bh) ;;;
  say (t_ "First chunk blosc flags: ") ;;;
  fl <- lift (decode_blosc_flags (bh_flags bh)) ;;
  say (blosc_flags_text fl).
Lemma info_tail_run bg bh s l : rank (l_level l) <> None -> (is_none (b_meta bg) = false -> b_mheader bg <> None) ->
  info_tail bg bh (s, l) =
  let hd := map (app (t_ ": ")) (head_lines (b_header bg) (b_offsets bg) (b_meta bg) (b_mheader bg) bh) in
  match decode_blosc_flags (bh_flags bh) with
  | Ok fl => ((s, plus l (hd ++ [t_ ": " ++ blosc_flags_text fl])), Ok tt)
  | Raise e => ((s, plus l hd), Raise e)
  end.
Proof.
  intros R HM. unfold info_tail. rewrite say_then by exact R. rewrite told_header.
  match goal with |- bind ?a ?b (s, ?l1) = _ => assert (A1 : a (s, l1) = ((s, plus l1 (map (app (t_ ": ")) (offsets_lines (b_offsets bg)))), Ok tt)) end.
  { unfold offsets_lines. destruct (b_offsets bg) as [|z r]; [cbn [map]; rewrite plus_nil; reflexivity|].
    rewrite say_then by exact R. rewrite say_run by exact R. rewrite plus_plus. rewrite (told_plain (t_ "'offsets':") ltac:(cbv; intuition discriminate) ltac:(discriminate)).
    rewrite (told_plain _ (offsets_lacks (z :: r)) ltac:(discriminate)). reflexivity. }
  rewrite (bind_run _ _ _ _ _ A1). clear A1. rewrite plus_plus.
  match goal with |- bind ?a ?b (s, ?l1) = _ => assert (A1 : a (s, l1) = ((s, plus l1 (map (app (t_ ": ")) (meta_lines (b_meta bg) (b_mheader bg)))), Ok tt)) end.
  { unfold meta_lines. destruct (is_none (b_meta bg)); [destruct (b_mheader bg); cbn [map]; rewrite plus_nil; reflexivity|].
    destruct (b_mheader bg) as [mh|]; [|destruct (HM eq_refl); reflexivity].
    match goal with |- bind (log_metadata T ?m) ?k (s, ?l1) = _ => rewrite (bind_run (log_metadata T m) k _ _ _ (log_metadata_run m s l1 R)) end.
    rewrite say_run by exact R. rewrite plus_plus, told_mheader, (told_plain (t_ "Metadata:")); [|cbv; intuition discriminate|discriminate].
    cbn [map]. rewrite map_app. rewrite <- app_assoc. reflexivity. }
  rewrite (bind_run _ _ _ _ _ A1). clear A1. rewrite plus_plus.
  rewrite say_then by exact R. rewrite plus_plus. rewrite say_then by exact R. rewrite plus_plus. rewrite say_then by exact R. rewrite plus_plus.
  rewrite (told_plain (t_ "First chunk blosc header:") ltac:(cbv; intuition discriminate) ltac:(discriminate)).
  rewrite (told_plain (t_ "First chunk blosc flags: ") ltac:(cbv; intuition discriminate) ltac:(discriminate)).
  rewrite (told_plain _ (blosc_lacks bh) ltac:(discriminate)).
  rewrite <- !map_app. unfold head_lines. rewrite <- !app_assoc. cbn [app].
  unfold bind, lift. destruct (decode_blosc_flags (bh_flags bh)) as [fl|e]; [|reflexivity].
  rewrite say_run by exact R. rewrite plus_plus, told_plain; [reflexivity|apply flags_lacks|discriminate].
Qed.
Lemma read_beginning_mheader f g bg : read_beginning E f = (g, Ok bg) -> is_none (b_meta bg) = false -> b_mheader bg <> None.
Proof.
  unfold read_beginning. intros H. apply bind_Ok in H as (s1 & h & _ & H). apply bind_Ok in H as (s2 & mm & H2 & H). apply bind_Ok in H as (s3 & o & _ & H).
  unfold ret in H. injection H as _ <-. cbn [b_meta b_mheader]. destruct (h_metadata h).
  - apply bind_Ok in H2 as (s4 & r & _ & H2). unfold ret in H2. injection H2 as _ <-. discriminate.
  - unfold ret in H2. injection H2 as _ <-. discriminate.
Qed.
Theorem info_outcome p s l : rank (l_level l) <> None -> exists out,
  r_info E T p (s, l) = ((s, plus l out), snd (main E (CmdInfo p) s)) /\
  match snd (cli_info E p s) with
  | Ok i => info_report T i out
  | Raise e => gives_up (CmdInfo p) s e out \/ (e = KeyError /\ exists h lo m omh b, info_head T h lo m omh b out)
  end /\
  snd (main E (CmdInfo p) s) = match snd (cli_info E p s) with Ok _ => Ok tt | Raise e => Raise e end.
Proof.
  intros R. assert (MI : snd (main E (CmdInfo p) s) = match snd (cli_info E p s) with Ok _ => Ok tt | Raise e => Raise e end).
  { cbn [main]. unfold bind. destruct (cli_info E p s) as [? [?|?]]; reflexivity. }
  rewrite MI. clear MI. unfold cli_info. unfold r_info. unfold bind at 1. cbn [fst snd].
  destruct (s p) as [d|] eqn:Hs.
  2:{ rewrite fail_run. unfold quoted. rewrite <- !app_assoc. destruct (complains (CmdInfo p) s l s _ (cp_info E T s p Hs)) as (out & X1 & X2).
      exists out. split; [exact X1|]. split; [left; exact X2|reflexivity]. }
  fold (info_read d). destruct (info_read d) as [g [[bg bh]|e]] eqn:RD.
  - assert (HM : is_none (b_meta bg) = false -> b_mheader bg <> None).
    { unfold info_read in RD. apply bind_Ok in RD as (s1 & bg1 & H1 & RD). apply bind_Ok in RD as (s2 & r & _ & RD). unfold ret in RD.
      assert (bg1 = bg) as -> by congruence. exact (read_beginning_mheader _ _ _ H1). }
    cbv zeta. cbn [fst snd].
    match goal with |- context [?t (s, l) = _] => change t with (info_tail bg bh) end.
    rewrite (info_tail_run bg bh s l R HM). cbv zeta.
    pose proof (head_ok (b_header bg) (b_offsets bg) (b_meta bg) (b_mheader bg) bh HM) as HH.
    destruct (decode_blosc_flags (bh_flags bh)) as [fl|e] eqn:DF; cbn [rbind snd].
    + eexists. split; [reflexivity|]. split; [|reflexivity]. eexists _, _. cbn [i_header i_offsets i_meta i_mheader i_blosc i_flags].
      split; [exact HH|]. split; [apply flags_line|reflexivity].
    + eexists. split; [reflexivity|]. split; [|reflexivity]. right. split; [|eauto 8].
      unfold decode_blosc_flags in DF. revert DF. unfold cname_mapping. repeat (destruct (_ =? _); [discriminate|]). cbn [rbind]. intros DF. injection DF as <-. reflexivity.
  - assert (NE : forall n, e <> SystemExit n).
    { intros n ->. assert (X : ok exits (bg <- read_beginning E ;; r <- read_compressed_chunk E (h_checksum (b_header bg)) ;; ret (bg, snd (fst r)))).
      { apply ok_bind; [apply n_rb; [apply exits_Bad|intros; apply outside_ok, nx_zdecompress, HN|intros; apply outside_ok, nx_loads, HN]|].
        intros bg. apply ok_bind; [apply n_rcc, exits_Bad|]. intros r. apply ok_ret. }
      specialize (X (fp_of d)). fold (info_read d) in X. rewrite RD in X. discriminate. }
    destruct (is_ValueError e) eqn:VE.
    + rewrite fail_run.
      assert (RD' : (bg <- read_beginning E ;; read_compressed_chunk E (h_checksum (b_header bg))) (fp_of d) = (g, Raise e)).
      { unfold info_read, bind in RD |- *. destruct (read_beginning E (fp_of d)) as [g1 [bg|e1]]; [|injection RD as -> ->; reflexivity].
        destruct (read_compressed_chunk E _ g1) as [g2 [r|e2]]; [discriminate|injection RD as -> ->; reflexivity]. }
      destruct (complains (CmdInfo p) s l s _ (cp_bad E T s p d e g Hs VE RD')) as (out & X1 & X2).
      exists out. split; [exact X1|]. split; [left; exact X2|reflexivity].
    + exists []. rewrite plus_nil. split; [reflexivity|]. split; [|reflexivity]. left. right. split; [apply NE|reflexivity].
Qed.

(** *** All commands *)
Theorem report_outcome c s l : rank (l_level l) <> None -> exists l' out,
  r_main E T c (s, l) = ((fst (main E c s), l'), snd (main E c s)) /\ adds l l' out /\
  match snd (main E c s) with
  | Ok _ => match c with
            | CmdCompress _ | CmdAppend _ => out = []
            | CmdDecompress o => exists m, snd (cli_decompress E o s) = Ok m /\ decompress_report T m out
            | CmdInfo p => exists i, snd (cli_info E p s) = Ok i /\ info_report T i out
            | CmdNone => False
            end
  | Raise e =>
      (exists m, complaint E T s c m /\ e = SystemExit 1 /\ message_lines ": error: " m out) \/
      (e <> SystemExit 1 /\ (c = CmdNone -> e = SystemExit 2 /\ out = [t_ ": error: too few arguments"]) /\
       (c <> CmdNone -> out = [] \/ (exists p, c = CmdInfo p) /\ e = KeyError /\ exists h lo m omh b, info_head T h lo m omh b out))
  end.
Proof.
  intros R. destruct c as [o|o|o|p|]; cbn [r_main].
  - destruct (compress_outcome o s l) as (out & X1 & X2). exists (plus l out), out. split; [exact X1|]. split; [apply plus_adds|]. cbn [main] in *.
    destruct (snd (cli_compress E o s)) as [u|e]; [exact X2|]. destruct X2 as [X2|[X2 X3]]; [left; exact X2|right; split; [exact X2|split; [discriminate|auto]]].
  - destruct (decompress_outcome o s l R) as (out & X1 & X2 & X3). exists (plus l out), out. split; [exact X1|]. split; [apply plus_adds|]. rewrite X3.
    destruct (snd (cli_decompress E o s)) as [u|e]; [eauto|]. destruct X2 as [X2|[X2 X4]]; [left; exact X2|right; split; [exact X2|split; [discriminate|auto]]].
  - destruct (append_outcome_said o s l) as (out & X1 & X2). exists (plus l out), out. split; [exact X1|]. split; [apply plus_adds|]. cbn [main] in *.
    destruct (snd (cli_append E o s)) as [u|e]; [exact X2|]. destruct X2 as [X2|[X2 X3]]; [left; exact X2|right; split; [exact X2|split; [discriminate|auto]]].
  - destruct (info_outcome p s l R) as (out & X1 & X2 & X3). exists (plus l out), out.
    assert (ST : fst (main E (CmdInfo p) s) = s).
    { cbn [main]. unfold bind. pose proof (info_read_only E p s) as IR. destruct (cli_info E p s) as [s1 [i|e]]; cbn [fst] in *; exact IR. }
    rewrite ST. split; [exact X1|]. split; [apply plus_adds|]. rewrite X3.
    destruct (snd (cli_info E p s)) as [u|e]; [eauto|]. destruct X2 as [[X2|[X2 X4]]|[X2 X4]]; [left; exact X2|right; split; [exact X2|split; [discriminate|auto]]|right].
    split; [subst; discriminate|]. split; [discriminate|]. intros _. right. eauto.
  - rewrite error_run. eexists _, _. split; [reflexivity|]. split; [apply plus_adds|]. right. split; [discriminate|]. split; [intros _; split; reflexivity|congruence].
Qed.
End Commands.

(** *** Status 1 means that an error was printed *)
Lemma message_ne mark m out ls : message_lines mark m out -> lines m ls -> Exists (fun x => x <> []) ls -> out <> [].
Proof.
  intros (ls' & L & ->) L' EX. rewrite (lines_unique _ _ L). rewrite (lines_unique _ _ L') in EX. apply Exists_exists in EX as (x & I & N).
  assert (F : In x (filter has_text (split_nl m))) by (apply filter_In; split; [exact I|destruct x; [congruence|reflexivity]]).
  destruct (filter has_text (split_nl m)); [destruct F|discriminate].
Qed.
Lemma split_nl_some m : Exists (fun x => x <> []) (split_nl m) <-> exists c, In c m /\ c <> nl.
Proof.
  induction m as [|c m IH]; cbn [split_nl].
  - split; [|intros (c & [] & _)]. intros H. inversion H as [? ? X|? ? X]; [congruence|inversion X].
  - destruct (Ascii.eqb c nl) eqn:C.
    + apply Ascii.eqb_eq in C as ->. split.
      * intros H. inversion H as [? ? X|? ? X]; [congruence|]. apply IH in X as (d & I & N). exists d. split; [right; exact I|exact N].
      * intros (d & [<- |I] & N); [congruence|]. right. apply IH. eauto.
    + assert (c <> nl) by (intros ->; rewrite Ascii.eqb_refl in C; discriminate). split; [intros _; exists c; split; [left; reflexivity|assumption]|].
      intros _. destruct (split_nl m); left; discriminate.
Qed.
Lemma complaint_text E T s c m : TextsOK T -> complaint E T s c m -> exists ch, In ch m /\ ch <> nl.
Proof.
  intros [TS TO] H. inversion H; subst;
    try (eexists; split; [left; reflexivity|discriminate]).
  - apply split_nl_some. apply (TO t). apply lines_exist.
  - apply split_nl_some. apply (TS ChunkingException). apply lines_exist.
  - exists "T"%char. split; [apply in_or_app; right; right; left; reflexivity|discriminate].
Qed.
Theorem status_one E T c s l l' out : NoExit E -> TextsOK T -> rank (l_level l) <> None ->
  snd (main E c s) = Raise (SystemExit 1) -> snd (fst (r_main E T c (s, l))) = l' -> adds l l' out ->
  out <> [] /\ Forall (fun x => exists y, y <> [] /\ x = t_ ": error: " ++ y) out.
Proof.
  intros HN HT R H1 H2 (A1 & A2 & A3). destruct (report_outcome E T HN c s l R) as (l1 & out1 & X1 & (B1 & B2 & B3) & X2). rewrite X1 in H2. cbn [fst snd] in H2. subst l1.
  assert (out1 = out) as ->. { rewrite A3 in B3. apply app_inv_head in B3. symmetry. exact (map_app_inj (l_prefix l) _ _ B3). }
  rewrite H1 in X2. destruct X2 as [(m & C & _ & M)|[X2 _]]; [|congruence]. split.
  - apply (message_ne _ m out (split_nl m) M (lines_exist m)). apply split_nl_some. exact (complaint_text _ _ _ _ _ HT C).
  - destruct M as (ls & _ & ->). apply Forall_map, Forall_forall. intros x I. apply filter_In in I as [_ I]. exists x. split; [intros ->; discriminate|reflexivity].
Qed.
