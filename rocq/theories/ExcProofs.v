(** Which exceptions can come out of the functions that read and write archives. *)
From Verif Require Import Base PyVal Checksums Headers Pretty Args FileIO Append Spec ExcSpec Archive BaseLemmas HeaderProofs IOProofs PackProofs.
From Coq Require Import ZifyBool ZifyNat.
Ltac Zify.zify_post_hook ::= Z.div_mod_to_equations.

Section Good.
Variable E : Env.
Variable good : exn -> Prop.
Definition okr {A} (r : res A) : Prop := match r with Ok _ => True | Raise e => good e end.
Definition ok {S A} (m : SM S A) : Prop := forall s, okr (snd (m s)).
Lemma okr_bind {A B} (r : res A) (k : A -> res B) : okr r -> (forall a, r = Ok a -> okr (k a)) -> okr (rbind r k).
Proof. intros H K. destruct r; cbn [rbind]; [apply K; reflexivity|exact H]. Qed.
Lemma ok_bind {S A B} (m : SM S A) (k : A -> SM S B) : ok m -> (forall a, ok (k a)) -> ok (bind m k).
Proof. intros H K s. unfold bind. specialize (H s). destruct (m s) as [s' [a|e]]; [apply K|exact H]. Qed.
Lemma ok_bind_lift {S A B} (r : res A) (k : A -> SM S B) : okr r -> (forall a, r = Ok a -> ok (k a)) -> ok (bind (lift r) k).
Proof. intros H K s. unfold bind, lift. destruct r as [a|e]; [apply (K a eq_refl)|exact H]. Qed.
Lemma ok_lift {S A} (r : res A) : okr r -> ok (@lift S A r). Proof. intros H s. exact H. Qed.
Lemma ok_ret {S A} (a : A) : ok (@ret S A a). Proof. intros s. exact I. Qed.
Lemma ok_raise {S A} e : good e -> ok (@raise S A e). Proof. intros H s. exact H. Qed.
Lemma ok_onl {S T A} (m : SM S A) : ok m -> ok (@onl S T A m).
Proof. intros H st. unfold onl. specialize (H (fst st)). destruct (m (fst st)). exact H. Qed.
Lemma ok_onr {S T A} (m : SM T A) : ok m -> ok (@onr S T A m).
Proof. intros H st. unfold onr. specialize (H (snd st)). destruct (m (snd st)). exact H. Qed.
Lemma ok_on_fp {A} (m : SM fp A) : ok m -> ok (on_fp m).
Proof. intros H st. unfold on_fp. specialize (H (s_fp st)). destruct (m (s_fp st)). exact H. Qed.
Lemma ok_read n : ok (f_read n). Proof. intros s. exact I. Qed.
Lemma ok_read_ssize n : good OverflowError -> ok (f_read_ssize n).
Proof. intros B s. unfold f_read_ssize. destruct (_ && _); [exact B|exact Logic.I]. Qed.
Lemma ok_write x : ok (f_write x). Proof. intros s. exact I. Qed.
Lemma ok_tell : ok f_tell. Proof. intros s. exact I. Qed.
Lemma ok_nulls n : ok (f_write_nulls n). Proof. intros s. exact I. Qed.
Hint Resolve ok_ret ok_read ok_write ok_tell ok_nulls : nx.
Ltac fine := first [assumption|solve [eauto 2 with nx]].
Ltac go :=
  repeat first
    [ solve [eauto 2 with nx]
    | match goal with
      | |- okr (Ok _) => exact I
      | |- okr (Raise _) => cbn [okr]; fine
      | |- okr (rbind _ _) => apply okr_bind; [|intros]
      | |- okr (match ?x with _ => _ end) => destruct x
      | |- ok (bind (lift _) _) => apply ok_bind_lift; [|intros]
      | |- ok (bind _ _) => apply ok_bind; [|intros]
      | |- ok (lift _) => apply ok_lift
      | |- ok (raise _) => apply ok_raise; fine
      | |- ok (onl _) => apply ok_onl
      | |- ok (onr _) => apply ok_onr
      | |- ok (on_fp _) => apply ok_on_fp
      | |- ok (match ?x with _ => _ end) => destruct x
      | |- ok (let (_, _) := ?x in _) => destruct x
      end ].

(** ** Reading *)
Hypothesis gValue : good ValueError.
Hypothesis gIndex : good IndexError.
Hypothesis gKey : good KeyError.
Hypothesis gOS : e_mem E = false -> good OSError.
Hypothesis gMismatch : good ChecksumMismatch.
Hypothesis gVersion : good FormatVersionMismatch.
Hypothesis gRead : forall e, foreign_read E e -> good e.
Lemma ok_decompress x : okr (e_decompress E x).
Proof. destruct (e_decompress E x) eqn:X; [exact I|]. apply gRead. left. eauto. Qed.
Lemma ok_zdecompress x : okr (e_zdecompress E x).
Proof. destruct (e_zdecompress E x) eqn:X; [exact I|]. apply gRead. right. left. eauto. Qed.
Lemma ok_loads x : okr (e_loads E x).
Proof. destruct (e_loads E x) eqn:X; [exact I|]. apply gRead. right. right. eauto. Qed.
Lemma ok_seek p : ok (f_seek E p).
Proof. intros s. unfold f_seek. destruct (p <? 0); cbn [snd okr]; [destruct (e_mem E) eqn:M; auto|exact I]. Qed.
Lemma ok_seek_rel p : ok (f_seek_rel E p).
Proof. intros s. unfold f_seek_rel. destruct (_ <? 0); [destruct (e_mem E) eqn:M|]; cbn [snd okr]; auto. Qed.
Hint Resolve ok_decompress ok_zdecompress ok_loads ok_seek ok_seek_rel : nx.
Lemma n_range v lo hi : okr (check_range v lo hi). Proof. unfold check_range. go. Qed.
Lemma n_str v n : okr (check_str v n). Proof. unfold check_str. go. Qed.
Lemma n_options s : okr (check_options s). Proof. unfold check_options. go. Qed.
Lemma n_options0 s n : okr (check_options_zero s n). Proof. unfold check_options_zero. go. Qed.
Lemma n_byte i b : okr (byte_at i b). Proof. unfold byte_at. go. Qed.
Lemma n_cksn c : okr (check_valid_checksum (cks_name c)). Proof. destruct c; exact I. Qed.
Lemma n_codecn c : okr (check_valid_codec (codec_name c)). Proof. destruct c; exact I. Qed.
Lemma n_codecln c : okr (codec_lookup (codec_name c)). Proof. destruct c; exact I. Qed.
Lemma n_cksi s : okr (cks_of_index s). Proof. unfold cks_of_index. go. Qed.
Lemma n_codeci s : okr (codec_of_index s). Proof. unfold codec_of_index. go. Qed.
Lemma n_ser s : okr (serializer_lookup s). Proof. unfold serializer_lookup. go. Qed.
Hint Resolve n_range n_str n_options n_options0 n_byte n_cksn n_codecn n_codecln n_cksi n_codeci n_ser : nx.
Lemma n_decode_options s : okr (decode_options s). Proof. unfold decode_options. go. Qed.
Lemma n_nums a b c d e : okr (check_header_nums a b c d e). Proof. unfold check_header_nums. go. Qed.
Hint Resolve n_decode_options n_nums : nx.
Lemma n_mk_header a b c d e f g h i : okr (mk_header a b c (cks_name d) e f g h i). Proof. unfold mk_header. go. Qed.
Lemma n_mk_mheader a b c d e f g h i : okr (mk_mheader a b (cks_name c) (codec_name d) e f g h i). Proof. unfold mk_mheader. go. Qed.
Hint Resolve n_mk_header n_mk_mheader : nx.
(** The fields of a header of the right length are there. *)
Lemma len_slice p q (b : bytes) : 0 <= p <= q -> q <= zlen b -> zlen (slice p q b) = q - p.
Proof. intros Hp Hq. unfold slice. rewrite zlen_ztake, zlen_zdrop. lia. Qed.
Lemma n_di32 p b : 0 <= p -> p + 4 <= zlen b -> okr (decode_int32 (slice p (p + 4) b)).
Proof. intros H1 H2. unfold decode_int32. rewrite len_slice by lia. replace (p + 4 - p =? 4) with true by lia. exact I. Qed.
Lemma n_di64 p b : 0 <= p -> p + 8 <= zlen b -> okr (decode_int64 (slice p (p + 8) b)).
Proof. intros H1 H2. unfold decode_int64. rewrite len_slice by lia. replace (p + 8 - p =? 8) with true by lia. exact I. Qed.
Lemma n_du32 p b : 0 <= p -> p + 4 <= zlen b -> okr (decode_uint32 (slice p (p + 4) b)).
Proof. intros H1 H2. unfold decode_uint32. rewrite len_slice by lia. replace (p + 4 - p =? 4) with true by lia. exact I. Qed.
Lemma n_hdec b : okr (header_decode b).
Proof.
  unfold header_decode. destruct (negb (zlen b =? BLOSCPACK_HEADER_LENGTH)) eqn:L; [go|]. unfold BLOSCPACK_HEADER_LENGTH in L.
  go; [apply (n_di32 8)|apply (n_di32 12)|apply (n_di64 16)|apply (n_di64 24)]; lia.
Qed.
Lemma n_mhdec b : okr (mheader_decode b).
Proof.
  unfold mheader_decode. destruct (negb (zlen b =? 32)) eqn:L; [go|].
  go; [apply (n_du32 12)|apply (n_du32 16)|apply (n_du32 20)]; lia.
Qed.
Hint Resolve n_hdec n_mhdec : nx.
Lemma n_zd c d : okr (codec_decompress E c d). Proof. unfold codec_decompress. go. Qed.
Hint Resolve n_zd : nx.
Lemma n_rm : ok (read_metadata E). Proof. unfold read_metadata. go. Qed.
Lemma n_rbh : ok read_bloscpack_header. Proof. unfold read_bloscpack_header. go. Qed.
Hint Resolve n_rm n_rbh : nx.

(** ** Rewriting metadata *)
Section Rewrite.
Hypothesis gMeta : forall e, foreign_meta E e -> good e.
Hypothesis gSmall : good MetadataSectionTooSmall.
Hypothesis gNone : good NoMetadataFound.
Hypothesis gSame : good NoChangeInMetadata.
Variable ov : overrides.
Hypothesis gSer : ov_magic ov <> None -> good NoSuchSerializer.
Hypothesis gCks : ov_checksum ov <> None -> good NoSuchChecksum.
Hypothesis gLen : ov_checksum ov <> None -> good ChecksumLengthMismatch.
Hypothesis gCodec : ov_codec ov <> None -> good NoSuchCodec.
Lemma ok_dumps v : okr (e_dumps E v).
Proof. destruct (e_dumps E v) eqn:X; [exact I|]. apply gMeta. left. eauto. Qed.
Lemma ok_zcompress x l : okr (e_zcompress E x l).
Proof. destruct (e_zcompress E x l) eqn:X; [exact I|]. apply gMeta. right. eauto. Qed.
Hint Resolve ok_dumps ok_zcompress : nx.
Lemma n_zc c d l : okr (codec_compress E c d l). Proof. unfold codec_compress. go. Qed.
Hint Resolve n_zc : nx.
Lemma nullify_none a : nullify_codec a = mkMA (ma_magic a) (ma_checksum a) (codec_name CoNone) (ma_level a) (ma_max a).
Proof. reflexivity. Qed.
Lemma n_plan m magic c co l z : okr (plan_metadata E m (mkMA magic (cks_name c) (codec_name co) l (MMInt z))).
Proof.
  unfold plan_metadata. apply okr_bind; [go|intros _ _]. apply okr_bind; [go|intros raw _].
  apply okr_bind.
  { cbn [ma_codec ma_level]. go. }
  intros [payload a'] H.
  assert (A : exists co', a' = mkMA magic (cks_name c) (codec_name co') l (MMInt z)).
  { cbn [ma_codec ma_level] in H. destruct (should_compress _); [|injection H as <- <-; eauto].
    destruct (codec_lookup _) as [k|e]; [cbn [rbind] in H|discriminate]. destruct (codec_compress E k raw l) as [x|e]; [cbn [rbind] in H|discriminate].
    destruct (zlen raw <? zlen x); injection H as <- <-; [exists CoNone; reflexivity|eauto]. }
  destruct A as (co' & ->). cbn [ma_magic ma_checksum ma_codec ma_level ma_max effective_max_meta_size rbind]. go.
Qed.
Lemma plan_ok m a h p a' : plan_metadata E m a = Ok (h, p, a') -> mheader_ok h.
Proof.
  unfold plan_metadata. intros H. apply rbind_Ok in H as (? & _ & H). apply rbind_Ok in H as (raw & _ & H). apply rbind_Ok in H as ([pl b] & _ & H).
  apply rbind_Ok in H as (mx & _ & H). destruct (mx <? zlen pl); [discriminate|]. apply rbind_Ok in H as (co & _ & H). apply rbind_Ok in H as (h' & X & H).
  injection H as <- <- <-. apply mk_mheader_Ok in X as [X _]. exact X.
Qed.
Lemma n_wm m magic c co l z : ok (write_metadata E m (mkMA magic (cks_name c) (codec_name co) l (MMInt z))).
Proof.
  unfold write_metadata. intros s. unfold bind at 1. unfold lift at 1. pose proof (n_plan m magic c co l z) as P.
  destruct (plan_metadata E m _) as [[[h p] a']|e] eqn:X; [|exact P]. apply plan_ok, mheader_encode_ok in X. rewrite X. clear X P. revert s.
  match goal with |- forall s, okr (snd (?k s)) => change (ok k) end. go.
Qed.
Definition plain_args (a : margs) : Prop := exists magic c co l z, a = mkMA magic (cks_name c) (codec_name co) l (MMInt z).
Lemma okp_bind {A B} (P : B -> Prop) (Q : A -> Prop) (r : res A) (k : A -> res B) :
  match r with Ok a => Q a | Raise e => good e end -> (forall a, Q a -> match k a with Ok b => P b | Raise e => good e end) ->
  match rbind r k with Ok b => P b | Raise e => good e end.
Proof. intros H K. destruct r; cbn [rbind]; [apply K, H|exact H]. Qed.
Lemma n_recreate old : match recreate_metadata old ov with Ok a => plain_args a | Raise e => good e end.
Proof.
  unfold recreate_metadata. apply okp_bind with (Q := fun _ => True).
  { destruct (ov_magic ov) as [mg|]; [|exact I]. unfold check_valid_serializer. destruct (bytes_eqb _ _); cbn [rbind]; [exact I|apply gSer; discriminate]. }
  intros magic _. apply okp_bind with (Q := fun s => exists c, s = cks_name c).
  { destruct (ov_checksum ov) as [s|]; [|eauto]. destruct (check_valid_checksum s) as [c|e] eqn:C; cbn [rbind].
    - apply check_valid_checksum_inv in C. destruct (_ =? _); [eauto|]. apply gLen. discriminate.
    - unfold check_valid_checksum in C. destruct (find _ _); [discriminate|]. injection C as <-. apply gCks. discriminate. }
  intros ck (c & ->). apply okp_bind with (Q := fun s => exists c, s = codec_name c).
  { destruct (ov_codec ov) as [s|]; [|eauto]. destruct (check_valid_codec s) as [k|e] eqn:C; cbn [rbind].
    - apply check_valid_codec_inv in C. eauto.
    - unfold check_valid_codec in C. destruct (find _ _); [discriminate|]. injection C as <-. apply gCodec. discriminate. }
  intros co (k & ->). apply okp_bind with (Q := fun _ => True).
  { destruct (ov_level ov); [|exact I]. pose proof (n_range z 0 MAX_CLEVEL) as R. destruct (check_range z 0 MAX_CLEVEL); [exact I|exact R]. }
  intros l _. unfold plain_args. eauto 8.
Qed.
Lemma n_recreate' old : okr (recreate_metadata old ov).
Proof. pose proof (n_recreate old) as R. destruct (recreate_metadata old ov); [exact I|exact R]. Qed.
Hint Resolve n_recreate' : nx.
Lemma n_rewrite m : ok (rewrite_metadata E m ov).
Proof.
  unfold rewrite_metadata, seek_to_metadata, rewrite_metadata_fp. go.
  match goal with H : recreate_metadata ?x ov = _ |- _ => pose proof (n_recreate x) as R; rewrite H in R end.
  destruct R as (magic & c & co & l & z & ->). apply n_wm.
Qed.
End Rewrite.

(** ** Reading chunks *)
Hypothesis gOver : good OverflowError.
Hypothesis gStruct : good StructError.
Hypothesis gType : good TypeError.
Lemma n_du b : okr (decode_uint32 b). Proof. unfold decode_uint32. go. Qed.
Lemma n_d64 b : okr (decode_int64 b). Proof. unfold decode_int64. go. Qed.
Hint Resolve n_du n_d64 : nx.
Lemma n_bh b : okr (decode_blosc_header b). Proof. unfold decode_blosc_header. go. Qed.
Hint Resolve n_bh : nx.
Lemma n_doff n : forall r, okr (decode_offsets n r). Proof. induction n; intros; cbn [decode_offsets]; go. Qed.
Hint Resolve n_doff : nx.
Lemma n_ro h : ok (read_offsets h). Proof. pose proof (fun n => ok_read_ssize n gOver). unfold read_offsets. go. Qed.
Hint Resolve n_ro : nx.
Lemma n_rb : ok (read_beginning E). Proof. unfold read_beginning. go. Qed.
Lemma n_rcc c : ok (read_compressed_chunk E c). Proof. unfold read_compressed_chunk. go. Qed.
Hint Resolve n_rb n_rcc : nx.
Lemma n_uloop {Src Snk} (next : SM Src (bytes * option bytes)) c (p : bytes -> SM Snk Z) : ok next -> (forall x, ok (p x)) ->
  forall n, ok (unpack_loop E next c p n).
Proof. intros HN HP. induction n; cbn [unpack_loop]; go. Qed.
Lemma n_unpack b : okr (snd (unpack_core E b)).
Proof.
  unfold unpack_core. pose proof (n_rb (fp_of b)) as H. destruct (read_beginning E (fp_of b)) as [f [bg|e]]; [|exact H].
  assert (U : ok (unpack_fp E (b_header bg))).
  { unfold unpack_fp. apply n_uloop; [unfold fp_next; go|unfold plain_put; intros; go]. }
  specialize (U (f, fp_of [])). destruct (unpack_fp E _ _) as [[? ?] r]. cbn [snd] in *. go.
Qed.

(** ** Appending *)
Section Append.
Hypothesis gWrite : forall e, foreign_write E e -> good e.
Hypothesis gRuntime : good RuntimeError.
Hypothesis gSpace : good NotEnoughSpace.
Lemma n_cc a b : okr (compress_chunk_str E a b).
Proof. unfold compress_chunk_str. destruct (e_compress E a b) eqn:X; [exact I|]. apply gWrite. unfold foreign_write. eauto. Qed.
Lemma n_pack n lo hi z : okr (pack_int n lo hi z). Proof. unfold pack_int. go. Qed.
Hint Resolve n_cc n_pack : nx.
Lemma n_enc8 z : okr (encode_uint8 z). Proof. apply n_pack. Qed.
Lemma n_enci32 z : okr (encode_int32 z). Proof. apply n_pack. Qed.
Lemma n_enci64 z : okr (encode_int64 z). Proof. apply n_pack. Qed.
Hint Resolve n_enc8 n_enci32 n_enci64 : nx.
Lemma n_henc h : okr (header_encode h). Proof. unfold header_encode. go. Qed.
Hint Resolve n_henc : nx.
Lemma n_eoff l : okr (encode_offsets l). Proof. induction l; cbn [encode_offsets]; go. Qed.
Hint Resolve n_eoff : nx.
Lemma n_wo l : ok (write_offsets l). Proof. unfold write_offsets. go. Qed.
Lemma n_wcc c d : ok (write_compressed_chunk c d). Proof. unfold write_compressed_chunk. go. Qed.
Hint Resolve n_wo n_wcc : nx.
Lemma n_put i c : ok (fps_put E i c).
Proof.
  unfold fps_put. go.
  - intros s. apply ok_on_fp. go.
  - intros s. destruct (h_offsets _); [destruct (set_nth _ _ _)|]; cbn [snd]; go.
Qed.
Hint Resolve n_put : nx.
Lemma n_loop {Src Chunk Snk} (c : Chunk -> res bytes) (p : Z -> bytes -> SM Snk unit) (st : list (SM Src Chunk)) :
  (forall x, okr (c x)) -> (forall i x, ok (p i x)) -> Forall ok st -> forall i, ok (pack_loop c p i st).
Proof. intros HC HP. induction 1; intros i; cbn [pack_loop]; go. Qed.
Lemma n_steps a b c : Forall ok (fp_source_steps a b c).
Proof. unfold fp_source_steps. apply Forall_forall. intros m H. apply in_map_iff in H as (z & <- & _). go. Qed.
Hypothesis gChunk : good ChunkingException.
Lemma n_calc n z : okr (calculate_nchunks n (CSInt z)).
Proof. unfold calculate_nchunks. go. Qed.
Hint Resolve n_calc : nx.
Lemma rb_typesize s s' bg : read_beginning E s = (s', Ok bg) -> h_typesize (b_header bg) <> -1.
Proof.
  unfold read_beginning. intros H. apply bind_Ok in H as (s1 & h & H1 & H). unfold read_bloscpack_header in H1.
  apply bind_Ok in H1 as (s2 & raw & _ & H1). apply bind_Ok in H1 as (s3 & h' & D & H1). unfold lift in D. injection D as -> D.
  destruct (_ =? _); [|discriminate]. injection H1 as -> ->.
  apply header_decode_inv in D as [D _].
  apply bind_Ok in H as (s4 & mm & _ & H). apply bind_Ok in H as (s5 & o & _ & H). injection H as _ <-. cbn [b_header].
  unfold header_ok in D. destruct D as [_ D]. unfold header_nums_ok in D. lia.
Qed.
Lemma n_append n o : ok (append_fp E n o).
Proof.
  intros [nf f]. unfold append_fp, bind at 1, onr at 1. cbn [fst snd].
  pose proof (n_rb f) as R. destruct (read_beginning E f) as [f1 [bg|e]] eqn:B; [|exact R]. clear R.
  apply rb_typesize in B. cbn [fst snd]. match goal with |- okr (snd (?k ?s)) => generalize s; change (ok k) end.
  destruct (b_offsets bg) as [|o0 os]; [go|].
  apply ok_bind_lift.
  { unfold fill_blosc_args. replace (h_typesize (b_header bg) =? -1) with false by lia. go. }
  intros ba _. go. intros st.
  match goal with |- context [pack_loop ?c ?p ?i ?l ?s] => assert (P : ok (pack_loop c p i l)); [apply n_loop; [intros; go|intros; go|apply n_steps]|specialize (P s); destruct (pack_loop c p i l s) as [[nf' sk] [u|e]]] end; [|exact P].
  match goal with |- okr (snd (?k ?s)) => generalize s; change (ok k) end. go.
Qed.
End Append.
End Good.


(** ** The three operations *)
Section Ops.
Variable E : Env.
Lemma unpack_exceptions f e : snd (unpack_core E f) = Raise e -> In e read_errors \/ e = OSError /\ e_mem E = false \/ foreign_read E e.
Proof.
  set (good := fun e => In e read_errors \/ e = OSError /\ e_mem E = false \/ foreign_read E e).
  assert (N : okr good (snd (unpack_core E f))) by (apply n_unpack; unfold good, read_errors, In; tauto).
  intros H. rewrite H in N. exact N.
Qed.
Lemma rewrite_exceptions f m ov e : snd (rewrite_bytes E f m ov) = Raise e ->
  In e rewrite_errors \/ override_error ov e \/ e = OSError /\ e_mem E = false \/ foreign_read E e \/ foreign_meta E e.
Proof.
  set (good := fun e => In e rewrite_errors \/ override_error ov e \/ e = OSError /\ e_mem E = false \/ foreign_read E e \/ foreign_meta E e).
  assert (N : okr good (snd (rewrite_metadata E m ov (fp_of f)))) by (apply n_rewrite; unfold good, rewrite_errors, override_error, In; tauto).
  unfold rewrite_bytes. cbv zeta. cbn [snd]. intros H. rewrite H in N. exact N.
Qed.
Lemma append_exceptions f new oa e : snd (append_bytes E f new oa) = Raise e ->
  In e read_errors \/ In e append_errors \/ e = OSError /\ e_mem E = false \/ foreign_read E e \/ foreign_write E e.
Proof.
  set (good := fun e => In e read_errors \/ In e append_errors \/ e = OSError /\ e_mem E = false \/ foreign_read E e \/ foreign_write E e).
  assert (N : okr good (snd (append_fp E (size new) oa (fp_of new, fp_of f)))) by (apply n_append; unfold good, read_errors, append_errors, In; tauto).
  unfold append_bytes. cbv zeta. cbn [snd]. intros H. rewrite H in N. exact N.
Qed.
End Ops.
