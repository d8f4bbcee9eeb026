(** Proofs for C96: the messages about the chunks. *)
From Verif Require Import Base PyVal Checksums Headers Pretty Args FileIO Append NumpyIO Objects Log Report Chatter Spec NumpySpec Archive ObjectsSpec FormatSpec ReadSpec ReviseSpec WriteSpec ArraySpec ChatSpec
  BaseLemmas HeaderProofs IOProofs WfProofs PackProofs DamageProofs ObjectsProofs ReportProofs EqProofs ReadProofs ExcPack ReviseProofs WriteProofs.
From Verif Require NumpyProofs NumpyMeta AppendSim.
Notation pack_prefix := NumpyProofs.pack_prefix.
Notation pack_split := NumpyProofs.pack_split.
Notation pack_rest := NumpyProofs.pack_rest.
From Coq Require Import ZifyBool ZifyNat.
Ltac Zify.zify_post_hook ::= Z.div_mod_to_equations.

(** ** Messages of one line *)
Definition plain (m : text) : Prop := lacks nl m /\ m <> [].
Lemma spoken_nil l : spoken l [] = l.
Proof. unfold spoken. destruct (String.eqb _ _); [|reflexivity]. destruct l. cbn. rewrite app_nil_r. reflexivity. Qed.
Lemma spoken_level l ms : l_level (spoken l ms) = l_level l.
Proof. unfold spoken. destruct (String.eqb _ _); reflexivity. Qed.
Lemma spoken_spoken l a b : spoken (spoken l a) b = spoken l (a ++ b).
Proof.
  unfold spoken at 1. rewrite spoken_level. unfold spoken. destruct (String.eqb _ _); [|reflexivity].
  cbn [l_level l_prefix l_out]. rewrite map_app, app_assoc. reflexivity.
Qed.
Lemma debug_run m l : rank (l_level l) <> None -> plain m -> debug m l = (spoken l [m], Ok tt).
Proof.
  intros R (L & N). destruct (rank (l_level l)) as [j|] eqn:RJ; [|congruence]. unfold debug.
  rewrite (log_verbose _ "DEBUG" l 2 j _ eq_refl RJ (lines_exist m)). rewrite split_nl_one by exact L.
  assert (F : filter has_text [m] = [m]) by (destruct m; [congruence|reflexivity]). rewrite F.
  unfold spoken. unfold rank in RJ. destruct (String.eqb_spec (l_level l) "DEBUG") as [D|D].
  - rewrite D in *. cbn in RJ. injection RJ as <-. reflexivity.
  - destruct (String.eqb (l_level l) "NORMAL"); [injection RJ as <-|destruct (String.eqb (l_level l) "VERBOSE"); [injection RJ as <-|congruence]];
      (destruct l; cbn; rewrite app_nil_r; reflexivity).
Qed.
Lemma dbg_run {S} m (s : S) l : plain m -> dbg m (s, l) = ((s, spoken l [m]), Ok tt).
Proof.
  intros P. unfold dbg. cbn [snd]. destruct (String.eqb_spec (l_level l) "DEBUG") as [D|D].
  - apply onr_run, debug_run; [rewrite D; discriminate|exact P].
  - unfold spoken. destruct (String.eqb_spec (l_level l) "DEBUG"); [contradiction|reflexivity].
Qed.
Lemma on_snk_run {Src Snk A} (m : SM (Snk * logst) A) (s : Src) k l k' l' r : m (k, l) = ((k', l'), r) -> on_snk m ((s, k), l) = (((s, k'), l'), r).
Proof. intros H. unfold on_snk. cbn [fst snd]. rewrite H. reflexivity. Qed.
Lemma on_src_run {Src Snk A} (m : SM (Src * logst) A) s (k : Snk) l s' l' r : m (s, l) = ((s', l'), r) -> on_src m ((s, k), l) = (((s', k), l'), r).
Proof. intros H. unfold on_src. cbn [fst snd]. rewrite H. reflexivity. Qed.
Lemma lacks_t s : existsb (Ascii.eqb nl) (t_ s) = false -> lacks nl (t_ s).
Proof.
  intros H I. assert (X : existsb (Ascii.eqb nl) (t_ s) = true); [|congruence]. apply existsb_exists. exists nl. split; [exact I|apply Ascii.eqb_refl].
Qed.
Lemma cks_names_plain c : existsb (Ascii.eqb nl) (t_ (cks_name c)) = false.
Proof. destruct c; reflexivity. Qed.
Ltac plain_ := repeat first [rewrite lacks_app | rewrite lacks_cons]; repeat split;
  first [apply int_lacks | apply size_text_lacks | apply repr_quoted_lacks | discriminate | (apply lacks_t; first [apply cks_names_plain | reflexivity]) | idtac].
Lemma mark_plain b : lacks nl (last_mark b).
Proof. destruct b; [apply lacks_t; reflexivity|intros []]. Qed.
Lemma chunk_no_eq i n : t_ "'" ++ int_text i ++ t_ "'" ++ last_mark (i =? n - 1) = chunk_no i n.
Proof. unfold chunk_no, last_mark. replace (i =? n - 1) with (i + 1 =? n) by lia. reflexivity. Qed.
Lemma chunk_no_lacks i n : lacks nl (chunk_no i n).
Proof. rewrite <- chunk_no_eq. plain_. apply mark_plain. Qed.
Lemma handle_eq i n : t_ "Handle chunk '" ++ int_text i ++ t_ "'" ++ last_mark (i =? n - 1) = t_ "Handle chunk " ++ chunk_no i n.
Proof. rewrite <- chunk_no_eq. reflexivity. Qed.
Lemma decomp_eq i n : t_ "decompressing chunk '" ++ int_text i ++ t_ "'" ++ last_mark (i =? n - 1) = t_ "decompressing chunk " ++ chunk_no i n.
Proof. rewrite <- chunk_no_eq. reflexivity. Qed.
Lemma ne_cons {A} (a : A) l : a :: l <> []. Proof. discriminate. Qed.
Lemma handle_plain i n : plain (t_ "Handle chunk " ++ chunk_no i n).
Proof. split; [plain_; apply chunk_no_lacks|apply ne_cons]. Qed.
Lemma decomp_plain i n : plain (t_ "decompressing chunk " ++ chunk_no i n).
Proof. split; [plain_; apply chunk_no_lacks|apply ne_cons]. Qed.
Lemma from_to_plain a b : plain (from_to a b).
Proof. unfold from_to. split; [plain_|apply ne_cons]. Qed.

Section WithEnv.
Variable E : Env.
Variable dg : Z -> bytes -> bytes.
Hypothesis HD : forall code d, 0 <= code < 9 -> is_digest E code d (dg code d).
Hypothesis EK : EnvOK E.

Lemma name_nth c : nth (Z.to_nat (cks_index c)) checksum_names ""%string = cks_name c.
Proof. destruct c; reflexivity. Qed.
Lemma checksum_message_eq c z : checksum_message E c z = (if cks_index c =? 0 then t_ "no checksum" else t_ "checksum " ++ named (cks_index c) (dg (cks_index c) z)).
Proof.
  unfold checksum_message, named. rewrite name_nth, (dg_digest E dg HD). replace (0 <? cks_size c) with (negb (cks_index c =? 0)) by (destruct c; reflexivity).
  destruct (cks_index c =? 0); cbn [negb]; reflexivity.
Qed.
Lemma checksum_plain c z : plain (checksum_message E c z).
Proof.
  unfold checksum_message. destruct (0 <? cks_size c); [|split; [apply lacks_t; reflexivity|apply ne_cons]].
  split; [|apply ne_cons]. cbn [oval_repr]. plain_.
Qed.

(** ** Packing *)
Lemma put_says i c k l : rank (l_level l) <> None ->
  d_fps_put E i c (k, l) = ((fst (fps_put E i c k), spoken l [checksum_message E (h_checksum (s_header k)) c]), snd (fps_put E i c k)).
Proof.
  intros R. unfold d_fps_put, fps_put.
  rewrite (bind_run (onl (on_fp f_tell)) _ (k, l) (k, l) (fpos (s_fp k))) by (destruct k as [[] ? ? ?]; reflexivity).
  rewrite (bind_run (on_fp f_tell) _ k k (fpos (s_fp k))) by (destruct k as [[] ? ? ?]; reflexivity).
  set (W := write_compressed_chunk c (do_checksum E (h_checksum (s_header k)) c)).
  set (K := fun s : cfs => if h_offsets (s_header s) then _ else _).
  destruct (on_fp W k) as [k1 r] eqn:Y.
  match goal with |- bind ?u _ _ = _ => set (F := u) end.
  assert (X : F (k, l) = ((k1, spoken l [checksum_message E (h_checksum (s_header k)) c]), r)).
  { unfold F. cbv zeta beta. cbn [fst]. rewrite (bind_run _ _ _ _ _ (onr_run _ _ _ _ _ (debug_run _ l R (checksum_plain _ _)))). apply onl_run. exact Y. }
  destruct r as [[]|e].
  - rewrite (bind_run _ _ _ _ _ X), (bind_run _ _ k k1 tt) by exact Y.
    destruct (K k1) as [k2 r2] eqn:KK. apply onl_run. exact KK.
  - rewrite (bind_run_raise _ _ _ _ _ X), (bind_run_raise _ _ k k1 e) by exact Y. reflexivity.
Qed.

Lemma loop_says {Src Chunk} (n : Z) (len : Chunk -> Z) (compress : Chunk -> res bytes) (steps : list (SM Src Chunk)) :
  forall chunks s s' i k l, yields steps s chunks s' -> placed k -> 0 <= i -> (h_offsets (s_header k) = true -> i + zlen steps <= zlen (s_storage k)) ->
  rank (l_level l) <> None ->
  d_pack_loop n len compress (d_fps_put E) i steps ((s, k), l) =
  let r := pack_loop compress (fps_put E) i steps (s, k) in
  ((fst r, spoken l (pack_story dg (cks_index (h_checksum (s_header k))) n i (map (fun x => (len x, compress x)) chunks))), snd r).
Proof.
  induction steps as [|st steps IH]; intros chunks s s' i k l Y P I O R; destruct chunks as [|x chunks]; cbn [yields] in Y; try tauto.
  - cbn [d_pack_loop pack_loop map pack_story]. rewrite spoken_nil. reflexivity.
  - destruct Y as (s1 & Y1 & Y). cbn [d_pack_loop pack_loop map pack_story]. cbv zeta.
    rewrite (bind_run _ _ _ _ _ (onl_run _ _ _ _ _ (onl_run _ _ _ _ _ Y1))), (bind_run _ _ _ _ _ (onl_run _ _ _ _ _ Y1)).
    rewrite handle_eq, (bind_run _ _ _ _ _ (dbg_run _ _ l (handle_plain i n))).
    destruct (compress x) as [z|e].
    2:{ rewrite !(bind_lift_raise _ _ _ _ eq_refl). reflexivity. }
    rewrite !(bind_lift _ _ _ _ eq_refl).
    assert (ZL : zlen (st :: steps) = 1 + zlen steps) by (unfold zlen; cbn [List.length]; lia). pose proof (zlen_nonneg steps).
    destruct (put_outcome E k i z P) as (k' & PE & P' & H' & M' & S'); [intros OO; specialize (O OO); lia|].
    pose proof (put_says i z k (spoken l [t_ "Handle chunk " ++ chunk_no i n]) ltac:(rewrite spoken_level; exact R)) as PS.
    rewrite PE in PS. cbn [fst snd] in PS. rewrite (bind_run _ _ _ _ _ (on_snk_run _ s1 _ _ _ _ _ PS)), (bind_run _ _ _ _ _ (onr_run _ _ _ _ _ PE)).
    change (t_ "chunk handled, in: " ++ double_pretty_size (len x) ++ t_ " out: " ++ double_pretty_size (zlen z)) with (from_to (len x) (size z)).
    rewrite (bind_run _ _ _ _ _ (dbg_run _ _ _ (from_to_plain _ _))), !spoken_spoken.
    rewrite (IH chunks s1 s' (i + 1) k' _ Y P' ltac:(lia)).
    2:{ rewrite H', S'. intros OO. specialize (O OO). lia. }
    2:{ rewrite spoken_level. exact R. }
    cbv zeta. rewrite H', spoken_spoken, checksum_message_eq. rewrite <- !app_assoc. reflexivity.
Qed.

Lemma d_pack_split {Src Chunk} (src : plain_source Src Chunk) len n c l m oba obp oma s k lg :
  d_pack E src len n c l m oba obp oma ((s, k), lg) =
  match pack_prefix (fp_sink E) n c l m oba obp oma k with
  | (k', Ok oma') => (d_pack_loop n len (ps_compress src (the_bargs oba)) (d_fps_put E) 0 (ps_steps src n c l) ;;; onl (onr (fps_finalize E)) ;;; ret oma') ((s, k'), lg)
  | (k', Raise e) => (((s, k'), lg), Raise e)
  end.
Proof.
  unfold d_pack, pack_prefix. fold (the_bargs oba) (the_bpargs obp) (the_margs oma). cbn [fp_sink cs_configure cs_write_header cs_write_metadata cs_init_offsets].
  cbv beta delta [bind lift onr onl ret]. cbn [fst snd].
  destruct (handle_max_apps _ _ _) as [mx|e]; [|reflexivity].
  destruct (mk_header _ _ _ _ _ _ _ _ _) as [h|e]; [|reflexivity]. cbn [fst snd].
  destruct (fps_write_header _) as [k1 [[]|e]]; [|reflexivity]. cbn [fst snd].
  destruct (is_none m).
  - cbn [fst snd]. destruct (fps_init_offsets k1) as [k2 [[]|e]]; reflexivity.
  - cbn [fst snd]. destruct (fps_write_metadata E m _ k1) as [k2 [a|e]]; [|reflexivity]. cbn [fst snd].
    destruct (fps_init_offsets k2) as [k3 [[]|e]]; reflexivity.
Qed.
Lemma pack_says {Src Chunk} (src : plain_source Src Chunk) len s chunks s' n c l m oba obp oma lg :
  1 <= n < 2 ^ 63 -> 0 <= l <= c -> c <= BUFMAX -> yields (ps_steps src n c l) s chunks s' -> zlen (ps_steps src n c l) = n -> rank (l_level lg) <> None ->
  d_pack E src len n c l m oba obp oma ((s, cfs_of (fp_of [])), lg) =
  let r := pack src (fp_sink E) n c l m oba obp oma (s, cfs_of (fp_of [])) in
  ((fst r, spoken lg (match snd (reference_begin E dg n c l m oba obp oma) with
                      | Ok (code, _, _) => pack_story dg code n 0 (map (fun x => (len x, ps_compress src (the_bargs oba) x)) chunks)
                      | Raise _ => []
                      end)), snd r).
Proof.
  intros HN HL HC Y ZN R. cbv zeta. rewrite d_pack_split, pack_split. pose proof (begin_exact E dg HD EK n c l m oba obp oma HN HL HC) as B.
  destruct (reference_begin E dg n c l m oba obp oma) as [f [[[code q] args]|e]]; cbn [fst snd].
  2:{ destruct B as (k & -> & _). rewrite spoken_nil. reflexivity. }
  destruct B as (k & ck & -> & -> & KD & KP & _ & _ & KC & KO & KS). unfold pack_rest. cbn [fp_sink cs_put cs_finalize].
  assert (P : placed k).
  { split; [unfold at_end; rewrite KP, KD; reflexivity|]. rewrite KS. destruct (bp_offsets _); [|constructor]. unfold zrep. apply Forall_forall. intros o I. apply repeat_spec in I. unfold size. lia. }
  pose proof (loop_says n len (ps_compress src (the_bargs oba)) (ps_steps src n c l) chunks s s' 0 k lg Y P ltac:(lia)) as LS.
  rewrite ZN, KO, KS, KC in LS. specialize (LS ltac:(intros ->; unfold zrep, zlen; rewrite repeat_length; lia) R). cbv zeta in LS.
  destruct (pack_loop (ps_compress src (the_bargs oba)) (fps_put E) 0 (ps_steps src n c l) (s, k)) as [[s2 k2] [[]|e]] eqn:PL; cbn [fst snd] in LS.
  - rewrite (bind_run _ _ _ _ _ LS), (bind_run _ _ _ _ _ PL). unfold bind, onl, onr, ret. cbn [fst snd].
    destruct (fps_finalize E k2) as [k3 [[]|e]]; reflexivity.
  - rewrite (bind_run_raise _ _ _ _ _ LS), (bind_run_raise _ _ _ _ _ PL). reflexivity.
Qed.
(** a source with nothing to give *)
Lemma pack_silent {Src Chunk} (src : plain_source Src Chunk) len s n c l m oba obp oma lg e t : ps_steps src n c l = raise e :: t ->
  d_pack E src len n c l m oba obp oma ((s, cfs_of (fp_of [])), lg) =
  let r := pack src (fp_sink E) n c l m oba obp oma (s, cfs_of (fp_of [])) in ((fst r, lg), snd r).
Proof.
  intros T. cbv zeta. rewrite d_pack_split, pack_split. unfold pack_rest. rewrite T.
  destruct (pack_prefix _ _ _ _ _ _ _ _ _) as [k [a|e']]; reflexivity.
Qed.

Lemma takes_reads sizes : forall b, BytesProofs.takes sizes b = reads sizes b.
Proof. induction sizes as [|n sizes IH]; intros b; cbn [BytesProofs.takes reads]; [reflexivity|]. rewrite IH. reflexivity. Qed.
Lemma takes_pieces n c l b : 1 <= n -> 0 <= l <= c -> BytesProofs.takes (chunk_sizes n c l) b = pieces n c l b.
Proof.
  intros HN HL. rewrite takes_reads. unfold chunk_sizes, zrep, pieces. rewrite (reads_ends E dg HD c) by lia. replace (S (Z.to_nat (n - 1))) with (Z.to_nat n) by lia. apply map_ext. intros j.
  replace (Z.of_nat (Z.to_nat (n - 1))) with (n - 1) by lia. reflexivity.
Qed.
Theorem pack_bytes_says b cs m oba obp oma lg : rank (l_level lg) <> None ->
  d_pack_bytes E b cs m oba obp oma lg =
  let r := pack_bytes_core E b cs m oba obp oma in
  (fdata (s_fp (fst r)),
   spoken lg (match chunking (size b) cs with
              | Ok (n, c, l) => told_packing E dg size n c l (Ok (pieces n c l b)) m oba obp oma
              | Raise _ => []
              end), snd r).
Proof.
  intros R. cbv zeta. pose proof (chunking_exact (size b) cs ltac:(unfold size; lia)) as CE. unfold d_pack_bytes, pack_bytes_core. rewrite <- (size_zlen b), CE.
  destruct (chunking (size b) cs) as [[[n c] l]|e] eqn:CH; [|rewrite spoken_nil; reflexivity].
  apply chunking_ok in CH as (HN & HL & HC & HB & C0); [|unfold size; lia].
  destruct (BytesProofs.fp_source_run E n c l b ltac:(lia) ltac:(lia) ltac:(lia)) as (s' & Y).
  rewrite (pack_says (fp_source E) (@zlen byte) (fp_of b) _ s' n c l m oba obp oma lg HN HL HC Y (BytesProofs.zlen_fp_steps E n c l ltac:(lia)) R).
  cbv zeta. cbn [fst snd]. rewrite takes_pieces by lia. unfold told_packing.
  destruct (pack (fp_source E) (fp_sink E) n c l m oba obp oma (fp_of b, cfs_of (fp_of []))) as [[s2 k] r]. cbn [fst snd].
  destruct (reference_begin E dg n c l m oba obp oma) as [f [[[code q] args]|e]]; reflexivity.
Qed.
Theorem pack_array_says N a cs oba obp oma lg : nd_ok a -> rank (l_level lg) <> None ->
  let it := dt_itemsize (nd_dtype a) in
  let ba := match oba with Some x => x | None => mkBA 8 7 true "blosclz" end in
  d_pack_ndarray E N a cs oba obp oma lg =
  let r := pack_ndarray E N a (fp_sink E) cs oba obp oma (cfs_of (fp_of [])) in
  (fdata (s_fp (fst r)),
   spoken lg (if dt_hasobject (nd_dtype a) then [] else
              match chunking (size (array_bytes a)) cs with
              | Ok (n, c, l) => told_packing E dg (fun _ => 2) n c l
                  (if it =? 0 then Raise ZeroDivisionError else if negb (c mod it =? 0) then Raise ChunkSizeTypeSizeMismatch
                   else Ok (pieces n c l (array_bytes a)))
                  (ndarray_meta N a) (Some (mkBA it (ba_clevel ba) (ba_shuffle ba) (ba_cname ba))) obp oma
              | Raise _ => []
              end), snd r).
Proof.
  intros HA R it ba. cbv zeta. unfold d_pack_ndarray, pack_ndarray. destruct (dt_hasobject (nd_dtype a)) eqn:HO; [rewrite spoken_nil; reflexivity|].
  assert (SZ : size (array_bytes a) = nd_size a * nd_itemsize a).
  { rewrite <- (NumpyMeta.image_is N) by exact HA. rewrite size_zlen. apply NumpyProofs.zlen_image. exact HA. }
  pose proof (chunking_exact (size (array_bytes a)) cs ltac:(unfold size; lia)) as CE. rewrite SZ in CE at 1. rewrite CE.
  destruct (chunking (size (array_bytes a)) cs) as [[[n c] l]|e] eqn:CH; [|rewrite spoken_nil; reflexivity].
  apply chunking_ok in CH as (HN & HL & HC & HB & C0); [|unfold size; lia].
  change (mkBA it (ba_clevel ba) (ba_shuffle ba) (ba_cname ba)) with (np_bargs a oba). change it with (nd_itemsize a).
  set (b := source_array N a) in *.
  assert (W : forall e t, ps_steps (np_source E b) n c l = raise e :: t ->
    (let r := d_pack E (np_source E b) (fun _ => 2) n c l (ndarray_meta N a) (Some (np_bargs a oba)) obp oma ((tt, cfs_of (fp_of [])), lg) in
     (fdata (s_fp (snd (fst (fst r)))), snd (fst r), snd r)) =
    (fdata (s_fp (fst (let '((_, k'), r) := pack (np_source E b) (fp_sink E) n c l (ndarray_meta N a) (Some (np_bargs a oba)) obp oma (tt, cfs_of (fp_of [])) in (k', r)))),
     spoken lg (told_packing E dg (fun _ => 2) n c l (Raise e) (ndarray_meta N a) (Some (np_bargs a oba)) obp oma),
     snd (let '((_, k'), r) := pack (np_source E b) (fp_sink E) n c l (ndarray_meta N a) (Some (np_bargs a oba)) obp oma (tt, cfs_of (fp_of [])) in (k', r)))).
  { intros e t T. cbv zeta. rewrite (pack_silent _ (fun _ => 2) tt n c l (ndarray_meta N a) (Some (np_bargs a oba)) obp oma lg e t T). cbv zeta. cbn [fst snd].
    destruct (pack (np_source E b) _ _ _ _ _ _ _ _ _) as [[u k] r]. cbn [fst snd]. unfold told_packing.
    replace (spoken lg _) with lg; [reflexivity|]. destruct (snd (reference_begin _ _ _ _ _ _ _ _ _)) as [[[? ?] ?]|]; rewrite spoken_nil; reflexivity. }
  pose proof W as W0. cbn [np_source ps_steps] in W0. unfold b at 1 2 in W0. rewrite NumpyProofs.source_array_item in W0.
  destruct (nd_itemsize a =? 0) eqn:I0; [exact (W0 _ _ eq_refl)|].
  destruct (c mod nd_itemsize a =? 0) eqn:I1; cbn [negb] in *; [|exact (W0 _ _ eq_refl)]. clear W W0.
  assert (Hi : 1 <= nd_itemsize a) by (destruct HA; lia).
  pose proof (NumpyProofs.last_divides a n c l cs HA Hi CE ltac:(lia)) as Hl.
  assert (Y : yields (ps_steps (np_source E b) n c l) tt (NumpyProofs.np_chunks c l (nd_itemsize a) (Z.to_nat (n - 1)) (nd_ptr b)) tt).
  { cbn [np_source ps_steps]. unfold b at 1 2 3. rewrite NumpyProofs.source_array_item, I0, I1.
    cbn [negb]. apply NumpyProofs.np_yields; try assumption; try lia; pose proof (NumpyProofs.calculate_bounded _ _ _ _ _ (NumpyProofs.size_nonneg a HA) CE); lia. }
  pose proof (NumpyProofs.np_views (nd_mem b) (nd_itemsize a) c l (Z.to_nat (n - 1)) Hi ltac:(lia) ltac:(lia) ltac:(lia) Hl (nd_ptr b)
    (nd_size a * nd_itemsize a)) as V.
  rewrite Z2Nat.id in V by lia. specialize (V ltac:(lia)).
  change (zrep (n - 1) c ++ [l]) with (chunk_sizes n c l) in V.
  change (mem_read (nd_mem b) (nd_ptr b) (nd_size a * nd_itemsize a)) with (NumpyProofs.image N a) in V. rewrite NumpyMeta.image_is in V by exact HA.
  rewrite takes_pieces in V by lia.
  assert (ZS : zlen (ps_steps (np_source E b) n c l) = n).
  { rewrite <- (yields_len _ _ _ _ Y). transitivity (zlen (pieces n c l (array_bytes a))); [rewrite <- V; unfold zlen; rewrite map_length; reflexivity|].
    unfold pieces, zlen. rewrite map_length, seq_length. lia. }
  rewrite (pack_says (np_source E b) (fun _ => 2) tt _ tt n c l (ndarray_meta N a) (Some (np_bargs a oba)) obp oma lg HN HL HC Y ZS R).
  cbv zeta. cbn [fst snd]. destruct (pack (np_source E b) _ _ _ _ _ _ _ _ _) as [[u k] r]. cbn [fst snd]. unfold told_packing.
  rewrite <- V, map_map.
  destruct (reference_begin E dg n c l (ndarray_meta N a) (Some (np_bargs a oba)) obp oma) as [f [[[code q] args]|e]]; reflexivity.
Qed.

(** ** Unpacking *)
Lemma sub_of_sub q n p k f : 0 <= q -> 0 <= p -> 0 <= k -> p + k <= n -> sub p k (sub q n f) = sub (q + p) k f.
Proof.
  intros Q P K L. unfold sub. rewrite skipn_firstn_comm, firstn_firstn.
  rewrite <- !zdrop_skipn. replace (q + p) with (p + q) by lia.
  rewrite <- (zdrop_zdrop p q) by lia. rewrite (zdrop_skipn p), zdrop_skipn. f_equal. lia.
Qed.
Lemma u8_inside p n q f : 0 <= p -> 0 <= q -> p + 1 <= n -> u8 p (sub q n f) = u8 (q + p) f.
Proof. intros. unfold u8. rewrite sub_of_sub by lia. reflexivity. Qed.
Lemma u32_inside p n q f : 0 <= p -> 0 <= q -> p + 4 <= n -> u32 p (sub q n f) = u32 (q + p) f.
Proof. intros. unfold u32. rewrite sub_of_sub by lia. reflexivity. Qed.
Lemma fields_eq q f : t_ "blosc_header: " ++ blosc_header_text (mkBH (u8 q f) (u8 (q + 1) f) (u8 (q + 2) f) (u8 (q + 3) f) (u32 (q + 4) f) (u32 (q + 8) f) (u32 (q + 12) f)) = blosc_fields q f.
Proof.
  unfold blosc_header_text, odict_text, blosc_fields. cbn [map join_text bh_version bh_versionlz bh_flags bh_typesize bh_nbytes bh_blocksize bh_ctbytes oval_repr].
  repeat rewrite <- app_assoc. reflexivity.
Qed.
Lemma fields_plain q f : plain (blosc_fields q f).
Proof. unfold blosc_fields. split; [plain_|apply ne_cons]. Qed.
Lemma next_says ck f q l lg : 0 <= q -> size f - q < 16 ->
  exists g e, fp_next E ck (mkfp f q l) = (g, Raise e) /\ d_read_chunk E ck (mkfp f q l, lg) = ((g, lg), Raise e).
Proof.
  intros Q L. unfold fp_next, read_compressed_chunk, d_read_chunk, BLOSC_HEADER_LENGTH.
  assert (Z16 : zlen (sub q 16 f) < 16) by (rewrite <- size_zlen, size_sub by lia; lia).
  pose proof (f_read_at E dg HD 16 f q l ltac:(lia)) as R. pose proof (blosc_short E dg HD _ Z16) as B.
  exists (mkfp f (q + size (sub q 16 f)) l), (if zlen (sub q 16 f) <? 4 then IndexError else StructError). split.
  - unfold bind at 1 2. rewrite R, (bind_lift_raise _ _ _ _ B). reflexivity.
  - rewrite (bind_run _ _ _ _ _ (onl_run _ _ _ _ _ R)), (bind_lift_raise _ _ _ _ B). reflexivity.
Qed.

Definition there ck q f := let c := sub q (u32 (q + 12) f) f in (c, if 0 <? cks_size ck then Some (sub (q + size c) (cks_size ck) f) else None).
Definition behind ck q f := let c := sub q (u32 (q + 12) f) f in q + size c + size (sub (q + size c) (cks_size ck) f).
Lemma next_says_ok ck f q l lg : 0 <= q -> 16 <= size f - q ->
  fp_next E ck (mkfp f q l) = (mkfp f (behind ck q f) l, Ok (there ck q f)) /\
  d_read_chunk E ck (mkfp f q l, lg) = ((mkfp f (behind ck q f) l, spoken lg [blosc_fields q f]), Ok (there ck q f)).
Proof.
  intros Q L. unfold fp_next, read_compressed_chunk, d_read_chunk, BLOSC_HEADER_LENGTH, there, behind. cbv zeta.
  assert (Z16 : size (sub q 16 f) = 16) by (rewrite size_sub by lia; lia).
  pose proof (f_read_at E dg HD 16 f q l ltac:(lia)) as R. rewrite Z16 in R.
  assert (B := decode_blosc_header_ok (sub q 16 f) ltac:(rewrite <- size_zlen; lia)).
  rewrite !u8_inside, !u32_inside in B by lia. rewrite Z.add_0_r in B.
  assert (K : f_seek_rel E (- (16)) (mkfp f (q + 16) l) = (mkfp f q l, Ok tt)).
  { rewrite f_seek_rel_ok by (cbn [fpos]; lia). unfold adv. cbn [fdata fpos flog]. replace (q + 16 + - (16)) with q by lia. reflexivity. }
  pose proof (u32_range (q + 12) f) as U. set (w := u32 (q + 12) f) in *.
  pose proof (f_read_at E dg HD w f q l ltac:(lia)) as R2. set (c := sub q w f) in *.
  pose proof (cks_size_nonneg ck) as S0. pose proof (f_read_at E dg HD (cks_size ck) f (q + size c) l ltac:(lia)) as R3.
  assert (D : (if 0 <? cks_size ck then x <- f_read (cks_size ck) ;; ret (Some x) else ret None) (mkfp f (q + size c) l) =
    (mkfp f (q + size c + size (sub (q + size c) (cks_size ck) f)) l, Ok (if 0 <? cks_size ck then Some (sub (q + size c) (cks_size ck) f) else None))).
  { destruct (0 <? cks_size ck) eqn:C0; [rewrite (bind_run _ _ _ _ _ R3); reflexivity|]. replace (cks_size ck) with 0 by lia.
    replace (size (sub (q + size c) 0 f)) with 0 by (unfold sub, size; reflexivity). rewrite Z.add_0_r. reflexivity. }
  split.
  - unfold bind at 1. rewrite (bind_run _ _ _ _ _ R), (bind_lift _ _ _ _ B), (bind_run _ _ _ _ _ K). cbn [bh_ctbytes]. rewrite (bind_run _ _ _ _ _ R2), (bind_run _ _ _ _ _ D). reflexivity.
  - rewrite (bind_run _ _ _ _ _ (onl_run _ _ _ _ _ R)), (bind_lift _ _ _ _ B), fields_eq.
    rewrite (bind_run _ _ _ _ _ (dbg_run _ _ _ (fields_plain _ _))), (bind_run _ _ _ _ _ (onl_run _ _ _ _ _ K)). cbn [bh_ctbytes].
    rewrite (bind_run _ _ _ _ _ (onl_run _ _ _ _ _ R2)), (bind_run _ _ _ _ _ (onl_run _ _ _ _ _ D)). reflexivity.
Qed.
Lemma named_ok_plain code d : 0 <= code < 9 -> plain (t_ "checksum OK " ++ named code d).
Proof.
  intros C. destruct (cks_of_index_ok code C) as (ck & _ & <- & _). unfold named. rewrite name_nth. cbn [oval_repr]. split; [plain_|apply ne_cons].
Qed.
Lemma unpack_loop_says f ck l : cks_index ck = u8 6 f -> forall n i q (k : fp) lg, 0 <= q ->
  d_unpack_loop E (F_n f) (d_read_chunk E ck) ck (plain_put E) n i ((mkfp f q l, k), lg) =
  let r := unpack_loop E (fp_next E ck) ck (plain_put E) n (mkfp f q l, k) in
  ((fst r, spoken lg (unpack_story E dg f n i q)), snd r).
Proof.
  intros CI. induction n as [|n IH]; intros i q k lg Q; cbv zeta.
  { cbn. rewrite spoken_nil. reflexivity. }
  cbn [d_unpack_loop unpack_loop unpack_story].
  destruct (Z.ltb_spec (size f - q) 16) as [L|L].
  { destruct (next_says ck f q l lg Q L) as (g & e & A & B).
    rewrite (bind_run_raise _ _ _ _ _ (on_src_run _ _ k _ _ _ _ B)), (bind_run_raise _ _ _ _ _ (onl_run _ _ k _ _ A)), spoken_nil. reflexivity. }
  destruct (next_says_ok ck f q l lg Q L) as (A & B).
  rewrite (bind_run _ _ _ _ _ (on_src_run _ _ k _ _ _ _ B)), (bind_run _ _ _ _ _ (onl_run _ _ k _ _ A)). clear A B.
  unfold F_digest. rewrite <- CI, digest_len_cks, same_eqb, (dg_digest E dg HD).
  rewrite decomp_eq, (bind_run _ _ _ _ _ (dbg_run _ _ _ (decomp_plain _ _))), spoken_spoken.
  pose proof (u32_range (q + 12) f) as U. unfold there, behind. cbv zeta. set (c := sub q (u32 (q + 12) f) f) in *.
  pose proof (cks_size_nonneg ck) as S0. set (d := sub (q + size c) (cks_size ck) f).
  cbn [fst snd].
  assert (TD : truthy (if 0 <? cks_size ck then Some d else None) = (0 <? size d) /\ (0 < size d -> (if 0 <? cks_size ck then Some d else None) = Some d)).
  { assert (size d <= cks_size ck) by (unfold d; rewrite size_sub by (unfold size; lia); lia).
    destruct (Z.ltb_spec 0 (cks_size ck)); [|split; [cbn; lia|lia]]. split; [|reflexivity]. destruct d; reflexivity. }
  destruct TD as (T1 & T2). rewrite T1.
  assert (TAIL : forall g lg', g = mkfp f (q + size c + size d) l ->
    (len <- onl (onr (plain_put E c)) ;;
     dbg (t_ "chunk handled, in: " ++ double_pretty_size (zlen c) ++ t_ " out: " ++ double_pretty_size len) ;;;
     d_unpack_loop E (F_n f) (d_read_chunk E ck) ck (plain_put E) n (i + 1)) ((g, k), lg') =
    let r := (onr (plain_put E c) ;;; unpack_loop E (fp_next E ck) ck (plain_put E) n) (g, k) in
    ((fst r, spoken lg' (match e_decompress E c with Raise _ => [] | Ok x => from_to (size c) (size x) :: unpack_story E dg f n (i + 1) (q + size c + size d) end)), snd r)).
  { intros g lg' ->. cbv zeta. destruct (e_decompress E c) as [x|e] eqn:DX.
    - assert (PP : exists k', plain_put E c k = (k', Ok (zlen x))).
      { unfold plain_put. rewrite (bind_lift _ _ _ _ DX). destruct k as [kf kp kl]. eexists. rewrite (bind_run _ _ _ _ _ (f_write_at _ _ _ _)). reflexivity. }
      destruct PP as (k' & PP).
      rewrite (bind_run _ _ _ _ _ (onl_run _ _ lg' _ _ (onr_run _ (mkfp f (q + size c + size d) l) _ _ _ PP))), (bind_run _ _ _ _ _ (onr_run _ (mkfp f (q + size c + size d) l) _ _ _ PP)).
      change (t_ "chunk handled, in: " ++ double_pretty_size (zlen c) ++ t_ " out: " ++ double_pretty_size (zlen x)) with (from_to (size c) (size x)).
      rewrite (bind_run _ _ _ _ _ (dbg_run _ _ _ (from_to_plain _ _))).
      rewrite IH by (unfold size; lia). cbv zeta. rewrite spoken_spoken. reflexivity.
    - assert (PP : plain_put E c k = (k, Raise e)) by (unfold plain_put; rewrite (bind_lift_raise _ _ _ _ DX); reflexivity).
      rewrite (bind_run_raise _ _ _ _ _ (onl_run _ _ lg' _ _ (onr_run _ (mkfp f (q + size c + size d) l) _ _ _ PP))), (bind_run_raise _ _ _ _ _ (onr_run _ (mkfp f (q + size c + size d) l) _ _ _ PP)).
      rewrite spoken_nil. reflexivity. }
  destruct (Z.ltb_spec 0 (size d)) as [D0|D0]; cbn [andb].
  - rewrite (T2 D0). destruct (bytes_eqb d (digest E ck c)) eqn:BE; cbn [negb].
    + replace (t_ "checksum OK (" ++ t_ (cks_name ck) ++ t_ "): " ++ oval_repr (OBytes d)) with (t_ "checksum OK " ++ named (cks_index ck) d) by (unfold named; rewrite name_nth; reflexivity).
      rewrite (bind_run _ _ _ _ _ (dbg_run _ _ _ (named_ok_plain (cks_index ck) d ltac:(pose proof (cks_index_range ck); lia)))), spoken_spoken.
      rewrite (TAIL _ _ eq_refl). cbv zeta. rewrite spoken_spoken. reflexivity.
    + reflexivity.
  - etransitivity; [exact (TAIL _ _ eq_refl)|]. cbv zeta. rewrite spoken_spoken. reflexivity.
Qed.
Theorem unpack_says f lg :
  d_unpack E f lg = (fst (unpack_core E f), spoken lg (told_unpacking E dg f), snd (unpack_core E f)).
Proof.
  unfold d_unpack, unpack_core, told_unpacking, read_beginning. pose proof (header_exact E dg HD f) as H.
  assert (L32 : header_fault f = None -> 32 <= size f) by (unfold header_fault; destruct (Z.ltb_spec (size f) 32); [discriminate|lia]).
  destruct (header_fault f) as [e|]; [destruct H as [g H]; rewrite (bind_run_raise _ _ _ _ _ H), spoken_nil; reflexivity|].
  destruct H as (ck & CI & NO & H). rewrite (bind_run _ _ _ _ _ H). clear H. set (h := mkH _ _ _ ck _ _ _ _ _). specialize (L32 eq_refl).
  change (h_metadata h) with (has_meta f). unfold metadata_part.
  pose proof (metadata_exact E dg HD f L32) as M.
  assert (MM : match (if has_meta f then metadata_at_32 E dg f else Ok (PNone, 32)) with
    | Raise e => exists g, (if has_meta f then r <- read_metadata E ;; ret (fst r, Some (snd r)) else ret (PNone, None)) (mkfp f 32 []) = (g, Raise e)
    | Ok (m, q) => 0 <= q /\ exists o, (if has_meta f then r <- read_metadata E ;; ret (fst r, Some (snd r)) else ret (PNone, None)) (mkfp f 32 []) = (mkfp f q [], Ok (m, o))
    end).
  { destruct (has_meta f); [|split; [lia|eexists; reflexivity]].
    destruct (metadata_at_32 E dg f) as [[m q]|e].
    - destruct M as (mh & M & Q & _). split; [exact Q|]. eexists. rewrite (bind_run _ _ _ _ _ M). reflexivity.
    - destruct M as (g & M). eexists. rewrite (bind_run_raise _ _ _ _ _ M). reflexivity. }
  destruct (if has_meta f then metadata_at_32 E dg f else Ok (PNone, 32)) as [[m q]|e].
  2:{ destruct MM as (g & MM). rewrite (bind_run_raise _ _ _ _ _ MM), spoken_nil. reflexivity. }
  destruct MM as (Q & o & MM). rewrite (bind_run _ _ _ _ _ MM).
  assert (M0 : 0 <= F_max f) by (unfold header_nums_ok in NO; lia).
  pose proof (offsets_exact E dg HD f q h Q eq_refl eq_refl eq_refl M0) as O.
  destruct (table_end f q) as [q'|e]; [|destruct O as (g & O); rewrite (bind_run_raise _ _ _ _ _ O), spoken_nil; reflexivity].
  destruct O as (O & Q' & _). rewrite (bind_run _ _ _ _ _ O). unfold ret. cbn [b_header b_meta fst].
  change (h_checksum h) with ck. change (h_nchunks h) with (F_n f). unfold unpack_fp. change (h_checksum h) with ck. change (h_nchunks h) with (F_n f).
  rewrite (unpack_loop_says f ck [] CI _ 0 q' (fp_of []) lg Q'). cbv zeta. cbn [fst snd].
  destruct (unpack_loop _ _ _ _ _ _) as [[g out] r]. reflexivity.
Qed.
Lemma known_level lv : In lv ["NORMAL"; "VERBOSE"; "DEBUG"]%string -> rank lv <> None.
Proof. intros [<-|[<-|[<-|[]]]]; discriminate. Qed.
Definition pack_bytes_told b cs m oba obp oma lg L := pack_bytes_says b cs m oba obp oma lg (known_level _ L).
Definition pack_array_told N a cs oba obp oma lg A L := pack_array_says N a cs oba obp oma lg A (known_level _ L).

(** ** Appending *)
Definition append_no i n : text := t_ "Handle chunk '" ++ int_text i ++ t_ "' " ++ (if i + 1 =? n then t_ "(last)" else []).
Lemma append_no_plain i n : plain (append_no i n).
Proof. unfold append_no. split; [plain_; destruct (i + 1 =? n); [apply lacks_t; reflexivity|intros []]|apply ne_cons]. Qed.
Lemma put_any k i z : 0 <= fpos (s_fp k) -> 0 <= i -> (h_offsets (s_header k) = true -> i < zlen (s_storage k)) ->
  exists k', fps_put E i z k = (k', Ok tt) /\ s_header k' = s_header k /\ zlen (s_storage k') = zlen (s_storage k) /\ 0 <= fpos (s_fp k').
Proof.
  intros P I O. destruct k as [[d p lg] mt h st]. cbn [s_fp fpos s_header s_storage] in *.
  destruct (write_chunk_at E dg HD z (digest E (h_checksum h) z) d p lg) as (l' & [W|W]); [|lia]. set (y := z ++ _) in *. pose proof (zlen_nonneg y).
  unfold fps_put. rewrite (bind_run _ _ _ (mkCFS (mkfp d p lg) mt h st) p) by reflexivity.
  rewrite (bind_run _ _ _ (mkCFS (mkfp (write_at d p y) (p + zlen y) l') mt h st) tt).
  2:{ unfold on_fp. cbn [s_fp s_header]. rewrite do_checksum_digest. rewrite W. reflexivity. }
  cbn [s_header s_storage]. destruct (h_offsets h) eqn:HO.
  - specialize (O eq_refl). destruct (set_nth_some p st (Z.to_nat i)) as (st' & SN); [unfold zlen in O; lia|]. rewrite SN.
    eexists. split; [reflexivity|]. cbn [s_header s_storage s_fp fpos]. split; [reflexivity|]. split; [|lia]. unfold zlen. rewrite (AppendSim.set_nth_length _ _ _ _ SN). reflexivity.
  - eexists. split; [reflexivity|]. cbn [s_header s_storage s_fp fpos]. repeat split; lia.
Qed.
Lemma append_loop_says n compress : forall sizes i nf k l, 0 <= fpos (s_fp k) -> 0 <= fpos nf -> Forall (fun n => 0 <= n) sizes -> 0 <= i ->
  (h_offsets (s_header k) = true -> i + zlen sizes <= zlen (s_storage k)) -> rank (l_level l) <> None ->
  d_append_loop n compress (d_fps_put E) i (map f_read sizes) ((nf, k), l) =
  let r := pack_loop compress (fps_put E) i (map f_read sizes) (nf, k) in
  ((fst r, spoken l (append_story dg (cks_index (h_checksum (s_header k))) n i (map compress (reads sizes (rest nf))))), snd r).
Proof.
  induction sizes as [|w sizes IH]; intros i nf k l Hp Hn F I O R; cbv zeta.
  { cbn. rewrite spoken_nil. reflexivity. }
  inversion F as [|? ? N0 F']; subst. cbn [map d_append_loop pack_loop reads append_story].
  rewrite (bind_run _ _ _ _ _ (onl_run _ _ _ _ _ (onl_run _ _ _ _ _ (f_read_gen w nf N0)))), (bind_run _ _ _ _ _ (onl_run _ _ _ _ _ (f_read_gen w nf N0))).
  replace (i =? n - 1) with (i + 1 =? n) by lia. fold (append_no i n).
  rewrite (bind_run _ _ _ _ _ (onr_run _ _ _ _ _ (debug_run _ l R (append_no_plain i n)))).
  destruct (compress (ztake w (rest nf))) as [z|e].
  2:{ rewrite !(bind_lift_raise _ _ _ _ eq_refl). reflexivity. }
  rewrite !(bind_lift _ _ _ _ eq_refl).
  assert (ZL : zlen (w :: sizes) = 1 + zlen sizes) by (unfold zlen; cbn [List.length]; lia). pose proof (zlen_nonneg sizes).
  destruct (put_any k i z Hp I) as (k' & PE & H' & S' & P'); [intros OO; specialize (O OO); lia|].
  pose proof (put_says i z k (spoken l [append_no i n]) ltac:(rewrite spoken_level; exact R)) as PS.
  rewrite PE in PS. cbn [fst snd] in PS.
  set (nf1 := adv (zlen (ztake w (rest nf))) nf) in *.
  rewrite (bind_run _ _ _ _ _ (on_snk_run _ nf1 _ _ _ _ _ PS)), (bind_run _ _ _ _ _ (onr_run _ _ _ _ _ PE)), spoken_spoken.
  assert (RR : rest nf1 = zdrop w (rest nf)).
  { unfold nf1. rewrite rest_adv by (pose proof (zlen_nonneg (ztake w (rest nf))); lia). rewrite zlen_ztake. pose proof (zlen_nonneg (rest nf)).
    destruct (Z.le_gt_cases w (zlen (rest nf))); [f_equal; lia|]. rewrite !zdrop_all by lia. reflexivity. }
  rewrite (IH (i + 1) nf1 k'); auto.
  2:{ unfold nf1. rewrite fpos_adv. pose proof (zlen_nonneg (ztake w (rest nf))). lia. }
  2:{ lia. }
  2:{ rewrite H', S'. intros OO. specialize (O OO). lia. }
  2:{ rewrite spoken_level. exact R. }
  cbv zeta. rewrite H', RR, spoken_spoken, checksum_message_eq. reflexivity.
Qed.

Lemma append_says f new oa lg : rank (l_level lg) <> None ->
  d_append E f new oa lg =
  let r := append_fp E (zlen new) oa (fp_of new, fp_of f) in (fdata (snd (fst r)), spoken lg (told_appending E dg f new oa), snd r).
Proof.
  intros R. cbv zeta. unfold d_append. cbv zeta.
  enough (X : d_append_fp E (zlen new) oa ((fp_of new, fp_of f), lg) =
    ((fst (append_fp E (zlen new) oa (fp_of new, fp_of f)), spoken lg (told_appending E dg f new oa)), snd (append_fp E (zlen new) oa (fp_of new, fp_of f)))) by (rewrite X; reflexivity).
  unfold told_appending. pose proof (beginning_exact E dg HD pyeq pyeq_alike f) as B.
  assert (RB : forall g e, read_beginning E (fp_of f) = (g, Raise e) ->
    d_append_fp E (zlen new) oa ((fp_of new, fp_of f), lg) =
    ((fst (append_fp E (zlen new) oa (fp_of new, fp_of f)), spoken lg []), snd (append_fp E (zlen new) oa (fp_of new, fp_of f)))).
  { intros g e H. unfold d_append_fp, append_fp. rewrite (bind_run_raise _ _ _ _ _ (onl_run _ _ _ _ _ (onr_run _ _ _ _ _ H))), (bind_run_raise _ _ _ _ _ (onr_run _ _ _ _ _ H)), spoken_nil. reflexivity. }
  destruct (header_fault f) as [e|]; [destruct B as (g & B); exact (RB g e B)|].
  destruct B as (ck & CI & NO & B).
  destruct (metadata_part E dg f) as [[m q]|e]; [|destruct B as (g & B); exact (RB g e B)].
  destruct B as (Q & B). destruct (table_end f q) as [q'|e]; [|destruct B as (g & B); exact (RB g e B)].
  destruct B as (mh & B & OP & N & _). clear RB. cbv zeta in B.
  set (bg := mkBeg _ m mh _) in *. set (h := mkH _ _ _ ck _ _ _ _ _) in *.
  unfold d_append_fp, append_fp. rewrite (bind_run _ _ _ _ _ (onl_run _ _ lg _ _ (onr_run _ (fp_of new) _ _ _ B))), (bind_run _ _ _ _ _ (onr_run _ (fp_of new) _ _ _ B)). clear B.
  change (b_header bg) with h. change (b_offsets bg) with (if has_offsets f then offs_at f q else []).
  destruct (has_offsets f) eqn:HO; [|cbn [negb orb]; rewrite spoken_nil; reflexivity]. specialize (N eq_refl). cbn [negb orb].
  destruct (Z.eqb_spec (F_n f) 0) as [N0|N0].
  { unfold offs_at. rewrite N0. cbn [orb]. rewrite spoken_nil. reflexivity. }
  cbv beta zeta. cbn [orb].
  assert (NE : exists o0 os, offs_at f q = o0 :: os).
  { unfold offs_at. replace (Z.to_nat (F_n f)) with (S (Z.to_nat (F_n f - 1))) by lia. eexists. eexists. reflexivity. }
  destruct NE as (o0 & os & NE). rewrite NE, <- NE. rewrite (last_offs E dg HD) by lia. set (last := i64 (q + 8 * (F_n f - 1)) f).
  rewrite !(bind_lift _ _ _ _ (fill_exact E dg HD f oa h eq_refl)). set (ba := blosc_choice f oa).
  destruct (Z.ltb_spec last 0) as [LN|LN]; cbn [orb].
  { assert (SX : f_seek E last (mkfp f q' []) = (mkfp f q' [], Raise (if e_mem E then ValueError else OSError))) by (unfold f_seek; replace (last <? 0) with true by lia; reflexivity).
    rewrite (bind_run_raise _ _ _ _ _ (onl_run _ _ _ _ _ (onr_run _ _ _ _ _ SX))), (bind_run_raise _ _ _ _ _ (onr_run _ _ _ _ _ SX)), spoken_nil. reflexivity. }
  assert (SK : forall w d p l, 0 <= w -> f_seek E w (mkfp d p l) = (mkfp d w l, Ok tt)).
  { intros w d p l H. unfold f_seek. replace (w <? 0) with false by lia. reflexivity. }
  rewrite (bind_run _ _ _ _ _ (onl_run _ _ lg _ _ (onr_run _ (fp_of new) _ _ _ (SK last f q' [] LN)))), (bind_run _ _ _ _ _ (onr_run _ (fp_of new) _ _ _ (SK last f q' [] LN))).
  change (h_checksum h) with ck.
  destruct (Z.ltb_spec (size f - last) 16) as [L16|L16].
  { destruct (next_says ck f last [] lg LN L16) as (g & e & A & B). unfold fp_next in A.
    assert (A' : read_compressed_chunk E ck (mkfp f last []) = (g, Raise e)).
    { destruct (read_compressed_chunk E ck (mkfp f last [])) as [g' [[[x1 x2] x3]|e']] eqn:RC; [rewrite (bind_run _ _ _ _ _ RC) in A; discriminate|].
      rewrite (bind_run_raise _ _ _ _ _ RC) in A. injection A as -> ->. reflexivity. }
    rewrite (bind_run_raise _ _ _ _ _ (on_snk_run _ (fp_of new) _ _ _ _ _ B)), (bind_run_raise _ _ _ _ _ (onr_run _ (fp_of new) _ _ _ A')), spoken_nil. reflexivity. }
  destruct (next_says_ok ck f last [] lg LN L16) as (A & B). unfold fp_next in A.
  set (p' := behind ck last f) in *.
  assert (A' : exists bh, read_compressed_chunk E ck (mkfp f last []) = (mkfp f p' [], Ok (fst (there ck last f), bh, snd (there ck last f)))).
  { destruct (read_compressed_chunk E ck (mkfp f last [])) as [g' [[[x1 x2] x3]|e']] eqn:RC.
    - rewrite (bind_run _ _ _ _ _ RC) in A. unfold ret in A. injection A as -> -> ->. eexists. reflexivity.
    - rewrite (bind_run_raise _ _ _ _ _ RC) in A. discriminate. }
  destruct A' as (bh & A'). clear A.
  rewrite (bind_run _ _ _ _ _ (on_snk_run _ (fp_of new) _ _ _ _ _ B)), (bind_run _ _ _ _ _ (onr_run _ (fp_of new) _ _ _ A')). clear A' B.
  cbn [fst snd]. unfold there. cbv zeta. cbn [fst snd].
  destruct (e_decompress E (sub last (u32 (last + 12) f) f)) as [d|e] eqn:DE; [|reflexivity].
  rewrite !(bind_lift _ _ _ _ eq_refl). change (h_chunk_size h) with (F_chunk f).
  unfold told_filling. cbv zeta. set (c := F_chunk f) in *. rewrite (size_zlen d), (size_zlen new). set (room := c - zlen d). fold ba.
  assert (NOK := NO). unfold header_nums_ok, BUFMAX in NOK. fold c in NOK.
  destruct (Z.leb_spec (zlen new) room) as [FIT|FIT].
  { replace (zlen new - room <=? 0) with true by lia. cbn [orb]. unfold onl at 1. cbn [fst snd].
    match goal with |- (let '(s, r) := ?M in _) = _ => destruct M as [s r] end. reflexivity. }
  replace (zlen new - room <=? 0) with false by lia. cbn [orb]. set (more := zlen new - room) in *.
  set (fill := if room <? 0 then new else sub 0 room new). set (rs := if room <? 0 then [] else skipn (Z.to_nat room) new).
  assert (FR : exists np, f_read room (fp_of new) = (mkfp new np [], Ok fill) /\ 0 <= np /\ zdrop np new = rs).
  { unfold fp_of. destruct (Z.ltb_spec room 0) as [RN|RN].
    - unfold f_read. replace (room <? 0) with true by lia. cbn [fdata fpos flog]. rewrite zdrop_0 by lia. exists (0 + zlen new). split; [reflexivity|]. split; [pose proof (zlen_nonneg new); lia|].
      apply zdrop_all. lia.
    - rewrite (f_read_at E dg HD) by lia. exists (0 + size (sub 0 room new)). split; [reflexivity|]. split; [unfold size; lia|].
      rewrite size_sub by lia. unfold rs. rewrite zdrop_skipn. f_equal. rewrite (size_zlen new). lia. }
  destruct FR as (np & FR & NP & RS).
  rewrite (bind_run _ _ _ _ _ (onl_run _ _ _ _ _ (onl_run _ _ (mkfp f p' []) _ _ FR))), (bind_run _ _ _ _ _ (onl_run _ _ (mkfp f p' []) _ _ FR)). clear FR.
  rewrite (calc_exact more c) by (unfold BUFMAX; lia).
  destruct (Z.ltb_spec c 1) as [C1|C1]; [cbn [orb]; rewrite !(bind_lift_raise _ _ _ _ eq_refl); reflexivity|]. cbn [orb]. set (k := (more + c - 1) / c).
  destruct (Z.leb_spec (2 ^ 63) k) as [K63|K63]; [cbn [orb]; rewrite !(bind_lift_raise _ _ _ _ eq_refl); reflexivity|]. cbn [orb].
  rewrite !(bind_lift _ _ _ _ eq_refl). cbv beta iota. change (h_max_app h) with (F_max f).
  destruct (Z.ltb_spec (F_max f) k) as [KM|KM]; [reflexivity|].
  rewrite (bind_run _ _ _ _ _ (onl_run _ _ _ _ _ (onr_run _ (mkfp new np []) _ _ _ (SK last f p' [] LN)))), (bind_run _ _ _ _ _ (onr_run _ (mkfp new np []) _ _ _ (SK last f p' [] LN))).
  change (compress_chunk_str E ba (d ++ fill)) with (e_compress E ba (d ++ fill)).
  destruct (e_compress E ba (d ++ fill)) as [z|e] eqn:EC; [|rewrite !(bind_lift_raise _ _ _ _ eq_refl); reflexivity]. rewrite !(bind_lift _ _ _ _ eq_refl).
  destruct (write_chunk_at E dg HD z (digest E ck z) f last []) as (l' & [W|W]); [|lia].
  rewrite (bind_run _ _ _ _ _ (onl_run _ _ _ _ _ (onr_run _ (mkfp new np []) _ _ _ W))), (bind_run _ _ _ _ _ (onr_run _ (mkfp new np []) _ _ _ W)). clear W.
  set (y := z ++ digest E ck z). pose proof (zlen_nonneg y) as Y0. cbv zeta. cbn [fst snd].
  assert (KB : k * c <= more + c - 1 < k * c + c).
  { pose proof (Z.div_mod (more + c - 1) c ltac:(lia)). pose proof (Z.mod_pos_bound (more + c - 1) c ltac:(lia)). fold k in H. nia. }
  assert (K1 : 1 <= k) by nia. assert (LC : 1 <= more - (k - 1) * c <= c) by nia. set (lc := more - (k - 1) * c) in *.
  unfold fp_source_steps. set (sizes := chunk_sizes k (Z.min c more) lc).
  assert (SE : sizes = repeat c (Z.to_nat (k - 1)) ++ [lc]).
  { unfold sizes, chunk_sizes, zrep. destruct (Z.le_gt_cases c more) as [X|X]; [rewrite Z.min_l by lia; reflexivity|]. assert (K0 : k = 1) by nia. rewrite K0. reflexivity. }
  set (sk := mkCFS (mkfp (write_at f last y) (last + zlen y) l') 0 h (zrep k (-1))).
  rewrite (append_loop_says k (compress_chunk_str E ba) sizes 0 (mkfp new np []) sk).
  2:{ cbn [sk s_fp fpos]. lia. }
  2:{ exact NP. }
  2:{ rewrite SE. apply Forall_app. split; [apply Forall_forall; intros x I; apply repeat_spec in I; lia|repeat constructor; lia]. }
  2:{ lia. }
  2:{ intros _. cbn [sk s_storage]. rewrite SE. unfold zrep, zlen. rewrite app_length, !repeat_length. cbn [List.length]. lia. }
  2:{ rewrite spoken_level. exact R. }
  cbv zeta. cbn [sk s_header]. change (h_checksum h) with ck. rewrite CI.
  unfold rest. cbn [fdata fpos]. rewrite RS, SE, (reads_pieces E dg HD c rs C1 (Z.to_nat (k - 1)) lc), <- SE.
  2:{ lia. }
  2:{ unfold rs. destruct (Z.ltb_spec room 0); [left; reflexivity|right]. rewrite <- zdrop_skipn, zlen_zdrop, Z2Nat.id by lia. unfold lc, more. lia. }
  replace (S (Z.to_nat (k - 1))) with (Z.to_nat k) by lia. rewrite map_map, spoken_spoken.
  set (rr := pack_loop (compress_chunk_str E ba) (fps_put E) 0 (map f_read sizes) (mkfp new np [], sk)).
  fold sk. fold rr.
  destruct rr as [[nf s] [[]|e]]; cbn [fst snd]; [|reflexivity].
  unfold onl at 1. cbn [fst snd]. match goal with |- (let '(s, r) := ?M in _) = _ => destruct M as [s1 r1] end. reflexivity.
Qed.
Lemma append_told f new oa lg : In (l_level lg) ["NORMAL"; "VERBOSE"; "DEBUG"]%string ->
  d_append E f new oa lg = (fst (append_bytes E f new oa), spoken lg (told_appending E dg f new oa), snd (append_bytes E f new oa)).
Proof. intros L. rewrite (append_says f new oa lg (known_level _ L)). reflexivity. Qed.
End WithEnv.
