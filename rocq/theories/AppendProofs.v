(** What append_fp does to a well-formed file, exactly. *)
From Verif Require Import Base PyVal Checksums Headers Pretty Args FileIO Append Spec BaseLemmas HeaderProofs IOProofs WfProofs PackProofs SmallProofs BytesProofs MetaProofs.
From Coq Require Import ZifyBool ZifyNat.
Ltac Zify.zify_post_hook ::= Z.div_mod_to_equations.

Definition at_pos (p : Z) (f : fp) : fp := mkfp (fdata f) p (flog f).
Lemma f_seek_at {E} p f : 0 <= p -> f_seek E p f = (at_pos p f, Ok tt).
Proof. apply f_seek_ok. Qed.
Lemma put_at_pos x f : 0 <= fpos f -> 0 <= fpos (put_at x f).
Proof. intros. cbn. pose proof (zlen_nonneg x). unfold zlen in *. lia. Qed.

Section WithEnv.
Variable E : Env.
Hypothesis HE : EnvOK E.

(** *** Writing chunks anywhere in a file *)
Lemma write_compressed_chunk_put c ck f : 0 <= fpos f ->
  write_compressed_chunk c (digest E ck c) f = (put_at (stored E ck c) f, Ok tt).
Proof.
  intros H. unfold write_compressed_chunk. rewrite (bind_run _ _ _ _ _ (f_write_put c f)).
  unfold stored. destruct (0 <? zlen (digest E ck c)) eqn:Hd.
  - rewrite f_write_put, put_put by auto. reflexivity.
  - pose proof (zlen_nonneg (digest E ck c)).
    rewrite (zlen_0 (digest E ck c)) by lia. rewrite app_nil_r. reflexivity.
Qed.

Lemma fps_put_put (k : cfs) i c done r : 0 <= fpos (s_fp k) -> i = zlen done ->
  (h_offsets (s_header k) = true -> s_storage k = done ++ (-1) :: r) ->
  fps_put E i c k =
    (mkCFS (put_at (stored E (h_checksum (s_header k)) c) (s_fp k)) (s_meta_total k) (s_header k)
       (if h_offsets (s_header k) then done ++ fpos (s_fp k) :: r else s_storage k), Ok tt).
Proof.
  intros HA -> HS. unfold fps_put.
  rewrite (bind_run _ _ _ k (fpos (s_fp k))) by (destruct k; reflexivity).
  erewrite (bind_run _ _ k).
  2:{ unfold on_fp. rewrite do_checksum_digest by exact HE. rewrite (write_compressed_chunk_put _ _ _ HA). reflexivity. }
  cbn [s_header s_storage s_fp s_meta_total]. destruct (h_offsets (s_header k)); [|reflexivity].
  rewrite HS by auto. unfold zlen. rewrite Nat2Z.id, set_nth_mid. reflexivity.
Qed.

Lemma pack_loop_put {Src Chunk} (compress : Chunk -> res bytes) (steps : list (SM Src Chunk)) :
  forall s chunks s' cs k i done n,
  yields steps s chunks s' -> Forall2 (fun x c => compress x = Ok c) chunks cs ->
  0 <= fpos (s_fp k) -> i = zlen done ->
  (h_offsets (s_header k) = true -> s_storage k = done ++ repeat (-1) (List.length steps + n)) ->
  pack_loop compress (fps_put E) i steps (s, k) =
    ((s', mkCFS (put_at (concat (map (stored E (h_checksum (s_header k))) cs)) (s_fp k))
                (s_meta_total k) (s_header k)
                (if h_offsets (s_header k)
                 then done ++ pos_from (fpos (s_fp k)) (map (stored E (h_checksum (s_header k))) cs) ++ repeat (-1) n
                 else s_storage k)), Ok tt).
Proof.
  induction steps as [|st steps IH]; intros s chunks s' cs k i done n HY HF HA Hi HS;
    destruct chunks as [|x chunks]; cbn [yields] in HY; try tauto.
  - subst s'. inversion HF; subst. cbn [pack_loop map concat pos_from app]. rewrite put_nil. unfold ret.
    destruct (h_offsets (s_header k)) eqn:Ho; destruct k; cbn in *; [|reflexivity]. rewrite HS by auto. reflexivity.
  - destruct HY as (s1 & Hst & HY). inversion HF as [|? c ? cs' Hc HF']; subst. cbn [pack_loop].
    rewrite (bind_run _ _ _ _ _ (onl_run _ _ _ _ _ Hst)).
    rewrite (bind_lift _ _ _ _ Hc).
    cbn [List.length Nat.add repeat] in HS.
    rewrite (bind_run _ _ _ _ _ (onr_run _ _ _ _ _ (fps_put_put k (zlen done) c done _ HA eq_refl HS))).
    set (k1 := mkCFS (put_at _ (s_fp k)) _ _ _).
    rewrite (IH s1 chunks s' cs' k1 (zlen done + 1) (done ++ [fpos (s_fp k)]) n HY HF').
    + unfold k1; cbn [s_fp s_header s_meta_total s_storage]. rewrite put_put by auto. cbn [map concat pos_from].
      destruct (h_offsets (s_header k)); [|reflexivity].
      rewrite <- !app_assoc. cbn [app put_at fpos]. reflexivity.
    + unfold k1; cbn [s_fp]. apply put_at_pos; auto.
    + rewrite zlen_app. reflexivity.
    + unfold k1; cbn [s_header s_storage]. intros Ho. rewrite Ho, <- app_assoc. reflexivity.
Qed.

(** *** The state of an archive *)
Record arch (f : bytes) (h : header) (o : option msect) (cs : list (bytes * bytes)) (tail : bytes)
            (b : bytes) (m : pyval) : Prop := mkArch {
  ar_wf : wf E f h o cs tail;
  ar_sizes : map (fun cx => zlen (snd cx)) cs = chunk_sizes (h_nchunks h) (h_chunk_size h) (h_last_chunk h);
  ar_c : 0 <= h_chunk_size h;
  ar_l : 0 < zlen b -> 0 < h_last_chunk h;
  ar_empty : zlen b = 0 -> h_chunk_size h = 0;
  ar_content : content cs = b;
  ar_meta : osect_val o = m;
  ar_null : is_some o = true -> m <> PNone }.

(** The part of the file before the last chunk, as a function of the header. *)
Definition front (h : header) (o : option msect) (tb : bytes) (cs0 : list (bytes * bytes)) : bytes :=
  header_bytes h ++ osect_bytes E o ++ tb ++ body E (h_checksum h) cs0.

Lemma body_app ck a b : body E ck (a ++ b) = body E ck a ++ body E ck b.
Proof. unfold body. apply concat_app_map. Qed.
Lemma body_one ck cx : body E ck [cx] = stored E ck (fst cx).
Proof. unfold body. cbn. apply app_nil_r. Qed.
Lemma zlen_body_map ck cs : zlen (body E ck cs) = zlen (concat (map (fun cx => stored E ck (fst cx)) cs)).
Proof. reflexivity. Qed.

Lemma arch_split f h o cs tail b m : arch f h o cs tail b m ->
  exists cs0 cl xl, cs = cs0 ++ [(cl, xl)] /\ zlen cs0 = h_nchunks h - 1 /\
    map (fun cx => zlen (snd cx)) cs0 = zrep (h_nchunks h - 1) (h_chunk_size h) /\ zlen xl = h_last_chunk h /\
    e_decompress E cl = Ok xl /\ Forall (chunk_ok E) cs0 /\ 1 <= h_nchunks h /\ 0 <= h_last_chunk h <= h_chunk_size h /\
    h_chunk_size h <= BUFMAX /\ b = content cs0 ++ xl.
Proof.
  intros A. destruct A as [W SZ C L EM CT M NU]. pose proof (wf_n _ _ _ _ _ _ W) as Hn. pose proof (wf_ne _ _ _ _ _ _ W) as Hne.
  pose proof (wf_chunks _ _ _ _ _ _ W) as HC.
  destruct (exists_last (l := cs)) as (cs0 & [cl xl] & ->).
  { intros ->. rewrite zlen_nil in Hne. lia. }
  exists cs0, cl, xl. rewrite zlen_app in Hn, Hne. change (zlen [(cl, xl)]) with 1 in *.
  unfold chunk_sizes in SZ. rewrite map_app in SZ. cbn [map snd] in SZ. apply app_inj_tail in SZ as [S1 S2].
  apply Forall_app in HC as [HC1 HC2]. inversion HC2; subst. 
  destruct (wf_header _ _ _ _ _ _ W) as [_ Hnum]. unfold header_nums_ok in Hnum. pose proof (zlen_nonneg xl). pose proof (zlen_nonneg cs0).
  split; [auto|]. split; [lia|]. split; [auto|]. split; [auto|]. split; [auto|]. split; [auto|]. split; [lia|]. split; [lia|]. split; [lia|].
  unfold content. rewrite map_app, concat_app. cbn. rewrite app_nil_r. reflexivity.
Qed.

Lemma wf_split f h o cs0 cl xl tail : wf E f h o (cs0 ++ [(cl, xl)]) tail ->
  f = front h o (table E h o (cs0 ++ [(cl, xl)])) cs0 ++ stored E (h_checksum h) cl ++ tail /\
  zlen (front h o (table E h o (cs0 ++ [(cl, xl)])) cs0) = body_pos E h o + zlen (body E (h_checksum h) cs0).
Proof.
  intros W. pose proof (zlen_table E _ _ _ _ _ W) as ZT. split.
  - rewrite (wf_bytes _ _ _ _ _ _ W) at 1. unfold front. rewrite body_app, body_one, <- !app_assoc. reflexivity.
  - unfold front. rewrite !zlen_app, ZT, zlen_header_bytes. unfold body_pos. lia.
Qed.

Lemma positions_snoc h o cs0 cl xl : positions E h o (cs0 ++ [(cl, xl)]) =
  positions E h o cs0 ++ [body_pos E h o + zlen (body E (h_checksum h) cs0)].
Proof. unfold positions. rewrite map_app, pos_from_app. reflexivity. Qed.

Lemma body_pos_nonneg f h o cs tail : wf E f h o cs tail -> 32 <= body_pos E h o.
Proof.
  intros W. unfold body_pos, table_len. destruct (wf_header _ _ _ _ _ _ W) as [_ Hnum]. unfold header_nums_ok in Hnum.
  pose proof (wf_n _ _ _ _ _ _ W). pose proof (wf_ne _ _ _ _ _ _ W). pose proof (zlen_nonneg (osect_bytes E o)).
  destruct (h_offsets h); lia.
Qed.

(** The Blosc arguments that append uses. *)
Definition append_bargs (o : obargs) (h : header) : bargs :=
  mkBA (opt (oa_typesize o) (h_typesize h)) (opt (oa_clevel o) 7) (opt (oa_shuffle o) true) (opt (oa_cname o) "blosclz"%string).
Lemma fill_ok o h : header_ok h -> fill_blosc_args o h = Ok (append_bargs o h).
Proof.
  intros [_ Hn]. unfold header_nums_ok in Hn. unfold fill_blosc_args, append_bargs. destruct (oa_typesize o); cbn [rbind opt]; [reflexivity|].
  replace (h_typesize h =? -1) with false by lia. reflexivity.
Qed.

(** The file with header [hd] and table [tb] replaced is a plain concatenation. *)
Lemma offsets_pos_ok f h o cs tail b m offs : arch f h o cs tail b m ->
  offsets_pos (mkBeg h (osect_val o) (option_map ms_h o) offs) = 32 + zlen (osect_bytes E o).
Proof.
  intros A. unfold offsets_pos. cbn [b_meta b_mheader]. unfold BLOSCPACK_HEADER_LENGTH. f_equal.
  pose proof (wf_sect _ _ _ _ _ _ (ar_wf _ _ _ _ _ _ _ A)) as SO. pose proof (ar_null _ _ _ _ _ _ _ A) as NU.
  rewrite <- (ar_meta _ _ _ _ _ _ _ A) in NU.
  destruct o as [s|]; cbn [osect_val osect_bytes option_map is_some] in *; [|reflexivity].
  rewrite (zlen_msect E HE) by exact SO. destruct (ms_val s); try reflexivity. exfalso. apply NU; reflexivity.
Qed.

(** Everything append_fp does before writing. *)
Definition append_tail (new_size : Z) (bg : beginning) (ba : bargs) (last_off : Z) (decompressed : bytes) : SM (fp * fp) Z :=
  let h := b_header bg in
  let ck := h_checksum h in
  let offs := b_offsets bg in
    let to_read := h_chunk_size h - zlen decompressed in
    if new_size <=? to_read then
      fill_up <- onl (f_read new_size) ;;
      onr (f_seek E last_off) ;;;
      c <- lift (compress_chunk_str E ba (decompressed ++ fill_up)) ;;
      onr (write_compressed_chunk c (digest E ck c)) ;;;
      raw <- lift (header_encode (set_counts h (h_last_chunk h + new_size) (h_nchunks h) (h_max_app h))) ;;
      onr (f_seek E 0) ;;;
      onr (f_write raw) ;;;
      ret 0
    else
      let new_new_size := new_size - to_read in
      fill_up <- onl (f_read to_read) ;;
      ncl <- lift (calculate_nchunks new_new_size (CSInt (h_chunk_size h))) ;;
      let '(nchunks, chunk_size, last_chunk) := ncl in
      if h_max_app h <? nchunks then raise NotEnoughSpace
      else
        onr (f_seek E last_off) ;;;
        c <- lift (compress_chunk_str E ba (decompressed ++ fill_up)) ;;
        onr (write_compressed_chunk c (digest E ck c)) ;;;
        (fun st =>
           let sink := mkCFS (snd st) 0 h (zrep nchunks (-1)) in
           match pack_loop (compress_chunk_str E ba) (fps_put E) 0
                           (fp_source_steps nchunks chunk_size last_chunk) (fst st, sink) with
           | ((nf, s), Raise e) => ((nf, s_fp s), Raise e)
           | ((nf, s), Ok _) =>
               (raw <- lift (header_encode (set_counts h last_chunk (h_nchunks h + nchunks)
                                                       (h_max_app h - nchunks))) ;;
                onr (f_seek E 0) ;;;
                onr (f_write raw) ;;;
                onr (f_seek E (offsets_pos bg)) ;;;
                onr (write_offsets (offs ++ s_storage s)) ;;;
                ret nchunks) (nf, s_fp s)
           end).

Lemma append_start f h o cs0 cl xl tail b m new_size oa nf :
  arch f h o (cs0 ++ [(cl, xl)]) tail b m -> h_offsets h = true ->
  exists q, append_fp E new_size oa (nf, fp_of f) =
    append_tail new_size (mkBeg h m (option_map ms_h o) (positions E h o (cs0 ++ [(cl, xl)]))) (append_bargs oa h)
      (body_pos E h o + zlen (body E (h_checksum h) cs0)) xl (nf, mkfp f q []) .
Proof.
  intros A Ho. pose proof (ar_wf _ _ _ _ _ _ _ A) as W.
  destruct (read_beginning_wf E HE _ _ _ _ _ W) as [RB _]. rewrite Ho, (ar_meta _ _ _ _ _ _ _ A) in RB.
  destruct (wf_split _ _ _ _ _ _ _ W) as [WS ZF].
  pose proof (body_pos_nonneg _ _ _ _ _ W) as BP. pose proof (zlen_nonneg (body E (h_checksum h) cs0)) as NB.
  set (lo := body_pos E h o + zlen (body E (h_checksum h) cs0)) in *.
  unfold append_fp. rewrite (bind_run _ _ _ _ _ (onr_run _ nf _ _ _ RB)). cbn [b_offsets b_header].
  rewrite positions_snoc. fold lo. destruct (positions E h o cs0 ++ [lo]) as [|o0 os] eqn:EP.
  { destruct (positions E h o cs0); discriminate. }
  assert (LAST : List.last (o0 :: os) 0 = lo) by (rewrite <- EP; apply last_last).
  rewrite LAST.
  rewrite (bind_lift _ _ _ _ (fill_ok oa h (wf_header _ _ _ _ _ _ W))).
  rewrite (bind_run _ _ _ _ _ (onr_run _ nf _ _ _ (f_seek_at lo _ ltac:(lia)))).
  assert (CO : e_decompress E cl = Ok xl).
  { pose proof (wf_chunks _ _ _ _ _ _ W) as HC. apply Forall_app in HC as [_ HC]. inversion HC; subst. auto. }
  destruct (chunk_ok_len E HE _ _ CO) as [L16 U12].
  set (f1 := at_pos lo (adv (body_pos E h o) (fp_of f))).
  assert (R1 : rest f1 = stored E (h_checksum h) cl ++ tail).
  { unfold rest, f1, at_pos. cbn [fpos fdata adv fp_of]. rewrite WS at 1. apply zdrop_app_exact. lia. }
  destruct (chunk_here_ok E HE (h_checksum h) cl tail L16 U12) as (CH & _ & _).
  destruct (read_chunk_spec E (h_checksum h) f1) as (bh & n & RC & _).
  { unfold f1, at_pos; cbn. lia. }
  { rewrite R1, zlen_app, (zlen_stored E HE). pose proof (zlen_nonneg tail). pose proof (cks_size_nonneg (h_checksum h)). lia. }
  rewrite (bind_run _ _ _ _ _ (onr_run _ nf _ _ _ RC)). cbn [fst snd]. rewrite R1, CH.
  rewrite (bind_lift _ _ _ _ CO).
  exists (fpos (adv n f1)). reflexivity.
Qed.

Lemma append_no_offsets f h o cs tail b m new_size oa nf : arch f h o cs tail b m -> h_offsets h = false ->
  append_fp E new_size oa (nf, fp_of f) = ((nf, adv (body_pos E h o) (fp_of f)), Raise RuntimeError).
Proof.
  intros A Ho. pose proof (ar_wf _ _ _ _ _ _ _ A) as W.
  destruct (read_beginning_wf E HE _ _ _ _ _ W) as [RB _]. rewrite Ho in RB.
  unfold append_fp. rewrite (bind_run _ _ _ _ _ (onr_run _ nf _ _ _ RB)). reflexivity.
Qed.

(** The file after the writes of a successful append, as an object. *)
Definition squeezed (h : header) (new_size lo : Z) (c : bytes) (f : bytes) : fp :=
  put_at (header_bytes (set_counts h (h_last_chunk h + new_size) (h_nchunks h) (h_max_app h)))
    (at_pos 0 (put_at (stored E (h_checksum h) c) (mkfp f lo []))).
Definition extended (h : header) (k last lo opos : Z) (c : bytes) (cs : list bytes) (ps : list Z) (f : bytes) : fp :=
  put_at (words ps)
   (at_pos opos (put_at (header_bytes (set_counts h last (h_nchunks h + k) (h_max_app h - k)))
    (at_pos 0 (put_at (concat (map (stored E (h_checksum h)) (c :: cs))) (mkfp f lo []))))).

Lemma append_squeeze f h o cs0 cl xl tail b m oa new nf :
  arch f h o (cs0 ++ [(cl, xl)]) tail b m -> h_offsets h = true -> 0 <= fpos nf -> rest nf = new ->
  zlen new <= h_chunk_size h - h_last_chunk h ->
  let lo := body_pos E h o + zlen (body E (h_checksum h) cs0) in
  exists nf' q, append_fp E (zlen new) oa (nf, fp_of f) =
    match e_compress E (append_bargs oa h) (xl ++ new) with
    | Ok c => ((nf', squeezed h (zlen new) lo c f), Ok 0)
    | Raise e => ((nf', mkfp f q []), Raise e)
    end.
Proof.
  intros A Ho Hnf HR Hfit lo. pose proof (ar_wf _ _ _ _ _ _ _ A) as W.
  destruct (arch_split _ _ _ _ _ _ _ A) as (cs0' & cl' & xl' & EQ & LN & SZ & LX & CO & HC & N1 & L1 & CB & BC).
  apply app_inj_tail in EQ as [<- EQ]. injection EQ as <- <-.
  destruct (append_start _ _ _ _ _ _ _ _ _ (zlen new) oa nf A Ho) as (q & ->). fold lo.
  unfold append_tail. cbn [b_header]. rewrite LX. replace (zlen new <=? h_chunk_size h - h_last_chunk h) with true by lia.
  pose proof (body_pos_nonneg _ _ _ _ _ W) as BP. pose proof (zlen_nonneg (body E (h_checksum h) cs0)) as NB.
  pose proof (f_read_gen (zlen new) nf (zlen_nonneg new)) as FR. rewrite HR, ztake_all in FR by lia.
  exists (adv (zlen new) nf), lo.
  rewrite (bind_run _ _ _ _ _ (onl_run _ _ _ _ _ FR)).
  rewrite (bind_run _ _ _ _ _ (onr_run _ _ _ _ _ (f_seek_at lo _ ltac:(lia)))).
  unfold compress_chunk_str. destruct (e_compress E (append_bargs oa h) (xl ++ new)) as [c|e] eqn:EC.
  2:{ rewrite (bind_lift_raise _ _ _ _ eq_refl). reflexivity. }
  rewrite (bind_lift _ _ _ _ eq_refl).
  erewrite bind_run; [|apply onr_run; apply write_compressed_chunk_put; cbn [at_pos fpos]; lia].
  assert (HO : header_ok (set_counts h (h_last_chunk h + zlen new) (h_nchunks h) (h_max_app h))).
  { destruct (wf_header _ _ _ _ _ _ W) as [Hv Hn]. unfold header_ok, header_nums_ok in *. cbn [set_counts h_version h_typesize h_chunk_size h_last_chunk h_nchunks h_max_app].
    pose proof (zlen_nonneg new). repeat split; try tauto; lia. }
  rewrite (bind_lift _ _ _ _ (header_encode_ok _ HO)).
  rewrite (bind_run _ _ _ _ _ (onr_run _ _ _ _ _ (f_seek_at 0 _ ltac:(lia)))).
  rewrite (bind_run _ _ _ _ _ (onr_run _ _ _ _ _ (f_write_put _ _))).
  reflexivity.
Qed.

(** The chunks of what is appended, cut to fill the last chunk first. *)
Lemma append_extend f h o cs0 cl xl tail b m oa new nf :
  arch f h o (cs0 ++ [(cl, xl)]) tail b m -> h_offsets h = true -> 0 <= fpos nf -> rest nf = new ->
  h_chunk_size h - h_last_chunk h < zlen new ->
  zlen f + 81 * zlen new + 2 ^ 32 <= 2 ^ 63 - 1 + 64 ->
  let lo := body_pos E h o + zlen (body E (h_checksum h) cs0) in
  let room := h_chunk_size h - h_last_chunk h in
  exists nf' q, let g := (nf', mkfp f q []) in
    match calculate_nchunks (zlen new - room) (CSInt (h_chunk_size h)) with
    | Raise e => append_fp E (zlen new) oa (nf, fp_of f) = (g, Raise e)
    | Ok (k, c1, l1) =>
        if h_max_app h <? k then append_fp E (zlen new) oa (nf, fp_of f) = (g, Raise NotEnoughSpace)
        else match e_compress E (append_bargs oa h) (xl ++ ztake room new) with
        | Raise e => append_fp E (zlen new) oa (nf, fp_of f) = (g, Raise e)
        | Ok c => exists cs, Forall2 (fun x y => e_compress E (append_bargs oa h) x = Ok y) (takes (chunk_sizes k c1 l1) (zdrop room new)) cs /\
            let ps := positions E h o cs0 ++ pos_from lo (map (stored E (h_checksum h)) (c :: cs)) in
            Forall fits64 ps /\
            append_fp E (zlen new) oa (nf, fp_of f) =
             ((nf', extended h k l1 lo (32 + zlen (osect_bytes E o)) c cs ps f), Ok k)
        end
    end.
Proof.
  intros A Ho Hnf HR Hfit Hbig lo room. pose proof (ar_wf _ _ _ _ _ _ _ A) as W.
  destruct (arch_split _ _ _ _ _ _ _ A) as (cs0' & cl' & xl' & EQ & LN & SZ & LX & CO & HC & N1 & L1 & CB & BC).
  apply app_inj_tail in EQ as [<- EQ]. injection EQ as <- <-.
  destruct (append_start _ _ _ _ _ _ _ _ _ (zlen new) oa nf A Ho) as (q & ->). fold lo.
  unfold append_tail. cbn [b_header]. rewrite LX. fold room. replace (zlen new <=? room) with false by lia.
  pose proof (body_pos_nonneg _ _ _ _ _ W) as BP. pose proof (zlen_nonneg (body E (h_checksum h) cs0)) as NB.
  pose proof (f_read_gen room nf ltac:(lia)) as FR. rewrite HR in FR.
  assert (LR : zlen (ztake room new) = room) by (rewrite zlen_ztake; lia). rewrite LR in FR.
  set (nf1 := adv room nf) in *.
  assert (R1 : rest nf1 = zdrop room new) by (unfold nf1; rewrite rest_adv, HR by lia; reflexivity).
  rewrite (bind_run _ _ _ _ _ (onl_run _ _ _ _ _ FR)).
  destruct (calculate_nchunks (zlen new - room) (CSInt (h_chunk_size h))) as [[[k c1] l1]|e] eqn:EN.
  2:{ exists nf1, q. rewrite (bind_lift_raise _ _ _ _ eq_refl). reflexivity. }
  rewrite (bind_lift _ _ _ _ eq_refl).
  destruct (h_max_app h <? k) eqn:HK; [exists nf1, q; reflexivity|].
  rewrite (bind_run _ _ _ _ _ (onr_run _ _ _ _ _ (f_seek_at lo _ ltac:(lia)))).
  unfold compress_chunk_str. destruct (e_compress E (append_bargs oa h) (xl ++ ztake room new)) as [c|e] eqn:EC.
  2:{ exists nf1, lo. rewrite (bind_lift_raise _ _ _ _ eq_refl). reflexivity. }
  rewrite (bind_lift _ _ _ _ eq_refl).
  erewrite bind_run; [|apply onr_run; apply write_compressed_chunk_put; cbn [at_pos fpos]; lia].
  pose proof (calculate_partition (zlen new - room) (CSInt (h_chunk_size h)) k c1 l1 ltac:(lia) EN) as CP.
  destruct (fp_source_yields (chunk_sizes k c1 l1) nf1) as (nf' & HY).
  { apply chunk_sizes_nonneg; lia. }
  { unfold nf1. rewrite fpos_adv. lia. }
  rewrite R1 in HY. exists nf', 0.
  destruct (compress_all E HE (append_bargs oa h) (takes (chunk_sizes k c1 l1) (zdrop room new))) as (cs & HF & HL).
  { apply (ok_compress_only E HE) in EC. tauto. }
  { assert (FB : Forall (fun z => z <= BUFMAX) (chunk_sizes k c1 l1)).
    { unfold chunk_sizes. apply Forall_app. split; [|repeat constructor; lia].
      unfold zrep. apply Forall_forall. intros z Hz. apply repeat_spec in Hz. lia. }
    rewrite <- (takes_sizes (chunk_sizes k c1 l1) (zdrop room new)) in FB.
    - rewrite Forall_map in FB. exact FB.
    - apply chunk_sizes_nonneg; lia.
    - rewrite zsum_chunk_sizes by lia. rewrite zlen_zdrop. lia. }
  exists cs. split; [exact HF|].
  set (ck := h_checksum h) in *.
  set (ps := positions E h o cs0 ++ pos_from lo (map (stored E ck) (c :: cs))). cbv zeta.
  assert (LCS : zlen cs = k).
  { apply F2_length in HF. rewrite takes_length in HF. pose proof (zlen_chunk_sizes k c1 l1 ltac:(lia)). unfold zlen in *. lia. }
  assert (FIT : Forall fits64 ps).
  { unfold ps. apply Forall_app. split.
    - pose proof (wf_fits _ _ _ _ _ _ W Ho) as FF. rewrite positions_snoc in FF. apply Forall_app in FF. tauto.
    - apply fits_pos_from; [lia|]. rewrite (zlen_stored_all E HE). cbn [concat]. rewrite zlen_app, zlen_cons.
      apply (ok_compress_size E HE) in EC as [EC _]. change (size) with (@zlen byte) in EC. unfold bytes in *. rewrite zlen_app, LR in EC.
      rewrite (concat_takes _ _ (chunk_sizes_nonneg k c1 l1 ltac:(lia) ltac:(lia))) in HL.
      rewrite zsum_chunk_sizes, zlen_ztake, zlen_zdrop in HL by lia.
      assert (TL : zlen (takes (chunk_sizes k c1 l1) (zdrop room new)) = k).
      { unfold zlen. rewrite takes_length. apply zlen_chunk_sizes. lia. }
      destruct (wf_split _ _ _ _ _ _ _ W) as [WS ZF]. fold ck in WS, ZF. fold lo in ZF.
      assert (LF : lo <= zlen f).
      { rewrite WS, zlen_app, ZF. match goal with |- _ <= _ + zlen ?x => pose proof (zlen_nonneg x) end. lia. }
      pose proof (cks_size_le ck) as CK. pose proof (cks_size_nonneg ck).
      assert (cks_size ck * (1 + zlen cs) <= 64 * (1 + k)) by (rewrite LCS; apply Z.mul_le_mono_nonneg_r; lia).
      assert (k <= zlen new).
      { assert ((k - 1) * 1 <= (k - 1) * c1) by (apply Z.mul_le_mono_nonneg_l; lia). lia. }
      change (2 ^ 63 - 1) with 9223372036854775807 in *. change (2 ^ 32) with 4294967296 in *.
      unfold BUFMAX in *. clear CP EN HY HF SZ HC BC FR. unfold bytes in *. lia. }
  split; [exact FIT|].
  change (onr (write_compressed_chunk c (digest E ck c))) with (onr (S := fp) (write_compressed_chunk c (digest E ck c))).
  cbn [fst snd]. set (f2 := put_at (stored E ck c) (at_pos lo (mkfp f q []))).
  set (k2 := mkCFS f2 0 h (zrep k (-1))).
  assert (P2 : 0 <= fpos f2) by (apply put_at_pos; cbn; lia).
  unfold fp_source_steps. cbv beta.
  rewrite (pack_loop_put (fun chunk : bytes => e_compress E (append_bargs oa h) chunk) _ nf1 _ nf' cs k2 0 [] 0 HY HF P2 eq_refl).
  2:{ intros _. cbn [k2 s_storage app]. unfold zrep. f_equal. rewrite map_length. pose proof (zlen_chunk_sizes k c1 l1 ltac:(lia)). unfold zlen in *. lia. }
  cbn [s_fp s_header k2 s_storage]. rewrite Ho. cbn [app].
  assert (HO : header_ok (set_counts h l1 (h_nchunks h + k) (h_max_app h - k))).
  { destruct (wf_header _ _ _ _ _ _ W) as [Hv Hn]. unfold header_ok, header_nums_ok in *. cbn [set_counts h_version h_typesize h_chunk_size h_last_chunk h_nchunks h_max_app].
    destruct CP as (P1 & P2' & P3 & P4 & P5 & P6 & P7 & _). destruct (P7 ltac:(lia)) as (Q1 & Q2 & z & Qz & Qc). cbn in Qz. subst z.
    repeat split; try tauto; lia. }
  rewrite (bind_lift _ _ _ _ (header_encode_ok _ HO)).
  rewrite (bind_run _ _ _ _ _ (onr_run _ _ _ _ _ (f_seek_at 0 _ ltac:(lia)))).
  rewrite (bind_run _ _ _ _ _ (onr_run _ _ _ _ _ (f_write_put _ _))).
  rewrite <- (ar_meta _ _ _ _ _ _ _ A), (offsets_pos_ok _ _ _ _ _ _ _ _ A).
  pose proof (zlen_nonneg (osect_bytes E o)) as NO.
  rewrite (bind_run _ _ _ _ _ (onr_run _ _ _ _ _ (f_seek_at (32 + zlen (osect_bytes E o)) _ ltac:(lia)))).
  assert (PS : positions E h o (cs0 ++ [(cl, xl)]) ++ pos_from (fpos f2) (map (stored E ck) cs) ++ repeat (-1) 0 = ps).
  { rewrite positions_snoc. unfold ps. cbn [repeat map pos_from]. rewrite app_nil_r, <- app_assoc. reflexivity. }
  cbn [b_offsets]. fold ck. rewrite PS.
  unfold write_offsets.
  erewrite bind_run; [reflexivity|]. apply onr_run. rewrite (bind_lift _ _ _ _ (encode_offsets_words _ FIT)).
  unfold extended. fold ck. cbn [map concat]. rewrite f_write_put.
  unfold f2. rewrite put_put by (cbn; lia). reflexivity.
Qed.

(** *** The file afterwards *)
Lemma zrep_add {A} (x : A) a b : 0 <= a -> 0 <= b -> zrep (a + b) x = zrep a x ++ zrep b x.
Proof. intros. unfold zrep. rewrite Z2Nat.inj_add by lia. apply repeat_app. Qed.

(** What the file looks like once the last chunk is replaced by the chunks cs'. *)
Definition relaid (h' : header) (o : option msect) (cs0 cs' : list (bytes * bytes)) (old_end : bytes) : bytes :=
  header_bytes h' ++ osect_bytes E o ++ table E h' o (cs0 ++ cs') ++ body E (h_checksum h') (cs0 ++ cs') ++
  zdrop (zlen (body E (h_checksum h') cs')) old_end.

Lemma body_pos_counts h o l k : body_pos E (set_counts h l (h_nchunks h + k) (h_max_app h - k)) o = body_pos E h o.
Proof. unfold body_pos, table_len. cbn [set_counts h_offsets h_nchunks h_max_app]. destruct (h_offsets h); f_equal; lia. Qed.

Lemma relaid_positions h o l k cs0 cs' :
  positions E (set_counts h l (h_nchunks h + k) (h_max_app h - k)) o (cs0 ++ cs') =
  positions E h o cs0 ++ pos_from (body_pos E h o + zlen (body E (h_checksum h) cs0)) (map (fun cx => stored E (h_checksum h) (fst cx)) cs').
Proof.
  unfold positions. rewrite body_pos_counts, map_app, pos_from_app. reflexivity.
Qed.

Lemma body_stored ck cs' : body E ck cs' = concat (map (stored E ck) (map fst cs')).
Proof. unfold body. rewrite map_map. reflexivity. Qed.

Lemma write_front a a' x d : zlen a = zlen a' -> d = a ++ x -> write_at d 0 a' = a' ++ x.
Proof. intros H ->. exact (write_at_mid [] a a' x H). Qed.

Lemma extended_data_at f h o cs0 cl xl tail l k cs' R : wf E f h o (cs0 ++ [(cl, xl)]) tail -> h_offsets h = true ->
  0 <= k <= h_max_app h -> zlen cs' = k + 1 ->
  let lo := body_pos E h o + zlen (body E (h_checksum h) cs0) in
  let h' := set_counts h l (h_nchunks h + k) (h_max_app h - k) in
  write_at (write_at (write_at (front h o (table E h o (cs0 ++ [(cl, xl)])) cs0 ++ R) lo (body E (h_checksum h) cs')) 0 (header_bytes h')) (32 + zlen (osect_bytes E o))
    (words (positions E h' o (cs0 ++ cs'))) = relaid h' o cs0 cs' R.
Proof.
  intros W Ho Hk Hc lo h'. destruct (wf_split _ _ _ _ _ _ _ W) as [WS ZF]. fold lo in ZF.
  rewrite <- ZF, write_at_tail.
  set (E1 := zdrop _ _). unfold front. rewrite <- !app_assoc.
  erewrite write_front; [|rewrite !zlen_header_bytes; reflexivity|reflexivity].
  unfold table at 1. rewrite Ho. 
  assert (HM : words (zrep (h_max_app h) (-1)) = words (zrep k (-1)) ++ words (zrep (h_max_app h - k) (-1))).
  { rewrite <- words_app, <- zrep_add by lia. do 2 f_equal. lia. }
  rewrite HM. unfold relaid. replace (h_checksum h') with (h_checksum h) by reflexivity. rewrite body_app. fold E1.
  unfold table. replace (h_offsets h') with true by (symmetry; exact Ho).
  replace (h_max_app h') with (h_max_app h - k) by reflexivity. rewrite <- !app_assoc.
  rewrite (app_assoc (header_bytes h') (osect_bytes E o)), (app_assoc (header_bytes h') (osect_bytes E o)).
  rewrite (app_assoc (words (positions E h o (cs0 ++ [(cl, xl)]))) (words (zrep k (-1)))).
  replace (32 + zlen (osect_bytes E o)) with (zlen (header_bytes h' ++ osect_bytes E o)) by (rewrite zlen_app, zlen_header_bytes; lia).
  apply write_at_mid. rewrite zlen_app, !zlen_words, !zlen_positions, zlen_zrep, !zlen_app, Hc. change (zlen [(cl, xl)]) with 1. lia.
Qed.

Lemma extended_data f h o cs0 cl xl tail l k cs' : wf E f h o (cs0 ++ [(cl, xl)]) tail -> h_offsets h = true ->
  0 <= k <= h_max_app h -> zlen cs' = k + 1 ->
  let lo := body_pos E h o + zlen (body E (h_checksum h) cs0) in
  let h' := set_counts h l (h_nchunks h + k) (h_max_app h - k) in
  write_at (write_at (write_at f lo (body E (h_checksum h) cs')) 0 (header_bytes h')) (32 + zlen (osect_bytes E o))
    (words (positions E h' o (cs0 ++ cs'))) = relaid h' o cs0 cs' (stored E (h_checksum h) cl ++ tail).
Proof.
  intros W Ho Hk Hc lo h'. rewrite (proj1 (wf_split _ _ _ _ _ _ _ W)) at 1. exact (extended_data_at f h o cs0 cl xl tail l k cs' _ W Ho Hk Hc).
Qed.

Lemma squeezed_data_at f h o cs0 cl xl tail l cx R : wf E f h o (cs0 ++ [(cl, xl)]) tail ->
  let lo := body_pos E h o + zlen (body E (h_checksum h) cs0) in
  let h' := set_counts h l (h_nchunks h) (h_max_app h) in
  write_at (write_at (front h o (table E h o (cs0 ++ [(cl, xl)])) cs0 ++ R) lo (body E (h_checksum h) [cx])) 0 (header_bytes h') = relaid h' o cs0 [cx] R.
Proof.
  intros W lo h'. destruct (wf_split _ _ _ _ _ _ _ W) as [WS ZF]. fold lo in ZF.
  rewrite <- ZF, write_at_tail.
  set (E1 := zdrop _ _). unfold front. rewrite <- !app_assoc.
  erewrite write_front; [|rewrite !zlen_header_bytes; reflexivity|reflexivity].
  unfold relaid. replace (h_checksum h') with (h_checksum h) by reflexivity. rewrite body_app. fold E1. rewrite <- !app_assoc.
  unfold table. replace (h_offsets h') with (h_offsets h) by reflexivity. 
  unfold positions. rewrite !map_app, !pos_from_app. cbn [map pos_from].
  replace (body_pos E h' o) with (body_pos E h o) by reflexivity. replace (h_checksum h') with (h_checksum h) by reflexivity.
  reflexivity.
Qed.

Lemma squeezed_data f h o cs0 cl xl tail l cx : wf E f h o (cs0 ++ [(cl, xl)]) tail ->
  let lo := body_pos E h o + zlen (body E (h_checksum h) cs0) in
  let h' := set_counts h l (h_nchunks h) (h_max_app h) in
  write_at (write_at f lo (body E (h_checksum h) [cx])) 0 (header_bytes h') = relaid h' o cs0 [cx] (stored E (h_checksum h) cl ++ tail).
Proof.
  intros W lo h'. rewrite (proj1 (wf_split _ _ _ _ _ _ _ W)) at 1. exact (squeezed_data_at f h o cs0 cl xl tail l cx _ W).
Qed.

Lemma relaid_wf_at f h o cs0 cl xl tail l k cs' R : wf E f h o (cs0 ++ [(cl, xl)]) tail ->
  let h' := set_counts h l (h_nchunks h + k) (h_max_app h - k) in
  header_ok h' -> zlen cs' = k + 1 -> 0 <= k -> Forall (chunk_ok E) cs' ->
  (h_offsets h = true -> Forall fits64 (positions E h' o (cs0 ++ cs'))) ->
  wf E (relaid h' o cs0 cs' R) h' o (cs0 ++ cs')
     (zdrop (zlen (body E (h_checksum h) cs')) R).
Proof.
  intros W h' HO Hl Hk HC HF. destruct W as [W1 W2 W3 W4 W5 W6 W7 W8 W9].
  rewrite zlen_app in W5, W6. change (zlen [(cl, xl)]) with 1 in *. apply Forall_app in W7 as [W7 _].
  constructor; auto.
  - cbn [set_counts h_nchunks h']. rewrite zlen_app. lia.
  - rewrite zlen_app. pose proof (zlen_nonneg cs0). lia.
  - apply Forall_app; auto.
Qed.

Lemma relaid_wf f h o cs0 cl xl tail l k cs' : wf E f h o (cs0 ++ [(cl, xl)]) tail ->
  let h' := set_counts h l (h_nchunks h + k) (h_max_app h - k) in
  header_ok h' -> zlen cs' = k + 1 -> 0 <= k -> Forall (chunk_ok E) cs' ->
  (h_offsets h = true -> Forall fits64 (positions E h' o (cs0 ++ cs'))) ->
  wf E (relaid h' o cs0 cs' (stored E (h_checksum h) cl ++ tail)) h' o (cs0 ++ cs')
     (zdrop (zlen (body E (h_checksum h) cs')) (stored E (h_checksum h) cl ++ tail)).
Proof. intros W h' HO Hl Hk HC HF. exact (relaid_wf_at f h o cs0 cl xl tail l k cs' _ W HO Hl Hk HC HF). Qed.

Lemma set_counts_id_k h l : set_counts h l (h_nchunks h + 0) (h_max_app h - 0) = set_counts h l (h_nchunks h) (h_max_app h).
Proof. rewrite Z.add_0_r, Z.sub_0_r. reflexivity. Qed.

(** The outcome of an append in terms of archives. *)
Definition bad_append (h : header) (oa : obargs) (b new : bytes) (e : exn) : Prop :=
  (h_offsets h = false /\ e = RuntimeError) \/
  (h_offsets h = true /\ ~ blosc_args_ok E (append_bargs oa h) /\ (b <> [] \/ new = []) /\
   zlen new - (h_chunk_size h - h_last_chunk h) <= h_max_app h * h_chunk_size h) \/
  (h_offsets h = true /\ b = [] /\ new <> [] /\ e = ValueError) \/
  (h_offsets h = true /\ b <> [] /\ e = NotEnoughSpace /\
   h_max_app h * h_chunk_size h < zlen new - (h_chunk_size h - h_last_chunk h)).

Lemma sum_const c n (ls : list bytes) : 0 <= n -> map zlen ls = repeat c (Z.to_nat n) -> n * c = zlen (concat ls).
Proof.
  intros Hn EQ. rewrite <- (Z2Nat.id n Hn). revert EQ. generalize (Z.to_nat n). clear. intros n. revert n.
  induction ls as [|x ls IH]; intros [|n] EQ; [reflexivity|discriminate|discriminate|].
  cbn [map repeat] in EQ. injection EQ as E1 E2. cbn [concat]. rewrite zlen_app, <- (IH n E2). lia.
Qed.
Lemma sizes_bound f h o cs tail b m : arch f h o cs tail b m ->
  (h_nchunks h - 1) * h_chunk_size h + h_last_chunk h = zlen b.
Proof.
  intros A. destruct (arch_split _ _ _ _ _ _ _ A) as (cs0 & cl & xl & -> & LN & SZ & LX & CO & HC & N1 & L1 & CB & BC).
  subst b. rewrite zlen_app, LX. f_equal. unfold content.
  rewrite <- (map_map snd zlen) in SZ. unfold zrep in SZ.
  apply sum_const; auto. lia.
Qed.

Lemma append_outcome_full f h o cs tail b m oa new nf : arch f h o cs tail b m ->
  0 <= fpos nf -> rest nf = new -> zlen f + 81 * zlen new + 2 ^ 32 <= 2 ^ 63 - 1 + 64 ->
  (exists nf' q e, append_fp E (zlen new) oa (nf, fp_of f) = ((nf', mkfp f q []), Raise e) /\ bad_append h oa b new e)
  \/
  (h_offsets h = true /\ blosc_args_ok E (append_bargs oa h) /\
   exists nf' k l cs0 cl xl (cs1 : list (bytes * bytes)), cs = cs0 ++ [(cl, xl)] /\
    let h' := set_counts h l (h_nchunks h + k) (h_max_app h - k) in
    let lo := body_pos E h o + zlen (body E (h_checksum h) cs0) in
    0 <= k <= h_max_app h /\ zlen cs1 = k + 1 /\ concat (map snd cs1) = xl ++ new /\
    (k = 0 -> zlen new <= h_chunk_size h - h_last_chunk h) /\
    (0 < k -> h_chunk_size h - h_last_chunk h < zlen new /\ 0 < h_chunk_size h /\ (k - 1) * h_chunk_size h + l = zlen new - (h_chunk_size h - h_last_chunk h) /\ 0 < l <= h_chunk_size h) /\
    let f' := relaid h' o cs0 cs1 (stored E (h_checksum h) cl ++ tail) in
    append_fp E (zlen new) oa (nf, fp_of f) = ((nf', 
       let f1 := put_at (header_bytes h') (at_pos 0 (put_at (body E (h_checksum h) cs1) (mkfp f lo []))) in
       if k =? 0 then f1 else put_at (words (positions E h' o (cs0 ++ cs1))) (at_pos (32 + zlen (osect_bytes E o)) f1)), Ok k) /\
    fdata (snd (fst (append_fp E (zlen new) oa (nf, fp_of f)))) = f' /\
    arch f' h' o (cs0 ++ cs1) (zdrop (zlen (body E (h_checksum h) cs1)) (stored E (h_checksum h) cl ++ tail)) (b ++ new) m /\
    Forall (fun cx => e_compress E (append_bargs oa h) (snd cx) = Ok (fst cx)) cs1).
Proof.
  intros A Hp HR Hbig. pose proof (ar_wf _ _ _ _ _ _ _ A) as W. pose proof (sizes_bound _ _ _ _ _ _ _ A) as SB.
  destruct (h_offsets h) eqn:Ho.
  2:{ left. rewrite (append_no_offsets _ _ _ _ _ _ _ (zlen new) oa nf A Ho). do 3 eexists. split; [reflexivity|]. left. auto. }
  destruct (arch_split _ _ _ _ _ _ _ A) as (cs0 & cl & xl & EQ & LN & SZ & LX & CO & HC & N1 & L1 & CB & BC). subst cs.
  pose proof (wf_fits _ _ _ _ _ _ W Ho) as FIT0. rewrite positions_snoc in FIT0. 
  destruct (Z.le_gt_cases (zlen new) (h_chunk_size h - h_last_chunk h)) as [Hs|Hs].
  - destruct (append_squeeze _ _ _ _ _ _ _ _ _ oa new nf A Ho Hp HR Hs) as (nf' & q & RUN).
    destruct (e_compress E (append_bargs oa h) (xl ++ new)) as [c|e] eqn:EC.
    2:{ left. do 3 eexists. split; [exact RUN|]. right. left. split; [auto|].
        split; [|split;
          [destruct (Z.eq_dec (zlen b) 0) as [B0|B0];
            [right; apply zlen_0; pose proof (ar_empty _ _ _ _ _ _ _ A B0); pose proof (zlen_nonneg new); lia
            |left; intros ->; apply B0; reflexivity]
          |destruct (wf_header _ _ _ _ _ _ W) as [_ Hn]; unfold header_nums_ok in Hn;
           assert (0 <= h_max_app h * h_chunk_size h) by (apply Z.mul_nonneg_nonneg; lia); lia]].
        intros OK.
        destruct (ok_compress_total E HE _ (xl ++ new) OK) as [c EC']; [|congruence].
        change size with (@zlen byte). unfold bytes in *. rewrite zlen_app. lia. }
    right. split; [auto|]. split; [apply (ok_compress_only E HE) in EC; tauto|].
    exists nf', 0, (h_last_chunk h + zlen new), cs0, cl, xl, [(c, xl ++ new)]. split; [auto|]. cbv zeta.
    rewrite set_counts_id_k. split; [destruct (wf_header _ _ _ _ _ _ W) as [_ Hn]; unfold header_nums_ok in Hn; lia|].
    split; [reflexivity|]. split; [cbn; rewrite app_nil_r; reflexivity|]. split; [lia|]. split; [lia|].
    cbn [Z.eqb]. unfold squeezed in RUN. replace (stored E (h_checksum h) c) with (body E (h_checksum h) [(c, xl ++ new)]) in RUN by apply (body_one (h_checksum h) (c, xl ++ new)).
    split; [exact RUN|]. rewrite RUN.
    assert (DATA := squeezed_data f h o cs0 cl xl tail (h_last_chunk h + zlen new) (c, xl ++ new) W). cbv zeta in DATA.
    split; [exact DATA|].
    assert (W' : wf E (relaid (set_counts h (h_last_chunk h + zlen new) (h_nchunks h) (h_max_app h)) o cs0 [(c, xl ++ new)]
          (stored E (h_checksum h) cl ++ tail)) (set_counts h (h_last_chunk h + zlen new) (h_nchunks h) (h_max_app h)) o
         (cs0 ++ [(c, xl ++ new)]) (zdrop (zlen (body E (h_checksum h) [(c, xl ++ new)])) (stored E (h_checksum h) cl ++ tail))).
    { rewrite <- set_counts_id_k. apply (relaid_wf f h o cs0 cl xl); auto.
      - rewrite set_counts_id_k. destruct (wf_header _ _ _ _ _ _ W) as [Hv Hn]. unfold header_ok, header_nums_ok in *. 
        cbn [set_counts h_version h_typesize h_chunk_size h_last_chunk h_nchunks h_max_app].
        pose proof (zlen_nonneg new). repeat split; try tauto; lia.
      - lia.
      - constructor; [|constructor]. unfold chunk_ok; cbn. eapply (ok_decompress E HE); eauto.
      - intros _. rewrite relaid_positions. exact FIT0. }
    split; [|repeat constructor; exact EC]. constructor; auto.
    + cbn [set_counts h_nchunks h_chunk_size h_last_chunk]. rewrite map_app. cbn [map snd]. unfold bytes in *. rewrite SZ, zlen_app, LX. reflexivity.
    + cbn [set_counts h_chunk_size]. exact (ar_c _ _ _ _ _ _ _ A).
    + cbn [set_counts h_last_chunk]. intros HB. rewrite zlen_app in HB. pose proof (ar_l _ _ _ _ _ _ _ A). pose proof (zlen_nonneg b). pose proof (zlen_nonneg new).
      destruct (Z.eq_dec (zlen b) 0); lia.
    + cbn [set_counts h_chunk_size]. intros HB. rewrite zlen_app in HB. apply (ar_empty _ _ _ _ _ _ _ A). pose proof (zlen_nonneg b). pose proof (zlen_nonneg new). lia.
    + unfold content in *. rewrite map_app, concat_app. cbn. rewrite app_nil_r, BC, app_assoc. reflexivity.
    + exact (ar_meta _ _ _ _ _ _ _ A).
    + exact (ar_null _ _ _ _ _ _ _ A).
  - destruct (append_extend _ _ _ _ _ _ _ _ _ oa new nf A Ho Hp HR Hs Hbig) as (nf' & q & RUN). cbv zeta in RUN.
    set (room := h_chunk_size h - h_last_chunk h) in *.
    destruct (calculate_nchunks (zlen new - room) (CSInt (h_chunk_size h))) as [[[k c1] l1]|e] eqn:EN.
    2:{ left. exists nf', q, e. split; [exact RUN|]. right. right.
        destruct (Z.eq_dec (zlen b) 0) as [B0|B0].
        - left. pose proof (ar_empty _ _ _ _ _ _ _ A B0) as C0. rewrite C0 in EN. unfold calculate_nchunks in EN.
          split; [auto|]. split; [apply zlen_0; auto|]. split; [intros ->; rewrite zlen_nil in *; lia|].
          replace (zlen new - room <? 0) with false in EN by lia. replace (zlen new - room =? 0) with false in EN by lia.
          cbn in EN. congruence.
        - exfalso. pose proof (zlen_nonneg b). pose proof (ar_l _ _ _ _ _ _ _ A ltac:(lia)) as LP.
          destruct (proj2 (calculate_accepts (zlen new - room) (CSInt (h_chunk_size h)))) as (? & EN'); [|congruence].
          right. split; [lia|]. exists (h_chunk_size h). split; [reflexivity|]. split; [lia|].
          transitivity (zlen new - room); [|pose proof (zlen_nonneg f); lia].
          apply Z.lt_succ_r. apply Z.div_lt_upper_bound; [lia|].
          assert (0 <= (h_chunk_size h - 1) * (zlen new - room)) by (apply Z.mul_nonneg_nonneg; lia). lia. }
    pose proof (calculate_partition (zlen new - room) (CSInt (h_chunk_size h)) k c1 l1 ltac:(lia) EN) as CP.
    destruct CP as (P1 & P2 & P3 & P4 & P5 & P6 & P7 & _). destruct (P7 ltac:(lia)) as (Q1 & Q2 & z & Qz & Qc). cbn in Qz. subst z. clear P7.
    assert (BN : b <> []).
    { intros ->. pose proof (ar_empty _ _ _ _ _ _ _ A eq_refl). lia. }
    assert (CS : chunk_sizes k c1 l1 = chunk_sizes k (h_chunk_size h) l1 /\ (k - 1) * h_chunk_size h + l1 = zlen new - room).
    { destruct (Z.eq_dec k 1) as [->|K1]; [split; [reflexivity|lia]|].
      assert (c1 < zlen new - room) by (assert (1 * c1 <= (k - 1) * c1) by (apply Z.mul_le_mono_nonneg_r; lia); lia).
      replace c1 with (h_chunk_size h) in * by lia. auto. }
    destruct CS as [CS KL]. rewrite CS in RUN.
    destruct (h_max_app h <? k) eqn:HK.
    { left. exists nf', q, NotEnoughSpace. split; [exact RUN|]. right. right. right. split; [auto|]. split; [auto|]. split; [auto|].
      assert (h_max_app h * h_chunk_size h <= (k - 1) * h_chunk_size h) by (apply Z.mul_le_mono_nonneg_r; lia). fold room. lia. }
    destruct (e_compress E (append_bargs oa h) (xl ++ ztake room new)) as [c|e] eqn:EC.
    2:{ left. exists nf', q, e. split; [exact RUN|]. right. left. split; [auto|].
        split; [|split; [auto|
          assert (k * h_chunk_size h <= h_max_app h * h_chunk_size h) by (apply Z.mul_le_mono_nonneg_r; lia); fold room; lia]].
        intros OK.
        destruct (ok_compress_total E HE _ (xl ++ ztake room new) OK) as [c EC']; [|congruence].
        change size with (@zlen byte). unfold bytes in *. rewrite zlen_app, zlen_ztake. lia. }
    destruct RUN as (cs & HF & FIT & RUN). set (xs := takes (chunk_sizes k (h_chunk_size h) l1) (zdrop room new)) in *.
    right. split; [auto|]. split; [apply (ok_compress_only E HE) in EC; tauto|].
    exists nf', k, l1, cs0, cl, xl, (combine (c :: cs) ((xl ++ ztake room new) :: xs)). split; [auto|]. cbv zeta.
    set (h' := set_counts h l1 (h_nchunks h + k) (h_max_app h - k)).
    set (cs1 := combine _ _). 
    pose proof (F2_length _ _ _ HF) as LF.
    assert (FS : map fst cs1 = c :: cs) by (apply combine_fst; cbn [List.length]; f_equal; symmetry; exact LF).
    assert (SN : map snd cs1 = (xl ++ ztake room new) :: xs) by (apply combine_snd; cbn [List.length]; f_equal; symmetry; exact LF).
    assert (KN : zlen cs1 = k + 1).
    { rewrite <- (zlen_map snd), SN, zlen_cons. unfold xs, zlen at 1. rewrite takes_length.
      pose proof (zlen_chunk_sizes k (h_chunk_size h) l1 ltac:(lia)) as ZC. unfold zlen in ZC. rewrite ZC. lia. }
    assert (ZS : concat xs = zdrop room new).
    { unfold xs. rewrite concat_takes by (apply chunk_sizes_nonneg; lia). rewrite zsum_chunk_sizes by lia. apply ztake_all. rewrite zlen_zdrop. lia. }
    assert (SNC : concat (map snd cs1) = xl ++ new).
    { rewrite SN. cbn [concat]. rewrite ZS, <- app_assoc, ztake_zdrop. reflexivity. }
    split; [lia|]. split; [exact KN|]. split; [exact SNC|]. split; [lia|]. split; [lia|].
    replace (k =? 0) with false by lia.
    assert (PE : positions E h' o (cs0 ++ cs1) = positions E h o cs0 ++ pos_from (body_pos E h o + zlen (body E (h_checksum h) cs0)) (map (stored E (h_checksum h)) (c :: cs))).
    { unfold h'. rewrite relaid_positions, <- FS, map_map. reflexivity. }
    unfold extended in RUN. rewrite <- PE, <- FS, <- body_stored in RUN. fold h' in RUN. split; [exact RUN|]. rewrite RUN.
    assert (DATA := extended_data f h o cs0 cl xl tail l1 k cs1 W Ho ltac:(lia) KN). cbv zeta in DATA. fold h' in DATA.
    split; [exact DATA|].
    assert (HO : header_ok h').
    { destruct (wf_header _ _ _ _ _ _ W) as [Hv Hn]. unfold header_ok, header_nums_ok in *. cbn [h' set_counts h_version h_typesize h_chunk_size h_last_chunk h_nchunks h_max_app].
      repeat split; try tauto; lia. }
    split; [|unfold cs1; cbn [combine]; constructor; [exact EC|clear -HF; induction HF; cbn; constructor; auto]]. constructor; auto.
    + apply (relaid_wf f h o cs0 cl xl); auto; [lia| |].
      * unfold cs1. cbn [combine]. constructor.
        -- unfold chunk_ok; cbn. eapply (ok_decompress E HE); eauto.
        -- clear -HF HE. induction HF as [|x y xs ys H1 H2 IH]; cbn; constructor; auto. unfold chunk_ok; cbn. eapply (ok_decompress E HE); eauto.
      * intros _. fold h'. rewrite PE. exact FIT.
    + cbn [set_counts h_nchunks h_chunk_size h_last_chunk h']. unfold bytes in *. rewrite map_app, SZ, <- (map_map snd zlen cs1), SN. cbn [map].
      assert (TS : map zlen xs = chunk_sizes k (h_chunk_size h) l1).
      { apply takes_sizes; [apply chunk_sizes_nonneg; lia|]. rewrite zsum_chunk_sizes, zlen_zdrop by lia. lia. }
      rewrite TS, zlen_app, LX, zlen_ztake. replace (h_last_chunk h + Z.min (Z.max 0 room) (zlen new)) with (h_chunk_size h) by lia.
      unfold chunk_sizes. replace (h_nchunks h + k - 1) with ((h_nchunks h - 1) + (1 + (k - 1))) by lia.
      rewrite (zrep_add _ (h_nchunks h - 1) (1 + (k - 1))), (zrep_add _ 1 (k - 1)) by lia. rewrite <- app_assoc. reflexivity.
    + cbn [set_counts h_chunk_size h']. exact (ar_c _ _ _ _ _ _ _ A).
    + intros HB. exfalso. rewrite zlen_app in HB. pose proof (zlen_nonneg b). pose proof (zlen_nonneg new). apply BN. apply zlen_0. lia.
    + rewrite BC. unfold content. rewrite map_app, concat_app. unfold bytes in *. rewrite SNC, app_assoc. reflexivity.
    + exact (ar_meta _ _ _ _ _ _ _ A).
    + exact (ar_null _ _ _ _ _ _ _ A).
Qed.

Lemma append_outcome64 f h o cs tail b m oa new nf : arch f h o cs tail b m ->
  0 <= fpos nf -> rest nf = new -> zlen f + 81 * zlen new + 2 ^ 32 <= 2 ^ 63 - 1 + 64 ->
  (exists nf' q e, append_fp E (zlen new) oa (nf, fp_of f) = ((nf', mkfp f q []), Raise e) /\ bad_append h oa b new e)
  \/
  (h_offsets h = true /\ blosc_args_ok E (append_bargs oa h) /\
   exists nf' k l cs0 cl xl (cs1 : list (bytes * bytes)), cs = cs0 ++ [(cl, xl)] /\
    let h' := set_counts h l (h_nchunks h + k) (h_max_app h - k) in
    let lo := body_pos E h o + zlen (body E (h_checksum h) cs0) in
    0 <= k <= h_max_app h /\ zlen cs1 = k + 1 /\ concat (map snd cs1) = xl ++ new /\
    (k = 0 -> zlen new <= h_chunk_size h - h_last_chunk h) /\
    (0 < k -> h_chunk_size h - h_last_chunk h < zlen new /\ 0 < h_chunk_size h /\ (k - 1) * h_chunk_size h + l = zlen new - (h_chunk_size h - h_last_chunk h) /\ 0 < l <= h_chunk_size h) /\
    let f' := relaid h' o cs0 cs1 (stored E (h_checksum h) cl ++ tail) in
    append_fp E (zlen new) oa (nf, fp_of f) = ((nf', 
       let f1 := put_at (header_bytes h') (at_pos 0 (put_at (body E (h_checksum h) cs1) (mkfp f lo []))) in
       if k =? 0 then f1 else put_at (words (positions E h' o (cs0 ++ cs1))) (at_pos (32 + zlen (osect_bytes E o)) f1)), Ok k) /\
    fdata (snd (fst (append_fp E (zlen new) oa (nf, fp_of f)))) = f' /\
    arch f' h' o (cs0 ++ cs1) (zdrop (zlen (body E (h_checksum h) cs1)) (stored E (h_checksum h) cl ++ tail)) (b ++ new) m).
Proof.
  intros A Hp HR Hb. destruct (append_outcome_full f h o cs tail b m oa new nf A Hp HR Hb)
    as [X|(H1 & H2 & nf' & k & l & cs0 & cl & xl & cs1 & H3 & H4 & H5 & H6 & H7 & H8 & H9 & H10 & H11 & _)]; [left; exact X|right].
  split; [exact H1|]. split; [exact H2|]. exists nf', k, l, cs0, cl, xl, cs1. repeat (split; [assumption|]). exact H11.
Qed.

Lemma append_outcome f h o cs tail b m oa new nf : arch f h o cs tail b m ->
  0 <= fpos nf -> rest nf = new -> zlen f + 81 * zlen new + 2 ^ 32 <= 2 ^ 63 - 1 ->
  (exists nf' q e, append_fp E (zlen new) oa (nf, fp_of f) = ((nf', mkfp f q []), Raise e) /\ bad_append h oa b new e)
  \/
  (h_offsets h = true /\ blosc_args_ok E (append_bargs oa h) /\
   exists nf' k l cs0 cl xl (cs1 : list (bytes * bytes)), cs = cs0 ++ [(cl, xl)] /\
    let h' := set_counts h l (h_nchunks h + k) (h_max_app h - k) in
    let lo := body_pos E h o + zlen (body E (h_checksum h) cs0) in
    0 <= k <= h_max_app h /\ zlen cs1 = k + 1 /\ concat (map snd cs1) = xl ++ new /\
    (k = 0 -> zlen new <= h_chunk_size h - h_last_chunk h) /\
    (0 < k -> h_chunk_size h - h_last_chunk h < zlen new /\ 0 < h_chunk_size h /\ (k - 1) * h_chunk_size h + l = zlen new - (h_chunk_size h - h_last_chunk h) /\ 0 < l <= h_chunk_size h) /\
    let f' := relaid h' o cs0 cs1 (stored E (h_checksum h) cl ++ tail) in
    append_fp E (zlen new) oa (nf, fp_of f) = ((nf', 
       let f1 := put_at (header_bytes h') (at_pos 0 (put_at (body E (h_checksum h) cs1) (mkfp f lo []))) in
       if k =? 0 then f1 else put_at (words (positions E h' o (cs0 ++ cs1))) (at_pos (32 + zlen (osect_bytes E o)) f1)), Ok k) /\
    fdata (snd (fst (append_fp E (zlen new) oa (nf, fp_of f)))) = f' /\
    arch f' h' o (cs0 ++ cs1) (zdrop (zlen (body E (h_checksum h) cs1)) (stored E (h_checksum h) cl ++ tail)) (b ++ new) m).
Proof. intros A Hp HR Hb. apply (append_outcome64 f h o cs tail b m oa new nf A Hp HR). lia. Qed.

End WithEnv.
