(** Appending from a source that delivers whatever it likes. *)
From Verif Require Import Base PyVal Checksums Headers Pretty Args FileIO Append Stream Spec Archive BaseLemmas HeaderProofs IOProofs WfProofs PackProofs SmallProofs BytesProofs MetaProofs
  AppendProofs ArchiveProofs HistoryProofs ExcPack NumpyProofs EmbedProofs MemoryProofs MixProofs.
From Coq Require Import ZifyBool ZifyNat.
Ltac Zify.zify_post_hook ::= Z.div_mod_to_equations.

Section WithEnv.
Variable E : Env.
Hypothesis HE : EnvOK E.

Theorem same_append new_size o : append_from E f_read new_size o = append_fp E new_size o.
Proof. reflexivity. Qed.

(** An archive whose chunks need not have the sizes its header announces. *)
Record loose (f : bytes) (h : header) (o : option msect) (cs : list (bytes * bytes)) (tail : bytes) (b : bytes) (m : pyval) : Prop := mkLoose {
  lo_wf : wf E f h o cs tail;
  lo_c : 0 <= h_chunk_size h;
  lo_l : 0 <= h_last_chunk h;
  lo_content : content cs = b;
  lo_meta : osect_val o = m;
  lo_null : is_some o = true -> m <> PNone }.
Lemma arch_loose f h o cs tail b m : arch E f h o cs tail b m -> loose f h o cs tail b m.
Proof.
  intros A. destruct (arch_split E _ _ _ _ _ _ _ A) as (cs0 & cl & xl & -> & LN & SZ & LX & CO & HC & N1 & L1 & CB & BC).
  destruct A. constructor; auto; lia.
Qed.
Lemma loose_unpack f h o cs tail b m : loose f h o cs tail b m -> unpack_bytes_from_bytes E f = Ok (b, m).
Proof.
  intros L. unfold unpack_bytes_from_bytes. rewrite (unpack_wf E HE _ _ _ _ _ (lo_wf _ _ _ _ _ _ _ L)). cbn [rbind].
  rewrite (lo_content _ _ _ _ _ _ _ L), (lo_meta _ _ _ _ _ _ _ L). reflexivity.
Qed.
Lemma loose_split f h o cs tail b m : loose f h o cs tail b m -> exists cs0 cl xl, cs = cs0 ++ [(cl, xl)] /\ e_decompress E cl = Ok xl /\ b = content cs0 ++ xl.
Proof.
  intros L. pose proof (lo_wf _ _ _ _ _ _ _ L) as W. pose proof (wf_ne _ _ _ _ _ _ W) as NE.
  destruct (exists_last (l := cs)) as (cs0 & [cl xl] & ->). { intros ->. rewrite zlen_nil in NE. lia. }
  exists cs0, cl, xl. split; [reflexivity|]. pose proof (wf_chunks _ _ _ _ _ _ W) as HC. apply Forall_app in HC as [_ HC]. inversion HC; subst. split; [auto|].
  rewrite <- (lo_content _ _ _ _ _ _ _ L). unfold content. rewrite map_app, concat_app. cbn. rewrite app_nil_r. reflexivity.
Qed.
Lemma loose_offsets_pos f h o cs tail b m offs : loose f h o cs tail b m ->
  offsets_pos (mkBeg h (osect_val o) (option_map ms_h o) offs) = 32 + zlen (osect_bytes E o).
Proof.
  intros L. unfold offsets_pos. cbn [b_meta b_mheader]. unfold BLOSCPACK_HEADER_LENGTH. f_equal.
  pose proof (wf_sect _ _ _ _ _ _ (lo_wf _ _ _ _ _ _ _ L)) as SO. pose proof (lo_null _ _ _ _ _ _ _ L) as NU.
  rewrite <- (lo_meta _ _ _ _ _ _ _ L) in NU.
  destruct o as [s|]; cbn [osect_val osect_bytes option_map is_some] in *; [|reflexivity].
  rewrite (zlen_msect E HE) by exact SO. destruct (ms_val s); try reflexivity. exfalso. apply NU; reflexivity.
Qed.

Lemma write_at_ge d p x : zlen d <= zlen (write_at d p x) /\ (0 <= p -> x <> [] -> p + zlen x <= zlen (write_at d p x)).
Proof.
  destruct x as [|b x]; [cbn [write_at]; split; [lia|congruence]|].
  rewrite write_at_unfold by discriminate. rewrite !zlen_app, zlen_ztake, zlen_zdrop, zlen_zrep. pose proof (zlen_nonneg (b :: x)). split; lia.
Qed.

(** The loop over the reads. *)
Definition heard (w : nat -> res bytes) (j : nat) (got : list bytes) : Prop := Forall2 (fun i x => w i = Ok x) (seq j (List.length got)) got.
Lemma heard_cons w j x got : w j = Ok x -> heard w (S j) got -> heard w j (x :: got).
Proof. intros H G. unfold heard. cbn [List.length seq]. constructor; auto. Qed.
Lemma loop_told w ba sizes : forall i j k done n st' r, 0 <= fpos (s_fp k) -> i = zlen done ->
  (h_offsets (s_header k) = true -> s_storage k = done ++ repeat (-1) (List.length sizes + n)) ->
  pack_loop (compress_chunk_str E ba) (fps_put E) i (map (told w) sizes) (j, k) = (st', r) ->
  exists got cs, heard w j got /\ Forall2 (fun x c => e_compress E ba x = Ok c) got cs /\
    s_fp (snd st') = put_at (concat (map (stored E (h_checksum (s_header k))) cs)) (s_fp k) /\
    match r with
    | Raise e => (List.length got < List.length sizes)%nat /\
        match w (j + List.length got)%nat with Raise e' => e = e' | Ok x => e_compress E ba x = Raise e end
    | Ok _ => List.length got = List.length sizes /\
        (h_offsets (s_header k) = true ->
         s_storage (snd st') = done ++ pos_from (fpos (s_fp k)) (map (stored E (h_checksum (s_header k))) cs) ++ repeat (-1) n)
    end.
Proof.
  induction sizes as [|z sizes IH]; intros i j k done n st' r HA Hi HS; cbn [map pack_loop].
  - intros H. injection H as <- <-. exists [], []. split; [constructor|]. split; [constructor|]. cbn [map concat snd]. rewrite put_nil.
    split; [reflexivity|]. split; [reflexivity|]. intros Ho. rewrite HS by exact Ho. reflexivity.
  - destruct (w j) as [x|e] eqn:W.
    2:{ unfold bind at 1, onl, told at 1. cbn [fst snd]. rewrite W. intros H. injection H as <- <-. exists [], []. split; [constructor|]. split; [constructor|].
        cbn [map concat snd]. rewrite put_nil. split; [reflexivity|]. split; [cbn; lia|]. cbn [List.length]. rewrite Nat.add_0_r, W. first [reflexivity|exact C]. }
    rewrite (bind_run _ _ _ (S j, k) x) by (unfold onl, told; cbn [fst snd]; rewrite W; reflexivity).
    destruct (compress_chunk_str E ba x) as [c|e] eqn:C.
    2:{ rewrite (bind_lift_raise _ _ _ _ eq_refl). intros H. injection H as <- <-. exists [], []. split; [constructor|]. split; [constructor|].
        cbn [map concat snd]. rewrite put_nil. split; [reflexivity|]. split; [cbn; lia|]. cbn [List.length]. rewrite Nat.add_0_r, W. first [reflexivity|exact C]. }
    rewrite (bind_lift _ _ _ _ eq_refl).
    cbn [List.length Nat.add repeat] in HS.
    rewrite (bind_run _ _ _ _ _ (onr_run _ _ _ _ _ (fps_put_put E k i c done _ HA Hi HS))).
    set (k1 := mkCFS (put_at _ (s_fp k)) _ _ _). intros H.
    destruct (IH (i + 1) (S j) k1 (done ++ [fpos (s_fp k)]) n st' r) as (got & cs & G1 & G2 & G3 & G4).
    + unfold k1; cbn [s_fp]. apply put_at_pos; auto.
    + rewrite zlen_app, Hi. reflexivity.
    + unfold k1; cbn [s_header s_storage]. intros Ho. rewrite Ho, <- app_assoc. reflexivity.
    + exact H.
    + exists (x :: got), (c :: cs). split; [apply heard_cons; auto|]. split; [constructor; auto|].
      unfold k1 in G3, G4; cbn [s_fp s_header s_meta_total s_storage] in G3, G4. split.
      { rewrite G3. cbn [map concat]. apply put_put. exact HA. }
      destruct r; [|cbn [List.length]; rewrite <- Nat.add_succ_comm; split; [lia|apply G4]]. destruct G4 as [G4 G5]. split; [cbn [List.length]; congruence|]. intros Ho. rewrite (G5 Ho). cbn [map pos_from]. rewrite <- !app_assoc. reflexivity.
Qed.

(** The last chunk rewritten, the header not: what is there after a failure. *)
Lemma half_way f h o cs0 cl xl tail b m c x Y : loose f h o (cs0 ++ [(cl, xl)]) tail b m -> e_decompress E c = Ok x ->
  let lo := body_pos E h o + zlen (body E (h_checksum h) cs0) in
  exists tail', loose (write_at f lo (stored E (h_checksum h) c ++ Y)) h o (cs0 ++ [(c, x)]) tail' (content cs0 ++ x) m.
Proof.
  intros L D lo. pose proof (lo_wf _ _ _ _ _ _ _ L) as W. destruct (wf_split E _ _ _ _ _ _ _ W) as [WS ZF]. fold lo in ZF.
  eexists. rewrite WS at 1. rewrite <- ZF, write_at_tail.
  assert (TB : table E h o (cs0 ++ [(cl, xl)]) = table E h o (cs0 ++ [(c, x)])) by (unfold table; rewrite !positions_snoc; reflexivity).
  destruct L as [_ LC LL _ LM LN]. constructor; auto.
  - destruct W as [W1 W2 W3 W4 W5 W6 W7 W8 W9]. rewrite zlen_app in W5, W6. constructor; auto.
    + rewrite zlen_app. exact W5.
    + rewrite zlen_app. exact W6.
    + apply Forall_app in W7 as [W7 _]. apply Forall_app. split; [exact W7|]. constructor; [exact D|constructor].
    + intros Ho. specialize (W8 Ho). rewrite positions_snoc in *. exact W8.
    + unfold front. rewrite TB, body_app, body_one, <- !app_assoc. cbn [fst]. reflexivity.
  - unfold content. rewrite map_app, concat_app. cbn. rewrite app_nil_r. reflexivity.
Qed.

(** Everything before the writing. *)
Definition tail_from {S} (rd : Z -> SM S bytes) (new_size : Z) (bg : beginning) (ba : bargs) (last_off : Z) (decompressed : bytes) : SM (S * fp) Z :=
  let h := b_header bg in
  let ck := h_checksum h in
  let offs := b_offsets bg in
    let to_read := h_chunk_size h - zlen decompressed in
    if new_size <=? to_read then
      fill_up <- onl (rd new_size) ;;
      onr (f_seek E last_off) ;;;
      c <- lift (compress_chunk_str E ba (decompressed ++ fill_up)) ;;
      onr (write_compressed_chunk c (digest E ck c)) ;;;
      raw <- lift (header_encode (set_counts h (h_last_chunk h + new_size) (h_nchunks h) (h_max_app h))) ;;
      onr (f_seek E 0) ;;;
      onr (f_write raw) ;;;
      ret 0
    else
      let new_new_size := new_size - to_read in
      fill_up <- onl (rd to_read) ;;
      ncl <- lift (calculate_nchunks new_new_size (CSInt (h_chunk_size h))) ;;
      let '(nchunks, chunk_size, last_chunk) := ncl in
      if h_max_app h <? nchunks then raise NotEnoughSpace
      else
        onr (f_seek E last_off) ;;;
        c <- lift (compress_chunk_str E ba (decompressed ++ fill_up)) ;;
        onr (write_compressed_chunk c (digest E ck c)) ;;;
        (fun st =>
           let sink := mkCFS (snd st) 0 h (zrep nchunks (-1)) in
           match pack_loop (compress_chunk_str E ba) (fps_put E) 0
                           (map rd (chunk_sizes nchunks chunk_size last_chunk)) (fst st, sink) with
           | ((nf, s), Raise e) => ((nf, s_fp s), Raise e)
           | ((nf, s), Ok _) =>
               (raw <- lift (header_encode (set_counts h last_chunk (h_nchunks h + nchunks)
                                                       (h_max_app h - nchunks))) ;;
                onr (f_seek E 0) ;;;
                onr (f_write raw) ;;;
                onr (f_seek E (offsets_pos bg)) ;;;
                onr (write_offsets (offs ++ s_storage s)) ;;;
                ret nchunks) (nf, s_fp s)
           end).

Lemma from_start {S} (rd : Z -> SM S bytes) f h o cs0 cl xl tail b m new_size oa (nf : S) :
  loose f h o (cs0 ++ [(cl, xl)]) tail b m -> h_offsets h = true ->
  exists q, append_from E rd new_size oa (nf, fp_of f) =
    tail_from rd new_size (mkBeg h m (option_map ms_h o) (positions E h o (cs0 ++ [(cl, xl)]))) (append_bargs oa h)
      (body_pos E h o + zlen (body E (h_checksum h) cs0)) xl (nf, mkfp f q []) .
Proof.
  intros A Ho. pose proof (lo_wf _ _ _ _ _ _ _ A) as W.
  destruct (read_beginning_wf E HE _ _ _ _ _ W) as [RB _]. rewrite Ho, (lo_meta _ _ _ _ _ _ _ A) in RB.
  destruct (wf_split E _ _ _ _ _ _ _ W) as [WS ZF].
  pose proof (body_pos_nonneg E _ _ _ _ _ W) as BP. pose proof (zlen_nonneg (body E (h_checksum h) cs0)) as NB.
  set (lo := body_pos E h o + zlen (body E (h_checksum h) cs0)) in *.
  unfold append_from. rewrite (bind_run _ _ _ _ _ (onr_run _ nf _ _ _ RB)). cbn [b_offsets b_header].
  rewrite positions_snoc. fold lo. destruct (positions E h o cs0 ++ [lo]) as [|o0 os] eqn:EP.
  { destruct (positions E h o cs0); discriminate. }
  assert (LAST : List.last (o0 :: os) 0 = lo) by (rewrite <- EP; apply last_last).
  rewrite LAST.
  rewrite (bind_lift _ _ _ _ (fill_ok oa h (wf_header _ _ _ _ _ _ W))).
  rewrite (bind_run _ _ _ _ _ (onr_run _ nf _ _ _ (f_seek_at lo _ ltac:(lia)))).
  assert (CO : e_decompress E cl = Ok xl).
  { pose proof (wf_chunks _ _ _ _ _ _ W) as HC. apply Forall_app in HC as [_ HC]. inversion HC; subst. auto. }
  destruct (chunk_ok_len E HE _ _ CO) as [L16 U12].
  set (f1 := at_pos lo (adv (body_pos E h o) (fp_of f))).
  assert (R1 : rest f1 = stored E (h_checksum h) cl ++ tail).
  { unfold rest, f1, at_pos. cbn [fpos fdata adv fp_of]. rewrite WS at 1. apply zdrop_app_exact. lia. }
  destruct (chunk_here_ok E HE (h_checksum h) cl tail L16 U12) as (CH & _ & _).
  destruct (read_chunk_spec E (h_checksum h) f1) as (bh & n & RC & _).
  { unfold f1, at_pos; cbn. lia. }
  { rewrite R1, zlen_app, (zlen_stored E HE). pose proof (zlen_nonneg tail). pose proof (cks_size_nonneg (h_checksum h)). lia. }
  rewrite (bind_run _ _ _ _ _ (onr_run _ nf _ _ _ RC)). cbn [fst snd]. rewrite R1, CH.
  rewrite (bind_lift _ _ _ _ CO).
  exists (fpos (adv n f1)). reflexivity.
Qed.
Lemma from_no_offsets {S} (rd : Z -> SM S bytes) f h o cs tail b m new_size oa (nf : S) : loose f h o cs tail b m -> h_offsets h = false ->
  append_from E rd new_size oa (nf, fp_of f) = ((nf, adv (body_pos E h o) (fp_of f)), Raise RuntimeError).
Proof.
  intros A Ho. pose proof (lo_wf _ _ _ _ _ _ _ A) as W.
  destruct (read_beginning_wf E HE _ _ _ _ _ W) as [RB _]. rewrite Ho in RB.
  unfold append_from. rewrite (bind_run _ _ _ _ _ (onr_run _ nf _ _ _ RB)). reflexivity.
Qed.

(** A header whose last chunk is larger than its chunks cannot be read. *)
Lemma header_decode_excess h raw : header_ok (set_counts h 0 (h_nchunks h) (h_max_app h)) -> header_encode h = Ok raw ->
  0 <= h_chunk_size h < h_last_chunk h -> raw = header_bytes h /\ header_decode raw = Raise ValueError.
Proof.
  intros Hok HH Hx. pose proof (header_encode_inv _ _ HH) as ->. split; [reflexivity|].
  assert (HL : - 2 ^ 31 <= h_last_chunk h <= 2 ^ 31 - 1).
  { unfold header_encode in HH. repeat (apply rbind_Ok in HH as (? & ? & HH)).
    match goal with H : encode_int32 (h_last_chunk h) = Ok _ |- _ => unfold encode_int32, pack_int in H; destruct (_ && _) eqn:B in H; [|discriminate] end.
    change (2 ^ 31) with 2147483648. lia. }
  destruct Hok as ((Hv1 & Hv2) & (Ht & Hc & Hl & Hn & Hm & Hnm & Hs & Hcl)). cbn [set_counts h_version h_typesize h_chunk_size h_last_chunk h_nchunks h_max_app] in *.
  unfold BUFMAX in *. change (2 ^ 63 - 1) with 9223372036854775807 in Hs. change (2 ^ 31) with 2147483648 in HL.
  unfold header_decode. rewrite zlen_header_bytes.
  replace (negb (32 =? BLOSCPACK_HEADER_LENGTH)) with false by reflexivity.
  replace (slice 0 4 (header_bytes h)) with MAGIC by reflexivity.
  rewrite bytes_eqb_refl. cbn [negb].
  replace (byte_at 5 (header_bytes h)) with (@Ok Z (Zb (bZ (opt_bits (h_offsets h) (h_metadata h))))) by reflexivity.
  replace (byte_at 4 (header_bytes h)) with (@Ok Z (Zb (bZ (h_version h)))) by reflexivity.
  replace (byte_at 6 (header_bytes h)) with (@Ok Z (Zb (bZ (cks_index (h_checksum h))))) by reflexivity.
  replace (byte_at 7 (header_bytes h)) with (@Ok Z (Zb (bZ (h_typesize h)))) by reflexivity.
  replace (slice 8 12 (header_bytes h)) with (le_enc 4 (h_chunk_size h)) by reflexivity.
  replace (slice 12 16 (header_bytes h)) with (le_enc 4 (h_last_chunk h)) by reflexivity.
  replace (slice 16 24 (header_bytes h)) with (le_enc 8 (h_nchunks h)) by reflexivity.
  replace (slice 24 32 (header_bytes h)) with (le_enc 8 (h_max_app h)) by reflexivity.
  pose proof (cks_index_range (h_checksum h)).
  cbn [rbind].
  rewrite bZ_small by (unfold opt_bits; destruct (h_offsets h), (h_metadata h); lia).
  rewrite decode_options_bits. cbn [rbind fst snd].
  rewrite !bZ_small by lia. rewrite cks_of_index_index. cbn [rbind].
  rewrite !decode_int32_enc by lia. cbn [rbind].
  rewrite !decode_int64_enc by lia. cbn [rbind].
  destruct (mk_header _ _ _ _ _ _ _ _ _) as [h1|e] eqn:MK.
  - apply mk_header_Ok in MK as (_ & Hn1 & _). unfold header_nums_ok in Hn1. exfalso. destruct Hn1 as (_ & _ & _ & _ & _ & _ & _ & Hy). specialize (Hy ltac:(lia) ltac:(lia)). lia.
  - clear -MK. unfold mk_header in MK.
    replace (check_valid_checksum (cks_name (h_checksum h))) with (@Ok cks (h_checksum h)) in MK by (destruct (h_checksum h); reflexivity).
    unfold check_header_nums, check_range in MK. cbn [rbind] in MK.
    repeat match type of MK with
    | context [if ?c then _ else _] => destruct c; cbn [rbind] in MK; try (injection MK as <-; reflexivity)
    end; discriminate.
Qed.

Lemma unpack_excess h q : header_decode (header_bytes h) = Raise ValueError -> unpack_bytes_from_bytes E (header_bytes h ++ q) = Raise ValueError.
Proof.
  intros H. unfold unpack_bytes_from_bytes, unpack_core, read_beginning, read_bloscpack_header.
  pose proof (f_read_gen 32 (fp_of (header_bytes h ++ q)) ltac:(lia)) as FR.
  assert (RR : rest (fp_of (header_bytes h ++ q)) = header_bytes h ++ q) by reflexivity. rewrite RR in FR.
  rewrite ztake_app_exact in FR by (rewrite zlen_header_bytes; reflexivity).
  erewrite bind_run_raise; [reflexivity|]. erewrite bind_run; [|exact FR]. unfold lift. rewrite H. reflexivity.
Qed.

(** Files whose header cannot be read. *)
Definition dead (f : bytes) : Prop := exists h q, f = header_bytes h ++ q /\ header_decode (header_bytes h) = Raise ValueError.
Lemma dead_unpack f : dead f -> unpack_bytes_from_bytes E f = Raise ValueError.
Proof. intros (h & q & -> & H). apply unpack_excess. exact H. Qed.
Lemma dead_append f new_size w oa : dead f -> append_stream E f new_size w oa = (f, Raise ValueError).
Proof.
  intros (h & q & -> & H). unfold append_stream, append_from, read_beginning, read_bloscpack_header.
  pose proof (f_read_gen 32 (fp_of (header_bytes h ++ q)) ltac:(lia)) as FR.
  assert (RR : rest (fp_of (header_bytes h ++ q)) = header_bytes h ++ q) by reflexivity. rewrite RR in FR.
  rewrite ztake_app_exact in FR by (rewrite zlen_header_bytes; reflexivity).
  erewrite bind_run_raise; [|apply onr_run; erewrite bind_run_raise; [reflexivity|]; erewrite bind_run; [|exact FR]; unfold bind, lift; rewrite H; reflexivity]. reflexivity.
Qed.

(** What a successful step leaves. *)
Definition step_ok (f' : bytes) (h : header) (o : option msect) (b : bytes) (m : pyval) (new_size d : Z) (w : nat -> res bytes) (k : Z) : Prop :=
  exists got, heard w 0 got /\ zlen got = k + 1 /\
    ((exists h' cs' tail', loose f' h' o cs' tail' (b ++ concat got) m /\
       h' = set_counts h (h_last_chunk h') (h_nchunks h + k) (h_max_app h - k) /\ 0 <= k /\
       h_chunk_size h * k + h_last_chunk h' = new_size + (if k =? 0 then h_last_chunk h else d))
     \/ k = 0 /\ new_size <= h_chunk_size h - d /\ h_chunk_size h < h_last_chunk h + new_size /\ dead f').
(** And a failed one. *)
Definition step_bad (f f' : bytes) (h : header) (o : option msect) (b : bytes) (m : pyval) (w : nat -> res bytes) (lo : Z) (e : exn) : Prop :=
  f' = f \/
  (exists x0 cs' tail', w O = Ok x0 /\ loose f' h o cs' tail' (b ++ x0) m /\ exists X, f' = write_at f lo X) \/
  (e = StructError /\ 2 ^ 63 <= size f').

Lemma stream_loose f h o cs0 cl xl tail b m new_size w oa f' r : loose f h o (cs0 ++ [(cl, xl)]) tail b m -> 0 <= new_size ->
  append_stream E f new_size w oa = (f', r) ->
  match r with Ok k => step_ok f' h o b m new_size (zlen xl) w k | Raise e => step_bad f f' h o b m w (body_pos E h o + zlen (body E (h_checksum h) cs0)) e end.
Proof.
  intros L HN. pose proof (lo_wf _ _ _ _ _ _ _ L) as W.
  destruct (loose_split _ _ _ _ _ _ _ L) as (cs0' & cl' & xl' & EQ & CO & BC). apply app_inj_tail in EQ as [<- EQ]. injection EQ as <- <-.
  unfold append_stream. destruct (h_offsets h) eqn:Ho.
  2:{ rewrite (from_no_offsets _ _ _ _ _ _ _ _ _ _ _ L Ho). cbn [fst snd adv fp_of fdata]. intros H. injection H as <- <-. left. reflexivity. }
  destruct (from_start (told w) _ _ _ _ _ _ _ _ _ new_size oa O L Ho) as (q & ->).
  set (lo := body_pos E h o + zlen (body E (h_checksum h) cs0)).
  pose proof (body_pos_nonneg E _ _ _ _ _ W) as BP. pose proof (zlen_nonneg (body E (h_checksum h) cs0)) as NB.
  assert (N1 : h_nchunks h = zlen cs0 + 1). { rewrite (wf_n _ _ _ _ _ _ W), zlen_app. reflexivity. }
  pose proof (zlen_nonneg cs0) as NC.
  unfold tail_from. cbn [b_header b_offsets]. cbv zeta.
  set (room := h_chunk_size h - zlen xl).
  destruct (new_size <=? room) eqn:FITS.
  - destruct (w O) as [x0|e] eqn:W0.
    2:{ erewrite bind_run_raise; [|unfold onl, told; cbn [fst snd]; rewrite W0; reflexivity]. intros H. injection H as <- <-. left. reflexivity. }
    rewrite (bind_run _ _ _ (1%nat, mkfp f q []) x0) by (unfold onl, told; cbn [fst snd]; rewrite W0; reflexivity).
    rewrite (bind_run _ _ _ _ _ (onr_run _ _ _ _ _ (f_seek_at lo _ ltac:(lia)))).
    unfold compress_chunk_str. destruct (e_compress E (append_bargs oa h) (xl ++ x0)) as [c|e] eqn:EC.
    2:{ rewrite (bind_lift_raise _ _ _ _ eq_refl). intros H. injection H as <- <-. left. reflexivity. }
    rewrite (bind_lift _ _ _ _ eq_refl).
    erewrite bind_run; [|apply onr_run; apply write_compressed_chunk_put; cbn [at_pos fpos]; lia].
    pose proof (ok_decompress E HE _ _ _ EC) as DC.
    set (h' := set_counts h (h_last_chunk h + new_size) (h_nchunks h) (h_max_app h)).
    destruct (header_encode h') as [raw|e] eqn:HH.
    2:{ rewrite (bind_lift_raise _ _ _ _ eq_refl). intros H. injection H as <- <-. right. left.
        destruct (half_way _ _ _ _ _ _ _ _ _ c (xl ++ x0) [] L DC) as (tail' & L'). fold lo in L'. rewrite app_nil_r in L'.
        exists x0. eexists _, tail'. split; [exact W0|]. split; [rewrite BC, <- app_assoc; exact L'|eexists; reflexivity]. }
    rewrite (bind_lift _ _ _ _ eq_refl).
    rewrite (bind_run _ _ _ _ _ (onr_run _ _ _ _ _ (f_seek_at 0 _ ltac:(lia)))).
    rewrite (bind_run _ _ _ _ _ (onr_run _ _ _ _ _ (f_write_put _ _))).
    intros H. injection H as <- <-. cbn [put_at at_pos fdata fpos snd fst].
    exists [x0]. split; [apply heard_cons; [exact W0|constructor]|]. split; [reflexivity|]. cbn [concat]. rewrite app_nil_r.
    pose proof (header_encode_inv _ _ HH) as ->.
    pose proof (squeezed_data E _ _ _ _ _ _ _ (h_last_chunk h + new_size) (c, xl ++ x0) W) as SD. cbv zeta in SD. rewrite body_one in SD. fold lo h' in SD. cbn [fst] in SD. rewrite SD.
    pose proof (lo_c _ _ _ _ _ _ _ L) as LC. pose proof (lo_l _ _ _ _ _ _ _ L) as LL.
    destruct (Z_le_gt_dec (h_last_chunk h + new_size) (h_chunk_size h)) as [Hle|Hgt].
    + left. assert (EQH : h' = set_counts h (h_last_chunk h + new_size) (h_nchunks h + 0) (h_max_app h - 0)) by (unfold h'; f_equal; lia).
      assert (HO : header_ok h').
      { destruct (wf_header _ _ _ _ _ _ W) as [Hv Hn]. unfold h', header_ok, header_nums_ok in *. cbn [set_counts h_version h_typesize h_chunk_size h_last_chunk h_nchunks h_max_app].
        repeat split; try tauto; lia. }
      eexists h', _, _. split; [|split; [exact EQH|split; [lia|cbn [h' set_counts h_last_chunk]; cbn [Z.eqb]; lia]]].
      pose proof (relaid_wf_at E _ _ _ _ _ _ _ (h_last_chunk h + new_size) 0 [(c, xl ++ x0)] (stored E (h_checksum h) cl ++ tail) W) as RW. cbv zeta in RW. rewrite <- EQH in RW.
      specialize (RW HO eq_refl ltac:(lia) ltac:(constructor; [exact DC|constructor])).
      destruct L as [_ _ _ _ LM LN]. constructor; [apply RW| | | |exact LM|exact LN].
      * intros _. rewrite EQH, relaid_positions. pose proof (wf_fits _ _ _ _ _ _ W Ho) as WFT. rewrite positions_snoc in WFT. exact WFT.
      * exact LC.
      * cbn [h' set_counts h_last_chunk]. lia.
      * unfold content. rewrite map_app, concat_app, BC. cbn. rewrite app_nil_r, app_assoc. reflexivity.
    + right. split; [reflexivity|]. split; [fold room; lia|]. split; [lia|]. unfold relaid.
      eexists h', _. split; [reflexivity|]. eapply header_decode_excess; [|exact HH|cbn [h' set_counts h_last_chunk h_chunk_size]; lia].
      destruct (wf_header _ _ _ _ _ _ W) as [Hv Hn]. unfold h', header_ok, header_nums_ok in *. cbn [set_counts h_version h_typesize h_chunk_size h_last_chunk h_nchunks h_max_app].
      repeat split; try tauto; unfold BUFMAX in *; lia.
  - destruct (w O) as [x0|e] eqn:W0.
    2:{ erewrite bind_run_raise; [|unfold onl, told; cbn [fst snd]; rewrite W0; reflexivity]. intros H. injection H as <- <-. left. reflexivity. }
    rewrite (bind_run _ _ _ (1%nat, mkfp f q []) x0) by (unfold onl, told; cbn [fst snd]; rewrite W0; reflexivity).
    destruct (calculate_nchunks (new_size - room) (CSInt (h_chunk_size h))) as [[[k c1] l1]|e] eqn:EN.
    2:{ rewrite (bind_lift_raise _ _ _ _ eq_refl). intros H. injection H as <- <-. left. reflexivity. }
    rewrite (bind_lift _ _ _ _ eq_refl).
    destruct (h_max_app h <? k) eqn:HK.
    { intros H. injection H as <- <-. left. reflexivity. }
    pose proof (calculate_partition (new_size - room) (CSInt (h_chunk_size h)) k c1 l1 ltac:(lia) EN) as (P1 & P2 & P3 & P4 & P5 & P6 & P7 & _).
    destruct (P7 ltac:(lia)) as (Q1 & Q2 & z & Qz & Qc). cbn in Qz. subst z.
    rewrite (bind_run _ _ _ _ _ (onr_run _ _ _ _ _ (f_seek_at lo _ ltac:(lia)))).
    destruct (compress_chunk_str E (append_bargs oa h) (xl ++ x0)) as [c|e] eqn:EC.
    2:{ rewrite (bind_lift_raise _ _ _ _ eq_refl). intros H. injection H as <- <-. left. reflexivity. }
    rewrite (bind_lift _ _ _ _ eq_refl).
    erewrite bind_run; [|apply onr_run; apply write_compressed_chunk_put; cbn [at_pos fpos]; lia].
    pose proof (ok_decompress E HE _ _ _ EC) as DC.
    cbn [fst snd]. set (f2 := put_at (stored E (h_checksum h) c) (at_pos lo (mkfp f q []))).
    set (k2 := mkCFS f2 0 h (zrep k (-1))).
    assert (PF : 0 <= fpos f2) by (apply put_at_pos; cbn; lia).
    destruct (pack_loop (compress_chunk_str E (append_bargs oa h)) (fps_put E) 0 (map (told w) (chunk_sizes k c1 l1)) (1%nat, k2)) as [[nf s] r1] eqn:PL.
    assert (ST0 : h_offsets (s_header k2) = true -> s_storage k2 = [] ++ repeat (-1) (List.length (chunk_sizes k c1 l1) + 0)).
    { intros _. cbn [k2 s_storage app]. unfold zrep. f_equal. pose proof (zlen_chunk_sizes k c1 l1 ltac:(lia)). unfold zlen in *. lia. }
    destruct (loop_told w (append_bargs oa h) (chunk_sizes k c1 l1) 0 1%nat k2 [] 0%nat _ _ PF eq_refl ST0 PL) as (got & cs & HG & HC & SF & HR).
    cbn [k2 s_fp s_header snd] in SF, HR.
    assert (SF2 : s_fp s = put_at (stored E (h_checksum h) c ++ concat (map (stored E (h_checksum h)) cs)) (mkfp f lo [])).
    { rewrite SF. unfold f2. rewrite put_put by (cbn; lia). reflexivity. }
    set (Y := concat (map (stored E (h_checksum h)) cs)) in *.
    destruct (half_way _ _ _ _ _ _ _ _ _ c (xl ++ x0) Y L DC) as (tail' & L'). fold lo in L'.
    assert (HW : fdata (s_fp s) = write_at f lo (stored E (h_checksum h) c ++ Y)) by (rewrite SF2; reflexivity).
    rewrite <- HW in L'. rewrite app_assoc, <- BC in L'.
    destruct r1 as [[]|e].
    2:{ intros H. injection H as <- <-. right. left. exists x0. eexists _, tail'. split; [exact W0|]. split; [exact L'|eexists; exact HW]. }
    destruct HR as [HLN HST]. specialize (HST Ho). cbn [app repeat] in HST. rewrite app_nil_r in HST.
    set (h' := set_counts h l1 (h_nchunks h + k) (h_max_app h - k)).
    pose proof (lo_c _ _ _ _ _ _ _ L) as LC.
    assert (HO : header_ok h').
    { destruct (wf_header _ _ _ _ _ _ W) as [Hv Hn]. unfold h', header_ok, header_nums_ok in *. cbn [set_counts h_version h_typesize h_chunk_size h_last_chunk h_nchunks h_max_app].
      repeat split; try tauto; lia. }
    rewrite (bind_lift _ _ _ _ (header_encode_ok _ HO)).
    rewrite (bind_run _ _ _ _ _ (onr_run _ _ _ _ _ (f_seek_at 0 _ ltac:(lia)))).
    rewrite (bind_run _ _ _ _ _ (onr_run _ _ _ _ _ (f_write_put _ _))).
    rewrite <- (lo_meta _ _ _ _ _ _ _ L), (loose_offsets_pos _ _ _ _ _ _ _ _ L), (lo_meta _ _ _ _ _ _ _ L).
    pose proof (zlen_nonneg (osect_bytes E o)) as NO.
    rewrite (bind_run _ _ _ _ _ (onr_run _ _ _ _ _ (f_seek_at (32 + zlen (osect_bytes E o)) _ ltac:(lia)))).
    rewrite HST.
    set (cs' := (c, xl ++ x0) :: combine cs got).
    assert (MF : map fst (combine cs got) = cs /\ map snd (combine cs got) = got /\ Forall (chunk_ok E) (combine cs got)).
    { clear -HC HE. induction HC as [|x y l l' H HC IH]; [repeat split; constructor|]. cbn [combine map fst snd]. destruct IH as (A & B & C). rewrite A, B.
      split; [reflexivity|]. split; [reflexivity|]. constructor; [|exact C]. exact (ok_decompress E HE _ _ _ H). }
    destruct MF as (MF & MS & MC).
    assert (PS : positions E h o (cs0 ++ [(cl, xl)]) ++ pos_from (fpos f2) (map (stored E (h_checksum h)) cs) = positions E h' o (cs0 ++ cs')).
    { unfold h'. rewrite relaid_positions, positions_snoc, <- app_assoc. f_equal. fold lo. cbn [cs' map fst pos_from app]. f_equal.
      unfold f2; cbn [put_at fpos at_pos]. rewrite <- (map_map fst (stored E (h_checksum h))), MF. reflexivity. }
    rewrite PS. unfold write_offsets.
    assert (BD : stored E (h_checksum h) c ++ Y = body E (h_checksum h) cs').
    { rewrite body_stored. cbn [cs' map fst concat]. rewrite MF. reflexivity. }
    assert (ZC : zlen cs' = k + 1).
    { unfold cs'. pose proof (zlen_chunk_sizes k c1 l1 ltac:(lia)) as ZK. rewrite <- MS, map_length in HLN. unfold zlen, bytes in *. cbn [List.length]. lia. }
    destruct (encode_offsets (positions E h' o (cs0 ++ cs'))) as [raw|e] eqn:EO.
    + destruct (encode_offsets_inv _ _ EO) as [FT ->].
      erewrite bind_run; [|apply onr_run; rewrite (bind_lift _ _ _ _ eq_refl); apply f_write_put].
      intros H. pose proof (f_equal fst H) as H1. pose proof (f_equal snd H) as H2. clear H. cbn [ret put_at at_pos fdata fpos snd fst] in H1, H2. subst f' r.
      exists (x0 :: got). split; [apply heard_cons; auto|]. split.
      { rewrite zlen_cons. rewrite <- MS. unfold zlen. rewrite map_length. unfold cs' in ZC. rewrite zlen_cons in ZC. unfold zlen in ZC. clear -ZC. unfold bytes in *. lia. }
      left. exists h', (cs0 ++ cs'). eexists. split; [|split; [reflexivity|split; [lia|]]].
      2:{ cbn [h' set_counts h_last_chunk]. replace (k =? 0) with false by lia. unfold room in *. clear -Qc P2 P3 P1 Q1 Q2. unfold bytes in *. destruct (Z.eq_dec k 1) as [->|]; [lia|]. assert (c1 = h_chunk_size h) by nia. rewrite H in P2. nia. }
      rewrite HW, BD. pose proof (extended_data E _ _ _ _ _ _ _ l1 k cs' W Ho ltac:(lia) ZC) as ED. cbv zeta in ED. fold lo h' in ED. rewrite ED.
      pose proof (relaid_wf_at E _ _ _ _ _ _ _ l1 k cs' (stored E (h_checksum h) cl ++ tail) W) as RW. cbv zeta in RW. fold h' in RW.
      specialize (RW HO ZC ltac:(lia) ltac:(constructor; [exact DC|exact MC]) (fun _ => FT)).
      destruct L as [_ _ _ _ LM LN]. constructor; [exact RW| | | |exact LM|exact LN].
      * exact LC.
      * cbn [h' set_counts h_last_chunk]. lia.
      * unfold content. rewrite map_app, concat_app. cbn [cs' map snd concat]. rewrite MS, BC. unfold content. rewrite <- !app_assoc. reflexivity.
    + erewrite bind_run_raise; [|apply onr_run; rewrite (bind_lift_raise _ _ _ _ eq_refl); reflexivity].
      intros H. pose proof (f_equal fst H) as H1. pose proof (f_equal snd H) as H2. clear H. cbn [ret put_at at_pos fdata fpos snd fst] in H1, H2. subst f' r. right. right.
      destruct (encode_offsets_outcome _ _ EO) as (-> & p & IN & OUT). split; [reflexivity|].
      unfold positions in IN.
      assert (R0 : 0 <= body_pos E h' o) by (unfold h'; rewrite body_pos_counts; lia).
      pose proof (pos_from_range (body_pos E h' o) (map (fun cx => stored E (h_checksum h') (fst cx)) (cs0 ++ cs')) R0) as PR.
      rewrite Forall_forall in PR. specialize (PR p IN). unfold end_from in PR. fold (body E (h_checksum h') (cs0 ++ cs')) in PR.
      replace (h_checksum h') with (h_checksum h) in PR by reflexivity. rewrite body_app, zlen_app in PR.
      replace (body_pos E h' o) with (body_pos E h o) in PR by (unfold h'; rewrite body_pos_counts; reflexivity).
      pose proof (write_at_ge (fdata (s_fp s)) 0 (header_bytes h')) as G1. pose proof (write_at_ge f lo (body E (h_checksum h) cs')) as [_ G2].
      assert (NEB : body E (h_checksum h) cs' <> []).
      { rewrite <- BD. intros X. apply app_eq_nil in X as [X _]. destruct (chunk_ok_len E HE _ _ DC) as [L16 _]. pose proof (zlen_stored E HE (h_checksum h) c) as ZS.
        rewrite X, zlen_nil in ZS. pose proof (cks_size_nonneg (h_checksum h)). lia. }
      specialize (G2 ltac:(lia) NEB).
      rewrite <- BD, <- HW in G2. rewrite BD in G2. change (size (write_at (fdata (s_fp s)) 0 (header_bytes h'))) with (zlen (write_at (fdata (s_fp s)) 0 (header_bytes h'))).
      unfold lo in G2. clear -PR OUT G1 G2 NB BP. change (- 2 ^ 63) with (-9223372036854775808) in *. change (2 ^ 63) with 9223372036854775808 in *. lia.
Qed.

(** ** From an archive *)
Theorem stream_success f b m new_size w oa f' k : archive E f b m -> 0 <= new_size -> append_stream E f new_size w oa = (f', Ok k) ->
  exists got, zlen got = k + 1 /\ Forall2 (fun i x => w i = Ok x) (seq 0 (List.length got)) got /\
    unpack_bytes_from_bytes E f' = Ok (b ++ concat got, m) /\
    F_chunk f' * (F_n f' - 1) + F_last f' = size b + new_size /\ F_n f' = F_n f + k /\ F_max f' = F_max f - k /\ F_chunk f' = F_chunk f.
Proof.
  intros HA HN H. destruct (archive_arch E HE _ _ _ HA) as (h & o & cs & tail & A). destruct (size_from_header E HE _ _ _ HA) as (SH & _ & _ & LC & _).
  destruct (arch_split E _ _ _ _ _ _ _ A) as (cs0 & cl & xl & -> & LN & SZ & LX & CO & HC & N1 & L1 & CB & BC).
  pose proof (arch_loose _ _ _ _ _ _ _ A) as L. pose proof (wf_fields E HE _ _ _ _ _ (lo_wf _ _ _ _ _ _ _ L)) as F.
  pose proof (stream_loose _ _ _ _ _ _ _ _ _ _ _ _ _ _ L HN H) as (got & G1 & G2 & G3). rewrite LX in G3.
  rewrite (fi_n _ _ _ _ F), (fi_chunk _ _ _ _ F), (fi_last _ _ _ _ F) in *. rewrite (fi_max _ _ _ _ F).
  exists got. split; [exact G2|]. split; [exact G1|].
  destruct G3 as [(h' & cs' & tail' & L' & EH & NK & SZ')|(-> & LE & GT & _)].
  - pose proof (wf_fields E HE _ _ _ _ _ (lo_wf _ _ _ _ _ _ _ L')) as F'. rewrite (fi_n _ _ _ _ F'), (fi_chunk _ _ _ _ F'), (fi_last _ _ _ _ F'), (fi_max _ _ _ _ F').
    split; [exact (loose_unpack _ _ _ _ _ _ _ L')|]. destruct (k =? 0); rewrite EH; cbn [set_counts h_chunk_size h_nchunks h_max_app h_last_chunk]; nia.
  - lia.
Qed.

Theorem stream_failure f b m new_size w oa f' e : archive E f b m -> 0 <= new_size -> append_stream E f new_size w oa = (f', Raise e) ->
  f' = f \/
  (exists x0, w O = Ok x0 /\ unpack_bytes_from_bytes E f' = Ok (b ++ x0, m) /\ sub 0 32 f' = sub 0 32 f) \/
  (e = StructError /\ 2 ^ 63 <= size f').
Proof.
  intros HA HN H. destruct (archive_arch E HE _ _ _ HA) as (h & o & cs & tail & A).
  destruct (arch_split E _ _ _ _ _ _ _ A) as (cs0 & cl & xl & -> & _).
  pose proof (arch_loose _ _ _ _ _ _ _ A) as L.
  destruct (stream_loose _ _ _ _ _ _ _ _ _ _ _ _ _ _ L HN H) as [->|[(x0 & cs' & tail' & W0 & L' & _)|X]]; [left; reflexivity| |right; right; exact X].
  right; left. exists x0. split; [exact W0|]. split; [exact (loose_unpack _ _ _ _ _ _ _ L')|].
  rewrite (wf_bytes _ _ _ _ _ _ (lo_wf _ _ _ _ _ _ _ L')), (wf_bytes _ _ _ _ _ _ (lo_wf _ _ _ _ _ _ _ L)).
  change (header_bytes h ++ ?x) with ([] ++ header_bytes h ++ x).
  rewrite !sub_at by (reflexivity || (change size with (@zlen byte); rewrite zlen_header_bytes; reflexivity)). reflexivity.
Qed.

(** Reading fails once the last chunk has been rewritten. *)
Theorem stream_leak f b m new_size w oa x0 e : archive E f b m -> has_offsets f = true ->
  0 < F_chunk f -> F_chunk f - F_last f < new_size ->
  (new_size - (F_chunk f - F_last f) + F_chunk f - 1) / F_chunk f <= F_max f ->
  blosc_args_ok E (effective f oa) -> size x0 <= F_chunk f - F_last f ->
  w O = Ok x0 -> w 1%nat = Raise e ->
  exists f', append_stream E f new_size w oa = (f', Raise e) /\ unpack_bytes_from_bytes E f' = Ok (b ++ x0, m).
Proof.
  intros HA FO FC FN FM BO SX W0 W1. destruct (archive_arch E HE _ _ _ HA) as (h & o & cs & tail & A).
  destruct (size_from_header E HE _ _ _ HA) as (_ & _ & _ & LC & BM & _).
  destruct (arch_split E _ _ _ _ _ _ _ A) as (cs0 & cl & xl & -> & LN & SZ & LX & CO & HC & N1 & L1 & CB & BC).
  pose proof (arch_loose _ _ _ _ _ _ _ A) as L. pose proof (lo_wf _ _ _ _ _ _ _ L) as W. pose proof (wf_fields E HE _ _ _ _ _ W) as F.
  unfold effective in BO. rewrite (fi_typesize _ _ _ _ F) in BO. fold (append_bargs oa h) in BO.
  rewrite (fi_offsets _ _ _ _ F) in FO. rewrite (fi_chunk _ _ _ _ F), (fi_last _ _ _ _ F) in *. rewrite (fi_max _ _ _ _ F) in FM.
  set (room := h_chunk_size h - h_last_chunk h) in *.
  destruct (ok_compress_total E HE (append_bargs oa h) (xl ++ x0) BO) as (c & EC).
  { change size with (@zlen byte) in *. rewrite zlen_app, LX. unfold room in SX. lia. }
  pose proof (ok_decompress E HE _ _ _ EC) as DC.
  set (lo := body_pos E h o + zlen (body E (h_checksum h) cs0)).
  assert (RUN : append_from E (told w) new_size oa (O, fp_of f) = ((2%nat, put_at (stored E (h_checksum h) c) (mkfp f lo [])), Raise e)).
  2:{ unfold append_stream. rewrite RUN. eexists. split; [reflexivity|]. cbn [fst snd s_fp put_at at_pos fdata fpos].
      destruct (half_way _ _ _ _ _ _ _ _ _ c (xl ++ x0) [] L DC) as (tail' & L'). fold lo in L'. rewrite app_nil_r in L'.
      rewrite BC, <- app_assoc. exact (loose_unpack _ _ _ _ _ _ _ L'). }
  destruct (from_start (told w) _ _ _ _ _ _ _ _ _ new_size oa O L FO) as (q & ->). fold lo.
  pose proof (body_pos_nonneg E _ _ _ _ _ W) as BP. pose proof (zlen_nonneg (body E (h_checksum h) cs0)) as NB.
  unfold tail_from. cbn [b_header b_offsets]. cbv zeta. rewrite LX. fold room. replace (new_size <=? room) with false by lia.
  rewrite (bind_run _ _ _ (1%nat, mkfp f q []) x0) by (unfold onl, told; cbn [fst snd]; rewrite W0; reflexivity).
  destruct (wf_header _ _ _ _ _ _ W) as [_ HN]. unfold header_nums_ok in HN.
  assert (KK : exists r, calculate_nchunks (new_size - room) (CSInt (h_chunk_size h)) = Ok r).
  { apply calculate_accepts. right. split; [lia|]. exists (h_chunk_size h). split; [reflexivity|]. split; lia. }
  destruct KK as ([[k c1] l1] & EN). rewrite (bind_lift _ _ _ _ EN).
  pose proof (calculate_partition (new_size - room) (CSInt (h_chunk_size h)) k c1 l1 ltac:(lia) EN) as (P1 & P2 & P3 & P4 & P5 & P6 & P7 & _).
  destruct (P7 ltac:(lia)) as (Q1 & Q2 & z & Qz & Qc). cbn in Qz. subst z.
  assert (KM : k <= h_max_app h).
  { assert (k = (new_size - room + h_chunk_size h - 1) / h_chunk_size h); [|lia].
    destruct (Z.eq_dec k 1) as [->|].
    - apply (Z.div_unique _ _ _ (new_size - room - 1)); lia.
    - assert (c1 = h_chunk_size h) by (clear -Qc P2 P3 P1 Q1 Q2 n; nia). apply (Z.div_unique _ _ _ (l1 - 1)); [lia|]. rewrite H in P2. nia. }
  replace (h_max_app h <? k) with false by lia.
  rewrite (bind_run _ _ _ _ _ (onr_run _ _ _ _ _ (f_seek_at lo _ ltac:(lia)))).
  rewrite (bind_lift _ _ _ _ EC).
  erewrite bind_run; [|apply onr_run; apply write_compressed_chunk_put; cbn [at_pos fpos]; lia].
  assert (CS : exists z zs, chunk_sizes k c1 l1 = z :: zs).
  { unfold chunk_sizes, zrep. destruct (Z.to_nat (k - 1)); cbn [repeat app]; eauto. }
  destruct CS as (z & zs & ->). cbn [map pack_loop fst snd].
  erewrite bind_run_raise; [|unfold onl, told; cbn [fst snd]; rewrite W1; reflexivity].
  reflexivity.
Qed.

(** ** Packing *)
Lemma yields_told w sizes : forall j l j', yields (map (told w) sizes) j l j' -> heard w j l /\ List.length l = List.length sizes.
Proof.
  induction sizes as [|z sizes IH]; intros j [|x l] j'; cbn [map yields]; try tauto; [intros _; split; [constructor|reflexivity]|].
  intros (s1 & R & Y). unfold told in R. injection R as <- R. apply IH in Y as [H L]. split; [apply heard_cons; auto|cbn [List.length]; congruence].
Qed.
Lemma heard_same w l : forall j l', heard w j l -> heard w j l' -> List.length l = List.length l' -> l = l'.
Proof.
  induction l as [|x l IH]; intros j [|y l'] H H' L; cbn [List.length] in *; try discriminate; [reflexivity|].
  unfold heard in *. cbn [List.length seq] in *. inversion H; inversion H'; subst. f_equal; [congruence|]. eapply IH; eauto.
Qed.
Lemma pack_stream_loose a w csa m oba obp oma f : 0 <= a -> pack_stream E a w csa m oba obp oma = (f, Ok tt) ->
  exists n c l h o cs got, calculate_nchunks a csa = Ok (n, c, l) /\ h_nchunks h = n /\ h_chunk_size h = c /\ h_last_chunk h = l /\
    heard w 0 got /\ zlen got = n /\ loose f h o cs [] (concat got) (norm m).
Proof.
  intros Ha H. unfold pack_stream, pack_from in H. destruct (calculate_nchunks a csa) as [[[n c] l]|e] eqn:EN; [|discriminate].
  pose proof (calculate_partition _ _ _ _ _ Ha EN) as CP.
  destruct (pack _ _ _ _ _ _ _ _ _ _) as [[j k] [r|e]] eqn:P; [|discriminate]. injection H as H.
  assert (H1 : 1 <= n) by lia.
  assert (ZS : zlen (ps_steps (source_from E (told w)) n c l) = n) by (cbn [source_from ps_steps]; rewrite zlen_map; apply zlen_chunk_sizes; lia).
  destruct (pack_inv E HE _ _ _ _ _ _ _ _ H1 ZS _ _ _ _ P) as (h & o & got & cs & PI).
  destruct (pack_run E HE _ _ _ _ _ _ _ _ H1 ZS _ _ _ _ _ _ PI) as (oma' & k' & R & D & _).
  rewrite P in R. assert (k = k') as <- by congruence. rewrite H in D.
  pose proof (pack_inputs_header E _ _ _ _ _ _ _ _ _ _ _ _ _ _ PI) as (Hok & Hv & Ho & Hmd & Hck & Hts & Hcs & Hl & Hnc).
  assert (W : wf E f h o (combine cs got) []).
  { rewrite D. rewrite <- (map_id got).
    apply (pack_inputs_wf E HE (source_from E (told w)) n c l m oba obp oma H1 ZS (fun x => x) O j h o got cs); [|exact PI].
    intros x z Hz. cbn in Hz. unfold compress_chunk_str in Hz. eauto. }
  destruct PI. destruct (yields_told _ _ _ _ _ pi_yields) as [HG LG]. apply F2_length in pi_comp.
  destruct (meta_plan_ok E HE m oma o pi_meta) as (_ & MS & MV).
  exists n, c, l, h, o, (combine cs got), got. split; [reflexivity|]. split; [exact Hnc|]. split; [exact Hcs|]. split; [exact Hl|]. split; [exact HG|]. split.
  { unfold zlen. rewrite LG. pose proof (zlen_chunk_sizes n c l H1) as ZC. exact ZC. }
  constructor; [exact W|lia|lia| | |].
  - unfold content. rewrite combine_snd by lia. reflexivity.
  - rewrite MV. destruct m; reflexivity.
  - rewrite MS. destruct m; cbn; discriminate.
Qed.
Theorem pack_stream_success a w csa m oba obp oma f : 0 <= a -> pack_stream E a w csa m oba obp oma = (f, Ok tt) ->
  exists got, zlen got = F_n f /\ Forall2 (fun i x => w i = Ok x) (seq 0 (List.length got)) got /\
    unpack_bytes_from_bytes E f = Ok (concat got, norm m) /\
    F_chunk f * (F_n f - 1) + F_last f = a.
Proof.
  intros Ha H. destruct (pack_stream_loose _ _ _ _ _ _ _ _ Ha H) as (n & c & l & h & o & cs & got & EN & Hn & Hc & Hl & HG & LG & L).
  pose proof (wf_fields E HE _ _ _ _ _ (lo_wf _ _ _ _ _ _ _ L)) as F. pose proof (calculate_partition _ _ _ _ _ Ha EN) as CP.
  rewrite (fi_n _ _ _ _ F), (fi_chunk _ _ _ _ F), (fi_last _ _ _ _ F). exists got. split; [congruence|]. split; [exact HG|].
  split; [exact (loose_unpack _ _ _ _ _ _ _ L)|]. rewrite Hn, Hc, Hl. lia.
Qed.

Lemma prefix_fail n c l m oba obp oma k e : 1 <= n ->
  pack_prefix (fp_sink E) n c l m oba obp oma (cfs_of (fp_of [])) = (k, Raise e) ->
  fdata (s_fp k) = [] \/ exists h, fdata (s_fp k) = header_bytes h /\ header_ok h /\ h_version h = 3 /\ h_metadata h = true.
Proof.
  intros Hn H. unfold pack_prefix in H.
  destruct (handle_max_apps _ _ _) as [mx|e1]; [|injection H as <- _; auto].
  rewrite (bind_lift _ _ _ _ eq_refl) in H.
  destruct (mk_header _ _ _ _ _ _ _ _ _) as [h|e1] eqn:Hh; [|injection H as <- _; auto].
  rewrite (bind_lift _ _ _ _ eq_refl) in H.
  pose proof (mk_header_ok _ _ _ _ _ _ _ _ _ _ Hh) as Hok.
  pose proof (mk_header_Ok _ _ _ _ _ _ _ _ _ _ Hh) as (_ & Hnum & ck & Hck & Hheq). unfold header_nums_ok in Hnum.
  assert (Hnc : h_nchunks h = n) by (rewrite Hheq; reflexivity).
  assert (Hv : h_version h = 3) by (rewrite Hheq; reflexivity).
  assert (Hmd : h_metadata h = negb (is_none m)) by (rewrite Hheq; reflexivity). clear Hheq.
  cbn [fp_sink cs_configure cs_write_header cs_write_metadata cs_init_offsets cs_put cs_finalize] in H.
  set (k0 := fps_configure (the_bargs oba) h (cfs_of (fp_of []))) in H.
  rewrite (bind_run _ _ _ k0 tt) in H by reflexivity.
  set (k1 := mkCFS (grow (fp_of []) (header_bytes h)) 0 h []).
  rewrite (bind_run _ _ _ k1 tt) in H.
  2:{ unfold fps_write_header, on_fp, k0, fps_configure, cfs_of; cbn [s_header s_fp s_meta_total s_storage].
      rewrite (bind_lift _ _ _ _ (header_encode_ok h Hok)), f_write_end by reflexivity. reflexivity. }
  assert (IO : forall fpx mt a, (fps_init_offsets ;;; ret a) (mkCFS fpx mt h []) <> (k, Raise e) :> cfs * res (option margs)).
  { intros fpx mt a HI. unfold fps_init_offsets, bind in HI. cbn [s_header s_fp s_meta_total] in HI.
    destruct (h_offsets h); [|discriminate HI]. unfold total_prospective_chunks in HI. replace (0 <=? h_nchunks h) with true in HI by lia.
    discriminate HI. }
  destruct (is_none m) eqn:Hm.
  { rewrite (bind_run _ _ _ k1 oma) in H by reflexivity. exfalso. exact (IO _ _ _ H). }
  assert (A1 : at_end (s_fp k1)) by (apply at_end_grow; reflexivity).
  destruct (plan_metadata E m (the_margs oma)) as [[[mh p] a'']|e1] eqn:HP.
  - erewrite (bind_run _ _ k1) in H.
    2:{ erewrite (bind_run _ _ k1); [reflexivity|]. unfold fps_write_metadata. erewrite (bind_run _ _ k1); [reflexivity|].
        unfold on_fp. erewrite write_metadata_run by (eauto; cbn; unfold zlen; lia).
        rewrite put_at_end by exact A1. reflexivity. }
    cbn [s_header s_storage k1] in H. exfalso. exact (IO _ _ _ H).
  - right. erewrite (bind_run_raise _ _ k1) in H.
    2:{ erewrite (bind_run_raise _ _ k1); [reflexivity|]. unfold fps_write_metadata. erewrite (bind_run_raise _ _ k1); [reflexivity|].
        unfold on_fp. rewrite (write_metadata_raise E _ _ _ _ HP). reflexivity. }
    injection H as <- _. exists h. auto.
Qed.

Lemma header_alone h : header_ok h -> h_version h = 3 -> h_metadata h = true -> exists e, unpack_core E (header_bytes h) = ([], Raise e).
Proof.
  intros W1 W2 W3. rewrite (unpack_core_pure E). unfold read_beginning.
  destruct (mheader_decode (ztake METADATA_HEADER_LENGTH [])) as [x|e] eqn:MD; [exfalso; vm_compute in MD; discriminate MD|].
  exists e. set (f0 := fp_of _).
  assert (R0 : rest f0 = header_bytes h ++ []) by (unfold f0; rewrite rest_fp_of, app_nil_r; reflexivity).
  rewrite (bind_run _ _ _ _ _ (read_header_ok h _ _ W1 W2 R0)), W3.
  pose proof (rest_adv_app 32 f0 _ _ ltac:(cbn; lia) R0 (zlen_header_bytes h)) as R1.
  erewrite bind_run_raise; [reflexivity|]. erewrite bind_run_raise; [reflexivity|]. unfold read_metadata.
  rewrite (bind_run _ _ _ _ _ (f_read_gen METADATA_HEADER_LENGTH _ ltac:(discriminate))), R1.
  rewrite (bind_lift_raise _ _ _ _ MD). reflexivity.
Qed.

Lemma loop_keeps w ba sizes : forall i j k st' r, pack_loop (compress_chunk_str E ba) (fps_put E) i (map (told w) sizes) (j, k) = (st', r) ->
  s_header (snd st') = s_header k /\ s_meta_total (snd st') = s_meta_total k.
Proof.
  induction sizes as [|z sizes IH]; intros i j k st' r; cbn [map pack_loop]; [intros H; injection H as <- _; auto|].
  unfold bind at 1. unfold onl, told at 1. cbn [fst snd]. destruct (w j) as [x|e]; [|intros H; injection H as <- _; auto].
  unfold bind at 1. unfold lift. destruct (compress_chunk_str E ba x) as [c|e]; [|intros H; injection H as <- _; auto].
  unfold bind at 1. unfold onr at 1. cbn [fst snd].
  assert (K : s_header (fst (fps_put E i c k)) = s_header k /\ s_meta_total (fst (fps_put E i c k)) = s_meta_total k).
  { unfold fps_put, bind, on_fp, f_tell. cbn [fst snd s_header s_fp s_meta_total s_storage].
    destruct (write_compressed_chunk _ _ _) as [f1 [[]|e]]; cbn [fst snd s_header s_fp s_meta_total s_storage]; [|auto].
    destruct (h_offsets _); [|cbn; auto]. destruct (set_nth _ _ _); cbn; auto. }
  destruct (fps_put E i c k) as [k1 [[]|e]]; cbn [fst snd] in *.
  - intros H. apply IH in H as [-> ->]. exact K.
  - intros H. injection H as <- _. exact K.
Qed.

(** A pack that fails once the chunks have begun *)
Lemma pack_stream_after a w csa m oba obp oma f e n c l h o oma' : calculate_nchunks a csa = Ok (n, c, l) -> 1 <= n ->
  pack_prefix (fp_sink E) n c l m oba obp oma (cfs_of (fp_of [])) = (start_state E h o, Ok oma') ->
  header_ok h -> h_version h = 3 -> h_nchunks h = n -> h_metadata h = is_some o -> osect_ok E o ->
  pack_stream E a w csa m oba obp oma = (f, Raise e) ->
  (exists got, heard w 0 got /\ zlen got < n /\
    match w (List.length got) with Raise e' => e = e' | Ok x => e_compress E (the_bargs oba) x = Raise e end /\
    unpack_core E f = (concat got, Raise IndexError)) \/
  (e = StructError /\ 2 ^ 63 <= size f /\ exists got, heard w 0 got /\ zlen got = n).
Proof.
  intros EN Hn HP Hok Hv Hnc Hmd SO H. unfold pack_stream, pack_from in H. rewrite EN, pack_split, HP in H.
  unfold pack_rest in H. cbn [source_from ps_steps ps_compress fp_sink cs_put cs_finalize] in H.
  destruct (pack_loop (compress_chunk_str E (the_bargs oba)) (fps_put E) 0 (map (told w) (chunk_sizes n c l)) (O, start_state E h o)) as [[j k4] r4] eqn:PL.
  assert (A3 : at_end (s_fp (start_state E h o))) by (apply at_end_grow; reflexivity).
  pose proof (zlen_chunk_sizes n c l Hn) as ZC.
  destruct (loop_told w (the_bargs oba) (chunk_sizes n c l) 0 O (start_state E h o) [] 0%nat (j, k4) r4) as (got & cs & HG & HC & SF & HR); auto.
  { rewrite A3. apply zlen_nonneg. }
  { intros Hoo. cbn [start_state s_header s_storage] in *. rewrite Hoo. unfold zrep. cbn [app]. f_equal. unfold zlen in ZC. lia. }
  cbn [snd start_state s_fp s_header] in SF, HR. rewrite put_at_end, grow_grow in SF by (apply at_end_grow; reflexivity).
  assert (G : Forall2 (good E) got cs) by (apply (decompressed E HE (the_bargs oba)); exact HC).
  assert (D : fdata (s_fp k4) = header_bytes h ++ osect_bytes E o ++ tbl0 h ++ body E (h_checksum h) (combine cs got)).
  { rewrite SF, (combine_body E _ _ _ G). cbn [grow fp_of fdata app]. rewrite <- !app_assoc. reflexivity. }
  pose proof (F2_length _ _ _ G) as LG.
  destruct r4 as [[]|e1].
  - rewrite (bind_run _ _ _ _ _ PL) in H. right. destruct HR as [LN HR].
    destruct (loop_keeps _ _ _ _ _ _ _ _ PL) as [K1 K2]. cbn [snd start_state s_header s_meta_total] in K1, K2.
    unfold bind at 1, onr in H. cbn [fst snd] in H. unfold fps_finalize in H. rewrite K1 in H.
    destruct (h_offsets h) eqn:Hoo; [|discriminate H]. specialize (HR eq_refl). cbn [app repeat] in HR. rewrite app_nil_r in HR.
    unfold on_fp in H. rewrite K2 in H. pose proof (zlen_nonneg (osect_bytes E o)) as Z0. unfold BLOSCPACK_HEADER_LENGTH in H.
    rewrite (bind_run _ _ _ _ _ (f_seek_ok (32 + zlen (osect_bytes E o)) _ ltac:(lia))) in H.
    unfold write_offsets in H. destruct (encode_offsets (s_storage k4)) as [x|e1] eqn:EO; [rewrite (bind_lift _ _ _ _ eq_refl) in H; discriminate H|].
    rewrite (bind_lift_raise _ _ _ _ eq_refl) in H. pose proof (f_equal fst H) as H1. pose proof (f_equal snd H) as H2. clear H.
    cbn [fst snd rbind s_fp fdata] in H1, H2. destruct (encode_offsets_outcome _ _ EO) as (EE & p & IN & OUT). rewrite HR in IN.
    split; [congruence|]. split; [|exists got; split; [exact HG|unfold zlen in *; lia]]. cbn [start_state s_fp] in IN.
    assert (R0 : 0 <= fpos (grow (fp_of []) (header_bytes h ++ osect_bytes E o ++ tbl0 h))) by (cbn [grow fp_of fpos]; apply zlen_nonneg).
    pose proof (pos_from_range _ (map (stored E (h_checksum h)) cs) R0) as PR.
    rewrite Forall_forall in PR. specialize (PR p IN). unfold end_from in PR. rewrite <- H1. change (size (fdata (s_fp k4))) with (zlen (fdata (s_fp k4))).
    rewrite SF. cbn [grow fp_of fdata fpos app] in *. rewrite zlen_app.
    clear -PR OUT R0. change (- 2 ^ 63) with (-9223372036854775808) in *. change (2 ^ 63) with 9223372036854775808 in *. lia.
  - unfold bind in H. rewrite PL in H. injection H as <- <-. left. exists got. split; [exact HG|]. destruct HR as [LT CA]. split; [unfold zlen in *; lia|]. split; [exact CA|]. rewrite D.
    rewrite unpack_parts by (auto; try lia; apply zlen_tbl0; auto; lia).
    replace (Z.to_nat (h_nchunks h)) with (List.length (combine cs got) + S (Z.to_nat (n - zlen got - 1)))%nat
      by (rewrite combine_length; unfold zlen in *; lia).
    rewrite <- (app_nil_r (body E _ _)).
    rewrite (uloop_ok E HE) by (apply good_chunk_ok; exact G). cbn [uloop]. change (zlen (@nil byte) <? 16) with true. cbv iota.
    cbn [fst snd]. rewrite app_nil_r. unfold content. rewrite combine_snd by lia. reflexivity.
Qed.

Theorem pack_stream_failure a w csa m oba obp oma f e : 0 <= a -> pack_stream E a w csa m oba obp oma = (f, Raise e) ->
  (exists got e', Forall2 (fun i x => w i = Ok x) (seq 0 (List.length got)) got /\ unpack_core E f = (concat got, Raise e')) \/
  (e = StructError /\ 2 ^ 63 <= size f).
Proof.
  intros Ha H0. pose proof H0 as H. unfold pack_stream, pack_from in H.
  assert (NIL : exists e', unpack_core E [] = ([], Raise e')) by (eexists; reflexivity).
  destruct NIL as [e0 NIL].
  destruct (calculate_nchunks a csa) as [[[n c] l]|e1] eqn:EN.
  2:{ injection H as <- _. left. exists [], e0. split; [constructor|exact NIL]. }
  pose proof (calculate_partition _ _ _ _ _ Ha EN) as CP. assert (Hn : 1 <= n) by lia.
  rewrite pack_split in H. destruct (pack_prefix _ _ _ _ _ _ _ _ _) as [k [oma'|e1]] eqn:HP.
  2:{ injection H as <- _. left. apply prefix_fail in HP as [HP|(h & HP & H1 & H2 & H3)]; [|destruct (header_alone h H1 H2 H3) as [e' HA]|exact Hn]; rewrite HP.
      - exists [], e0. split; [constructor|exact NIL].
      - exists [], e'. split; [constructor|exact HA]. }
  pose proof HP as HP2. apply prefix_inv in HP2 as (h & o & -> & Hok & Hv & Hnc & Ho & Hmd & SO & V); auto.
  destruct (pack_stream_after _ _ _ _ _ _ _ _ _ _ _ _ _ _ _ EN Hn HP Hok Hv Hnc Hmd SO H0) as [(got & G1 & _ & _ & G2)|R]; [left; eauto|right; tauto].
Qed.

Lemma prefix_same b csa m oba obp oma f0 : pack_bytes_to_bytes E b csa m oba obp oma = Ok f0 ->
  exists n c l oma' h o, calculate_nchunks (size b) csa = Ok (n, c, l) /\ 1 <= n /\ F_n f0 = n /\
    pack_prefix (fp_sink E) n c l m oba obp oma (cfs_of (fp_of [])) = (start_state E h o, Ok oma') /\
    header_ok h /\ h_version h = 3 /\ h_nchunks h = n /\ h_metadata h = is_some o /\ osect_ok E o /\ blosc_args_ok E (the_bargs oba).
Proof.
  intros H. pose proof H as H0. apply (pack_bytes_inv E HE) in H0 as (n & c & l & h & o & cs & Ec & P & Hf & _).
  pose proof (zlen_nonneg b) as Hb. pose proof (calculate_partition _ _ _ _ _ Hb Ec) as CP.
  pose proof (packed_header E _ _ _ _ _ _ _ _ _ _ _ P) as (_ & _ & _ & _ & _ & _ & _ & _ & Hnc).
  destruct (packed_wf E HE b n c l m oba obp oma h o cs) as [W _]; try lia; auto.
  pose proof (fi_n _ _ _ _ (wf_fields E HE _ _ _ _ _ W)) as FN. rewrite <- Hf, Hnc in FN.
  unfold pack_bytes_to_bytes, pack_bytes_core in H. rewrite Ec, pack_split in H.
  destruct (pack_prefix (fp_sink E) n c l m oba obp oma (cfs_of (fp_of []))) as [k [oma'|e]] eqn:HP; [|discriminate H].
  pose proof HP as HP2. apply prefix_inv in HP2 as (h' & o' & -> & Hok & Hv & Hn & Ho & Hmd & SO & V); [|exact HE|lia].
  exists n, c, l, oma', h', o'. rewrite HP. do 2 (split; [solve [exact Ec|lia]|]). split; [exact FN|]. do 6 (split; [auto; fail|]).
  destruct P as [_ _ _ PK _]. pose proof (zlen_chunk_sizes n c l ltac:(lia)) as ZC. destruct (chunk_sizes n c l) as [|z sz]; [rewrite zlen_nil in ZC; lia|].
  cbn [takes] in PK. inversion PK as [|x y ? ? HC]. exact (proj1 (ok_compress_only E HE _ _ _ HC)).
Qed.

(** every read returned something of at most BUFMAX bytes *)
Theorem pack_stream_total b csa m oba obp oma f0 w : pack_bytes_to_bytes E b csa m oba obp oma = Ok f0 ->
  (forall i, Z.of_nat i < F_n f0 -> exists x, w i = Ok x /\ size x <= BUFMAX) ->
  (exists f, pack_stream E (size b) w csa m oba obp oma = (f, Ok tt)) \/
  (exists f, pack_stream E (size b) w csa m oba obp oma = (f, Raise StructError) /\ 2 ^ 63 <= size f).
Proof.
  intros H HW. destruct (pack_stream E (size b) w csa m oba obp oma) as [f [[]|e]] eqn:PS; [left; eauto|]. right. exists f.
  destruct (prefix_same _ _ _ _ _ _ _ H) as (n & c & l & oma' & h & o & EN & Hn & FN & HP & Hok & Hv & Hnc & Hmd & SO & BA).
  destruct (pack_stream_after _ _ _ _ _ _ _ _ _ _ _ _ _ _ _ EN Hn HP Hok Hv Hnc Hmd SO PS) as [(got & _ & G1 & G2 & _)|(-> & LE & _)]; [|auto].
  exfalso. destruct (HW (List.length got)) as (x & W & SX); [rewrite FN; exact G1|]. rewrite W in G2.
  destruct (ok_compress_total E HE _ x BA SX) as [z Z]. congruence.
Qed.
(** a read that fails *)
Lemma heard_nth w got : forall j i, heard w j got -> (i < List.length got)%nat -> exists x, nth_error got i = Some x /\ w (j + i)%nat = Ok x.
Proof.
  induction got as [|x got IH]; intros j i H L; cbn [List.length] in L; [lia|].
  unfold heard in H. cbn [List.length seq] in H. inversion H; subst. destruct i as [|i]; [exists x; rewrite Nat.add_0_r; auto|].
  rewrite <- Nat.add_succ_comm. apply IH; [assumption|lia].
Qed.
Theorem pack_stream_read_error b csa m oba obp oma f0 w got e : pack_bytes_to_bytes E b csa m oba obp oma = Ok f0 ->
  Forall2 (fun i x => w i = Ok x) (seq 0 (List.length got)) got -> Forall (fun x => size x <= BUFMAX) got ->
  zlen got < F_n f0 -> w (List.length got) = Raise e ->
  exists f, pack_stream E (size b) w csa m oba obp oma = (f, Raise e) /\ unpack_core E f = (concat got, Raise IndexError).
Proof.
  intros H HG HB HL HW.
  destruct (prefix_same _ _ _ _ _ _ _ H) as (n & c & l & oma' & h & o & EN & Hn & FN & HP & Hok & Hv & Hnc & Hmd & SO & BA). rewrite FN in HL.
  assert (NO : forall got', heard w 0 got' -> (List.length got < List.length got')%nat -> False).
  { intros got' G L. destruct (heard_nth _ _ _ _ G L) as (x & _ & W). cbn [Nat.add] in W. congruence. }
  destruct (pack_stream E (size b) w csa m oba obp oma) as [f [[]|e1]] eqn:PS.
  - exfalso. destruct (pack_stream_loose _ _ _ _ _ _ _ _ (zlen_nonneg b) PS) as (n1 & c1 & l1 & _ & _ & _ & got' & EN1 & _ & _ & _ & HG' & LG & _).
    change (calculate_nchunks (zlen b) csa = Ok (n1, c1, l1)) in EN1. change (size b) with (zlen b) in EN. rewrite EN in EN1. injection EN1 as <- <- <-.
    apply (NO got' HG'). unfold zlen in *. lia.
  - destruct (pack_stream_after _ _ _ _ _ _ _ _ _ _ _ _ _ _ _ EN Hn HP Hok Hv Hnc Hmd SO PS) as [(got' & G0 & G1 & G2 & G3)|(_ & _ & got' & G0 & G1)].
    + assert (got' = got) as ->.
      { destruct (Nat.lt_trichotomy (List.length got) (List.length got')) as [LT|[EQ|GT]]; [exfalso; exact (NO got' G0 LT)|symmetry; exact (heard_same w got 0%nat got' HG G0 EQ)|exfalso].
        destruct (heard_nth _ _ _ _ HG GT) as (x & NX & W). cbn [Nat.add] in W. rewrite W in G2. apply nth_error_In in NX.
        rewrite Forall_forall in HB. destruct (ok_compress_total E HE _ x BA (HB _ NX)) as [z Z]. congruence. }
      rewrite HW in G2. subst e1. eauto.
    + exfalso. apply (NO got' G0). unfold zlen in *. lia.
Qed.

(** ** One append after another *)
Lemma streamed_inv f b m : streamed E f b m -> (exists h o cs tail, loose f h o cs tail b m) \/ dead f.
Proof.
  induction 1 as [f b m HA|a w csa m oba obp oma f got Ha HP HL HG|f b m n w oa f' k got HS IH HN HR HL HG|f b m n w oa f' e x0 HS IH HN HR HD HX H0].
  - destruct (archive_arch E HE _ _ _ HA) as (h & o & cs & tail & A). left. exists h, o, cs, tail. apply arch_loose. exact A.
  - destruct (pack_stream_loose _ _ _ _ _ _ _ _ Ha HP) as (n & c & l & h & o & cs & got' & EN & Hn & Hc & Hl & HG' & LG & L).
    assert (got' = got) as ->; [|left; eauto 6]. apply (heard_same w got' 0%nat got HG' HG).
    rewrite (fi_n _ _ _ _ (wf_fields E HE _ _ _ _ _ (lo_wf _ _ _ _ _ _ _ L))) in HL. unfold zlen in *. lia.
  - destruct IH as [(h & o & cs & tail & L)|D]; [|rewrite (dead_append _ _ _ _ D) in HR; discriminate].
    destruct (loose_split _ _ _ _ _ _ _ L) as (cs0 & cl & xl & -> & _).
    destruct (stream_loose _ _ _ _ _ _ _ _ _ _ _ _ _ _ L HN HR) as (got' & G1 & G2 & G3).
    assert (got' = got) as ->.
    { apply (heard_same w got' 0%nat got G1 HG). unfold zlen in *. lia. }
    destruct G3 as [(h' & cs' & tail' & L' & _)|(_ & _ & _ & D)]; [left; eauto 6|right; exact D].
  - destruct IH as [(h & o & cs & tail & L)|D]; [|rewrite (dead_append _ _ _ _ D) in HR; injection HR as <- <-; contradiction].
    destruct (loose_split _ _ _ _ _ _ _ L) as (cs0 & cl & xl & -> & _).
    destruct (stream_loose _ _ _ _ _ _ _ _ _ _ _ _ _ _ L HN HR) as [->|[(x1 & cs' & tail' & W0 & L' & _)|(-> & HZ)]]; [contradiction| |lia].
    rewrite H0 in W0. injection W0 as <-. left. eauto 6.
Qed.
Theorem streamed_unpack f b m : streamed E f b m -> unpack_bytes_from_bytes E f = Ok (b, m) \/ unpack_bytes_from_bytes E f = Raise ValueError.
Proof.
  intros H. destruct (streamed_inv _ _ _ H) as [(h & o & cs & tail & L)|D]; [left; exact (loose_unpack _ _ _ _ _ _ _ L)|right; exact (dead_unpack _ D)].
Qed.
(** An unreadable file stays as it is. *)
Theorem streamed_stuck f b m n w oa : streamed E f b m -> unpack_bytes_from_bytes E f = Raise ValueError ->
  append_stream E f n w oa = (f, Raise ValueError).
Proof.
  intros H U. destruct (streamed_inv _ _ _ H) as [(h & o & cs & tail & L)|D]; [|exact (dead_append _ _ _ _ D)].
  rewrite (loose_unpack _ _ _ _ _ _ _ L) in U. discriminate.
Qed.

(** ** Every source is one that answers with some sequence *)
Definition tracks {S T A} (m : SM (S * T) A) (m' : (nat -> res bytes) -> SM (nat * T) A) : Prop :=
  forall s t, exists tr, forall i w, (forall j, (j < List.length tr)%nat -> nth_error tr j = Some (w (i + j)%nat)) ->
    m' w (i, t) = ((i + List.length tr)%nat, snd (fst (m (s, t))), snd (m (s, t))).
Lemma t_right {S T A} (m : SM T A) : @tracks S T A (onr m) (fun _ => onr m).
Proof. intros s t. exists []. intros i w _. cbn [List.length]. rewrite Nat.add_0_r. unfold onr. cbn [fst snd]. destruct (m t). reflexivity. Qed.
Lemma t_const {S T A} (r : res A) : @tracks S T A (lift r) (fun _ => lift r).
Proof. intros s t. exists []. intros i w _. cbn [List.length]. rewrite Nat.add_0_r. reflexivity. Qed.
Lemma t_read {S T} (rd : Z -> SM S bytes) n : @tracks S T bytes (onl (rd n)) (fun w => onl (told w n)).
Proof.
  intros s t. exists [snd (rd n s)]. intros i w H. specialize (H O ltac:(cbn; lia)). cbn [nth_error] in H. injection H as H. rewrite Nat.add_0_r in H.
  unfold onl, told. cbn [fst snd List.length]. rewrite <- H. destruct (rd n s). cbn [fst snd]. rewrite Nat.add_1_r. reflexivity.
Qed.
Lemma t_bind {S T A B} (m : SM (S * T) A) m' (k : A -> SM (S * T) B) k' : tracks m m' -> (forall a, tracks (k a) (fun w => k' w a)) ->
  tracks (bind m k) (fun w => bind (m' w) (k' w)).
Proof.
  intros Hm Hk s t. destruct (Hm s t) as (tr & H1). destruct (m (s, t)) as [[s1 t1] [a|e]] eqn:M.
  - destruct (Hk a s1 t1) as (tr2 & H2). exists (tr ++ tr2). intros i w H.
    unfold bind. rewrite M, (H1 i w). 2:{ intros j Hj. rewrite <- (H j) by (rewrite app_length; lia). rewrite nth_error_app1 by exact Hj. reflexivity. }
    cbn [fst snd]. rewrite (H2 (i + List.length tr)%nat w).
    + rewrite app_length, Nat.add_assoc. reflexivity.
    + intros j Hj. specialize (H (List.length tr + j)%nat ltac:(rewrite app_length; lia)). rewrite nth_error_app2 in H by lia.
      replace (List.length tr + j - List.length tr)%nat with j in H by lia. rewrite Nat.add_assoc in H. exact H.
  - exists tr. intros i w H. unfold bind. rewrite M, (H1 i w H). reflexivity.
Qed.
Lemma t_loop {S T} (rd : Z -> SM S bytes) c (p : Z -> bytes -> SM T unit) sizes : forall i,
  tracks (pack_loop c p i (map rd sizes)) (fun w => pack_loop c p i (map (told w) sizes)).
Proof.
  induction sizes as [|z sizes IH]; intros i; cbn [map pack_loop]; [exact (t_const (Ok tt))|].
  apply (t_bind (onl (rd z)) (fun w => onl (told w z)) _ (fun w chunk => bind (lift (c chunk)) (fun x => bind (onr (p i x)) (fun _ => pack_loop c p (i + 1) (map (told w) sizes))))); [apply t_read|].
  intros x. apply (t_bind (lift (c x)) (fun _ => lift (c x)) _ (fun w x => bind (onr (p i x)) (fun _ => pack_loop c p (i + 1) (map (told w) sizes)))); [apply t_const|].
  intros y. apply (t_bind (onr (p i y)) (fun _ => onr (p i y)) _ (fun w _ => pack_loop c p (i + 1) (map (told w) sizes))); [apply t_right|]. intros _. apply IH.
Qed.
Definition finish {S} bg (offs : list Z) l1 k (st : list Z) : SM (S * fp) Z :=
  raw <- lift (header_encode (set_counts (b_header bg) l1 (h_nchunks (b_header bg) + k) (h_max_app (b_header bg) - k))) ;;
  onr (f_seek E 0) ;;;
  onr (f_write raw) ;;;
  onr (f_seek E (offsets_pos bg)) ;;;
  onr (write_offsets (offs ++ st)) ;;;
  ret k.
Ltac tb := match goal with |- tracks (bind ?m ?k) (fun w => bind (@?m' w) (@?k' w)) => apply (t_bind m m' k k'); [first [apply t_right|apply t_const|apply t_read]|] end.
Lemma t_finish {S} bg offs l1 k st : @tracks S fp Z (finish bg offs l1 k st) (fun _ => finish bg offs l1 k st).
Proof. unfold finish. do 5 (tb; intros ?). apply t_const. Qed.
Lemma t_from {S} (rd : Z -> SM S bytes) n oa : tracks (append_from E rd n oa) (fun w => append_from E (told w) n oa).
Proof.
  unfold append_from.
  tb. intros bg. cbv zeta. destruct (b_offsets bg) as [|o0 os]; [apply t_const|].
  tb. intros ba. tb. intros _. tb. intros r. tb. intros dec.
  destruct (n <=? _).
  - do 7 (tb; intros ?). apply t_const.
  - tb. intros fill. tb. intros [[k c1] l1]. destruct (_ <? _); [apply t_const|]. do 3 (tb; intros ?).
    intros s t. cbn [fst snd].
    destruct (t_loop rd (compress_chunk_str E ba) (fps_put E) (chunk_sizes k c1 l1) 0 s (mkCFS t 0 (b_header bg) (zrep k (-1)))) as (tr & H).
    destruct (pack_loop (compress_chunk_str E ba) (fps_put E) 0 (map rd (chunk_sizes k c1 l1)) (s, mkCFS t 0 (b_header bg) (zrep k (-1)))) as [[s1 t1] [[]|e]] eqn:PL.
    2:{ exists tr. intros i w HT. rewrite (H i w HT). reflexivity. }
    destruct (t_finish bg (o0 :: os) l1 k (s_storage t1) s1 (s_fp t1)) as (tr2 & H2).
    exists (tr ++ tr2). intros i w HT. rewrite (H i w). 2:{ intros j Hj. rewrite <- (HT j) by (rewrite app_length; lia). rewrite nth_error_app1 by exact Hj. reflexivity. }
    cbn [fst snd]. rewrite app_length, Nat.add_assoc. apply (H2 (i + List.length tr)%nat w).
    intros j Hj. specialize (HT (List.length tr + j)%nat ltac:(rewrite app_length; lia)). rewrite nth_error_app2 in HT by lia.
    replace (List.length tr + j - List.length tr)%nat with j in HT by lia. rewrite Nat.add_assoc in HT. exact HT.
Qed.
Theorem any_source {S} (rd : Z -> SM S bytes) (s : S) f n oa : exists w,
  append_stream E f n w oa = let r := append_from E rd n oa (s, fp_of f) in (fdata (snd (fst r)), snd r).
Proof.
  destruct (t_from rd n oa s (fp_of f)) as (tr & H). exists (fun i => nth i tr (Raise OSError)).
  unfold append_stream. rewrite (H O). 2:{ intros j Hj. rewrite Nat.add_0_l. apply nth_error_nth'. exact Hj. }
  reflexivity.
Qed.
Theorem any_pack_source {S} (rd : Z -> SM S bytes) (s : S) a csa m oba obp oma : exists w,
  pack_stream E a w csa m oba obp oma = pack_from E rd a csa m oba obp oma s.
Proof.
  unfold pack_stream, pack_from. destruct (calculate_nchunks a csa) as [[[n c] l]|e]; [|exists (fun _ => Ok []); reflexivity].
  destruct (pack_prefix (fp_sink E) n c l m oba obp oma (cfs_of (fp_of []))) as [k [oma'|e]] eqn:HP.
  2:{ exists (fun _ => Ok []). rewrite !pack_split, HP. reflexivity. }
  destruct (t_loop rd (compress_chunk_str E (the_bargs oba)) (fps_put E) (chunk_sizes n c l) 0 s k) as (tr & H).
  exists (fun i => nth i tr (Raise OSError)). rewrite !pack_split, HP. unfold pack_rest. cbn [source_from ps_steps ps_compress fp_sink cs_put cs_finalize].
  specialize (H O (fun i => nth i tr (Raise OSError))). cbn [Nat.add] in H. specialize (H ltac:(intros j Hj; apply nth_error_nth'; exact Hj)).
  unfold bind. rewrite H. destruct (pack_loop _ _ _ (map rd _) _) as [[s1 k1] [[]|e]]; cbn [fst snd]; [|reflexivity].
  unfold onr. cbn [fst snd]. destruct (fps_finalize E k1) as [k2 [[]|e]]; reflexivity.
Qed.
Theorem same_pack b csa m oba obp oma :
  pack_from E f_read (size b) csa m oba obp oma (fp_of b) =
  let r := pack_bytes_core E b csa m oba obp oma in (fdata (s_fp (fst r)), rbind (snd r) (fun _ => Ok tt)).
Proof.
  unfold pack_from, pack_bytes_core. change (size b) with (zlen b). destruct (calculate_nchunks (zlen b) csa) as [[[n c] l]|e]; [|reflexivity].
  change (@source_from E fp f_read) with (fp_source E). destruct (pack _ _ _ _ _ _ _ _ _ _) as [[s k] r]. reflexivity.
Qed.
End WithEnv.
