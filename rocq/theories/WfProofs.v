(** Well-formed Bloscpack files and what reading them yields. *)
From Verif Require Import Base PyVal Checksums Headers Args FileIO Spec BaseLemmas HeaderProofs IOProofs.
From Coq Require Import ZifyBool ZifyNat.
Ltac Zify.zify_post_hook ::= Z.div_mod_to_equations.

(** Positions of consecutive items starting at [p]. *)
Fixpoint pos_from (p : Z) (l : list bytes) : list Z :=
  match l with [] => [] | x :: r => p :: pos_from (p + zlen x) r end.

Definition end_from (p : Z) (l : list bytes) : Z := p + zlen (concat l).

Lemma zlen_pos_from p l : zlen (pos_from p l) = zlen l.
Proof. revert p; induction l; intros; cbn [pos_from]; [auto|]. rewrite !zlen_cons, IHl. reflexivity. Qed.
Lemma pos_from_app p l1 l2 : pos_from p (l1 ++ l2) = pos_from p l1 ++ pos_from (p + zlen (concat l1)) l2.
Proof.
  revert p; induction l1 as [|x l1 IH]; intros; cbn [pos_from app concat].
  - rewrite zlen_nil. f_equal. lia.
  - rewrite IH, zlen_app. f_equal. f_equal. f_equal. lia.
Qed.
Lemma pos_from_range p l : 0 <= p -> Forall (fun x => p <= x <= end_from p l) (pos_from p l).
Proof.
  unfold end_from. revert p; induction l as [|x l IH]; intros p Hp; cbn [pos_from]; constructor.
  - pose proof (zlen_nonneg (concat (x :: l))). lia.
  - pose proof (zlen_nonneg x). eapply Forall_impl; [|apply IH; lia].
    intros a Ha. cbn [concat]. rewrite zlen_app. cbn beta in Ha. lia.
Qed.
Lemma nth_pos_from p l1 x l2 : nth_error (pos_from p (l1 ++ x :: l2)) (List.length l1) = Some (p + zlen (concat l1)).
Proof.
  rewrite pos_from_app. cbn [pos_from].
  rewrite nth_error_app2; pose proof (zlen_pos_from p l1) as H; unfold zlen in H; [|lia].
  replace (List.length l1 - List.length (pos_from p l1))%nat with O by lia. reflexivity.
Qed.

Definition words (l : list Z) : bytes := concat (map (le_enc 8) l).
Lemma words_cons x l : words (x :: l) = le_enc 8 x ++ words l.
Proof. reflexivity. Qed.
Lemma words_app a b : words (a ++ b) = words a ++ words b.
Proof. unfold words. apply concat_app_map. Qed.
Lemma zlen_words l : zlen (words l) = 8 * zlen l.
Proof.
  induction l as [|x l IH]; [reflexivity|]. rewrite words_cons, zlen_app, zlen_cons, IH, zlen_le_enc. lia.
Qed.
Lemma minus1_words n : concat (zrep n minus1) = words (zrep n (-1)).
Proof.
  unfold zrep, words. induction (Z.to_nat n) as [|k IH]; [reflexivity|]. cbn [repeat concat map].
  rewrite IH. reflexivity.
Qed.

Definition fits64 (z : Z) : Prop := -9223372036854775808 <= z <= 9223372036854775807.

Lemma encode_offsets_words l : Forall fits64 l -> encode_offsets l = Ok (words l).
Proof.
  induction 1 as [|x l H _ IH]; [reflexivity|]. cbn [encode_offsets].
  unfold encode_int64. rewrite pack_int_in by exact H. cbn [rbind]. rewrite IH. reflexivity.
Qed.
Lemma encode_offsets_inv l b : encode_offsets l = Ok b -> Forall fits64 l /\ b = words l.
Proof.
  revert b; induction l as [|x l IH]; intros b H; cbn [encode_offsets] in H.
  - inversion H. split; [constructor|reflexivity].
  - apply rbind_Ok in H as (b1 & H1 & H). apply rbind_Ok in H as (b2 & H2 & H).
    inversion H; subst. apply pack_int_Ok in H1 as [R ->]. destruct (IH _ H2) as [F ->].
    split; [constructor; auto|reflexivity].
Qed.
Lemma decode_offsets_words l q : Forall fits64 l ->
  decode_offsets (List.length l) (words l ++ q) = Ok l.
Proof.
  induction 1 as [|x l H _ IH]; [reflexivity|]. cbn [List.length decode_offsets].
  rewrite words_cons, <- app_assoc.
  rewrite ztake_app_exact, zdrop_app_exact by (rewrite zlen_le_enc; reflexivity).
  rewrite decode_int64_enc by exact H. cbn [rbind]. rewrite IH. reflexivity.
Qed.
Lemma decode_int64_short b : zlen b <> 8 -> exists e, decode_int64 b = Raise e.
Proof. unfold decode_int64. intros H. replace (zlen b =? 8) with false by lia. eauto. Qed.
(** With fewer words than entries the decoding fails, and one entry more than
    there are words is enough to see it: the cap in [read_offsets] is exact. *)
Lemma decode_offsets_cap n raw : 0 <= n ->
  decode_offsets (Z.to_nat (Z.min n (zlen raw / 8 + 1))) raw = decode_offsets (Z.to_nat n) raw.
Proof.
  intros Hn. destruct (Z.le_gt_cases n (zlen raw / 8 + 1)); [f_equal; lia|].
  replace (Z.min n (zlen raw / 8 + 1)) with (zlen raw / 8 + 1) by lia.
  assert (F : forall k raw, zlen raw / 8 + 1 <= Z.of_nat k -> exists e, decode_offsets k raw = Raise e /\ e = StructError).
  { clear. induction k as [|k IH]; intros raw H. { pose proof (zlen_nonneg raw). lia. }
    cbn [decode_offsets]. pose proof (zlen_nonneg raw). unfold decode_int64 at 1. rewrite zlen_ztake.
    destruct (Z.min (Z.max 0 8) (zlen raw) =? 8) eqn:E8; [|cbn; eauto].
    cbn [rbind]. destruct (IH (zdrop 8 raw)) as (e & He & Hk).
    { rewrite zlen_zdrop. lia. }
    rewrite He. cbn. eauto. }
  destruct (F (Z.to_nat (zlen raw / 8 + 1)) raw) as (e1 & -> & ->); [pose proof (zlen_nonneg raw); lia|].
  destruct (F (Z.to_nat n) raw) as (e2 & -> & ->); [lia|]. reflexivity.
Qed.

(* ---------------------------------------------------------------- *)
Section WithEnv.
Variable E : Env.
Hypothesis HE : EnvOK E.

(** ** A metadata section *)
Record msect := mkMS { ms_h : mheader; ms_payload : bytes; ms_pad : bytes; ms_val : pyval }.
Definition msect_bytes (s : msect) : bytes :=
  mheader_bytes (ms_h s) ++ ms_payload s ++ ms_pad s ++ digest E (mh_checksum (ms_h s)) (ms_payload s).
Definition msect_ok (s : msect) : Prop :=
  mheader_ok (ms_h s) /\ mh_magic (ms_h s) = b_of_string "JSON" /\ mh_user (ms_h s) = [] /\
  zlen (ms_payload s) = mh_comp (ms_h s) /\ zlen (ms_pad s) = mh_max (ms_h s) - mh_comp (ms_h s) /\
  exists plain, codec_decompress E (mh_codec (ms_h s)) (ms_payload s) = Ok plain /\
                e_loads E plain = Ok (ms_val s).

Lemma zlen_msect s : msect_ok s ->
  zlen (msect_bytes s) = 32 + mh_max (ms_h s) + cks_size (mh_checksum (ms_h s)).
Proof.
  intros (H1 & _ & _ & H4 & H5 & _). unfold msect_bytes.
  rewrite !zlen_app, zlen_mheader_bytes, (zlen_digest E HE) by auto. lia.
Qed.

Lemma no_edge_nul_JSON : no_edge_nul (b_of_string "JSON").
Proof. split; cbn; discriminate. Qed.
Lemma no_edge_nul_nil : no_edge_nul [].
Proof. split; cbn; auto. Qed.

Lemma msect_decode s : msect_ok s -> mheader_decode (mheader_bytes (ms_h s)) = Ok (ms_h s).
Proof.
  intros (H1 & H2 & H3 & _). apply mheader_decode_bytes; auto.
  - rewrite H2. apply no_edge_nul_JSON.
  - rewrite H3. apply no_edge_nul_nil.
Qed.

Lemma cks_size0 c : cks_size c = 0 -> c = CkNone.
Proof. destruct c; cbn; intros; try lia; reflexivity. Qed.

Lemma read_metadata_ok s f q : msect_ok s -> 0 <= fpos f -> rest f = msect_bytes s ++ q ->
  read_metadata E f = (adv (zlen (msect_bytes s)) f, Ok (ms_val s, ms_h s)).
Proof.
  intros Hs Hp Hr. pose proof (zlen_msect s Hs) as ZL. pose proof (msect_decode s Hs) as HD.
  pose proof Hs as (H1 & H2 & H3 & H4 & H5 & plain & H6 & H7).
  pose proof (zlen_mheader_bytes _ H1) as L1.
  unfold msect_bytes in Hr. rewrite <- !app_assoc in Hr.
  unfold read_metadata, METADATA_HEADER_LENGTH.
  rewrite (bind_run _ _ _ _ _ (f_read_rest 32 f _ _ Hr L1)).
  pose proof (rest_adv_app 32 f _ _ Hp Hr L1) as R1.
  rewrite (bind_lift _ _ _ _ HD).
  rewrite (bind_run _ _ _ _ _ (f_read_rest _ _ _ _ R1 H4)).
  assert (P1 : 0 <= fpos (adv 32 f)) by (rewrite fpos_adv; lia).
  pose proof (rest_adv_app _ _ _ _ P1 R1 H4) as R2.
  pose proof (zlen_nonneg (ms_payload s)). pose proof (zlen_nonneg (ms_pad s)).
  rewrite (bind_run _ _ _ _ _ (f_seek_rel_ok (mh_max (ms_h s) - mh_comp (ms_h s)) (adv (mh_comp (ms_h s)) (adv 32 f)) ltac:(rewrite !fpos_adv; lia))).
  assert (P2 : 0 <= fpos (adv (mh_comp (ms_h s)) (adv 32 f))) by (rewrite !fpos_adv; lia).
  pose proof (rest_adv_app _ _ _ _ P2 R2 H5) as R3.
  rewrite (bind_run _ _ _ (adv (zlen (msect_bytes s)) f) tt).
  2:{ destruct (cks_eqb (mh_checksum (ms_h s)) CkNone) eqn:Hc.
      - apply cks_eqb_eq in Hc. rewrite Hc in *. cbn [cks_size] in ZL.
        rewrite !adv_adv. unfold ret. f_equal. f_equal. rewrite ZL. lia.
      - pose proof (f_read_rest (cks_size (mh_checksum (ms_h s))) _ _ _ R3 (zlen_digest E HE _ _)) as RD.
        rewrite (bind_run _ _ _ _ _ RD), bytes_eqb_refl.
        rewrite !adv_adv. unfold ret. f_equal. f_equal. rewrite ZL. lia. }
  rewrite (bind_lift _ _ _ _ H6).
  rewrite (bind_run _ _ _ (adv (zlen (msect_bytes s)) f) tt) by (unfold lift, serializer_lookup; rewrite H2; reflexivity).
  rewrite (bind_lift _ _ _ _ H7). reflexivity.
Qed.

Definition osect_bytes (o : option msect) : bytes := match o with Some s => msect_bytes s | None => [] end.
Definition osect_ok (o : option msect) : Prop := match o with Some s => msect_ok s | None => True end.
Definition osect_val (o : option msect) : pyval := match o with Some s => ms_val s | None => PNone end.
Definition is_some {A} (o : option A) : bool := match o with Some _ => true | None => false end.

(** ** Chunks *)
Definition stored (ck : cks) (c : bytes) : bytes := c ++ digest E ck c.
Definition body (ck : cks) (cs : list (bytes * bytes)) : bytes := concat (map (fun cx => stored ck (fst cx)) cs).
Definition chunk_ok (cx : bytes * bytes) : Prop := e_decompress E (fst cx) = Ok (snd cx).
Definition content (cs : list (bytes * bytes)) : bytes := concat (map snd cs).

Lemma chunk_ok_len c x : e_decompress E c = Ok x -> 16 <= zlen c /\ u32 12 c = zlen c.
Proof. intros H. apply (ok_decompress_len E HE) in H as (H1 & H2 & _). auto. Qed.
Lemma zlen_stored ck c : zlen (stored ck c) = zlen c + cks_size ck.
Proof. unfold stored. rewrite zlen_app, (zlen_digest E HE). reflexivity. Qed.

Lemma chunk_here_ok ck c q : 16 <= zlen c -> u32 12 c = zlen c ->
  chunk_here (stored ck c ++ q) = c /\ digest_here ck (stored ck c ++ q) = digest E ck c /\
  after_chunk ck (stored ck c ++ q) = q.
Proof.
  intros L U. unfold chunk_here, digest_here, after_chunk, stored. rewrite <- app_assoc.
  rewrite u32_app by lia. rewrite U.
  rewrite ztake_app_exact, zdrop_app_exact by reflexivity.
  rewrite ztake_app_exact by (rewrite (zlen_digest E HE); reflexivity).
  split; [auto|split; [auto|]].
  rewrite <- zdrop_zdrop; [|apply cks_size_nonneg|apply zlen_nonneg] || rewrite Z.add_comm, <- zdrop_zdrop; try apply cks_size_nonneg; try apply zlen_nonneg.
  rewrite zdrop_app_exact by reflexivity. apply zdrop_app_exact. rewrite (zlen_digest E HE). reflexivity.
Qed.

Lemma uloop_step ck n c x q : e_decompress E c = Ok x ->
  uloop E ck (S n) (stored ck c ++ q) = (x ++ fst (uloop E ck n q), snd (uloop E ck n q)).
Proof.
  intros H. destruct (chunk_ok_len c x H) as [L U]. cbn [uloop].
  destruct (chunk_here_ok ck c q L U) as (-> & -> & ->).
  assert (zlen (stored ck c ++ q) <? 16 = false) as ->.
  { rewrite zlen_app, zlen_stored. pose proof (zlen_nonneg q). pose proof (cks_size_nonneg ck). lia. }
  rewrite bytes_eqb_refl. cbn [negb]. rewrite andb_false_r, H. destruct (uloop E ck n q); reflexivity.
Qed.

Lemma uloop_ok ck cs q : Forall chunk_ok cs ->
  forall n, uloop E ck (List.length cs + n) (body ck cs ++ q)
  = (content cs ++ fst (uloop E ck n q), snd (uloop E ck n q)).
Proof.
  induction 1 as [|[c x] cs H _ IH]; intros n.
  - cbn. destruct (uloop E ck n q); reflexivity.
  - cbn [List.length Nat.add]. unfold body, content. cbn [map concat fst snd]. rewrite <- !app_assoc.
    rewrite (uloop_step ck _ c x) by exact H. fold (body ck cs). rewrite IH. reflexivity.
Qed.

(** ** Whole files *)
Definition table_len (h : header) : Z := if h_offsets h then 8 * (h_nchunks h + h_max_app h) else 0.
Definition body_pos (h : header) (o : option msect) : Z := 32 + zlen (osect_bytes o) + table_len h.
Definition positions (h : header) (o : option msect) (cs : list (bytes * bytes)) : list Z :=
  pos_from (body_pos h o) (map (fun cx => stored (h_checksum h) (fst cx)) cs).
Definition table (h : header) (o : option msect) (cs : list (bytes * bytes)) : bytes :=
  if h_offsets h then words (positions h o cs) ++ words (zrep (h_max_app h) (-1)) else [].

Record wf (f : bytes) (h : header) (o : option msect) (cs : list (bytes * bytes)) (tail : bytes) : Prop := mkWf {
  wf_header : header_ok h;
  wf_version : h_version h = 3;
  wf_flag : h_metadata h = is_some o;
  wf_sect : osect_ok o;
  wf_n : h_nchunks h = zlen cs;
  wf_ne : 1 <= zlen cs;
  wf_chunks : Forall chunk_ok cs;
  wf_fits : h_offsets h = true -> Forall fits64 (positions h o cs);
  wf_bytes : f = header_bytes h ++ osect_bytes o ++ table h o cs ++ body (h_checksum h) cs ++ tail }.

Lemma zlen_positions h o cs : zlen (positions h o cs) = zlen cs.
Proof. unfold positions. rewrite zlen_pos_from, zlen_map. reflexivity. Qed.
Lemma zlen_table f h o cs tail : wf f h o cs tail -> zlen (table h o cs) = table_len h.
Proof.
  intros W. unfold table, table_len. destruct (h_offsets h); [|reflexivity].
  destruct (wf_header _ _ _ _ _ W) as [_ Hn]. unfold header_nums_ok in Hn.
  rewrite zlen_app, !zlen_words, zlen_positions, zlen_zrep, (wf_n _ _ _ _ _ W). lia.
Qed.

Lemma read_header_ok h f q : header_ok h -> h_version h = 3 -> rest f = header_bytes h ++ q ->
  read_bloscpack_header f = (adv 32 f, Ok h).
Proof.
  intros Hh Hv Hr. unfold read_bloscpack_header, BLOSCPACK_HEADER_LENGTH.
  rewrite (bind_run _ _ _ _ _ (f_read_rest 32 f _ _ Hr (zlen_header_bytes h))).
  rewrite (bind_lift _ _ _ _ (header_decode_bytes h Hh)).
  unfold FORMAT_VERSION. rewrite Hv. reflexivity.
Qed.

Lemma read_offsets_ok h l r f q : h_offsets h = true -> header_ok h -> 0 <= h_nchunks h ->
  Forall fits64 l -> zlen l = h_nchunks h -> zlen r = 8 * h_max_app h -> rest f = words l ++ r ++ q ->
  read_offsets h f = (adv (8 * (h_nchunks h + h_max_app h)) f, Ok l).
Proof.
  intros Ho [_ Hn] H0 Hl Hz Hr Hf. unfold header_nums_ok in Hn.
  unfold read_offsets. rewrite Ho. unfold total_prospective_chunks.
  replace (0 <=? h_nchunks h) with true by lia.
  rewrite app_assoc in Hf.
  assert (L : zlen (words l ++ r) = 8 * (h_nchunks h + h_max_app h)) by (rewrite zlen_app, zlen_words; lia).
  rewrite (bind_run _ _ _ _ _ (f_read_ssize_rest _ f _ _ Hf L)).
  unfold lift. f_equal. rewrite decode_offsets_cap by lia.
  replace (Z.to_nat (h_nchunks h)) with (List.length l) by (unfold zlen in Hz; lia).
  apply decode_offsets_words; auto.
Qed.

Lemma read_beginning_wf f h o cs tail : wf f h o cs tail ->
  read_beginning E (fp_of f) =
    (adv (body_pos h o) (fp_of f),
     Ok (mkBeg h (osect_val o) (option_map ms_h o) (if h_offsets h then positions h o cs else []))) /\
  rest (adv (body_pos h o) (fp_of f)) = body (h_checksum h) cs ++ tail.
Proof.
  intros W. pose proof (zlen_table _ _ _ _ _ W) as ZT. destruct W as [W1 W2 W3 W4 W5 W6 W7 W8 W9].
  assert (R0 : rest (fp_of f) = header_bytes h ++ osect_bytes o ++ table h o cs ++ body (h_checksum h) cs ++ tail)
    by (rewrite rest_fp_of; auto).
  unfold read_beginning. rewrite (bind_run _ _ _ _ _ (read_header_ok h _ _ W1 W2 R0)).
  pose proof (rest_adv_app 32 (fp_of f) _ _ ltac:(cbn; lia) R0 (zlen_header_bytes h)) as R1.
  assert (P1 : 0 <= fpos (adv 32 (fp_of f))) by (cbn; lia).
  rewrite (bind_run _ _ _ (adv (zlen (osect_bytes o)) (adv 32 (fp_of f))) (osect_val o, option_map ms_h o)).
  2:{ rewrite W3. destruct o as [s|]; cbn [is_some osect_bytes osect_val option_map] in *.
      - rewrite (bind_run _ _ _ _ _ (read_metadata_ok s _ _ W4 P1 R1)). reflexivity.
      - rewrite zlen_nil, adv_0. reflexivity. }
  pose proof (rest_adv_app _ _ _ _ P1 R1 eq_refl) as R2.
  pose proof (zlen_nonneg (osect_bytes o)).
  assert (P2 : 0 <= fpos (adv (zlen (osect_bytes o)) (adv 32 (fp_of f)))) by (rewrite !fpos_adv; cbn [fpos fp_of]; lia).
  assert (A : adv (table_len h) (adv (zlen (osect_bytes o)) (adv 32 (fp_of f))) = adv (body_pos h o) (fp_of f)).
  { rewrite !adv_adv. f_equal. unfold body_pos. lia. }
  pose proof (rest_adv_app _ _ _ _ P2 R2 ZT) as R3. rewrite A in R3.
  split; [|exact R3].
  rewrite (bind_run _ _ _ (adv (body_pos h o) (fp_of f)) (if h_offsets h then positions h o cs else [])).
  { reflexivity. }
  rewrite <- A. unfold table, table_len in *. destruct (h_offsets h) eqn:Ho.
  - rewrite <- app_assoc in R2. destruct W1 as [W1 Hn]. pose proof Hn as Hn'. unfold header_nums_ok in Hn'.
    apply (read_offsets_ok h _ (words (zrep (h_max_app h) (-1))) _ (body (h_checksum h) cs ++ tail)); auto.
    + split; auto.
    + lia.
    + rewrite zlen_positions; lia.
    + rewrite zlen_words, zlen_zrep. lia.
  - unfold read_offsets. rewrite Ho, adv_0. reflexivity.
Qed.

Theorem unpack_wf f h o cs tail : wf f h o cs tail ->
  unpack_core E f = (content cs, Ok (osect_val o)).
Proof.
  intros W. rewrite (unpack_core_pure E f). destruct (read_beginning_wf _ _ _ _ _ W) as [-> ->].
  cbn [b_header b_meta]. rewrite (wf_n _ _ _ _ _ W).
  replace (Z.to_nat (zlen cs)) with (List.length cs + 0)%nat by (unfold zlen; lia).
  rewrite uloop_ok by apply (wf_chunks _ _ _ _ _ W). cbn [uloop fst snd rbind]. rewrite app_nil_r. reflexivity.
Qed.

End WithEnv.
