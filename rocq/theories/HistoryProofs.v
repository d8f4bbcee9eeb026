(** Theorems about archives: random access, appends, crashes, metadata rewrites. *)
From Verif Require Import Base PyVal Checksums Headers Pretty Args FileIO Append Spec Archive BaseLemmas HeaderProofs IOProofs WfProofs PackProofs SmallProofs BytesProofs MetaProofs AppendProofs ArchiveProofs CrashProofs.
From Coq Require Import ZifyBool ZifyNat.
Ltac Zify.zify_post_hook ::= Z.div_mod_to_equations.

Section WithEnv.
Variable E : Env.
Hypothesis HE : EnvOK E.

(** *** C12-C14, C22 *)
Lemma sub_concat_const c (ls : list bytes) x (ls' : list bytes) :
  0 <= c -> Forall (fun y => zlen y = c) ls -> zlen x <= c -> (ls' <> [] -> zlen x = c) ->
  sub (zlen ls * c) c (concat (ls ++ x :: ls')) = x.
Proof.
  intros Hc HF Hx Hl. rewrite concat_app. cbn [concat].
  assert (ZL : zlen (concat ls) = zlen ls * c).
  { clear -HF. induction HF as [|y ls HY HF IH]; [reflexivity|]. cbn [concat]. rewrite zlen_app, zlen_cons, IH. lia. }
  destruct ls' as [|y ls'].
  - cbn [concat]. rewrite app_nil_r. unfold sub. rewrite <- ZL. unfold zlen at 1. rewrite Nat2Z.id, skipn_app, skipn_all, Nat.sub_diag.
    cbn [skipn app]. apply firstn_all2. unfold zlen in Hx. lia.
  - apply sub_at; change size with (@zlen byte); [lia|]. symmetry. apply Hl. discriminate.
Qed.

Lemma arch_chunk_data f h o a c x b2 tail b m : arch E f h o (a ++ (c, x) :: b2) tail b m ->
  sub (zlen a * h_chunk_size h) (h_chunk_size h) b = x.
Proof.
  intros A. destruct (arch_split _ _ _ _ _ _ _ _ A) as (cs0 & cl & xl & EQ & LN & SZ & LX & CO & HC & N1 & L1 & CB & BC).
  rewrite <- (ar_content _ _ _ _ _ _ _ _ A). unfold content. rewrite map_app. cbn [map snd].
  replace (zlen a) with (zlen (map snd a)) by apply zlen_map.
  assert (FA : Forall (fun cx : bytes * bytes => zlen (snd cx) = h_chunk_size h) cs0).
  { assert (G : Forall (fun z => z = h_chunk_size h) (map (fun cx : bytes * bytes => zlen (snd cx)) cs0)).
    { unfold bytes in *. rewrite SZ. unfold zrep. apply Forall_forall. intros z Hz. apply repeat_spec in Hz. auto. }
    rewrite Forall_map in G. exact G. }
  assert (HH : (b2 = [] /\ a = cs0 /\ x = xl) \/ (exists b3, cs0 = a ++ (c, x) :: b3)).
  { destruct (exists_last (l := (c, x) :: b2)) as (y & z & Y); [discriminate|]. rewrite Y in EQ.
    rewrite app_assoc in EQ. apply app_inj_tail in EQ as [E1 E2]. destruct y as [|y0 y].
    - left. cbn [app] in Y. injection Y as Y1 Y2. rewrite app_nil_r in E1. rewrite <- Y1 in E2. injection E2 as _ E2. auto.
    - right. cbn [app] in Y. injection Y as Y1 Y2. exists y. rewrite <- E1, Y1. reflexivity. }
  apply sub_concat_const.
  - lia.
  - rewrite Forall_map. destruct HH as [(-> & -> & _)|(b3 & ->)]; [exact FA|]. apply Forall_app in FA. tauto.
  - destruct HH as [(_ & _ & ->)|(b3 & ->)]; [lia|]. apply Forall_app in FA as [_ FA]. inversion FA; subst. cbn [snd] in *. lia.
  - intros NE. destruct HH as [(-> & _)|(b3 & ->)]; [exfalso; apply NE; reflexivity|]. apply Forall_app in FA as [_ FA]. inversion FA; subst. cbn [snd] in *. lia.
Qed.

Theorem random_access f b m i : archive E f b m -> has_offsets f = true -> 0 <= i < F_n f ->
  let c := chunk_at (F_off f i) f in
  e_decompress E c = Ok (sub (i * F_chunk f) (F_chunk f) b) /\
  exists ck, nth_error checksum_names (Z.to_nat (u8 6 f)) = Some (cks_name ck) /\ digest_at (F_off f i) f = digest E ck c.
Proof.
  intros HA Ho Hi. destruct (archive_arch E HE _ _ _ HA) as (h & o & cs & tail & A).
  pose proof (ar_wf _ _ _ _ _ _ _ _ A) as W. pose proof (wf_fields E HE _ _ _ _ _ W) as F.
  rewrite (fi_n _ _ _ _ F), (wf_n _ _ _ _ _ _ W) in Hi. destruct (nth_split_z cs i Hi) as (a & [c x] & b2 & -> & LA).
  rewrite (fi_offsets _ _ _ _ F) in Ho.
  pose proof (off_used E HE _ _ _ _ _ _ _ _ W Ho) as OU. rewrite LA in OU. cbv zeta. rewrite OU.
  pose proof (wf_chunks _ _ _ _ _ _ W) as HC. apply Forall_app in HC as [_ HC]. inversion HC as [|? ? HC1 _]; subst. unfold chunk_ok in HC1; cbn [fst snd] in HC1.
  destruct (chunk_ok_len E HE _ _ HC1) as [L16 U12].
  rewrite (fi_chunk _ _ _ _ F), (arch_chunk_data _ _ _ _ _ _ _ _ _ _ A).
  pose proof (zlen_table E _ _ _ _ _ W) as ZT.
  set (pre := header_bytes h ++ osect_bytes E o ++ table E h o (a ++ (c, x) :: b2) ++ body E (h_checksum h) a).
  assert (LP : zlen pre = body_pos E h o + zlen (body E (h_checksum h) a)).
  { unfold pre. rewrite !zlen_app, zlen_header_bytes, ZT. unfold body_pos. lia. }
  assert (FE : f = pre ++ c ++ digest E (h_checksum h) c ++ body E (h_checksum h) b2 ++ tail).
  { rewrite (wf_bytes _ _ _ _ _ _ W) at 1. unfold pre. rewrite body_app. change ((c, x) :: b2) with ([(c, x)] ++ b2) at 2. rewrite body_app, body_one. cbn [fst].
    unfold stored. rewrite <- !app_assoc. reflexivity. }
  rewrite <- LP. assert (CA : chunk_at (zlen pre) f = c) by (rewrite FE; apply chunk_at_ok; auto).
  rewrite CA. split; [exact HC1|]. exists (h_checksum h). split.
  - destruct (hfields h (osect_bytes E o ++ table E h o (a ++ (c, x) :: b2) ++ body E (h_checksum h) (a ++ (c, x) :: b2) ++ tail) (wf_header _ _ _ _ _ _ W)) as (_ & _ & A3 & _).
    rewrite <- (wf_bytes _ _ _ _ _ _ W) in A3. exact A3.
  - unfold digest_at. rewrite (fi_digest _ _ _ _ F).
    assert (UC : u32 (zlen pre + 12) f = zlen c).
    { unfold chunk_at in CA. apply (f_equal zlen) in CA. change (@zlen byte) with size in CA at 1. rewrite size_sub in CA.
      - pose proof (uint_le_range (sub (zlen pre + 12) 4 f)). unfold u32 in *. 
        assert (SZ : size f - zlen pre >= size c + 0). { change size with (@zlen byte). rewrite FE, !zlen_app.
          pose proof (zlen_nonneg (digest E (h_checksum h) c)). pose proof (zlen_nonneg (body E (h_checksum h) b2)). pose proof (zlen_nonneg tail). lia. }
        rewrite FE. rewrite <- U12. unfold u32. f_equal.
        rewrite <- (sub_app_l 12 4 c (digest E (h_checksum h) c ++ body E (h_checksum h) b2 ++ tail)) by lia.
        unfold sub. rewrite <- !zdrop_skipn. replace (zlen pre + 12) with (12 + zlen pre) by lia.
        rewrite <- (zdrop_zdrop 12 (zlen pre)) by (pose proof (zlen_nonneg pre); lia). rewrite zdrop_app_exact by reflexivity. reflexivity.
      - apply zlen_nonneg.
      - pose proof (uint_le_range (sub (zlen pre + 12) 4 f)). unfold u32. lia. }
    rewrite UC, FE. rewrite (app_assoc pre). apply sub_at; change size with (@zlen byte); [rewrite zlen_app; lia|]. symmetry. apply (zlen_digest E HE).
Qed.

Theorem unused_offsets f b m i : archive E f b m -> has_offsets f = true -> F_n f <= i < F_n f + F_max f -> F_off f i = -1.
Proof.
  intros HA Ho Hi. destruct (archive_arch E HE _ _ _ HA) as (h & o & cs & tail & A).
  pose proof (ar_wf _ _ _ _ _ _ _ _ A) as W. pose proof (wf_fields E HE _ _ _ _ _ W) as F.
  rewrite (fi_n _ _ _ _ F), (fi_max _ _ _ _ F) in Hi. rewrite (fi_offsets _ _ _ _ F) in Ho. eapply off_unused; eauto.
Qed.

Theorem size_from_header f b m : archive E f b m ->
  F_chunk f * (F_n f - 1) + F_last f = size b /\ 1 <= F_n f /\ 0 <= F_max f /\ 0 <= F_last f <= F_chunk f /\ F_chunk f <= BUFMAX /\
  (size b = 0 <-> F_chunk f = 0) /\ (0 < size b -> 0 < F_last f).
Proof.
  intros HA. destruct (archive_arch E HE _ _ _ HA) as (h & o & cs & tail & A).
  pose proof (ar_wf _ _ _ _ _ _ _ _ A) as W. pose proof (wf_fields E HE _ _ _ _ _ W) as F.
  pose proof (sizes_bound _ _ _ _ _ _ _ _ A) as SB. destruct (arch_split _ _ _ _ _ _ _ _ A) as (cs0 & cl & xl & EQ & LN & SZ & LX & CO & HC & N1 & L1 & CB & BC).
  destruct (wf_header _ _ _ _ _ _ W) as [_ Hn]. unfold header_nums_ok in Hn.
  rewrite (fi_n _ _ _ _ F), (fi_max _ _ _ _ F), (fi_chunk _ _ _ _ F), (fi_last _ _ _ _ F). change size with (@zlen byte).
  pose proof (ar_l _ _ _ _ _ _ _ _ A). pose proof (ar_empty _ _ _ _ _ _ _ _ A). pose proof (zlen_nonneg b).
  repeat split; try lia.
Qed.

Theorem archive_unpack f b m : archive E f b m -> unpack_bytes_from_bytes E f = Ok (b, m).
Proof.
  intros HA. destruct (archive_arch E HE _ _ _ HA) as (h & o & cs & tail & A).
  unfold unpack_bytes_from_bytes. rewrite (unpack_wf E HE _ _ _ _ _ (ar_wf _ _ _ _ _ _ _ _ A)). cbn [rbind].
  rewrite (ar_content _ _ _ _ _ _ _ _ A), (ar_meta _ _ _ _ _ _ _ _ A). reflexivity.
Qed.

(** *** Appending *)
Theorem append_appends f b m new oa f' k : archive E f b m -> sizable f new -> append_bytes E f new oa = (f', Ok k) ->
  unpack_bytes_from_bytes E f' = Ok (b ++ new, m).
Proof. intros HA HS H. apply archive_unpack. eapply ar_append; eauto. Qed.

Theorem append_fails_clean f b m new oa f' e : archive E f b m -> sizable f new -> append_bytes E f new oa = (f', Raise e) ->
  f' = f /\ append_log E f new oa = [].
Proof.
  intros HA HS H. destruct (archive_arch E HE _ _ _ HA) as (h & o & cs & tail & A).
  unfold append_bytes, append_log in *. unfold sizable in HS. change size with (@zlen byte) in *. injection H as H1 H2.
  destruct (append_outcome E HE _ _ _ _ _ _ _ oa new (fp_of new) A (Z.le_refl 0) (rest_fp_of new) HS) as [(nf' & q & e' & R & _)|(_ & _ & nf' & k' & l & cs0 & cl & xl & cs1 & _ & _ & _ & _ & _ & _ & R & _)].
  - rewrite R in *. cbn in H1 |- *. auto.
  - rewrite R in H2. discriminate.
Qed.

Lemma ceil_unique c k l x : 0 < c -> (k - 1) * c + l = x -> 0 < l <= c -> (x + c - 1) / c = k.
Proof. intros Hc HX Hl. symmetry. apply (Z.div_unique _ _ _ (l - 1)); [lia|]. rewrite <- HX. ring. Qed.

Theorem append_capacity f b m new oa : archive E f b m -> sizable f new ->
  let k := extra f new in
  (has_offsets f = false -> append_bytes E f new oa = (f, Raise RuntimeError)) /\
  (has_offsets f = true -> b = [] -> new <> [] -> append_bytes E f new oa = (f, Raise ValueError)) /\
  (has_offsets f = true -> b <> [] -> F_max f < k -> append_bytes E f new oa = (f, Raise NotEnoughSpace)) /\
  (has_offsets f = true -> b <> [] \/ new = [] -> k <= F_max f -> blosc_args_ok E (effective f oa) ->
     exists f', append_bytes E f new oa = (f', Ok k) /\ F_n f' = F_n f + k /\ F_max f' = F_max f - k) /\
  (has_offsets f = true -> b <> [] \/ new = [] -> k <= F_max f -> ~ blosc_args_ok E (effective f oa) ->
     exists e, append_bytes E f new oa = (f, Raise e)).
Proof.
  intros HA HS. destruct (archive_arch E HE _ _ _ HA) as (h & o & cs & tail & A).
  pose proof (ar_wf _ _ _ _ _ _ _ _ A) as W. pose proof (wf_fields E HE _ _ _ _ _ W) as F.
  destruct (arch_split _ _ _ _ _ _ _ _ A) as (cs0' & cl' & xl' & EQ & LN & SZ & LX & CO & HC & N1 & L1 & CB & BC).
  pose proof (ar_l _ _ _ _ _ _ _ _ A) as LP. pose proof (ar_empty _ _ _ _ _ _ _ _ A) as EM. pose proof (zlen_nonneg b) as ZB. pose proof (zlen_nonneg new) as ZN.
  destruct (wf_header _ _ _ _ _ _ W) as [_ Hn]. unfold header_nums_ok in Hn.
  unfold append_bytes. unfold sizable in HS. change size with (@zlen byte) in *. cbv zeta.
  unfold extra. cbv zeta. change size with (@zlen byte).
  unfold effective. rewrite (fi_typesize _ _ _ _ F). fold (append_bargs oa h).
  rewrite (fi_offsets _ _ _ _ F), (fi_max _ _ _ _ F), (fi_n _ _ _ _ F), (fi_chunk _ _ _ _ F), (fi_last _ _ _ _ F).
  assert (B0 : b = [] <-> zlen b = 0) by (split; [intros ->; reflexivity|apply zlen_0]).
  assert (N0 : new = [] <-> zlen new = 0) by (split; [intros ->; reflexivity|apply zlen_0]).
  set (c := h_chunk_size h) in *. set (l := h_last_chunk h) in *.
  set (k := if zlen new <=? c - l then 0 else _).
  assert (KB : b <> [] -> h_max_app h < k <-> h_max_app h * c < zlen new - (c - l)).
  { intros BN. assert (0 < l) by (apply LP; rewrite B0 in BN; lia). unfold k. destruct (zlen new <=? c - l) eqn:Q.
    - assert (0 <= h_max_app h * c) by (apply Z.mul_nonneg_nonneg; lia). lia.
    - split; intros X.
      + assert (X' : h_max_app h + 1 <= (zlen new - (c - l) + c - 1) / c) by lia.
        pose proof (Z.mul_div_le (zlen new - (c - l) + c - 1) c ltac:(lia)) as MD.
        assert (c * (h_max_app h + 1) <= c * ((zlen new - (c - l) + c - 1) / c)) by (apply Z.mul_le_mono_nonneg_l; lia). 
        generalize dependent ((zlen new - (c - l) + c - 1) / c). intros. lia.
      + apply Z.lt_le_trans with (h_max_app h + 1); [lia|]. apply Z.div_le_lower_bound; [lia|]. lia. }
  destruct (append_outcome E HE _ _ _ _ _ _ _ oa new (fp_of new) A (Z.le_refl 0) (rest_fp_of new) HS)
    as [(nf' & q & e & R & BAD)|(Ho & BOK & nf' & k' & l' & cs0 & cl & xl & cs1 & EC & K1 & K2 & _ & K3 & K4 & R & D & A')].
  - rewrite R. cbn [fst snd fdata]. unfold bad_append in BAD. fold c l in BAD.
    split; [|split; [|split; [|split]]].
    + intros Ho. destruct BAD as [(_ & ->)|[(X & _)|[(X & _)|(X & _)]]]; [reflexivity|congruence..].
    + intros Ho Hb Hnew. destruct BAD as [(X & _)|[(_ & _ & [X|X] & _)|[(_ & _ & _ & ->)|(_ & X & _)]]]; try congruence; try reflexivity; contradiction.
    + intros Ho Hb HK. apply KB in HK; auto. destruct BAD as [(X & _)|[(_ & _ & _ & X)|[(_ & X & _)|(_ & _ & -> & _)]]]; try congruence; try reflexivity; try contradiction; lia.
    + intros Ho Hb HK OK. exfalso. destruct BAD as [(X & _)|[(_ & X & _)|[(_ & X & Y & _)|(_ & X & _ & Y)]]]; try congruence; try contradiction.
      * destruct Hb; contradiction.
      * apply KB in Y; auto. lia.
    + eauto.
  - assert (KK : k' = k).
    { unfold k. destruct (zlen new <=? c - l) eqn:Q.
      - destruct (Z.eq_dec k' 0); [auto|]. destruct (K4 ltac:(lia)). lia.
      - destruct (Z.eq_dec k' 0) as [->|]; [specialize (K3 eq_refl); lia|]. destruct (K4 ltac:(lia)) as (X1 & X2 & X3 & X4).
        symmetry. eapply ceil_unique; eauto. }
    split; [congruence|]. split.
    { intros _ Hb Hnew. exfalso. apply B0 in Hb. apply EM in Hb. destruct (Z.eq_dec k' 0); [|destruct (K4 ltac:(lia)); lia].
      specialize (K3 ltac:(auto)). rewrite N0 in Hnew. lia. }
    split; [intros; lia|]. split; [|intros; contradiction].
    intros. rewrite <- KK. eexists. split; [rewrite D, R; reflexivity|].
    pose proof (wf_fields E HE _ _ _ _ _ (ar_wf _ _ _ _ _ _ _ _ A')) as F'.
    rewrite (fi_n _ _ _ _ F'), (fi_max _ _ _ _ F'). cbn [set_counts h_nchunks h_max_app]. auto.
Qed.

(** *** Crashes during an append *)
Lemma header12 h l n mx : sub 0 12 (header_bytes (set_counts h l n mx)) = sub 0 12 (header_bytes h).
Proof. reflexivity. Qed.

Theorem append_writes f b m new oa ws : archive E f b m -> sizable f new -> incl ws (append_log E f new oa) ->
  let d := fold_left poke ws f in
  size f <= size d /\ (has_offsets f = false -> d = f) /\
  (has_offsets f = true ->
    agree 0 12 f d /\ agree 32 (F_table f + 8 * F_n f - 32) f d /\
    agree (F_body f) (F_off f (F_n f - 1) - F_body f) f d).
Proof.
  intros HA HS IN d. destruct (archive_arch E HE _ _ _ HA) as (h & o & cs & tail & A).
  pose proof (ar_wf _ _ _ _ _ _ _ _ A) as W. pose proof (wf_fields E HE _ _ _ _ _ W) as F.
  unfold d, append_log in *. unfold sizable in HS. change size with (@zlen byte) in *.
  destruct (append_outcome E HE _ _ _ _ _ _ _ oa new (fp_of new) A (Z.le_refl 0) (rest_fp_of new) HS)
    as [(nf' & q & e & R & BAD)|(Ho & BOK & nf' & k & l & cs0 & cl & xl & cs1 & -> & K1 & K2 & _ & K3 & K4 & R & D & A')].
  { rewrite R in IN. cbn [fst snd flog] in IN. apply incl_l_nil in IN. subst ws. cbn [fold_left].
    split; [lia|]. split; [auto|]. intros. split; [|split]; apply agree_refl. }
  rewrite (fi_offsets _ _ _ _ F), (fi_n _ _ _ _ F), (fi_table _ _ _ _ F), (fi_body _ _ _ _ F).
  pose proof (wf_n _ _ _ _ _ _ W) as NN. rewrite zlen_app in NN. change (zlen [(cl, xl)]) with 1 in NN.
  replace (h_nchunks h - 1) with (zlen cs0) by lia.
  rewrite (off_used E HE _ _ _ _ _ _ _ _ W Ho).
  set (lo := body_pos E h o + zlen (body E (h_checksum h) cs0)) in *.
  set (h' := set_counts h l (h_nchunks h + k) (h_max_app h - k)) in *.
  set (op := 32 + zlen (osect_bytes E o)) in *.
  set (ps := positions E h' o (cs0 ++ cs1)) in *.
  assert (K2' : @zlen (bytes * bytes) cs1 = k + 1) by exact K2.
  set (log := flog _) in IN.
  assert (LOG : log = log_of lo (body E (h_checksum h) cs1) ++ log_of 0 (header_bytes h') ++ (if k =? 0 then [] else log_of op (words ps))).
  { unfold log. rewrite R. cbn [fst snd]. destruct (k =? 0); cbn [put_at at_pos flog app fpos]; rewrite <- ?app_assoc, ?app_nil_r; reflexivity. }
  pose proof (body_pos_nonneg E _ _ _ _ _ W) as BP. pose proof (zlen_nonneg (body E (h_checksum h) cs0)) as NB.
  pose proof (zlen_nonneg (osect_bytes E o)) as NO. pose proof (zlen_header_bytes h') as LH.
  assert (LPS : zlen (words ps) = 8 * (h_nchunks h + k)).
  { rewrite zlen_words. unfold ps. rewrite zlen_positions, zlen_app. unfold bytes in *. lia. }
  assert (BPE : body_pos E h o = op + 8 * (h_nchunks h + h_max_app h)) by (unfold body_pos, op, table_len; rewrite Ho; lia).
  destruct (wf_split E _ _ _ _ _ _ _ W) as [WS ZF]. fold lo in ZF.
  assert (LF : lo <= zlen f).
  { rewrite WS, zlen_app, ZF. match goal with |- _ <= _ + zlen ?x => pose proof (zlen_nonneg x) end. lia. }
  assert (FE : f = header_bytes h ++ osect_bytes E o ++ words (positions E h o (cs0 ++ [(cl, xl)])) ++
     words (zrep (h_max_app h) (-1)) ++ body E (h_checksum h) (cs0 ++ [(cl, xl)]) ++ tail).
  { rewrite (wf_bytes _ _ _ _ _ _ W) at 1. unfold table. rewrite Ho. rewrite <- !app_assoc. reflexivity. }
  assert (PSE : words ps = words (positions E h o (cs0 ++ [(cl, xl)])) ++ zdrop (8 * h_nchunks h) (words ps)).
  { unfold ps, h'. rewrite relaid_positions, positions_snoc. fold lo.
    destruct cs1 as [|cx cs1]; [unfold zlen in K2'; cbn [List.length] in K2'; lia|]. cbn [map pos_from].
    match goal with |- context [lo :: ?q] => change (lo :: q) with ([lo] ++ q) end. rewrite app_assoc.
    rewrite words_app. rewrite zdrop_app_exact; [reflexivity|]. rewrite zlen_words, zlen_app, zlen_positions. change (zlen [lo]) with 1. lia. }
  split.
  { apply pokes_grow. apply (incl_Forall IN). rewrite LOG. repeat (apply Forall_app; split); try (apply log_nonneg; lia). destruct (k =? 0); [constructor|apply log_nonneg; lia]. }
  split; [congruence|]. intros _.
  assert (KEEP : forall i, 0 <= i < lo -> (i < 12 \/ 32 <= i < op + 8 * h_nchunks h \/ body_pos E h o <= i) ->
            nth_error f (Z.to_nat i) = nth_error (fold_left poke ws f) (Z.to_nat i)).
  { intros i Hi HR. symmetry. apply pokes_harmless; [unfold zlen in LF; lia|]. apply (incl_Forall IN). rewrite LOG.
    apply Forall_app; split; [apply harmless_away; lia|]. apply Forall_app; split.
    - destruct HR as [HR|HR].
      + apply harmless_same; [lia|lia|]. rewrite Nat.sub_0_r.
        transitivity (nth_error (header_bytes h) (Z.to_nat i)).
        * exact (sub_agree 0 12 _ _ ltac:(lia) (header12 h l (h_nchunks h + k) (h_max_app h - k)) i ltac:(lia)).
        * rewrite FE. symmetry. apply nth_error_app1. pose proof (zlen_header_bytes h). unfold zlen in *. lia.
      + apply harmless_away; lia.
    - destruct (k =? 0) eqn:K0; [constructor|]. destruct (Z.lt_ge_cases i op) as [I|I]; [apply harmless_away; lia|].
      destruct HR as [HR|[HR|HR]]; [lia| |apply harmless_away; lia].
      apply harmless_same; [lia|lia|]. rewrite PSE, FE. 
      assert (LPO : zlen (words (positions E h o (cs0 ++ [(cl, xl)]))) = 8 * h_nchunks h).
      { rewrite zlen_words, zlen_positions, zlen_app. change (zlen [(cl, xl)]) with 1. lia. }
      rewrite (app_assoc (header_bytes h)). rewrite (nth_error_app2 (header_bytes h ++ osect_bytes E o)).
      + assert (LHO : zlen (header_bytes h ++ osect_bytes E o) = op) by (rewrite zlen_app, zlen_header_bytes; reflexivity).
        unfold zlen in LHO, LPO. rewrite !nth_error_app1 by lia. f_equal. lia.
      + assert (LHO : zlen (header_bytes h ++ osect_bytes E o) = op) by (rewrite zlen_app, zlen_header_bytes; reflexivity).
        unfold zlen in LHO. lia. }
  unfold agree. split; [|split]; intros i Hi; apply KEEP; lia.
Qed.

Theorem append_crash f b m new oa j : archive E f b m -> sizable f new ->
  let d := crash j (append_log E f new oa) f in
  size f <= size d /\ (has_offsets f = false -> d = f) /\
  (has_offsets f = true ->
    agree 0 12 f d /\ agree 32 (F_table f + 8 * F_n f - 32) f d /\
    agree (F_body f) (F_off f (F_n f - 1) - F_body f) f d).
Proof. intros HA HS. exact (append_writes f b m new oa _ HA HS (firstn_incl _ j)). Qed.

Theorem append_log_complete f b m new oa : archive E f b m -> sizable f new ->
  crash (List.length (append_log E f new oa)) (append_log E f new oa) f = fst (append_bytes E f new oa).
Proof.
  intros HA HS. destruct (archive_arch E HE _ _ _ HA) as (h & o & cs & tail & A).
  pose proof (ar_wf _ _ _ _ _ _ _ _ A) as W.
  unfold append_bytes, append_log, crash. unfold sizable in HS. change size with (@zlen byte) in *. rewrite firstn_all. cbn [fst].
  set (r := snd (fst (append_fp E (zlen new) oa (fp_of new, fp_of f)))). change (faithful f r).
  destruct (append_outcome E HE _ _ _ _ _ _ _ oa new (fp_of new) A (Z.le_refl 0) (rest_fp_of new) HS)
    as [(nf' & q & e & R & BAD)|(Ho & BOK & nf' & k & l & cs0 & cl & xl & cs1 & -> & K1 & K2 & _ & K3 & K4 & R & D & A')].
  - unfold r. rewrite R. reflexivity.
  - unfold r. rewrite R. cbn [fst snd]. pose proof (body_pos_nonneg E _ _ _ _ _ W) as BP. pose proof (zlen_nonneg (body E (h_checksum h) cs0)) as NB.
    pose proof (zlen_nonneg (osect_bytes E o)) as NO.
    match goal with |- faithful f (if _ then ?x else _) => assert (F1 : faithful f x) end.
    { apply faithful_put; [cbn [at_pos fpos]; lia|]. unfold faithful. cbn [at_pos flog fdata].
      change (faithful f (put_at (body E (h_checksum h) cs1) (mkfp f (body_pos E h o + zlen (body E (h_checksum h) cs0)) []))).
      apply faithful_put; [cbn [fpos]; lia|reflexivity]. }
    destruct (k =? 0); [exact F1|]. apply faithful_put; [cbn [at_pos fpos]; lia|exact F1].
Qed.

Lemma F_table_agree f d : agree 0 12 f d -> agree 32 (F_table f - 32) f d -> F_table d = F_table f.
Proof.
  intros H1 H2. unfold F_table, has_meta in *. unfold u8 at 1. rewrite <- (agree_sub 0 12 f d 5 1 H1) by lia. fold (u8 5 f).
  destruct (Z.odd (u8 5 f / 2)) eqn:HM; [|reflexivity].
  assert (0 <= u32 48 f) by apply uint_le_range.
  assert (0 <= digest_len (u8 41 f)).
  { unfold digest_len. set (i := Z.to_nat _). clearbody i. do 9 (destruct i as [|i]; [cbn; lia|]). destruct i; cbn; lia. }
  unfold u32, u8 in *.
  rewrite <- (agree_sub _ _ f d 48 4 H2), <- (agree_sub _ _ f d 41 1 H2) by lia. reflexivity.
Qed.
Lemma F_n_nonneg f b m : archive E f b m -> 1 <= F_n f /\ 0 <= F_max f /\ 32 <= F_table f.
Proof.
  intros HA. destruct (size_from_header _ _ _ HA) as (_ & H1 & H2 & _). split; [auto|]. split; [auto|].
  destruct (archive_arch E HE _ _ _ HA) as (h & o & cs & tail & A).
  rewrite (fi_table _ _ _ _ (wf_fields E HE _ _ _ _ _ (ar_wf _ _ _ _ _ _ _ _ A))). pose proof (zlen_nonneg (osect_bytes E o)). lia.
Qed.

(** chunks before the last lie before it *)
Lemma chunk_region f b m i : archive E f b m -> has_offsets f = true -> 0 <= i < F_n f - 1 ->
  F_body f <= F_off f i /\ 16 <= u32 (F_off f i + 12) f /\ F_off f i + u32 (F_off f i + 12) f <= F_off f (F_n f - 1).
Proof.
  intros HA Ho Hi. destruct (archive_arch E HE _ _ _ HA) as (h & o & cs & tail & A).
  pose proof (ar_wf _ _ _ _ _ _ _ _ A) as W. pose proof (wf_fields E HE _ _ _ _ _ W) as F.
  rewrite (fi_offsets _ _ _ _ F) in Ho. rewrite (fi_body _ _ _ _ F). rewrite (fi_n _ _ _ _ F), (wf_n _ _ _ _ _ _ W) in Hi |- *.
  destruct (nth_split_z cs i ltac:(lia)) as (a & [c x] & b2 & -> & LA). rewrite zlen_app, zlen_cons in Hi |- *.
  destruct (exists_last (l := b2)) as (b3 & [cl xl] & ->); [intros ->; unfold zlen in Hi, LA; cbn [List.length] in Hi; lia|].
  pose proof (off_used E HE _ _ _ a _ _ _ _ W Ho) as O1. rewrite LA in O1. rewrite O1.
  assert (W2 : wf E f h o ((a ++ (c, x) :: b3) ++ [(cl, xl)]) tail) by (rewrite <- app_assoc; exact W).
  pose proof (off_used E HE _ _ _ (a ++ (c, x) :: b3) _ _ [] _ W2 Ho) as O2. rewrite zlen_app, zlen_cons in O2.
  replace (zlen a + (1 + zlen (b3 ++ [(cl, xl)])) - 1) with (zlen a + (1 + zlen b3)) by (rewrite zlen_app; change (zlen [(cl, xl)]) with 1; lia).
  rewrite O2. pose proof (zlen_nonneg (body E (h_checksum h) a)). split; [lia|].
  pose proof (wf_chunks _ _ _ _ _ _ W) as HC. apply Forall_app in HC as [_ HC]. inversion HC as [|? ? HC1 _]; subst. unfold chunk_ok in HC1; cbn [fst snd] in HC1.
  destruct (chunk_ok_len E HE _ _ HC1) as [L16 U12].
  assert (UC : u32 (body_pos E h o + zlen (body E (h_checksum h) a) + 12) f = zlen c).
  { pose proof (zlen_table E _ _ _ _ _ W) as ZT.
    set (pre := header_bytes h ++ osect_bytes E o ++ table E h o (a ++ (c, x) :: b3 ++ [(cl, xl)]) ++ body E (h_checksum h) a).
    assert (LP : zlen pre = body_pos E h o + zlen (body E (h_checksum h) a)).
    { unfold pre. rewrite !zlen_app, zlen_header_bytes, ZT. unfold body_pos. lia. }
    set (q := digest E (h_checksum h) c ++ body E (h_checksum h) (b3 ++ [(cl, xl)]) ++ tail).
    assert (FE : f = pre ++ c ++ q).
    { rewrite (wf_bytes _ _ _ _ _ _ W) at 1. unfold pre, q. rewrite body_app. change ((c, x) :: b3 ++ [(cl, xl)]) with ([(c, x)] ++ b3 ++ [(cl, xl)]) at 2.
      rewrite (body_app E _ [(c, x)]), body_one. cbn [fst]. unfold stored. rewrite <- !app_assoc. reflexivity. }
    rewrite FE, <- LP, <- U12. unfold u32. f_equal.
    rewrite <- (sub_app_l 12 4 c q) by lia. unfold sub. rewrite <- !zdrop_skipn. replace (zlen pre + 12) with (12 + zlen pre) by lia.
    rewrite <- (zdrop_zdrop 12 (zlen pre)) by (pose proof (zlen_nonneg pre); lia). rewrite zdrop_app_exact by reflexivity. reflexivity. }
  rewrite UC. split; [lia|]. rewrite body_app. change ((c, x) :: b3) with ([(c, x)] ++ b3). rewrite (body_app E _ [(c, x)]), body_one. cbn [fst].
  rewrite !zlen_app, (zlen_stored E HE). pose proof (cks_size_nonneg (h_checksum h)). pose proof (zlen_nonneg (body E (h_checksum h) b3)). lia.
Qed.

Theorem append_write_chunks f b m new oa ws : archive E f b m -> sizable f new -> has_offsets f = true ->
  incl ws (append_log E f new oa) -> let d := fold_left poke ws f in
  sub 0 12 d = sub 0 12 f /\ sub 32 (F_table f - 32) d = sub 32 (F_table f - 32) f /\ F_table d = F_table f /\
  (forall i, 0 <= i < F_n f -> F_off d i = F_off f i) /\
  (forall i, 0 <= i < F_n f - 1 ->
     chunk_at (F_off d i) d = chunk_at (F_off f i) f /\
     e_decompress E (chunk_at (F_off d i) d) = Ok (sub (i * F_chunk f) (F_chunk f) b)).
Proof.
  intros HA HS Ho IN d. destruct (append_writes _ _ _ new oa ws HA HS IN) as (_ & _ & H). fold d in H. destruct (H Ho) as (H1 & H2 & H3).
  destruct (F_n_nonneg _ _ _ HA) as (N1 & N2 & N3).
  assert (TB : F_table d = F_table f).
  { apply F_table_agree; auto. intros i Hi. apply H2. lia. }
  split; [symmetry; apply (agree_sub _ _ _ _ _ _ H1); lia|].
  split; [symmetry; apply (agree_sub _ _ _ _ _ _ H2); lia|]. split; [auto|].
  assert (OF : forall i, 0 <= i < F_n f -> F_off d i = F_off f i).
  { intros i Hi. unfold F_off. rewrite TB. unfold i64. f_equal. symmetry. apply (agree_sub _ _ _ _ _ _ H2); lia. }
  split; [exact OF|]. intros i Hi. rewrite (OF i) by lia.
  destruct (chunk_region _ _ _ i HA Ho Hi) as (R1 & R2 & R3).
  assert (FB : 0 <= F_body f) by (unfold F_body; rewrite Ho; lia).
  assert (CE : chunk_at (F_off f i) d = chunk_at (F_off f i) f).
  { unfold chunk_at. assert (U : u32 (F_off f i + 12) d = u32 (F_off f i + 12) f).
    { unfold u32. f_equal. symmetry. apply (agree_sub _ _ _ _ _ _ H3); lia. }
    rewrite U. symmetry. apply (agree_sub _ _ _ _ _ _ H3); lia. }
  rewrite CE. split; [reflexivity|]. apply (random_access _ _ _ i HA Ho). lia.
Qed.

Theorem append_crash_chunks f b m new oa j : archive E f b m -> sizable f new -> has_offsets f = true ->
  let d := crash j (append_log E f new oa) f in
  sub 0 12 d = sub 0 12 f /\ sub 32 (F_table f - 32) d = sub 32 (F_table f - 32) f /\ F_table d = F_table f /\
  (forall i, 0 <= i < F_n f -> F_off d i = F_off f i) /\
  (forall i, 0 <= i < F_n f - 1 ->
     chunk_at (F_off d i) d = chunk_at (F_off f i) f /\
     e_decompress E (chunk_at (F_off d i) d) = Ok (sub (i * F_chunk f) (F_chunk f) b)).
Proof. intros HA HS Ho. exact (append_write_chunks f b m new oa _ HA HS Ho (firstn_incl _ j)). Qed.

Theorem append_frame f b m new oa f' k : archive E f b m -> sizable f new -> append_bytes E f new oa = (f', Ok k) ->
  size f <= size f' /\ sub 0 12 f' = sub 0 12 f /\ F_table f' = F_table f /\ F_body f' = F_body f /\
  F_n f' = F_n f + k /\ F_max f' = F_max f - k /\
  sub 32 (F_table f - 32) f' = sub 32 (F_table f - 32) f /\
  sub (F_table f) (8 * F_n f) f' = sub (F_table f) (8 * F_n f) f /\
  let lo := F_off f (F_n f - 1) in sub (F_body f) (lo - F_body f) f' = sub (F_body f) (lo - F_body f) f.
Proof.
  intros HA HS H. set (n := List.length (append_log E f new oa)).
  pose proof (append_log_complete _ _ _ new oa HA HS) as C. rewrite H in C. cbn [fst] in C.
  destruct (append_crash _ _ _ new oa n HA HS) as (SZ & _ & X). unfold n in *. rewrite C in *.
  destruct (F_n_nonneg _ _ _ HA) as (N1 & N2 & N3).
  destruct (append_capacity _ _ _ new oa HA HS) as (CA1 & CA2 & CA3 & CA4 & CA5).
  destruct (has_offsets f) eqn:Ho; [|rewrite (CA1 eq_refl) in H; discriminate].
  destruct (X eq_refl) as (H1 & H2 & H3).
  assert (TB : F_table f' = F_table f) by (apply F_table_agree; auto; intros i Hi; apply H2; lia).
  assert (NK : F_n f' = F_n f + k /\ F_max f' = F_max f - k).
  { destruct (archive_arch E HE _ _ _ HA) as (h & o & cs & tail & A). pose proof (ar_wf _ _ _ _ _ _ _ _ A) as W. pose proof (wf_fields E HE _ _ _ _ _ W) as F.
    unfold append_bytes in H. unfold sizable in HS. change size with (@zlen byte) in *. injection H as E1 E2.
    destruct (append_outcome E HE _ _ _ _ _ _ _ oa new (fp_of new) A (Z.le_refl 0) (rest_fp_of new) HS)
      as [(nf' & q & e & R & BAD)|(_ & BOK & nf' & k' & l & cs0 & cl & xl & cs1 & -> & K1 & K2 & _ & K3 & K4 & R & D & A')].
    { rewrite R in E2. discriminate. }
    rewrite E1 in D. rewrite R in E2. cbn [snd] in E2. injection E2 as <-. rewrite <- D in A'.
    pose proof (wf_fields E HE _ _ _ _ _ (ar_wf _ _ _ _ _ _ _ _ A')) as F'.
    rewrite (fi_n _ _ _ _ F'), (fi_max _ _ _ _ F'), (fi_n _ _ _ _ F), (fi_max _ _ _ _ F). auto. }
  destruct NK as [NK MK].
  split; [auto|]. split; [symmetry; apply (agree_sub _ _ _ _ _ _ H1); lia|]. split; [auto|]. split.
  { unfold F_body. rewrite TB, NK, MK. unfold has_offsets, u8. rewrite <- (agree_sub _ _ _ _ 5 1 H1) by lia. fold (u8 5 f). fold (has_offsets f). rewrite Ho. lia. }
  split; [auto|]. split; [auto|].
  split; [symmetry; apply (agree_sub _ _ _ _ _ _ H2); lia|]. split; [symmetry; apply (agree_sub _ _ _ _ _ _ H2); lia|].
  cbv zeta. symmetry. apply sub_ext; [|exact H3]. unfold F_body. rewrite Ho. lia.
Qed.

(** *** Metadata rewrites *)
Lemma write_at_len_eq d p x : 0 <= p -> p + zlen x <= zlen d -> zlen (write_at d p x) = zlen d.
Proof.
  intros Hp H. destruct x as [|b x]; [reflexivity|]. rewrite zlen_write_at by (auto; discriminate). lia.
Qed.
Theorem rewrite_frame f b m m' ov f' : archive E f b m -> rewrite_bytes E f m' ov = (f', Ok tt) ->
  has_meta f = true /\ size f' = size f /\ F_table f' = F_table f /\
  (forall i, Z.of_nat i < 32 \/ F_table f <= Z.of_nat i -> nth_error f' i = nth_error f i) /\
  unpack_bytes_from_bytes E f' = Ok (b, norm m').
Proof.
  intros HA H. destruct (archive_arch E HE _ _ _ HA) as (h & o & cs & tail & A).
  pose proof (ar_wf _ _ _ _ _ _ _ _ A) as W. pose proof (wf_fields E HE _ _ _ _ _ W) as F.
  unfold rewrite_bytes in H. injection H as H1 H2.
  destruct (rewrite_outcome E HE _ _ _ _ _ _ _ m' ov A) as [(q & e & R)|(s & s' & -> & SO & ZL & MV & R & WA)].
  { rewrite R in H2. discriminate. }
  rewrite R in H1. cbn [fst put_at fdata fpos] in H1.
  assert (LL : 32 + zlen (msect_bytes E s') <= zlen f).
  { rewrite ZL, (wf_bytes _ _ _ _ _ _ W). cbn [osect_bytes]. rewrite !zlen_app, zlen_header_bytes.
    pose proof (zlen_nonneg (table E h (Some s) cs)). pose proof (zlen_nonneg (body E (h_checksum h) cs)). pose proof (zlen_nonneg tail). lia. }
  assert (W' : wf E f' h (Some s') cs tail).
  { destruct W as [W1 W2 W3 W4 W5 W6 W7 W8 W9]. 
    assert (BP : body_pos E h (Some s') = body_pos E h (Some s)) by (unfold body_pos; cbn [osect_bytes]; rewrite ZL; reflexivity).
    assert (PO : positions E h (Some s') cs = positions E h (Some s) cs) by (unfold positions; rewrite BP; reflexivity).
    constructor; auto.
    - rewrite PO. auto.
    - rewrite <- H1, WA. unfold table. rewrite PO. reflexivity. }
  pose proof (wf_fields E HE _ _ _ _ _ W') as F'.
  split; [rewrite (fi_meta _ _ _ _ F), (wf_flag _ _ _ _ _ _ W); reflexivity|].
  split; [rewrite <- H1; apply write_at_len_eq; [lia|exact LL]|].
  split; [rewrite (fi_table _ _ _ _ F), (fi_table _ _ _ _ F'); cbn [osect_bytes]; rewrite ZL; reflexivity|].
  split.
  - intros i Hi. rewrite (fi_table _ _ _ _ F) in Hi. cbn [osect_bytes] in Hi. rewrite <- H1.
    pose proof (zlen_nonneg (msect_bytes E s')). destruct Hi as [Hi|Hi]; [apply nth_write_before; lia|apply nth_write_after; lia].
  - unfold unpack_bytes_from_bytes. rewrite (unpack_wf E HE _ _ _ _ _ W'). cbn [rbind osect_val].
    rewrite (ar_content _ _ _ _ _ _ _ _ A), MV. reflexivity.
Qed.

Theorem rewrite_fails_clean f m ov f' e : rewrite_bytes E f m ov = (f', Raise e) -> f' = f.
Proof.
  unfold rewrite_bytes, rewrite_metadata. intros H. injection H as H1 H2.
  assert (ROS : read_only seek_to_metadata).
  { unfold seek_to_metadata. apply ro_bind; [apply ro_read_bloscpack_header|]. intros a. apply ro_if; [apply ro_tell|apply ro_raise]. }
  destruct (seek_to_metadata (fp_of f)) as [f1 [z|e1]] eqn:S1.
  2:{ rewrite (bind_run_raise _ _ _ _ _ S1) in H1. cbn [fst] in H1. subst f'.
      destruct (ROS (fp_of f) _ _ (Z.le_refl 0) S1) as [-> _]. reflexivity. }
  destruct (ROS (fp_of f) _ _ (Z.le_refl 0) S1) as (D1 & _ & P1). cbn [fp_of fdata] in D1.
  rewrite (bind_run _ _ _ _ _ S1) in H1, H2. unfold rewrite_metadata_fp in H1, H2.
  assert (T : f_tell f1 = (f1, Ok (fpos f1))) by reflexivity. rewrite (bind_run _ _ _ _ _ T) in H1, H2.
  destruct (read_metadata E f1) as [f2 [[old oldh]|e2]] eqn:R2.
  2:{ rewrite (bind_run_raise _ _ _ _ _ R2) in H1. cbn [fst] in H1. subst f'.
      destruct (ro_read_metadata E _ _ _ P1 R2) as [-> _]. exact D1. }
  destruct (ro_read_metadata E _ _ _ P1 R2) as (D2 & _ & P2). rewrite (bind_run _ _ _ _ _ R2) in H1, H2.
  destruct (pyeq old m); [cbn [fst raise] in H1; subst f'; congruence|].
  destruct (recreate_metadata oldh ov) as [a|e3]; [|rewrite (bind_lift_raise _ _ _ _ eq_refl) in H1; cbn [fst] in H1; subst f'; congruence].
  rewrite (bind_lift _ _ _ _ eq_refl) in H1, H2. rewrite (bind_run _ _ _ _ _ (f_seek_ok (fpos f1) f2 P1)) in H1, H2.
  set (g := mkfp (fdata f2) (fpos f1) (flog f2)) in *.
  destruct (write_metadata E m a g) as [f3 [x|e4]] eqn:W.
  - rewrite (bind_run _ _ _ _ _ W) in H2. discriminate.
  - rewrite (bind_run_raise _ _ _ _ _ W) in H1. cbn [fst] in H1. apply (write_raise_same E HE) in W as [-> _]; [|exact P1].
    subst f'. cbn [g fdata]. congruence.
Qed.

Lemma mfields2 s p q : msect_ok E s -> zlen p = 32 -> let f := p ++ msect_bytes E s ++ q in
  nth (Z.to_nat (u8 41 f)) checksum_names ""%string = cks_name (mh_checksum (ms_h s)) /\
  nth (Z.to_nat (u8 42 f)) codec_names ""%string = codec_name (mh_codec (ms_h s)) /\
  u8 43 f = mh_level (ms_h s) /\ u32 48 f = mh_max (ms_h s).
Proof.
  intros SO HP f. destruct SO as (HO & _). pose proof (mheader_bytes_describe _ HO) as D. pose proof (zlen_mheader_bytes _ HO) as L.
  unfold mheader_describes in D.
  assert (S32 : sub 32 32 f = mheader_bytes (ms_h s)).
  { unfold f, msect_bytes. rewrite <- app_assoc. apply sub_at; change size with (@zlen byte); lia. }
  destruct D as (_ & _ & _ & D1 & D3 & D4 & _ & D2 & _). rewrite <- S32 in D1, D2, D3, D4.
  unfold u32, u8 in *. rewrite sub_sub_32 in D1, D2, D3, D4 by lia.
  split; [apply nth_error_nth; exact D1|]. split; [apply nth_error_nth; exact D3|]. auto.
Qed.
Lemma digest_len_name c : digest_len_of (cks_name c) = cks_size c.
Proof. destruct c; reflexivity. Qed.
Lemma In_codec_names s : In s codec_names -> exists c, s = codec_name c.
Proof. cbn. intros [<-|[<-|[]]]; [exists CoNone|exists CoZlib]; reflexivity. Qed.

Theorem rewrite_no_section f b m m' ov : archive E f b m -> has_meta f = false ->
  rewrite_bytes E f m' ov = (f, Raise NoMetadataFound).
Proof.
  intros HA HM. destruct (archive_arch E HE _ _ _ HA) as (h & o & cs & tail & A).
  pose proof (ar_wf _ _ _ _ _ _ _ _ A) as W. pose proof (wf_fields E HE _ _ _ _ _ W) as F.
  rewrite (fi_meta _ _ _ _ F), (wf_flag _ _ _ _ _ _ W) in HM. destruct o; [discriminate|].
  unfold rewrite_bytes. rewrite (rewrite_none E _ _ _ _ _ _ m' ov A). reflexivity.
Qed.

Theorem rewrite_decision f b m m' ov raw p : archive E f b m -> has_meta f = true -> overrides_ok ov ->
  e_dumps E m' = Ok raw -> size raw <= 2 ^ 32 - 1 -> payload_of E (rewrite_args f ov) raw p ->
  if pyeq m m' then rewrite_bytes E f m' ov = (f, Raise NoChangeInMetadata)
  else if negb (digest_len_of (ma_checksum (rewrite_args f ov)) =? digest_len (u8 41 f))
       then rewrite_bytes E f m' ov = (f, Raise ChecksumLengthMismatch)
  else if u32 48 f <? size p then rewrite_bytes E f m' ov = (f, Raise MetadataSectionTooSmall)
  else exists f', rewrite_bytes E f m' ov = (f', Ok tt).
Proof.
  intros HA HM (OK1 & OK2 & OK3 & OK4) HD HR HP. destruct (archive_arch E HE _ _ _ HA) as (h & o & cs & tail & A).
  pose proof (ar_wf _ _ _ _ _ _ _ _ A) as W. pose proof (wf_fields E HE _ _ _ _ _ W) as F.
  rewrite (fi_meta _ _ _ _ F), (wf_flag _ _ _ _ _ _ W) in HM. destruct o as [s|]; [clear HM|discriminate].
  pose proof (wf_sect _ _ _ _ _ _ W) as SO. cbn [osect_ok] in SO.
  pose proof (wf_bytes _ _ _ _ _ _ W) as FE. cbn [osect_bytes] in FE.
  destruct (mfields2 s (header_bytes h) (table E h (Some s) cs ++ body E (h_checksum h) cs ++ tail) SO (zlen_header_bytes h)) as (M1 & M2 & M3 & M4).
  destruct (mfields E s (header_bytes h) (table E h (Some s) cs ++ body E (h_checksum h) cs ++ tail) SO (zlen_header_bytes h)) as (_ & M5).
  rewrite <- FE in M1, M2, M3, M4, M5.
  unfold rewrite_bytes. destruct (rewrite_some E HE _ _ _ _ _ _ _ m' ov A) as [q ->].
  destruct (pyeq m m'); [reflexivity|].
  set (a := rewrite_args f ov) in *.
  assert (CK : exists c, ma_checksum a = cks_name c).
  { unfold a, rewrite_args; cbn [ma_checksum]. destruct (ov_checksum ov) as [x|]; [|eauto]. apply In_checksum_names. auto. }
  assert (CO : exists c, ma_codec a = codec_name c).
  { unfold a, rewrite_args; cbn [ma_codec]. destruct (ov_codec ov) as [x|]; [|eauto]. apply In_codec_names. auto. }
  destruct CK as [ck CK], CO as [co CO].
  assert (LV : 0 <= ma_level a <= 9).
  { unfold a, rewrite_args; cbn [ma_level]. destruct (ov_level ov) as [x|]; [auto|]. rewrite M3. destruct SO as ((_ & _ & L & _) & _). exact L. }
  assert (RC : recreate_metadata (ms_h s) ov = if negb (digest_len_of (ma_checksum a) =? digest_len (u8 41 f)) then Raise ChecksumLengthMismatch else Ok a).
  { rewrite CK, digest_len_name, M5. unfold recreate_metadata.
    replace (match ov_magic ov with None => Ok (mh_magic (ms_h s)) | Some m0 => _ <~ check_valid_serializer m0;; Ok m0 end) with (Ok (b_of_string "JSON")).
    2:{ destruct (ov_magic ov) as [x|]; [rewrite (OK1 x eq_refl); reflexivity|]. destruct SO as (_ & -> & _). reflexivity. }
    cbn [rbind].
    assert (C1 : match ov_codec ov with None => Ok (codec_name (mh_codec (ms_h s))) | Some x => _ <~ check_valid_codec x;; Ok x end = Ok (ma_codec a)).
    { rewrite CO. unfold a, rewrite_args in CO; cbn [ma_codec] in CO. destruct (ov_codec ov) as [x|].
      - rewrite CO, check_valid_codec_name. reflexivity.
      - rewrite <- CO, M2. reflexivity. }
    assert (L1 : match ov_level ov with None => Ok (mh_level (ms_h s)) | Some l => _ <~ check_range l 0 MAX_CLEVEL;; Ok l end = Ok (ma_level a)).
    { unfold a, rewrite_args in *; cbn [ma_level] in *. destruct (ov_level ov) as [x|]; [|rewrite M3; reflexivity].
      rewrite check_range_in by (unfold MAX_CLEVEL; lia). reflexivity. }
    assert (K1 : match ov_checksum ov with
        | None => Ok (cks_name (mh_checksum (ms_h s)))
        | Some x => c <~ check_valid_checksum x;; (if cks_size (mh_checksum (ms_h s)) =? cks_size c then Ok x else Raise ChecksumLengthMismatch)
        end = if negb (cks_size ck =? cks_size (mh_checksum (ms_h s))) then Raise ChecksumLengthMismatch else Ok (ma_checksum a)).
    { rewrite CK. unfold a, rewrite_args in CK; cbn [ma_checksum] in CK. destruct (ov_checksum ov) as [x|].
      - rewrite CK, check_valid_name. cbn [rbind]. rewrite Z.eqb_sym. destruct (_ =? _); reflexivity.
      - rewrite M1 in CK. apply cks_name_inj in CK. rewrite CK, Z.eqb_refl. reflexivity. }
    rewrite K1. destruct (negb _); [reflexivity|]. cbn [rbind]. rewrite C1. cbn [rbind]. rewrite L1. cbn [rbind].
    unfold a at 4, rewrite_args. rewrite M4. reflexivity. }
  rewrite RC. destruct (negb _) eqn:EQ; [reflexivity|].
  destruct (u32 48 f <? size p) eqn:SP.
  - rewrite (plan_too_small E m' a raw p (u32 48 f)); auto; [reflexivity|lia].
  - destruct (fits_plan E m' a raw p (u32 48 f)) as (mh & a' & -> & _).
    + split; [auto|]. split; [auto|]. split; [reflexivity|]. split; [reflexivity|].
      split; [rewrite CK; destruct ck; cbn; tauto|]. split; [auto|]. split; [lia|].
      pose proof (u32_range 48 f). lia.
    + cbn [fst snd]. eexists. reflexivity.
Qed.

Theorem append_nothing f b m oa : archive E f b m -> sizable f [] -> has_offsets f = true -> blosc_args_ok E (effective f oa) ->
  exists f', append_bytes E f [] oa = (f', Ok 0) /\ unpack_bytes_from_bytes E f' = Ok (b, m).
Proof.
  intros HA HS HO HB. destruct (append_capacity _ _ _ [] oa HA HS) as (_ & _ & _ & H & _).
  destruct (size_from_header _ _ _ HA) as (_ & _ & N & L & _).
  assert (X : extra f [] = 0) by (unfold extra; change (size []) with 0; replace (0 <=? F_chunk f - F_last f) with true by lia; reflexivity).
  rewrite X in H. destruct (H HO (or_intror eq_refl) N HB) as (f' & R & _). exists f'. split; [exact R|].
  rewrite (append_appends _ _ _ _ _ _ _ HA HS R), app_nil_r. reflexivity.
Qed.

(** *** Foreign versions *)
Lemma read_header_foreign f h : header_decode (sub 0 32 f) = Ok h -> F_version f <> 3 ->
  exists f', read_bloscpack_header (fp_of f) = (f', Raise FormatVersionMismatch) /\ fdata f' = f /\ flog f' = [].
Proof.
  intros HD HV. unfold read_bloscpack_header. erewrite bind_run; [|apply f_read_gen; unfold BLOSCPACK_HEADER_LENGTH; lia].
  rewrite rest_fp_of. unfold BLOSCPACK_HEADER_LENGTH.
  assert (S : sub 0 32 f = ztake 32 f) by (unfold sub; rewrite <- zdrop_skipn, <- ztake_firstn, zdrop_0 by lia; reflexivity). rewrite <- S.
  rewrite (bind_lift _ _ _ _ HD).
  pose proof (header_decode_describes _ _ HD) as D. destruct D as (_ & _ & D & _).
  assert (V : h_version h = F_version f).
  { rewrite <- D. unfold F_version, u8. f_equal. apply (sub_sub_32 0 f 4 1); lia. }
  replace (FORMAT_VERSION =? h_version h) with false by (unfold FORMAT_VERSION; lia). eexists. split; [reflexivity|]. auto.
Qed.

Theorem foreign_version f h : header_decode (sub 0 32 f) = Ok h -> F_version f <> 3 ->
  unpack_core E f = ([], Raise FormatVersionMismatch) /\
  (forall new oa, append_bytes E f new oa = (f, Raise FormatVersionMismatch) /\ append_log E f new oa = []) /\
  (forall m ov, rewrite_bytes E f m ov = (f, Raise FormatVersionMismatch)).
Proof.
  intros HD HV. destruct (read_header_foreign _ _ HD HV) as (f' & R & D & L).
  assert (RB : read_beginning E (fp_of f) = (f', Raise FormatVersionMismatch)).
  { unfold read_beginning. apply bind_run_raise. exact R. }
  split; [unfold unpack_core; rewrite RB; reflexivity|]. split.
  - intros new oa. unfold append_bytes, append_log, append_fp.
    rewrite (bind_run_raise _ _ _ _ _ (onr_run _ (fp_of new) _ _ _ RB)). cbn [fst snd]. rewrite D, L. auto.
  - intros m ov. unfold rewrite_bytes, rewrite_metadata, seek_to_metadata.
    rewrite (bind_run_raise _ _ _ _ _ (bind_run_raise _ _ _ _ _ R)). cbn [fst snd]. rewrite D. reflexivity.
Qed.

(** *** Unknown number of chunks *)
Theorem unknown_nchunks f h : header_decode (sub 0 32 f) = Ok h -> F_version f = 3 -> F_n f = -1 ->
  has_offsets f = false -> has_meta f = false ->
  unpack_bytes_from_bytes E f = Ok ([], PNone).
Proof.
  intros HD HV HN HO HM.
  pose proof (header_decode_describes _ _ HD) as (D0 & _ & D1 & D2 & _ & _ & _ & _ & D3 & _).
  unfold F_version, F_n, has_offsets, has_meta in *.
  assert (S1 : u8 4 (sub 0 32 f) = u8 4 f) by (unfold u8; f_equal; apply (sub_sub_32 0 f 4 1); lia).
  assert (S2 : u8 5 (sub 0 32 f) = u8 5 f) by (unfold u8; f_equal; apply (sub_sub_32 0 f 5 1); lia).
  assert (S3 : i64 16 (sub 0 32 f) = i64 16 f) by (unfold i64; f_equal; apply (sub_sub_32 0 f 16 8); lia).
  rewrite S1 in D1. rewrite S2 in D2. rewrite S3 in D3. destruct (odd_bits (h_offsets h) (h_metadata h)) as [O1 O2].
  rewrite <- D2 in O1, O2. rewrite O1 in HO. rewrite O2 in HM.
  assert (RH : read_bloscpack_header (fp_of f) = (adv 32 (fp_of f), Ok h)).
  { unfold read_bloscpack_header. unfold BLOSCPACK_HEADER_LENGTH.
    assert (S : sub 0 32 f = ztake 32 f) by (unfold sub; rewrite <- zdrop_skipn, <- ztake_firstn, zdrop_0 by lia; reflexivity).
    assert (ZF : f = ztake 32 f ++ zdrop 32 f) by (symmetry; apply ztake_zdrop).
    rewrite (bind_run _ _ _ _ _ (f_read_rest 32 (fp_of f) (ztake 32 f) (zdrop 32 f) ltac:(rewrite rest_fp_of; exact ZF) ltac:(rewrite <- S; exact D0))).
    rewrite <- S, (bind_lift _ _ _ _ HD). replace (FORMAT_VERSION =? h_version h) with true by (unfold FORMAT_VERSION; lia). reflexivity. }
  assert (RB : read_beginning E (fp_of f) = (adv 32 (fp_of f), Ok (mkBeg h PNone None []))).
  { unfold read_beginning. rewrite (bind_run _ _ _ _ _ RH), HM. unfold bind at 1. cbn [ret]. unfold read_offsets. rewrite HO. reflexivity. }
  unfold unpack_bytes_from_bytes, unpack_core. rewrite RB. cbn [b_header b_meta].
  unfold unpack_fp. rewrite <- D3, HN. reflexivity.
Qed.

End WithEnv.
