(** The file-name level and the command line. *)
From Verif Require Import Base PyVal Checksums Headers Pretty Args FileIO Append Files Spec Archive BaseLemmas HeaderProofs IOProofs WfProofs PackProofs SmallProofs BytesProofs MetaProofs AppendProofs ArchiveProofs HistoryProofs.
From Coq Require Import ZifyBool ZifyNat.
Ltac Zify.zify_post_hook ::= Z.div_mod_to_equations.

Lemma fs_set_same s p d : fs_set s p d p = Some d.
Proof. unfold fs_set. rewrite String.eqb_refl. reflexivity. Qed.
Lemma fs_set_other s p d q : q <> p -> fs_set s p d q = s q.
Proof. intros H. unfold fs_set. destruct (String.eqb_spec q p); congruence. Qed.

Section WithEnv.
Variable E : Env.
Hypothesis HE : EnvOK E.

Lemma unpack_empty : unpack_core E [] = ([], Raise ValueError).
Proof. reflexivity. Qed.

Lemma zlen_file_of h o cs : header_ok h -> 32 <= zlen (file_of E h o cs).
Proof.
  intros H. unfold file_of. rewrite zlen_app, zlen_header_bytes.
  match goal with |- context [zlen ?x] => pose proof (zlen_nonneg x) end. lia.
Qed.

(** pack through a file name, as a function of what is read. *)
Lemma pack_file_eq meddle i o cs m oba obp oma s b0 b1 n c l :
  s i = Some b0 -> meddle s i = Some b1 -> calculate_nchunks (zlen b0) cs = Ok (n, c, l) -> o <> ""%string ->
  let seen := if String.eqb i o then [] else b1 in
  let k := snd (fst (pack_of E seen n c l m oba obp oma)) in
  pack_file_racing E meddle i o cs m oba obp oma s =
    match snd (pack_of E seen n c l m oba obp oma) with
    | Raise e => (fs_set (fs_set (meddle s) o []) o (fdata (s_fp k)), Raise e)
    | Ok r => (fs_set (fs_set (meddle s) o []) o (fdata (s_fp k)),
               if zlen (fdata (s_fp k)) =? 0 then Raise ZeroDivisionError else Ok r)
    end.
Proof.
  intros H0 H1 Hc Ho seen k. unfold pack_file_racing, getsize, open_rb, open_wb, meanwhile.
  unfold bind at 1. rewrite H0. rewrite (bind_lift _ _ _ _ Hc). unfold bind at 1. unfold bind at 1. rewrite H1.
  unfold bind at 1. destruct (String.eqb_spec o "") as [->|_]; [congruence|].
  fold seen. subst k. unfold pack_of, bind.
  destruct (pack _ _ _ _ _ _ _ _ _ _) as [[st k] [r|e]]; cbn [fst snd]; [|reflexivity].
  rewrite fs_set_same. destruct (_ =? 0); reflexivity.
Qed.

Theorem pack_file_ok s i o cs m oba obp oma b s' r :
  s i = Some b -> i <> o -> o <> ""%string ->
  pack_file_to_file E i o cs m oba obp oma s = (s', r) ->
  (forall p, p <> o -> s' p = s p) /\
  match pack_bytes_to_bytes E b cs m oba obp oma with
  | Ok f => (exists a, r = Ok a) /\ s' o = Some f
  | Raise e => r = Raise e
  end.
Proof.
  intros Hb Hio Ho H.
  destruct (calculate_nchunks (zlen b) cs) as [[[n c] l]|e] eqn:Ec.
  - unfold pack_file_to_file in H. rewrite (pack_file_eq (fun s : fs => s) i o cs m oba obp oma s b b n c l) in H by auto.
    destruct (String.eqb_spec i o); [congruence|].
    unfold pack_bytes_to_bytes. rewrite (pack_bytes_core_eq E _ _ _ _ _ _ _ _ _ Ec).
    pose proof (calculate_partition _ _ _ _ _ (zlen_nonneg b) Ec) as CP.
    destruct (pack_of E b n c l m oba obp oma) as [[st k] [a|e]] eqn:Ep; cbn [fst snd rbind] in *.
    + apply packed_inv in Ep as (h & os & ck & P & D & L); try lia; auto.
      pose proof (zlen_file_of h os ck (proj1 (packed_header E _ _ _ _ _ _ _ _ _ _ _ P))) as ZL.
      rewrite <- D in ZL. replace (zlen _ =? 0) with false in H by lia.
      injection H as <- <-. split; [intros p Hp; rewrite !fs_set_other by auto; reflexivity|].
      split; [eauto|]. apply fs_set_same.
    + injection H as <- <-. split; [intros p Hp; rewrite !fs_set_other by auto; reflexivity|reflexivity].
  - unfold pack_file_to_file, pack_file_racing, getsize in H. unfold bind at 1 in H. rewrite Hb in H.
    rewrite (bind_lift_raise _ _ _ _ Ec) in H. injection H as <- <-. split; [auto|].
    unfold pack_bytes_to_bytes, pack_bytes_core. rewrite Ec. reflexivity.
Qed.

Theorem unpack_file_ok s i o f s' r :
  s i = Some f -> i <> o -> o <> ""%string ->
  unpack_file_from_file E i o s = (s', r) ->
  (forall p, p <> o -> s' p = s p) /\
  match unpack_bytes_from_bytes E f with
  | Ok (b, m) => r = Ok m /\ s' o = Some b
  | Raise e => r = Raise e
  end.
Proof.
  intros Hf Hio Ho H. unfold unpack_file_from_file, getsize, open_rb, open_wb in H.
  unfold bind at 1 in H. rewrite Hf in H. unfold bind at 1 in H. rewrite Hf in H. unfold bind at 1 in H.
  destruct (String.eqb_spec o ""); [congruence|]. destruct (String.eqb_spec i o); [congruence|].
  unfold bind in H. unfold unpack_bytes_from_bytes.
  destruct (unpack_core E f) as [out [m|e]] eqn:Eu; cbn [rbind].
  - rewrite fs_set_same in H.
    destruct (zlen f =? 0) eqn:Z.
    { replace f with (@nil byte) in Eu by (symmetry; apply zlen_0; lia). rewrite unpack_empty in Eu. discriminate. }
    injection H as <- <-. split; [intros p Hp; rewrite !fs_set_other by auto; reflexivity|]. split; [reflexivity|apply fs_set_same].
  - injection H as <- <-. split; [intros p Hp; rewrite !fs_set_other by auto; reflexivity|reflexivity].
Qed.

(** Names that cannot be opened. *)
Theorem no_input s i : s i = None ->
  (forall o cs m oba obp oma, pack_file_to_file E i o cs m oba obp oma s = (s, Raise OSError)) /\
  (forall o, unpack_file_from_file E i o s = (s, Raise OSError)) /\
  unpack_bytes_from_file E i s = (s, Raise OSError) /\
  (forall other oa, append_file E i other oa s = (s, Raise OSError) /\ append_file E other i oa s = (s, Raise OSError)).
Proof.
  intros H. split; [|split; [|split]].
  - intros o cs m oba obp oma. unfold pack_file_to_file, pack_file_racing, getsize. unfold bind at 1. rewrite H. reflexivity.
  - intros o. unfold unpack_file_from_file, getsize. unfold bind at 1. rewrite H. reflexivity.
  - unfold unpack_bytes_from_file, open_rb. unfold bind at 1. rewrite H. reflexivity.
  - intros other oa. unfold append_file, getsize. split.
    + unfold bind at 1. rewrite H. reflexivity.
    + unfold bind at 1. destruct (s other) as [d|]; [|reflexivity]. unfold bind at 1. rewrite H. reflexivity.
Qed.
Theorem no_output s b cs m oba obp oma r : calculate_nchunks (zlen b) cs = Ok r ->
  pack_bytes_to_file E b "" cs m oba obp oma s = (s, Raise OSError) /\
  (forall i, s i = Some b -> pack_file_to_file E i "" cs m oba obp oma s = (s, Raise OSError)).
Proof.
  intros H. destruct r as [[n c] l]. split.
  - unfold pack_bytes_to_file. rewrite (bind_lift _ _ _ _ H). reflexivity.
  - intros i Hi. unfold pack_file_to_file, pack_file_racing, getsize, open_rb. unfold bind at 1. rewrite Hi. rewrite (bind_lift _ _ _ _ H).
    unfold meanwhile. unfold bind at 1. unfold bind at 1. rewrite Hi. reflexivity.
Qed.
Theorem no_output_unpack s i f : s i = Some f -> unpack_file_from_file E i "" s = (s, Raise OSError).
Proof.
  intros H. unfold unpack_file_from_file, getsize, open_rb. unfold bind at 1. rewrite H. unfold bind at 1. rewrite H. reflexivity.
Qed.

Theorem file_round_trip s i o back cs m oba obp oma b s' a s'' r :
  s i = Some b -> i <> o -> o <> ""%string -> back <> o -> back <> ""%string ->
  pack_file_to_file E i o cs m oba obp oma s = (s', Ok a) ->
  unpack_file_from_file E o back s' = (s'', r) ->
  r = Ok (norm m) /\ s'' back = Some b /\ (forall p, p <> o -> p <> back -> s'' p = s p).
Proof.
  intros Hb Hio Ho Hbo Hbe Hp Hu. apply (pack_file_ok s i o cs m oba obp oma b) in Hp as [F P]; auto.
  destruct (pack_bytes_to_bytes E b cs m oba obp oma) as [f|e] eqn:Ep; [|discriminate].
  destruct P as [_ Pf]. apply (unpack_file_ok s' o back f) in Hu as [F' U]; auto.
  rewrite (bytes_roundtrip E HE _ _ _ _ _ _ _ Ep) in U. destruct U as [-> U]. split; [auto|]. split; [auto|].
  intros p H1 H2. rewrite F', F; auto.
Qed.

Theorem bytes_file_ok s o cs m oba obp oma b s' r :
  o <> ""%string ->
  pack_bytes_to_file E b o cs m oba obp oma s = (s', r) ->
  (forall p, p <> o -> s' p = s p) /\
  match pack_bytes_to_bytes E b cs m oba obp oma with
  | Ok f => (exists a, r = Ok a) /\ s' o = Some f /\ unpack_bytes_from_file E o s' = (s', Ok (b, norm m))
  | Raise e => r = Raise e
  end.
Proof.
  intros Ho H. unfold pack_bytes_to_file in H.
  destruct (calculate_nchunks (zlen b) cs) as [[[n c] l]|e] eqn:Ec.
  - rewrite (bind_lift _ _ _ _ eq_refl) in H. unfold open_wb, getsize in H. unfold bind at 1 in H.
    destruct (String.eqb_spec o ""); [congruence|].
    pose proof (calculate_partition _ _ _ _ _ (zlen_nonneg b) Ec) as CP.
    destruct (pack_bytes_to_bytes E b cs m oba obp oma) as [f|e0] eqn:Epb; pose proof Epb as Epb'.
    + unfold pack_bytes_to_bytes in Epb. rewrite (pack_bytes_core_eq E _ _ _ _ _ _ _ _ _ Ec) in Epb.
      unfold pack_of, bind in *.
      destruct (pack _ _ _ _ _ _ _ _ _ _) as [[st k] [a|e]] eqn:Ep; cbn [fst snd rbind] in *; [|discriminate].
      injection Epb as <-. rewrite fs_set_same in H.
      apply packed_inv in Ep as (h & os & ck & P & D & L); try lia; auto.
      pose proof (zlen_file_of h os ck (proj1 (packed_header E _ _ _ _ _ _ _ _ _ _ _ P))) as ZL.
      rewrite <- D in ZL. replace (zlen _ =? 0) with false in H by lia.
      injection H as <- <-. split; [intros p Hp; rewrite !fs_set_other by auto; reflexivity|].
      split; [eauto|]. split; [apply fs_set_same|].
      unfold unpack_bytes_from_file, open_rb, bind. rewrite fs_set_same. unfold lift.
      rewrite (bytes_roundtrip E HE _ _ _ _ _ _ _ Epb'). reflexivity.
    + unfold pack_bytes_to_bytes in Epb. rewrite (pack_bytes_core_eq E _ _ _ _ _ _ _ _ _ Ec) in Epb.
      unfold pack_of, bind in *.
      destruct (pack _ _ _ _ _ _ _ _ _ _) as [[st k] [a|e]] eqn:Ep; cbn [fst snd rbind] in *; [discriminate|].
      injection Epb as <-. injection H as <- <-.
      split; [intros p Hp; rewrite !fs_set_other by auto; reflexivity|reflexivity].
  - rewrite (bind_lift_raise _ _ _ _ eq_refl) in H. injection H as <- <-. split; [auto|].
    unfold pack_bytes_to_bytes, pack_bytes_core. rewrite Ec. reflexivity.
Qed.

(** ** C31 *)
Lemma packed_unpack b n c l m oba obp oma h o cs : 1 <= n -> 0 <= c -> 0 <= l ->
  packed E b n c l m oba obp oma h o cs ->
  unpack_bytes_from_bytes E (file_of E h o cs) = Ok (ztake ((n - 1) * c + l) b, norm m).
Proof.
  intros Hn Hc Hl P. destruct (packed_wf E HE b n c l m oba obp oma h o cs) as [W V]; auto.
  unfold unpack_bytes_from_bytes. rewrite (unpack_wf E HE _ _ _ _ _ W), V. cbn [rbind].
  rewrite (packed_content E b n c l m oba obp oma h o cs) by auto. reflexivity.
Qed.

Theorem race_before_open meddle s i o cs m oba obp oma b0 b1 s' a :
  s i = Some b0 -> meddle s i = Some b1 -> i <> o -> 
  pack_file_racing E meddle i o cs m oba obp oma s = (s', Ok a) ->
  (forall p, p <> o -> s' p = meddle s p) /\
  exists f, s' o = Some f /\ unpack_bytes_from_bytes E f = Ok (sub 0 (size b0) b1, norm m).
Proof.
  intros H0 H1 Hio H.
  assert (Ho : o <> ""%string).
  { intros ->. unfold pack_file_racing, getsize, open_rb, open_wb, meanwhile in H.
    apply bind_Ok in H as (? & ? & _ & H). apply bind_Ok in H as (? & [[? ?] ?] & _ & H).
    apply bind_Ok in H as (? & ? & _ & H). apply bind_Ok in H as (? & ? & _ & H).
    apply bind_Ok in H as (? & ? & H & _). cbn in H. discriminate. }
  destruct (calculate_nchunks (zlen b0) cs) as [[[n c] l]|e] eqn:Ec.
  - rewrite (pack_file_eq meddle i o cs m oba obp oma s b0 b1 n c l) in H by auto.
    destruct (String.eqb_spec i o); [congruence|].
    pose proof (calculate_partition _ _ _ _ _ (zlen_nonneg b0) Ec) as CP.
    destruct (pack_of E b1 n c l m oba obp oma) as [[st k] [a'|e]] eqn:Ep; cbn [fst snd rbind] in *; [|discriminate].
    apply packed_inv in Ep as (h & os & ck & P & D & L); try lia; auto.
    destruct (zlen _ =? 0); [discriminate|].
    apply (f_equal fst) in H; cbn [fst] in H; subst s'. split; [intros p Hp; rewrite !fs_set_other by auto; reflexivity|].
    exists (file_of E h os ck). rewrite fs_set_same, D. split; [reflexivity|].
    rewrite (packed_unpack b1 n c l m oba obp oma h os ck) by (auto; lia). do 2 f_equal.
    unfold sub. cbn [skipn Z.to_nat]. rewrite ztake_firstn. change (size b0) with (zlen b0). f_equal. f_equal. lia.
  - unfold pack_file_racing, getsize in H. unfold bind at 1 in H. rewrite H0 in H.
    rewrite (bind_lift_raise _ _ _ _ Ec) in H. discriminate.
Qed.

Fixpoint trimmed (l : list Z) (reads : list bytes) : list bytes :=
  match l with
  | [] => []
  | n :: l' => match reads with [] => [] :: trimmed l' [] | x :: r => ztake n x :: trimmed l' r end
  end.
Lemma stream_yields l : forall reads, exists s', yields (map stream_read l) reads (trimmed l reads) s'.
Proof.
  induction l as [|n l IH]; intros reads; [exists reads; reflexivity|].
  destruct reads as [|x r]; cbn [map trimmed yields].
  - destruct (IH []) as [s' H]. exists s', []. auto.
  - destruct (IH r) as [s' H]. exists s', r. auto.
Qed.
Lemma trimmed_full l : forall reads, Forall2 (fun x k => zlen x <= k) reads l -> trimmed l reads = reads.
Proof.
  induction l as [|n l IH]; intros reads H; inversion H; subst; [reflexivity|].
  cbn [trimmed]. rewrite ztake_all by lia. f_equal. auto.
Qed.

Theorem race_while_reading in_size reads cs m oba obp oma f n c l :
  0 <= in_size -> calculate_nchunks in_size cs = Ok (n, c, l) ->
  Forall2 (fun x k => size x <= k) reads (repeat c (Z.to_nat (n - 1)) ++ [l]) ->
  pack_stream E in_size reads cs m oba obp oma = Ok f ->
  unpack_bytes_from_bytes E f = Ok (concat reads, norm m).
Proof.
  intros Hs Ec HR H. unfold pack_stream in H. rewrite Ec in H. cbn [rbind] in H.
  pose proof (calculate_partition _ _ _ _ _ Hs Ec) as CP.
  destruct (pack _ _ _ _ _ _ _ _ _ _) as [[st k] [a|e]] eqn:Ep; cbn [rbind] in H; [|discriminate].
  injection H as <-.
  assert (ZS : zlen (ps_steps (stream_source E) n c l) = n).
  { cbn [stream_source ps_steps]. rewrite zlen_map. apply zlen_chunk_sizes. lia. }
  pose proof (pack_inv E HE (stream_source E) n c l m oba obp oma ltac:(lia) ZS _ _ _ _ Ep) as (h & o & chunks & cs' & P).
  destruct (pack_run E HE (stream_source E) n c l m oba obp oma ltac:(lia) ZS _ _ _ _ _ _ P) as (oma' & k' & R & D & _).
  rewrite Ep in R. injection R as -> ->. rewrite D.
  assert (CH : chunks = reads).
  { destruct P as [_ _ _ Y _ _]. destruct (stream_yields (chunk_sizes n c l) reads) as [s2 Y2].
    destruct (yields_det _ _ _ _ _ _ Y Y2) as [-> _]. apply trimmed_full. exact HR. }
  subst chunks.
  pose proof (pack_inputs_wf E HE (stream_source E) n c l m oba obp oma ltac:(lia) ZS (fun x => x) _ _ _ _ _ _
     ltac:(intros x q Hq; cbn in Hq; unfold compress_chunk_str in Hq; eauto) P) as W.
  unfold unpack_bytes_from_bytes. rewrite (unpack_wf E HE _ _ _ _ _ W). cbn [rbind]. rewrite map_id.
  assert (VO : osect_val o = norm m).
  { destruct P as [_ _ PM _ _ _]. destruct (meta_plan_ok E HE m oma o PM) as (_ & _ & ->). destruct m; reflexivity. }
  rewrite VO. unfold content. rewrite combine_snd; [reflexivity|].
  destruct P as [_ _ _ _ PC _]. symmetry. eapply F2_length; eauto.
Qed.

(** ** C32 *)
Theorem chunk_errors_harmless s i o cs m oba obp oma e :
  match s i with Some b => calculate_nchunks (size b) cs = Raise e | None => e = OSError end ->
  pack_file_to_file E i o cs m oba obp oma s = (s, Raise e).
Proof.
  intros H. unfold pack_file_to_file, pack_file_racing, getsize. unfold bind at 1.
  destruct (s i) as [b|]; [|subst; reflexivity]. change (size b) with (zlen b) in H.
  rewrite (bind_lift_raise _ _ _ _ H). reflexivity.
Qed.

Theorem bad_args_truncate s i o cs m oba obp oma b r :
  s i = Some b -> i <> o -> o <> ""%string -> calculate_nchunks (size b) cs = Ok r ->
  ~ In (bp_checksum (the_bpargs obp)) checksum_names \/
  ~ (0 <= ba_typesize (the_bargs oba) <= 255) \/
  (bp_offsets (the_bpargs obp) = true /\ exists v, bp_max_app (the_bpargs obp) = MAInt v /\ v < 0) ->
  exists s' e, pack_file_to_file E i o cs m oba obp oma s = (s', Raise e) /\
    s' o = Some [] /\ (forall p, p <> o -> s' p = s p).
Proof.
  intros Hb Hio Ho Ec Hbad. destruct r as [[n c] l]. change (size b) with (zlen b) in Ec.
  unfold pack_file_to_file. rewrite (pack_file_eq (fun s : fs => s) i o cs m oba obp oma s b b n c l) by auto.
  destruct (String.eqb_spec i o); [congruence|].
  assert (PR : exists e, pack_of E b n c l m oba obp oma = ((fp_of b, cfs_of (fp_of [])), Raise e)).
  { unfold pack_of, pack. fold (the_bpargs obp) (the_bargs oba).
    destruct (handle_max_apps _ _ _) as [mx|e] eqn:Em; [|exists e; reflexivity].
    rewrite (bind_lift _ _ _ _ eq_refl).
    destruct (mk_header _ _ _ _ _ _ _ _ _) as [h|e] eqn:Eh; [|exists e; reflexivity].
    exfalso. apply mk_header_Ok in Eh as (_ & Hn & k & Hc & Hh).
    destruct Hbad as [HB|[HB|(HB & v & HV & Hv)]].
    - apply HB. rewrite Hc. destruct k; cbn; tauto.
    - unfold header_nums_ok in Hn. tauto.
    - rewrite HB, HV in Em. pose proof (calculate_partition _ _ _ _ _ (zlen_nonneg b) Ec) as CP.
      unfold handle_max_apps in Em.
      destruct (check_range n (-1) MAX_CHUNKS); [|discriminate]. cbn [rbind] in Em.
      replace (n =? -1) with false in Em by lia. cbn [negb andb] in Em.
      unfold check_range in Em. replace (0 <=? v) with false in Em by lia. discriminate. }
  destruct PR as [e PR]. rewrite PR. cbn [fst snd s_fp cfs_of fdata fp_of].
  eexists _, e. split; [reflexivity|]. split; [apply fs_set_same|]. intros p Hp. rewrite !fs_set_other by auto. reflexivity.
Qed.

(** ** C33 *)
Theorem self_pack_loses s p cs m oba obp oma b s' a :
  s p = Some b -> pack_file_to_file E p p cs m oba obp oma s = (s', Ok a) ->
  exists f, s' p = Some f /\ unpack_bytes_from_bytes E f = Ok ([], norm m).
Proof.
  intros Hb H.
  assert (Ho : p <> ""%string).
  { intros ->. unfold pack_file_to_file, pack_file_racing, getsize, open_rb, open_wb, meanwhile in H.
    apply bind_Ok in H as (? & ? & _ & H). apply bind_Ok in H as (? & [[? ?] ?] & _ & H).
    apply bind_Ok in H as (? & ? & _ & H). apply bind_Ok in H as (? & ? & _ & H).
    apply bind_Ok in H as (? & ? & H & _). cbn in H. discriminate. }
  destruct (calculate_nchunks (zlen b) cs) as [[[n c] l]|e] eqn:Ec.
  - unfold pack_file_to_file in H. rewrite (pack_file_eq (fun s : fs => s) p p cs m oba obp oma s b b n c l) in H by auto.
    rewrite String.eqb_refl in H.
    pose proof (calculate_partition _ _ _ _ _ (zlen_nonneg b) Ec) as CP.
    destruct (pack_of E [] n c l m oba obp oma) as [[st k] [a'|e]] eqn:Ep; cbn [fst snd rbind] in *; [|discriminate].
    apply packed_inv in Ep as (h & os & ck & P & D & L); try lia; auto.
    destruct (zlen _ =? 0); [discriminate|].
    apply (f_equal fst) in H; cbn [fst] in H; subst s'.
    exists (file_of E h os ck). rewrite fs_set_same, D. split; [reflexivity|].
    rewrite (packed_unpack [] n c l m oba obp oma h os ck) by (auto; lia).
    rewrite ztake_firstn, firstn_nil. reflexivity.
  - unfold pack_file_to_file, pack_file_racing, getsize in H. unfold bind at 1 in H. rewrite Hb in H.
    rewrite (bind_lift_raise _ _ _ _ Ec) in H. discriminate.
Qed.

Theorem self_unpack_loses s p f : s p = Some f -> p <> ""%string ->
  exists s', unpack_file_from_file E p p s = (s', Raise ValueError) /\ s' p = Some [].
Proof.
  intros Hf Hp. unfold unpack_file_from_file, getsize, open_rb, open_wb. unfold bind at 1. rewrite Hf.
  unfold bind at 1. rewrite Hf. unfold bind at 1. destruct (String.eqb_spec p ""); [congruence|].
  rewrite String.eqb_refl. unfold bind. rewrite unpack_empty. eexists. split; [reflexivity|]. apply fs_set_same.
Qed.

(** ** Appending by file name *)
Theorem append_file_ok s p q oa f b m new s' r :
  s p = Some f -> s q = Some new -> p <> q -> archive E f b m -> sizable f new ->
  append_file E p q oa s = (s', r) ->
  (forall x, x <> p -> s' x = s x) /\
  exists f', s' p = Some f' /\ f' = fst (append_bytes E f new oa) /\
  match snd (append_bytes E f new oa) with
  | Raise e => r = Raise e /\ f' = f
  | Ok _ => r = (if size new =? 0 then Raise ZeroDivisionError else Ok tt) /\
            unpack_bytes_from_bytes E f' = Ok (b ++ new, m)
  end.
Proof.
  intros Hp Hq Hpq A Z H. unfold append_file, getsize, open_rb, bind in H. rewrite Hp, Hq in H.
  assert (R : append_bytes E f new oa = (fdata (snd (fst (append_fp E (zlen new) oa (fp_of new, fp_of f)))),
     snd (append_fp E (zlen new) oa (fp_of new, fp_of f)))) by reflexivity.
  destruct (append_fp E (zlen new) oa (fp_of new, fp_of f)) as [[nf g] [k|e]]; cbn [fst snd] in *.
  - rewrite fs_set_same in H. rewrite R. cbn [fst snd].
    pose proof (append_appends E HE _ _ _ _ _ _ _ A Z R) as U.
    change (size new) with (zlen new).
    assert (HS : s' = fs_set s p (fdata g)) by (destruct (zlen new =? 0); apply (f_equal fst) in H; cbn in H; auto).
    subst s'. split; [intros x Hx; apply fs_set_other; auto|].
    exists (fdata g). rewrite fs_set_same. split; [reflexivity|]. split; [reflexivity|]. split; [|exact U].
    destruct (zlen new =? 0); apply (f_equal snd) in H; cbn in H; auto.
  - rewrite R. cbn [fst snd]. destruct (append_fails_clean E HE _ _ _ _ _ _ _ A Z R) as [U _].
    injection H as <- <-. split; [intros x Hx; apply fs_set_other; auto|].
    exists (fdata g). rewrite fs_set_same. auto.
Qed.

Theorem append_empty_file s p q oa f b m :
  s p = Some f -> s q = Some [] -> p <> q -> archive E f b m -> sizable f [] ->
  has_offsets f = true -> blosc_args_ok E (effective f oa) ->
  exists s', append_file E p q oa s = (s', Raise ZeroDivisionError) /\
    exists f', s' p = Some f' /\ unpack_bytes_from_bytes E f' = Ok (b, m).
Proof.
  intros Hp Hq Hpq A Z Ho Hba.
  destruct (append_file E p q oa s) as [s' r] eqn:EA.
  destruct (append_file_ok s p q oa f b m [] s' r) as (_ & f' & H1 & H2 & H3); auto.
  destruct (append_nothing E HE f b m oa A Z Ho Hba) as (f2 & R & _). rewrite R in *. cbn [fst snd] in *.
  destruct H3 as [-> U]. exists s'. split; [reflexivity|]. exists f'. rewrite app_nil_r in U. auto.
Qed.

End WithEnv.
