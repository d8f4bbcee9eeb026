(** Which arrays are accepted, and unpacking arrays. *)
From Verif Require Import Base PyVal Checksums Headers Args FileIO Files NumpyIO Spec NumpySpec BaseLemmas HeaderProofs IOProofs WfProofs PackProofs SmallProofs BytesProofs Json MetaProofs FilesProofs NumpyProofs.
From Coq Require Import ZifyBool ZifyNat.
Ltac Zify.zify_post_hook ::= Z.div_mod_to_equations.

Section WithEnv.
Variable E : Env.
Hypothesis HE : EnvOK E.
Variable N : NpEnv.

(** ** Acceptance (C35) *)
Lemma objects_rejected {Snk} (snk : compressed_sink Snk) a csa oba obp oma k : dt_hasobject (nd_dtype a) = true ->
  pack_ndarray E N a snk csa oba obp oma k = (k, Raise ObjectNumpyArrayRejection).
Proof. intros H. unfold pack_ndarray. rewrite H. reflexivity. Qed.

(** arguments that are good for one item size are good for another up to the
    first chunk *)
Definition list_source : plain_source (list bytes) bytes :=
  mkPS (list bytes) bytes (fun n _ _ => zrep n (fun l => match l with [] => ([], Raise RuntimeError) | x :: r => (r, Ok x) end))
       (fun _ x => Ok x).
Lemma list_yields cs : yields (repeat (fun l : list bytes => match l with [] => ([], Raise RuntimeError) | x :: r => (r, Ok x) end) (List.length cs)) cs cs [].
Proof. induction cs as [|x cs IH]; cbn; [reflexivity|]. exists cs. auto. Qed.

Lemma other_typesize b csa m oba obp oma f n c l ts : 0 <= ts <= 255 ->
  pack_bytes_to_bytes E b csa m oba obp oma = Ok f -> calculate_nchunks (zlen b) csa = Ok (n, c, l) ->
  exists cs st r, pack list_source (fp_sink E) n c l m
      (Some (mkBA ts (ba_clevel (the_bargs oba)) (ba_shuffle (the_bargs oba)) (ba_cname (the_bargs oba)))) obp oma
      (cs, cfs_of (fp_of [])) = (st, Ok r).
Proof.
  intros Ht H Ec. apply (pack_bytes_inv E HE) in H as (n' & c' & l' & h & o & cs & Ec' & P & _ & _).
  rewrite Ec in Ec'. injection Ec' as <- <- <-.
  pose proof (calculate_partition _ _ _ _ _ (zlen_nonneg b) Ec) as CP.
  pose proof (packed_header E _ _ _ _ _ _ _ _ _ _ _ P) as (Hok & Hv & Ho & Hmd & Hck & Hts & Hcs & Hl & Hnc).
  destruct P as [P1 P2 P3 P4 P5].
  assert (LC : List.length cs = Z.to_nat n).
  { apply F2_length in P4. rewrite takes_length in P4. pose proof (zlen_chunk_sizes n c l ltac:(lia)). unfold zlen in H. lia. }
  assert (ZS : zlen (ps_steps list_source n c l) = n) by (cbn [list_source ps_steps]; rewrite zlen_zrep; lia).
  set (h' := mkH 3 (h_offsets h) (h_metadata h) (h_checksum h) ts c l n (h_max_app h)).
  destruct (pack_run E HE list_source n c l m
     (Some (mkBA ts (ba_clevel (the_bargs oba)) (ba_shuffle (the_bargs oba)) (ba_cname (the_bargs oba)))) obp oma ltac:(lia) ZS
     cs [] h' o cs cs) as (oma' & k' & R & _ & _).
  - constructor.
    + exact P1.
    + fold (the_bpargs obp). cbn [ba_typesize]. rewrite Hck. unfold h'. cbn [h_max_app]. rewrite Ho, Hmd.
      apply mk_header_intro; [lia|].
      apply mk_header_Ok in P2 as (_ & Hn & _). unfold header_nums_ok in *. tauto.
    + exact P3.
    + cbn [list_source ps_steps]. unfold zrep. rewrite <- LC. apply list_yields.
    + clear. induction cs; constructor; auto.
    + unfold h' at 1. cbn [h_offsets]. intros Hoo.
      replace (offs E h' o cs) with (offs E h o cs); [auto|].
      unfold offs, body_pos, table_len, h'. cbn [h_offsets h_nchunks h_max_app h_checksum]. rewrite Hnc. reflexivity.
  - eauto.
Qed.

Lemma calc_effective sz csa n c l z : 0 < sz -> calculate_nchunks sz csa = Ok (n, c, l) -> asked csa z -> c = Z.min z sz.
Proof.
  intros Hs Ec Hz. pose proof (calculate_partition sz csa n c l ltac:(lia) Ec) as CP.
  destruct CP as (_ & _ & _ & _ & _ & _ & CP & _). destruct (CP Hs) as (_ & _ & z' & A & ->).
  assert (z' = z) by (destruct csa; cbn in *; [congruence|congruence|tauto]). subst. reflexivity.
Qed.

Theorem np_acceptance a csa oba obp oma n : nd_ok a ->
  let total := nd_size a * nd_itemsize a in
  (total = 0 /\ n = 1) \/ (0 < total /\ exists z, asked csa z /\ 1 <= z <= BUFMAX /\ n = (total + z - 1) / z) ->
  n <= 2 ^ 63 - 1 ->
  0 <= ba_clevel (the_bargs oba) <= 9 -> e_cname_ok E (ba_cname (the_bargs oba)) = true ->
  In (bp_checksum (the_bpargs obp)) checksum_names ->
  (bp_offsets (the_bpargs obp) = true -> exists v, reserve_of (bp_max_app (the_bpargs obp)) n v /\ 0 <= v /\
      total + 88 * n + 8 * v + 4294967423 <= 2 ^ 63 - 1) ->
  (exists raw p mx, meta_fits E (ndarray_meta N a) (the_margs oma) raw p mx) ->
  let r := pack_ndarray_to_bytes E N a csa oba obp oma in
  (dt_hasobject (nd_dtype a) = true -> r = Raise ObjectNumpyArrayRejection) /\
  (dt_hasobject (nd_dtype a) = false ->
     (255 < nd_itemsize a -> r = Raise ValueError) /\
     (nd_itemsize a = 0 -> r = Raise ZeroDivisionError) /\
     (1 <= nd_itemsize a <= 255 ->
        (0 < total -> forall z, asked csa z -> Z.min z total mod nd_itemsize a <> 0 -> r = Raise ChunkSizeTypeSizeMismatch) /\
        ((total = 0 \/ exists z, asked csa z /\ Z.min z total mod nd_itemsize a = 0) -> exists f, r = Ok f))).
Proof.
  intros Ha total Hn Hn2 Hl Hc Hck Hr Hm r.
  assert (Ht : 0 <= total) by (apply size_nonneg; auto).
  pose proof (zlen_image N a Ha) as ZI. fold total in ZI.
  set (b8 := mkBA 8 (ba_clevel (the_bargs oba)) (ba_shuffle (the_bargs oba)) (ba_cname (the_bargs oba))).
  destruct (pack_valid E HE (image N a) csa (ndarray_meta N a) (Some b8) obp oma n) as [f8 P8]; auto.
  { change size with (@zlen byte). rewrite ZI. exact Hn. }
  { unfold blosc_args_ok. cbn. repeat split; auto; lia. }
  { change size with (@zlen byte). rewrite ZI. exact Hr. }
  pose proof P8 as P8'. apply (pack_bytes_inv E HE) in P8' as (n' & c & l & h & o & cs & Ec & PK & _ & _).
  rewrite ZI in Ec. pose proof (calculate_partition _ _ _ _ _ Ht Ec) as CP.
  split; [intros Ho; unfold r, pack_ndarray_to_bytes; rewrite objects_rejected by auto; reflexivity|].
  intros Ho. split; [|split].
  - intros Hi. unfold r, pack_ndarray_to_bytes, pack_ndarray. rewrite Ho. fold total. rewrite Ec.
    rewrite pack_split. unfold pack_prefix.
    rewrite (bind_lift _ _ _ _ (pk_max _ _ _ _ _ _ _ _ _ _ _ _ PK)).
    apply In_checksum_names in Hck as [ck Hck].
    erewrite bind_lift_raise; [reflexivity|]. unfold FORMAT_VERSION, mk_header.
    rewrite check_range_in by (unfold MAX_FORMAT_VERSION; lia). cbn [rbind]. rewrite Hck, check_valid_name. cbn [rbind].
    unfold check_header_nums, check_range at 1. cbn [the_bargs np_bargs ba_typesize].
    unfold BLOSC_MAX_TYPESIZE. replace ((0 <=? nd_itemsize a) && (nd_itemsize a <=? 255)) with false by lia. reflexivity.
  - intros Hi. destruct (other_typesize (image N a) csa _ _ _ _ f8 n' c l 0 ltac:(lia) P8) as (cs' & st & q & PO); [rewrite ZI; exact Ec|].
    unfold r, pack_ndarray_to_bytes, pack_ndarray. rewrite Ho. fold total. rewrite Ec.
    assert (BA : np_bargs a oba = mkBA 0 (ba_clevel (the_bargs (Some b8))) (ba_shuffle (the_bargs (Some b8))) (ba_cname (the_bargs (Some b8)))).
    { unfold np_bargs. rewrite Hi. reflexivity. }
    rewrite BA.
    pose proof (pack_first_raises list_source (np_source E (source_array N a)) (fp_sink E) n' c l (ndarray_meta N a) _ obp oma
      cs' tt _ st q ZeroDivisionError PO) as PR.
    destruct (pack (np_source E _) _ _ _ _ _ _ _ _ _) as [[? ?] q2]. cbn [snd] in PR. rewrite PR; [reflexivity|].
    cbn [np_source ps_steps]. rewrite (source_array_item N a), Hi. exists []. reflexivity.
  - intros Hi. split.
    + intros Hpos z Hz Hmod. pose proof (calc_effective _ _ _ _ _ _ Hpos Ec Hz) as EC.
      destruct (other_typesize (image N a) csa _ _ _ _ f8 n' c l (nd_itemsize a) ltac:(lia) P8) as (cs' & st & q & PO); [rewrite ZI; exact Ec|].
      unfold r, pack_ndarray_to_bytes, pack_ndarray. rewrite Ho. fold total. rewrite Ec.
      pose proof (pack_first_raises list_source (np_source E (source_array N a)) (fp_sink E) n' c l (ndarray_meta N a) _ obp oma
        cs' tt _ st q ChunkSizeTypeSizeMismatch PO) as PR.
      change (mkBA (nd_itemsize a) (ba_clevel (the_bargs (Some b8))) (ba_shuffle (the_bargs (Some b8))) (ba_cname (the_bargs (Some b8))))
        with (np_bargs a oba) in PR.
      destruct (pack (np_source E _) _ _ _ _ _ _ _ _ _) as [[? ?] q2]. cbn [snd] in PR. rewrite PR; [reflexivity|].
      cbn [np_source ps_steps]. rewrite (source_array_item N a).
      rewrite <- EC in Hmod. rewrite (proj2 (Z.eqb_neq (nd_itemsize a) 0)) by lia. rewrite (proj2 (Z.eqb_neq (c mod nd_itemsize a) 0)) by exact Hmod. cbn [negb]. exists []. reflexivity.
    + intros Hd. unfold r.
      assert (Dc : c mod nd_itemsize a = 0).
      { destruct (Z.eq_dec total 0) as [T0|T0].
        - assert (c = 0) by (destruct CP as (_ & _ & _ & _ & _ & _ & _ & CP); apply CP; auto). subst c. apply Z.mod_0_l. lia.
        - destruct Hd as [?|(z & Hz & Hmod)]; [lia|]. rewrite (calc_effective total csa n' c l z ltac:(lia) Ec Hz). exact Hmod. }
      rewrite (pack_ndarray_bytes E N a csa oba obp oma n' c l) by (first [exact Ec | exact Dc | assumption | lia]).
      apply (pack_valid E HE _ _ _ _ _ _ n); try assumption; [| | |intros _; assumption].
      * change size with (@zlen byte). rewrite ZI. exact Hn.
      * exact (conj Hi (conj Hl Hc)).
      * change size with (@zlen byte). rewrite ZI. exact Hr.
Qed.

(** only such arrays are accepted, whatever the arguments *)
Theorem np_accepted_only a csa oba obp oma f : nd_ok a -> pack_ndarray_to_bytes E N a csa oba obp oma = Ok f ->
  dt_hasobject (nd_dtype a) = false /\ 1 <= nd_itemsize a <= 255 /\
  (nd_size a * nd_itemsize a = 0 \/ exists z, asked csa z /\ Z.min z (nd_size a * nd_itemsize a) mod nd_itemsize a = 0).
Proof.
  intros Ha H. unfold pack_ndarray_to_bytes in H.
  destruct (pack_ndarray _ _ _ _ _ _ _ _ _) as [k [r|e]] eqn:P; [|discriminate].
  apply (pack_ndarray_inv E N) in P as (H1 & H2 & n & c & l & Ec & Hd); auto. split; [auto|split; [auto|]].
  pose proof (calculate_partition _ _ _ _ _ (size_nonneg a Ha) Ec) as CP.
  pose proof (size_nonneg a Ha).
  destruct (Z.eq_dec (nd_size a * nd_itemsize a) 0) as [Z0|Z0]; [left; exact Z0|right].
  destruct CP as (_ & _ & _ & _ & _ & _ & CP & _). destruct CP as (_ & _ & z & A & ->); [lia|]. eauto.
Qed.

(** ** Unpacking *)
Definition nps_wr (x : bytes) (s : nps) : nps :=
  mkNPS (ns_dtype s) (ns_shape s) (ns_fortran s)
        (ztake (ns_pos s) (ns_buf s) ++ x ++ zdrop (ns_pos s + zlen x) (ns_buf s)) (ns_pos s + zlen x).

Lemma nps_wr_nil s : 0 <= ns_pos s -> nps_wr [] s = s.
Proof.
  intros H. unfold nps_wr. change (zlen (@nil byte)) with 0. rewrite Z.add_0_r. cbn [app]. rewrite ztake_zdrop. destruct s; reflexivity.
Qed.
Lemma nps_wr_wr x y s : 0 <= ns_pos s -> ns_pos s + zlen x + zlen y <= zlen (ns_buf s) ->
  nps_wr y (nps_wr x s) = nps_wr (x ++ y) s.
Proof.
  intros Hp Hl. pose proof (zlen_nonneg x). pose proof (zlen_nonneg y). unfold nps_wr. cbn [ns_dtype ns_shape ns_fortran ns_buf ns_pos].
  rewrite zlen_app, Z.add_assoc. f_equal.
  assert (ZT : zlen (ztake (ns_pos s) (ns_buf s)) = ns_pos s) by (rewrite zlen_ztake; lia).
  rewrite !(app_assoc (ztake (ns_pos s) (ns_buf s))).
  rewrite ztake_app_exact by (rewrite zlen_app; lia).
  rewrite <- !app_assoc. do 3 f_equal.
  rewrite app_assoc. replace (ns_pos s + zlen x + zlen y) with (zlen y + zlen (ztake (ns_pos s) (ns_buf s) ++ x)) at 1
    by (rewrite zlen_app; lia).
  rewrite <- zdrop_zdrop by (try apply zlen_nonneg; lia).
  rewrite zdrop_app_exact by reflexivity.
  rewrite zdrop_zdrop by lia. f_equal. lia.
Qed.
Lemma zlen_wr x s : 0 <= ns_pos s -> ns_pos s + zlen x <= zlen (ns_buf s) -> zlen (ns_buf (nps_wr x s)) = zlen (ns_buf s).
Proof.
  intros Hp Hl. pose proof (zlen_nonneg x). cbn [nps_wr ns_buf]. rewrite !zlen_app, zlen_ztake, zlen_zdrop. lia.
Qed.

Lemma nps_loop ck n : forall f s, 0 <= fpos f -> 0 <= ns_pos s ->
  if ns_pos s + zlen (fst (uloop E ck n (rest f))) <=? zlen (ns_buf s)
  then exists f', unpack_loop E (fp_next E ck) ck (nps_put E) n (f, s) =
                  ((f', nps_wr (fst (uloop E ck n (rest f))) s), snd (uloop E ck n (rest f)))
  else ns_pos s <= zlen (ns_buf s) -> exists st, unpack_loop E (fp_next E ck) ck (nps_put E) n (f, s) = (st, Raise MemoryFault).
Proof.
  induction n as [|n IH]; intros f s Hp Hs.
  - cbn [uloop fst snd unpack_loop]. change (zlen (@nil byte)) with 0. rewrite Z.add_0_r, nps_wr_nil by auto.
    destruct (_ <=? _) eqn:L; [exists f; reflexivity|lia].
  - cbn [unpack_loop uloop]. destruct (zlen (rest f) <? 16) eqn:Hsh.
    + destruct (read_chunk_short E ck f Hp ltac:(lia)) as (f' & e & H & _).
      cbn [fst snd]. change (zlen (@nil byte)) with 0. rewrite Z.add_0_r, nps_wr_nil by auto.
      assert (D : decode_blosc_header (rest f) = Raise e).
      { unfold read_compressed_chunk, BLOSC_HEADER_LENGTH in H.
        rewrite (bind_run _ _ _ _ _ (f_read_gen 16 f ltac:(lia))) in H.
        rewrite (ztake_all 16) in H by lia.
        destruct (decode_blosc_header_short (rest f) ltac:(lia)) as (e' & He & _).
        unfold lift in H. rewrite He in H. cbn in H. congruence. }
      rewrite D. destruct (_ <=? _) eqn:L; [|lia]. exists f'.
      erewrite bind_run_raise; [reflexivity|]. apply onl_run. unfold fp_next.
      erewrite bind_run_raise; [reflexivity|]. exact H.
    + destruct (fp_next_spec E ck f Hp ltac:(lia)) as (k & H & Hk & HR).
      rewrite (bind_run _ _ _ _ _ (onl_run _ _ _ _ _ H)). cbn [fst snd].
      set (r := rest f) in *.
      set (tst := (0 <? zlen (digest_here ck r)) && negb (bytes_eqb (digest_here ck r) (digest E ck (chunk_here r)))).
      assert (T : (if truthy (if 0 <? cks_size ck then Some (digest_here ck r) else None)
                   then if bytes_eqb match (if 0 <? cks_size ck then Some (digest_here ck r) else None) with
                                     | Some d => d | None => [] end (digest E ck (chunk_here r))
                        then ret tt else raise ChecksumMismatch
                   else ret tt) = if tst then @raise (fp * nps) unit ChecksumMismatch else ret tt).
      { unfold tst. destruct (0 <? cks_size ck) eqn:Hc.
        - destruct (digest_here ck r) as [|b d]; [reflexivity|]. cbn [truthy].
          rewrite zlen_cons. pose proof (zlen_nonneg d).
          replace (0 <? 1 + zlen d) with true by lia. cbn [andb].
          destruct (bytes_eqb _ _); reflexivity.
        - cbn [truthy]. pose proof (cks_size_nonneg ck).
          replace (digest_here ck r) with (@nil byte); [reflexivity|].
          unfold digest_here. rewrite ztake_0 by lia. reflexivity. }
      rewrite T. clear T. destruct tst eqn:Ht.
      * cbn [fst snd]. change (zlen (@nil byte)) with 0. rewrite Z.add_0_r, nps_wr_nil by auto.
        destruct (_ <=? _) eqn:L; [|lia]. exists (adv k f). reflexivity.
      * rewrite (bind_run _ _ _ (adv k f, s) tt) by reflexivity.
        destruct (e_decompress E (chunk_here r)) as [x|e] eqn:Hd.
        -- specialize (IH (adv k f)). rewrite HR in IH. fold r in IH.
           destruct (uloop E ck n (after_chunk ck r)) as [y v] eqn:EU. cbn [fst snd] in *. rewrite zlen_app.
           pose proof (zlen_nonneg x). pose proof (zlen_nonneg y).
           destruct (ns_pos s + zlen x <=? zlen (ns_buf s)) eqn:LX.
           ++ assert (P : nps_put E (chunk_here r) s = (nps_wr x s, Ok (zlen x))).
              { unfold nps_put. rewrite Hd, LX. reflexivity. }
              rewrite (bind_run _ _ _ _ _ (onr_run _ _ _ _ _ P)).
              specialize (IH (nps_wr x s) ltac:(rewrite fpos_adv; lia) ltac:(cbn; lia)).
              rewrite zlen_wr in IH by lia. change (ns_pos (nps_wr x s)) with (ns_pos s + zlen x) in IH.
              rewrite Z.add_assoc. destruct (ns_pos s + zlen x + zlen y <=? zlen (ns_buf s)) eqn:L.
              ** destruct IH as [f' ->]. exists f'. rewrite nps_wr_wr by lia. reflexivity.
              ** intros _. apply IH. lia.
           ++ replace (ns_pos s + (zlen x + zlen y) <=? zlen (ns_buf s)) with false by lia. intros _.
              exists (adv k f, s). erewrite bind_run_raise; [reflexivity|]. apply onr_run. unfold nps_put. rewrite Hd, LX. reflexivity.
        -- cbn [fst snd]. change (zlen (@nil byte)) with 0. rewrite Z.add_0_r, nps_wr_nil by auto.
           destruct (_ <=? _) eqn:L; [|lia]. exists (adv k f).
           erewrite bind_run_raise; [reflexivity|]. apply onr_run. unfold nps_put. rewrite Hd. reflexivity.
Qed.

Lemma nps_new_pos m s : nps_new N m = Ok s -> ns_pos s = 0.
Proof.
  unfold nps_new. intros H. destruct (is_none m); [discriminate|].
  apply rbind_Ok in H as (ct & _ & H). destruct (negb _); [discriminate|].
  do 8 (apply rbind_Ok in H as (? & _ & H)). injection H as <-. reflexivity.
Qed.
Lemma nps_new_len m s : nps_new N m = Ok s -> zlen (ns_buf s) = Z.max 0 (zprod (ns_shape s) * dt_itemsize (ns_dtype s)).
Proof.
  unfold nps_new. intros H. destruct (is_none m); [discriminate|].
  apply rbind_Ok in H as (ct & _ & H). destruct (negb _); [discriminate|].
  do 8 (apply rbind_Ok in H as (? & _ & H)). injection H as <-. cbn [ns_buf ns_shape ns_dtype]. apply zlen_mem_read.
Qed.

(** Unpacking an array, for every file. *)
Theorem unpack_ndarray_pure b :
  unpack_ndarray_from_bytes E N b =
  match read_beginning E (fp_of b) with
  | (_, Raise e) => Raise e
  | (f, Ok bg) =>
      s <~ nps_new N (b_meta bg) ;;
      let '(x, r) := uloop E (h_checksum (b_header bg)) (Z.to_nat (h_nchunks (b_header bg))) (rest f) in
      if zlen x <=? zlen (ns_buf s) then
        _ <~ r ;; Ok (nd_of (ns_fortran s) (ns_dtype s) (ns_shape s) (n_base N) (x ++ zdrop (zlen x) (ns_buf s)))
      else Raise MemoryFault
  end.
Proof.
  unfold unpack_ndarray_from_bytes. destruct (read_beginning E (fp_of b)) as [f [bg|e]] eqn:H; [|reflexivity].
  destruct (ro_read_beginning E (fp_of b) f (Ok bg)) as (_ & _ & Hp); [cbn; lia|exact H|].
  destruct (nps_new N (b_meta bg)) as [s|e] eqn:Hs; [|reflexivity]. cbn [rbind].
  pose proof (nps_new_pos _ _ Hs) as P0.
  pose proof (nps_loop (h_checksum (b_header bg)) (Z.to_nat (h_nchunks (b_header bg))) f s Hp ltac:(lia)) as L.
  destruct (uloop E _ _ (rest f)) as [x r]. cbn [fst snd] in L. rewrite P0, Z.add_0_l in L.
  destruct (zlen x <=? zlen (ns_buf s)).
  - destruct L as [f' ->]. destruct r as [[]|e]; [|reflexivity]. cbn [rbind]. unfold nps_array, nps_wr.
    cbn [ns_fortran ns_dtype ns_shape ns_buf]. rewrite P0, ztake_0 by lia. reflexivity.
  - destruct (L ltac:(apply zlen_nonneg)) as [[? ?] ->]. reflexivity.
Qed.

Theorem unpack_ndarray_of_bytes f x m : unpack_bytes_from_bytes E f = Ok (x, m) ->
  unpack_ndarray_from_bytes E N f =
  (s <~ nps_new N m ;;
   if zlen x <=? zlen (ns_buf s)
   then Ok (nd_of (ns_fortran s) (ns_dtype s) (ns_shape s) (n_base N) (x ++ zdrop (zlen x) (ns_buf s)))
   else Raise MemoryFault).
Proof.
  intros H. rewrite unpack_ndarray_pure. unfold unpack_bytes_from_bytes in H. rewrite unpack_core_pure in H.
  destruct (read_beginning E (fp_of f)) as [g [bg|e]]; [|discriminate].
  destruct (uloop E _ _ (rest g)) as [y r]. destruct r as [[]|e]; [|discriminate].
  cbn [rbind] in H. injection H as -> ->. reflexivity.
Qed.
(** and an array is returned only where the bytes can be unpacked *)
Theorem unpack_ndarray_only f r : unpack_ndarray_from_bytes E N f = Ok r ->
  exists x m s, unpack_bytes_from_bytes E f = Ok (x, m) /\ nps_new N m = Ok s /\ zlen x <= zlen (ns_buf s).
Proof.
  intros H. rewrite unpack_ndarray_pure in H. unfold unpack_bytes_from_bytes. rewrite unpack_core_pure.
  destruct (read_beginning E (fp_of f)) as [g [bg|e]]; [|discriminate].
  apply rbind_Ok in H as (s & Hs & H). destruct (uloop E _ _ (rest g)) as [y q].
  destruct (zlen y <=? zlen (ns_buf s)) eqn:L; [|discriminate]. destruct q as [[]|e]; [|discriminate].
  cbn [rbind]. exists y, (b_meta bg), s. repeat split; auto. lia.
Qed.

End WithEnv.

Lemma shape_list_ints l : Forall (fun d => 0 <= d) l -> shape_list (map PInt l) = Ok l.
Proof.
  induction 1 as [|d l H _ IH]; [reflexivity|]. cbn [map shape_list]. replace (d <? 0) with false by lia.
  rewrite IH. reflexivity.
Qed.
Lemma map_norm_ints l : map norm (map PInt l) = map PInt l.
Proof. rewrite map_map. reflexivity. Qed.

Lemma nps_new_meta N N' a : nd_ok a -> NpOK N N' (nd_dtype a) ->
  nps_new N' (norm (ndarray_meta N a)) =
  Ok (mkNPS (nd_dtype a) (nd_shape a) (isfortran a) (mem_read (n_junk N') (n_base N') (nd_size a * nd_itemsize a)) 0).
Proof.
  intros Ha [L D].
  set (d1 := PStr (n_repr N (dt_desc (nd_dtype a)))) in *.
  assert (M : norm (ndarray_meta N a) = PDict [ (u "dtype", d1); (u "shape", PList (map PInt (nd_shape a)));
             (u "order", PStr (if isfortran a then u "F" else u "C")); (u "container", PStr (u "numpy")) ]).
  { unfold ndarray_meta. cbn [norm map fst snd]. rewrite map_norm_ints. reflexivity. }
  rewrite M. unfold nps_new. cbn [is_none].
  set (m := PDict _).
  replace (getitem m (u "container")) with (Ok (PStr (u "numpy"))) by reflexivity. cbn [rbind].
  replace (negb (zs_eqb (u "numpy") (u "numpy"))) with false by reflexivity. cbn iota.
  replace (getitem m (u "dtype")) with (Ok d1) by reflexivity. cbn [rbind]. rewrite L. cbn [rbind].
  replace (getitem m (u "shape")) with (Ok (PList (map PInt (nd_shape a)))) by reflexivity. cbn [rbind]. rewrite D. cbn [rbind].
  replace (getitem m (u "order")) with (Ok (PStr (if isfortran a then u "F" else u "C"))) by reflexivity. cbn [rbind].
  cbn [shape_arg]. rewrite (shape_list_ints (nd_shape a)) by (apply Ha). cbn [rbind].
  replace (order_arg (PStr (if isfortran a then u "F" else u "C"))) with (Ok (isfortran a)) by (destruct (isfortran a); reflexivity).
  reflexivity.
Qed.

Section Round.
Variable E : Env.
Hypothesis HE : EnvOK E.

(** what comes out is an array of exactly the bytes that went in (C34, C36) *)
Theorem np_unpack_packed N N' a csa oba obp oma f : nd_ok a -> NpOK N N' (nd_dtype a) ->
  pack_ndarray_to_bytes E N a csa oba obp oma = Ok f ->
  unpack_ndarray_from_bytes E N' f = Ok (nd_of (isfortran a) (nd_dtype a) (nd_shape a) (n_base N') (image N a)).
Proof.
  intros Ha HN H. pose proof H as H'. unfold pack_ndarray_to_bytes in H'.
  destruct (pack_ndarray E N a (fp_sink E) csa oba obp oma (cfs_of (fp_of []))) as [k [r|e]] eqn:P; [|discriminate].
  apply pack_ndarray_inv in P as (H1 & H2 & n & c & l & Ec & Hd); auto.
  rewrite (pack_ndarray_bytes E N a csa oba obp oma n c l) in H by (auto; lia).
  apply (bytes_roundtrip E HE) in H. rewrite (unpack_ndarray_of_bytes E N' _ _ _ H).
  rewrite nps_new_meta by auto. cbn [rbind ns_buf ns_fortran ns_dtype ns_shape].
  rewrite zlen_mem_read, zlen_image by auto. pose proof (size_nonneg a Ha).
  replace (nd_size a * nd_itemsize a <=? Z.max 0 (nd_size a * nd_itemsize a)) with true by lia.
  rewrite (zdrop_all (nd_size a * nd_itemsize a)) by (rewrite zlen_mem_read; lia). rewrite app_nil_r. reflexivity.
Qed.

Lemma nd_of_same N a base : nd_ok a -> same_array a (nd_of (isfortran a) (nd_dtype a) (nd_shape a) base (image N a)).
Proof.
  intros Ha. split; [reflexivity|split; [reflexivity|]]. intros idx HI.
  rewrite nd_of_elem; auto; [|apply Ha|rewrite zlen_image by auto; reflexivity].
  apply image_elem; auto.
Qed.

Theorem np_roundtrip N N' a csa oba obp oma f : nd_ok a -> NpOK N N' (nd_dtype a) ->
  pack_ndarray_to_bytes E N a csa oba obp oma = Ok f ->
  exists r, unpack_ndarray_from_bytes E N' f = Ok r /\ same_array a r.
Proof.
  intros Ha HN H. rewrite (np_unpack_packed N N' a csa oba obp oma f Ha HN H).
  eexists. split; [reflexivity|]. apply nd_of_same. auto.
Qed.

(** the sink ends exactly full, at every moment within its buffer *)
Theorem np_writes_exactly N N' a csa oba obp oma f : nd_ok a -> NpOK N N' (nd_dtype a) ->
  pack_ndarray_to_bytes E N a csa oba obp oma = Ok f ->
  exists g bg s s', read_beginning E (fp_of f) = (g, Ok bg) /\ nps_new N' (b_meta bg) = Ok s /\
    zlen (ns_buf s) = nd_size a * nd_itemsize a /\
    (exists g', unpack_loop E (fp_next E (h_checksum (b_header bg))) (h_checksum (b_header bg)) (nps_put E)
                  (Z.to_nat (h_nchunks (b_header bg))) (g, s) = ((g', s'), Ok tt)) /\
    ns_buf s' = image N a /\ ns_pos s' = nd_size a * nd_itemsize a.
Proof.
  intros Ha HN H. pose proof H as H'. unfold pack_ndarray_to_bytes in H'.
  destruct (pack_ndarray E N a (fp_sink E) csa oba obp oma (cfs_of (fp_of []))) as [k [r|e]] eqn:P; [|discriminate].
  apply pack_ndarray_inv in P as (H1 & H2 & n & c & l & Ec & Hd); auto.
  rewrite (pack_ndarray_bytes E N a csa oba obp oma n c l) in H by (auto; lia).
  apply (bytes_roundtrip E HE) in H. unfold unpack_bytes_from_bytes in H. rewrite unpack_core_pure in H.
  destruct (read_beginning E (fp_of f)) as [g [bg|e]] eqn:RB; [|discriminate].
  destruct (ro_read_beginning E (fp_of f) g (Ok bg)) as (_ & _ & Hp); [cbn; lia|exact RB|].
  pose proof (fun s => nps_loop E (h_checksum (b_header bg)) (Z.to_nat (h_nchunks (b_header bg))) g s Hp) as L.
  destruct (uloop E _ _ (rest g)) as [x q]. destruct q as [[]|e]; [|discriminate]. cbn [rbind] in H.
  assert (x = image N a /\ b_meta bg = norm (ndarray_meta N a)) as [-> HM] by (split; congruence). clear H.
  pose proof (nps_new_meta N N' a Ha HN) as NM.
  eexists g, bg, _, _. split; [reflexivity|]. rewrite HM, NM. split; [reflexivity|].
  pose proof (size_nonneg a Ha). cbn [ns_buf]. rewrite zlen_mem_read. split; [lia|].
  specialize (L (mkNPS (nd_dtype a) (nd_shape a) (isfortran a) (mem_read (n_junk N') (n_base N') (nd_size a * nd_itemsize a)) 0) ltac:(cbn; lia)).
  cbn [fst snd ns_pos ns_buf] in L. rewrite zlen_mem_read, zlen_image in L by auto.
  replace (0 + nd_size a * nd_itemsize a <=? Z.max 0 (nd_size a * nd_itemsize a)) with true in L by lia.
  destruct L as [g' L]. split; [exists g'; exact L|]. unfold nps_wr. cbn [ns_buf ns_pos].
  rewrite zlen_image by auto. rewrite ztake_0, (zdrop_all (0 + _)) by (rewrite ?zlen_mem_read; lia).
  rewrite app_nil_r. split; reflexivity || lia.
Qed.

(** files *)
Theorem np_file_roundtrip N N' a p csa oba obp oma w w' q : nd_ok a -> NpOK N N' (nd_dtype a) ->
  pack_ndarray_to_file E N a p csa oba obp oma w = (w', Ok q) ->
  exists r, unpack_ndarray_from_file E N' p w' = (w', Ok r) /\ same_array a r.
Proof.
  intros Ha HN H. unfold pack_ndarray_to_file, open_wb in H. cbv beta delta [bind] in H.
  destruct (String.eqb p ""); [discriminate|].
  destruct (pack_ndarray E N a (fp_sink E) csa oba obp oma (cfs_of (fp_of []))) as [k r] eqn:P.
  injection H as <- ->.
  destruct (np_roundtrip N N' a csa oba obp oma (fdata (s_fp k)) Ha HN) as (r & U & S).
  { unfold pack_ndarray_to_bytes. rewrite P. reflexivity. }
  exists r. split; [|exact S]. unfold unpack_ndarray_from_file, open_rb. cbv beta delta [bind lift].
  rewrite fs_set_same, U. reflexivity.
Qed.
End Round.
