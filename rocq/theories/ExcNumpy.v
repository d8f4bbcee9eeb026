(** Which exceptions come out of packing and unpacking arrays. *)
From Verif Require Import Base PyVal Checksums Headers Pretty Args FileIO NumpyIO Spec ExcSpec NumpySpec BaseLemmas IOProofs PackProofs SmallProofs
  ExcProofs ExcPack NumpyProofs NumpyUnpack NumpyMeta NumpySink.
From Coq Require Import ZifyBool ZifyNat.

(** Raised by numpy or by ast.literal_eval. *)
Definition foreign_numpy (N : NpEnv) (e : exn) : Prop := (exists x, n_literal N x = Raise e) \/ (exists x, n_dtype N x = Raise e).

Section WithEnv.
Variable E : Env.
Variable N : NpEnv.

Theorem unpack_array_exceptions f e : unpack_ndarray_from_bytes E N f = Raise e ->
  In e read_errors \/ e = OSError /\ e_mem E = false \/ foreign_read E e \/ e = NotANumpyArray \/ e = MemoryFault \/ foreign_numpy N e.
Proof.
  set (good := fun e => In e read_errors \/ e = OSError /\ e_mem E = false \/ foreign_read E e \/ e = NotANumpyArray \/ e = MemoryFault \/ foreign_numpy N e).
  assert (G : forall x, In x read_errors -> good x) by (unfold good; tauto).
  assert (RB : forall s, okr good (snd (read_beginning E s))) by (apply n_rb; unfold good, read_errors, In; tauto).
  unfold unpack_ndarray_from_bytes. intros H. specialize (RB (fp_of f)). destruct (read_beginning E (fp_of f)) as [g [bg|e1]]; [clear RB|injection H as ->; exact RB].
  destruct (nps_new N (b_meta bg)) as [s|e1] eqn:NS; cbn [rbind] in H.
  - assert (U : ok good (unpack_loop E (fp_next E (h_checksum (b_header bg))) (h_checksum (b_header bg)) (nps_put E) (Z.to_nat (h_nchunks (b_header bg))))).
    { apply n_uloop; try (unfold good, read_errors, In; tauto).
      - assert (X : ok good (read_compressed_chunk E (h_checksum (b_header bg)))) by (apply n_rcc; unfold good, read_errors, In; tauto).
        unfold fp_next. intros st. specialize (X st). unfold bind. destruct (read_compressed_chunk E (h_checksum (b_header bg)) st) as [st' [[[? ?] ?]|?]]; [exact I|exact X].
      - intros x st. unfold nps_put. destruct (e_decompress E x) as [d|e1] eqn:D; [destruct (_ <=? _); cbn [snd okr]; unfold good; tauto|].
        cbn [snd okr]. unfold good, foreign_read. eauto 6. }
    specialize (U (g, s)). destruct (unpack_loop _ _ _ _ _ _) as [[? s'] r]. cbn [snd] in U. destruct r; cbn [rbind] in H; [discriminate|]. injection H as ->. exact U.
  - injection H as ->. destruct (array_metadata (b_meta bg)) eqn:A.
    + destruct (sink_raise N _ _ A NS) as (d & _ & [[-> _]|[(dv & _ & [L|[(_ & _ & ->)|[x X]]])|[-> _]]]).
      * apply G. cbn. tauto.
      * unfold good, foreign_numpy. eauto 10.
      * apply G. cbn. tauto.
      * unfold good, foreign_numpy. eauto 10.
      * apply G. cbn. tauto.
    + unfold nps_new in NS. unfold good, read_errors, In. destruct (b_meta bg) as [| | | | | | |d]; cbn [is_none getitem rbind] in NS; try (injection NS as <-; tauto).
      cbn [array_metadata] in A. destruct (dget (u "container") d) as [ct|]; cbn [rbind] in NS; [|injection NS as <-; tauto].
      destruct ct; try rewrite A in NS; cbn [negb] in NS; injection NS as <-; tauto.
Qed.

Hypothesis HE : EnvOK E.
Theorem pack_array_exceptions a cs oba obp oma k e : nd_ok a ->
  pack_ndarray E N a (fp_sink E) cs oba obp oma (cfs_of (fp_of [])) = (k, Raise e) ->
  e = ObjectNumpyArrayRejection /\ dt_hasobject (nd_dtype a) = true \/
  e = ZeroDivisionError /\ nd_itemsize a = 0 \/
  e = ChunkSizeTypeSizeMismatch /\ (exists z, asked cs z /\ Z.min z (nd_size a * nd_itemsize a) mod nd_itemsize a <> 0) \/
  pack_error E (array_bytes a) cs (ndarray_meta N a) (the_bpargs obp) (the_margs oma) (fdata (s_fp k)) e.
Proof.
  intros Ha H. pose proof H as H0. unfold pack_ndarray in H. destruct (dt_hasobject (nd_dtype a)) eqn:HO; [injection H as <- <-; auto|].
  pose proof (image_is N a Ha) as IM. pose proof (zlen_image N a Ha) as ZI.
  destruct (calculate_nchunks (nd_size a * nd_itemsize a) cs) as [[[n c] l]|e1] eqn:EC.
  2:{ do 3 right. apply (pack_exceptions E HE _ _ _ (Some (np_bargs a oba)) obp oma). unfold pack_bytes_core. rewrite <- IM, ZI, EC. injection H as <- <-. reflexivity. }
  pose proof (calculate_partition _ _ _ _ _ (size_nonneg a Ha) EC) as CP.
  rewrite pack_split in H. destruct (pack_prefix (fp_sink E) n c l (ndarray_meta N a) (Some (np_bargs a oba)) obp oma (cfs_of (fp_of []))) as [k1 [oma'|e1]] eqn:PP.
  2:{ do 3 right. apply (pack_exceptions E HE _ _ _ (Some (np_bargs a oba)) obp oma). unfold pack_bytes_core. rewrite <- IM, ZI, EC, pack_split, PP.
      injection H as <- <-. reflexivity. }
  destruct (nd_itemsize a =? 0) eqn:Z0.
  { unfold pack_rest in H. cbn [np_source ps_steps] in H. rewrite source_array_item, Z0 in H. injection H as <- <-. right. left. split; [reflexivity|lia]. }
  destruct (c mod nd_itemsize a =? 0) eqn:M.
  - do 3 right. apply (pack_exceptions E HE _ _ _ (Some (np_bargs a oba)) obp oma). rewrite <- IM.
    rewrite <- (pack_ndarray_eq E N a cs oba obp oma n c l); auto; [|lia].
    assert (0 <= nd_itemsize a) by (destruct Ha; lia). lia.
  - unfold pack_rest in H. cbn [np_source ps_steps] in H. rewrite source_array_item, Z0, M in H. injection H as <- <-. right. right. left. split; [reflexivity|].
    pose proof (size_nonneg a Ha). destruct (Z.eq_dec (nd_size a * nd_itemsize a) 0) as [Y|Y].
    + rewrite Y in EC. unfold calculate_nchunks in EC. cbn in EC. injection EC as <- <- <-. rewrite Z.mod_0_l in M by lia. discriminate.
    + destruct CP as (_ & _ & _ & _ & _ & _ & CP & _). destruct CP as (_ & _ & z & A & ->); [lia|]. exists z. split; [exact A|lia].
Qed.
End WithEnv.
