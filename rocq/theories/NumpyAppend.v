(** Appending to a file that holds an array. *)
From Verif Require Import Base PyVal Checksums Headers Args FileIO Append Files NumpyIO Spec Archive NumpySpec BaseLemmas IOProofs WfProofs HistoryProofs NumpyProofs NumpyUnpack NumpyMeta.
From Coq Require Import ZifyBool ZifyNat.

Section WithEnv.
Variable E : Env.
Hypothesis HE : EnvOK E.

Theorem array_archive N N' a f b : nd_ok a -> NpOK N N' (nd_dtype a) -> archive E f b (norm (ndarray_meta N a)) ->
  nd_size a * nd_itemsize a < zlen b -> unpack_ndarray_from_bytes E N' f = Raise MemoryFault.
Proof.
  intros Ha HN HA L. rewrite (np_any_file E N' _ _ _ (archive_unpack E HE _ _ _ HA)), (nps_new_meta N N') by auto.
  cbn [rbind ns_buf]. rewrite zlen_mem_read. pose proof (size_nonneg a Ha).
  replace (zlen b <=? Z.max 0 (nd_size a * nd_itemsize a)) with false by lia. reflexivity.
Qed.

Theorem array_append N N' a csa oba obp oma f new oa f' k : nd_ok a -> NpOK N N' (nd_dtype a) ->
  pack_ndarray_to_bytes E N a csa oba obp oma = Ok f -> new <> [] -> sizable f new ->
  append_bytes E f new oa = (f', Ok k) ->
  unpack_bytes_from_bytes E f' = Ok (array_bytes a ++ new, norm (ndarray_meta N a)) /\
  unpack_ndarray_from_bytes E N' f' = Raise MemoryFault.
Proof.
  intros Ha HN HP HNew HS H. apply np_stored_bytes in HP; auto. apply (ar_pack E) in HP.
  pose proof (ar_append E _ _ _ _ _ _ _ HP HS H) as HA. split; [apply (archive_unpack E HE); exact HA|].
  apply (array_archive N N' a _ _ Ha HN HA).
  rewrite <- (image_is N) by auto. rewrite zlen_app, zlen_image by auto.
  destruct new as [|x new]; [congruence|]. rewrite zlen_cons. pose proof (zlen_nonneg new). lia.
Qed.
End WithEnv.
