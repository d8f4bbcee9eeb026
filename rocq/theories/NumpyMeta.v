(** Files that are not arrays, and old descriptions of dtypes. *)
From Verif Require Import Base PyVal Checksums Headers Args FileIO Files NumpyIO Spec NumpySpec BaseLemmas HeaderProofs IOProofs WfProofs PackProofs SmallProofs BytesProofs Json FilesProofs NumpyProofs NumpyUnpack.
From Coq Require Import ZifyBool ZifyNat.
Ltac Zify.zify_post_hook ::= Z.div_mod_to_equations.

(** ** The bytes of an array *)
Lemma seq_split d : 0 <= d -> zseq (d + 1) = zseq d ++ [d].
Proof.
  intros H. unfold zseq. replace (Z.to_nat (d + 1)) with (Z.to_nat d + 1)%nat by lia. rewrite seq_app, map_app. cbn. f_equal. f_equal. lia.
Qed.
Lemma zseq_block d p : 0 <= d -> 0 <= p -> flat_map (fun i => map (fun k => i * p + k) (zseq p)) (zseq d) = zseq (d * p).
Proof.
  intros Hd Hp. revert d Hd. apply natlike_ind.
  - reflexivity.
  - intros d Hd IH. unfold Z.succ. rewrite seq_split, flat_map_app, IH by auto. cbn [flat_map]. rewrite app_nil_r.
    unfold zseq. replace (Z.to_nat ((d + 1) * p)) with (Z.to_nat (d * p) + Z.to_nat p)%nat by nia.
    rewrite seq_app, map_app. f_equal. cbn [Nat.add]. rewrite map_map.
    clear IH. generalize (Z.to_nat p) as m. intros m.
    assert (G : forall o, map Z.of_nat (seq (Z.to_nat (d * p) + o) m) = map (fun x => d * p + Z.of_nat x) (seq o m)).
    { induction m as [|m IHm]; intros o; [reflexivity|]. cbn [seq map]. rewrite <- IHm. f_equal; [nia|]. do 2 f_equal. lia. }
    rewrite <- (G O). do 2 f_equal. lia.
Qed.

Lemma lin_indices shape : Forall (fun d => 0 <= d) shape -> map (lin_c shape) (indices shape) = zseq (zprod shape).
Proof.
  induction 1 as [|d r Hd Hr IH]; [reflexivity|]. cbn [indices zprod]. rewrite <- zseq_block by (auto using zprod_nonneg). rewrite <- IH.
  induction (zseq d) as [|i l IHl]; [reflexivity|]. cbn [flat_map]. rewrite map_app, IHl. f_equal.
  rewrite !map_map. reflexivity.
Qed.
Lemma indices_bounds shape : Forall (in_bounds shape) (indices shape).
Proof.
  induction shape as [|d r IH]; cbn [indices]; [repeat constructor|].
  apply Forall_forall. intros idx H. apply in_flat_map in H as (i & Hi & H). apply in_map_iff in H as (x & <- & Hx).
  rewrite Forall_forall in IH. constructor; [|apply IH; auto].
  unfold zseq in Hi. apply in_map_iff in Hi as (k & <- & Hk). apply in_seq in Hk. lia.
Qed.

Lemma take_plus (b : bytes) x y : 0 <= x -> 0 <= y -> x + y <= zlen b -> ztake (x + y) b = ztake x b ++ ztake y (zdrop x b).
Proof.
  intros Hx Hy Hb. rewrite <- (ztake_zdrop x b) at 1. rewrite ztake_app_ge by (rewrite zlen_ztake; lia).
  rewrite zlen_ztake. do 2 f_equal. lia.
Qed.
Lemma concat_blocks it n (b : bytes) : 0 <= it -> 0 <= n -> zlen b = n * it ->
  concat (map (fun k => ztake it (zdrop (it * k) b)) (zseq n)) = b.
Proof.
  intros Hi Hn Hb.
  assert (G : forall n, 0 <= n -> n * it <= zlen b -> concat (map (fun k => ztake it (zdrop (it * k) b)) (zseq n)) = ztake (n * it) b).
  { clear n Hn Hb. apply (natlike_ind (fun n => n * it <= zlen b -> concat (map (fun k => ztake it (zdrop (it * k) b)) (zseq n)) = ztake (n * it) b)).
    - intros _. rewrite ztake_0 by lia. reflexivity.
    - intros n Hn IH Hb. unfold Z.succ in *. rewrite seq_split, map_app, concat_app, IH by (auto; nia). cbn [map concat].
      rewrite app_nil_r, (Z.mul_comm it n). replace ((n + 1) * it) with (n * it + it) by ring.
      symmetry. apply take_plus; nia. }
  rewrite G by (auto; lia). apply ztake_all. lia.
Qed.

Lemma zprod_app l m : zprod (l ++ m) = zprod l * zprod m.
Proof. induction l as [|x l IH]; cbn [zprod app]; [ring|]. rewrite IH. ring. Qed.
Lemma zprod_rev l : zprod (rev l) = zprod l.
Proof. induction l as [|x l IH]; [reflexivity|]. cbn [rev]. rewrite zprod_app, IH. cbn [zprod]. ring. Qed.
Lemma lin_c_snoc d i : forall s x, List.length s = List.length x -> lin_c (s ++ [d]) (x ++ [i]) = lin_c s x * d + i.
Proof.
  induction s as [|e s IH]; intros [|j x] H; try discriminate; cbn [lin_c app]; [cbn [zprod]; ring|].
  rewrite IH by (cbn in H; congruence). rewrite zprod_app. cbn [zprod]. ring.
Qed.
Lemma lin_f_rev : forall s x, List.length s = List.length x -> lin_f s x = lin_c (rev s) (rev x).
Proof.
  induction s as [|d s IH]; intros [|i x] H; try discriminate; [reflexivity|]. cbn [lin_f rev].
  cbn in H. rewrite lin_c_snoc by (rewrite !rev_length; congruence). rewrite <- IH by congruence. ring.
Qed.
Lemma lin_rev_seq shape : Forall (fun d => 0 <= d) shape ->
  map (fun idx => lin_f shape (rev idx)) (indices (rev shape)) = zseq (zprod shape).
Proof.
  intros H. rewrite <- (zprod_rev shape), <- lin_indices by (apply Forall_rev; auto). apply map_ext_in. intros idx Hi.
  pose proof (indices_bounds (rev shape)) as IB. rewrite Forall_forall in IB. apply IB in Hi.
  apply F2_length in Hi. rewrite rev_length in Hi. rewrite lin_f_rev by (rewrite rev_length; congruence).
  rewrite rev_involutive. reflexivity.
Qed.
Lemma F2_rev {A B} (R : A -> B -> Prop) l m : Forall2 R l m -> Forall2 R (rev l) (rev m).
Proof. induction 1; cbn; [constructor|]. apply Forall2_app; auto. Qed.
Theorem image_is N a : nd_ok a -> image N a = array_bytes a.
Proof.
  intros Ha. pose proof (zlen_image N a Ha) as LI.
  pose proof Ha as [D1 D2 D3].
  rewrite <- (concat_blocks (nd_itemsize a) (nd_size a) (image N a)) by (auto; apply zprod_nonneg; auto).
  unfold array_bytes. destruct (isfortran a) eqn:F.
  - f_equal. unfold nd_size. rewrite <- (lin_rev_seq (nd_shape a)), map_map by auto. apply map_ext_in. intros idx Hi.
    pose proof (image_elem N a (rev idx) Ha) as IE. rewrite F in IE. apply IE. clear IE.
    pose proof (indices_bounds (rev (nd_shape a))) as IB. rewrite Forall_forall in IB. apply IB in Hi.
    rewrite <- (rev_involutive (nd_shape a)). apply F2_rev, Hi.
  - f_equal. unfold nd_size. rewrite <- lin_indices, map_map by auto. apply map_ext_in. intros idx Hi.
    pose proof (image_elem N a idx Ha) as IE. rewrite F in IE. apply IE.
    pose proof (indices_bounds (nd_shape a)) as IB. rewrite Forall_forall in IB. auto.
Qed.

(** ** Not an array (C37) *)
Lemma dget_norm k d : dget k (map (fun kv => (fst kv, norm (snd kv))) d) = option_map norm (dget k d).
Proof. induction d as [|[k' v] d IH]; [reflexivity|]. cbn [map dget fst snd]. destruct (zs_eqb k k'); auto. Qed.

Lemma norm_str v s : norm v = PStr s -> v = PStr s.
Proof. destruct v; cbn; intros H; try discriminate; auto. Qed.

Lemma nps_new_rejects N m : array_metadata m = false -> nps_new N (norm m) = Raise (not_array_error m).
Proof.
  unfold array_metadata, not_array_error, nps_new. destruct m; cbn [norm is_none]; intros H; try reflexivity.
  cbn [getitem]. rewrite dget_norm. destruct (dget _ _) as [v|] eqn:D; [|reflexivity]. cbn [option_map rbind].
  destruct (norm v) eqn:Nv; try reflexivity. apply norm_str in Nv. subst v. rewrite H. reflexivity.
Qed.
Lemma nps_new_needs N m s : nps_new N m = Ok s -> array_metadata m = true.
Proof.
  unfold nps_new, array_metadata. destruct (is_none m); [discriminate|]. destruct m; cbn [getitem]; try discriminate.
  destruct (dget _ _) as [v|]; [|discriminate]. cbn [rbind]. destruct v; cbn [negb]; try discriminate.
  destruct (zs_eqb s0 (u "numpy")); [reflexivity|discriminate].
Qed.

Section WithEnv.
Variable E : Env.
Hypothesis HE : EnvOK E.
Variable N : NpEnv.

Theorem not_array b csa m oba obp oma f : pack_bytes_to_bytes E b csa m oba obp oma = Ok f ->
  array_metadata m = false -> unpack_ndarray_from_bytes E N f = Raise (not_array_error m).
Proof.
  intros H Hm. apply (bytes_roundtrip E HE) in H. rewrite (unpack_ndarray_of_bytes E N _ _ _ H).
  rewrite nps_new_rejects by auto. reflexivity.
Qed.
Theorem only_arrays f r : unpack_ndarray_from_bytes E N f = Ok r ->
  exists x m, unpack_bytes_from_bytes E f = Ok (x, m) /\ array_metadata m = true.
Proof.
  intros H. apply unpack_ndarray_only in H as (x & m & s & H1 & H2 & _). exists x, m. split; [auto|]. eapply nps_new_needs; eauto.
Qed.

(** ** Old descriptions (C53) *)
Definition field_ok (f : pyval) : bool :=
  match f with
  | PTuple [PStr _; g] => format_ok g
  | PTuple [PStr _; g; sh] => format_ok g && shape_ok sh
  | _ => false
  end.
Lemma format_list l : format_ok (PList l) = match l with [] => false | _ => forallb field_ok l end.
Proof. destruct l; reflexivity. Qed.

Fixpoint conv_list (l : list pyval) : res (list pyval) :=
  match l with [] => Ok [] | y :: q => y' <~ conv y ;; q' <~ conv_list q ;; Ok (y' :: q') end.
Lemma conv_PList x l : conv (PList (x :: l)) = (r <~ conv_list (x :: l) ;; Ok (if is_list x then PList r else PTuple r)).
Proof. reflexivity. Qed.
Lemma conv_list_Ok l l' : Forall2 (fun x y => conv x = Ok y) l l' -> conv_list l = Ok l'.
Proof. induction 1 as [|x y l l' H _ IH]; [reflexivity|]. cbn. rewrite H, IH. reflexivity. Qed.

Lemma conv_shape sh : shape_ok sh = true -> conv (norm sh) = Ok sh.
Proof.
  destruct sh as [| | | | | |l|]; try discriminate; try reflexivity. cbn [shape_ok norm]. destruct l as [|x l]; [discriminate|].
  intros H.
  assert (C : conv_list (map norm (x :: l)) = Ok (x :: l)).
  { apply conv_list_Ok. clear -H. induction (x :: l) as [|y q IH]; [constructor|]. cbn in *.
    apply andb_true_iff in H as [H1 H2]. constructor; [destruct y; try discriminate; reflexivity|auto]. }
  cbn [map] in *. rewrite conv_PList, C. cbn [rbind]. cbn in H. destruct x; try discriminate. reflexivity.
Qed.

Definition convs (v : pyval) : Prop :=
  (format_ok v = true -> conv (norm v) = Ok v) /\ (field_ok v = true -> conv (norm v) = Ok v /\ is_list (norm v) = true).
Lemma conv_all v : convs v.
Proof.
  induction v as [|b|z|r0|s|l H|l H|l H] using pyval_ind'; try (split; cbn; intros; discriminate).
  - split; cbn; [reflexivity|discriminate].
  - split; [|cbn; discriminate]. rewrite format_list. destruct l as [|x l]; [discriminate|]. intros F.
    assert (C : conv_list (map norm (x :: l)) = Ok (x :: l)).
    { apply conv_list_Ok. clear -H F. induction H as [|y q [_ H] _ IH]; [constructor|]. cbn [forallb] in F.
      apply andb_true_iff in F as [F1 F2]. constructor; [apply H, F1|auto]. }
    cbn [norm map] in *. rewrite conv_PList, C. cbn [rbind]. cbn [forallb] in F. apply andb_true_iff in F as [F _].
    inversion H as [|? ? [_ Hx] _]; subst. destruct (Hx F) as [_ ->]. reflexivity.
  - split; [cbn; discriminate|]. intros F. split; [|reflexivity].
    destruct l as [|[] [|g [|sh [|]]]]; try discriminate; cbn [field_ok] in F; cbn [norm map]; rewrite conv_PList; cbn [conv_list conv rbind].
    + inversion H as [|? ? _ H']; subst. inversion H' as [|? ? [Hg _] _]; subst. rewrite Hg by auto. reflexivity.
    + apply andb_true_iff in F as [F1 F2].
      inversion H as [|? ? _ H']; subst. inversion H' as [|? ? [Hg _] _]; subst. rewrite Hg, conv_shape by auto. reflexivity.
Qed.
Theorem conv_norm v : format_ok v = true -> conv (norm v) = Ok v.
Proof. apply conv_all. Qed.

Lemma nps_new_old N' a : nd_ok a -> OldOK N' (nd_dtype a) ->
  nps_new N' (norm (old_meta a)) =
  Ok (mkNPS (nd_dtype a) (nd_shape a) (isfortran a) (mem_read (n_junk N') (n_base N') (nd_size a * nd_itemsize a)) 0).
Proof.
  intros Ha [F L D].
  set (d1 := norm (dt_desc (nd_dtype a))) in *.
  assert (M : norm (old_meta a) = PDict [ (u "dtype", d1); (u "shape", PList (map PInt (nd_shape a)));
             (u "order", PStr (if isfortran a then u "F" else u "C")); (u "container", PStr (u "numpy")) ]).
  { unfold old_meta. cbn [norm map fst snd]. rewrite map_norm_ints. reflexivity. }
  rewrite M. unfold nps_new. cbn [is_none].
  set (m := PDict _).
  replace (getitem m (u "container")) with (Ok (PStr (u "numpy"))) by reflexivity. cbn [rbind].
  replace (negb (zs_eqb (u "numpy") (u "numpy"))) with false by reflexivity. cbn iota.
  replace (getitem m (u "dtype")) with (Ok d1) by reflexivity. cbn [rbind]. rewrite L. cbn [rbind].
  unfold d1. rewrite (conv_norm (dt_desc (nd_dtype a))) by auto. cbn [rbind].
  replace (getitem m (u "shape")) with (Ok (PList (map PInt (nd_shape a)))) by reflexivity. cbn [rbind]. rewrite D. cbn [rbind].
  replace (getitem m (u "order")) with (Ok (PStr (if isfortran a then u "F" else u "C"))) by reflexivity. cbn [rbind].
  cbn [shape_arg]. rewrite (shape_list_ints (nd_shape a)) by (apply Ha). cbn [rbind].
  replace (order_arg (PStr (if isfortran a then u "F" else u "C"))) with (Ok (isfortran a)) by (destruct (isfortran a); reflexivity).
  reflexivity.
Qed.
(** an array packed by an old version: its bytes with the old metadata *)
Theorem old_arrays N' a csa oba obp oma f : nd_ok a -> OldOK N' (nd_dtype a) ->
  pack_bytes_to_bytes E (array_bytes a) csa (old_meta a) oba obp oma = Ok f ->
  exists r, unpack_ndarray_from_bytes E N' f = Ok r /\ same_array a r.
Proof.
  intros Ha HO H. apply (bytes_roundtrip E HE) in H. rewrite (unpack_ndarray_of_bytes E N' _ _ _ H).
  rewrite nps_new_old by auto. cbn [rbind ns_buf ns_fortran ns_dtype ns_shape].
  rewrite <- (image_is N') by auto.
  rewrite zlen_mem_read, zlen_image by auto. pose proof (size_nonneg a Ha).
  replace (nd_size a * nd_itemsize a <=? Z.max 0 (nd_size a * nd_itemsize a)) with true by lia.
  rewrite (zdrop_all (nd_size a * nd_itemsize a)) by (rewrite zlen_mem_read; lia). rewrite app_nil_r.
  eexists. split; [reflexivity|]. apply (nd_of_same N'). auto.
Qed.
End WithEnv.

(** ** Statements as given in PropsNumpy *)
Theorem np_stored_bytes E N a csa oba obp oma f :
  nd_ok a -> pack_ndarray_to_bytes E N a csa oba obp oma = Ok f ->
  pack_bytes_to_bytes E (array_bytes a) csa (ndarray_meta N a)
    (Some (mkBA (dt_itemsize (nd_dtype a)) (ba_clevel (the_bargs oba)) (ba_shuffle (the_bargs oba)) (ba_cname (the_bargs oba))))
    obp oma = Ok f.
Proof.
  intros Ha H. pose proof H as H'. unfold pack_ndarray_to_bytes in H'.
  destruct (pack_ndarray E N a (fp_sink E) csa oba obp oma (cfs_of (fp_of []))) as [k [r|e]] eqn:P; [|discriminate].
  apply pack_ndarray_inv in P as (H1 & H2 & n & c & l & Ec & Hd); auto.
  rewrite (pack_ndarray_bytes E N a csa oba obp oma n c l) in H by (auto; lia).
  rewrite <- (image_is N) by auto. exact H.
Qed.
Theorem np_writes_array E : EnvOK E -> forall N N' a csa oba obp oma f, nd_ok a -> NpOK N N' (nd_dtype a) ->
  pack_ndarray_to_bytes E N a csa oba obp oma = Ok f ->
  exists g bg s s', read_beginning E (fp_of f) = (g, Ok bg) /\ nps_new N' (b_meta bg) = Ok s /\
    zlen (ns_buf s) = nd_size a * nd_itemsize a /\
    (exists g', unpack_loop E (fp_next E (h_checksum (b_header bg))) (h_checksum (b_header bg)) (nps_put E)
                  (Z.to_nat (h_nchunks (b_header bg))) (g, s) = ((g', s'), Ok tt)) /\
    ns_buf s' = array_bytes a /\ ns_pos s' = nd_size a * nd_itemsize a.
Proof.
  intros HE N N' a csa oba obp oma f Ha HN H. rewrite <- (image_is N) by auto. eapply np_writes_exactly; eauto.
Qed.
Theorem np_any_file E N f x m : unpack_bytes_from_bytes E f = Ok (x, m) ->
  unpack_ndarray_from_bytes E N f =
  (s <~ nps_new N m ;;
   if zlen x <=? zlen (ns_buf s)
   then Ok (nd_of (ns_fortran s) (ns_dtype s) (ns_shape s) (n_base N) (x ++ skipn (List.length x) (ns_buf s)))
   else Raise MemoryFault).
Proof.
  intros H. rewrite (unpack_ndarray_of_bytes E N _ _ _ H). destruct (nps_new N m) as [s|e]; [|reflexivity]. cbn [rbind].
  rewrite zdrop_skipn. unfold zlen at 3. rewrite Nat2Z.id. reflexivity.
Qed.
Theorem other_container E : EnvOK E -> forall N b csa d v oba obp oma f,
  pack_bytes_to_bytes E b csa (PDict d) oba obp oma = Ok f ->
  dget (u "container") d = Some v -> v <> PStr (u "numpy") ->
  unpack_ndarray_from_bytes E N f = Raise NotANumpyArray.
Proof.
  intros HE N b csa d v oba obp oma f H D V. rewrite (not_array E HE N _ _ _ _ _ _ _ H).
  - cbn [not_array_error]. rewrite D. reflexivity.
  - cbn [array_metadata]. rewrite D. destruct v; try reflexivity. destruct (zs_eqb s (u "numpy")) eqn:Z; [|reflexivity].
    apply zs_eqb_eq in Z. congruence.
Qed.
