(** Proofs for C93. *)
From Verif Require Import Base PyVal Checksums Headers Args FileIO Files NumpyIO Spec NumpySpec Archive FormatSpec ReadSpec ReviseSpec WriteSpec ArraySpec
  BaseLemmas HeaderProofs IOProofs WfProofs PackProofs SmallProofs BytesProofs Json FilesProofs ReadProofs WriteProofs.
From Verif Require NumpyProofs NumpyUnpack NumpyMeta NumpySink.
From Coq Require Import ZifyBool ZifyNat.
Ltac Zify.zify_post_hook ::= Z.div_mod_to_equations.
Local Open Scope Z_scope.

Lemma tuples_exact : forall v, has_empty_list v = false -> conv v = Ok (tuples v).
Proof.
  fix IH 1. intros v. destruct v as [| | | | |l|l|l]; try reflexivity.
  destruct l as [|x l]; [discriminate|]. rewrite NumpySink.conv_unfold. change (has_empty_list (PList (x :: l))) with (existsb has_empty_list (x :: l)). intros H.
  assert (G : NumpySink.conv_list (x :: l) = Ok (map tuples (x :: l))).
  { revert H. generalize (x :: l). induction l0 as [|y k IHk]; [reflexivity|]. cbn [existsb NumpySink.conv_list map]. intros H.
    apply orb_false_iff in H as [H1 H2]. rewrite (IH y H1), (IHk H2). reflexivity. }
  rewrite G. destruct x; reflexivity.
Qed.
Lemma extents_exact v : shape_arg v = match extents v with Some l => Ok l | None => Raise ValueError end.
Proof.
  assert (L : forall l, shape_list l = match (match (if forallb (fun x => match x with PInt _ => true | _ => false end) l
      then Some (map (fun x => match x with PInt z => z | _ => 0 end) l) else None) with Some l => if forallb (Z.leb 0) l then Some l else None | None => None end)
    with Some l => Ok l | None => Raise ValueError end).
  { induction l as [|x l IH]; [reflexivity|]. destruct x; try reflexivity. cbn [shape_list forallb map andb]. destruct (Z.ltb_spec z 0).
    - destruct (forallb _ l); [|reflexivity]. cbn [map forallb]. replace (0 <=? z) with false by lia. reflexivity.
    - rewrite IH. destruct (forallb _ l); [|reflexivity]. cbn [map forallb]. replace (0 <=? z) with true by lia. cbn [andb]. destruct (forallb _ _); reflexivity. }
  unfold extents. destruct v; try reflexivity; try apply L. cbn [shape_arg forallb]. destruct (Z.ltb_spec z 0).
  - replace (0 <=? z) with false by lia. reflexivity.
  - replace (0 <=? z) with true by lia. reflexivity.
Qed.
Lemma order_exact v : order_arg v = match first_fastest v with Some b => Ok b | None => Raise ValueError end.
Proof.
  destruct v as [| | | |s| | |]; try reflexivity. destruct s as [|c [|d s]]; try reflexivity.
  - cbn [order_arg first_fastest]. 
    change (existsb (zs_eqb [c]) [u "C"; u "c"; u "A"; u "a"; u "K"; u "k"]) with (existsb (fun x => zs_eqb [c] [x]) [67; 99; 65; 97; 75; 107]).
    change (existsb (zs_eqb [c]) [u "F"; u "f"]) with (existsb (fun x => zs_eqb [c] [x]) [70; 102]).
    assert (Q : forall x, zs_eqb [c] [x] = (c =? x)). { intros x. unfold zs_eqb. cbn. destruct (c =? x); reflexivity. }
    cbn [existsb]. rewrite !Q. repeat match goal with |- context [c =? ?k] => destruct (Z.eqb_spec c k); [subst c; reflexivity|] end. reflexivity.
  - assert (Q : forall x, zs_eqb (c :: d :: s) [x] = false). { intros x. destruct (zs_eqb _ _) eqn:H; [|reflexivity]. apply NumpySink.zs_eqb_iff in H. discriminate. }
    cbn [order_arg first_fastest].
    change (existsb (zs_eqb (c :: d :: s)) [u "C"; u "c"; u "A"; u "a"; u "K"; u "k"]) with (existsb (fun x => zs_eqb (c :: d :: s) [x]) [67; 99; 65; 97; 75; 107]).
    change (existsb (zs_eqb (c :: d :: s)) [u "F"; u "f"]) with (existsb (fun x => zs_eqb (c :: d :: s) [x]) [70; 102]).
    cbn [existsb]. rewrite !Q. reflexivity.
Qed.
Lemma kind_exact N m : nps_new N m =
  match array_kind N m with
  | Raise e => Raise e
  | Ok (t, sh, fo) => Ok (mkNPS t sh fo (mem_read (n_junk N) (n_base N) (zprod sh * dt_itemsize t)) 0)
  end.
Proof.
  unfold nps_new, array_kind. destruct m as [| | | | | | |d]; try reflexivity. cbn [is_none getitem].
  destruct (dget (u "container") d) as [ct|]; [|reflexivity]. cbn [rbind]. destruct ct as [| | | |s| | |]; try reflexivity.
  assert (SE : zs_eqb s (u "numpy") = if list_eq_dec Z.eq_dec s (u "numpy") then true else false).
  { destruct (list_eq_dec _ s _) as [H|H]; [apply NumpySink.zs_eqb_iff; exact H|]. destruct (zs_eqb s (u "numpy")) eqn:Q; [|reflexivity]. apply NumpySink.zs_eqb_iff in Q. contradiction. }
  rewrite SE. destruct (negb _); [reflexivity|].
  destruct (dget (u "dtype") d) as [dv|]; [|reflexivity]. cbn [rbind]. destruct (n_literal N dv) as [lit|e]; [|reflexivity]. cbn [rbind].
  assert (C : match lit with Some x => Ok x | None => conv dv end =
    if match lit with None => has_empty_list dv | Some _ => false end then Raise IndexError else Ok (match lit with Some x => x | None => tuples dv end)).
  { destruct lit; [reflexivity|]. destruct (has_empty_list dv) eqn:Q; [apply NumpySink.conv_empty; exact Q|apply tuples_exact; exact Q]. }
  rewrite C. destruct (match lit with None => has_empty_list dv | Some _ => false end); [reflexivity|]. cbn [rbind].
  destruct (dget (u "shape") d) as [sv|]; [|reflexivity]. cbn [rbind]. destruct (n_dtype N _) as [t|e]; [|reflexivity]. cbn [rbind].
  destruct (dget (u "order") d) as [ov|]; [|reflexivity]. cbn [rbind]. rewrite extents_exact, order_exact.
  destruct (extents sv) as [sh|]; [|reflexivity]. cbn [rbind]. destruct (first_fastest ov); reflexivity.
Qed.
Lemma zprod_fold sh k : fold_right Z.mul k sh = zprod sh * k.
Proof. induction sh as [|x sh IH]; cbn [fold_right zprod]; [lia|]. rewrite IH. ring. Qed.

Section WithEnv.
Variable E : Env.
Variable N : NpEnv.
Variable dg : Z -> bytes -> bytes.
Hypothesis HD : forall code d, 0 <= code < 9 -> is_digest E code d (dg code d).

Theorem array_exact f : unpack_ndarray_from_bytes E N f =
  match reference_array E N dg f with
  | Raise e => Raise e
  | Ok (t, sh, fo, x) => Ok (nd_of fo t sh (n_base N) (x ++ skipn (length x) (mem_read (n_junk N) (n_base N) (zprod sh * dt_itemsize t))))
  end.
Proof.
  rewrite NumpyUnpack.unpack_ndarray_pure. unfold reference_array, read_beginning. pose proof (header_exact E dg HD f) as H.
  assert (L32 : header_fault f = None -> 32 <= size f) by (unfold header_fault; destruct (Z.ltb_spec (size f) 32); [discriminate|lia]).
  destruct (header_fault f) as [e|]; [destruct H as [g H]; rewrite (bind_run_raise _ _ _ _ _ H); reflexivity|].
  destruct H as (ck & CI & NO & H). rewrite (bind_run _ _ _ _ _ H). clear H. set (h := mkH _ _ _ ck _ _ _ _ _). specialize (L32 eq_refl).
  change (h_metadata h) with (has_meta f). unfold metadata_part.
  pose proof (metadata_exact E dg HD f L32) as M.
  assert (MM : match (if has_meta f then metadata_at_32 E dg f else Ok (PNone, 32)) with
    | Raise e => exists g, (if has_meta f then r <- read_metadata E ;; ret (fst r, Some (snd r)) else ret (PNone, None)) (mkfp f 32 []) = (g, Raise e)
    | Ok (m, q) => 0 <= q /\ exists o, (if has_meta f then r <- read_metadata E ;; ret (fst r, Some (snd r)) else ret (PNone, None)) (mkfp f 32 []) = (mkfp f q [], Ok (m, o))
    end).
  { destruct (has_meta f); [|split; [lia|eexists; reflexivity]].
    destruct (metadata_at_32 E dg f) as [[m q]|e].
    - destruct M as (mh & M & Q & _). split; [exact Q|]. eexists. rewrite (bind_run _ _ _ _ _ M). reflexivity.
    - destruct M as (g & M). eexists. rewrite (bind_run_raise _ _ _ _ _ M). reflexivity. }
  destruct (if has_meta f then metadata_at_32 E dg f else Ok (PNone, 32)) as [[m q]|e].
  2:{ destruct MM as (g & MM). rewrite (bind_run_raise _ _ _ _ _ MM). reflexivity. }
  destruct MM as (Q & o & MM). rewrite (bind_run _ _ _ _ _ MM).
  assert (M0 : 0 <= F_max f) by (unfold header_nums_ok in NO; lia).
  pose proof (offsets_exact E dg HD f q h Q eq_refl eq_refl eq_refl M0) as O.
  destruct (table_end f q) as [q'|e]; [|destruct O as (g & O); rewrite (bind_run_raise _ _ _ _ _ O); reflexivity].
  destruct O as (O & Q' & _). rewrite (bind_run _ _ _ _ _ O). cbn [ret b_header b_meta fst]. unfold ret. cbn [b_header b_meta fst rest fdata fpos].
  rewrite kind_exact. destruct (array_kind N m) as [[[t sh] fo]|e]; [|reflexivity]. cbn [rbind ns_buf ns_fortran ns_dtype ns_shape].
  change (h_checksum h) with ck. change (h_nchunks h) with (F_n f).
  unfold rest. cbn [fdata fpos]. rewrite (chunks_exact E dg HD f ck CI _ _ Q'). cbn [fst snd].
  destruct (chunks_from E dg f (Z.to_nat (F_n f)) q') as [x r]. cbn [fst snd].
  rewrite NumpyProofs.zlen_mem_read, zprod_fold. change (size x) with (zlen x). rewrite Z.ltb_antisym.
  destruct (zlen x <=? _); cbn [negb]; [|reflexivity]. destruct r as [e|]; [reflexivity|]. cbn [rbind].
  do 3 f_equal. set (y := mem_read _ _ _). unfold zdrop, zlen. rewrite Nat2Z.id. destruct (Z.leb_spec (Z.of_nat (length y)) (Z.of_nat (length x))); [|reflexivity].
  symmetry. apply skipn_all2. lia.
Qed.
Theorem array_file_exact p s : unpack_ndarray_from_file E N p s =
  (s, match s p with
      | None => Raise OSError
      | Some f => match reference_array E N dg f with
                  | Raise e => Raise e
                  | Ok (t, sh, fo, x) => Ok (nd_of fo t sh (n_base N) (x ++ skipn (length x) (mem_read (n_junk N) (n_base N) (zprod sh * dt_itemsize t))))
                  end
      end).
Proof.
  unfold unpack_ndarray_from_file, open_rb, bind, lift. destruct (s p) as [f|]; [|reflexivity]. rewrite array_exact. reflexivity.
Qed.

Hypothesis EK : EnvOK E.

Theorem pack_array_exact a cs oba obp oma : nd_ok a -> let r := pack_ndarray E N a (fp_sink E) cs oba obp oma (cfs_of (fp_of [])) in
  (fdata (s_fp (fst r)), snd r) = reference_pack_array E N dg a cs oba obp oma.
Proof.
  intros HA. cbv zeta. unfold reference_pack_array. destruct (dt_hasobject (nd_dtype a)) eqn:HO.
  { unfold pack_ndarray. rewrite HO. reflexivity. }
  assert (SZ : size (array_bytes a) = nd_size a * nd_itemsize a).
  { rewrite <- (NumpyMeta.image_is N) by exact HA. rewrite size_zlen. apply NumpyProofs.zlen_image. exact HA. }
  pose proof (chunking_exact (size (array_bytes a)) cs ltac:(unfold size; lia)) as CE.
  destruct (chunking (size (array_bytes a)) cs) as [[[n c] l]|e] eqn:CH.
  2:{ rewrite SZ in CE. unfold pack_ndarray. rewrite HO, CE. reflexivity. }
  pose proof CH as CH'. apply chunking_ok in CH' as (HN & HL & HC & HB & C0); [|unfold size; lia].
  rewrite SZ in CE. change (dt_itemsize (nd_dtype a)) with (nd_itemsize a).
  assert (NM : ndarray_meta N a = PDict [ (u "dtype", PStr (n_repr N (dt_desc (nd_dtype a)))); (u "shape", PTuple (map PInt (nd_shape a)));
      (u "order", PStr (if isfortran a then u "F" else u "C")); (u "container", PStr (u "numpy")) ]) by reflexivity.
  rewrite <- NM. clear NM.
  assert (NB : np_bargs a oba = (let ba := match oba with Some x => x | None => mkBA 8 7 true "blosclz" end in mkBA (nd_itemsize a) (ba_clevel ba) (ba_shuffle ba) (ba_cname ba))) by reflexivity.
  cbv zeta in NB. rewrite <- NB. clear NB.
  assert (W : forall e t, ps_steps (np_source E (source_array N a)) n c l = raise e :: t ->
    (fdata (s_fp (fst (pack_ndarray E N a (fp_sink E) cs oba obp oma (cfs_of (fp_of []))))), snd (pack_ndarray E N a (fp_sink E) cs oba obp oma (cfs_of (fp_of [])))) =
    reference_write E dg n c l (Raise e) (ndarray_meta N a) (Some (np_bargs a oba)) obp oma).
  { intros e t T. unfold pack_ndarray. rewrite HO, CE.
    rewrite <- (write_nothing E dg HD EK (np_source E (source_array N a)) tt n c l (ndarray_meta N a) (Some (np_bargs a oba)) obp oma e t HN HL HC T).
    destruct (pack (np_source E (source_array N a)) _ _ _ _ _ _ _ _ _) as [[? k] r]. reflexivity. }
  cbn [np_source ps_steps] in W. rewrite NumpyProofs.source_array_item in W.
  destruct (nd_itemsize a =? 0) eqn:I0; [exact (W _ _ eq_refl)|].
  destruct (c mod nd_itemsize a =? 0) eqn:I1; cbn [negb] in *; [|exact (W _ _ eq_refl)]. clear W.
  rewrite (NumpyProofs.pack_ndarray_eq E N a cs oba obp oma n c l HA HO) by (try assumption; destruct HA; lia).
  rewrite (pack_exact E dg HD EK), NumpyMeta.image_is by exact HA. unfold reference_pack. rewrite CH. reflexivity.
Qed.
Theorem pack_array_bytes_exact a cs oba obp oma : nd_ok a -> pack_ndarray_to_bytes E N a cs oba obp oma =
  match reference_pack_array E N dg a cs oba obp oma with (f, Ok _) => Ok f | (_, Raise e) => Raise e end.
Proof.
  intros HA. rewrite <- pack_array_exact by exact HA. unfold pack_ndarray_to_bytes. destruct (pack_ndarray E N a (fp_sink E) cs oba obp oma _) as [k [o|e]]; reflexivity.
Qed.
Theorem pack_array_file_exact a p cs oba obp oma s : nd_ok a -> p <> ""%string -> let r := pack_ndarray_to_file E N a p cs oba obp oma s in
  snd r = snd (reference_pack_array E N dg a cs oba obp oma) /\
  forall q, fst r q = if String.eqb q p then Some (fst (reference_pack_array E N dg a cs oba obp oma)) else s q.
Proof.
  intros HA HP. cbv zeta. rewrite <- pack_array_exact by exact HA. unfold pack_ndarray_to_file, open_wb, bind. 
  destruct (String.eqb_spec p ""); [contradiction|]. destruct (pack_ndarray E N a (fp_sink E) cs oba obp oma _) as [k r]. cbn [fst snd]. split; [reflexivity|].
  intros q. unfold fs_set. destruct (String.eqb q p); reflexivity.
Qed.
End WithEnv.
