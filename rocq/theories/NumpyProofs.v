(** Proofs about numpy_io.py. *)
From Verif Require Import Base Pretty PyVal Checksums Headers Args FileIO Files NumpyIO Spec NumpySpec BaseLemmas HeaderProofs IOProofs WfProofs PackProofs SmallProofs BytesProofs Json FilesProofs.
From Coq Require Import ZifyBool ZifyNat.
Ltac Zify.zify_post_hook ::= Z.div_mod_to_equations.

(** ** Memory *)
Lemma zlen_mem_read m a n : zlen (mem_read m a n) = Z.max 0 n.
Proof. unfold mem_read, zlen. rewrite map_length, seq_length. lia. Qed.
Lemma mem_read_ext m m' a b n : (forall k, 0 <= k < n -> m (a + k) = m' (b + k)) -> mem_read m a n = mem_read m' b n.
Proof.
  intros H. unfold mem_read. apply map_ext_in. intros k Hk. apply in_seq in Hk. apply H. lia.
Qed.
Lemma mem_read_app m a x y : 0 <= x -> 0 <= y -> mem_read m a (x + y) = mem_read m a x ++ mem_read m (a + x) y.
Proof.
  intros Hx Hy. unfold mem_read. rewrite Z2Nat.inj_add by auto. rewrite seq_app, map_app. f_equal.
  cbn [Nat.add].
  rewrite <- (Nat.add_0_r (Z.to_nat x)).
  generalize (Z.to_nat y) as k. intros k.
  assert (forall s n, map (fun j => m (a + Z.of_nat j)) (seq (s + n) k) = map (fun j => m (a + Z.of_nat s + Z.of_nat j)) (seq n k)) as G.
  { clear. induction k as [|k IH]; intros s n; [reflexivity|]. cbn [seq map]. f_equal; [f_equal; lia|].
    rewrite <- IH. f_equal. f_equal. lia. }
  rewrite G. apply map_ext. intros j. f_equal. lia.
Qed.
Lemma mem_read_sub m a n o k : 0 <= o -> 0 <= k -> o + k <= n ->
  ztake k (zdrop o (mem_read m a n)) = mem_read m (a + o) k.
Proof.
  intros Ho Hk Hn. replace n with (o + (k + (n - o - k))) by lia.
  rewrite mem_read_app by lia. rewrite zdrop_app_exact by (rewrite zlen_mem_read; lia).
  rewrite mem_read_app by lia. rewrite ztake_app_exact by (rewrite zlen_mem_read; lia). reflexivity.
Qed.
Lemma mem_read_buf buf base o k : 0 <= o -> 0 <= k -> o + k <= zlen buf ->
  mem_read (fun p => nth (Z.to_nat (p - base)) buf x00) (base + o) k = ztake k (zdrop o buf).
Proof.
  intros Ho Hk Hl.
  assert (A : forall q : bytes, mem_read (fun p => nth (Z.to_nat (p - base)) q x00) base (zlen q) = q).
  { intros q. unfold mem_read, zlen. rewrite Nat2Z.id.
    rewrite (map_ext _ (fun j => nth j q x00)) by (intros j; f_equal; lia).
    induction q as [|x q IH]; [reflexivity|]. cbn [List.length seq map nth]. f_equal.
    rewrite <- seq_shift, map_map. exact IH. }
  transitivity (ztake k (zdrop o (mem_read (fun p => nth (Z.to_nat (p - base)) buf x00) base (zlen buf)))).
  - rewrite mem_read_sub by lia. reflexivity.
  - rewrite A. reflexivity.
Qed.

(** ** Linear index *)
Fixpoint lin_c (shape idx : list Z) : Z :=
  match shape, idx with d :: ds, i :: r => i * zprod ds + lin_c ds r | _, _ => 0 end.
Fixpoint lin_f (shape idx : list Z) : Z :=
  match shape, idx with d :: ds, i :: r => i + d * lin_f ds r | _, _ => 0 end.

Lemma zprod_nonneg l : Forall (fun d => 0 <= d) l -> 0 <= zprod l.
Proof. induction 1; cbn [zprod]; [lia|]. apply Z.mul_nonneg_nonneg; auto. Qed.

Lemma in_bounds_shape shape idx : in_bounds shape idx -> Forall (fun d => 1 <= d) shape.
Proof. induction 1; constructor; auto. lia. Qed.
Lemma in_bounds_no_zero shape idx : in_bounds shape idx -> has_zero shape = false.
Proof. induction 1 as [|i d idx shape H _ IH]; [reflexivity|]. cbn. unfold has_zero in IH. rewrite IH. lia. Qed.
Lemma zprod_pos shape idx : in_bounds shape idx -> 1 <= zprod shape.
Proof. induction 1; cbn [zprod]; [lia|]. nia. Qed.

Lemma lin_c_range shape idx : in_bounds shape idx -> 0 <= lin_c shape idx < zprod shape.
Proof.
  induction 1 as [|i d idx shape H HB IH]; cbn [lin_c zprod]; [lia|].
  nia.
Qed.
Lemma lin_f_range shape idx : in_bounds shape idx -> 0 <= lin_f shape idx < zprod shape.
Proof.
  induction 1 as [|i d idx shape H HB IH]; cbn [lin_f zprod]; [lia|]. nia.
Qed.

Lemma dot_c item shape idx : in_bounds shape idx -> forall strides, c_strides_ok item shape strides = true ->
  dot idx strides = item * lin_c shape idx.
Proof.
  induction 1 as [|i d idx shape H HB IH]; intros strides HS; [destruct strides; cbn [dot lin_c]; lia|].
  destruct strides as [|s ss]; [discriminate|]. cbn [c_strides_ok] in HS. apply andb_true_iff in HS as [H1 H2].
  cbn [dot lin_c]. rewrite (IH _ H1). apply orb_true_iff in H2 as [H2|H2]; [replace i with 0 by lia; lia|].
  apply Z.eqb_eq in H2. subst s. ring.
Qed.
Lemma dot_f shape idx : in_bounds shape idx -> forall sd strides, f_strides_ok sd shape strides = true ->
  dot idx strides = sd * lin_f shape idx.
Proof.
  induction 1 as [|i d idx shape H HB IH]; intros sd strides HS; [destruct strides; cbn [dot lin_f]; lia|].
  destruct strides as [|s ss]; [discriminate|]. cbn [f_strides_ok] in HS. apply andb_true_iff in HS as [H2 H1].
  cbn [dot lin_f]. rewrite (IH _ _ H1). apply orb_true_iff in H2 as [H2|H2]; [replace i with 0 by lia; lia|].
  apply Z.eqb_eq in H2. subst s. ring.
Qed.
Lemma c_strides_are item shape : c_strides_ok item shape (c_strides item shape) = true.
Proof. induction shape; cbn; auto. rewrite IHshape, Z.eqb_refl, orb_true_r. reflexivity. Qed.
Lemma f_strides_are shape : forall sd, f_strides_ok sd shape (f_strides sd shape) = true.
Proof. induction shape; cbn; auto. intros sd. rewrite IHshape, Z.eqb_refl, orb_true_r. reflexivity. Qed.

(** ** Row-major enumeration *)
Lemma nth_zseq d i : 0 <= i < d -> nth_error (zseq d) (Z.to_nat i) = Some i.
Proof.
  intros H. unfold zseq. rewrite nth_error_map.
  assert (nth_error (seq 0 (Z.to_nat d)) (Z.to_nat i) = Some (Z.to_nat i)) as ->.
  { rewrite (nth_error_nth' _ O) by (rewrite seq_length; lia). rewrite seq_nth by lia. reflexivity. }
  cbn. f_equal. lia.
Qed.
Lemma zlen_zseq d : zlen (zseq d) = Z.max 0 d.
Proof. unfold zseq, zlen. rewrite map_length, seq_length. lia. Qed.

(** The [k]-th block of a concatenation of blocks of equal length. *)
Lemma nth_flat {A B} (g : A -> list B) (w : nat) : forall l, (forall x, In x l -> List.length (g x) = w) ->
  forall i j x, nth_error l i = Some x -> (j < w)%nat -> nth_error (flat_map g l) (i * w + j) = nth_error (g x) j.
Proof.
  induction l as [|y l IH]; intros HW i j x HN HJ; [destruct i; discriminate|].
  cbn [flat_map]. pose proof (HW y (or_introl eq_refl)) as Hy.
  destruct i as [|i]; cbn in HN.
  - injection HN as ->. rewrite nth_error_app1 by lia. reflexivity.
  - rewrite nth_error_app2 by lia. rewrite Hy. replace (S i * w + j - w)%nat with (i * w + j)%nat by lia.
    apply IH; auto. intros z Hz. apply HW. right; auto.
Qed.
Lemma length_indices shape : Forall (fun d => 0 <= d) shape -> Z.of_nat (List.length (indices shape)) = zprod shape.
Proof.
  induction 1 as [|d shape Hd _ IH]; [reflexivity|]. cbn [indices zprod].
  assert (L : forall l, List.length (flat_map (fun i => map (cons i) (indices shape)) l)
                        = (List.length l * List.length (indices shape))%nat).
  { induction l; cbn [flat_map List.length]; [reflexivity|]. rewrite app_length, map_length, IHl. lia. }
  rewrite L. pose proof (zlen_zseq d). unfold zlen in H. nia.
Qed.
Lemma nth_indices shape idx : in_bounds shape idx -> nth_error (indices shape) (Z.to_nat (lin_c shape idx)) = Some idx.
Proof.
  induction 1 as [|i d idx shape H HB IH]; [reflexivity|]. cbn [indices lin_c].
  pose proof (lin_c_range _ _ HB) as R.
  assert (NN : Forall (fun d => 0 <= d) shape) by (eapply Forall_impl; [|eapply in_bounds_shape; eauto]; cbn; lia).
  pose proof (length_indices shape NN) as L.
  replace (Z.to_nat (i * zprod shape + lin_c shape idx))
    with (Z.to_nat i * List.length (indices shape) + Z.to_nat (lin_c shape idx))%nat by nia.
  rewrite (nth_flat _ (List.length (indices shape))) with (x := i).
  - rewrite nth_error_map, IH. reflexivity.
  - intros. apply map_length.
  - apply nth_zseq; auto.
  - lia.
Qed.

Lemma concat_block {A} (g : A -> bytes) w l k x : 0 <= w -> (forall y, zlen (g y) = w) ->
  nth_error l (Z.to_nat k) = Some x -> 0 <= k -> ztake w (zdrop (w * k) (concat (map g l))) = g x.
Proof.
  intros Hw HG HN Hk. revert l HN. pattern k. apply natlike_ind; [..|exact Hk]; clear k Hk.
  - intros [|y l] HN; [discriminate|]. cbn in HN. injection HN as ->.
    rewrite Z.mul_0_r, zdrop_0 by lia. cbn [map concat]. apply ztake_app_exact. symmetry. apply HG.
  - intros k Hk IH l HN. rewrite Z2Nat.inj_succ in HN by auto. destruct l as [|y l]; [discriminate|]. cbn [nth_error] in HN.
    cbn [map concat]. replace (w * Z.succ k) with (zlen (g y) + w * k) by (rewrite HG; lia).
    rewrite Z.add_comm, <- zdrop_zdrop by (try apply zlen_nonneg; apply Z.mul_nonneg_nonneg; auto).
    rewrite zdrop_app_exact by reflexivity. auto.
Qed.
Lemma zlen_concat_const {A} (g : A -> bytes) w l : (forall y, zlen (g y) = w) -> zlen (concat (map g l)) = w * zlen l.
Proof.
  intros HG. induction l as [|x l IH]; [cbn; lia|]. cbn [map concat]. rewrite zlen_app, HG, IH, zlen_cons. lia.
Qed.

(** ** pack depends on its source only through the chunks it yields *)
Definition pack_prefix {Snk} (snk : compressed_sink Snk) (n c l : Z) (m : pyval)
    (oba : option bargs) (obp : option bpargs) (oma : option margs) : SM Snk (option margs) :=
  let ba := the_bargs oba in let bp := the_bpargs obp in let ma := the_margs oma in
  max_app <- lift (handle_max_apps (bp_offsets bp) n (bp_max_app bp)) ;;
  h <- lift (mk_header FORMAT_VERSION (bp_offsets bp) (negb (is_none m)) (bp_checksum bp)
                       (ba_typesize ba) c l n max_app) ;;
  (fun k => (cs_configure snk ba h k, Ok tt)) ;;;
  cs_write_header snk ;;;
  oma' <- (if is_none m then ret oma else a <- cs_write_metadata snk m ma ;; ret (Some a)) ;;
  cs_init_offsets snk ;;;
  ret oma'.
Definition pack_rest {Src Chunk Snk} (src : plain_source Src Chunk) (snk : compressed_sink Snk) (n c l : Z)
    (oba : option bargs) (oma' : option margs) : SM (Src * Snk) (option margs) :=
  pack_loop (ps_compress src (the_bargs oba)) (cs_put snk) 0 (ps_steps src n c l) ;;;
  onr (cs_finalize snk) ;;; ret oma'.

Lemma pack_split {Src Chunk Snk} (src : plain_source Src Chunk) (snk : compressed_sink Snk) n c l m oba obp oma s k :
  pack src snk n c l m oba obp oma (s, k) =
  match pack_prefix snk n c l m oba obp oma k with
  | (k', Ok oma') => pack_rest src snk n c l oba oma' (s, k')
  | (k', Raise e) => ((s, k'), Raise e)
  end.
Proof.
  unfold pack, pack_prefix. fold (the_bargs oba) (the_bpargs obp) (the_margs oma).
  unfold pack_rest. cbv beta delta [bind lift onr ret]. cbn [fst snd].
  destruct (handle_max_apps _ _ _) as [mx|e]; [|reflexivity].
  destruct (mk_header _ _ _ _ _ _ _ _ _) as [h|e]; [|reflexivity]. cbn [fst snd].
  destruct (cs_write_header snk _) as [k1 [[]|e]]; [|reflexivity]. cbn [fst snd].
  destruct (is_none m).
  - cbn [fst snd]. destruct (cs_init_offsets snk k1) as [k2 [[]|e]]; reflexivity.
  - cbn [fst snd]. destruct (cs_write_metadata snk m _ k1) as [k2 [a|e]]; [|reflexivity]. cbn [fst snd].
    cbn [fst snd]. destruct (cs_init_offsets snk k2) as [k3 [[]|e]]; reflexivity.
Qed.

Lemma pack_loop_same {S1 S2 C1 C2 Snk} (f1 : C1 -> res bytes) (f2 : C2 -> res bytes) (put : Z -> bytes -> SM Snk unit)
  (t1 : list (SM S1 C1)) : forall (t2 : list (SM S2 C2)) i s1 s2 x1 x2 s1' s2' k,
  yields t1 s1 x1 s1' -> yields t2 s2 x2 s2' -> Forall2 (fun a b => f1 a = f2 b) x1 x2 ->
  snd (fst (pack_loop f1 put i t1 (s1, k))) = snd (fst (pack_loop f2 put i t2 (s2, k))) /\
  snd (pack_loop f1 put i t1 (s1, k)) = snd (pack_loop f2 put i t2 (s2, k)).
Proof.
  induction t1 as [|a t1 IH]; intros t2 i s1 s2 x1 x2 s1' s2' k Y1 Y2 F.
  - destruct x1; [|destruct Y1]. inversion F; subst. destruct t2; [|destruct Y2]. auto.
  - destruct x1 as [|x x1]; [destruct Y1|]. destruct Y1 as (s1a & A1 & Y1). inversion F as [|? y ? x2' F1 F2]; subst.
    destruct t2 as [|b t2]; [destruct Y2|]. destruct Y2 as (s2a & A2 & Y2).
    cbn [pack_loop]. rewrite (bind_run _ _ _ _ _ (onl_run _ _ _ _ _ A1)), (bind_run _ _ _ _ _ (onl_run _ _ _ _ _ A2)).
    destruct (f2 y) as [c|e] eqn:Ey.
    + rewrite (bind_lift _ _ _ _ F1), (bind_lift _ _ _ _ eq_refl).
      cbv beta delta [bind onr]. cbn [fst snd]. destruct (put i c k) as [k' [[]|e]]; [|auto].
      apply (IH t2 (i + 1) s1a s2a x1 x2' s1' s2' k' Y1 Y2 F2).
    + rewrite (bind_lift_raise _ _ _ _ F1), (bind_lift_raise _ _ _ _ eq_refl). auto.
Qed.

Lemma pack_same {S1 S2 C1 C2 Snk} (src1 : plain_source S1 C1) (src2 : plain_source S2 C2) (snk : compressed_sink Snk)
  n c l m oba obp oma s1 s2 x1 x2 s1' s2' k :
  yields (ps_steps src1 n c l) s1 x1 s1' -> yields (ps_steps src2 n c l) s2 x2 s2' ->
  Forall2 (fun a b => ps_compress src1 (the_bargs oba) a = ps_compress src2 (the_bargs oba) b) x1 x2 ->
  snd (fst (pack src1 snk n c l m oba obp oma (s1, k))) = snd (fst (pack src2 snk n c l m oba obp oma (s2, k))) /\
  snd (pack src1 snk n c l m oba obp oma (s1, k)) = snd (pack src2 snk n c l m oba obp oma (s2, k)).
Proof.
  intros Y1 Y2 F. rewrite !pack_split. destruct (pack_prefix _ _ _ _ _ _ _ _ k) as [k' [a|e]]; [|auto].
  unfold pack_rest, bind.
  destruct (pack_loop_same _ _ (cs_put snk) _ _ 0 s1 s2 x1 x2 s1' s2' k' Y1 Y2 F) as [L1 L2].
  destruct (pack_loop _ _ _ (ps_steps src1 n c l) _) as [[u1 k1] r1].
  destruct (pack_loop _ _ _ (ps_steps src2 n c l) _) as [[u2 k2] r2].
  cbn [fst snd] in L1, L2. subst k2 r2. destruct r1 as [[]|e]; [|auto].
  unfold onr. cbn [fst snd]. destruct (cs_finalize snk k1) as [k3 [[]|e]]; auto.
Qed.

(** a source that raises at its first step, given arguments with which another
    source could be packed *)
Lemma pack_first_raises {S1 S2 C1 C2 Snk} (src1 : plain_source S1 C1) (src2 : plain_source S2 C2) (snk : compressed_sink Snk)
  n c l m oba obp oma s1 s2 k st a e :
  pack src1 snk n c l m oba obp oma (s1, k) = (st, Ok a) ->
  (exists t, ps_steps src2 n c l = raise e :: t) ->
  snd (pack src2 snk n c l m oba obp oma (s2, k)) = Raise e.
Proof.
  intros P [t T]. rewrite (pack_split src1) in P. rewrite (pack_split src2). revert P. destruct (pack_prefix _ _ _ _ _ _ _ _ k) as [k' [b|e']]; intros P; [|discriminate P].
  unfold pack_rest. rewrite T. reflexivity.
Qed.

(** ** The memory image that is packed *)
Section WithEnv.
Variable E : Env.
Hypothesis HE : EnvOK E.
Variable N : NpEnv.

Definition image (a : ndarray) : bytes :=
  let b := source_array N a in mem_read (nd_mem b) (nd_ptr b) (nd_size a * nd_itemsize a).
Definition place (fortran : bool) (shape idx : list Z) : Z :=
  if fortran then lin_f shape idx else lin_c shape idx.

Lemma place_range fo shape idx : in_bounds shape idx -> 0 <= place fo shape idx < zprod shape.
Proof. destruct fo; [apply lin_f_range|apply lin_c_range]. Qed.

Lemma zlen_elem a idx : 0 <= nd_itemsize a -> zlen (nd_elem a idx) = nd_itemsize a.
Proof. intros H. unfold nd_elem. rewrite zlen_mem_read. lia. Qed.

Lemma nd_of_elem fo t shape base buf idx : 0 <= dt_itemsize t -> zlen buf = zprod shape * dt_itemsize t ->
  in_bounds shape idx ->
  nd_elem (nd_of fo t shape base buf) idx = ztake (dt_itemsize t) (zdrop (dt_itemsize t * place fo shape idx) buf).
Proof.
  intros Ht Hb HI. pose proof (place_range fo shape idx HI) as R.
  unfold nd_elem, nd_addr, nd_of, nd_itemsize. cbn [nd_dtype nd_ptr nd_mem nd_strides].
  assert (D : dot idx (if fo then f_strides (dt_itemsize t) shape else c_strides (dt_itemsize t) shape)
              = dt_itemsize t * place fo shape idx).
  { destruct fo; [apply dot_f|apply dot_c]; auto using f_strides_are, c_strides_are. }
  rewrite D. apply mem_read_buf; nia.
Qed.

(** the branch for "non contiguous fortran arrays" is never taken *)
Lemma fortran_branch_dead a : isfortran a && negb (f_contiguous a) = false.
Proof. unfold isfortran. destruct (f_contiguous a); cbn; auto. apply andb_false_r. Qed.

Lemma image_elem a idx : nd_ok a -> in_bounds (nd_shape a) idx ->
  ztake (nd_itemsize a) (zdrop (nd_itemsize a * place (isfortran a) (nd_shape a) idx) (image a)) = nd_elem a idx.
Proof.
  intros [D1 D2 D3] HI. unfold image, source_array. rewrite fortran_branch_dead.
  pose proof (place_range (isfortran a) (nd_shape a) idx HI) as R.
  pose proof (in_bounds_no_zero _ _ HI) as NZ.
  destruct (negb (isfortran a) && negb (c_contiguous a)) eqn:B.
  - apply andb_true_iff in B as [B1 B2]. apply negb_true_iff in B1. rewrite B1 in *.
    cbn [place] in *. unfold ascontiguousarray. cbn [nd_of nd_mem nd_ptr].
    set (buf := concat _).
    assert (LB : zlen buf = nd_size a * nd_itemsize a).
    { unfold buf. rewrite (zlen_concat_const _ (nd_itemsize a)) by (intros; apply zlen_elem; auto).
      unfold zlen. rewrite length_indices by auto. unfold nd_size. lia. }
    pose proof (mem_read_buf buf (n_base N) 0 (nd_size a * nd_itemsize a)) as MB. rewrite Z.add_0_r in MB.
    rewrite MB; [|lia|unfold nd_size in *; nia|lia]. clear MB.
    rewrite (zdrop_0 0 buf) by lia. rewrite (ztake_all _ buf) by lia.
    unfold buf. apply concat_block; auto; try tauto; try lia.
    + intros; apply zlen_elem; auto.
    + apply nth_indices; auto.
  - unfold nd_size. rewrite mem_read_sub; try nia. unfold nd_elem, nd_addr. f_equal. f_equal. symmetry.
    unfold place. destruct (isfortran a) eqn:F.
    + unfold isfortran in F. apply andb_true_iff in F as [F _]. unfold f_contiguous in F. rewrite NZ in F. cbn in F.
      apply dot_f; auto.
    + cbn in B. apply negb_false_iff in B. unfold c_contiguous in B. rewrite NZ in B. cbn in B. apply dot_c; auto.
Qed.
Lemma zlen_image a : nd_ok a -> zlen (image a) = nd_size a * nd_itemsize a.
Proof.
  intros [D1 D2 D3]. unfold image. rewrite zlen_mem_read. pose proof (zprod_nonneg _ D2). unfold nd_size. nia.
Qed.

(** ** The chunks *)
Definition np_chunks (c l it : Z) : nat -> Z -> list (Z * Z) :=
  fix go (k : nat) (offset : Z) :=
    match k with O => [(offset, l / it)] | S k' => (offset, c / it) :: go k' (offset + c) end.
(** The quotients of numpy_io.py are exact: the item size divides the chunk size. *)
Lemma int_quotient_exact k d : 0 <= k < 2 ^ 53 -> 0 < d -> int_quotient (k * d) d = k.
Proof.
  intros K D. unfold int_quotient, b64_of. destruct (Z.eqb_spec (k * d) 0) as [Z0|NZ]; [assert (k = 0) by nia; subst k; reflexivity|].
  assert (K1 : 0 < k) by nia. set (e := b64_exp (k * d) d).
  assert (E0 : e <= 0).
  { unfold e, b64_exp. pose proof (Z.log2_mul_above k d ltac:(lia) ltac:(lia)) as A. assert (L : Z.log2 k < 53) by (apply Z.log2_lt_pow2; lia).
    assert (S : Z.log2 (k * d) - Z.log2 d <= 53). { pose proof (Z.log2_le_mono (k * d) (k * 2 ^ (Z.log2 d + 1))). pose proof (Z.log2_spec d D) as [_ D2]. change (Z.succ (Z.log2 d)) with (Z.log2 d + 1) in D2.
      rewrite Z.log2_mul_pow2 in H by (pose proof (Z.log2_nonneg d); lia). specialize (H ltac:(nia)). lia. }
    destruct (Z.eq_dec (Z.log2 (k * d) - Z.log2 d) 53) as [-> |NQ].
    - replace (shl_num d 53 <=? shl_den (k * d) 53) with false; [reflexivity|]. symmetry. apply Z.leb_gt. unfold shl_num, shl_den. cbn [Z.leb Z.compare]. nia.
    - destruct (_ <=? _); lia. }
  assert (R : rhe (shl_num (k * d) (- e)) (shl_den d (- e)) = k * 2 ^ (- e)).
  { unfold shl_num, shl_den. replace (0 <=? - e) with true by lia. replace (k * d * 2 ^ (- e)) with (k * 2 ^ (- e) * d) by ring. unfold rhe.
    rewrite Z.div_mul, Z.mod_mul by lia. replace (2 * 0 <? d) with true by lia. reflexivity. }
  rewrite R. unfold shl_num, shl_den. destruct (Z.leb_spec 0 e); [assert (e = 0) as -> by lia; change (2 ^ 0) with 1; change (2 ^ (- 0)) with 1; rewrite !Z.mul_1_r; apply Z.div_1_r|].
  rewrite Z.mul_1_l. apply Z.div_mul. pose proof (Z.pow_pos_nonneg 2 (- e)). lia.
Qed.
Lemma int_quotient_div x d : 0 <= x < 2 ^ 53 -> 0 < d -> x mod d = 0 -> int_quotient x d = x / d.
Proof.
  intros X D M. apply Z.mod_divide in M as [k ->]; [|lia]. rewrite int_quotient_exact, Z.div_mul by nia. reflexivity.
Qed.
Lemma np_yields c l it k : 0 <= c < 2 ^ 53 -> 0 <= l < 2 ^ 53 -> 0 < it -> c mod it = 0 -> l mod it = 0 ->
  forall off, yields (np_steps c l it k off) tt (np_chunks c l it k off) tt.
Proof.
  intros C L I MC ML. induction k as [|k IH]; intros off; cbn [np_steps np_chunks yields]; rewrite int_quotient_div by assumption.
  - exists tt. split; reflexivity.
  - exists tt. split; [reflexivity|apply IH].
Qed.
Lemma np_views m it c l k : 1 <= it -> 0 <= c -> 0 <= l -> c mod it = 0 -> l mod it = 0 -> forall off total, Z.of_nat k * c + l <= total ->
  map (fun x => mem_read m (fst x) (snd x * it)) (np_chunks c l it k off)
  = takes (zrep (Z.of_nat k) c ++ [l]) (mem_read m off total).
Proof.
  intros Hi Hc Hl Dc Dl. assert (C : c / it * it = c) by (pose proof (Z.div_mod c it); nia).
  assert (L : l / it * it = l) by (pose proof (Z.div_mod l it); nia).
  induction k as [|k IH]; intros off total Ht.
  - cbn [np_chunks map fst snd zrep Z.of_nat Z.to_nat repeat app takes]. rewrite L. f_equal.
    replace total with (l + (total - l)) by lia. rewrite mem_read_app by lia.
    rewrite ztake_app_exact by (rewrite zlen_mem_read; lia). reflexivity.
  - cbn [np_chunks map fst snd]. unfold zrep. rewrite Nat2Z.id. cbn [repeat app takes]. rewrite C.
    replace total with (c + (total - c)) by lia. rewrite mem_read_app by nia.
    rewrite ztake_app_exact by (rewrite zlen_mem_read; lia).
    rewrite zdrop_app_exact by (rewrite zlen_mem_read; lia). f_equal.
    rewrite (IH (off + c) (total - c)) by lia. unfold zrep. rewrite Nat2Z.id. reflexivity.
Qed.

Lemma source_array_item a : nd_itemsize (source_array N a) = nd_itemsize a.
Proof. unfold source_array. rewrite fortran_branch_dead. destruct (_ && _); reflexivity. Qed.

Lemma size_nonneg a : nd_ok a -> 0 <= nd_size a * nd_itemsize a.
Proof. intros [_ D2 D3]. pose proof (zprod_nonneg _ D2). unfold nd_size. nia. Qed.

Lemma last_divides a n c l csa : nd_ok a -> 1 <= nd_itemsize a ->
  calculate_nchunks (nd_size a * nd_itemsize a) csa = Ok (n, c, l) -> c mod nd_itemsize a = 0 -> l mod nd_itemsize a = 0.
Proof.
  intros Ha Hi Ec Hd. pose proof (calculate_partition _ _ _ _ _ (size_nonneg a Ha) Ec) as CP.
  apply Z.mod_divide in Hd as [q Hq]; [|lia].
  assert (L : l = (nd_size a - (n - 1) * q) * nd_itemsize a).
  { destruct CP as (_ & CP & _). clear -CP Hq. subst c. rewrite Z.mul_sub_distr_r, <- CP. ring. }
  rewrite L. apply Z.mod_mul. lia.
Qed.

Lemma calculate_bounded sz cs n c l : 0 <= sz -> calculate_nchunks sz cs = Ok (n, c, l) -> 0 <= c < 2 ^ 31 /\ 0 <= l < 2 ^ 31.
Proof. intros H Ec. pose proof (calculate_partition _ _ _ _ _ H Ec) as CP. unfold BUFMAX in CP. lia. Qed.
(** Packing an array is packing its memory image. *)
Lemma pack_ndarray_eq a csa oba obp oma n c l : nd_ok a -> dt_hasobject (nd_dtype a) = false ->
  1 <= nd_itemsize a ->
  calculate_nchunks (nd_size a * nd_itemsize a) csa = Ok (n, c, l) -> c mod nd_itemsize a = 0 ->
  pack_ndarray E N a (fp_sink E) csa oba obp oma (cfs_of (fp_of [])) =
  pack_bytes_core E (image a) csa (ndarray_meta N a) (Some (np_bargs a oba)) obp oma.
Proof.
  intros Ha Ho Hi Ec Hd. pose proof (calculate_partition _ _ _ _ _ (size_nonneg a Ha) Ec) as CP.
  pose proof (last_divides a n c l csa Ha Hi Ec Hd) as Hl.
  unfold pack_ndarray, pack_bytes_core. rewrite Ho, zlen_image, Ec by exact Ha.
  set (b := source_array N a).
  pose proof (fp_source_run E n c l (image a) ltac:(lia) ltac:(lia) ltac:(lia)) as [s2 Y2].
  assert (Y1 : yields (ps_steps (np_source E b) n c l) tt (np_chunks c l (nd_itemsize a) (Z.to_nat (n - 1)) (nd_ptr b)) tt).
  { cbn [np_source ps_steps]. unfold b at 1 2 3. rewrite source_array_item.
    replace (nd_itemsize a =? 0) with false by lia. replace (c mod nd_itemsize a =? 0) with true by lia.
    cbn [negb]. apply np_yields; try assumption; pose proof (calculate_bounded _ _ _ _ _ (size_nonneg a Ha) Ec); lia. }
  pose proof (np_views (nd_mem b) (nd_itemsize a) c l (Z.to_nat (n - 1)) Hi ltac:(lia) ltac:(lia) Hd Hl (nd_ptr b)
    (nd_size a * nd_itemsize a)) as V.
  rewrite Z2Nat.id in V by lia. specialize (V ltac:(lia)).
  change (zrep (n - 1) c ++ [l]) with (chunk_sizes n c l) in V.
  change (mem_read (nd_mem b) (nd_ptr b) (nd_size a * nd_itemsize a)) with (image a) in V.
  rewrite <- V in Y2.
  destruct (pack_same (np_source E b) (fp_source E) (fp_sink E) n c l (ndarray_meta N a) (Some (np_bargs a oba)) obp oma
     tt (fp_of (image a)) _ _ tt s2 (cfs_of (fp_of [])) Y1 Y2) as [P1 P2].
  { clear. induction (np_chunks _ _ _ _ _) as [|x q IH]; constructor; auto. }
  destruct (pack (np_source E b) _ _ _ _ _ _ _ _ _) as [[u1 k1] r1].
  destruct (pack (fp_source E) _ _ _ _ _ _ _ _ _) as [[u2 k2] r2].
  cbn [fst snd] in P1, P2. subst. reflexivity.
Qed.
Lemma pack_ndarray_bytes a csa oba obp oma n c l : nd_ok a -> dt_hasobject (nd_dtype a) = false ->
  1 <= nd_itemsize a ->
  calculate_nchunks (nd_size a * nd_itemsize a) csa = Ok (n, c, l) -> c mod nd_itemsize a = 0 ->
  pack_ndarray_to_bytes E N a csa oba obp oma =
  pack_bytes_to_bytes E (image a) csa (ndarray_meta N a) (Some (np_bargs a oba)) obp oma.
Proof.
  intros. unfold pack_ndarray_to_bytes, pack_bytes_to_bytes. erewrite pack_ndarray_eq by eauto. reflexivity.
Qed.

(** What is accepted. *)
Lemma pack_ndarray_inv {Snk} (snk : compressed_sink Snk) a csa oba obp oma k k' r :
  pack_ndarray E N a snk csa oba obp oma k = (k', Ok r) -> nd_ok a ->
  dt_hasobject (nd_dtype a) = false /\ 1 <= nd_itemsize a <= 255 /\
  exists n c l, calculate_nchunks (nd_size a * nd_itemsize a) csa = Ok (n, c, l) /\ c mod nd_itemsize a = 0.
Proof.
  intros H Ha. unfold pack_ndarray in H. destruct (dt_hasobject _); [discriminate|]. split; [reflexivity|].
  destruct (calculate_nchunks _ _) as [[[n c] l]|e] eqn:Ec; [|discriminate].
  pose proof (calculate_partition _ _ _ _ _ (size_nonneg a Ha) Ec) as CP.
  rewrite pack_split in H. destruct (pack_prefix _ _ _ _ _ _ _ _ k) as [k1 [b|e]] eqn:Epre; [|discriminate].
  assert (T : 0 <= nd_itemsize a <= 255).
  { unfold pack_prefix in Epre. apply bind_Ok in Epre as (? & mx & _ & Epre). apply bind_Ok in Epre as (? & h & Eh & _).
    unfold lift in Eh. apply (f_equal snd) in Eh. cbn [snd] in Eh. apply mk_header_Ok in Eh as (_ & Hn & _).
    unfold header_nums_ok in Hn. cbn [the_bargs np_bargs ba_typesize] in Hn. lia. }
  unfold pack_rest in H. cbn [np_source ps_steps] in H. rewrite source_array_item in H.
  destruct (nd_itemsize a =? 0) eqn:Z0; [discriminate|].
  destruct (c mod nd_itemsize a =? 0) eqn:M; [|discriminate]. cbn [negb] in H.
  split; [lia|]. exists n, c, l. split; [reflexivity|lia].
Qed.
End WithEnv.
