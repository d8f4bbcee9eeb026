(** Reading and writing through file pointers: exact descriptions of the model's
    reading functions in terms of the bytes that follow the position. *)
From Verif Require Import Base PyVal Checksums Headers Args FileIO Spec BaseLemmas HeaderProofs.
From Coq Require Import ZifyBool ZifyNat.
Ltac Zify.zify_post_hook ::= Z.div_mod_to_equations.

Definition rest (f : fp) : bytes := zdrop (fpos f) (fdata f).
Definition adv (n : Z) (f : fp) : fp := mkfp (fdata f) (fpos f + n) (flog f).

Lemma rest_fp_of d : rest (fp_of d) = d.
Proof. unfold rest, fp_of; cbn. apply zdrop_0; lia. Qed.

Lemma rest_adv n f : 0 <= fpos f -> 0 <= n -> rest (adv n f) = zdrop n (rest f).
Proof. intros. unfold rest, adv; cbn. rewrite zdrop_zdrop by lia. f_equal. lia. Qed.
Lemma rest_adv_app n f x q : 0 <= fpos f -> rest f = x ++ q -> zlen x = n -> rest (adv n f) = q.
Proof.
  intros H E L. pose proof (zlen_nonneg x). rewrite rest_adv by lia. rewrite E.
  apply zdrop_app_exact. lia.
Qed.
Lemma adv_adv a b f : adv a (adv b f) = adv (b + a) f.
Proof. unfold adv; cbn. f_equal. lia. Qed.
Lemma adv_0 f : adv 0 f = f.
Proof. destruct f; unfold adv; cbn. f_equal. lia. Qed.
Lemma fpos_adv n f : fpos (adv n f) = fpos f + n.
Proof. reflexivity. Qed.

Lemma f_read_gen n f : 0 <= n ->
  f_read n f = (adv (zlen (ztake n (rest f))) f, Ok (ztake n (rest f))).
Proof. intros H. unfold f_read. replace (n <? 0) with false by lia. reflexivity. Qed.

Lemma f_read_ssize_fits n f : n <= zlen (rest f) -> f_read_ssize n f = f_read n f.
Proof. intros H. unfold f_read_ssize. fold (rest f). replace (zlen (rest f) <? n) with false by lia. rewrite andb_false_r. reflexivity. Qed.
Lemma f_read_ssize_small n f : n < 2 ^ 63 -> f_read_ssize n f = f_read n f.
Proof. intros H. unfold f_read_ssize. replace (2 ^ 63 <=? n) with false by lia. reflexivity. Qed.
Lemma f_read_ssize_cases n f : f_read_ssize n f = f_read n f \/
  f_read_ssize n f = (f, Raise OverflowError) /\ 2 ^ 63 <= n /\ zlen (rest f) < n.
Proof.
  unfold f_read_ssize. fold (rest f). destruct (2 ^ 63 <=? n) eqn:A; cbn [andb]; [|auto].
  destruct (zlen (rest f) <? n) eqn:B; [right; split; [auto|lia]|auto].
Qed.

Lemma f_read_rest n f x q : rest f = x ++ q -> zlen x = n -> f_read n f = (adv n f, Ok x).
Proof.
  intros E L. pose proof (zlen_nonneg x). rewrite f_read_gen by lia. rewrite E.
  rewrite ztake_app_exact by lia. rewrite L. reflexivity.
Qed.

Lemma f_seek_rel_ok {E} d f : 0 <= fpos f + d -> f_seek_rel E d f = (adv d f, Ok tt).
Proof. intros H. unfold f_seek_rel. replace (fpos f + d <? 0) with false by lia. reflexivity. Qed.
Lemma f_seek_ok {E} p f : 0 <= p -> f_seek E p f = (mkfp (fdata f) p (flog f), Ok tt).
Proof. intros H. unfold f_seek. replace (p <? 0) with false by lia. reflexivity. Qed.

(** Reading never changes the contents or the log, nor makes the position
    negative. *)
Definition read_only {A} (m : SM fp A) : Prop :=
  forall f f' r, 0 <= fpos f -> m f = (f', r) -> fdata f' = fdata f /\ flog f' = flog f /\ 0 <= fpos f'.

Lemma f_read_ssize_rest n f x q : rest f = x ++ q -> zlen x = n -> f_read_ssize n f = (adv n f, Ok x).
Proof.
  intros E L. rewrite f_read_ssize_fits by (rewrite E, zlen_app; pose proof (zlen_nonneg q); lia). exact (f_read_rest n f x q E L).
Qed.
Lemma ro_ret {A} (a : A) : read_only (ret a).
Proof. intros f f' r H E. inversion E; subst; auto. Qed.
Lemma ro_raise {A} e : read_only (@raise fp A e).
Proof. intros f f' r H E. inversion E; subst; auto. Qed.
Lemma ro_lift {A} (x : res A) : read_only (lift x).
Proof. intros f f' r H E. inversion E; subst; auto. Qed.
Lemma ro_bind {A B} (m : SM fp A) (k : A -> SM fp B) :
  read_only m -> (forall a, read_only (k a)) -> read_only (bind m k).
Proof.
  intros Hm Hk f f' r H E. unfold bind in E. destruct (m f) as [f1 [a|e]] eqn:E1.
  - destruct (Hm _ _ _ H E1) as (D & L & P). destruct (Hk a _ _ _ P E) as (D' & L' & P').
    split; [congruence|split; [congruence|auto]].
  - inversion E; subst. eapply Hm; eauto.
Qed.
Lemma ro_read n : read_only (f_read n).
Proof.
  intros f f' r H E. unfold f_read in E. inversion E; subst; cbn.
  split; [auto|split; [auto|]]. match goal with |- 0 <= _ + zlen ?l => pose proof (zlen_nonneg l) end. lia.
Qed.
Lemma ro_read_ssize n : read_only (f_read_ssize n).
Proof.
  intros f f' r H E. unfold f_read_ssize in E. destruct (_ && _); [inversion E; subst; auto|].
  exact (ro_read n f f' r H E).
Qed.
Lemma ro_seek E p : read_only (f_seek E p).
Proof.
  intros f f' r H X. unfold f_seek in X. destruct (p <? 0) eqn:?; inversion X; subst; cbn; repeat split; auto; lia.
Qed.
Lemma ro_seek_rel E p : read_only (f_seek_rel E p).
Proof.
  intros f f' r H X. unfold f_seek_rel in X.
  destruct (fpos f + p <? 0) eqn:?; [destruct (e_mem E)|]; inversion X; subst; cbn; repeat split; auto; lia.
Qed.
Lemma ro_tell : read_only f_tell.
Proof. intros f f' r H E. inversion E; subst; auto. Qed.
Lemma ro_if {A} (b : bool) (m1 m2 : SM fp A) : read_only m1 -> read_only m2 -> read_only (if b then m1 else m2).
Proof. destruct b; auto. Qed.

Ltac ro := repeat first
  [ apply ro_ret | apply ro_raise | apply ro_lift | apply ro_read | apply ro_read_ssize | apply ro_seek | apply ro_seek_rel
  | apply ro_tell | apply ro_if | (apply ro_bind; [|intros ?]) ].

Section WithEnv.
Variable E : Env.
Hypothesis HE : EnvOK E.

Lemma ro_read_bloscpack_header : read_only read_bloscpack_header.
Proof. unfold read_bloscpack_header. ro. Qed.
Lemma ro_read_metadata : read_only (read_metadata E).
Proof. unfold read_metadata. ro. Qed.
Lemma ro_read_offsets h : read_only (read_offsets h).
Proof. unfold read_offsets. apply ro_if; [|ro]. destruct (total_prospective_chunks h); ro. Qed.
Lemma ro_read_beginning : read_only (read_beginning E).
Proof.
  unfold read_beginning. apply ro_bind; [apply ro_read_bloscpack_header|intros h].
  apply ro_bind; [apply ro_if; [apply ro_bind; [apply ro_read_metadata|intros; apply ro_ret]|apply ro_ret]|intros mm].
  apply ro_bind; [apply ro_read_offsets|intros; apply ro_ret].
Qed.
Lemma ro_read_compressed_chunk c : read_only (read_compressed_chunk E c).
Proof. unfold read_compressed_chunk. ro. Qed.

Lemma zlen_digest c d : zlen (digest E c d) = cks_size c.
Proof.
  unfold digest, cks_digest. rewrite <- size_zlen.
  destruct c; try reflexivity; apply (ok_hashlib E HE).
Qed.
Lemma do_checksum_digest c d : do_checksum E c d = digest E c d.
Proof. destruct c; reflexivity. Qed.

(* ---------------------------------------------------------------- *)
(** ** Blosc headers and chunks *)

Lemma slice_sub p q b : 0 <= p -> slice p q b = sub p (q - p) b.
Proof. intros Hp. unfold slice, sub. rewrite ztake_firstn, zdrop_skipn. reflexivity. Qed.

Lemma decode_uint32_sub p b : 0 <= p -> p + 4 <= zlen b -> decode_uint32 (slice p (p + 4) b) = Ok (u32 p b).
Proof.
  intros Hp Hb. rewrite slice_sub by lia. replace (p + 4 - p) with 4 by lia.
  unfold decode_uint32, u32. rewrite <- size_zlen, size_sub, size_zlen by lia.
  replace (Z.min 4 (Z.max 0 (zlen b - p)) =? 4) with true by lia.
  reflexivity.
Qed.
Lemma byte_at_sub p b : (Z.of_nat p < zlen b) -> byte_at p b = Ok (u8 (Z.of_nat p) b).
Proof.
  intros H. unfold byte_at. destruct (nth_error b p) as [x|] eqn:N.
  - unfold u8, sub. rewrite Nat2Z.id. f_equal.
    apply nth_error_split in N as (l1 & l2 & -> & <-).
    rewrite skipn_app, skipn_all, Nat.sub_diag. change (Z.to_nat 1) with 1%nat. cbn [app skipn firstn].
    unfold uint_le, Zb. cbn [fold_right]. lia.
  - apply nth_error_None in N. unfold zlen in H. lia.
Qed.

Lemma decode_blosc_header_ok b : 16 <= zlen b ->
  decode_blosc_header b = Ok (mkBH (u8 0 b) (u8 1 b) (u8 2 b) (u8 3 b) (u32 4 b) (u32 8 b) (u32 12 b)).
Proof.
  intros H. unfold decode_blosc_header. rewrite !byte_at_sub by lia. cbn [rbind].
  change 8 with (4 + 4) at 1. rewrite decode_uint32_sub by lia. cbn [rbind].
  change 12 with (8 + 4) at 1. rewrite decode_uint32_sub by lia. cbn [rbind].
  change 16 with (12 + 4) at 1. rewrite decode_uint32_sub by lia. reflexivity.
Qed.

Lemma decode_blosc_header_short b : zlen b < 16 -> exists e, decode_blosc_header b = Raise e /\ (e = IndexError \/ e = StructError).
Proof.
  intros H. unfold decode_blosc_header.
  assert (BA : forall i, (exists v, byte_at i b = Ok v) \/ byte_at i b = Raise IndexError).
  { intros i. unfold byte_at. destruct (nth_error b i); eauto. }
  assert (DU : forall s, (exists v, decode_uint32 s = Ok v) \/ decode_uint32 s = Raise StructError).
  { intros s. unfold decode_uint32. destruct (zlen s =? 4); eauto. }
  destruct (BA 0%nat) as [[v ->]| ->]; cbn [rbind]; [|eauto].
  destruct (BA 1%nat) as [[v1 ->]| ->]; cbn [rbind]; [|eauto].
  destruct (BA 2%nat) as [[v2 ->]| ->]; cbn [rbind]; [|eauto].
  destruct (BA 3%nat) as [[v3 ->]| ->]; cbn [rbind]; [|eauto].
  destruct (DU (slice 4 8 b)) as [[w ->]| ->]; cbn [rbind]; [|eauto].
  destruct (DU (slice 8 12 b)) as [[w1 ->]| ->]; cbn [rbind]; [|eauto].
  unfold decode_uint32 at 1. unfold slice. rewrite zlen_ztake, zlen_zdrop.
  replace (_ =? 4) with false by lia. cbn [rbind]. eauto.
Qed.

Lemma sub_app_l p n a b : 0 <= p -> 0 <= n -> p + n <= zlen a -> sub p n (a ++ b) = sub p n a.
Proof.
  intros. unfold sub, zlen in *. rewrite skipn_app, firstn_app, skipn_length.
  replace (Z.to_nat n - (List.length a - Z.to_nat p))%nat with O by lia. cbn. apply app_nil_r.
Qed.
Lemma u32_app p a b : 0 <= p -> p + 4 <= zlen a -> u32 p (a ++ b) = u32 p a.
Proof. intros. unfold u32. rewrite sub_app_l by lia. reflexivity. Qed.
Lemma u32_range p b : 0 <= u32 p b < 4294967296.
Proof.
  unfold u32. pose proof (uint_le_range (sub p 4 b)) as H.
  assert (size (sub p 4 b) <= 4). { unfold size, sub. rewrite firstn_length. lia. }
  assert (256 ^ size (sub p 4 b) <= 256 ^ 4). { apply Z.pow_le_mono_r; lia. }
  change (256 ^ 4) with 4294967296 in *. lia.
Qed.

(** What reading one chunk yields, for any bytes ahead of the position. *)
Definition chunk_here (r : bytes) : bytes := ztake (u32 12 r) r.
Definition digest_here (ck : cks) (r : bytes) : bytes := ztake (cks_size ck) (zdrop (u32 12 r) r).
Definition after_chunk (ck : cks) (r : bytes) : bytes := zdrop (u32 12 r + cks_size ck) r.

Lemma read_chunk_spec ck f : 0 <= fpos f -> 16 <= zlen (rest f) ->
  exists bh n, read_compressed_chunk E ck f =
    (adv n f, Ok (chunk_here (rest f), bh,
                  if 0 <? cks_size ck then Some (digest_here ck (rest f)) else None)) /\
    0 <= n /\ rest (adv n f) = after_chunk ck (rest f) /\ bh_ctbytes bh = u32 12 (rest f).
Proof.
  intros Hp Hr. unfold read_compressed_chunk.
  unfold BLOSC_HEADER_LENGTH.
  assert (L16 : zlen (ztake 16 (rest f)) = 16) by (rewrite zlen_ztake; lia).
  rewrite (bind_run _ _ _ (adv 16 f) (ztake 16 (rest f))) by (rewrite f_read_gen, L16 by lia; reflexivity).
  assert (U : u32 12 (ztake 16 (rest f)) = u32 12 (rest f)).
  { rewrite <- (ztake_zdrop 16 (rest f)) at 2. rewrite u32_app by lia. reflexivity. }
  rewrite (bind_run _ _ _ (adv 16 f) _ (f_equal (pair _) (decode_blosc_header_ok (ztake 16 (rest f)) ltac:(lia)))).
  rewrite U.
  rewrite (bind_run _ _ _ f tt).
  2:{ rewrite f_seek_rel_ok by (rewrite fpos_adv; lia). rewrite adv_adv. replace (16 + - (16)) with 0 by lia. rewrite adv_0. reflexivity. }
  cbn [bh_ctbytes]. pose proof (u32_range 12 (rest f)).
  set (ct := u32 12 (rest f)) in *.
  rewrite (bind_run _ _ _ _ _ (f_read_gen ct f ltac:(lia))).
  change (ztake ct (rest f)) with (chunk_here (rest f)).
  set (n1 := zlen (chunk_here (rest f))).
  assert (0 <= n1) by apply zlen_nonneg.
  assert (Hn1 : n1 = Z.min ct (zlen (rest f))) by (unfold n1, chunk_here; fold ct; rewrite zlen_ztake; lia).
  assert (R1 : rest (adv n1 f) = zdrop ct (rest f)).
  { rewrite rest_adv by lia. destruct (Z.le_gt_cases ct (zlen (rest f))).
    - f_equal. lia.
    - rewrite !zdrop_all by lia. reflexivity. }
  destruct (0 <? cks_size ck) eqn:Hck.
  - rewrite (bind_run _ _ _ (adv (zlen (digest_here ck (rest f))) (adv n1 f)) (Some (digest_here ck (rest f)))).
    2:{ rewrite (bind_run _ _ _ _ _ (f_read_gen (cks_size ck) (adv n1 f) ltac:(lia))). rewrite R1. reflexivity. }
    eexists _, (n1 + zlen (digest_here ck (rest f))).
    pose proof (zlen_nonneg (digest_here ck (rest f))).
    rewrite adv_adv. split; [reflexivity|]. split; [lia|]. split; [|reflexivity].
    rewrite rest_adv by lia. unfold after_chunk. fold ct.
    assert (Hd : zlen (digest_here ck (rest f)) = Z.min (cks_size ck) (Z.max 0 (zlen (rest f) - ct))).
    { unfold digest_here. fold ct. rewrite zlen_ztake, zlen_zdrop. lia. }
    destruct (Z.le_gt_cases (ct + cks_size ck) (zlen (rest f))).
    + f_equal. lia.
    + rewrite !zdrop_all by lia. reflexivity.
  - eexists _, n1. split; [reflexivity|]. split; [lia|]. split; [|reflexivity].
    rewrite R1. unfold after_chunk. fold ct. f_equal. pose proof (cks_size_nonneg ck). lia.
Qed.

Lemma read_chunk_short ck f : 0 <= fpos f -> zlen (rest f) < 16 ->
  exists f' e, read_compressed_chunk E ck f = (f', Raise e) /\ (e = IndexError \/ e = StructError).
Proof.
  intros Hp Hr. unfold read_compressed_chunk, BLOSC_HEADER_LENGTH.
  rewrite (bind_run _ _ _ _ _ (f_read_gen 16 f ltac:(lia))).
  rewrite (ztake_all 16) by lia.
  destruct (decode_blosc_header_short (rest f) Hr) as (e & He & Hk).
  exists (adv (zlen (rest f)) f), e. split; auto.
  erewrite bind_run_raise; [reflexivity|]. unfold lift. rewrite He. reflexivity.
Qed.

(* ---------------------------------------------------------------- *)
(** ** Unpacking as a pure function of the bytes ahead *)

Fixpoint uloop (ck : cks) (n : nat) (r : bytes) : bytes * res unit :=
  match n with
  | O => ([], Ok tt)
  | S n' =>
      if zlen r <? 16 then
        ([], match decode_blosc_header r with Raise e => Raise e | Ok _ => Raise StructError end)
      else if (0 <? zlen (digest_here ck r)) && negb (bytes_eqb (digest_here ck r) (digest E ck (chunk_here r)))
      then ([], Raise ChecksumMismatch)
      else match e_decompress E (chunk_here r) with
           | Raise e => ([], Raise e)
           | Ok x => let '(o, v) := uloop ck n' (after_chunk ck r) in (x ++ o, v)
           end
  end.

Lemma write_at_end d x : write_at d (zlen d) x = d ++ x.
Proof.
  unfold write_at. destruct x as [|b x]; [rewrite app_nil_r; reflexivity|].
  rewrite ztake_all by lia. replace (zlen d - zlen d) with 0 by lia. cbn [zrep Z.to_nat repeat app].
  rewrite zdrop_all; [rewrite app_nil_r; reflexivity|]. pose proof (zlen_nonneg (b :: x)). lia.
Qed.

Definition at_end (f : fp) : Prop := fpos f = zlen (fdata f).
(** Appending [x] to the file. *)
Definition grow (f : fp) (x : bytes) : fp :=
  mkfp (fdata f ++ x) (fpos f + zlen x) (flog f ++ log_of (fpos f) x).
Lemma f_write_end x f : at_end f -> f_write x f = (grow f x, Ok tt).
Proof. intros H. unfold f_write, grow. rewrite H, write_at_end. reflexivity. Qed.
Lemma at_end_grow f x : at_end f -> at_end (grow f x).
Proof. unfold at_end, grow; cbn. rewrite zlen_app. lia. Qed.
Lemma log_of_app p x y : log_of p (x ++ y) = log_of p x ++ log_of (p + zlen x) y.
Proof.
  revert p; induction x as [|b x IH]; intros p; cbn [app log_of].
  - rewrite zlen_nil. f_equal. lia.
  - rewrite IH, zlen_cons. do 3 f_equal. lia.
Qed.
Lemma grow_grow f x y : grow (grow f x) y = grow f (x ++ y).
Proof.
  unfold grow; cbn. rewrite zlen_app, log_of_app, !app_assoc. f_equal. lia.
Qed.
Lemma grow_nil f : grow f [] = f.
Proof. destruct f; unfold grow; cbn. rewrite !app_nil_r, Z.add_0_r. reflexivity. Qed.

Lemma fp_next_spec ck f : 0 <= fpos f -> 16 <= zlen (rest f) ->
  exists n, fp_next E ck f = (adv n f, Ok (chunk_here (rest f),
                  if 0 <? cks_size ck then Some (digest_here ck (rest f)) else None)) /\
    0 <= n /\ rest (adv n f) = after_chunk ck (rest f).
Proof.
  intros Hp Hr. destruct (read_chunk_spec ck f Hp Hr) as (bh & n & H & Hn & HR & _).
  exists n. unfold fp_next. rewrite (bind_run _ _ _ _ _ H). auto.
Qed.

Lemma onl_run {S T A} (m : SM S A) s t s' r : m s = (s', r) -> @onl S T A m (s, t) = ((s', t), r).
Proof. unfold onl; cbn. intros ->. reflexivity. Qed.
Lemma onr_run {S T A} (m : SM T A) s t t' r : m t = (t', r) -> @onr S T A m (s, t) = ((s, t'), r).
Proof. unfold onr; cbn. intros ->. reflexivity. Qed.

Lemma digest_here_None r : digest_here CkNone r = [].
Proof. unfold digest_here. apply ztake_0. cbn. lia. Qed.

Lemma unpack_loop_pure ck n : forall f out, 0 <= fpos f -> at_end out ->
  exists f' out', unpack_loop E (fp_next E ck) ck (plain_put E) n (f, out) = ((f', out'), snd (uloop ck n (rest f)))
    /\ fdata out' = fdata out ++ fst (uloop ck n (rest f)) /\ at_end out'.
Proof.
  induction n as [|n IH]; intros f out Hp Ho.
  - exists f, out. cbn. rewrite app_nil_r. auto.
  - cbn [unpack_loop uloop]. destruct (zlen (rest f) <? 16) eqn:Hs.
    + destruct (read_chunk_short ck f Hp ltac:(lia)) as (f' & e & H & _).
      exists f', out. cbn [fst snd]. rewrite app_nil_r.
      assert (D : decode_blosc_header (rest f) = Raise e).
      { unfold read_compressed_chunk, BLOSC_HEADER_LENGTH in H.
        rewrite (bind_run _ _ _ _ _ (f_read_gen 16 f ltac:(lia))) in H.
        rewrite (ztake_all 16) in H by lia.
        destruct (decode_blosc_header_short (rest f) ltac:(lia)) as (e' & He & _).
        unfold lift in H. rewrite He in H. cbn in H. congruence. }
      rewrite D. split; [|auto].
      erewrite bind_run_raise; [reflexivity|]. apply onl_run. unfold fp_next.
      erewrite bind_run_raise; [reflexivity|]. exact H.
    + destruct (fp_next_spec ck f Hp ltac:(lia)) as (k & H & Hk & HR).
      rewrite (bind_run _ _ _ _ _ (onl_run _ _ _ _ _ H)). cbn [fst snd].
      set (r := rest f) in *.
      (* digest test *)
      set (tst := (0 <? zlen (digest_here ck r)) && negb (bytes_eqb (digest_here ck r) (digest E ck (chunk_here r)))).
      assert (T : (if truthy (if 0 <? cks_size ck then Some (digest_here ck r) else None)
                   then if bytes_eqb match (if 0 <? cks_size ck then Some (digest_here ck r) else None) with
                                     | Some d => d | None => [] end (digest E ck (chunk_here r))
                        then ret tt else raise ChecksumMismatch
                   else ret tt) = if tst then @raise (fp * fp) unit ChecksumMismatch else ret tt).
      { unfold tst. destruct (0 <? cks_size ck) eqn:Hc.
        - destruct (digest_here ck r) as [|b d]; [reflexivity|]. cbn [truthy].
          rewrite zlen_cons. pose proof (zlen_nonneg d).
          replace (0 <? 1 + zlen d) with true by lia. cbn [andb].
          destruct (bytes_eqb _ _); reflexivity.
        - cbn [truthy]. pose proof (cks_size_nonneg ck).
          replace (digest_here ck r) with (@nil byte); [reflexivity|].
          unfold digest_here. rewrite ztake_0 by lia. reflexivity. }
      rewrite T. clear T. destruct tst eqn:Ht.
      * exists (adv k f), out. cbn [fst snd]. rewrite app_nil_r. split; auto.
      * rewrite (bind_run _ _ _ (adv k f, out) tt) by reflexivity.
        destruct (e_decompress E (chunk_here r)) as [x|e] eqn:Hd.
        -- assert (P : plain_put E (chunk_here r) out = (grow out x, Ok (zlen x))).
           { unfold plain_put. rewrite (bind_run _ _ _ out x) by (unfold lift; rewrite Hd; reflexivity).
             rewrite (bind_run _ _ _ _ _ (f_write_end x out Ho)). reflexivity. }
           rewrite (bind_run _ _ _ _ _ (onr_run _ _ _ _ _ P)).
           destruct (IH (adv k f) (grow out x)) as (f' & out' & HL & HD & HA).
           { rewrite fpos_adv; lia. } { apply at_end_grow; auto. }
           rewrite HR in *. fold r in HL, HD.
           exists f', out'. rewrite HL, HD. cbn [grow fdata]. rewrite <- app_assoc.
           destruct (uloop ck n (after_chunk ck r)). auto.
        -- exists (adv k f), out. cbn [fst snd]. rewrite app_nil_r. split; auto.
           erewrite bind_run_raise; [reflexivity|]. apply onr_run. unfold plain_put.
           erewrite bind_run_raise; [reflexivity|]. unfold lift. rewrite Hd. reflexivity.
Qed.

(** unpack_core in pure terms *)
Lemma unpack_core_pure b :
  unpack_core E b =
  match read_beginning E (fp_of b) with
  | (_, Raise e) => ([], Raise e)
  | (f, Ok bg) =>
      let '(o, v) := uloop (h_checksum (b_header bg)) (Z.to_nat (h_nchunks (b_header bg))) (rest f) in
      (o, rbind v (fun _ => Ok (b_meta bg)))
  end.
Proof.
  unfold unpack_core. destruct (read_beginning E (fp_of b)) as [f [bg|e]] eqn:H; [|reflexivity].
  destruct (ro_read_beginning (fp_of b) f (Ok bg)) as (_ & _ & Hp); [cbn; lia|exact H|].
  unfold unpack_fp.
  destruct (unpack_loop_pure (h_checksum (b_header bg)) (Z.to_nat (h_nchunks (b_header bg))) f (fp_of []))
    as (f' & out' & -> & HD & _); [auto|reflexivity|].
  rewrite HD. cbn [fdata fp_of app]. destruct (uloop _ _ _); reflexivity.
Qed.

End WithEnv.
