(** append_fp never looks at what it overwrites: once the beginning and the last
    chunk have been read, what it writes does not depend on the file.  Used for
    files that are not archives (damaged last chunk, null metadata). *)
From Verif Require Import Base PyVal Checksums Headers Pretty Args FileIO Append Spec BaseLemmas HeaderProofs IOProofs WfProofs PackProofs SmallProofs BytesProofs MetaProofs AppendProofs CrashProofs.
From Coq Require Import ZifyBool ZifyNat.
Ltac Zify.zify_post_hook ::= Z.div_mod_to_equations.

Definition sim {S A} (R : S -> S -> Prop) (m : SM S A) : Prop :=
  forall s1 s2, R s1 s2 -> R (fst (m s1)) (fst (m s2)) /\ snd (m s1) = snd (m s2).

Lemma sim_bind {S A B} (R : S -> S -> Prop) (m : SM S A) (k : A -> SM S B) :
  sim R m -> (forall a, sim R (k a)) -> sim R (bind m k).
Proof.
  intros Hm Hk s1 s2 H. unfold bind. destruct (Hm s1 s2 H) as [H1 H2].
  destruct (m s1) as [t1 r1], (m s2) as [t2 r2]. cbn [fst snd] in *. subst r2.
  destruct r1 as [a|e]; [apply Hk; auto|]. split; auto.
Qed.
Lemma sim_ret {S A} (R : S -> S -> Prop) (a : A) : sim R (ret a).
Proof. intros s1 s2 H. split; auto. Qed.
Lemma sim_raise {S A} (R : S -> S -> Prop) e : sim R (@raise S A e).
Proof. intros s1 s2 H. split; auto. Qed.
Lemma sim_lift {S A} (R : S -> S -> Prop) (r : res A) : sim R (lift r).
Proof. intros s1 s2 H. split; auto. Qed.

(** Two file objects with the same history of writes, started on d1 and d2. *)
Definition same (d1 d2 : bytes) (f1 f2 : fp) : Prop :=
  fpos f1 = fpos f2 /\ 0 <= fpos f1 /\ flog f1 = flog f2 /\ faithful d1 f1 /\ faithful d2 f2.
Definition same2 (d1 d2 : bytes) (s1 s2 : fp * fp) : Prop := fst s1 = fst s2 /\ same d1 d2 (snd s1) (snd s2).

Section Same.
Variables d1 d2 : bytes.
Lemma same_write x : sim (same d1 d2) (f_write x).
Proof.
  intros f1 f2 (H1 & H2 & H3 & H4 & H5). rewrite !f_write_put. cbn [fst snd]. split; [|reflexivity].
  unfold same. cbn [put_at fpos flog]. rewrite H3, <- H1. split; [reflexivity|].
  split; [pose proof (zlen_nonneg x); unfold zlen in *; lia|]. split; [reflexivity|].
  split; apply faithful_put; auto; lia.
Qed.
Lemma same_seek E p : sim (same d1 d2) (f_seek E p).
Proof.
  intros f1 f2 (H1 & H2 & H3 & H4 & H5). unfold f_seek. destruct (p <? 0) eqn:P; cbn [fst snd]; (split; [|reflexivity]); unfold same, faithful in *; cbn [fpos flog fdata]; auto 6 with zarith.
Qed.
Lemma same_chunk c x : sim (same d1 d2) (write_compressed_chunk c x).
Proof. apply sim_bind; [apply same_write|]. intros _. destruct (0 <? zlen x); [apply same_write|apply sim_ret]. Qed.
Lemma same_onr {A} (m : SM fp A) : sim (same d1 d2) m -> sim (same2 d1 d2) (onr m).
Proof.
  intros Hm [a1 f1] [a2 f2] [H1 H2]. cbn [fst snd] in *. subst a2. unfold onr. cbn [fst snd]. destruct (Hm f1 f2 H2) as [H3 H4].
  destruct (m f1), (m f2). cbn [fst snd] in *. subst. split; [split; auto|auto].
Qed.
Lemma same_onl {A} (m : SM fp A) : sim (same2 d1 d2) (onl m).
Proof.
  intros [a1 f1] [a2 f2] [H1 H2]. cbn [fst snd] in *. subst a2. unfold onl. cbn [fst snd]. destruct (m a1). split; [split; auto|auto].
Qed.

Variable E : Env.
Definition samek (s1 s2 : fp * cfs) : Prop :=
  fst s1 = fst s2 /\ same d1 d2 (s_fp (snd s1)) (s_fp (snd s2)) /\
  s_meta_total (snd s1) = s_meta_total (snd s2) /\ s_header (snd s1) = s_header (snd s2) /\ s_storage (snd s1) = s_storage (snd s2).

Lemma same_put i c : sim (fun a b => samek (fp_of [], a) (fp_of [], b)) (fps_put E i c).
Proof.
  intros k1 k2 (_ & H & H1 & H2 & H3). cbn [fst snd] in *. unfold fps_put, bind, on_fp, f_tell.
  destruct k1 as [f1 t1 h1 st1], k2 as [f2 t2 h2 st2]. cbn [s_fp s_meta_total s_header s_storage] in *. subst t2 h2 st2.
  destruct (same_chunk c (do_checksum E (h_checksum h1) c) f1 f2 H) as [G1 G2].
  destruct (write_compressed_chunk c (do_checksum E (h_checksum h1) c) f1) as [g1 r1], (write_compressed_chunk c (do_checksum E (h_checksum h1) c) f2) as [g2 r2].
  cbn [fst snd] in *. subst r2. destruct r1 as [[]|e]; cbn [s_fp s_header s_storage s_meta_total].
  - destruct H as (P & _). rewrite P.
    destruct (h_offsets h1); [destruct (set_nth (Z.to_nat i) (fpos f2) st1)|]; cbn [fst snd]; unfold samek; cbn; auto 10.
  - cbn [fst snd]; unfold samek; cbn; auto 10.
Qed.
Lemma same_loop (compress : bytes -> res bytes) steps : forall i, sim samek (pack_loop compress (fps_put E) i steps).
Proof.
  induction steps as [|st steps IH]; intros i; cbn [pack_loop]; [apply sim_ret|].
  apply sim_bind.
  { intros [a1 k1] [a2 k2] (H1 & H2). cbn [fst snd] in *. subst a2. unfold onl. cbn [fst snd]. destruct (st a1). split; [split; auto|auto]. }
  intros chunk. apply sim_bind; [apply sim_lift|]. intros c. apply sim_bind; [|intros _; apply IH].
  intros [a1 k1] [a2 k2] (H1 & H2). cbn [fst snd] in *. subst a2. unfold onr. cbn [fst snd].
  destruct (same_put i c k1 k2) as [G1 G2]; [split; auto|].
  destruct (fps_put E i c k1), (fps_put E i c k2). cbn [fst snd] in *. subst. destruct G1 as (_ & G1). split; [split; auto|auto].
Qed.
End Same.

Lemma set_nth_length {A} (l : list A) : forall i v l', set_nth i v l = Some l' -> List.length l' = List.length l.
Proof.
  induction l as [|x l IH]; intros [|i] v l' H; cbn in H; try discriminate.
  - injection H as <-. reflexivity.
  - destruct (set_nth i v l) as [q|] eqn:Q; [|discriminate]. injection H as <-. cbn. f_equal. eauto.
Qed.
Lemma loop_storage E (compress : bytes -> res bytes) steps : forall i (s : fp * cfs),
  zlen (s_storage (snd (fst (pack_loop compress (fps_put E) i steps s)))) = zlen (s_storage (snd s)).
Proof.
  induction steps as [|st steps IH]; intros i [a k]; cbn [pack_loop]; [reflexivity|].
  unfold bind at 1. unfold onl. cbn [fst snd]. destruct (st a) as [a1 [chunk|e]]; [|reflexivity].
  unfold bind at 1. unfold lift. destruct (compress chunk) as [c|e]; [|reflexivity].
  unfold bind at 1. unfold onr. cbn [fst snd].
  assert (P : zlen (s_storage (fst (fps_put E i c k))) = zlen (s_storage k)).
  { unfold fps_put, bind, on_fp, f_tell. destruct k as [f t h st']. cbn [s_fp s_meta_total s_header s_storage].
    destruct (write_compressed_chunk c (do_checksum E (h_checksum h) c) f) as [g [[]|e]]; cbn [s_header s_storage s_fp s_meta_total]; [|reflexivity].
    destruct (h_offsets h); [|reflexivity]. destruct (set_nth (Z.to_nat i) (fpos f) st') as [q|] eqn:Q; [|reflexivity].
    cbn [fst s_storage]. unfold zlen. f_equal. eapply set_nth_length; eauto. }
  destruct (fps_put E i c k) as [k1 [[]|e]]; cbn [fst snd] in *; [|exact P]. rewrite IH. exact P.
Qed.

(** [append_tail] with the position of the offset table made explicit, up to the
    final write of the table. *)
Definition append_head (E : Env) (new_size : Z) (h : header) (offs : list Z) (ba : bargs) (last_off : Z) (decompressed : bytes)
  : SM (fp * fp) (Z * option (list Z)) :=
  let ck := h_checksum h in
    let to_read := h_chunk_size h - zlen decompressed in
    if new_size <=? to_read then
      fill_up <- onl (f_read new_size) ;;
      onr (f_seek E last_off) ;;;
      c <- lift (compress_chunk_str E ba (decompressed ++ fill_up)) ;;
      onr (write_compressed_chunk c (digest E ck c)) ;;;
      raw <- lift (header_encode (set_counts h (h_last_chunk h + new_size) (h_nchunks h) (h_max_app h))) ;;
      onr (f_seek E 0) ;;;
      onr (f_write raw) ;;;
      ret (0, None)
    else
      let new_new_size := new_size - to_read in
      fill_up <- onl (f_read to_read) ;;
      ncl <- lift (calculate_nchunks new_new_size (CSInt (h_chunk_size h))) ;;
      let '(nchunks, chunk_size, last_chunk) := ncl in
      if h_max_app h <? nchunks then raise NotEnoughSpace
      else
        onr (f_seek E last_off) ;;;
        c <- lift (compress_chunk_str E ba (decompressed ++ fill_up)) ;;
        onr (write_compressed_chunk c (digest E ck c)) ;;;
        (fun st =>
           let sink := mkCFS (snd st) 0 h (zrep nchunks (-1)) in
           match pack_loop (compress_chunk_str E ba) (fps_put E) 0
                           (fp_source_steps nchunks chunk_size last_chunk) (fst st, sink) with
           | ((nf, s), Raise e) => ((nf, s_fp s), Raise e)
           | ((nf, s), Ok _) =>
               (raw <- lift (header_encode (set_counts h last_chunk (h_nchunks h + nchunks)
                                                       (h_max_app h - nchunks))) ;;
                onr (f_seek E 0) ;;;
                onr (f_write raw) ;;;
                ret (nchunks, Some (offs ++ s_storage s))) (nf, s_fp s)
           end).
Definition append_end (E : Env) (op : Z) (r : Z * option (list Z)) : SM (fp * fp) Z :=
  match snd r with
  | None => ret (fst r)
  | Some l => onr (f_seek E op) ;;; onr (write_offsets l) ;;; ret (fst r)
  end.


Lemma append_tail_split E ns bg ba lo x s :
  append_tail E ns bg ba lo x s = bind (append_head E ns (b_header bg) (b_offsets bg) ba lo x) (append_end E (offsets_pos bg)) s.
Proof.
  unfold append_tail, append_head, append_end. cbv zeta.
  destruct (ns <=? h_chunk_size (b_header bg) - zlen x).
  - unfold bind. repeat (match goal with |- context [match ?t with (_, _) => _ end] =>
      lazymatch t with context [match _ with _ => _ end] => fail | _ => destruct t as [? [?|?]] end end; try reflexivity).
  - unfold bind. 
    destruct (onl (f_read (h_chunk_size (b_header bg) - zlen x)) s) as [s1 [fu|e]]; [|reflexivity].
    unfold lift. destruct (calculate_nchunks _ _) as [[[k c1] l1]|e]; [|reflexivity].
    destruct (h_max_app (b_header bg) <? k); [reflexivity|].
    destruct (onr (f_seek E lo) s1) as [s2 [[]|e]]; [|reflexivity].
    destruct (compress_chunk_str E ba (x ++ fu)) as [c|e]; [|reflexivity].
    destruct (onr (write_compressed_chunk _ _) s2) as [s3 [[]|e]]; [|reflexivity].
    destruct (pack_loop _ _ _ _ _) as [[nf k1] [[]|e]]; [|reflexivity].
    destruct (header_encode _) as [raw|e]; [|reflexivity].
    destruct (onr (f_seek E 0) (nf, s_fp k1)) as [s4 [[]|e]]; [|reflexivity].
    destruct (onr (f_write raw) s4) as [s5 [[]|e]]; [|reflexivity]. cbn [ret fst snd]. reflexivity.
Qed.

(** What the two runs have in common. *)
Definition headres (d1 d2 : bytes) (offs : list Z) (r1 r2 : (fp * fp) * res (Z * option (list Z))) : Prop :=
  snd r1 = snd r2 /\ fst (fst r1) = fst (fst r2) /\ flog (snd (fst r1)) = flog (snd (fst r2)) /\
  faithful d1 (snd (fst r1)) /\ faithful d2 (snd (fst r2)) /\ 
  (forall k l, snd r1 = Ok (k, Some l) -> 0 < k /\ zlen l = zlen offs + k) /\
  (forall k, snd r1 = Ok (k, None) -> k = 0).
Lemma headres_raise d1 d2 offs nf q1 q2 e : headres d1 d2 offs ((nf, mkfp d1 q1 []), Raise e) ((nf, mkfp d2 q2 []), Raise e).
Proof. unfold headres, faithful. cbn. do 5 (split; [reflexivity|]). split; intros; congruence. Qed.
Lemma headres_sim d1 d2 offs (m : SM (fp * fp) _) s1 s2 : sim (same2 d1 d2) m -> same2 d1 d2 s1 s2 ->
  (forall k l, snd (m s1) = Ok (k, Some l) -> 0 < k /\ zlen l = zlen offs + k) -> (forall k, snd (m s1) = Ok (k, None) -> k = 0) ->
  headres d1 d2 offs (m s1) (m s2).
Proof. intros SM K H1 H2. destruct (SM s1 s2 K) as [(G1 & G2 & G3 & G4 & G5 & G6) G7]. unfold headres. auto 10. Qed.

Lemma head_sim E ns h offs ba lo x d1 d2 nf q1 q2 : 0 <= lo ->
  headres d1 d2 offs (append_head E ns h offs ba lo x (nf, mkfp d1 q1 [])) (append_head E ns h offs ba lo x (nf, mkfp d2 q2 [])).
Proof.
  intros Hlo. unfold append_head. cbv zeta.
  assert (SK : forall (a : fp) d q, onr (f_seek E lo) (a, mkfp d q []) = ((a, mkfp d lo []), Ok tt)).
  { intros a d q. unfold onr, f_seek. replace (lo <? 0) with false by lia. reflexivity. }
  assert (S0 : forall a : fp, same2 d1 d2 (a, mkfp d1 lo []) (a, mkfp d2 lo [])).
  { intros a. split; [reflexivity|]. unfold same, faithful. cbn. auto 6 with zarith. }
  destruct (ns <=? h_chunk_size h - zlen x).
  - destruct (f_read ns nf) as [nf1 [fu|e]] eqn:FR; [|unfold f_read in FR; discriminate FR].
    rewrite (bind_run _ _ _ _ _ (onl_run _ _ _ _ _ FR)). rewrite (bind_run _ _ _ _ _ (onl_run _ _ (mkfp d2 q2 []) _ _ FR)).
    rewrite (bind_run _ _ _ _ _ (SK nf1 d1 q1)). rewrite (bind_run _ _ _ _ _ (SK nf1 d2 q2)).
    apply headres_sim; [|apply S0| |].
    + repeat (apply sim_bind; [first [apply sim_lift | apply same_onr; first [apply same_chunk | apply same_seek | apply same_write]]|intros ?]). apply sim_ret.
    + unfold bind, lift. intros k l.
      destruct (compress_chunk_str _ _ _); [|discriminate]. destruct (onr (write_compressed_chunk _ _) _) as [s2 [[]|e]]; [|discriminate].
      destruct (header_encode _); [|discriminate]. destruct (onr (f_seek E 0) s2) as [s3 [[]|e]]; [|discriminate].
      destruct (onr (f_write _) s3) as [s4 [[]|e]]; discriminate.
    + unfold bind, lift. intros k.
      destruct (compress_chunk_str _ _ _); [|discriminate]. destruct (onr (write_compressed_chunk _ _) _) as [s2 [[]|e]]; [|discriminate].
      destruct (header_encode _); [|discriminate]. destruct (onr (f_seek E 0) s2) as [s3 [[]|e]]; [|discriminate].
      destruct (onr (f_write _) s3) as [s4 [[]|e]]; [|discriminate]. cbn. congruence.
  - destruct (f_read (h_chunk_size h - zlen x) nf) as [nf1 [fu|e]] eqn:FR; [|unfold f_read in FR; discriminate FR].
    rewrite (bind_run _ _ _ _ _ (onl_run _ _ _ _ _ FR)). rewrite (bind_run _ _ _ _ _ (onl_run _ _ (mkfp d2 q2 []) _ _ FR)).
    destruct (calculate_nchunks (ns - (h_chunk_size h - zlen x)) (CSInt (h_chunk_size h))) as [[[k c1] l1]|e] eqn:CN.
    2:{ apply headres_raise. }
    rewrite !(bind_lift _ _ _ _ eq_refl).
    destruct (h_max_app h <? k); [apply headres_raise|].
    rewrite (bind_run _ _ _ _ _ (SK nf1 d1 q1)). rewrite (bind_run _ _ _ _ _ (SK nf1 d2 q2)).
    assert (KK : 0 < k).
    { assert (H0 : 0 <= ns - (h_chunk_size h - zlen x)) by (destruct (Z.lt_ge_cases (ns - (h_chunk_size h - zlen x)) 0); [|lia]; unfold calculate_nchunks in CN; replace (ns - (h_chunk_size h - zlen x) <? 0) with true in CN by lia; discriminate).
      pose proof (calculate_partition _ _ _ _ _ H0 CN). lia. }
    match goal with |- headres _ _ _ (?m _) _ => assert (OUT : forall s z, snd (m s) = Ok z -> exists l, z = (k, Some l) /\ zlen l = zlen offs + k) end.
    { intros s1 z. unfold bind, lift.
      destruct (compress_chunk_str _ _ _); [|discriminate]. destruct (onr (write_compressed_chunk _ _) s1) as [[a1 f1] [[]|e]]; [|discriminate].
      cbn [fst snd].
      pose proof (loop_storage E (compress_chunk_str E ba) (fp_source_steps k c1 l1) 0 (a1, mkCFS f1 0 h (zrep k (-1)))) as LS.
      destruct (pack_loop _ _ _ _ (a1, mkCFS f1 0 h (zrep k (-1)))) as [[b1 k1] [[]|e]]; [|discriminate]. cbn [fst snd s_storage] in LS.
      destruct (header_encode _); [|discriminate]. destruct (onr (f_seek E 0) (b1, s_fp k1)) as [s3 [[]|e]]; [|discriminate].
      destruct (onr (f_write _) s3) as [s4 [[]|e]]; cbn [ret fst snd]; [|discriminate]. intros H. injection H as <-. eexists. split; [reflexivity|].
      rewrite zlen_app, LS, zlen_zrep. lia. }
    apply headres_sim; [|apply S0| |].
    + apply sim_bind; [apply sim_lift|intros c]. apply sim_bind; [apply same_onr, same_chunk|intros _].
      intros [a1 f1] [a2 f2] [H1 H2]. cbn [fst snd] in *. subst a2.
      destruct (same_loop d1 d2 E (compress_chunk_str E ba) (fp_source_steps k c1 l1) 0 (a1, mkCFS f1 0 h (zrep k (-1))) (a1, mkCFS f2 0 h (zrep k (-1)))) as [L1 L2].
      { split; [reflexivity|]. cbn. auto. }
      destruct (pack_loop _ _ _ _ (a1, mkCFS f1 0 h (zrep k (-1)))) as [[b1 k1] r1], (pack_loop _ _ _ _ (a1, mkCFS f2 0 h (zrep k (-1)))) as [[b2 k2] r2].
      cbn [fst snd] in *. subst r2. destruct L1 as (M1 & M2 & M3 & M4 & M5). cbn [fst snd] in *. subst b2. rewrite <- M5.
      destruct r1 as [[]|e]; [|split; [split; auto|auto]].
      match goal with |- context [fst (?m (b1, s_fp k1))] => assert (SM : sim (same2 d1 d2) m) end.
      { repeat (apply sim_bind; [first [apply sim_lift | apply same_onr; first [apply same_seek | apply same_write]]|intros ?]). apply sim_ret. }
      apply SM. split; auto.
    + intros k' l' H. apply OUT in H as (l & H & Hl). injection H as -> ->. auto.
    + intros k' H. apply OUT in H as (l & H & Hl). discriminate.
Qed.
