(** Proofs about the comparison of testutil.py. *)
From Verif Require Import Base PyVal Checksums Headers Pretty Args FileIO Files Spec IOProofs Compare.

Lemma one_mega : reverse_pretty "1M" = Ok (2 ^ 20).
Proof. vm_compute. reflexivity. Qed.

Lemma round_fp c f g : 0 <= c ->
  cmp_round f_read f_read c (f, g) =
  ((adv (zlen (ztake c (rest f))) f, adv (zlen (ztake c (rest g))) g),
   Ok (match ztake c (rest f), ztake c (rest g) with [], [] => Same
       | _, _ => if bytes_eqb (ztake c (rest f)) (ztake c (rest g)) then Running else Differs end)).
Proof.
  intros C. unfold cmp_round, bind, onl, onr, ret. cbn [fst snd].
  rewrite (f_read_gen c f C). cbn [fst snd]. rewrite (f_read_gen c g C). reflexivity.
Qed.

Lemma ztake_nil c (l : bytes) : 0 < c -> ztake c l = [] -> l = [].
Proof.
  intros C T. destruct l as [|x l]; [reflexivity|]. exfalso.
  rewrite ztake_firstn in T. destruct (Z.to_nat c) eqn:K; [lia|]. discriminate T.
Qed.
Lemma ztake_zdrop_eq c (a b : bytes) : ztake c a = ztake c b -> zdrop c a = zdrop c b -> a = b.
Proof. intros H K. rewrite <- (ztake_zdrop c a), <- (ztake_zdrop c b), H, K. reflexivity. Qed.
Lemma rest_step c f : 0 < c -> 0 <= fpos f -> rest (adv (zlen (ztake c (rest f))) f) = zdrop c (rest f).
Proof.
  intros C P. rewrite rest_adv by (pose proof (zlen_nonneg (ztake c (rest f))); lia).
  rewrite zlen_ztake. rewrite Z.max_r by lia. destruct (Z.min_spec c (zlen (rest f))) as [[H ->]|[H ->]]; [reflexivity|].
  rewrite !zdrop_all by lia. reflexivity.
Qed.

Lemma loop_fp c : 0 < c -> forall n f g, 0 <= fpos f -> 0 <= fpos g -> (List.length (rest f) < n)%nat ->
  exists f' g', fdata f' = fdata f /\ fdata g' = fdata g /\ flog f' = flog f /\ flog g' = flog g /\
    (rest f = rest g -> cmp_loop f_read f_read c n (f, g) = ((f', g'), Ok Same) /\ rest f' = [] /\ rest g' = []) /\
    (rest f <> rest g -> cmp_loop f_read f_read c n (f, g) = ((f', g'), Ok Differs)).
Proof.
  intros C. induction n as [|n IH]; intros f g F G L; [lia|].
  pose proof (rest_step c f C F) as SF. pose proof (rest_step c g C G) as SG.
  cbn [cmp_loop]. unfold bind. rewrite round_fp by lia.
  set (f1 := adv (zlen (ztake c (rest f))) f) in *. set (g1 := adv (zlen (ztake c (rest g))) g) in *.
  assert (F1 : 0 <= fpos f1) by (unfold f1; rewrite fpos_adv; pose proof (zlen_nonneg (ztake c (rest f))); lia).
  assert (G1 : 0 <= fpos g1) by (unfold g1; rewrite fpos_adv; pose proof (zlen_nonneg (ztake c (rest g))); lia).
  destruct (bytes_eqb (ztake c (rest f)) (ztake c (rest g))) eqn:Q.
  - apply bytes_eqb_eq in Q. destruct (ztake c (rest f)) as [|x t] eqn:TF.
    + rewrite <- Q. exists f1, g1. repeat (split; [reflexivity|]).
      pose proof (ztake_nil c _ C TF) as RF. pose proof (ztake_nil c _ C (eq_sym Q)) as RG.
      split; [intros _|intros N; exfalso; apply N; congruence].
      split; [reflexivity|]. rewrite SF, SG, RF, RG. rewrite !zdrop_all by (rewrite zlen_nil; lia). split; reflexivity.
    + destruct (IH f1 g1 F1 G1) as (f' & g' & A1 & A2 & A3 & A4 & A5 & A6).
      { rewrite SF. assert (K : rest f = (x :: t) ++ zdrop c (rest f)) by (rewrite <- TF; symmetry; apply ztake_zdrop).
        apply (f_equal (@List.length byte)) in K. rewrite app_length in K. cbn [List.length] in K. lia. }
      exists f', g'. split; [exact A1|]. split; [exact A2|]. split; [exact A3|]. split; [exact A4|].
      rewrite SF, SG in A5, A6. split.
      * intros H. apply A5. rewrite H. reflexivity.
      * intros H. apply A6. intros K. apply H. apply (ztake_zdrop_eq c); [congruence|exact K].
  - apply bytes_eqb_neq in Q. exists f1, g1. repeat (split; [reflexivity|]). split.
    + intros H. exfalso. apply Q. rewrite H. reflexivity.
    + intros _. destruct (ztake c (rest f)); [|reflexivity]. destruct (ztake c (rest g)); [congruence|reflexivity].
Qed.

Lemma skip_rest f : 0 <= fpos f -> skipn (Z.to_nat (fpos f)) (fdata f) = rest f.
Proof. intros P. unfold rest. rewrite zdrop_skipn. reflexivity. Qed.

Lemma fp_compared n f g : 0 <= fpos f -> 0 <= fpos g -> (List.length (fdata f) + 2 <= n)%nat ->
  let left x := skipn (Z.to_nat (fpos x)) (fdata x) in
  exists f' g', fdata f' = fdata f /\ fdata g' = fdata g /\ flog f' = flog f /\ flog g' = flog g /\
    (left f = left g -> cmp_fp_rounds f_read f_read n (f, g) = ((f', g'), Ok Same) /\ left f' = [] /\ left g' = []) /\
    (left f <> left g -> cmp_fp_rounds f_read f_read n (f, g) = ((f', g'), Ok Differs)).
Proof.
  intros F G L left.
  assert (LR : (List.length (rest f) < n)%nat).
  { rewrite <- skip_rest by exact F. rewrite skipn_length. lia. }
  destruct (loop_fp (2 ^ 20) ltac:(lia) n f g F G LR) as (f' & g' & A1 & A2 & A3 & A4 & A5 & A6).
  unfold cmp_fp_rounds. unfold bind at 1 2. unfold lift. rewrite one_mega. cbv zeta beta iota.
  exists f', g'. split; [exact A1|]. split; [exact A2|]. split; [exact A3|]. split; [exact A4|]. subst left; cbv beta.
  rewrite (skip_rest f F), (skip_rest g G). split; [|exact A6].
  intros H. destruct (A5 H) as (B1 & B2 & B3). split; [exact B1|].
  unfold rest in B2, B3. rewrite zdrop_skipn in B2, B3. split; assumption.
Qed.
Lemma fp_compared_all f g : 0 <= fpos f -> 0 <= fpos g ->
  let left x := skipn (Z.to_nat (fpos x)) (fdata x) in
  exists f' g', fdata f' = fdata f /\ fdata g' = fdata g /\ flog f' = flog f /\ flog g' = flog g /\
    (left f = left g -> cmp_fp (f, g) = ((f', g'), Ok Same) /\ left f' = [] /\ left g' = []) /\
    (left f <> left g -> cmp_fp (f, g) = ((f', g'), Ok Differs)) /\
    (forall n, (List.length (fdata f) + 2 <= n)%nat -> cmp_fp_rounds f_read f_read n (f, g) = cmp_fp (f, g)).
Proof.
  intros F G left. destruct (fp_compared (List.length (fdata f) + 2) f g F G (le_n _)) as (f' & g' & A1 & A2 & A3 & A4 & A5 & A6).
  exists f', g'. do 4 (split; [assumption|]). split; [exact A5|]. split; [exact A6|].
  intros n N. unfold cmp_fp; cbn [fst].
  (* the loop with more rounds than it needs *)
  assert (M : forall c a b st st' r, (a <= b)%nat -> r <> Running ->
     cmp_loop f_read f_read c a st = (st', Ok r) -> cmp_loop f_read f_read c b st = (st', Ok r)).
  { intros c a. induction a as [|a IH]; intros b st st' r AB R H; [cbn in H; unfold ret in H; congruence|].
    destruct b as [|b]; [lia|]. cbn [cmp_loop] in *. unfold bind in *.
    destruct (cmp_round f_read f_read c st) as [st1 [[]|]]; try congruence; apply IH; auto; lia. }
  unfold cmp_fp_rounds in *. unfold bind, lift in *. rewrite one_mega in *. cbv zeta beta iota in *.
  destruct (list_eq_dec Byte.byte_eq_dec (skipn (Z.to_nat (fpos f)) (fdata f)) (skipn (Z.to_nat (fpos g)) (fdata g))) as [H|H].
  - destruct (A5 H) as [K _]. rewrite K. exact (M _ _ _ _ _ Same N ltac:(discriminate) K).
  - specialize (A6 H). rewrite A6. exact (M _ _ _ _ _ Differs N ltac:(discriminate) A6).
Qed.

Lemma at_end f g : zlen (fdata f) <= fpos f -> zlen (fdata g) <= fpos g -> exists f' g', cmp_fp (f, g) = ((f', g'), Ok Same).
Proof.
  intros F G. pose proof (zlen_nonneg (fdata f)). pose proof (zlen_nonneg (fdata g)).
  destruct (fp_compared_all f g ltac:(lia) ltac:(lia)) as (f' & g' & _ & _ & _ & _ & A & _).
  destruct A as [A _]; [|exists f', g'; exact A].
  rewrite <- !zdrop_skipn. rewrite !zdrop_all by lia. reflexivity.
Qed.

Lemma files_compared p q s a b : s p = Some a -> s q = Some b ->
  (a = b -> cmp_file p q s = (s, Ok Same)) /\ (a <> b -> cmp_file p q s = (s, Ok Differs)).
Proof.
  intros P Q. unfold cmp_file, open_rb, bind, lift. rewrite P, Q.
  destruct (fp_compared_all (fp_of a) (fp_of b)) as (f' & g' & _ & _ & _ & _ & A & B & _); [cbn; lia..|].
  cbn [fpos fdata fp_of Z.to_nat skipn] in A, B. split; intros H.
  - destruct (A H) as [-> _]. reflexivity.
  - rewrite (B H). reflexivity.
Qed.
Lemma file_missing p q s : s p = None \/ s q = None -> cmp_file p q s = (s, Raise OSError).
Proof.
  unfold cmp_file, open_rb, bind, lift. intros [H|H].
  - rewrite H. reflexivity.
  - destruct (s p); [rewrite H|]; reflexivity.
Qed.

(** Read methods that deliver what they like. *)
Lemma stream_round v w c i j : cmp_round (delivers v) (delivers w) c (i, j) =
  match v i with Raise e => ((S i, j), Raise e)
  | Ok a => match w j with Raise e => ((S i, S j), Raise e)
            | Ok b => ((S i, S j), Ok (match a, b with [], [] => Same | _, _ => if bytes_eqb a b then Running else Differs end)) end end.
Proof.
  unfold cmp_round, bind, onl, onr, delivers, ret. cbn [fst snd]. destruct (v i) as [a|e]; [|reflexivity]. cbn [fst snd].
  destruct (w j) as [b|e]; reflexivity.
Qed.
Lemma stream_loop v w c n : forall i st,
  cmp_loop (delivers v) (delivers w) c n (i, i) = (st, Ok Same) <->
  exists k, (k < n)%nat /\ st = (S (i + k), S (i + k)) /\ v (i + k)%nat = Ok [] /\ w (i + k)%nat = Ok [] /\
    forall j, (j < k)%nat -> exists x, x <> [] /\ v (i + j)%nat = Ok x /\ w (i + j)%nat = Ok x.
Proof.
  induction n as [|n IH]; intros i st.
  - cbn. unfold ret. split; [congruence|]. intros (k & K & _). lia.
  - cbn [cmp_loop]. unfold bind. rewrite stream_round. split.
    + destruct (v i) as [a|e] eqn:V; [|congruence]. destruct (w i) as [b|e] eqn:W; [|congruence].
      assert (D : (a = [] /\ b = []) \/ (a <> [] \/ b <> [])) by (destruct a; destruct b; auto; right; [right|left|left]; discriminate).
      destruct D as [[-> ->]|D].
      * unfold ret. intros H. injection H as <-. exists O. rewrite Nat.add_0_r. split; [lia|]. split; [reflexivity|]. split; [exact V|]. split; [exact W|].
        intros j J. lia.
      * replace (match a with [] => match b with [] => Same | _ :: _ => if bytes_eqb a b then Running else Differs end
                 | _ :: _ => if bytes_eqb a b then Running else Differs end) with (if bytes_eqb a b then Running else Differs)
          by (destruct a; destruct b; auto; destruct D as [D|D]; exfalso; apply D; reflexivity).
        destruct (bytes_eqb a b) eqn:Q; [|unfold ret; congruence]. apply bytes_eqb_eq in Q. subst b.
        intros H. apply IH in H. destruct H as (k & K1 & K2 & K3 & K4 & K5). exists (S k).
        replace (i + S k)%nat with (S i + k)%nat by lia.
        split; [lia|]. split; [exact K2|]. split; [exact K3|]. split; [exact K4|]. intros j J. destruct j as [|j].
        -- exists a. rewrite Nat.add_0_r. destruct D; auto.
        -- destruct (K5 j ltac:(lia)) as (x & X). exists x. replace (i + S j)%nat with (S i + j)%nat by lia. exact X.
    + intros (k & K1 & K2 & K3 & K4 & K5). destruct k as [|k].
      * rewrite Nat.add_0_r in K2, K3, K4. rewrite K3, K4, K2. reflexivity.
      * destruct (K5 O ltac:(lia)) as (x & X0 & X1 & X2). rewrite Nat.add_0_r in X1, X2. rewrite X1, X2, bytes_eqb_refl.
        destruct x as [|x0 x]; [congruence|]. apply IH. exists k. replace (S i + k)%nat with (i + S k)%nat by lia.
        split; [lia|]. split; [exact K2|]. split; [exact K3|]. split; [exact K4|].
        intros j J. destruct (K5 (S j) ltac:(lia)) as (y & Y). exists y. replace (S i + j)%nat with (i + S j)%nat by lia. exact Y.
Qed.
Lemma streams_compared v w : (exists n st, cmp_fp_rounds (delivers v) (delivers w) n (O, O) = (st, Ok Same)) <->
  exists k, v k = Ok [] /\ w k = Ok [] /\ forall j, (j < k)%nat -> exists x, x <> [] /\ v j = Ok x /\ w j = Ok x.
Proof.
  unfold cmp_fp_rounds, bind, lift. rewrite one_mega. split.
  - intros (n & st & H). apply stream_loop in H. destruct H as (k & _ & _ & H). exists k. exact H.
  - intros (k & H). exists (S k), (S k, S k). apply stream_loop. exists k. split; [lia|]. split; [reflexivity|]. exact H.
Qed.
