(** What is on disk after a prefix of the writes. *)
From Verif Require Import Base PyVal Checksums Headers Args FileIO Spec BaseLemmas IOProofs PackProofs MetaProofs.
From Coq Require Import ZifyBool ZifyNat.
Ltac Zify.zify_post_hook ::= Z.div_mod_to_equations.

Lemma nth_error_ext {A} (l : list A) : forall l', (forall i, nth_error l i = nth_error l' i) -> l = l'.
Proof.
  induction l as [|x l IH]; intros [|y l'] H; auto; try (specialize (H O); discriminate).
  pose proof (H O) as H0. injection H0 as <-. f_equal. apply IH. intros i. exact (H (S i)).
Qed.
Lemma nth_firstn_lt {A} (l : list A) : forall k j, (j < k)%nat -> nth_error (firstn k l) j = nth_error l j.
Proof. induction l as [|x l IH]; intros [|k] [|j] H; cbn; auto; try lia. apply IH. lia. Qed.
Lemma nth_skipn {A} (l : list A) : forall k j, nth_error (skipn k l) j = nth_error l (k + j)%nat.
Proof. induction l as [|x l IH]; intros [|k] j; cbn; auto. destruct j; reflexivity. Qed.
Lemma nth_sub a n (l : bytes) i : 0 <= a -> a <= i < a + n -> nth_error (sub a n l) (Z.to_nat (i - a)) = nth_error l (Z.to_nat i).
Proof. intros. unfold sub. rewrite nth_firstn_lt, nth_skipn by lia. f_equal. lia. Qed.

Lemma sub_ext a n f g : 0 <= a -> agree a n f g -> sub a n f = sub a n g.
Proof.
  intros Ha H. apply nth_error_ext. intros i. destruct (Z.lt_ge_cases (Z.of_nat i) n) as [L|L].
  - pose proof (nth_sub a n f (a + Z.of_nat i) Ha ltac:(lia)) as N1. pose proof (nth_sub a n g (a + Z.of_nat i) Ha ltac:(lia)) as N2.
    replace (Z.to_nat (a + Z.of_nat i - a)) with i in * by lia. rewrite N1, N2. apply H. lia.
  - unfold sub. pose proof (firstn_le_length (Z.to_nat n) (skipn (Z.to_nat a) f)). pose proof (firstn_le_length (Z.to_nat n) (skipn (Z.to_nat a) g)).
    rewrite !(proj2 (nth_error_None _ _)); auto; rewrite firstn_length; lia.
Qed.

(** Agreement is preserved by every field that lies in the region. *)
Lemma agree_sub a n f g p k : agree a n f g -> 0 <= a -> a <= p -> p + k <= a + n -> sub p k f = sub p k g.
Proof. intros H Ha Hp Hk. apply sub_ext; [lia|]. intros i Hi. apply H. lia. Qed.
Lemma sub_agree a n f g : 0 <= a -> sub a n f = sub a n g -> agree a n f g.
Proof.
  intros Ha H i Hi.
  rewrite <- (nth_sub a n f), <- (nth_sub a n g), H by lia. reflexivity.
Qed.
Lemma agree_refl a n f : agree a n f f.
Proof. intros i _. reflexivity. Qed.
Lemma agree_trans a n f g h : agree a n f g -> agree a n g h -> agree a n f h.
Proof. intros H1 H2 i Hi. rewrite H1, H2; auto. Qed.
Lemma agree_app a x y x' y' : zlen x = zlen x' -> agree a (zlen x - a) x x' -> 0 <= a -> agree a (zlen x - a) (x ++ y) (x' ++ y').
Proof.
  intros L H Ha i Hi. unfold zlen in *. rewrite !nth_error_app1 by lia. apply H. lia.
Qed.

Lemma poke_write d p b : 0 <= p -> poke d (p, b) = write_at d p [b].
Proof.
  intros Hp. unfold poke. rewrite write_at_unfold by discriminate. change (zlen [b]) with 1.
  rewrite ztake_firstn, zdrop_skipn. unfold zlen, zrep. destruct (Z.to_nat p <? List.length d)%nat eqn:L.
  - replace (Z.to_nat (p - Z.of_nat (List.length d))) with O by lia. cbn [repeat app]. do 3 f_equal. lia.
  - rewrite firstn_all2 by lia. rewrite (skipn_all2 (n := Z.to_nat (p + 1))) by lia. do 3 f_equal. lia.
Qed.
Lemma write_at_cons d p b x : 0 <= p -> write_at d p (b :: x) = write_at (write_at d p [b]) (p + 1) x.
Proof. intros Hp. change (b :: x) with ([b] ++ x). rewrite <- write_at_app by lia. reflexivity. Qed.
Lemma poke_log x : forall d p, 0 <= p -> fold_left poke (log_of p x) d = write_at d p x.
Proof.
  induction x as [|b x IH]; intros d p Hp; [reflexivity|]. cbn [log_of fold_left].
  rewrite poke_write, IH, (write_at_cons d p b x) by lia. reflexivity.
Qed.

(** The log is faithful: replaying all of it gives the final contents. *)
Definition faithful (d : bytes) (f : fp) : Prop := fold_left poke (flog f) d = fdata f.
Lemma faithful_put d f x : 0 <= fpos f -> faithful d f -> faithful d (put_at x f).
Proof. intros Hp H. unfold faithful in *. cbn [put_at flog fdata]. rewrite fold_left_app, H. apply poke_log. auto. Qed.

(** Bytes that every write leaves as they are survive every crash. *)
Definition harmless (d : bytes) (i : nat) (w : Z * byte) : Prop :=
  0 <= fst w /\ (Z.to_nat (fst w) = i -> nth_error d i = Some (snd w)).
Lemma poke_harmless d d' i w : (i < List.length d)%nat -> nth_error d i = nth_error d' i -> harmless d' i w ->
  nth_error (poke d w) i = nth_error d' i /\ (i < List.length (poke d w))%nat.
Proof.
  intros Hi HD [H0 HW]. destruct w as [p b]. cbn [fst snd] in *. rewrite poke_write by auto. split.
  - destruct (Nat.eq_dec (Z.to_nat p) i) as [E|E].
    + assert (S : sub p 1 (write_at d p [b]) = [b]) by (apply (sub_write_at d p [b]); auto).
      rewrite (HW E), <- E, <- (nth_sub p 1) by lia. rewrite S, Z.sub_diag. reflexivity.
    + rewrite <- HD. destruct (Z.lt_ge_cases (Z.of_nat i) p).
      * apply nth_write_before; auto. unfold zlen. lia.
      * apply nth_write_after; auto. change (zlen [b]) with 1. lia.
  - pose proof (zlen_write_at d p [b] H0 ltac:(discriminate)). unfold zlen in *. lia.
Qed.
Lemma pokes_harmless i d l : (i < List.length d)%nat -> Forall (harmless d i) l -> nth_error (fold_left poke l d) i = nth_error d i.
Proof.
  intros Hi HF.
  assert (G : forall l d', Forall (harmless d i) l -> (i < List.length d')%nat -> nth_error d' i = nth_error d i -> nth_error (fold_left poke l d') i = nth_error d i).
  { clear l HF. induction l as [|w l IH]; intros d' F L N; [exact N|]. inversion F; subst. cbn [fold_left].
    destruct (poke_harmless d' d i w L N H1). apply IH; auto. }
  apply G; auto.
Qed.
Lemma firstn_incl {A} (l : list A) k : incl (firstn k l) l.
Proof. intros x Hx. rewrite <- (firstn_skipn k l). apply in_or_app. auto. Qed.
Lemma poke_grows d w : 0 <= fst w -> (List.length d <= List.length (poke d w))%nat.
Proof.
  intros H. destruct w as [p b]. cbn [fst] in H. rewrite poke_write by auto.
  pose proof (zlen_write_at d p [b] H ltac:(discriminate)). unfold zlen in *. lia.
Qed.
Lemma pokes_grow l : forall d, Forall (fun w => 0 <= fst w) l -> size d <= size (fold_left poke l d).
Proof.
  induction l as [|w l IH]; intros d HF; cbn [fold_left]; [lia|]. inversion HF; subst.
  specialize (IH (poke d w) H2). pose proof (poke_grows d w H1). unfold size in *. lia.
Qed.

Lemma log_of_In x : forall p w, In w (log_of p x) -> exists j, nth_error x j = Some (snd w) /\ fst w = p + Z.of_nat j.
Proof.
  induction x as [|b x IH]; intros p w H; [destruct H|]. destruct H as [<-|H].
  - exists O. split; [reflexivity|cbn; lia].
  - destruct (IH _ _ H) as (j & H1 & H2). exists (S j). split; [exact H1|lia].
Qed.
Lemma log_nonneg p x : 0 <= p -> Forall (fun w => 0 <= fst w) (log_of p x).
Proof. intros Hp. apply Forall_forall. intros w Hw. apply log_of_In in Hw as (j & _ & ->). lia. Qed.

(** A write that does not reach i, or that repeats what was there. *)
Lemma harmless_away d i p x : 0 <= p -> (Z.of_nat i < p \/ p + zlen x <= Z.of_nat i) -> Forall (harmless d i) (log_of p x).
Proof.
  intros Hp H. apply Forall_forall. intros w Hw. apply log_of_In in Hw as (j & N & F).
  assert (j < List.length x)%nat by (apply nth_error_Some; congruence). unfold zlen in H. split; [lia|]. intros. exfalso. lia.
Qed.
Lemma harmless_same d i p x : 0 <= p -> p <= Z.of_nat i -> nth_error x (i - Z.to_nat p) = nth_error d i -> Forall (harmless d i) (log_of p x).
Proof.
  intros Hp H HN. apply Forall_forall. intros w Hw. apply log_of_In in Hw as (j & N & F). split; [lia|].
  intros EQ. rewrite <- HN, <- N. f_equal. lia.
Qed.
