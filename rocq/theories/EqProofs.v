(** Proofs about Python's equality of metadata values. *)
From Verif Require Import Base PyVal Pretty Json EqSpec RoundProofs FloatProofs.
From Coq Require Import ZifyBool ZifyNat ZifyN.
Ltac Zify.zify_post_hook ::= Z.div_mod_to_equations.

(** ** Numbers *)
Definition numv (v : pyval) : option numval :=
  match v with
  | PBool b => Some (Num (if b then 1 else 0) 0)
  | PInt z => Some (Num z 0)
  | PFloat r => Some (float_value r)
  | _ => None
  end.
Definition fnum (m e : Z) : Z := if 0 <=? e then m * 2 ^ e else m.
Definition fden (e : Z) : Z := if 0 <=? e then 1 else 2 ^ (- e).
Lemma fden_pos e : 0 < fden e.
Proof. unfold fden. destruct (0 <=? e) eqn:X; [lia|]. apply Z.pow_pos_nonneg; lia. Qed.
Lemma fnum_max m e : fnum m e = m * 2 ^ Z.max e 0.
Proof. unfold fnum. destruct (0 <=? e) eqn:X; [f_equal; f_equal; lia|]. replace (Z.max e 0) with 0 by lia. lia. Qed.
Lemma fden_max e : fden e = 2 ^ Z.max (- e) 0.
Proof. unfold fden. destruct (0 <=? e) eqn:X; [replace (Z.max (- e) 0) with 0 by lia; reflexivity|f_equal; lia]. Qed.
Lemma num_eq_frac m e m' e' : num_eq (Num m e) (Num m' e') = true <-> fnum m e * fden e' = fnum m' e' * fden e.
Proof.
  unfold num_eq. cbv zeta. rewrite Z.eqb_eq, !fnum_max, !fden_max, <- !Z.mul_assoc, <- !Z.pow_add_r by lia.
  set (k := Z.min e e'). set (t := Z.max e 0 + Z.max (- e') 0 - (e - k)).
  replace (Z.max e 0 + Z.max (- e') 0) with ((e - k) + t) by (unfold t; lia).
  replace (Z.max e' 0 + Z.max (- e) 0) with ((e' - k) + t) by (unfold t, k; lia).
  rewrite !Z.pow_add_r by (unfold t, k; lia). rewrite !Z.mul_assoc.
  assert (P : 0 < 2 ^ t) by (apply Z.pow_pos_nonneg; unfold t, k; lia). split; intros H; [congruence|]. nia.
Qed.
Lemma worth_num v m d : worth v m d -> exists a e, numv v = Some (Num a e) /\ 0 < d /\ m * fden e = fnum a e * d.
Proof.
  intros H. destruct v as [|b|z|r|s|l|l|l]; try (exfalso; inversion H; fail).
  - exists (if b then 1 else 0), 0. destruct b; inversion H; subst; cbn; repeat split; lia.
  - exists z, 0. inversion H; subst. cbn. repeat split; lia.
  - apply worth_float in H as (a & e & F & E & -> & ->). exists a, e. cbn [numv]. rewrite F. split; [reflexivity|]. split; [apply Z.pow_pos_nonneg; lia|].
    rewrite fnum_max, fden_max, <- !Z.mul_assoc, <- !Z.pow_add_r by lia. do 2 f_equal. lia.
Qed.
Lemma num_worth v a e : numv v = Some (Num a e) -> exists m d, worth v m d /\ 0 < d /\ m * fden e = fnum a e * d.
Proof.
  destruct v as [|b|z|r|s|l|l|l]; cbn [numv]; try discriminate; intros H.
  - injection H as <- <-. exists (if b then 1 else 0), 1. split; [destruct b; constructor|]. destruct b; cbn; split; lia.
  - injection H as <- <-. exists z, 1. split; [constructor|]. cbn. split; lia.
  - injection H as F. assert (E : -1074 <= e).
    { destruct (float_other r) as [X|[[_ X]|[[_ X]|(n & b & x & LI)]]]; try congruence. destruct (float_literal _ _ _ _ LI) as (m & e' & M & R & X). pose proof R as (DB & _).
      rewrite X, (fin_spec m e' n M DB) in F. destruct (_ <=? _); [discriminate|]. injection F as _ <-. apply DB. }
    exists (a * 2 ^ (e + 1074)), (2 ^ 1074). split; [apply worth_float; exists a, e; auto|]. split; [apply Z.pow_pos_nonneg; lia|].
    rewrite fnum_max, fden_max, <- !Z.mul_assoc, <- !Z.pow_add_r by lia. do 2 f_equal. lia.
Qed.
Lemma cross m d p q m' d' p' q' : 0 < d -> 0 < d' -> 0 < q -> 0 < q' -> m * q = p * d -> m' * q' = p' * d' -> (p * q' = p' * q <-> m * d' = m' * d).
Proof.
  intros D D' Q Q' H H'. assert (X : (m * d') * (q * q') = (p * q') * (d * d')) by (transitivity ((m * q) * (d' * q')); [ring|rewrite H; ring]).
  assert (Y : (m' * d) * (q * q') = (p' * q) * (d * d')) by (transitivity ((m' * q') * (d * q)); [ring|rewrite H'; ring]).
  assert (P1 : 0 < q * q') by (apply Z.mul_pos_pos; assumption). assert (P2 : 0 < d * d') by (apply Z.mul_pos_pos; assumption). split; intros E.
  - rewrite E, <- Y in X. apply Z.mul_reg_r in X; [exact X|lia].
  - rewrite E, Y in X. apply Z.mul_reg_r in X; [congruence|lia].
Qed.
Lemma pyeq_numbers a b x y : numv a = Some x -> numv b = Some y -> pyeq a b = num_eq x y.
Proof.
  destruct a; cbn [numv]; try discriminate; destruct b; cbn [numv]; try discriminate; intros H1 H2; injection H1 as <-; injection H2 as <-; cbn [pyeq num_eq]; try reflexivity;
    change (Z.min 0 0) with 0; cbn [Z.sub Z.opp Z.add Z.pow]; rewrite ?Z.mul_1_r; try reflexivity.
  destruct b, b0; reflexivity.
Qed.
Lemma number_alike a b x y : numv a = Some x -> numv b = Some y -> (num_eq x y = true <-> alike a b).
Proof.
  intros Ha Hb. split.
  - destruct x as [m e|n|], y as [m' e'|n'|]; try discriminate.
    + rewrite num_eq_frac. intros H. destruct (num_worth _ _ _ Ha) as (p & q & W1 & Q1 & X1). destruct (num_worth _ _ _ Hb) as (p' & q' & W2 & Q2 & X2).
      apply (al_number a b p q p' q' W1 W2). apply (cross p q (fnum m e) (fden e) p' q' (fnum m' e') (fden e')); auto using fden_pos.
    + cbn [num_eq]. intros H. apply eqb_prop in H. subst n'.
      destruct a; cbn [numv] in Ha; try discriminate. destruct b; cbn [numv] in Hb; try discriminate. injection Ha as Ha. injection Hb as Hb.
      apply (al_infinite _ _ n); apply infinite_iff; auto.
  - intros H. inversion H; subst; cbn [numv] in *; try discriminate.
    + apply worth_num in H0 as (p & q & N1 & Q1 & X1). apply worth_num in H1 as (p' & q' & N2 & Q2 & X2).
      rewrite Ha in N1. rewrite Hb in N2. injection N1 as ->. injection N2 as ->. apply num_eq_frac. eapply cross; [exact Q1|exact Q2|apply fden_pos|apply fden_pos|exact X1|exact X2|exact H2].
    + injection Ha as <-. injection Hb as <-. apply infinite_iff in H0. apply infinite_iff in H1. rewrite H0, H1. cbn. apply eqb_reflx.
Qed.

(** ** Dictionaries *)
Lemma dget_entry k l v : dget k l = Some v <-> entry k v l.
Proof.
  split.
  - induction l as [|[k' v'] l IH]; cbn [dget]; [discriminate|]. destruct (zs_eqb k k') eqn:K.
    + apply zs_eqb_eq in K. subst k'. intros H. injection H as ->. exists [], l. split; [reflexivity|intros []].
    + intros H. destruct (IH H) as (a & b & -> & N). exists ((k', v') :: a), b. split; [reflexivity|]. cbn [map fst]. intros [X|X]; [|contradiction].
      subst k'. assert (zs_eqb k k = true) by (apply zs_eqb_eq; reflexivity). congruence.
  - intros (a & b & -> & N). induction a as [|[k' v'] a IH]; cbn [app dget map fst] in *.
    + replace (zs_eqb k k) with true by (symmetry; apply zs_eqb_eq; reflexivity). reflexivity.
    + destruct (zs_eqb k k') eqn:K; [apply zs_eqb_eq in K; subst k'; exfalso; apply N; left; reflexivity|]. apply IH. intros X. apply N. right. exact X.
Qed.
Lemma entry_In k v l : entry k v l -> In (k, v) l.
Proof. intros (a & b & -> & _). apply in_or_app. right. left. reflexivity. Qed.
Lemma In_entry k v l : NoDup (map fst l) -> In (k, v) l -> entry k v l.
Proof.
  intros N H. apply in_split in H as (a & b & ->). exists a, b. split; [reflexivity|].
  rewrite map_app in N. cbn [map fst] in N. apply NoDup_remove_2 in N. intros X. apply N. apply in_or_app. left. exact X.
Qed.
Lemma entry_fun k v w l : entry k v l -> entry k w l -> v = w.
Proof. intros H1 H2. apply dget_entry in H1. apply dget_entry in H2. congruence. Qed.

Fixpoint list_eq (x y : list pyval) : bool :=
  match x, y with [], [] => true | p :: x', q :: y' => pyeq p q && list_eq x' y' | _, _ => false end.
Fixpoint dict_in (y x : list (pystr * pyval)) : bool :=
  match x with [] => true | (k, p) :: x' => match dget k y with Some q => pyeq p q | None => false end && dict_in y x' end.
Lemma pyeq_list x y : pyeq (PList x) (PList y) = list_eq x y.
Proof. reflexivity. Qed.
Lemma pyeq_tuple x y : pyeq (PTuple x) (PTuple y) = list_eq x y.
Proof. reflexivity. Qed.
Lemma pyeq_dict x y : pyeq (PDict x) (PDict y) = (List.length x =? List.length y)%nat && dict_in y x.
Proof.
  cbn [pyeq]. f_equal. induction x as [|[k p] x IH]; [reflexivity|]. cbn [dict_in]. rewrite <- IH. reflexivity.
Qed.
Lemma list_eq_alike x : Forall (fun a => forall b, pyeq a b = true <-> alike a b) x -> forall y, list_eq x y = true <-> Forall2 alike x y.
Proof.
  induction 1 as [|p x HP HX IH]; intros [|q y]; cbn [list_eq]; split; intros K; try discriminate; try (inversion K; fail); auto.
  - apply andb_true_iff in K as [K1 K2]. constructor; [apply HP; exact K1|apply IH; exact K2].
  - inversion K; subst. apply andb_true_iff. split; [apply HP; assumption|apply IH; assumption].
Qed.
Lemma dict_in_alike y x : Forall (fun kv => forall b, pyeq (snd kv) b = true <-> alike (snd kv) b) x ->
  (dict_in y x = true <-> forall k v, In (k, v) x -> exists v', entry k v' y /\ alike v v').
Proof.
  induction 1 as [|[k p] x HP HX IH]; cbn [dict_in].
  - split; [intros _ k v []|reflexivity].
  - rewrite andb_true_iff, IH. cbn [snd] in HP. split.
    + intros [K1 K2] k' v' [X|X]; [|apply K2; exact X]. injection X as <- <-.
      destruct (dget k y) as [q|] eqn:D; [|discriminate]. exists q. split; [apply dget_entry; exact D|apply HP; exact K1].
    + intros K. split; [|intros k' v' X; apply K; right; exact X].
      destruct (K k p (or_introl eq_refl)) as (q & D & A). apply dget_entry in D. rewrite D. apply HP. exact A.
Qed.

(** ** The comparison *)
Theorem pyeq_alike a : forall b, pyeq a b = true <-> alike a b.
Proof.
  assert (NUM : forall a x, numv a = Some x -> forall b, pyeq a b = true <-> alike a b).
  { clear a. intros a x Ha b. destruct (numv b) as [y|] eqn:Hb; [rewrite (pyeq_numbers a b x y Ha Hb); apply number_alike; auto|].
    split; intros H.
    - exfalso. destruct a; cbn [numv] in Ha; try discriminate; destruct b; cbn [numv] in Hb; try discriminate.
    - exfalso. inversion H; subst; cbn [numv] in *; try discriminate. apply worth_num in H1 as (p & q & N & _). congruence. }
  induction a as [|b0|z|r|s|l IH|l IH|l IH] using pyval_ind'; try (eapply NUM; reflexivity); intros b.
  - split; intros H; [destruct b; try discriminate; constructor|]. inversion H; subst; [reflexivity|]. apply worth_num in H0 as (p & q & N & _). discriminate.
  - split; intros H.
    + destruct b; try discriminate. cbn [pyeq] in H. apply zs_eqb_eq in H. subst. constructor.
    + inversion H; subst; [|apply zs_eqb_eq; reflexivity]. apply worth_num in H0 as (p & q & N & _). discriminate.
  - split; intros H.
    + destruct b; try discriminate. rewrite pyeq_list in H. constructor. apply (list_eq_alike l IH). exact H.
    + inversion H; subst; [apply worth_num in H0 as (p & q & N & _); discriminate|]. rewrite pyeq_list. apply (list_eq_alike l IH). assumption.
  - split; intros H.
    + destruct b; try discriminate. rewrite pyeq_tuple in H. constructor. apply (list_eq_alike l IH). exact H.
    + inversion H; subst; [apply worth_num in H0 as (p & q & N & _); discriminate|]. rewrite pyeq_tuple. apply (list_eq_alike l IH). assumption.
  - split; intros H.
    + destruct b as [| | | | | | |l']; try discriminate. rewrite pyeq_dict in H. apply andb_true_iff in H as [H1 H2]. apply Nat.eqb_eq in H1.
      constructor; [exact H1|]. apply (dict_in_alike l' l IH). exact H2.
    + inversion H; subst; [apply worth_num in H0 as (p & q & N & _); discriminate|]. rewrite pyeq_dict. apply andb_true_iff.
      split; [apply Nat.eqb_eq; assumption|]. apply (dict_in_alike l' l IH). assumption.
Qed.

(** ** It is an equivalence *)
Lemma num_eq_refl x : x <> Nan -> num_eq x x = true.
Proof. destruct x as [m e|n|]; intros H; [apply num_eq_frac; reflexivity|apply eqb_reflx|congruence]. Qed.
Lemma num_eq_sym x y : num_eq x y = num_eq y x.
Proof.
  destruct x as [m e|n|], y as [m' e'|n'|]; try reflexivity.
  - cbn [num_eq]. cbv zeta. rewrite (Z.min_comm e' e), Z.eqb_sym. reflexivity.
  - cbn. destruct n, n'; reflexivity.
Qed.
Lemma num_eq_trans x y z : num_eq x y = true -> num_eq y z = true -> num_eq x z = true.
Proof.
  destruct x as [m e|n|], y as [m' e'|n'|], z as [m'' e''|n''|]; try discriminate.
  - rewrite !num_eq_frac. pose proof (fden_pos e). pose proof (fden_pos e'). pose proof (fden_pos e''). intros A B.
    apply (Z.mul_reg_r _ _ (fden e')); [lia|].
    transitivity (fnum m e * fden e' * fden e''); [ring|]. rewrite A. transitivity (fnum m' e' * fden e'' * fden e); [ring|]. rewrite B. ring.
  - cbn. destruct n, n', n''; auto.
Qed.

Theorem alike_refl v : proper v -> nan_free v -> alike v v.
Proof.
  induction v as [|b|z|r|s|l IH|l IH|l IH] using pyval_ind'; intros P F; try (constructor; fail).
  - eapply number_alike; [reflexivity|reflexivity|apply num_eq_refl]. discriminate.
  - eapply number_alike; [reflexivity|reflexivity|apply num_eq_refl]. discriminate.
  - eapply number_alike; [reflexivity|reflexivity|apply num_eq_refl]. inversion F as [| | | |r' m d W|r' neg W| | |]; subst.
    + apply worth_float in W as (a & e & X & _). congruence.
    + apply infinite_iff in W. congruence.
  - constructor. inversion P; inversion F; subst. clear P F. induction l; constructor; inversion IH; inversion H0; inversion H2; subst; auto.
  - constructor. inversion P; inversion F; subst. clear P F. induction l; constructor; inversion IH; inversion H0; inversion H2; subst; auto.
  - constructor; [reflexivity|]. inversion P; inversion F; subst. intros k v H. exists v. split; [apply In_entry; auto|].
    rewrite Forall_forall in *. apply (IH (k, v) H); [apply (H1 (k, v) H)|apply (H3 (k, v) H)].
Qed.
Lemma alike_keys l l' : NoDup (map fst l) -> NoDup (map fst l') -> List.length l = List.length l' ->
  (forall k v, In (k, v) l -> exists v', entry k v' l' /\ alike v v') -> forall k v', In (k, v') l' -> exists v, entry k v l /\ alike v v'.
Proof.
  intros N N' L H k v' I.
  assert (X : incl (map fst l) (map fst l')).
  { intros q Q. apply in_map_iff in Q as ([q' w] & <- & Q). destruct (H _ _ Q) as (w' & E & _). apply entry_In in E. apply in_map_iff. exists (q', w'). auto. }
  apply NoDup_length_incl in X; [|exact N|rewrite !map_length; lia].
  assert (Q : In k (map fst l)) by (apply X; apply in_map_iff; exists (k, v'); auto).
  apply in_map_iff in Q as ([q w] & E & Q). cbn [fst] in E. subst q. destruct (H _ _ Q) as (w' & E' & A).
  exists w. split; [apply In_entry; auto|]. rewrite (entry_fun k v' w' l'); auto. apply In_entry; auto.
Qed.
Lemma sym_list l l' : Forall (fun v => forall w, proper v -> proper w -> alike v w -> alike w v) l -> Forall proper l -> Forall proper l' ->
  Forall2 alike l l' -> Forall2 alike l' l.
Proof.
  intros A B C H. induction H as [|x y l l' H1 H2 IH]; [constructor|]. inversion A; inversion B; inversion C; subst. constructor; auto.
Qed.
Theorem alike_sym v : forall w, proper v -> proper w -> alike v w -> alike w v.
Proof.
  assert (NUM : forall v w x, numv v = Some x -> alike v w -> alike w v).
  { clear v. intros v w x Hv A. destruct (numv w) as [y|] eqn:Hw.
    - apply (number_alike w v y x Hw Hv). rewrite num_eq_sym. apply (number_alike v w x y Hv Hw). exact A.
    - exfalso. inversion A; subst; cbn [numv] in *; try discriminate. apply worth_num in H0 as (p & q & N & _). congruence. }
  induction v as [|b|z|r|s|l IH|l IH|l IH] using pyval_ind'; intros w P P' A; try (eapply NUM; [reflexivity|exact A]).
  - inversion A; subst; [constructor|]. apply worth_num in H as (p & q & N & _). discriminate.
  - inversion A; subst; [|constructor]. apply worth_num in H as (p & q & N & _). discriminate.
  - inversion A; subst; [apply worth_num in H as (p & q & N & _); discriminate|]. constructor. inversion P; inversion P'; subst. apply sym_list; assumption.
  - inversion A; subst; [apply worth_num in H as (p & q & N & _); discriminate|]. constructor. inversion P; inversion P'; subst. apply sym_list; assumption.
  - inversion A; subst; [apply worth_num in H as (p & q & N & _); discriminate|]. inversion P; inversion P'; subst.
    constructor; [auto|]. intros k v' I. destruct (alike_keys l l' ltac:(assumption) ltac:(assumption) ltac:(assumption) ltac:(assumption) k v' I) as (v & EV & AV). exists v. split; [exact EV|].
    apply entry_In in EV. rewrite Forall_forall in *. apply (IH (k, v) EV); [|apply (H6 (k, v') I)|exact AV]. apply (H3 (k, v) EV).
Qed.

Lemma alike_number v w x : numv v = Some x -> alike v w -> exists y, numv w = Some y /\ num_eq x y = true.
Proof.
  intros Hv A. destruct (numv w) as [y|] eqn:Hw; [exists y; split; [reflexivity|apply (number_alike v w x y Hv Hw); exact A]|].
  exfalso. inversion A; subst; cbn [numv] in *; try discriminate. apply worth_num in H0 as (p & q & N & _). congruence.
Qed.
Lemma trans_list l : Forall (fun v => forall w x, alike v w -> alike w x -> alike v x) l ->
  forall l' l'', Forall2 alike l l' -> Forall2 alike l' l'' -> Forall2 alike l l''.
Proof.
  induction 1 as [|v l HV HL IH]; intros l' l'' A B; inversion A; subst; inversion B; subst; constructor; eauto.
Qed.
Theorem alike_trans v : forall w x, alike v w -> alike w x -> alike v x.
Proof.
  assert (NUM : forall v w x a, numv v = Some a -> alike v w -> alike w x -> alike v x).
  { clear v. intros v w x a Hv A B. destruct (alike_number v w a Hv A) as (b & Hw & E1). destruct (alike_number w x b Hw B) as (c & Hx & E2).
    apply (number_alike v x a c Hv Hx). eapply num_eq_trans; eauto. }
  assert (NO : forall v w m d, numv v = None -> worth v m d -> alike v w) by (intros v' w m d N W; apply worth_num in W as (p & q & N' & _); congruence).
  induction v as [|b|z|r|s|l IH|l IH|l IH] using pyval_ind'; intros w x A B; try (eapply NUM; [reflexivity|exact A|exact B]).
  - inversion A; subst; [exact B|]. eapply (NO PNone x); [reflexivity|eassumption].
  - inversion A; subst; [|exact B]. eapply (NO (PStr s) x); [reflexivity|eassumption].
  - inversion A; subst; [eapply (NO (PList l) x); [reflexivity|eassumption]|].
    inversion B; subst; [apply worth_num in H as (p & q & N' & _); discriminate|]. constructor. eapply trans_list; eauto.
  - inversion A; subst; [eapply (NO (PTuple l) x); [reflexivity|eassumption]|].
    inversion B; subst; [apply worth_num in H as (p & q & N' & _); discriminate|]. constructor. eapply trans_list; eauto.
  - inversion A as [|? ? ? ? ? ? WA| | | | |? l' L1 H1]; subst; [eapply (NO (PDict l) x); [reflexivity|eassumption]|].
    inversion B as [|? ? ? ? ? ? WB| | | | |? l'' L2 H2]; subst; [apply worth_num in WB as (p & q & N' & _); discriminate|]. constructor; [congruence|].
    intros k v I. destruct (H1 k v I) as (v' & E1 & A1). destruct (H2 k v' (entry_In _ _ _ E1)) as (v'' & E2 & A2).
    exists v''. split; [exact E2|]. rewrite Forall_forall in IH. apply (IH (k, v) I v' v''); auto.
Qed.

(** ** Floats that write an integer *)
(** A literal that is a double as it stands. *)
Lemma exact_rounds n d m e : 0 < d -> double m e -> n * 2 ^ 1074 = d * (m * 2 ^ (e + 1074)) -> rounds n d m e.
Proof.
  intros D DB H. split; [exact DB|]. unfold apart. rewrite H, Z.sub_diag. change (Z.abs 0) with 0. split; [intros; apply Z.abs_nonneg|].
  intros m' e' _ X N. exfalso. apply N. assert (Y : d * (m * 2 ^ (e + 1074)) - d * (m' * 2 ^ (e' + 1074)) = 0) by (apply Z.abs_0_iff; exact X).
  symmetry. apply (Z.mul_reg_l _ _ d); [lia|]. apply Z.sub_move_0_r. exact Y.
Qed.
Lemma dec_val_nonneg ds : forallb dec_digit ds = true -> forall a, 0 <= a -> 0 <= fold_left (fun a c => 10 * a + (c - 48)) ds a.
Proof.
  induction ds as [|c ds IH]; intros D a A; cbn [forallb fold_left] in *; [exact A|]. apply andb_true_iff in D as [D1 D2]. unfold dec_digit in D1. apply IH; [exact D2|lia].
Qed.
Lemma integral_worth (neg : bool) (ds : list Z) : ds <> [] -> forallb dec_digit ds = true -> dec_val ds < 2 ^ 53 ->
  worth (PFloat ((if neg then [45] else []) ++ ds ++ [46; 48])) ((if neg then - dec_val ds else dec_val ds) * 2 ^ (0 + 1074)) (2 ^ 1074).
Proof.
  intros NE D B. pose proof (dec_val_nonneg ds D 0 ltac:(lia)) as NN. fold (dec_val ds) in NN. set (r := _ ++ ds ++ _).
  apply (w_float r neg (dec_val ds) 0).
    - exists (dec_val (ds ++ [48])), (-1). split.
      + change (-1) with (0 - zlen [48]). replace r with ((if neg then [45] else []) ++ ds ++ (46 :: [48]) ++ []) by reflexivity.
        constructor; [destruct neg; constructor|constructor|constructor|destruct ds; discriminate|rewrite forallb_app, D; reflexivity].
      + change (Z.max (-1) 0) with 0. change (Z.max (- -1) 0) with 1. change (10 ^ 0) with 1. change (10 ^ 1) with 10. rewrite Z.mul_1_r. unfold dec_val at 1. rewrite fold_left_app. fold (dec_val ds). cbn [fold_left].
        apply exact_rounds; [lia|split; lia|]. change (0 + 1074) with 1074. ring.
    - change (0 + 1074) with 1074. rewrite Z.pow_add_r by lia. apply Z.mul_lt_mono_pos_r; [apply Z.pow_pos_nonneg; lia|]. eapply Z.lt_trans; [exact B|]. apply Z.pow_lt_mono_r; lia.
Qed.
Theorem integral_equal n (neg : bool) (ds : list Z) : ds <> [] -> forallb dec_digit ds = true -> dec_val ds < 2 ^ 53 ->
  (alike (PInt n) (PFloat ((if neg then [45] else []) ++ ds ++ [46; 48])) <-> n = if neg then - dec_val ds else dec_val ds).
Proof.
  intros NE D B. pose proof (integral_worth neg ds NE D B) as W. set (r := _ ++ ds ++ _) in *.
  change (0 + 1074) with 1074 in W. assert (P : 2 ^ 1074 <> 0) by (apply Z.pow_nonzero; lia). set (g := if neg then - dec_val ds else dec_val ds) in *. clearbody g. split.
  - intros A. destruct (alike_number (PInt n) (PFloat r) _ eq_refl A) as (y & Y & E). cbn [numv] in Y. injection Y as <-.
    apply worth_num in W as (a & e & V & _ & X). cbn [numv] in V. injection V as V. rewrite V in E. apply num_eq_frac in E. change (fden 0) with 1 in E. replace (fnum n 0) with n in E by (cbn; lia).
    pose proof (fden_pos e). apply (Z.mul_reg_r _ _ (fden e * 2 ^ 1074)); [apply Z.neq_mul_0; split; [lia|exact P]|]. rewrite Z.mul_assoc, E, Z.mul_1_r, <- X. ring.
  - intros ->. apply (al_number _ _ g 1 (g * 2 ^ 1074) (2 ^ 1074)); [constructor|exact W|ring].
Qed.
Lemma nan_unlike v : ~ alike (PFloat (u "nan")) v /\ ~ alike v (PFloat (u "nan")).
Proof.
  assert (H : float_value (u "nan") = Nan) by (vm_compute; reflexivity). split; intros A.
  - destruct (alike_number (PFloat (u "nan")) v _ eq_refl A) as (y & _ & E). rewrite H in E. destruct y; discriminate.
  - inversion A; subst; [|match goal with X : infinite (u "nan") _ |- _ => apply infinite_iff in X; congruence | X : infinite _ _ |- _ => apply infinite_iff in X end].
    + apply worth_num in H1 as (p & q & N & _). cbn [numv] in N. congruence.
Qed.
