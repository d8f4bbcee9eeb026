(** Which metadata an array can be allocated for, and what is raised otherwise. *)
From Verif Require Import Base PyVal Args FileIO NumpyIO NumpySpec Spec Archive BaseLemmas NumpyProofs NumpyUnpack NumpyMeta ArchiveProofs HistoryProofs Json PyLit.
From Coq Require Import ZifyBool ZifyNat.

Lemma shape_list_iff l q : shape_list l = Ok q <-> l = map PInt q /\ Forall (fun z => 0 <= z) q.
Proof.
  revert q. induction l as [|v l IH]; intros q; cbn [shape_list].
  - split; [intros H; injection H as <-; split; [reflexivity|constructor]|]. intros [H _]. destruct q; [reflexivity|discriminate].
  - destruct v; try (split; [discriminate|intros [H _]; destruct q; discriminate]).
    destruct (z <? 0) eqn:Hz.
    + split; [discriminate|]. intros [H F]. destruct q as [|y q]; [discriminate|]. injection H as -> ->. inversion F. lia.
    + destruct (shape_list l) as [r|] eqn:HS; cbn [rbind].
      * split.
        -- intros H. injection H as <-. destruct (proj1 (IH r) eq_refl) as [-> F]. split; [reflexivity|]. constructor; [lia|exact F].
        -- intros [H F]. destruct q as [|y q]; [discriminate|]. injection H as -> ->. inversion F; subst.
           assert (X : Ok r = Ok q) by (apply IH; auto). injection X as ->. reflexivity.
      * split; [discriminate|]. intros [H F]. destruct q as [|y q]; [discriminate|]. injection H as -> ->. inversion F; subst.
        assert (X : Raise e = Ok q) by (apply IH; auto). discriminate X.
Qed.
Lemma shape_list_raise l e : shape_list l = Raise e -> e = ValueError.
Proof.
  induction l as [|v l IH]; cbn [shape_list]; [discriminate|]. destruct v; try (intros H; injection H; auto; fail).
  destruct (z <? 0); [intros H; injection H; auto|]. destruct (shape_list l); cbn [rbind]; [discriminate|]. intros H. injection H as ->. auto.
Qed.
Lemma shape_arg_iff v q : shape_arg v = Ok q <-> sizes v q.
Proof.
  unfold sizes. destruct v; cbn [shape_arg].
  all: try (split; [discriminate|intros [[(z' & H & _)|[H|H]] _]; discriminate]).
  - destruct (z <? 0) eqn:Hz.
    + split; [discriminate|]. intros [[(z' & H & ->)|[H|H]] F]; try discriminate. injection H as ->. inversion F. lia.
    + split.
      * intros H. injection H as <-. split; [left; eauto|]. constructor; [lia|constructor].
      * intros [[(z' & H & ->)|[H|H]] F]; try discriminate. injection H as ->. reflexivity.
  - rewrite shape_list_iff. split.
    + intros [-> F]. auto.
    + intros [[(z' & H & _)|[H|H]] F]; try discriminate. injection H as ->. auto.
  - rewrite shape_list_iff. split.
    + intros [-> F]. auto.
    + intros [[(z' & H & _)|[H|H]] F]; try discriminate. injection H as ->. auto.
Qed.
Lemma shape_arg_raise v e : shape_arg v = Raise e -> e = ValueError.
Proof.
  destruct v; cbn [shape_arg]; try (intros H; injection H; auto; fail); try apply shape_list_raise.
  destruct (z <? 0); [intros H; injection H; auto|discriminate].
Qed.
Lemma zs_eqb_iff a b : zs_eqb a b = true <-> a = b.
Proof. apply zs_eqb_eq. Qed.
Lemma existsb_str s l : existsb (zs_eqb s) l = true <-> In (PStr s) (map PStr l).
Proof.
  rewrite existsb_exists, in_map_iff. split.
  - intros (x & Hx & He). apply zs_eqb_iff in He. subst. eauto.
  - intros (x & Hx & He). injection Hx as ->. exists s. split; [exact He|]. apply zs_eqb_iff. reflexivity.
Qed.
Lemma order_arg_iff v fo : order_arg v = Ok fo <-> order_is v fo.
Proof.
  unfold order_is. destruct v; cbn [order_arg].
  - destruct fo; cbn [In]; split; intros H; try discriminate; auto. destruct H as [H|[H|[]]]; discriminate.
  - split; [discriminate|]. destruct fo; cbn [In]; intros H; repeat (destruct H as [H|H]; [discriminate H|]); destruct H.
  - split; [discriminate|]. destruct fo; cbn [In]; intros H; repeat (destruct H as [H|H]; [discriminate H|]); destruct H.
  - split; [discriminate|]. destruct fo; cbn [In]; intros H; repeat (destruct H as [H|H]; [discriminate H|]); destruct H.
  - destruct (existsb (zs_eqb s) [u "C"; u "c"; u "A"; u "a"; u "K"; u "k"]) eqn:H1.
    + pose proof (proj1 (existsb_str s _) H1) as I1. cbn [map] in I1. split.
      * intros H. injection H as <-. right. exact I1.
      * destruct fo; [|reflexivity]. intros H. exfalso. cbn [In] in I1, H.
        destruct H as [H|[H|[]]]; injection H as <-; vm_compute in H1; discriminate.
    + destruct (existsb (zs_eqb s) [u "F"; u "f"]) eqn:H2.
      * pose proof (proj1 (existsb_str s _) H2) as I2. cbn [map] in I2. destruct fo; [tauto|]. split; [discriminate|]. intros [H|H]; [discriminate|].
        assert (X : existsb (zs_eqb s) [u "C"; u "c"; u "A"; u "a"; u "K"; u "k"] = true) by (apply existsb_str; exact H). congruence.
      * split; [discriminate|]. destruct fo.
        -- intros H. assert (X : existsb (zs_eqb s) [u "F"; u "f"] = true) by (apply existsb_str; exact H). congruence.
        -- intros [H|H]; [discriminate|].
           assert (X : existsb (zs_eqb s) [u "C"; u "c"; u "A"; u "a"; u "K"; u "k"] = true) by (apply existsb_str; exact H). congruence.
  - split; [discriminate|]. destruct fo; cbn [In]; intros H; repeat (destruct H as [H|H]; [discriminate H|]); destruct H.
  - split; [discriminate|]. destruct fo; cbn [In]; intros H; repeat (destruct H as [H|H]; [discriminate H|]); destruct H.
  - split; [discriminate|]. destruct fo; cbn [In]; intros H; repeat (destruct H as [H|H]; [discriminate H|]); destruct H.
Qed.
Lemma order_arg_raise v e : order_arg v = Raise e -> e = ValueError.
Proof.
  destruct v; cbn [order_arg]; try (intros H; injection H; auto; fail); try discriminate.
  destruct (existsb _ _); [discriminate|]. destruct (existsb _ _); [discriminate|]. intros H; injection H; auto.
Qed.

(** _conv fails exactly on empty lists. *)
Fixpoint conv_list (l : list pyval) : res (list pyval) :=
  match l with [] => Ok [] | y :: q => y' <~ conv y ;; q' <~ conv_list q ;; Ok (y' :: q') end.
Lemma conv_unfold x l : conv (PList (x :: l)) = (r <~ conv_list (x :: l) ;; Ok (if is_list x then PList r else PTuple r)).
Proof.
  change (conv (PList (x :: l))) with
    (r <~ (fix go (l : list pyval) : res (list pyval) := match l with [] => Ok [] | y :: q => y' <~ conv y ;; q' <~ go q ;; Ok (y' :: q') end) (x :: l) ;;
     Ok (if is_list x then PList r else PTuple r)).
  assert (G : forall k, (fix go (l : list pyval) : res (list pyval) := match l with [] => Ok [] | y :: q => y' <~ conv y ;; q' <~ go q ;; Ok (y' :: q') end) k = conv_list k).
  { induction k as [|y k IH]; [reflexivity|]. cbn [conv_list]. rewrite <- IH. reflexivity. }
  rewrite G. reflexivity.
Qed.
Lemma conv_empty : forall v, (has_empty_list v = true -> conv v = Raise IndexError) /\ (has_empty_list v = false -> exists w, conv v = Ok w).
Proof.
  fix IH 1. intros v. destruct v as [| | | | |l|l|l]; try (split; [discriminate|eexists; reflexivity]).
  destruct l as [|x l]; [split; [reflexivity|discriminate]|]. rewrite conv_unfold. change (has_empty_list (PList (x :: l))) with (existsb has_empty_list (x :: l)).
  assert (G : (existsb has_empty_list (x :: l) = true -> conv_list (x :: l) = Raise IndexError) /\
              (existsb has_empty_list (x :: l) = false -> exists w, conv_list (x :: l) = Ok w)).
  { generalize (x :: l). intros k. induction k as [|y k IHk]; [split; [discriminate|eexists; reflexivity]|].
    cbn [existsb conv_list]. destruct (IH y) as [Y1 Y2], IHk as [K1 K2]. destruct (has_empty_list y).
    - split; [|discriminate]. intros _. rewrite Y1 by reflexivity. reflexivity.
    - destruct Y2 as [w ->]; [reflexivity|]. cbn [orb rbind]. split; intros H.
      + rewrite K1 by exact H. reflexivity.
      + destruct K2 as [q ->]; [exact H|]. eexists. reflexivity. }
  destruct G as [G1 G2]. split; intros H.
  - rewrite G1 by exact H. reflexivity.
  - destruct G2 as [w ->]; [exact H|]. eexists. reflexivity.
Qed.

Section WithNp.
Variable N : NpEnv.

Theorem sink_ok m s : nps_new N m = Ok s <->
  exists d dv sv ov x t l fo, m = PDict d /\ dget (u "container") d = Some (PStr (u "numpy")) /\
    dget (u "dtype") d = Some dv /\ dget (u "shape") d = Some sv /\ dget (u "order") d = Some ov /\
    (n_literal N dv = Ok (Some x) \/ (n_literal N dv = Ok None /\ conv dv = Ok x)) /\ n_dtype N x = Ok t /\ sizes sv l /\ order_is ov fo /\
    s = mkNPS t l fo (mem_read (n_junk N) (n_base N) (zprod l * dt_itemsize t)) 0.
Proof.
  split.
  - intros H. unfold nps_new in H. destruct (is_none m); [discriminate|].
    destruct m as [| | | | | | |d]; cbn [getitem] in H; try discriminate.
    destruct (dget (u "container") d) as [ct|] eqn:G1; cbn [rbind] in H; [|discriminate].
    destruct ct as [| | | |s0| | |]; try discriminate. cbn [negb] in H. destruct (zs_eqb s0 (u "numpy")) eqn:EQ; [|discriminate].
    apply zs_eqb_iff in EQ. subst s0. cbn [negb] in H.
    destruct (dget (u "dtype") d) as [dv|] eqn:G2; cbn [rbind] in H; [|discriminate].
    destruct (n_literal N dv) as [lit|] eqn:G3; cbn [rbind] in H; [|discriminate].
    destruct (match lit with Some x => Ok x | None => conv dv end) as [x|] eqn:G4; cbn [rbind] in H; [|discriminate].
    destruct (dget (u "shape") d) as [sv|] eqn:G5; cbn [rbind] in H; [|discriminate].
    destruct (n_dtype N x) as [t|] eqn:G6; cbn [rbind] in H; [|discriminate].
    destruct (dget (u "order") d) as [ov|] eqn:G7; cbn [rbind] in H; [|discriminate].
    destruct (shape_arg sv) as [l|] eqn:G8; cbn [rbind] in H; [|discriminate].
    destruct (order_arg ov) as [fo|] eqn:G9; cbn [rbind] in H; [|discriminate]. injection H as <-.
    exists d, dv, sv, ov, x, t, l, fo. repeat (split; [auto; fail|]). split.
    { destruct lit; [left; congruence|right; auto]. }
    split; [exact G6|]. split; [apply shape_arg_iff; exact G8|]. split; [apply order_arg_iff; exact G9|reflexivity].
  - intros (d & dv & sv & ov & x & t & l & fo & -> & G1 & G2 & G3 & G4 & GL & G5 & G6 & G7 & ->).
    unfold nps_new. cbn [is_none getitem]. rewrite G1. cbn [rbind]. replace (zs_eqb (u "numpy") (u "numpy")) with true by reflexivity. cbn [negb].
    rewrite G2. cbn [rbind]. apply shape_arg_iff in G6. apply order_arg_iff in G7.
    destruct GL as [->|[-> GL]]; cbn [rbind]; try rewrite GL; cbn [rbind]; rewrite G3; cbn [rbind]; rewrite G5; cbn [rbind]; rewrite G4; cbn [rbind];
      rewrite G6; cbn [rbind]; rewrite G7; reflexivity.
Qed.

Theorem sink_raise m e : array_metadata m = true -> nps_new N m = Raise e ->
  exists d, m = PDict d /\
  ((e = KeyError /\ (dget (u "dtype") d = None \/ dget (u "shape") d = None \/ dget (u "order") d = None)) \/
   (exists dv, dget (u "dtype") d = Some dv /\
     (n_literal N dv = Raise e \/ (n_literal N dv = Ok None /\ has_empty_list dv = true /\ e = IndexError) \/ (exists x, n_dtype N x = Raise e))) \/
   (e = ValueError /\ exists sv ov, dget (u "shape") d = Some sv /\ dget (u "order") d = Some ov /\ ((forall l, ~ sizes sv l) \/ (forall fo, ~ order_is ov fo)))).
Proof.
  intros A H. destruct m as [| | | | | | |d]; try discriminate A. exists d. split; [reflexivity|].
  unfold nps_new in H. cbn [is_none getitem] in H. cbn [array_metadata] in A.
  destruct (dget (u "container") d) as [ct|] eqn:G1; [|discriminate]. destruct ct as [| | | |s0| | |]; try discriminate A. cbn [rbind] in H. rewrite A in H. cbn [negb] in H.
  destruct (dget (u "dtype") d) as [dv|] eqn:G2; cbn [rbind] in H; [|injection H as <-; auto].
  destruct (n_literal N dv) as [lit|] eqn:G3; cbn [rbind] in H; [|injection H as <-; right; left; eauto].
  destruct (match lit with Some x => Ok x | None => conv dv end) as [x|] eqn:G4; cbn [rbind] in H.
  2:{ injection H as <-. destruct lit; [discriminate|]. destruct (conv_empty dv) as [C1 C2]. right. left. exists dv. split; [auto|]. right. left.
      destruct (has_empty_list dv); [rewrite C1 in G4 by reflexivity; injection G4 as <-; auto|]. destruct C2 as [w W]; [reflexivity|]. congruence. }
  destruct (dget (u "shape") d) as [sv|] eqn:G5; cbn [rbind] in H; [|injection H as <-; auto].
  destruct (n_dtype N x) as [t|] eqn:G6; cbn [rbind] in H; [|injection H as <-; right; left; eauto 7].
  destruct (dget (u "order") d) as [ov|] eqn:G7; cbn [rbind] in H; [|injection H as <-; auto].
  destruct (shape_arg sv) as [l|] eqn:G8; cbn [rbind] in H.
  2:{ injection H as <-. right. right. split; [eapply shape_arg_raise; eauto|]. exists sv, ov. repeat (split; [reflexivity|]). left. intros q L. apply shape_arg_iff in L. congruence. }
  destruct (order_arg ov) as [fo|] eqn:G9; cbn [rbind] in H; [discriminate|].
  injection H as <-. right. right. split; [eapply order_arg_raise; eauto|]. exists sv, ov. repeat (split; [reflexivity|]). right. intros q L. apply order_arg_iff in L. congruence.
Qed.

(** Through a whole archive. *)
Theorem archive_array E (HE : EnvOK E) f b m : archive E f b m ->
  unpack_ndarray_from_bytes E N f =
  match nps_new N m with
  | Raise e => Raise e
  | Ok s => if size b <=? size (ns_buf s)
            then Ok (nd_of (ns_fortran s) (ns_dtype s) (ns_shape s) (n_base N) (b ++ skipn (List.length b) (ns_buf s)))
            else Raise MemoryFault
  end.
Proof.
  intros A. rewrite (np_any_file E N f b m (archive_unpack E HE _ _ _ A)). destruct (nps_new N m); reflexivity.
Qed.
End WithNp.
