(** int() and bool() of any value, specified and proved; the exceptions of encoding a
    header. *)
From Verif Require Import Base PyVal Checksums Headers Pretty Args FileIO Cli Objects Dynamic Spec DynSpec BaseLemmas HeaderProofs IOProofs OptionProofs DynProofs DynPackProofs.
From Coq Require Import ZifyBool ZifyNat.

(** [int_of v z]: int(v) is z. *)
Inductive int_of : dyn -> Z -> Prop :=
| int_of_bool b : int_of (DBool b) (Z.b2z b)
| int_of_int z : int_of (DInt z) z
| int_of_num t z : int_of (DNum t (Ok z)) z
| int_of_str s z : int_literal s z -> int_of (DStr s) z
| int_of_byt b z : int_literal (map ascii_of_byte b) z -> int_of (DBytes b) z.
(** The exception if there is no such z. *)
Inductive no_int : dyn -> exn -> Prop :=
| no_int_num t e : no_int (DNum t (Raise e)) e
| no_int_str s : (forall z, ~ int_of (DStr s) z) -> no_int (DStr s) ValueError
| no_int_byt b : (forall z, ~ int_of (DBytes b) z) -> no_int (DBytes b) ValueError
| no_int_none : no_int DNone TypeError
| no_int_tuple n : no_int (DTuple n) TypeError
| no_int_obj t : no_int (DObj t) TypeError.

Theorem d_int_ok v z : d_int v = Ok z <-> int_of v z.
Proof.
  destruct v as [|b|i|t i|s|b|n|t]; cbn [d_int].
  - split; [discriminate|intros H; inversion H].
  - split; [intros H; apply Ok_inj in H; subst z; destruct b; constructor|intros H; inversion H; subst; destruct b; reflexivity].
  - split; [intros H; apply Ok_inj in H; subst z; constructor|intros H; inversion H; reflexivity].
  - split; [intros ->; constructor|intros H; inversion H; reflexivity].
  - rewrite int_of_text_iff, list_str. split; [intros H; constructor; exact H|intros H; inversion H; assumption].
  - unfold int_of_bytes. rewrite int_of_text_iff, list_str. split; [intros H; constructor; exact H|intros H; inversion H; assumption].
  - split; [discriminate|intros H; inversion H].
  - split; [discriminate|intros H; inversion H].
Qed.
Theorem d_int_raise v e : d_int v = Raise e <-> no_int v e.
Proof.
  assert (N : (forall z, ~ int_of v z) <-> exists e, d_int v = Raise e).
  { split; [intros H; destruct (d_int v) as [z|x] eqn:D; [apply d_int_ok in D; destruct (H z D)|eauto]|].
    intros (x & D) z H. apply d_int_ok in H. congruence. }
  destruct v as [|b|i|t i|s|b|n|t]; cbn [d_int].
  - split; [intros H; injection H as <-; constructor|intros H; inversion H; reflexivity].
  - split; [discriminate|intros H; inversion H].
  - split; [discriminate|intros H; inversion H].
  - split; [intros ->; constructor|intros H; inversion H; reflexivity].
  - split.
    + intros H. assert (e = ValueError) as ->; [|constructor; apply N; cbn [d_int]; eauto].
      exact (int_of_text_raise _ _ H).
    + intros H. inversion H as [|s' Q| | | |]; subst. apply N in Q as (x & Q). cbn [d_int] in Q.
      rewrite <- (int_of_text_raise _ _ Q). exact Q.
  - assert (R : forall x, int_of_bytes b = Raise x -> x = ValueError).
    { unfold int_of_bytes. intros x. apply int_of_text_raise. }
    split.
    + intros H. rewrite (R e H). constructor. apply N. cbn [d_int]. eauto.
    + intros H. inversion H as [| |b' Q| | |]; subst. apply N in Q as (x & Q). cbn [d_int] in Q. rewrite <- (R x Q). exact Q.
  - split; [intros H; injection H as <-; constructor|intros H; inversion H; reflexivity].
  - split; [intros H; injection H as <-; constructor|intros H; inversion H; reflexivity].
Qed.
Theorem d_truth_false v : d_truth v = false <->
  In v [DNone; DBool false; DInt 0; DStr []; DBytes []; DTuple 0; DObj false] \/ exists i, v = DNum false i.
Proof.
  split.
  - destruct v as [|[|]|i|[|] i|[|c s]|[|c b]|[|n]|[|]]; cbn [d_truth]; intros H; try discriminate H; try (left; cbn; tauto); try (right; eauto; fail).
    assert (i = 0) by lia. subst. left. cbn. tauto.
  - intros [I|(i & ->)]; [|reflexivity]. cbn [In] in I. repeat (destruct I as [<-|I]; [reflexivity|]). destruct I.
Qed.

(** The exceptions of encode. *)
Lemma d_flag_raise off meta e : d_flag off meta = Raise e <->
  d_int meta = Raise e \/
  exists m, d_int meta = Ok m /\ (d_int off = Raise e \/
    exists o, d_int off = Ok o /\
      ((forall b, ~ binary (int_text m ++ int_text o) b) /\ e = ValueError \/
       exists b, binary (int_text m ++ int_text o) b /\ 255 < b /\ e = StructError)).
Proof.
  unfold d_flag, d_create_options. destruct (d_int meta) as [m|x]; cbn [rbind].
  2:{ split; [auto|]. intros [H|(m & H & _)]; [exact H|discriminate]. }
  destruct (d_int off) as [o|x]; cbn [rbind].
  2:{ split; [eauto|]. intros [H|(m' & _ & [H|(o & H & _)])]; congruence. }
  assert (Z6 : forall b, binary (t_ "000000" ++ int_text m ++ int_text o) b <-> binary (int_text m ++ int_text o) b).
  { intros b. rewrite binary_app. split.
    - intros (x & y & Bx & By & ->). rewrite (binary_fun _ _ _ Bx binary_zeros). exact By.
    - intros B. exists 0, b. auto using binary_zeros. }
  destruct (int_base2 _) as [b|x] eqn:I.
  - apply int_base2_iff, Z6 in I. cbn [rbind]. pose proof (binary_nonneg _ _ I) as P.
    unfold encode_uint8, pack_int. destruct (_ && _) eqn:R; cbn [rbind].
    + split; [discriminate|]. intros [H|(m' & Hm & [H|(o' & Ho & [[H _]|(b' & H & L & _)])])]; try discriminate;
        apply Ok_inj in Hm, Ho; subst m' o'.
      * destruct (H b I).
      * pose proof (binary_fun _ _ _ H I). lia.
    + split.
      * intros H. assert (e = StructError) as -> by congruence. right. exists m. split; auto. right. exists o. split; auto. right. exists b. split; auto. split; [lia|auto].
      * intros [H|(m' & Hm & [H|(o' & Ho & [[H _]|(b' & H & L & ->)])])]; try discriminate; apply Ok_inj in Hm, Ho; subst m' o'.
        -- destruct (H b I).
        -- reflexivity.
  - cbn [rbind].
    assert (N : forall b, ~ binary (int_text m ++ int_text o) b) by (intros b B; apply Z6, int_base2_iff in B; congruence).
    assert (x = ValueError) as ->.
    { assert (N' : forall b, ~ binary (t_ "000000" ++ int_text m ++ int_text o) b) by (intros b B; apply Z6 in B; exact (N b B)).
      apply int_base2_raise in N'. congruence. }
    split.
    + intros H. assert (e = ValueError) as -> by congruence. right. exists m. split; auto. right. exists o. split; auto.
    + intros [H|(m' & Hm & [H|(o' & Ho & [[H ->]|(b' & H & L & ->)])])]; try discriminate; apply Ok_inj in Hm, Ho; subst m' o'; [reflexivity|destruct (N b' H)].
Qed.
Theorem flags_refused kw dh e : new_header kw = Ok dh ->
  (d_header_encode dh = Raise e <->
   no_int (d_metadata dh) e \/
   exists m, int_of (d_metadata dh) m /\ (no_int (d_offsets dh) e \/
     exists o, int_of (d_offsets dh) o /\
       ((forall b, ~ binary (int_text m ++ int_text o) b) /\ e = ValueError \/
        exists b, binary (int_text m ++ int_text o) b /\ 255 < b /\ e = StructError))).
Proof.
  intros H. destruct (accepted_good _ _ H) as (c & G). rewrite (d_good_encode dh c G).
  transitivity (d_flag (d_offsets dh) (d_metadata dh) = Raise e).
  { destruct (d_flag _ _); cbn [rbind]; split; congruence. }
  rewrite d_flag_raise. setoid_rewrite <- d_int_ok. setoid_rewrite <- d_int_raise. reflexivity.
Qed.
