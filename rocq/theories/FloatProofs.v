(** The value of a float's repr. *)
From Verif Require Import Base Pretty PyVal EqSpec RoundProofs.
From Coq Require Import ZifyBool ZifyNat ZifyN.
Ltac Zify.zify_post_hook ::= Z.div_mod_to_equations.

Definition fin (mm ee : Z) (neg : bool) : numval := if (0 <=? ee) && (2 ^ 1024 <=? mm * 2 ^ ee) then Inf neg else Num (if neg then - mm else mm) ee.
Lemma float_literal r neg a x : literal r neg a x ->
  exists m e, 0 <= m /\ rounds (a * 10 ^ Z.max x 0) (10 ^ Z.max (- x) 0) m e /\ float_value r = fin m e neg.
Proof.
  intros LI. pose proof (literal_parse _ _ _ _ LI) as [L P]. unfold float_value.
  assert (A0 : 0 <= a).
  { destruct LI. rename H3 into D. clear - D. unfold dec_val. assert (G : forall l, forallb dec_digit l = true -> forall z, 0 <= z -> 0 <= fold_left (fun a c => 10 * a + (c - 48)) l z).
    { clear. induction l as [|c l IH]; intros D z Z0; cbn [forallb fold_left] in *; [exact Z0|]. apply andb_true_iff in D as [D1 D2]. unfold dec_digit in D1. apply IH; [exact D2|lia]. }
    apply G; [exact D|lia]. }
  destruct (zs_eqb r (u "inf")) eqn:I1; [apply zs_eqb_eq in I1; subst r; vm_compute in P; discriminate|].
  destruct (zs_eqb r (u "-inf")) eqn:I2; [apply zs_eqb_eq in I2; subst r; vm_compute in P; discriminate|].
  change (forallb (fun z => (0 <=? z) && (z <? 128)) r) with (forallb low r). rewrite L. cbn [negb]. fold (asc r). rewrite P.
  assert (B : (if 0 <=? x then b64_of (a * 10 ^ x) 1 else b64_of a (10 ^ (- x))) = b64_of (a * 10 ^ Z.max x 0) (10 ^ Z.max (- x) 0)).
  { destruct (0 <=? x) eqn:X.
    - replace (Z.max x 0) with x by lia. replace (Z.max (- x) 0) with 0 by lia. reflexivity.
    - replace (Z.max x 0) with 0 by lia. replace (Z.max (- x) 0) with (- x) by lia. change (10 ^ 0) with 1. rewrite Z.mul_1_r. reflexivity. }
  rewrite B. destruct (b64_of (a * 10 ^ Z.max x 0) (10 ^ Z.max (- x) 0)) as [m e] eqn:Q. apply b64_rounds in Q as [M R].
  - exists m, e. auto.
  - apply Z.mul_nonneg_nonneg; [exact A0|apply Z.pow_nonneg; lia].
  - apply Z.pow_pos_nonneg; lia.
Qed.
Lemma float_other r : float_value r = Nan \/ (r = u "inf" /\ float_value r = Inf false) \/ (r = u "-inf" /\ float_value r = Inf true) \/ exists neg a x, literal r neg a x.
Proof.
  unfold float_value. destruct (zs_eqb r (u "inf")) eqn:I1; [apply zs_eqb_eq in I1; auto|]. destruct (zs_eqb r (u "-inf")) eqn:I2; [apply zs_eqb_eq in I2; auto|].
  change (forallb (fun z => (0 <=? z) && (z <? 128)) r) with (forallb low r). destruct (forallb low r) eqn:L; cbn [negb]; [|auto]. fold (asc r).
  destruct (parse_decimal (asc r)) as [[[neg a] x]|] eqn:P; [|auto]. right. right. right. exists neg, a, x. apply parse_literal; assumption.
Qed.
Lemma fin_spec m e neg : 0 <= m -> double m e -> fin m e neg = if 2 ^ (1024 + 1074) <=? m * 2 ^ (e + 1074) then Inf neg else Num (if neg then - m else m) e.
Proof.
  intros M [B1 B2]. unfold fin. rewrite Z.abs_eq in B1 by exact M. destruct (0 <=? e) eqn:E; cbn [andb].
  - rewrite !Z.pow_add_r by lia. rewrite Z.mul_assoc. replace (2 ^ 1024 * 2 ^ 1074 <=? m * 2 ^ e * 2 ^ 1074) with (2 ^ 1024 <=? m * 2 ^ e); [reflexivity|].
    pose proof (Z.pow_pos_nonneg 2 1074 ltac:(lia) ltac:(lia)) as P. destruct (Z.leb_spec (2 ^ 1024) (m * 2 ^ e)) as [C|C]; symmetry; [apply Z.leb_le|apply Z.leb_gt].
    + apply Z.mul_le_mono_nonneg_r; lia.
    + apply Z.mul_lt_mono_pos_r; lia.
  - replace (2 ^ (1024 + 1074) <=? m * 2 ^ (e + 1074)) with false; [reflexivity|]. symmetry. apply Z.leb_gt.
    apply Z.le_lt_trans with (2 ^ 53 * 2 ^ 1074).
    + apply Z.mul_le_mono_nonneg; [exact M|exact B1|apply Z.pow_nonneg; lia|apply Z.pow_le_mono_r; lia].
    + rewrite <- Z.pow_add_r by lia. apply Z.pow_lt_mono_r; lia.
Qed.
Lemma ten_pos x : 0 < 10 ^ Z.max (- x) 0.
Proof. apply Z.pow_pos_nonneg; lia. Qed.
Theorem infinite_iff r neg : infinite r neg <-> float_value r = Inf neg.
Proof.
  split.
  - intros [| |r' neg' m e (a & x & LI & R) G]; [reflexivity..|]. destruct (float_literal _ _ _ _ LI) as (m' & e' & M & R' & ->).
    pose proof R' as (DB & _). rewrite (fin_spec m' e' neg' M DB). rewrite (rounds_unique _ _ _ _ _ _ (ten_pos x) R' R). replace (_ <=? _) with true by (symmetry; apply Z.leb_le; exact G). reflexivity.
  - intros H. destruct (float_other r) as [F|[[-> F]|[[-> F]|(n & a & x & LI)]]]; rewrite ?F in H; try (injection H as <-; constructor); try discriminate.
    destruct (float_literal _ _ _ _ LI) as (m & e & M & R & F). rewrite F in H. pose proof R as (DB & _). rewrite (fin_spec m e n M DB) in H. destruct (Z.leb_spec (2 ^ (1024 + 1074)) (m * 2 ^ (e + 1074))) as [C|C]; [|discriminate].
    injection H as <-. apply (inf_large r n m e); [exists a, x; auto|exact C].
Qed.
Theorem worth_float r m d : worth (PFloat r) m d <-> exists a e, float_value r = Num a e /\ -1074 <= e /\ m = a * 2 ^ (e + 1074) /\ d = 2 ^ 1074.
Proof.
  split.
  - intros H. inversion H as [| | |r' neg m' e (a & x & LI & R) G]; subst. destruct (float_literal _ _ _ _ LI) as (m2 & e2 & M & R' & F). pose proof R' as (DB & _).
    rewrite (fin_spec m2 e2 neg M DB) in F. pose proof (rounds_unique _ _ _ _ _ _ (ten_pos x) R' R) as V. rewrite V in F. replace (_ <=? _) with false in F by (symmetry; apply Z.leb_gt; exact G).
    exists (if neg then - m2 else m2), e2. split; [exact F|]. split; [apply DB|]. split; [|reflexivity]. destruct neg; [rewrite !Z.mul_opp_l; f_equal|]; congruence.
  - intros (a & e & F & E & -> & ->). destruct (float_other r) as [X|[[-> X]|[[-> X]|(n & b & x & LI)]]]; try (rewrite X in F; discriminate).
    destruct (float_literal _ _ _ _ LI) as (m & e' & M & R & X). rewrite X in F. pose proof R as (DB & _). rewrite (fin_spec m e' n M DB) in F.
    destruct (Z.leb_spec (2 ^ (1024 + 1074)) (m * 2 ^ (e' + 1074))) as [C|C]; [discriminate|]. injection F as <- <-. constructor; [exists b, x; auto|exact C].
Qed.
