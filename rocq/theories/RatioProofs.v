(** Proofs: the ratios that 'blpk --verbose' prints. *)
From Verif Require Import Base PyVal Headers Pretty Objects ObjectsSpec ReprSpec Report Verbose PrettyProofs ReprProofs DynPackProofs.
From Coq Require Import ZifyBool ZifyNat.
Local Ltac Zify.zify_post_hook ::= Z.div_mod_to_equations.

Lemma p2 a b : 0 <= a -> 0 <= b -> 2 ^ (a + b) = 2 ^ a * 2 ^ b. Proof. apply Z.pow_add_r. Qed.
Lemma b64_mantissa n d : 0 < n -> 0 < d -> -1000 <= Z.log2 n - Z.log2 d ->
  2 ^ 52 * shl_den d (- b64_exp n d) <= shl_num n (- b64_exp n d).
Proof.
  intros Hn Hd Hl. unfold b64_exp. set (l := Z.log2 n - Z.log2 d) in *.
  pose proof (Z.log2_spec n Hn) as Ln. pose proof (Z.log2_spec d Hd) as Ld.
  pose proof (Z.log2_nonneg n). pose proof (Z.log2_nonneg d).
  destruct (shl_num d l <=? shl_den n l) eqn:C.
  - rewrite Z.max_l by lia. unfold shl_num, shl_den in *. apply Z.leb_le in C.
    destruct (0 <=? l) eqn:L0.
    + destruct (0 <=? - (l - 52)) eqn:L1.
      * assert (X : 2 ^ 52 = 2 ^ l * 2 ^ (- (l - 52))) by (rewrite <- p2 by lia; f_equal; lia). rewrite X.
        set (A := 2 ^ (- (l - 52))) in *. assert (0 < A) by (unfold A; lia). clearbody A. nia.
      * assert (X : 2 ^ l = 2 ^ 52 * 2 ^ (- - (l - 52))) by (rewrite <- p2 by lia; f_equal; lia). rewrite X in C. lia.
    + replace (0 <=? - (l - 52)) with true by lia. assert (X : 2 ^ (- (l - 52)) = 2 ^ (- l) * 2 ^ 52) by (rewrite <- p2 by lia; f_equal; lia). rewrite X. lia.
  - rewrite Z.max_l by lia.
    assert (G : 1 <= l -> d * 2 ^ (l - 1) <= n).
    { intros L. assert (P : d * 2 ^ (l - 1) <= 2 ^ Z.succ (Z.log2 d) * 2 ^ (l - 1)).
      { apply Z.mul_le_mono_nonneg_r; [apply Z.pow_nonneg; lia|lia]. }
      rewrite <- p2 in P by lia. replace (Z.succ (Z.log2 d) + (l - 1)) with (Z.log2 n) in P by (unfold l; lia). lia. }
    assert (G' : l <= 1 -> d <= n * 2 ^ (1 - l)).
    { intros L. assert (P : 2 ^ Z.log2 n * 2 ^ (1 - l) <= n * 2 ^ (1 - l)).
      { apply Z.mul_le_mono_nonneg_r; [apply Z.pow_nonneg; lia|lia]. }
      rewrite <- p2 in P by lia. replace (Z.log2 n + (1 - l)) with (Z.succ (Z.log2 d)) in P by (unfold l; lia). lia. }
    clear C. unfold shl_num, shl_den. destruct (0 <=? - (l - 53)) eqn:L1.
    + destruct (Z.le_gt_cases l 1) as [LL|LL].
      * assert (X : 2 ^ (- (l - 53)) = 2 ^ (1 - l) * 2 ^ 52) by (rewrite <- p2 by lia; f_equal; lia). rewrite X. specialize (G' LL). lia.
      * assert (X : 2 ^ 52 = 2 ^ (l - 1) * 2 ^ (- (l - 53))) by (rewrite <- p2 by lia; f_equal; lia). rewrite X. specialize (G ltac:(lia)).
        set (A := 2 ^ (- (l - 53))) in *. assert (0 < A) by (unfold A; lia). clearbody A. nia.
    + assert (X : 2 ^ (l - 1) = 2 ^ 52 * 2 ^ (- - (l - 53))) by (rewrite <- p2 by lia; f_equal; lia). specialize (G ltac:(lia)). rewrite X in G. lia.
Qed.
(** Millionths of the quotient, as they are printed. *)
Definition millionths (a b : Z) : Z := let '(m, e) := b64_of a b in rhe (shl_num (m * 10 ^ 6) e) (shl_den 1 e).
Lemma millionths_near a b : 0 <= a -> 0 < b < 2 ^ 1000 -> Z.abs (millionths a b * b - 10 ^ 6 * a) * 2 ^ 53 <= 2 ^ 52 * b + 10 ^ 6 * a.
Proof.
  intros Ha Hb. unfold millionths, b64_of. destruct (a =? 0) eqn:A0.
  { assert (a = 0) as -> by lia. change (rhe (shl_num (0 * 10 ^ 6) 0) (shl_den 1 0)) with 0. lia. }
  assert (Hl : -1000 <= Z.log2 a - Z.log2 b).
  { assert (Z.log2 b < 1000) by (apply Z.log2_lt_pow2; lia). pose proof (Z.log2_nonneg a). lia. }
  pose proof (b64_mantissa a b ltac:(lia) ltac:(lia) Hl) as M. set (e := b64_exp a b) in *. clearbody e. clear Hl.
  set (x := shl_num a (- e)) in *. set (y := shl_den b (- e)) in *.
  destruct Hb as (Hb & _).
  assert (Y : 0 < y) by (unfold y, shl_den; destruct (0 <=? - e) eqn:E0; [exact Hb|]; apply Z.mul_pos_pos; [exact Hb|apply Z.pow_pos_nonneg; lia]).
  pose proof (rhe_near x y Y) as N1. set (m := rhe x y) in *. clearbody m.
  set (D := shl_den 1 e). set (U := shl_num (m * 10 ^ 6) e).
  assert (DP : 0 < D) by (unfold D, shl_den; destruct (0 <=? e) eqn:E0; [lia|]; apply Z.mul_pos_pos; [lia|apply Z.pow_pos_nonneg; lia]).
  pose proof (rhe_near U D DP) as N2. set (n := rhe U D) in *. clearbody n.
  (* common factor: with e >= 0, x = a, y = b * 2^e, U = m * 10^6 * 2^e, D = 1; else x = a * D, y = b *)
  assert (K : exists k, 0 < k /\ ((x = a /\ y = b * k /\ U = m * 10 ^ 6 * k /\ D = 1) \/ (x = a * k /\ y = b /\ U = m * 10 ^ 6 /\ D = k))).
  { exists (2 ^ Z.abs e). split; [lia|]. unfold x, y, U, D, shl_num, shl_den. destruct (Z.le_gt_cases 0 e) as [P|P].
    - left. replace (0 <=? e) with true by lia. destruct (0 <=? - e) eqn:Q.
      + assert (e = 0) as -> by lia. change (2 ^ - 0) with 1. change (2 ^ 0) with 1. change (2 ^ Z.abs 0) with 1. lia.
      + rewrite Z.opp_involutive, Z.abs_eq by lia. auto.
    - right. replace (0 <=? e) with false by lia. replace (0 <=? - e) with true by lia. rewrite Z.abs_neq by lia. lia. }
  clearbody x y U D. destruct K as (k & K0 & [(-> & -> & -> & ->)|(-> & -> & -> & ->)]).
  - (* n is exact *) assert (NE : n = m * 10 ^ 6 * k) by lia. subst n.
    replace (m * 10 ^ 6 * k * b - 10 ^ 6 * a) with (10 ^ 6 * (m * (b * k) - a)) by ring. rewrite Z.abs_mul. change (Z.abs (10 ^ 6)) with (10 ^ 6).
    assert (0 <= 2 ^ 52 * b) by lia. change (2 ^ 53) with (2 * 2 ^ 52). set (P := 2 ^ 52) in *. assert (0 < P) by (unfold P; lia). clearbody P.
    set (w := b * k) in *. clearbody w. set (t := Z.abs (m * w - a)) in *. clearbody t. nia.
  - assert (S : k * (n * b - 10 ^ 6 * a) = (n * k - m * 10 ^ 6) * b + 10 ^ 6 * (m * b - a * k)) by ring.
    set (t1 := n * k - m * 10 ^ 6) in *. set (t2 := m * b - a * k) in *. set (z := n * b - 10 ^ 6 * a) in *. clearbody t1 t2 z.
    assert (Q : k * Z.abs z <= Z.abs t1 * b + 10 ^ 6 * Z.abs t2).
    { rewrite <- (Z.abs_eq k) at 1 by lia. rewrite <- Z.abs_mul, S. etransitivity; [apply Z.abs_triangle|]. rewrite !Z.abs_mul. rewrite (Z.abs_eq b) by lia. change (Z.abs (10 ^ 6)) with (10 ^ 6). lia. }
    change (2 ^ 53) with (2 * 2 ^ 52). set (P := 2 ^ 52) in *. assert (0 < P) by (unfold P; lia). clearbody P.
    assert (Q2 : k * (Z.abs z * (2 * P)) <= k * (P * b + 10 ^ 6 * a)).
    { assert (I1 : 2 * Z.abs t1 * b <= k * b) by nia. assert (I2 : P * (2 * Z.abs t2) <= a * k) by nia. nia. }
    nia.
Qed.

Lemma read_digits_app x y : forall acc v, read_digits acc x = Some v -> read_digits acc (x ++ y) = read_digits v y.
Proof.
  induction x as [|c x IH]; intros acc v H; cbn [read_digits app] in *; [congruence|].
  destruct (digit_of 10 c); [|discriminate]. apply IH, H.
Qed.
Lemma digit_char_of d : 0 <= d < 10 -> digit_of 10 (ascii_of_nat (Z.to_nat (48 + d))) = Some d.
Proof.
  intros H. assert (C : d = 0 \/ d = 1 \/ d = 2 \/ d = 3 \/ d = 4 \/ d = 5 \/ d = 6 \/ d = 7 \/ d = 8 \/ d = 9) by lia.
  repeat (destruct C as [->|C]; [reflexivity|]). subst. reflexivity.
Qed.
Lemma six_read q r : 0 <= r < 10 ^ 6 -> read_digits q (six_digits r) = Some (q * 10 ^ 6 + r).
Proof.
  intros R. unfold six_digits. cbn [map read_digits].
  rewrite !digit_char_of by (apply Z.mod_pos_bound; lia).
  change (10 ^ 6) with 1000000 in *. change (10 ^ 5) with 100000. change (10 ^ 4) with 10000. change (10 ^ 3) with 1000. change (10 ^ 2) with 100. change (10 ^ 1) with 10. change (10 ^ 0) with 1.
  f_equal. lia.
Qed.
Theorem ratio_reads a b : 0 <= a -> 0 < b < 2 ^ 1000 -> exists w d n,
  ratio_text a b = w ++ t_ "." ++ d /\ w <> [] /\ List.length d = 6%nat /\ read_digits 0 (w ++ d) = Some n /\
  Z.abs (n * b - 10 ^ 6 * a) * 2 ^ 53 <= 2 ^ 52 * b + 10 ^ 6 * a.
Proof.
  intros Ha Hb. pose proof (millionths_near a b Ha Hb) as N. unfold ratio_text. rewrite Z.abs_eq by lia. replace (a <? 0) with false by lia.
  assert (NN : 0 <= millionths a b).
  { destruct Hb as (Hb & _). destruct (Z.le_gt_cases 0 (millionths a b)) as [|L]; [assumption|exfalso].
    assert (millionths a b * b <= - b) by nia. clear L.
    change (2 ^ 53) with (2 * 2 ^ 52) in N. change (2 ^ 52) with 4503599627370496 in N. change (10 ^ 6) with 1000000 in *. nia. }
  revert N NN. unfold millionths. destruct (b64_of a b) as [m e]. set (n := rhe (shl_num (m * 10 ^ 6) e) (shl_den 1 e)). intros N NN.
  exists (dec_of (n / 10 ^ 6)), (six_digits (n mod 10 ^ 6)), n. split; [reflexivity|]. split.
  { destruct (dec_of_shape (n / 10 ^ 6)) as (c & r & -> & _). discriminate. }
  split; [reflexivity|]. split; [|exact N].
  rewrite (read_digits_app _ _ 0 (n / 10 ^ 6)) by (apply read_digits_dec; lia). rewrite six_read by (apply Z.mod_pos_bound; lia). f_equal. lia.
Qed.
Theorem ratio_sign a b : 0 < a -> ratio_text (- a) b = t_ "-" ++ ratio_text a b.
Proof.
  intros H. unfold ratio_text. rewrite Z.abs_opp. destruct (b64_of (Z.abs a) b) as [m e]. replace (- a <? 0) with true by lia. replace (a <? 0) with false by lia. reflexivity.
Qed.
