(** Rounding to doubles, and the floats a text denotes. *)
From Verif Require Import Base Pretty PyVal PrettyProofs EqSpec.
From Coq Require Import ZifyBool ZifyNat ZifyN.
Ltac Zify.zify_post_hook ::= Z.div_mod_to_equations.

(** ** The nearest integer *)
Lemma rhe_best a b j : 0 < b -> Z.abs (rhe a b * b - a) <= Z.abs (j * b - a).
Proof.
  intros B. pose proof (rhe_near a b B) as R. set (m := rhe a b) in *. clearbody m.
  destruct (Z.eq_dec j m) as [->|N]; [lia|]. assert (b <= Z.abs ((j - m) * b)) by nia. lia.
Qed.
Lemma rhe_tie a b j : 0 < b -> Z.abs (rhe a b * b - a) = Z.abs (j * b - a) -> j <> rhe a b -> Z.even (rhe a b) = true.
Proof.
  intros B. unfold rhe. pose proof (Z.div_mod a b ltac:(lia)) as D. pose proof (Z.mod_pos_bound a b B) as M. cbv zeta.
  set (q := a / b) in *. set (r := a mod b) in *. clearbody q r. subst a.
  destruct (2 * r <? b) eqn:E1.
  - intros H N. exfalso. replace (q * b - (b * q + r)) with (- r) in H by ring. replace (j * b - (b * q + r)) with ((j - q) * b - r) in H by ring. nia.
  - destruct (b <? 2 * r) eqn:E2.
    + intros H N. exfalso. replace ((q + 1) * b - (b * q + r)) with (b - r) in H by ring. replace (j * b - (b * q + r)) with ((j - q) * b - r) in H by ring. nia.
    + destruct (Z.even q) eqn:Q; [auto|]. intros _ _. rewrite Z.even_add, Q. reflexivity.
Qed.

(** ** The exponent *)
Lemma scale_le n d p q p' q' : 0 <= p -> 0 <= q -> 0 <= p' -> 0 <= q' -> p - q = p' - q' -> d * 2 ^ p <= n * 2 ^ q -> d * 2 ^ p' <= n * 2 ^ q'.
Proof.
  intros P1 P2 P3 P4 PQ H. destruct (Z.le_ge_cases p p') as [G|G].
  - replace p' with (p + (p' - p)) by (clear H; lia). replace q' with (q + (p' - p)) by (clear H; lia). assert (K : 0 <= p' - p) by (clear H; lia). rewrite !Z.pow_add_r by assumption. rewrite !Z.mul_assoc.
    apply Z.mul_le_mono_nonneg_r; [apply Z.pow_nonneg|exact H]. clear H; lia.
  - replace p with (p' + (p - p')) in H by (clear H; lia). replace q with (q' + (p - p')) in H by (clear H; lia). assert (K : 0 <= p - p') by (clear H; lia). rewrite !Z.pow_add_r in H by assumption. rewrite !Z.mul_assoc in H.
    eapply Z.mul_le_mono_pos_r; [|exact H]. apply Z.pow_pos_nonneg; [clear H; lia|exact K].
Qed.
(** raising the power on the right keeps the inequality *)
Lemma scale_more n d p q k : 0 <= n -> 0 <= q -> 0 <= k -> d * 2 ^ p <= n * 2 ^ q -> d * 2 ^ p <= n * 2 ^ (q + k).
Proof.
  intros N Q K H. eapply Z.le_trans; [exact H|]. apply Z.mul_le_mono_nonneg_l; [exact N|]. apply Z.pow_le_mono_r; clear H; lia.
Qed.
(** n / d is between 2^(l-1) and 2^(l+1) for the difference l of the logarithms *)
Lemma log_bounds n d : 0 < n -> 0 < d -> let l := Z.log2 n - Z.log2 d in
  n * 2 ^ Z.max (- l) 0 < d * 2 ^ (Z.max l 0 + 1) /\ d * 2 ^ Z.max l 0 <= n * 2 ^ (Z.max (- l) 0 + 1).
Proof.
  intros Hn Hd l. pose proof (Z.log2_spec n Hn) as [N1 N2]. pose proof (Z.log2_spec d Hd) as [D1 D2].
  change (Z.succ (Z.log2 n)) with (Z.log2 n + 1) in N2. change (Z.succ (Z.log2 d)) with (Z.log2 d + 1) in D2.
  assert (L0 : 0 <= Z.log2 n /\ 0 <= Z.log2 d) by (split; apply Z.log2_nonneg). unfold l. set (x := Z.log2 n) in *. set (y := Z.log2 d) in *. clearbody x y. destruct L0 as [L0 L1].
  assert (PW : forall k, 0 <= k -> 0 < 2 ^ k) by (intros k K; apply Z.pow_pos_nonneg; [reflexivity|exact K]). split.
  - apply Z.lt_le_trans with (2 ^ (x + 1) * 2 ^ Z.max (- (x - y)) 0); [apply Z.mul_lt_mono_pos_r; [apply PW; clear - L0; lia|exact N2]|].
    apply Z.le_trans with (2 ^ y * 2 ^ (Z.max (x - y) 0 + 1)); [|apply Z.mul_le_mono_nonneg_r; [apply Z.lt_le_incl, PW; clear - L0; lia|exact D1]].
    rewrite <- !Z.pow_add_r by (clear - L0 L1; lia). apply Z.pow_le_mono_r; clear - L0 L1; lia.
  - apply Z.le_trans with (2 ^ (y + 1) * 2 ^ Z.max (x - y) 0); [apply Z.mul_le_mono_nonneg_r; [apply Z.lt_le_incl, PW; clear - L0; lia|apply Z.lt_le_incl, D2]|].
    apply Z.le_trans with (2 ^ x * 2 ^ (Z.max (- (x - y)) 0 + 1)); [|apply Z.mul_le_mono_nonneg_r; [apply Z.lt_le_incl, PW; clear - L0; lia|exact N1]].
    rewrite <- !Z.pow_add_r by (clear - L0 L1; lia). apply Z.pow_le_mono_r; clear - L0 L1; lia.
Qed.
Lemma b64_exp_low n d : 0 < n -> 0 < d -> let e := b64_exp n d in -1074 <= e /\
  (e = -1074 \/ d * 2 ^ (52 + Z.max e 0) <= n * 2 ^ Z.max (- e) 0) /\ n * 2 ^ Z.max (- e) 0 < d * 2 ^ (53 + Z.max e 0).
Proof.
  intros Hn Hd e. unfold e, b64_exp. destruct (log_bounds n d Hn Hd) as [U L]. set (l := Z.log2 n - Z.log2 d) in *. clearbody l. clear e.
  assert (S1 : shl_num d l = d * 2 ^ Z.max l 0).
  { clear. unfold shl_num. destruct (0 <=? l) eqn:X; [f_equal; f_equal; lia|replace (Z.max l 0) with 0 by lia; lia]. }
  assert (S2 : shl_den n l = n * 2 ^ Z.max (- l) 0).
  { clear. unfold shl_den. destruct (0 <=? l) eqn:X; [replace (Z.max (- l) 0) with 0 by lia; lia|f_equal; f_equal; lia]. }
  rewrite S1, S2. clear S1 S2. assert (N0 : 0 <= n) by (clear - Hn; lia).
  (* t: the exponent before the limit *)
  assert (G : forall t, d * 2 ^ (52 + Z.max t 0) <= n * 2 ^ Z.max (- t) 0 -> n * 2 ^ Z.max (- t) 0 < d * 2 ^ (53 + Z.max t 0) ->
     -1074 <= Z.max t (-1074) /\ (Z.max t (-1074) = -1074 \/ d * 2 ^ (52 + Z.max (Z.max t (-1074)) 0) <= n * 2 ^ Z.max (- Z.max t (-1074)) 0) /\
     n * 2 ^ Z.max (- Z.max t (-1074)) 0 < d * 2 ^ (53 + Z.max (Z.max t (-1074)) 0)).
  { clear U L. intros t T1 T2. split; [clear; lia|]. destruct (Z.le_gt_cases (-1074) t) as [Q|Q].
    - replace (Z.max t (-1074)) with t by (clear - Q; lia). auto.
    - replace (Z.max t (-1074)) with (-1074) by (clear - Q; lia). split; [auto|]. apply Z.nle_gt. intros X. apply (Zlt_not_le _ _ T2).
      replace (Z.max t 0) with 0 by (clear - Q; lia). change (Z.max (-1074) 0) with 0 in X.
      replace (Z.max (- t) 0) with (1074 + (- t - 1074)) by (clear - Q; lia). apply scale_more; [exact N0|clear; lia|clear - Q; lia|exact X]. }
  destruct (Z.leb_spec (d * 2 ^ Z.max l 0) (n * 2 ^ Z.max (- l) 0)) as [C|C]; apply G; clear G.
  - eapply scale_le; [| | | | |exact C]; clear; lia.
  - apply Z.nle_gt. intros X. apply (Zlt_not_le _ _ U). eapply scale_le; [| | | | |exact X]; clear; lia.
  - eapply scale_le; [| | | | |exact L]; clear; lia.
  - apply Z.nle_gt. intros X. apply (Zlt_not_le _ _ C). eapply scale_le; [| | | | |exact X]; clear; lia.
Qed.

(** ** Quotients are rounded to the nearest double *)
Theorem b64_rounds n d m e : 0 <= n -> 0 < d -> b64_of n d = (m, e) -> 0 <= m /\ rounds n d m e.
Proof.
  intros Hn Hd. unfold b64_of. destruct (Z.eqb_spec n 0) as [-> |NZ].
  { intros H. injection H as <- <-. split; [lia|]. unfold rounds, double, apart. rewrite !Z.mul_0_l, Z.mul_0_r. change (Z.abs (0 - 0)) with 0. split; [split; lia|].
    split; [intros; apply Z.abs_nonneg|]. intros m' e' _ H N. reflexivity. }
  assert (Hn' : 0 < n) by lia. intros H. destruct (b64_exp_low n d Hn' Hd) as (E1 & E2 & E3). cbv zeta in H. set (e0 := b64_exp n d) in *. clearbody e0.
  assert (SN : shl_num n (- e0) = n * 2 ^ Z.max (- e0) 0).
  { unfold shl_num. destruct (0 <=? - e0) eqn:X; [f_equal; f_equal; lia|replace (Z.max (- e0) 0) with 0 by lia; lia]. }
  assert (SD : shl_den d (- e0) = d * 2 ^ Z.max e0 0).
  { unfold shl_den. destruct (0 <=? - e0) eqn:X; [replace (Z.max e0 0) with 0 by lia; lia|f_equal; f_equal; lia]. }
  rewrite SN, SD in H. clear SN SD. injection H as Hm He. subst e0.
  rewrite !Z.pow_add_r in E2, E3 by lia.
  set (s := 2 ^ (1074 - Z.max (- e) 0)).
  assert (NN : n * 2 ^ 1074 = (n * 2 ^ Z.max (- e) 0) * s).
  { unfold s. rewrite <- Z.mul_assoc, <- Z.pow_add_r by lia. do 2 f_equal. lia. }
  assert (DD : d * 2 ^ (e + 1074) = (d * 2 ^ Z.max e 0) * s).
  { unfold s. rewrite <- Z.mul_assoc, <- Z.pow_add_r by lia. do 2 f_equal. lia. }
  set (N := n * 2 ^ Z.max (- e) 0) in *. set (D := d * 2 ^ Z.max e 0) in *.
  assert (DP : 0 < D) by (unfold D; pose proof (Z.pow_pos_nonneg 2 (Z.max e 0)); nia).
  assert (NP : 0 < N) by (unfold N; pose proof (Z.pow_pos_nonneg 2 (Z.max (- e) 0)); nia).
  assert (E2' : e = -1074 \/ D * 2 ^ 52 <= N) by (destruct E2 as [E2|E2]; [auto|right; unfold D; nia]).
  assert (E3' : N <= 2 ^ 53 * D) by (unfold D; nia). clear E2 E3.
  assert (SP : 0 < s) by (unfold s; apply Z.pow_pos_nonneg; lia).
  assert (AP : forall j, apart n d j e = s * Z.abs (j * D - N)).
  { intros j. unfold apart. rewrite NN. replace (d * (j * 2 ^ (e + 1074))) with (j * (d * 2 ^ (e + 1074))) by ring. rewrite DD.
    replace (N * s - j * (D * s)) with (s * - (j * D - N)) by ring. rewrite Z.abs_mul, Z.abs_opp. f_equal. apply Z.abs_eq. lia. }
  assert (M0 : 0 <= m) by (subst m; apply rhe_mono_ge; lia).
  assert (M1 : m <= 2 ^ 53) by (subst m; apply rhe_mono_le; lia).
  split; [exact M0|]. split; [split; [rewrite Z.abs_eq; auto|exact E1]|].
  assert (LOW : forall m' e', double m' e' -> e' < e -> apart n d (2 ^ 52) e <= apart n d m' e' /\
            (apart n d (2 ^ 52) e = apart n d m' e' -> m' * 2 ^ (e' + 1074) = 2 ^ 52 * 2 ^ (e + 1074))).
  { intros m' e' [B1 B2] LT. destruct E2' as [E2'|E2']; [lia|]. unfold apart. rewrite NN.
    assert (Y : m' * 2 ^ (e' + 1074) <= 2 ^ 52 * 2 ^ (e + 1074)).
    { apply Z.le_trans with (2 ^ 53 * 2 ^ (e' + 1074)); [apply Z.mul_le_mono_nonneg_r; [apply Z.pow_nonneg; lia|lia]|].
      rewrite <- !Z.pow_add_r by lia. apply Z.pow_le_mono_r; lia. }
    set (y := m' * 2 ^ (e' + 1074)) in *. set (P := 2 ^ (e + 1074)) in *. set (K := 2 ^ 52) in *.
    assert (X : d * (K * P) <= N * s) by (replace (d * (K * P)) with (K * (d * P)) by ring; rewrite DD; nia).
    assert (X2 : d * y <= d * (K * P)) by nia. clearbody y P K N s. split; [lia|]. intros EQ. rewrite (Z.abs_eq (N * s - d * (K * P))), Z.abs_eq in EQ by lia. nia. }
  assert (HIGH : forall m' e', e <= e' -> apart n d m' e' = apart n d (m' * 2 ^ (e' - e)) e /\ m' * 2 ^ (e' + 1074) = (m' * 2 ^ (e' - e)) * 2 ^ (e + 1074)).
  { intros m' e' GE. assert (Q : m' * 2 ^ (e' + 1074) = (m' * 2 ^ (e' - e)) * 2 ^ (e + 1074)).
    { rewrite <- Z.mul_assoc, <- Z.pow_add_r by lia. do 2 f_equal. lia. }
    split; [|exact Q]. unfold apart. rewrite Q. reflexivity. }
  assert (BEST : forall j, apart n d m e <= apart n d j e).
  { intros j. rewrite !AP. apply Z.mul_le_mono_nonneg_l; [lia|]. subst m. apply rhe_best. exact DP. }
  assert (TIE : forall j, apart n d j e = apart n d m e -> j <> m -> Z.even m = true).
  { intros j EQ NE. rewrite !AP in EQ. apply Z.mul_cancel_l in EQ; [|lia]. rewrite <- Hm in *. apply (rhe_tie N D j DP); congruence. }
  split.
  - intros m' e' DB. destruct (Z.le_gt_cases e e') as [GE|LT].
    + destruct (HIGH m' e' GE) as [-> _]. apply BEST.
    + destruct (LOW m' e' DB LT) as [L _]. eapply Z.le_trans; [apply BEST|exact L].
  - intros m' e' DB EQ NE. destruct (Z.le_gt_cases e e') as [GE|LT].
    + destruct (HIGH m' e' GE) as [H1 H2]. rewrite H1 in EQ. apply (TIE _ EQ). intros X. apply NE. rewrite H2, X. reflexivity.
    + destruct (LOW m' e' DB LT) as [L1 L2]. pose proof (BEST (2 ^ 52)) as B. assert (Q : apart n d (2 ^ 52) e = apart n d m e) by lia.
      apply (TIE _ Q). intros X. apply NE. rewrite (L2 ltac:(lia)), X. reflexivity.
Qed.

(** ... and there is only one such double. *)
Lemma rounds_normal n d m e : rounds n d m e -> exists m' e', rounds n d m' e' /\ Z.abs m' < 2 ^ 53 /\ m' * 2 ^ (e' + 1074) = m * 2 ^ (e + 1074).
Proof.
  intros R. pose proof R as ([B1 B2] & R2 & R3). destruct (Z.eq_dec (Z.abs m) (2 ^ 53)) as [Q|]; [|exists m, e; split; [exact R|]; split; [lia|reflexivity]].
  exists (Z.sgn m * 2 ^ 52), (e + 1).
  assert (V : Z.sgn m * 2 ^ 52 * 2 ^ (e + 1 + 1074) = m * 2 ^ (e + 1074)).
  { replace (e + 1 + 1074) with (1 + (e + 1074)) by (clear; lia). rewrite Z.pow_add_r by (clear - B2; lia).
    assert (MS : m = Z.sgn m * 2 ^ 53) by (clear - Q; lia). rewrite MS at 2. change (2 ^ 53) with (2 ^ 52 * 2). change (2 ^ 1) with 2. ring. }
  assert (AP : apart n d (Z.sgn m * 2 ^ 52) (e + 1) = apart n d m e) by (unfold apart; rewrite V; reflexivity).
  split; [|split; [|exact V]].
  - split; [split; lia|]. split.
    + intros. rewrite AP. apply R2. assumption.
    + intros. rewrite Z.even_mul. change (Z.even (2 ^ 52)) with true. apply orb_true_r.
  - lia.
Qed.
Lemma rounds_lt n d m1 e1 m2 e2 : 0 < d -> rounds n d m1 e1 -> rounds n d m2 e2 -> Z.abs m1 < 2 ^ 53 -> Z.abs m2 < 2 ^ 53 ->
  ~ m1 * 2 ^ (e1 + 1074) < m2 * 2 ^ (e2 + 1074).
Proof.
  intros Hd R1 R2 M1 M2 LT. pose proof R1 as ([A1 A2] & A3 & A4). pose proof R2 as ([B1 B2] & B3 & B4).
  assert (EQ : apart n d m1 e1 = apart n d m2 e2) by (apply Z.le_antisymm; [apply A3|apply B3]; split; assumption).
  assert (V1 : Z.even m1 = true) by (apply (A4 m2 e2); [split; assumption|congruence|lia]).
  assert (V2 : Z.even m2 = true) by (apply (B4 m1 e1); [split; assumption|congruence|lia]).
  assert (MID : forall C, m1 * 2 ^ (e1 + 1074) < C < m2 * 2 ^ (e2 + 1074) -> Z.abs (n * 2 ^ 1074 - d * C) < apart n d m1 e1).
  { intros C HC. unfold apart in *. set (a := m1 * 2 ^ (e1 + 1074)) in *. set (b := m2 * 2 ^ (e2 + 1074)) in *. set (X := n * 2 ^ 1074) in *. clearbody a b X.
    assert (d * a < d * C < d * b) by nia. set (da := d * a) in *. set (dc := d * C) in *. set (db := d * b) in *. clearbody da dc db. lia. }
  destruct (Z.le_gt_cases e1 e2) as [GE|GT].
  - assert (Q : m2 * 2 ^ (e2 + 1074) = (m2 * 2 ^ (e2 - e1)) * 2 ^ (e1 + 1074)) by (rewrite <- Z.mul_assoc, <- Z.pow_add_r by lia; do 2 f_equal; lia).
    pose proof (Z.pow_pos_nonneg 2 (e1 + 1074) ltac:(lia) ltac:(lia)) as PP. rewrite Q in LT.
    assert (L : m1 < m2 * 2 ^ (e2 - e1)) by nia. destruct (Z.eq_dec (m1 + 1) (m2 * 2 ^ (e2 - e1))) as [J|J].
    + assert (Z.even (m1 + 1) = false) by (rewrite Z.even_add, V1; reflexivity). rewrite J, Z.even_mul, V2 in H. discriminate.
    + specialize (MID ((m1 + 1) * 2 ^ (e1 + 1074)) ltac:(rewrite Q; nia)). fold (apart n d (m1 + 1) e1) in MID. specialize (A3 (m1 + 1) e1 ltac:(split; lia)). lia.
  - assert (Q : m1 * 2 ^ (e1 + 1074) = (m1 * 2 ^ (e1 - e2)) * 2 ^ (e2 + 1074)) by (rewrite <- Z.mul_assoc, <- Z.pow_add_r by lia; do 2 f_equal; lia).
    pose proof (Z.pow_pos_nonneg 2 (e2 + 1074) ltac:(lia) ltac:(lia)) as PP. rewrite Q in LT.
    assert (L : m1 * 2 ^ (e1 - e2) < m2) by nia. destruct (Z.eq_dec (m2 - 1) (m1 * 2 ^ (e1 - e2))) as [J|J].
    + assert (Z.even (m2 - 1) = false) by (rewrite Z.even_sub, V2; reflexivity). rewrite J, Z.even_mul, V1 in H. discriminate.
    + specialize (MID ((m2 - 1) * 2 ^ (e2 + 1074)) ltac:(rewrite Q; nia)). fold (apart n d (m2 - 1) e2) in MID. specialize (A3 (m2 - 1) e2 ltac:(split; lia)). lia.
Qed.
Theorem rounds_unique n d m1 e1 m2 e2 : 0 < d -> rounds n d m1 e1 -> rounds n d m2 e2 -> m1 * 2 ^ (e1 + 1074) = m2 * 2 ^ (e2 + 1074).
Proof.
  intros Hd R1 R2. destruct (rounds_normal _ _ _ _ R1) as (a & p & R1' & A & <-). destruct (rounds_normal _ _ _ _ R2) as (b & q & R2' & B & <-).
  pose proof (rounds_lt n d a p b q Hd R1' R2' A B). pose proof (rounds_lt n d b q a p Hd R2' R1' B A). lia.
Qed.

(** ** Texts *)
Definition asc (r : pystr) : list ascii := map (fun z => ascii_of_N (Z.to_N z)) r.
Definition low (z : Z) : bool := (0 <=? z) && (z <? 128).
Lemma asc_inj a b : low a = true -> low b = true -> ascii_of_N (Z.to_N a) = ascii_of_N (Z.to_N b) -> a = b.
Proof. unfold low. intros H1 H2 H. apply (f_equal N_of_ascii) in H. rewrite !N_ascii_embedding in H by lia. lia. Qed.
Lemma asc_eqb z (c : ascii) w : low z = true -> low w = true -> ascii_of_N (Z.to_N w) = c -> Ascii.eqb (ascii_of_N (Z.to_N z)) c = (z =? w).
Proof.
  intros H1 H2 <-. destruct (Z.eqb_spec z w) as [-> |N]; [apply Ascii.eqb_refl|]. destruct (Ascii.eqb_spec (ascii_of_N (Z.to_N z)) (ascii_of_N (Z.to_N w))) as [X|]; [|reflexivity].
  exfalso. apply N, asc_inj; assumption.
Qed.
Lemma digit_code z : low z = true -> digit_val (ascii_of_N (Z.to_N z)) = if dec_digit z then Some (z - 48) else None.
Proof.
  unfold low, dec_digit. intros H. unfold digit_val, nat_of_ascii. rewrite N_ascii_embedding by lia. rewrite N_nat_Z, Z2N.id by lia. reflexivity.
Qed.
Lemma digit_low z : dec_digit z = true -> low z = true.
Proof. unfold dec_digit, low. lia. Qed.
Lemma digits_low ds : forallb dec_digit ds = true -> forallb low ds = true.
Proof. rewrite !forallb_forall. intros H x I. apply digit_low. auto. Qed.

(** digits up to the first other character *)
Lemma take_code r : forallb low r = true -> forall acc cnt, exists ds rest, r = ds ++ rest /\ forallb dec_digit ds = true /\
  (match rest with [] => True | c :: _ => dec_digit c = false end) /\
  take_digits acc cnt (asc r) = (fold_left (fun a c => 10 * a + (c - 48)) ds acc, cnt + zlen ds, asc rest).
Proof.
  induction r as [|c r IH]; intros L acc cnt; cbn [asc map take_digits].
  { exists [], []. repeat split. cbn. f_equal. f_equal. lia. }
  cbn [forallb] in L. apply andb_true_iff in L as [L1 L2]. rewrite (digit_code c L1). destruct (dec_digit c) eqn:D.
  - destruct (IH L2 (10 * acc + (c - 48)) (cnt + 1)) as (ds & rest & -> & D2 & R & T). exists (c :: ds), rest. cbn [forallb app fold_left]. rewrite D, D2. repeat split; auto.
    fold (asc (ds ++ rest)). rewrite T. f_equal. f_equal. unfold zlen. cbn [List.length]. lia.
  - exists [], (c :: r). repeat split; auto. cbn. f_equal. f_equal. lia.
Qed.
Lemma take_exact ds rest acc cnt : forallb dec_digit ds = true -> forallb low rest = true -> (match rest with [] => True | c :: _ => dec_digit c = false end) ->
  take_digits acc cnt (asc (ds ++ rest)) = (fold_left (fun a c => 10 * a + (c - 48)) ds acc, cnt + zlen ds, asc rest).
Proof.
  revert acc cnt. induction ds as [|c ds IH]; intros acc cnt D L R; cbn [app fold_left].
  - destruct rest as [|c rest]; cbn [asc map take_digits]; [f_equal; f_equal; cbn; lia|]. cbn [forallb] in L. apply andb_true_iff in L as [L1 _]. rewrite (digit_code c L1), R. f_equal. f_equal. cbn. lia.
  - cbn [forallb] in D. apply andb_true_iff in D as [D1 D2]. cbn [asc map take_digits]. rewrite (digit_code c (digit_low c D1)), D1. fold (asc (ds ++ rest)). rewrite IH by assumption.
    f_equal. f_equal. unfold zlen. cbn [List.length]. lia.
Qed.
Lemma sign_code r : forallb low r = true -> exists sg neg rest, r = sg ++ rest /\ signed sg neg /\ take_sign (asc r) = (neg, asc rest).
Proof.
  intros L. destruct r as [|c r]; [exists [], false, []; repeat split; constructor|]. cbn [forallb] in L. apply andb_true_iff in L as [L1 L2].
  cbn [asc map take_sign]. rewrite (asc_eqb c "-" 45 L1 eq_refl eq_refl), (asc_eqb c "+" 43 L1 eq_refl eq_refl).
  destruct (Z.eqb_spec c 45) as [-> |]; [exists [45], true, r; repeat split; constructor|]. destruct (Z.eqb_spec c 43) as [-> |]; [exists [43], false, r; repeat split; constructor|].
  exists [], false, (c :: r). repeat split; constructor.
Qed.
Lemma sign_exact sg neg rest : signed sg neg -> forallb low rest = true -> (match rest with [] => True | c :: _ => c <> 45 /\ c <> 43 end) ->
  take_sign (asc (sg ++ rest)) = (neg, asc rest).
Proof.
  intros SG L R. destruct SG; cbn [app]; [|reflexivity|reflexivity]. destruct rest as [|c rest]; [reflexivity|]. cbn [forallb] in L. apply andb_true_iff in L as [L1 _].
  cbn [asc map take_sign]. rewrite (asc_eqb c "-" 45 L1 eq_refl eq_refl), (asc_eqb c "+" 43 L1 eq_refl eq_refl). destruct R as [R1 R2].
  replace (c =? 45) with false by lia. replace (c =? 43) with false by lia. reflexivity.
Qed.
Lemma signed_low sg neg : signed sg neg -> forallb low sg = true.
Proof. intros []; reflexivity. Qed.
Lemma exponent_low ex x : exponent ex x -> forallb low ex = true /\ (match ex with [] => True | c :: _ => dec_digit c = false /\ c <> 46 end).
Proof.
  intros [|c sg neg ds C SG NE D]; [auto|]. cbn [forallb]. rewrite forallb_app, (signed_low _ _ SG), (digits_low _ D). destruct C as [-> | ->]; (split; [reflexivity|split; [reflexivity|lia]]).
Qed.
Lemma zlen_pos {A} (l : list A) : l <> [] -> 1 <= zlen l.
Proof. destruct l; [congruence|]. unfold zlen. cbn [List.length]. lia. Qed.
Lemma head_digit ds rest : ds <> [] -> forallb dec_digit ds = true -> match ds ++ rest with [] => True | c :: _ => c <> 45 /\ c <> 43 end.
Proof. destruct ds as [|c ds]; [congruence|]. intros _ D. cbn [forallb] in D. apply andb_true_iff in D as [D _]. unfold dec_digit in D. cbn [app]. lia. Qed.
(** the tail of parse_decimal *)
Definition parse_tail (neg : bool) (m nf : Z) (l3 : list ascii) : option (bool * Z * Z) :=
  match l3 with
  | [] => Some (neg, m, - nf)
  | c :: r => if Ascii.eqb c "e" || Ascii.eqb c "E" then
                let '(eneg, l4) := take_sign r in
                let '(ev, ne, l5) := take_digits 0 0 l4 in
                match l5 with
                | [] => if ne =? 0 then None else Some (neg, m, (if eneg then - ev else ev) - nf)
                | _ => None
                end
              else None
  end.
Lemma tail_exact neg m nf ex x : exponent ex x -> parse_tail neg m nf (asc ex) = Some (neg, m, x - nf).
Proof.
  intros [|c sg eneg ds C SG NE D]; [reflexivity|]. cbn [asc map parse_tail]. fold (asc (sg ++ ds)).
  assert (X : Ascii.eqb (ascii_of_N (Z.to_N c)) "e" || Ascii.eqb (ascii_of_N (Z.to_N c)) "E" = true) by (destruct C as [-> | ->]; reflexivity).
  rewrite X, (sign_exact sg eneg ds SG (digits_low _ D)) by (rewrite <- (app_nil_r ds); apply head_digit; assumption).
  rewrite <- (app_nil_r ds) at 1. rewrite (take_exact ds [] 0 0 D eq_refl Logic.I). cbn [asc map]. pose proof (zlen_pos ds NE). replace (0 + zlen ds =? 0) with false by lia. reflexivity.
Qed.
Lemma tail_code neg m nf r a b c : forallb low r = true -> parse_tail neg m nf (asc r) = Some (a, b, c) -> exists x, exponent r x /\ a = neg /\ b = m /\ c = x - nf.
Proof.
  intros L. destruct r as [|z r]; cbn [asc map parse_tail].
  { intros H. injection H as <- <- <-. exists 0. split; [constructor|auto]. }
  cbn [forallb] in L. apply andb_true_iff in L as [L1 L2]. fold (asc r). destruct (_ || _) eqn:E; [|discriminate].
  rewrite (asc_eqb z "e" 101 L1 eq_refl eq_refl), (asc_eqb z "E" 69 L1 eq_refl eq_refl) in E.
  destruct (sign_code r L2) as (sg & eneg & rest & -> & SG & TS). rewrite TS. rewrite forallb_app in L2. apply andb_true_iff in L2 as [_ L3].
  destruct (take_code rest L3 0 0) as (ds & rest2 & -> & D & R & T). rewrite T. destruct rest2; [|discriminate]. cbn [asc map]. rewrite app_nil_r.
  destruct (Z.eqb_spec (0 + zlen ds) 0) as [Z0|Z0]; [discriminate|]. intros H. injection H as <- <- <-. eexists. split; [|split; [reflexivity|split; [reflexivity|]]].
  - constructor; [lia|exact SG|intros ->; cbn in Z0; lia|exact D].
  - reflexivity.
Qed.
Lemma parse_unfold l : parse_decimal l =
  (let '(neg, l1) := take_sign l in let '(ip, ni, l2) := take_digits 0 0 l1 in
   let '(m, nf, l3) := match l2 with c :: r => if Ascii.eqb c "." then take_digits ip 0 r else (ip, 0, l2) | [] => (ip, 0, []) end in
   if ni + nf =? 0 then None else parse_tail neg m nf l3).
Proof.
  unfold parse_decimal, parse_tail. destruct (take_sign l) as [neg l1]. destruct (take_digits 0 0 l1) as [[ip ni] [|c r]]; [reflexivity|]. destruct (Ascii.eqb c "."); [|reflexivity].
  destruct (take_digits ip 0 r) as [[m nn] r']. reflexivity.
Qed.
Theorem literal_parse r neg a x : literal r neg a x -> forallb low r = true /\ parse_decimal (asc r) = Some (neg, a, x).
Proof.
  intros [sg neg' ip fr fp ex x' SG FR EX NE D]. pose proof (exponent_low _ _ EX) as [XL XH]. rewrite forallb_app in D. apply andb_true_iff in D as [D1 D2].
  assert (FL : forallb low fr = true) by (destruct FR; [reflexivity|cbn [forallb]; rewrite (digits_low _ D2); reflexivity]).
  assert (RL : forallb low (ip ++ fr ++ ex) = true) by (rewrite !forallb_app, (digits_low _ D1), FL, XL; reflexivity).
  split; [rewrite forallb_app, (signed_low _ _ SG), RL; reflexivity|]. rewrite parse_unfold.
  rewrite (sign_exact sg neg' _ SG RL).
  2:{ destruct ip as [|c ip]; [|apply head_digit; [discriminate|exact D1]]. destruct FR; [exfalso; apply NE; reflexivity|]. cbn. lia. }
  assert (LP : 1 <= zlen ip + zlen fp) by (pose proof (zlen_pos _ NE) as X; unfold zlen in *; rewrite app_length in X; lia).
  rewrite (take_exact ip (fr ++ ex) 0 0 D1); [|rewrite forallb_app, FL, XL; reflexivity|destruct FR; [cbn [app]; destruct ex; tauto|reflexivity]].
  destruct FR as [|fp].
  - cbn [app]. rewrite app_nil_r. assert (X : match asc ex with c :: r => if Ascii.eqb c "." then take_digits (fold_left (fun a c => 10 * a + (c - 48)) ip 0) 0 r else (fold_left (fun a c => 10 * a + (c - 48)) ip 0, 0, asc ex) | [] => (fold_left (fun a c => 10 * a + (c - 48)) ip 0, 0, []) end = (dec_val ip, 0, asc ex)).
    { destruct ex as [|c ex]; [reflexivity|]. cbn [asc map]. cbn [forallb] in XL. apply andb_true_iff in XL as [XL1 _]. rewrite (asc_eqb c "." 46 XL1 eq_refl eq_refl). destruct XH as [_ XH]. replace (c =? 46) with false by lia. reflexivity. }
    rewrite X. change (zlen (@nil Z)) with 0 in *. replace (0 + zlen ip + 0 =? 0) with false by lia. apply tail_exact. exact EX.
  - cbn [app asc map]. fold (asc (fp ++ ex)). change (Ascii.eqb (ascii_of_N (Z.to_N 46)) ".") with true. cbv iota.
    rewrite (take_exact fp ex _ _ D2 XL) by (destruct ex; tauto). rewrite <- fold_left_app. fold (dec_val (ip ++ fp)). replace (0 + zlen ip + (0 + zlen fp) =? 0) with false by lia.
    rewrite Z.add_0_l. apply tail_exact. exact EX.
Qed.
Theorem parse_literal r neg a x : forallb low r = true -> parse_decimal (asc r) = Some (neg, a, x) -> literal r neg a x.
Proof.
  intros L. rewrite parse_unfold. destruct (sign_code r L) as (sg & n0 & rest & -> & SG & TS). rewrite TS. rewrite forallb_app in L. apply andb_true_iff in L as [_ L].
  destruct (take_code rest L 0 0) as (ip & rest2 & -> & D & R & T). rewrite T. rewrite forallb_app in L. apply andb_true_iff in L as [_ L].
  assert (NF : forall fr fp ex, rest2 = fr ++ ex -> fraction fr fp -> forallb dec_digit fp = true -> forallb low ex = true ->
     (if 0 + zlen ip + (0 + zlen fp) =? 0 then None else parse_tail n0 (dec_val (ip ++ fp)) (0 + zlen fp) (asc ex)) = Some (neg, a, x) -> literal (sg ++ ip ++ rest2) neg a x).
  { intros fr fp ex -> FR DF LX. destruct (Z.eqb_spec (0 + zlen ip + (0 + zlen fp)) 0) as [Z0|Z0]; [discriminate|]. intros H. destruct (tail_code _ _ _ _ _ _ _ LX H) as (x' & EX & -> & -> & ->).
    rewrite Z.add_0_l. constructor; auto.
    - intros X. apply app_eq_nil in X as [-> ->]. apply Z0. reflexivity.
    - rewrite forallb_app, D, DF. reflexivity. }
  destruct rest2 as [|c rest2]; cbn [asc map].
  - intros H. apply (NF [] [] []); auto; [constructor|]. rewrite app_nil_r. exact H.
  - cbn [forallb] in L. apply andb_true_iff in L as [L1 L2]. rewrite (asc_eqb c "." 46 L1 eq_refl eq_refl). destruct (Z.eqb_spec c 46) as [-> |NE].
    + fold (asc rest2). destruct (take_code rest2 L2 (fold_left (fun a c => 10 * a + (c - 48)) ip 0) 0) as (fp & ex & -> & D2 & R2 & T2). rewrite T2. rewrite <- fold_left_app. fold (dec_val (ip ++ fp)).
      rewrite forallb_app in L2. apply andb_true_iff in L2 as [_ L2]. apply (NF (46 :: fp) fp ex); auto. constructor.
    + intros H. apply (NF [] [] (c :: rest2)); [reflexivity|constructor|reflexivity|cbn [forallb]; rewrite L1, L2; reflexivity|]. rewrite app_nil_r. exact H.
Qed.
Lemma literal_fun r neg a x neg' a' x' : literal r neg a x -> literal r neg' a' x' -> neg = neg' /\ a = a' /\ x = x'.
Proof. intros H1 H2. apply literal_parse in H1 as [_ H1]. apply literal_parse in H2 as [_ H2]. rewrite H1 in H2. injection H2 as <- <- <-. auto. Qed.
Theorem literal_iff r neg a x : literal r neg a x <-> forallb low r = true /\ parse_decimal (asc r) = Some (neg, a, x).
Proof. split; [apply literal_parse|intros [L P]; apply parse_literal; assumption]. Qed.
