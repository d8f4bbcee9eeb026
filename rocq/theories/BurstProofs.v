(** Proofs of C82: what damage to several bytes or bits the checksums detect. *)
From Verif Require Import Base PyVal Checksums Headers Pretty Args FileIO Append Spec BaseLemmas HeaderProofs IOProofs WfProofs
  Archive MetaProofs AppendProofs ArchiveProofs CrashProofs HistoryProofs ChecksumProofs Damage DamageProofs Burst.
From Coq Require Import ZifyBool ZifyNat.
Ltac Zify.zify_post_hook ::= Z.div_mod_to_equations.

(** ** Bits of a byte string and of the number it spells *)
Lemma u8_cons0 x f : u8 0 (x :: f) = Zb x.
Proof. change (u8 0 (x :: f)) with (Zb x + 256 * 0). lia. Qed.
Lemma sub_cons p n x f : 1 <= p -> sub p n (x :: f) = sub (p - 1) n f.
Proof. intros H. unfold sub. replace (Z.to_nat p) with (S (Z.to_nat (p - 1))) by lia. reflexivity. Qed.
Lemma u8_cons p x f : 1 <= p -> u8 p (x :: f) = u8 (p - 1) f.
Proof. intros H. unfold u8. rewrite sub_cons by auto. reflexivity. Qed.
Lemma bit_uint f : forall k, 0 <= k -> Z.testbit (uint_le f) k = bit k f.
Proof.
  induction f as [|x f IH]; intros k Hk.
  - unfold bit, u8, sub. rewrite skipn_nil. cbn. rewrite !Z.testbit_0_l. reflexivity.
  - change (uint_le (x :: f)) with (Zb x + 256 * uint_le f).
    rewrite <- lxor_disjoint by apply Zb_range. rewrite Z.lxor_spec.
    replace (256 * uint_le f) with (uint_le f * 2 ^ 8) by (change (2 ^ 8) with 256; ring).
    pose proof (Zb_range x) as R.
    destruct (Z.lt_ge_cases k 8) as [L|L].
    + rewrite Z.mul_pow2_bits_low by lia. rewrite xorb_false_r. unfold bit.
      replace (k / 8) with 0 by lia. replace (k mod 8) with k by lia. rewrite u8_cons0. reflexivity.
    + rewrite Z.mul_pow2_bits by lia.
      assert (Z.testbit (Zb x) k = false) as ->.
      { destruct (Z.eq_dec (Zb x) 0) as [->|N]; [apply Z.bits_0|]. apply Z.bits_above_log2; [lia|].
        apply Z.lt_le_trans with 8; [|lia]. apply Z.log2_lt_pow2; lia. }
      rewrite xorb_false_l, IH by lia. unfold bit. rewrite u8_cons by lia.
      replace (k / 8 - 1) with ((k - 8) / 8) by lia. replace (k mod 8) with ((k - 8) mod 8) by lia. reflexivity.
Qed.

(** ** Powers of the shift register *)
Fixpoint sh (n : nat) (c : Z) : Z := match n with O => c | S n' => sh n' (crc_shift c) end.
Lemma sh_add a : forall b c, sh (a + b) c = sh b (sh a c).
Proof. induction a as [|a IH]; intros; cbn; auto. Qed.
Lemma iter8_sh n : forall c, iter8 n c = sh (8 * n) c.
Proof.
  induction n as [|n IH]; intros c; [reflexivity|]. cbn [iter8]. rewrite IH. replace (8 * S n)%nat with (8 + 8 * n)%nat by lia.
  rewrite sh_add. reflexivity.
Qed.
Lemma sh_lxor n : forall a b, sh n (Z.lxor a b) = Z.lxor (sh n a) (sh n b).
Proof. induction n as [|n IH]; intros; cbn [sh]; [reflexivity|]. rewrite crc_shift_lxor. apply IH. Qed.
Lemma sh_pow2 n : forall v, sh n (2 ^ Z.of_nat n * v) = v.
Proof.
  induction n as [|n IH]; intros v; cbn [sh].
  - change (2 ^ Z.of_nat 0) with 1. lia.
  - rewrite Nat2Z.inj_succ, Z.pow_succ_r by lia. rewrite <- Z.mul_assoc, crc_shift_even. apply IH.
Qed.
Lemma sh_zero n : forall v, w32 v -> sh n v = 0 -> v = 0.
Proof.
  induction n as [|n IH]; intros v W H; cbn [sh] in H; auto. apply IH in H; [|apply w32_shift; auto]. apply crc_shift_zero; auto.
Qed.
Lemma sh_0 n : sh n 0 = 0.
Proof. induction n; cbn; auto. Qed.

(** Lowest set bit. *)
Lemma low_bit D : 0 < D -> exists k v, D = 2 ^ Z.of_nat k * v /\ Z.odd v = true /\ 0 < v.
Proof.
  intros H. pattern D. apply (Z_lt_induction (fun D => 0 < D -> exists k v, D = 2 ^ Z.of_nat k * v /\ Z.odd v = true /\ 0 < v)); [|lia|exact H].
  clear D H. intros D IH H. destruct (Z.odd D) eqn:OD.
  - exists 0%nat, D. change (2 ^ Z.of_nat 0) with 1. repeat split; auto; lia.
  - pose proof (Z.div2_odd D) as E. rewrite OD in E. cbn [Z.b2z] in E.
    destruct (IH (Z.div2 D) ltac:(lia) ltac:(lia)) as (k & v & E1 & E2 & E3).
    exists (S k), v. split; [|auto]. rewrite Nat2Z.inj_succ, Z.pow_succ_r by lia. lia.
Qed.
Lemma bits_bound v : 0 <= v -> (forall k, 0 <= k -> Z.testbit v k = true -> k < 32) -> w32 v.
Proof.
  intros H0 H. unfold w32. split; [auto|]. destruct (Z.eq_dec v 0) as [->|N]; [lia|].
  apply Z.log2_lt_pow2; [lia|]. apply H; [apply Z.log2_nonneg|]. apply Z.bit_log2. lia.
Qed.

Lemma iter8_lxor n a b : iter8 n (Z.lxor a b) = Z.lxor (iter8 n a) (iter8 n b).
Proof. rewrite !iter8_sh. apply sh_lxor. Qed.

(** Two messages of the same size that leave the register in the same state. *)
Lemma fold_diff w w' c : List.length w = List.length w' ->
  fold_left crc_step w c = fold_left crc_step w' c <-> iter8 (List.length w) (Z.lxor (uint_le w) (uint_le w')) = 0.
Proof.
  intros L. rewrite !crc_window, <- L, !iter8_lxor. split; intros H.
  - rewrite !(Z.lxor_comm (iter8 _ c)) in H. apply lxor_inj_r in H. rewrite H. apply Z.lxor_nilpotent.
  - apply Z.lxor_eq in H. rewrite H. reflexivity.
Qed.
Lemma fold_close w w' c : List.length w = List.length w' -> close_bits w w' ->
  fold_left crc_step w c = fold_left crc_step w' c -> w = w'.
Proof.
  intros L CB H. apply fold_diff in H; [|auto]. apply uint_le_inj; [auto|]. apply Z.lxor_eq.
  set (D := Z.lxor (uint_le w) (uint_le w')) in *.
  pose proof (uint_le_range w) as R1. pose proof (uint_le_range w') as R2.
  assert (D0 : 0 <= D) by (apply Z.lxor_nonneg; lia).
  assert (BD : forall k, 0 <= k -> Z.testbit D k = true -> bit k w <> bit k w').
  { intros k Hk T. unfold D in T. rewrite Z.lxor_spec, !bit_uint in T by auto. destruct (bit k w), (bit k w'); discriminate || cbn in T; congruence. }
  destruct (Z.eq_dec D 0) as [Q|N]; [exact Q|exfalso].
  destruct (low_bit D ltac:(lia)) as (k & v & E1 & E2 & E3).
  assert (TV : forall j, 0 <= j -> Z.testbit D (Z.of_nat k + j) = Z.testbit v j).
  { intros j Hj. rewrite E1, Z.mul_comm, Z.mul_pow2_bits by lia. f_equal. lia. }
  assert (W : w32 v).
  { apply bits_bound; [lia|]. intros j Hj T. rewrite <- TV in T by auto. apply BD in T; [|lia].
    assert (T0 : Z.testbit D (Z.of_nat k) = true).
    { replace (Z.of_nat k) with (Z.of_nat k + 0) by lia. rewrite TV, Z.bit0_odd by lia. exact E2. }
    apply BD in T0; [|lia]. specialize (CB (Z.of_nat k) (Z.of_nat k + j) ltac:(lia) ltac:(lia) T0 T). lia. }
  assert (K : (k <= 8 * List.length w)%nat).
  { destruct (Nat.le_gt_cases k (8 * List.length w)) as [Q|Q]; [exact Q|exfalso].
    assert (BB : D < 2 ^ (8 * size w)).
    { apply Z.log2_lt_pow2; [lia|]. pose proof (Z.log2_lxor (uint_le w) (uint_le w') ltac:(lia) ltac:(lia)) as LX. fold D in LX.
      assert (G : forall x, 0 <= x < 256 ^ size w -> 1 <= size w -> Z.log2 x < 8 * size w).
      { intros x Hx S1. destruct (Z.eq_dec x 0) as [->|]; [change (Z.log2 0) with 0; lia|]. apply Z.log2_lt_pow2; [lia|].
        rewrite Z.pow_mul_r by lia. exact (proj2 Hx). }
      assert (S1 : 1 <= size w).
      { destruct w as [|x0 w0]; [|unfold size; cbn [List.length]; lia]. destruct w'; [|discriminate]. unfold D in N. cbn in N. congruence. }
      assert (SW : size w' = size w) by (unfold size; lia).
      pose proof (G _ R1 S1). rewrite SW in R2. pose proof (G _ R2 S1). lia. }
    assert (2 ^ (8 * size w) <= 2 ^ Z.of_nat k) by (apply Z.pow_le_mono_r; unfold size; lia).
    assert (2 ^ Z.of_nat k * 1 <= D) by (rewrite E1; apply Z.mul_le_mono_nonneg_l; lia). lia. }
  rewrite iter8_sh in H. replace (8 * List.length w)%nat with (k + (8 * List.length w - k))%nat in H by lia.
  rewrite sh_add, E1, sh_pow2 in H. apply sh_zero in H; [lia|exact W].
Qed.

(** After the data and its right digest the register is in one and the same state. *)
Lemma crc_residue E c d : size d = 4 ->
  d = digest E CkCrc32 c <-> fold_left crc_step (c ++ d) 0xFFFFFFFF = iter8 4 0xFFFFFFFF.
Proof.
  intros S4. rewrite fold_left_app, crc_window. replace (List.length d) with 4%nat by (unfold size in S4; lia).
  assert (WI : w32 0xFFFFFFFF) by (unfold w32; lia).
  pose proof (w32_fold c _ WI) as WS. set (s := fold_left crc_step c 0xFFFFFFFF) in *.
  assert (UD : uint_le (digest E CkCrc32 c) = Z.lxor s 0xFFFFFFFF).
  { unfold digest. cbn [cks_digest]. rewrite uint_le_enc; [reflexivity|]. change (256 ^ Z.of_nat 4) with (2 ^ 32). apply crc32_range. }
  split.
  - intros ->. rewrite UD. f_equal. rewrite <- Z.lxor_assoc, Z.lxor_nilpotent. apply Z.lxor_0_l.
  - intros H. assert (WD : w32 (uint_le d)) by (pose proof (uint_le_range d) as R; rewrite S4 in R; exact R).
    apply iter8_inj in H; [|apply w32_lxor; auto|auto].
    apply uint_le_inj; [unfold size in S4; rewrite (ltac:(lia) : List.length d = 4%nat); reflexivity|].
    rewrite UD, <- H, <- Z.lxor_assoc, Z.lxor_nilpotent, Z.lxor_0_l. reflexivity.
Qed.
Lemma crc_detect E c c' d' : size c = size c' -> size d' = 4 -> close_bits (c ++ digest E CkCrc32 c) (c' ++ d') ->
  d' = digest E CkCrc32 c' -> c ++ digest E CkCrc32 c = c' ++ d'.
Proof.
  intros L L' CB HD. apply (fold_close _ _ 0xFFFFFFFF); auto.
  - rewrite !app_length. unfold size in *. change (List.length (digest E CkCrc32 c)) with 4%nat. lia.
  - transitivity (iter8 4 0xFFFFFFFF); [|symmetry]; apply (crc_residue E); auto.
Qed.
(** Beyond 32 bits: the generator itself. *)
Lemma crc_blind p w w' s k : size w = size w' -> 0 <= k -> Z.lxor (uint_le w) (uint_le w') = 0x1DB710641 * 2 ^ k ->
  crc32 (p ++ w ++ s) = crc32 (p ++ w' ++ s).
Proof.
  intros L Hk H. unfold crc32. f_equal. rewrite !fold_left_app. f_equal. apply fold_diff; [unfold size in L; lia|].
  rewrite H, iter8_sh. pose proof (uint_le_range w) as R1. pose proof (uint_le_range w') as R2.
  assert (S1 : 1 <= size w).
  { destruct w as [|x0 w0]; [|unfold size; cbn [List.length]; lia]. destruct w'; [|discriminate]. change (0 = 0x1DB710641 * 2 ^ k) in H.
    pose proof (Z.pow_pos_nonneg 2 k ltac:(lia) Hk). lia. }
  assert (K : k < 8 * size w).
  { pose proof (Z.log2_lxor (uint_le w) (uint_le w') ltac:(lia) ltac:(lia)) as LX. rewrite H in LX.
    assert (G : forall x, 0 <= x < 256 ^ size w -> Z.log2 x < 8 * size w).
    { intros x Hx. destruct (Z.eq_dec x 0) as [->|]; [change (Z.log2 0) with 0; lia|]. apply Z.log2_lt_pow2; [lia|].
      rewrite Z.pow_mul_r by lia. exact (proj2 Hx). }
    pose proof (G _ R1). rewrite <- L in R2. pose proof (G _ R2).
    assert (k <= Z.log2 (0x1DB710641 * 2 ^ k)) by (rewrite Z.log2_mul_pow2 by lia; change (Z.log2 0x1DB710641) with 32; lia). lia. }
  replace (8 * List.length w)%nat with (Z.to_nat k + S (8 * List.length w - Z.to_nat k - 1))%nat by (unfold size in K; lia).
  rewrite sh_add. replace (0x1DB710641 * 2 ^ k) with (2 ^ Z.of_nat (Z.to_nat k) * 0x1DB710641) by (rewrite Z2Nat.id by lia; ring).
  rewrite sh_pow2. cbn [sh]. change (crc_shift 0x1DB710641) with 0. apply sh_0.
Qed.

(** ** adler32: two bytes *)
Lemma weighted_app a b : weighted_sum (a ++ b) = weighted_sum a + size b * byte_sum a + weighted_sum b.
Proof.
  induction a as [|x a IH]; cbn [app weighted_sum byte_sum]; [lia|]. rewrite IH. change size with (@zlen byte). rewrite zlen_app. lia.
Qed.
Lemma adler_spec_inj d d' : adler_spec d = adler_spec d' -> size d = size d' ->
  (byte_sum d - byte_sum d') mod 65521 = 0 /\ (weighted_sum d - weighted_sum d') mod 65521 = 0.
Proof.
  unfold adler_spec. intros H L. rewrite <- L in H.
  pose proof (Z.mod_pos_bound (1 + byte_sum d) 65521 ltac:(lia)) as B1. pose proof (Z.mod_pos_bound (1 + byte_sum d') 65521 ltac:(lia)) as B2.
  set (W1 := (size d + weighted_sum d) mod 65521) in *. set (W2 := (size d + weighted_sum d') mod 65521) in *.
  assert (W1 = W2 /\ (1 + byte_sum d) mod 65521 = (1 + byte_sum d') mod 65521) as [E1 E2].
  { generalize dependent ((1 + byte_sum d) mod 65521). generalize dependent ((1 + byte_sum d') mod 65521). clearbody W1 W2. intros. lia. }
  unfold W1, W2 in E1. clear W1 W2 H B1 B2. split; lia.
Qed.
Lemma gcd_byte x : 0 < x < 256 -> Z.gcd 65521 x = 1.
Proof.
  intros H.
  assert (A : forallb (fun n => Z.gcd 65521 (Z.of_nat n) =? 1) (seq 1 255) = true) by (vm_compute; reflexivity).
  rewrite forallb_forall in A. specialize (A (Z.to_nat x)). rewrite Z2Nat.id in A by lia. apply Z.eqb_eq. apply A. apply in_seq. lia.
Qed.
Lemma adler_two a x y mid z t b : adler32 (a ++ x :: mid ++ z :: b) = adler32 (a ++ y :: mid ++ t :: b) -> size mid < 65520 ->
  x = y /\ z = t.
Proof.
  rewrite !adler32_closed. intros H L.
  assert (LL : size (a ++ x :: mid ++ z :: b) = size (a ++ y :: mid ++ t :: b)).
  { unfold size. rewrite !app_length. cbn [List.length]. rewrite !app_length. reflexivity. }
  destruct (adler_spec_inj _ _ H LL) as [H1 H2]. clear H LL.
  pose proof (Zb_range x) as Rx. pose proof (Zb_range y) as Ry. pose proof (Zb_range z) as Rz. pose proof (Zb_range t) as Rt.
  rewrite !byte_sum_app in H1. cbn [byte_sum] in H1. rewrite !byte_sum_app in H1. cbn [byte_sum] in H1.
  change u8b with Zb in *.
  set (X := Zb x - Zb y). set (Y := Zb z - Zb t).
  assert (S0 : X + Y = 0).
  { replace (byte_sum a + (Zb x + (byte_sum mid + (Zb z + byte_sum b))) - (byte_sum a + (Zb y + (byte_sum mid + (Zb t + byte_sum b))))) with (X + Y) in H1 by (unfold X, Y; ring).
    unfold X, Y in *. clear H2. lia. }
  assert (G : exists q, weighted_sum (a ++ x :: mid ++ z :: b) - weighted_sum (a ++ y :: mid ++ t :: b) = (size mid + 1) * X /\ q = tt).
  { exists tt. split; [|reflexivity]. rewrite !weighted_app. cbn [weighted_sum byte_sum]. rewrite !weighted_app. cbn [weighted_sum byte_sum].
    change size with (@zlen byte). change u8b with Zb. rewrite !zlen_cons, !zlen_app, !zlen_cons.
    replace Y with (- X) in * by lia. unfold X. assert (EZ : Zb z = Zb t + Zb y - Zb x) by (unfold X, Y in *; lia). rewrite EZ. ring. }
  destruct G as (_ & G & _). rewrite G in H2. clear G H1.
  pose proof (zlen_nonneg mid) as NM. change (zlen mid) with (size mid) in NM.
  assert (X = 0) as X0.
  { destruct (Z.eq_dec X 0) as [Q|Q]; [exact Q|exfalso].
    assert (D : (65521 | (size mid + 1) * X)) by (apply Z.mod_divide; [lia|exact H2]).
    assert (AX : 0 < Z.abs X < 256) by (unfold X in *; lia).
    assert (D2 : (65521 | Z.abs X * (size mid + 1))).
    { apply Z.divide_abs_r in D. rewrite Z.abs_mul, (Z.abs_eq (size mid + 1)) in D by lia. rewrite Z.mul_comm. exact D. }
    apply Z.gauss in D2; [|apply gcd_byte; auto]. apply Z.divide_pos_le in D2; lia. }
  split; apply Zb_inj; unfold X, Y in *; lia.
Qed.
(** Exactly 65521 apart, two bytes can trade places. *)
Lemma adler_swap a x y mid b : size mid = 65520 -> adler32 (a ++ x :: mid ++ y :: b) = adler32 (a ++ y :: mid ++ x :: b).
Proof.
  intros L. rewrite !adler32_closed. unfold adler_spec.
  assert (LL : size (a ++ x :: mid ++ y :: b) = size (a ++ y :: mid ++ x :: b)).
  { unfold size. rewrite !app_length. cbn [List.length]. rewrite !app_length. reflexivity. }
  rewrite LL. f_equal.
  - f_equal. rewrite !byte_sum_app. cbn [byte_sum]. rewrite !byte_sum_app. cbn [byte_sum]. lia.
  - f_equal. rewrite !weighted_app. cbn [weighted_sum byte_sum]. rewrite !weighted_app. cbn [weighted_sum byte_sum].
    change size with (@zlen byte). rewrite !zlen_cons, !zlen_app, !zlen_cons. change (zlen mid) with (size mid). rewrite L.
    match goal with |- ?u mod _ = ?v mod _ => assert (Q : u = v + (u8b x - u8b y) * 65521) by ring; rewrite Q end.
    apply Z.mod_add. lia.
Qed.

(** ** Splitting *)
Lemma split_left {A} (c d a : list A) x r : c ++ d = a ++ x :: r -> zlen a < zlen c -> exists c2, c = a ++ x :: c2 /\ r = c2 ++ d.
Proof.
  revert a. induction c as [|y c IH]; intros a H L.
  - pose proof (zlen_nonneg a). change (zlen (@nil A)) with 0 in L. lia.
  - destruct a as [|z a]; cbn [app] in H.
    + injection H as -> H. exists c. split; auto.
    + injection H as -> H. rewrite !zlen_cons in L. destruct (IH a H ltac:(lia)) as (c2 & -> & ->). exists c2. split; reflexivity.
Qed.
Lemma split_right {A} (c d a : list A) r : c ++ d = a ++ r -> zlen c <= zlen a -> exists d1, a = c ++ d1 /\ d = d1 ++ r.
Proof.
  revert a. induction c as [|y c IH]; intros a H L.
  - exists a. split; [reflexivity|exact H].
  - destruct a as [|z a]; cbn [app] in H.
    + pose proof (zlen_nonneg c). rewrite zlen_cons in L. change (zlen (@nil A)) with 0 in L. lia.
    + injection H as -> H. rewrite !zlen_cons in L. destruct (IH a H ltac:(lia)) as (d1 & -> & ->). exists d1. split; reflexivity.
Qed.
Lemma app_inj_length {A} (a b c d : list A) : List.length a = List.length b -> a ++ c = b ++ d -> a = b /\ c = d.
Proof.
  revert b. induction a as [|x a IH]; intros [|y b] L H; try discriminate; [auto|]. cbn [app] in H. injection H as -> H.
  destruct (IH b ltac:(cbn in L; lia) H) as [-> ->]. auto.
Qed.
Lemma sub_one q (f : bytes) : 0 <= q < zlen f -> exists x, sub q 1 f = [x].
Proof.
  intros H. assert (L : size (sub q 1 f) = 1) by (rewrite size_sub by lia; change size with (@zlen byte); lia).
  destruct (sub q 1 f) as [|x [|y l]]; [discriminate| |unfold size in L; cbn [List.length] in L; lia]. exists x. reflexivity.
Qed.
Lemma differ_two q r (f g : bytes) : zlen g = zlen f -> 0 <= q -> q < r -> r < zlen f ->
  (forall j, 0 <= j -> j <> q -> j <> r -> nth_error f (Z.to_nat j) = nth_error g (Z.to_nat j)) ->
  exists a x y mid z t b, f = a ++ x :: mid ++ z :: b /\ g = a ++ y :: mid ++ t :: b /\ zlen a = q /\ zlen mid = r - q - 1.
Proof.
  intros L H0 H1 H2 H.
  assert (SP : forall f : bytes, f = sub 0 q f ++ sub q 1 f ++ sub (q + 1) (r - q - 1) f ++ sub r 1 f ++ zdrop (r + 1) f).
  { intros k. pose proof (zdrop_split 0 q k ltac:(lia) ltac:(lia)) as S1. pose proof (zdrop_split q 1 k ltac:(lia) ltac:(lia)) as S2.
    pose proof (zdrop_split (q + 1) (r - q - 1) k ltac:(lia) ltac:(lia)) as S3. pose proof (zdrop_split r 1 k ltac:(lia) ltac:(lia)) as S4.
    replace (q + 1 + (r - q - 1)) with r in S3 by lia. rewrite Z.add_0_l, zdrop_0 in S1 by lia.
    rewrite <- S4, <- S3, <- S2. exact S1. }
  destruct (sub_one q f ltac:(lia)) as [x Ex]. destruct (sub_one q g ltac:(lia)) as [y Ey].
  destruct (sub_one r f ltac:(lia)) as [z Ez]. destruct (sub_one r g ltac:(lia)) as [t Et].
  assert (A1 : sub 0 q f = sub 0 q g) by (apply sub_ext; [lia|]; intros j Hj; apply H; clear -Hj H0 H1; lia).
  assert (A2 : sub (q + 1) (r - q - 1) f = sub (q + 1) (r - q - 1) g) by (apply sub_ext; [lia|]; intros j Hj; apply H; lia).
  assert (A3 : zdrop (r + 1) f = zdrop (r + 1) g).
  { assert (D : forall k : bytes, zdrop (r + 1) k = sub (r + 1) (zlen k) k).
    { intros k. rewrite <- ztake_zdrop_sub, ztake_all; [reflexivity|]. rewrite zlen_zdrop. pose proof (zlen_nonneg k). lia. }
    rewrite !D, L. apply sub_ext; [lia|]. intros j Hj. apply H; lia. }
  exists (sub 0 q f), x, y, (sub (q + 1) (r - q - 1) f), z, t, (zdrop (r + 1) f).
  rewrite (SP f) at 1. rewrite (SP g) at 1. rewrite Ex, Ey, Ez, Et, <- A1, <- A2, <- A3. split; [reflexivity|]. split; [reflexivity|].
  change (@zlen byte) with size. rewrite !size_sub by lia. change size with (@zlen byte). lia.
Qed.

(** ** adler32 with the digest: two bytes of data and digest together *)
Lemma halves x x' y y' : 0 <= x < 65536 -> 0 <= x' < 65536 -> x + 65536 * y = x' + 65536 * y' -> x = x' /\ y = y'.
Proof. lia. Qed.
Lemma four_bytes (d : bytes) : zlen d = 4 -> exists a b c e, d = [a; b; c; e].
Proof.
  destruct d as [|a [|b [|c [|e [|? ?]]]]]; unfold zlen; cbn [List.length]; intros H; try lia. eauto.
Qed.
Lemma one_change (d1 : bytes) z t s2 : zlen (d1 ++ z :: s2) = 4 ->
  sub 0 2 (d1 ++ z :: s2) = sub 0 2 (d1 ++ t :: s2) \/ sub 2 2 (d1 ++ z :: s2) = sub 2 2 (d1 ++ t :: s2).
Proof.
  intros L. destruct (four_bytes _ L) as (a & b & c & e & Q).
  destruct d1 as [|? [|? [|? [|? d1]]]]; cbn [app] in *.
  - right. injection Q as -> ->. reflexivity.
  - right. injection Q as -> -> ->. reflexivity.
  - left. reflexivity.
  - left. reflexivity.
  - exfalso. rewrite !zlen_cons, zlen_app, zlen_cons in L. pose proof (zlen_nonneg d1). pose proof (zlen_nonneg s2). lia.
Qed.
Lemma le4_halves z : 0 <= z < 2 ^ 32 -> uint_le (sub 0 2 (le_enc 4 z)) = z mod 65536 /\ uint_le (sub 2 2 (le_enc 4 z)) = z / 65536.
Proof.
  intros H. pose proof (uint_le_enc 4 z ltac:(change (256 ^ Z.of_nat 4) with (2 ^ 32); lia)) as U.
  destruct (four_bytes (le_enc 4 z) ltac:(reflexivity)) as (a & b & c & e & Q). rewrite Q in *.
  pose proof (Zb_range a). pose proof (Zb_range b). pose proof (Zb_range c). pose proof (Zb_range e).
  change (Zb a + 256 * (Zb b + 256 * (Zb c + 256 * (Zb e + 256 * 0))) = z) in U.
  change (uint_le (sub 0 2 [a; b; c; e])) with (Zb a + 256 * (Zb b + 256 * 0)).
  change (uint_le (sub 2 2 [a; b; c; e])) with (Zb c + 256 * (Zb e + 256 * 0)). lia.
Qed.
Lemma adler_data_digest E a x y c2 d1 z t s2 : zlen c2 < 65520 ->
  digest E CkAdler32 (a ++ x :: c2) = d1 ++ z :: s2 -> digest E CkAdler32 (a ++ y :: c2) = d1 ++ t :: s2 -> x = y.
Proof.
  intros L H1 H2. unfold digest in *. cbn [cks_digest] in *.
  pose proof (adler32_range (a ++ x :: c2)) as R1. pose proof (adler32_range (a ++ y :: c2)) as R2.
  destruct (le4_halves _ R1) as [P1 Q1]. destruct (le4_halves _ R2) as [P2 Q2].
  assert (OC : sub 0 2 (le_enc 4 (adler32 (a ++ x :: c2))) = sub 0 2 (le_enc 4 (adler32 (a ++ y :: c2))) \/
               sub 2 2 (le_enc 4 (adler32 (a ++ x :: c2))) = sub 2 2 (le_enc 4 (adler32 (a ++ y :: c2)))).
  { rewrite H1, H2. apply one_change. rewrite <- H1. reflexivity. }
  rewrite !adler32_closed in *. unfold adler_spec in *.
  assert (LL : size (a ++ x :: c2) = size (a ++ y :: c2)) by (unfold size; rewrite !app_length; reflexivity).
  rewrite LL in *. clear LL H1 H2 R1 R2.
  pose proof (Zb_range x) as Rx. pose proof (Zb_range y) as Ry.
  set (S1 := byte_sum (a ++ x :: c2)) in *. set (S2 := byte_sum (a ++ y :: c2)) in *.
  set (W1 := weighted_sum (a ++ x :: c2)) in *. set (W2 := weighted_sum (a ++ y :: c2)) in *. set (N := size (a ++ y :: c2)) in *.
  assert (DS : S1 - S2 = Zb x - Zb y).
  { unfold S1, S2. rewrite !byte_sum_app. cbn [byte_sum]. change u8b with Zb. lia. }
  assert (DW : W1 - W2 = (zlen c2 + 1) * (Zb x - Zb y)).
  { unfold W1, W2. rewrite !weighted_app. cbn [weighted_sum byte_sum]. change u8b with Zb. change size with (@zlen byte). rewrite !zlen_cons. ring. }
  clearbody S1 S2 W1 W2 N.
  pose proof (Z.mod_pos_bound (1 + S1) 65521 ltac:(lia)) as B1. pose proof (Z.mod_pos_bound (1 + S2) 65521 ltac:(lia)) as B2.
  apply Zb_inj. destruct OC as [OC|OC].
  - rewrite OC in P1. rewrite P1 in P2. clear Q1 Q2 P1 OC DW.
    assert (M : (1 + S1) mod 65521 = (1 + S2) mod 65521).
    { revert P2. generalize dependent ((1 + S1) mod 65521). generalize dependent ((1 + S2) mod 65521). intros u Hu v Hv.
      generalize ((N + W1) mod 65521), ((N + W2) mod 65521). intros. lia. }
    lia.
  - rewrite OC in Q1. rewrite Q1 in Q2. clear Q1 P1 P2 OC.
    assert (M : (N + W1) mod 65521 = (N + W2) mod 65521).
    { revert Q2. generalize dependent ((1 + S1) mod 65521). generalize dependent ((1 + S2) mod 65521). intros u Hu v Hv.
      generalize ((N + W1) mod 65521), ((N + W2) mod 65521). intros. lia. }
    clear Q2 B1 B2.
    assert (M0 : ((zlen c2 + 1) * (Zb x - Zb y)) mod 65521 = 0) by (rewrite <- DW; clear DW; lia).
    destruct (Z.eq_dec (Zb x) (Zb y)) as [Q|Q]; [exact Q|exfalso]. pose proof (zlen_nonneg c2) as NC. clear DS DW M.
    set (X := Zb x - Zb y) in *.
    assert (D : (65521 | (zlen c2 + 1) * X)) by (apply Z.mod_divide; [lia|exact M0]).
    assert (AX : 0 < Z.abs X < 256) by (unfold X in *; lia).
    assert (D2 : (65521 | Z.abs X * (zlen c2 + 1))).
    { apply Z.divide_abs_r in D. rewrite Z.abs_mul, (Z.abs_eq (zlen c2 + 1)) in D by lia. rewrite Z.mul_comm. exact D. }
    apply Z.gauss in D2; [|apply gcd_byte; auto]. apply Z.divide_pos_le in D2; lia.
Qed.
Lemma adler_detect E c c' d' q r : zlen c' = zlen c -> zlen d' = 4 -> 0 <= q < r -> r < zlen c + 4 -> r - q < 65521 ->
  (forall j, 0 <= j -> j <> q -> j <> r -> nth_error (c ++ digest E CkAdler32 c) (Z.to_nat j) = nth_error (c' ++ d') (Z.to_nat j)) ->
  d' = digest E CkAdler32 c' -> c ++ digest E CkAdler32 c = c' ++ d'.
Proof.
  intros L L4 Hq Hr Hd H HD. set (d := digest E CkAdler32 c) in *.
  assert (LD : zlen d = 4) by reflexivity.
  destruct (differ_two q r (c ++ d) (c' ++ d')) as (a & x & y & mid & z & t & b & E1 & E2 & La & Lm); try (rewrite ?zlen_app; lia); auto.
  destruct (Z.lt_ge_cases r (zlen c)) as [Q|Q].
  - (* both in the data *)
    assert (Q1 : c ++ d = (a ++ x :: mid) ++ z :: b) by (rewrite E1, <- app_assoc; reflexivity).
    assert (Q2 : c' ++ d' = (a ++ y :: mid) ++ t :: b) by (rewrite E2, <- app_assoc; reflexivity).
    destruct (split_left _ _ _ _ _ Q1) as (c2 & C1 & B1); [rewrite zlen_app, zlen_cons; lia|].
    destruct (split_left _ _ _ _ _ Q2) as (c3 & C2 & B2); [rewrite zlen_app, zlen_cons; lia|].
    assert (c2 = c3 /\ d = d') as [<- DD].
    { rewrite B1 in B2. apply app_inj_length; [|exact B2]. rewrite C1, C2, !zlen_app, !zlen_cons, ?zlen_app, ?zlen_cons in L. unfold zlen in L. lia. }
    assert (AA : adler32 c = adler32 c').
    { unfold d, digest in DD. rewrite HD in DD. unfold digest in DD. cbn [cks_digest] in DD. apply le4_inj in DD; auto using adler32_range. }
    rewrite C1, C2, <- !app_assoc in AA. cbn [app] in AA. apply adler_two in AA as [-> ->]; [congruence|]. change size with (@zlen byte). lia.
  - destruct (Z.lt_ge_cases q (zlen c)) as [Q'|Q'].
    + (* one in the data, one in the digest *)
      destruct (split_left _ _ _ _ _ E1 ltac:(lia)) as (c2 & C1 & B1). destruct (split_left _ _ _ _ _ E2 ltac:(lia)) as (c3 & C2 & B2).
      assert (L2 : zlen c2 = zlen c3) by (rewrite C1, C2 in L; rewrite !zlen_app, !zlen_cons in L; lia).
      assert (LC : zlen c2 <= zlen mid) by (rewrite C1 in Q; rewrite zlen_app, zlen_cons in Q; lia).
      destruct (split_right c2 d mid (z :: b)) as (d1 & M1 & D1); [congruence|lia|].
      destruct (split_right c3 d' mid (t :: b)) as (d2 & M2 & D2); [congruence|lia|].
      assert (c2 = c3 /\ d1 = d2) as [<- <-].
      { rewrite M1 in M2. apply app_inj_length; [|exact M2]. unfold zlen in L2. lia. }
      assert (x = y) as ->.
      { apply (adler_data_digest E a x y c2 d1 z t b); [|rewrite <- C1; exact D1|rewrite <- C2, <- HD; exact D2].
        rewrite M1, zlen_app in Lm. pose proof (zlen_nonneg d1). lia. }
      assert (EC : c = c') by congruence. rewrite HD, <- EC. reflexivity.
    + (* both in the digest *)
      assert (Q1 : c ++ d = a ++ x :: mid ++ z :: b) by exact E1.
      destruct (split_right c d a _ E1 ltac:(lia)) as (d1 & M1 & D1). destruct (split_right c' d' a _ E2 ltac:(lia)) as (d2 & M2 & D2).
      assert (c = c' /\ d1 = d2) as [<- <-].
      { rewrite M1 in M2. apply app_inj_length; [|exact M2]. unfold zlen in L. lia. }
      rewrite HD. reflexivity.
Qed.

(** ** Bits of a part of a file *)
Lemma u8_sub p n q f : 0 <= p -> 0 <= q < n -> u8 q (sub p n f) = u8 (p + q) f.
Proof.
  intros Hp Hq. unfold u8. f_equal. unfold sub. rewrite skipn_firstn_comm, firstn_firstn.
  rewrite <- !zdrop_skipn, zdrop_zdrop by lia. f_equal; [lia|]. f_equal. lia.
Qed.
Lemma u8_past q f : zlen f <= q -> u8 q f = 0.
Proof. intros H. unfold u8, sub. rewrite skipn_all2 by (unfold zlen in H; lia). rewrite firstn_nil. reflexivity. Qed.
Lemma bit_past k f : 8 * zlen f <= k -> bit k f = false.
Proof. intros H. unfold bit. rewrite u8_past by lia. apply Z.testbit_0_l. Qed.
Lemma bit_sub p n k f : 0 <= p -> 0 <= k < 8 * n -> bit k (sub p n f) = bit (8 * p + k) f.
Proof. intros Hp Hk. unfold bit. rewrite u8_sub by lia. f_equal; [f_equal|]; lia. Qed.
Lemma u8_app_r p a b : zlen a <= p -> u8 p (a ++ b) = u8 (p - zlen a) b.
Proof.
  intros H. pose proof (zlen_nonneg a). unfold u8, sub. rewrite skipn_app. rewrite skipn_all2 by (unfold zlen in H; lia).
  cbn [app]. do 3 f_equal. unfold zlen. lia.
Qed.
Lemma u8_app_l p a b : 0 <= p < zlen a -> u8 p (a ++ b) = u8 p a.
Proof. intros H. unfold u8. rewrite sub_app_l by lia. reflexivity. Qed.
Lemma bit_app_r k a b : 8 * zlen a <= k -> bit k (a ++ b) = bit (k - 8 * zlen a) b.
Proof. intros H. pose proof (zlen_nonneg a). unfold bit. rewrite u8_app_r by lia. f_equal; [f_equal|]; lia. Qed.
Lemma bit_app_l k a b : 0 <= k < 8 * zlen a -> bit k (a ++ b) = bit k a.
Proof. intros H. unfold bit. rewrite u8_app_l by lia. reflexivity. Qed.
Lemma sub_join p n k f : 0 <= p -> 0 <= n -> 0 <= k -> sub p n f ++ sub (p + n) k f = sub p (n + k) f.
Proof.
  intros Hp Hn Hk. rewrite <- !ztake_zdrop_sub. replace (p + n) with (n + p) by lia. rewrite <- zdrop_zdrop by lia.
  generalize (zdrop p f). intros g. rewrite !ztake_firstn, !zdrop_skipn.
  replace (Z.to_nat (n + k)) with (Z.to_nat n + Z.to_nat k)%nat by lia. rewrite <- (firstn_skipn (Z.to_nat n) g) at 3.
  destruct (Nat.le_gt_cases (Z.to_nat n) (List.length g)) as [L|L].
  - rewrite firstn_app, firstn_length, Nat.min_l by auto. rewrite firstn_firstn, Nat.min_r by lia.
    replace (Z.to_nat n + Z.to_nat k - Z.to_nat n)%nat with (Z.to_nat k) by lia. reflexivity.
  - rewrite skipn_all2, firstn_nil, !app_nil_r by lia. rewrite !firstn_firstn. f_equal. lia.
Qed.
Lemma close_sub p n f g : 0 <= p -> 0 <= n -> close_bits f g -> close_bits (sub p n f) (sub p n g).
Proof.
  intros Hp Hn H j k Hj Hk N1 N2.
  assert (B : forall i, 0 <= i -> bit i (sub p n f) <> bit i (sub p n g) -> i < 8 * n).
  { intros i Hi N. destruct (Z.lt_ge_cases i (8 * n)) as [Q|Q]; [exact Q|exfalso]. apply N.
    assert (S : forall x, 8 * zlen (sub p n x) <= i) by (intros x; change (@zlen byte) with size; rewrite size_sub by lia; lia).
    rewrite !bit_past by apply S. reflexivity. }
  pose proof (B j Hj N1). pose proof (B k Hk N2). rewrite !bit_sub in N1, N2 by lia.
  specialize (H (8 * p + j) (8 * p + k) ltac:(lia) ltac:(lia) N1 N2). lia.
Qed.
Lemma close_two p n q l f g : 0 <= p -> 0 <= n -> 0 <= l -> p + n <= q -> q + l <= zlen f -> q + l <= zlen g ->
  close_bits f g -> close_bits (sub p n f ++ sub q l f) (sub p n g ++ sub q l g).
Proof.
  intros Hp Hn Hl Hq Lf Lg H j k Hj Hk N1 N2.
  assert (SZ : forall x, q + l <= zlen x -> zlen (sub p n x) = n /\ zlen (sub q l x) = l).
  { intros x Hx. change (@zlen byte) with size. rewrite !size_sub by lia. change size with (@zlen byte). lia. }
  destruct (SZ f Lf) as [F1 F2]. destruct (SZ g Lg) as [G1 G2].
  assert (B : forall i, 0 <= i -> bit i (sub p n f ++ sub q l f) <> bit i (sub p n g ++ sub q l g) ->
    (i < 8 * n /\ bit (8 * p + i) f <> bit (8 * p + i) g) \/ (8 * n <= i < 8 * (n + l) /\ bit (8 * q + (i - 8 * n)) f <> bit (8 * q + (i - 8 * n)) g)).
  { intros i Hi N. destruct (Z.lt_ge_cases i (8 * n)) as [Q|Q].
    - left. split; [auto|]. rewrite !bit_app_l in N by lia. rewrite !bit_sub in N by lia. exact N.
    - rewrite !bit_app_r in N by lia. rewrite F1, G1 in N. destruct (Z.lt_ge_cases i (8 * (n + l))) as [Q2|Q2].
      + right. split; [lia|]. rewrite !bit_sub in N by lia. exact N.
      + exfalso. apply N. rewrite !bit_past by lia. reflexivity. }
  destruct (B j Hj N1) as [[J1 J2]|[J1 J2]]; destruct (B k Hk N2) as [[K1 K2]|[K1 K2]]; try lia;
    (match type of K2 with bit ?kk _ <> _ => match type of J2 with bit ?jj _ <> _ => pose proof (H jj kk ltac:(lia) ltac:(lia) J2 K2) end end; lia).
Qed.

Lemma rest_of k (b x y : bytes) : 0 <= k -> x = sub 0 k b -> b = x ++ y -> y = sub k (size b) b.
Proof.
  intros Hk Hx Hb. assert (L : zlen x = Z.min k (Z.max 0 (size b - 0))) by (rewrite Hx; change (@zlen byte) with size; apply size_sub; lia).
  rewrite <- ztake_zdrop_sub, ztake_all; [|rewrite zlen_zdrop; change size with (@zlen byte); pose proof (zlen_nonneg b); lia].
  destruct (Z.le_gt_cases k (zlen b)) as [Q|Q].
  - rewrite Hb, zdrop_app_exact; [reflexivity|]. change size with (@zlen byte) in L. lia.
  - rewrite zdrop_all by lia. assert (LY : zlen y = 0) by (rewrite Hb in L, Q; change size with (@zlen byte) in L; rewrite zlen_app in *; pose proof (zlen_nonneg y); pose proof (zlen_nonneg x); lia).
    destruct y; [reflexivity|]. rewrite zlen_cons in LY. pose proof (zlen_nonneg y). lia.
Qed.

Section WithEnv.
Variable E : Env.
Hypothesis HE : EnvOK E.

(** ** One chunk and its digest replaced by anything *)
Lemma uloop_any ck c d q n : 16 <= zlen c -> u32 12 c = zlen c -> zlen d = cks_size ck -> ck = CkNone \/ d = digest E ck c ->
  uloop E ck (S n) (c ++ d ++ q) = match e_decompress E c with Raise e => ([], Raise e) | Ok y => (y ++ fst (uloop E ck n q), snd (uloop E ck n q)) end.
Proof.
  intros L U LD HD. assert (d = digest E ck c) as ->.
  { destruct HD as [->|]; [|auto]. cbn in LD. destruct d; [reflexivity|]. rewrite zlen_cons in LD. pose proof (zlen_nonneg d). lia. }
  destruct (chunk_here_ok E HE ck c q L U) as (C1 & C2 & C3). unfold stored in *. rewrite <- app_assoc in *. cbn [uloop].
  rewrite C1, C2, C3, bytes_eqb_refl. cbn [negb]. rewrite andb_false_r.
  assert (zlen (c ++ digest E ck c ++ q) <? 16 = false) as ->.
  { rewrite zlen_app. pose proof (zlen_nonneg (digest E ck c ++ q)). lia. }
  destruct (e_decompress E c); [|reflexivity]. destruct (uloop E ck n q); reflexivity.
Qed.

Record cut (f b : bytes) (m : pyval) (i : Z) (ck : cks) (pre c d r before after : bytes) : Prop := mkCut {
  cu_bytes : f = pre ++ c ++ d ++ r;
  cu_pos : chunk_pos (Z.to_nat i) f = zlen pre;
  cu_len : u32 (zlen pre + 12) f = zlen c;
  cu_12 : u32 12 c = zlen c;
  cu_16 : 16 <= zlen c;
  cu_digest : d = digest E ck c;
  cu_dlen : F_digest f = cks_size ck;
  cu_ck : nth_error checksum_names (Z.to_nat (u8 6 f)) = Some (cks_name ck);
  cu_before : before = sub 0 (i * F_chunk f) b;
  cu_after : after = sub ((i + 1) * F_chunk f) (size b) b;
  cu_bad : forall c' d', zlen c' = zlen c -> u32 12 c' = zlen c' -> zlen d' = cks_size ck -> ck <> CkNone -> d' <> digest E ck c' ->
    unpack_core E (pre ++ c' ++ d' ++ r) = (before, Raise ChecksumMismatch);
  cu_good : forall c' d', zlen c' = zlen c -> u32 12 c' = zlen c' -> zlen d' = cks_size ck -> ck = CkNone \/ d' = digest E ck c' ->
    unpack_core E (pre ++ c' ++ d' ++ r) = match e_decompress E c' with Ok y => (before ++ y ++ after, Ok m) | Raise e => (before, Raise e) end }.

Lemma archive_cut f b m i : archive E f b m -> 0 <= i < F_n f -> exists ck pre c d r before after, cut f b m i ck pre c d r before after.
Proof.
  intros HA Hi. destruct (archive_arch E HE _ _ _ HA) as (h & o & cs & tail & A).
  pose proof (ar_wf _ _ _ _ _ _ _ _ A) as W. pose proof (wf_fields E HE _ _ _ _ _ W) as F.
  rewrite (fi_n _ _ _ _ F), (wf_n _ _ _ _ _ _ W) in Hi. destruct (nth_split_z cs i Hi) as (a & [c x] & b2 & EQ & LA).
  destruct (chunk_pos_wf E HE _ _ _ _ _ a W c x b2 EQ) as [P1 P2].
  pose proof (archive_checksum E _ _ _ _ _ W) as CKN.
  assert (LI : Z.to_nat i = List.length a) by (unfold zlen in LA; lia).
  subst cs. pose proof (content_prefix E _ _ _ _ _ _ _ _ _ _ A) as CP.
  pose proof (wf_chunks _ _ _ _ _ _ W) as HC. apply Forall_app in HC as [HCa HC]. inversion HC as [|? ? HC1 HCb]; subst. unfold chunk_ok in HC1; cbn [fst snd] in HC1.
  destruct (chunk_ok_len E HE _ _ HC1) as [L16 U12]. pose proof (zlen_table E _ _ _ _ _ W) as ZT.
  set (ck := h_checksum h) in *.
  set (pre := header_bytes h ++ osect_bytes E o ++ table E h o (a ++ (c, x) :: b2) ++ body E ck a) in *.
  assert (LP : zlen pre = body_pos E h o + zlen (body E ck a)).
  { unfold pre. rewrite !zlen_app, zlen_header_bytes, ZT. unfold body_pos. lia. }
  set (r := body E ck b2 ++ tail).
  assert (FE : f = pre ++ c ++ digest E ck c ++ r).
  { rewrite (wf_bytes _ _ _ _ _ _ W) at 1. unfold pre, r. fold ck. rewrite body_app. change ((c, x) :: b2) with ([(c, x)] ++ b2) at 2. rewrite body_app, body_one. cbn [fst].
    unfold stored. rewrite <- !app_assoc. reflexivity. }
  assert (UP : forall s, unpack_core E (pre ++ s) = 
     (content a ++ fst (uloop E ck (S (List.length b2)) s), rbind (snd (uloop E ck (S (List.length b2)) s)) (fun _ => Ok m))).
  { intros s. unfold pre. rewrite <- !app_assoc. rewrite (unpack_front E HE h o).
    - fold ck. replace (Z.to_nat (h_nchunks h)) with (List.length a + S (List.length b2))%nat.
      2:{ rewrite (wf_n _ _ _ _ _ _ W). unfold zlen. rewrite app_length. cbn [List.length]. lia. }
      rewrite (uloop_ok E HE) by auto. rewrite (ar_meta _ _ _ _ _ _ _ _ A). reflexivity.
    - apply (wf_header _ _ _ _ _ _ W).
    - apply (wf_version _ _ _ _ _ _ W).
    - apply (wf_flag _ _ _ _ _ _ W).
    - apply (wf_sect _ _ _ _ _ _ W).
    - rewrite (wf_n _ _ _ _ _ _ W). apply zlen_nonneg.
    - exact ZT. }
  assert (UB : uloop E ck (List.length b2) r = (content b2, Ok tt)).
  { unfold r. rewrite <- (Nat.add_0_r (List.length b2)). rewrite (uloop_ok E HE) by auto. cbn [uloop fst snd]. rewrite app_nil_r. reflexivity. }
  assert (AF : content b2 = sub ((zlen a + 1) * F_chunk f) (size b) b).
  { assert (CH : 0 <= F_chunk f) by (rewrite (fi_chunk _ _ _ _ F); apply (ar_c _ _ _ _ _ _ _ _ A)).
    destruct (content_parts E HE f h o (a ++ (c, x) :: b2) tail b m (a ++ [(c, x)]) b2 A) as [_ C2]; [rewrite <- app_assoc; reflexivity|].
    rewrite zlen_app in C2. change (zlen [(c, x)]) with 1 in C2. eapply rest_of; [pose proof (zlen_nonneg a); lia|exact C2|].
    rewrite <- (ar_content _ _ _ _ _ _ _ _ A). unfold content. rewrite <- concat_app, <- map_app, <- app_assoc. reflexivity. }
  exists ck, pre, c, (digest E ck c), r, (content a), (content b2).
  constructor; auto.
  - rewrite LI, P1, LP. reflexivity.
  - rewrite LP, <- P1. exact P2.
  - apply (fi_digest _ _ _ _ F).
  - rewrite (fi_chunk _ _ _ _ F). exact CP.
  - intros c' d' L U LD NC ND. rewrite UP, (uloop_bad_digest E) by (auto; lia). cbn [fst snd rbind]. rewrite app_nil_r. reflexivity.
  - intros c' d' L U LD HD. rewrite UP, uloop_any by (auto; lia). destruct (e_decompress E c'); [|cbn [fst snd rbind]; rewrite app_nil_r; reflexivity].
    rewrite UB. cbn [fst snd rbind]. reflexivity.
Qed.

(** The rest of the file is the same. *)
Lemma same_around p k f g : zlen g = zlen f -> 0 <= p -> 0 <= k -> agree 0 p f g -> agree (p + k) (size f) f g ->
  g = sub 0 p f ++ sub p k g ++ zdrop (p + k) f.
Proof.
  intros L Hp Hk A1 A2. rewrite (sub_ext 0 p f g) by (auto; lia).
  assert (D : forall x : bytes, zdrop (p + k) x = sub (p + k) (zlen x) x).
  { intros x. rewrite <- ztake_zdrop_sub, ztake_all; [reflexivity|]. rewrite zlen_zdrop. pose proof (zlen_nonneg x). lia. }
  rewrite (D f), (sub_ext _ _ f g) by (auto; lia). rewrite <- L, <- D, <- zdrop_split by lia.
  pose proof (zdrop_split 0 p g ltac:(lia) Hp) as S0. rewrite Z.add_0_l, zdrop_0 in S0 by lia. exact S0.
Qed.

Theorem chunk_any f b m g i ck : archive E f b m -> 0 <= i < F_n f ->
  nth_error checksum_names (Z.to_nat (u8 6 f)) = Some (cks_name ck) ->
  let p := chunk_pos (Z.to_nat i) f in let n := u32 (p + 12) f in
  size g = size f -> agree 0 p f g -> agree (p + 12) 4 f g -> agree (p + n + F_digest f) (size f) f g ->
  let c := sub p n g in let d := sub (p + n) (F_digest f) g in
  let before := sub 0 (i * F_chunk f) b in let after := sub ((i + 1) * F_chunk f) (size b) b in
  (ck <> CkNone -> d <> digest E ck c -> unpack_core E g = (before, Raise ChecksumMismatch)) /\
  (ck = CkNone \/ d = digest E ck c ->
   unpack_core E g = match e_decompress E c with Ok y => (before ++ y ++ after, Ok m) | Raise e => (before, Raise e) end).
Proof.
  intros HA Hi HK. destruct (archive_cut f b m i HA Hi) as (ck0 & pre & c0 & d0 & r & before0 & after0 & C). destruct C as [C1 C2 C3 C4 C5 C6 C7 C8 C9 C10 C11 C12].
  assert (ck0 = ck) as -> by (apply cks_name_inj; congruence).
  intros p n L A1 A2 A3 c d before after. unfold before, after in *. clear before after. rewrite <- C9, <- C10.
  unfold d, c, n, p in *. clear d c n p. rewrite C2 in *. rewrite C3, C7 in *.
  set (c := sub (zlen pre) (zlen c0) g) in *. set (d := sub (zlen pre + zlen c0) (cks_size ck) g) in *.
  assert (LD : zlen d0 = cks_size ck) by (rewrite C6; apply (zlen_digest E HE)).
  pose proof (zlen_nonneg pre) as NP. pose proof (zlen_nonneg r) as NR. pose proof (cks_size_nonneg ck) as NK.
  assert (LF : size f = zlen pre + zlen c0 + cks_size ck + zlen r) by (change size with (@zlen byte); rewrite C1, !zlen_app; lia).
  assert (G : g = pre ++ c ++ d ++ r).
  { rewrite <- Z.add_assoc in A3. pose proof (same_around (zlen pre) (zlen c0 + cks_size ck) f g L NP ltac:(lia) A1 A3) as G.
    assert (P0 : sub 0 (zlen pre) f = pre) by (rewrite C1; apply sub_at0; reflexivity).
    assert (R0 : zdrop (zlen pre + (zlen c0 + cks_size ck)) f = r).
    { rewrite C1, (app_assoc c0), app_assoc. apply zdrop_app_exact. rewrite !zlen_app. lia. }
    rewrite P0, R0, <- sub_join in G by lia. rewrite <- app_assoc in G. exact G. }
  assert (Lc : zlen c = zlen c0) by (unfold c; change (@zlen byte) with size at 1; rewrite size_sub by lia; change size with (@zlen byte) in *; lia).
  assert (Ld : zlen d = cks_size ck) by (unfold d; change (@zlen byte) with size at 1; rewrite size_sub by lia; change size with (@zlen byte) in *; lia).
  assert (U : u32 12 c = zlen c).
  { rewrite Lc, <- C4. unfold u32. f_equal. unfold c.
    assert (S12 : forall x, sub 12 4 (sub (zlen pre) (zlen c0) x) = sub (zlen pre + 12) 4 x).
    { intros x. unfold sub. rewrite skipn_firstn_comm, firstn_firstn, <- !zdrop_skipn, zdrop_zdrop by lia. f_equal; [lia|]. f_equal. lia. }
    rewrite S12, <- (sub_ext _ _ f g) by (auto; lia). rewrite <- (S12 f). do 2 f_equal. rewrite C1. apply sub_at; reflexivity. }
  split.
  - intros NC ND. rewrite G. apply C11; auto.
  - intros HD. rewrite G. apply C12; auto.
Qed.

Theorem chunk_burst f b m g i : archive E f b m -> u8 6 f = 2 -> 0 <= i < F_n f ->
  let p := chunk_pos (Z.to_nat i) f in let n := u32 (p + 12) f in
  size g = size f -> agree 0 p f g -> agree (p + 12) 4 f g -> agree (p + n + 4) (size f) f g ->
  g <> f -> close_bits f g -> unpack_core E g = (sub 0 (i * F_chunk f) b, Raise ChecksumMismatch).
Proof.
  intros HA H6 Hi p n L A1 A2 A3 N CB. destruct (archive_cut f b m i HA Hi) as (ck & pre & c0 & d0 & r & before0 & after0 & C). destruct C as [C1 C2 C3 C4 C5 C6 C7 C8 C9 C10 C11 C12].
  assert (ck = CkCrc32) as -> by (rewrite H6 in C8; destruct ck; try discriminate C8; reflexivity).
  assert (D4 : F_digest f = 4) by (rewrite C7; reflexivity).
  rewrite <- D4 in A3. apply (chunk_any f b m g i CkCrc32 HA Hi C8 L A1 A2 A3); [discriminate|]. fold p n. rewrite D4.
  unfold n, p in *. rewrite C2 in *. rewrite C3 in *. clear p n. rewrite D4 in A3. intros X.
  pose proof (zlen_nonneg pre) as NP. pose proof (zlen_nonneg r) as NR.
  assert (LD : zlen d0 = 4) by (rewrite C6; reflexivity).
  assert (LF : size f = zlen pre + zlen c0 + 4 + zlen r) by (change size with (@zlen byte); rewrite C1, !zlen_app; lia).
  assert (SF : sub (zlen pre) (zlen c0 + 4) f = c0 ++ digest E CkCrc32 c0).
  { rewrite C1, C6, (app_assoc c0). apply sub_at; change size with (@zlen byte); rewrite ?zlen_app, <- ?C6; lia. }
  apply N. rewrite <- Z.add_assoc in A3. pose proof (same_around (zlen pre) (zlen c0 + 4) f g L NP ltac:(lia) A1 A3) as G.
  rewrite G. pose proof (zdrop_split 0 (zlen pre) f ltac:(lia) NP) as S0. rewrite Z.add_0_l, zdrop_0, (zdrop_split (zlen pre) (zlen c0 + 4)) in S0 by lia.
  rewrite S0 at 3. f_equal. f_equal. rewrite SF. rewrite <- sub_join by lia. symmetry. apply crc_detect.
  - rewrite size_sub by lia. change size with (@zlen byte) in *. lia.
  - rewrite size_sub by lia. change size with (@zlen byte) in *. lia.
  - rewrite <- SF, sub_join by lia. apply close_sub; auto; lia.
  - exact X.
Qed.

Theorem chunk_pair f b m g i q r : archive E f b m -> u8 6 f = 1 -> 0 <= i < F_n f ->
  let p := chunk_pos (Z.to_nat i) f in let n := u32 (p + 12) f in
  p <= q < r -> r < p + n + 4 -> r - q < 65521 -> ~ (p + 12 <= q < p + 16) -> ~ (p + 12 <= r < p + 16) ->
  size g = size f -> (forall j, 0 <= j -> j <> q -> j <> r -> nth_error f (Z.to_nat j) = nth_error g (Z.to_nat j)) ->
  g <> f -> unpack_core E g = (sub 0 (i * F_chunk f) b, Raise ChecksumMismatch).
Proof.
  intros HA H6 Hi p n Hq Hr Hd NQ NR L AG N. destruct (archive_cut f b m i HA Hi) as (ck & pre & c0 & d0 & rr & before0 & after0 & C). destruct C as [C1 C2 C3 C4 C5 C6 C7 C8 C9 C10 C11 C12].
  assert (ck = CkAdler32) as -> by (rewrite H6 in C8; destruct ck; try discriminate C8; reflexivity).
  assert (D4 : F_digest f = 4) by (rewrite C7; reflexivity).
  pose proof (zlen_nonneg pre) as NP. pose proof (zlen_nonneg rr) as NRR.
  assert (A1 : agree 0 p f g) by (intros j Hj; apply AG; lia).
  assert (A2 : agree (p + 12) 4 f g) by (unfold p in *; rewrite C2 in *; intros j Hj; apply AG; lia).
  assert (A3 : agree (p + n + F_digest f) (size f) f g).
  { unfold n, p in *. rewrite C2 in *. rewrite C3 in *. intros j Hj. apply AG; lia. }
  apply (chunk_any f b m g i CkAdler32 HA Hi C8 L A1 A2 A3); [discriminate|]. fold p n. rewrite D4 in *.
  unfold n, p in *. rewrite C2 in *. rewrite C3 in *. clear p n. intros X.
  assert (LD : zlen d0 = 4) by (rewrite C6; reflexivity).
  assert (LF : size f = zlen pre + zlen c0 + 4 + zlen rr) by (change size with (@zlen byte); rewrite C1, !zlen_app; lia).
  assert (SF : sub (zlen pre) (zlen c0 + 4) f = c0 ++ digest E CkAdler32 c0).
  { rewrite C1, C6, (app_assoc c0). apply sub_at; change size with (@zlen byte); rewrite ?zlen_app, <- ?C6; lia. }
  apply N. rewrite <- Z.add_assoc in A3. pose proof (same_around (zlen pre) (zlen c0 + 4) f g L NP ltac:(lia) A1 A3) as G.
  rewrite G. pose proof (zdrop_split 0 (zlen pre) f ltac:(lia) NP) as S0. rewrite Z.add_0_l, zdrop_0, (zdrop_split (zlen pre) (zlen c0 + 4)) in S0 by lia.
  rewrite S0 at 3. f_equal. f_equal. rewrite SF. rewrite <- sub_join by lia. symmetry. apply (adler_detect E _ _ _ (q - zlen pre) (r - zlen pre)); try lia.
  - change (@zlen byte) with size at 1. rewrite size_sub by lia. change size with (@zlen byte) in *. lia.
  - change (@zlen byte) with size at 1. rewrite size_sub by lia. change size with (@zlen byte) in *. lia.
  - intros j Hj J1 J2. rewrite <- SF, sub_join by lia. destruct (Z.lt_ge_cases j (zlen c0 + 4)) as [Q|Q].
    + pose proof (nth_sub (zlen pre) (zlen c0 + 4) f (zlen pre + j) NP ltac:(lia)) as N1. pose proof (nth_sub (zlen pre) (zlen c0 + 4) g (zlen pre + j) NP ltac:(lia)) as N2.
      replace (zlen pre + j - zlen pre) with j in * by lia. rewrite N1, N2. apply AG; lia.
    + assert (OUT : forall x, nth_error (sub (zlen pre) (zlen c0 + 4) x) (Z.to_nat j) = None).
      { intros x. apply nth_error_None. assert (SS : size (sub (zlen pre) (zlen c0 + 4) x) <= zlen c0 + 4) by (rewrite size_sub by lia; lia).
        unfold size in SS. lia. }
      rewrite !OUT. reflexivity.
  - exact X.
Qed.

(** Two bytes of a chunk exactly 65521 apart trading places. *)
Theorem chunk_swap f b m g i a x mid y z : archive E f b m -> u8 6 f = 1 -> 0 <= i < F_n f ->
  let p := chunk_pos (Z.to_nat i) f in let n := u32 (p + 12) f in
  f = a ++ x :: mid ++ y :: z -> g = a ++ y :: mid ++ x :: z -> size mid = 65520 -> p <= size a -> size a + 65521 < p + n ->
  (size a < p + 12 \/ p + 16 <= size a) ->
  unpack_core E g = match e_decompress E (sub p n g) with
                    | Ok w => (sub 0 (i * F_chunk f) b ++ w ++ sub ((i + 1) * F_chunk f) (size b) b, Ok m)
                    | Raise e => (sub 0 (i * F_chunk f) b, Raise e) end.
Proof.
  intros HA H6 Hi p n Hf Hg LM Hp Hn Hout. destruct (archive_cut f b m i HA Hi) as (ck & pre & c0 & d0 & rr & before0 & after0 & C). destruct C as [C1 C2 C3 C4 C5 C6 C7 C8 C9 C10 C11 C12].
  assert (ck = CkAdler32) as -> by (rewrite H6 in C8; destruct ck; try discriminate C8; reflexivity).
  assert (D4 : F_digest f = 4) by (rewrite C7; reflexivity).
  pose proof (zlen_nonneg pre) as NP. pose proof (zlen_nonneg rr) as NRR. change size with (@zlen byte) in *.
  assert (L : zlen g = zlen f) by (rewrite Hf, Hg, !zlen_app, !zlen_cons, !zlen_app, !zlen_cons; lia).
  assert (AG : forall j, 0 <= j -> j <> zlen a -> j <> zlen a + 65521 -> nth_error f (Z.to_nat j) = nth_error g (Z.to_nat j)).
  { intros j Hj J1 J2. rewrite Hf, Hg. destruct (Z.lt_ge_cases j (zlen a)) as [Q|Q].
    - rewrite !nth_error_app1 by (unfold zlen in *; lia). reflexivity.
    - rewrite !nth_error_app2 by (unfold zlen in *; lia). destruct (Z.to_nat j - List.length a)%nat as [|k] eqn:K; [unfold zlen in *; lia|]. cbn [nth_error].
      destruct (Nat.lt_ge_cases k (List.length mid)) as [Q2|Q2].
      + rewrite !nth_error_app1 by lia. reflexivity.
      + rewrite !nth_error_app2 by lia. destruct (k - List.length mid)%nat as [|k2] eqn:K2; [unfold zlen in *; lia|]. reflexivity. }
  assert (A1 : agree 0 p f g) by (intros j Hj; apply AG; lia).
  assert (NL : ~ (p + 12 <= zlen a + 65521 < p + 16) /\ ~ (p + 12 <= zlen a < p + 16)) by lia.
  assert (A2 : agree (p + 12) 4 f g) by (unfold p in *; rewrite C2 in *; intros j Hj; apply AG; lia).
  assert (A3 : agree (p + n + F_digest f) (zlen f) f g).
  { unfold n, p in *. rewrite C2 in *. rewrite C3 in *. intros j Hj. apply AG; lia. }
  apply (chunk_any f b m g i CkAdler32 HA Hi C8 L A1 A2 A3). right. fold p n. rewrite D4 in *.
  unfold n, p in *. rewrite C2 in *. rewrite C3 in *. clear p n.
  assert (LD : zlen d0 = 4) by (rewrite C6; reflexivity).
  assert (SD : sub (zlen pre + zlen c0) 4 g = d0).
  { rewrite <- (agree_sub (zlen pre + zlen c0) 4 f g) by (try lia; intros j Hj; apply AG; lia).
    rewrite C1, app_assoc. apply sub_at; change size with (@zlen byte); rewrite ?zlen_app; lia. }
  rewrite SD, C6. unfold digest. cbn [cks_digest]. f_equal.
  (* the chunk before and after *)
  assert (SP : exists a1 z1, c0 = a1 ++ x :: mid ++ y :: z1 /\ sub (zlen pre) (zlen c0) g = a1 ++ y :: mid ++ x :: z1).
  { assert (T : exists a1, a = pre ++ a1).
    { rewrite Hf in C1. destruct (split_right pre (c0 ++ d0 ++ rr) a _ (eq_sym C1) Hp) as (a1 & Q1 & _). eauto. }
    destruct T as (a1 & ->). rewrite zlen_app in *.
    assert (T : c0 ++ (d0 ++ rr) = (a1 ++ x :: mid) ++ y :: z).
    { rewrite Hf, <- app_assoc in C1. apply app_inv_head in C1. rewrite <- C1, <- app_assoc. reflexivity. }
    destruct (split_left _ _ _ _ _ T) as (z1 & Q1 & Q2); [rewrite zlen_app, zlen_cons; lia|].
    exists a1, z1. rewrite <- app_assoc in Q1. split; [exact Q1|].
    replace g with (pre ++ (a1 ++ y :: mid ++ x :: z1) ++ (d0 ++ rr)).
    - apply sub_at; [reflexivity|]. change size with (@zlen byte). rewrite Q1, !zlen_app. cbn [app]. rewrite !zlen_cons, !zlen_app, !zlen_cons. lia.
    - rewrite Hg, Q2, <- !app_assoc. cbn [app]. rewrite <- !app_assoc. reflexivity. }
  destruct SP as (a1 & z1 & -> & ->). apply adler_swap. exact LM.
Qed.

(** ** The metadata section *)
Record mcut (f : bytes) (ck : cks) (pre c pad d r : bytes) : Prop := mkMCut {
  mu_bytes : f = pre ++ c ++ pad ++ d ++ r;
  mu_pos : zlen pre = 64;
  mu_comp : u32 52 f = zlen c;
  mu_max : u32 48 f = zlen c + zlen pad;
  mu_digest : d = digest E ck c;
  mu_ck : nth_error checksum_names (Z.to_nat (u8 41 f)) = Some (cks_name ck);
  mu_bad : forall c' pad' d', zlen c' = zlen c -> zlen pad' = zlen pad -> zlen d' = cks_size ck -> ck <> CkNone -> d' <> digest E ck c' ->
    unpack_core E (pre ++ c' ++ pad' ++ d' ++ r) = ([], Raise ChecksumMismatch) }.
Lemma archive_mcut f b m : archive E f b m -> has_meta f = true -> exists ck pre c pad d r, mcut f ck pre c pad d r.
Proof.
  intros HA HM. destruct (archive_arch E HE _ _ _ HA) as (h & o & cs & tail & A).
  pose proof (ar_wf _ _ _ _ _ _ _ _ A) as W. pose proof (wf_fields E HE _ _ _ _ _ W) as F.
  rewrite (fi_meta _ _ _ _ F), (wf_flag _ _ _ _ _ _ W) in HM. destruct o as [s|]; [|discriminate].
  pose proof (wf_sect _ _ _ _ _ _ W) as SO. cbn [osect_ok] in SO.
  set (r := table E h (Some s) cs ++ body E (h_checksum h) cs ++ tail).
  assert (FB : f = header_bytes h ++ msect_bytes E s ++ r) by exact (wf_bytes _ _ _ _ _ _ W).
  destruct (mfields3 E s (header_bytes h) r SO (zlen_header_bytes h)) as (M1 & M2 & M3). rewrite <- FB in M1, M2, M3.
  pose proof SO as (O1 & O2 & O3 & O4 & O5 & O6).
  pose proof (zlen_mheader_bytes _ O1) as L1. pose proof (zlen_header_bytes h) as L0.
  assert (W1 := wf_header _ _ _ _ _ _ W). assert (W2 := wf_version _ _ _ _ _ _ W). assert (W3 := wf_flag _ _ _ _ _ _ W). cbn [is_some] in W3.
  exists (mh_checksum (ms_h s)), (header_bytes h ++ mheader_bytes (ms_h s)), (ms_payload s), (ms_pad s), (digest E (mh_checksum (ms_h s)) (ms_payload s)), r.
  constructor; auto.
  - rewrite FB. unfold msect_bytes. rewrite <- !app_assoc. reflexivity.
  - rewrite zlen_app. lia.
  - lia.
  - lia.
  - intros c' pad' d' LC LP LD NC ND. rewrite <- app_assoc.
    set (s' := mkMS (ms_h s) (ms_payload s) pad' (ms_val s)).
    assert (SO' : msect_ok E s').
    { unfold msect_ok, s'. cbn [ms_h ms_payload ms_pad ms_val]. repeat (split; [assumption|]). split; [lia|]. exact O6. }
    apply (unpack_bad_meta E h s' c' d' r); auto. cbn [ms_h s']. lia.
Qed.
Lemma same_mid f g : zlen g = zlen f -> forall p n k l, 0 <= p -> 0 <= n -> 0 <= k -> 0 <= l -> agree 0 p f g -> agree (p + n + k + l) (size f) f g ->
  g = sub 0 p f ++ sub p n g ++ sub (p + n) k g ++ sub (p + n + k) l g ++ zdrop (p + n + k + l) f.
Proof.
  intros L p n k l Hp Hn Hk Hl A1 A2. replace (p + n + k + l) with (p + (n + k + l)) in * by lia.
  rewrite (same_around p (n + k + l) f g) at 1 by (auto; lia). f_equal. rewrite <- (sub_join p (n + k) l), <- (sub_join p n k) by lia.
  rewrite <- !app_assoc. do 4 f_equal. lia.
Qed.
Theorem meta_any f b m g ck : archive E f b m -> has_meta f = true ->
  nth_error checksum_names (Z.to_nat (u8 41 f)) = Some (cks_name ck) -> ck <> CkNone ->
  size g = size f -> agree 0 64 f g -> agree (64 + u32 48 f + digest_len (u8 41 f)) (size f) f g ->
  sub (64 + u32 48 f) (digest_len (u8 41 f)) g <> digest E ck (sub 64 (u32 52 f) g) ->
  unpack_core E g = ([], Raise ChecksumMismatch).
Proof.
  intros HA HM HK NC L A1 A2 ND. destruct (archive_mcut f b m HA HM) as (ck0 & pre & c & pad & d & r & [C1 C2 C3 C4 C5 C6 C7]).
  assert (ck0 = ck) as -> by (apply cks_name_inj; congruence).
  assert (DL : digest_len (u8 41 f) = cks_size ck) by (unfold digest_len; apply checksum_size_nth; exact C6).
  rewrite DL, C3, C4 in *. pose proof (zlen_nonneg c). pose proof (zlen_nonneg pad). pose proof (zlen_nonneg r). pose proof (cks_size_nonneg ck).
  assert (LD : zlen d = cks_size ck) by (rewrite C5; apply (zlen_digest E HE)).
  assert (LF : size f = 64 + zlen c + zlen pad + cks_size ck + zlen r) by (change size with (@zlen byte); rewrite C1, !zlen_app; lia).
  rewrite Z.add_assoc in A2, ND.
  pose proof (same_mid f g L 64 (zlen c) (zlen pad) (cks_size ck) ltac:(lia) ltac:(lia) ltac:(lia) ltac:(lia) A1 A2) as G.
  assert (P0 : sub 0 64 f = pre) by (rewrite C1; apply sub_at0; change size with (@zlen byte); lia).
  assert (R0 : zdrop (64 + zlen c + zlen pad + cks_size ck) f = r).
  { rewrite C1, (app_assoc pad), (app_assoc c), app_assoc. apply zdrop_app_exact. rewrite !zlen_app. lia. }
  rewrite P0, R0 in G. rewrite G. apply C7; auto.
  - change (@zlen byte) with size at 1. rewrite size_sub by lia. change size with (@zlen byte) in *. lia.
  - change (@zlen byte) with size at 1. rewrite size_sub by lia. change size with (@zlen byte) in *. lia.
  - change (@zlen byte) with size at 1. rewrite size_sub by lia. change size with (@zlen byte) in *. lia.
Qed.
Theorem meta_burst f b m g : archive E f b m -> has_meta f = true -> u8 41 f = 2 ->
  size g = size f -> agree 0 64 f g -> agree (64 + u32 48 f + 4) (size f) f g ->
  ~ (agree 64 (u32 52 f) f g /\ agree (64 + u32 48 f) 4 f g) -> close_bits f g -> unpack_core E g = ([], Raise ChecksumMismatch).
Proof.
  intros HA HM H41 L A1 A2 N CB. destruct (archive_mcut f b m HA HM) as (ck & pre & c & pad & d & r & [C1 C2 C3 C4 C5 C6 C7]).
  assert (ck = CkCrc32) as -> by (rewrite H41 in C6; destruct ck; try discriminate C6; reflexivity).
  assert (D4 : digest_len (u8 41 f) = 4) by (rewrite H41; reflexivity).
  apply (meta_any f b m g CkCrc32 HA HM C6); auto; [discriminate|rewrite D4; exact A2|]. rewrite D4. intros X. apply N. clear N.
  rewrite C3, C4 in *. pose proof (zlen_nonneg c). pose proof (zlen_nonneg pad). pose proof (zlen_nonneg r).
  assert (LD : zlen d = 4) by (rewrite C5; reflexivity).
  assert (LF : size f = 64 + zlen c + zlen pad + 4 + zlen r) by (change size with (@zlen byte); rewrite C1, !zlen_app; lia).
  assert (S1 : sub 64 (zlen c) f = c) by (rewrite C1; apply sub_at; change size with (@zlen byte); lia).
  assert (S2 : sub (64 + (zlen c + zlen pad)) 4 f = digest E CkCrc32 c).
  { rewrite C1, <- C5, (app_assoc c), app_assoc. apply sub_at; change size with (@zlen byte); rewrite ?zlen_app; lia. }
  assert (SZ : size (sub 64 (zlen c) g) = zlen c /\ size (sub (64 + (zlen c + zlen pad)) 4 g) = 4).
  { rewrite !size_sub by lia. lia. }
  assert (Q : c ++ digest E CkCrc32 c = sub 64 (zlen c) g ++ sub (64 + (zlen c + zlen pad)) 4 g).
  { apply crc_detect; try tauto.
    - change (size c) with (zlen c). symmetry. tauto.
    - rewrite <- S1 at 1. rewrite <- S2. apply close_two; auto; change size with (@zlen byte) in *; lia. }
  apply app_inj_length in Q as [Q1 Q2]; [|destruct SZ; unfold size, zlen in *; lia].
  split; apply sub_agree; try lia; congruence.
Qed.
Theorem meta_pair f b m g q r : archive E f b m -> has_meta f = true -> u8 41 f = 1 ->
  64 <= q < r -> r < 64 + u32 48 f + 4 -> r - q < 65521 ->
  size g = size f -> (forall j, 0 <= j -> j <> q -> j <> r -> nth_error f (Z.to_nat j) = nth_error g (Z.to_nat j)) ->
  ~ (agree 64 (u32 52 f) f g /\ agree (64 + u32 48 f) 4 f g) -> unpack_core E g = ([], Raise ChecksumMismatch).
Proof.
  intros HA HM H41 Hq Hr Hd L AG N. destruct (archive_mcut f b m HA HM) as (ck & pre & c & pad & d & rr & [C1 C2 C3 C4 C5 C6 C7]).
  assert (ck = CkAdler32) as -> by (rewrite H41 in C6; destruct ck; try discriminate C6; reflexivity).
  assert (D4 : digest_len (u8 41 f) = 4) by (rewrite H41; reflexivity).
  rewrite C3, C4 in *. pose proof (zlen_nonneg c). pose proof (zlen_nonneg pad). pose proof (zlen_nonneg rr).
  assert (LD : zlen d = 4) by (rewrite C5; reflexivity).
  assert (LF : size f = 64 + zlen c + zlen pad + 4 + zlen rr) by (change size with (@zlen byte); rewrite C1, !zlen_app; lia).
  assert (A1 : agree 0 64 f g) by (intros j Hj; apply AG; lia).
  assert (A2 : agree (64 + (zlen c + zlen pad) + 4) (size f) f g) by (intros j Hj; apply AG; lia).
  apply (meta_any f b m g CkAdler32 HA HM C6); auto; [discriminate|rewrite D4, C4; exact A2|]. rewrite D4, C3, C4. intros X. apply N. clear N.
  assert (S1 : sub 64 (zlen c) f = c) by (rewrite C1; apply sub_at; change size with (@zlen byte); lia).
  assert (S2 : sub (64 + (zlen c + zlen pad)) 4 f = digest E CkAdler32 c).
  { rewrite C1, <- C5, (app_assoc c), app_assoc. apply sub_at; change size with (@zlen byte); rewrite ?zlen_app; lia. }
  assert (SZ : size (sub 64 (zlen c) g) = zlen c /\ size (sub (64 + (zlen c + zlen pad)) 4 g) = 4).
  { rewrite !size_sub by lia. lia. }
  (* positions in the payload followed by the digest *)
  set (P := fun j => if j <? 64 + zlen c then j - 64 else j - 64 - zlen pad).
  assert (NTH : forall x, zlen (sub 64 (zlen c) x) = zlen c -> zlen (sub (64 + (zlen c + zlen pad)) 4 x) = 4 -> forall j, 0 <= j ->
    nth_error (sub 64 (zlen c) x ++ sub (64 + (zlen c + zlen pad)) 4 x) (Z.to_nat j)
    = if j <? zlen c then nth_error x (Z.to_nat (64 + j)) else if j <? zlen c + 4 then nth_error x (Z.to_nat (64 + zlen pad + j)) else None).
  { intros x Z1 Z2 j Hj. destruct (j <? zlen c) eqn:J1.
    - rewrite nth_error_app1 by (unfold zlen in *; lia).
      pose proof (nth_sub 64 (zlen c) x (64 + j) ltac:(lia) ltac:(lia)) as N1. replace (64 + j - 64) with j in N1 by lia. exact N1.
    - rewrite nth_error_app2 by (unfold zlen in *; lia). destruct (j <? zlen c + 4) eqn:J2.
      + pose proof (nth_sub (64 + (zlen c + zlen pad)) 4 x (64 + zlen pad + j) ltac:(lia) ltac:(lia)) as N1.
        replace (64 + zlen pad + j - (64 + (zlen c + zlen pad))) with (j - zlen c) in N1 by lia. rewrite <- N1. f_equal. unfold zlen in *. lia.
      + apply nth_error_None. unfold zlen in *. lia. }
  assert (LF1 : zlen (sub 64 (zlen c) f) = zlen c) by (rewrite S1; reflexivity).
  assert (LF2 : zlen (sub (64 + (zlen c + zlen pad)) 4 f) = 4) by (rewrite S2; reflexivity).
  destruct SZ as [SZ1 SZ2]. change (size (sub 64 (zlen c) g)) with (zlen (sub 64 (zlen c) g)) in SZ1.
  change (size (sub (64 + (zlen c + zlen pad)) 4 g)) with (zlen (sub (64 + (zlen c + zlen pad)) 4 g)) in SZ2.
  (* where the differences fall; a byte of the padding falls on a position that is the same *)
  assert (EX : exists q' r', 0 <= q' < r' /\ r' < zlen c + 4 /\ r' - q' < 65521 /\
    forall j, 0 <= j < zlen c + 4 -> j <> q' -> j <> r' ->
      (if j <? zlen c then 64 + j else 64 + zlen pad + j) <> q /\ (if j <? zlen c then 64 + j else 64 + zlen pad + j) <> r).
  { destruct (Z.lt_ge_cases q (64 + zlen c)) as [Q1|Q1]; [|destruct (Z.lt_ge_cases q (64 + (zlen c + zlen pad))) as [Q2|Q2]].
    - destruct (Z.lt_ge_cases r (64 + zlen c)) as [R1|R1]; [|destruct (Z.lt_ge_cases r (64 + (zlen c + zlen pad))) as [R2|R2]].
      + exists (q - 64), (r - 64). repeat split; try lia; destruct (j <? zlen c) eqn:J; lia.
      + exists (q - 64), (q - 64 + 1). repeat split; try lia; destruct (j <? zlen c) eqn:J; lia.
      + exists (q - 64), (r - 64 - zlen pad). repeat split; try lia; destruct (j <? zlen c) eqn:J; lia.
    - destruct (Z.lt_ge_cases r (64 + (zlen c + zlen pad))) as [R2|R2].
      + exists 0, 1. repeat split; try lia; destruct (j <? zlen c) eqn:J; lia.
      + destruct (Z.eq_dec (r - 64 - zlen pad) 0) as [Z0|Z0].
        * exists 0, 1. repeat split; try lia; destruct (j <? zlen c) eqn:J; lia.
        * exists (r - 64 - zlen pad - 1), (r - 64 - zlen pad). repeat split; try lia; destruct (j <? zlen c) eqn:J; lia.
    - exists (q - 64 - zlen pad), (r - 64 - zlen pad). repeat split; try lia; destruct (j <? zlen c) eqn:J; lia. }
  destruct EX as (q' & r' & B1 & B2 & B3 & B4).
  assert (Q : c ++ digest E CkAdler32 c = sub 64 (zlen c) g ++ sub (64 + (zlen c + zlen pad)) 4 g).
  { apply (adler_detect E _ _ _ q' r'); auto. intros j Hj J1 J2. rewrite <- S1 at 1. rewrite <- S2, !NTH by auto.
    destruct (j <? zlen c) eqn:T1; [|destruct (j <? zlen c + 4) eqn:T2; [|reflexivity]];
      (destruct (B4 j ltac:(lia) J1 J2) as [D1 D2]; rewrite T1 in D1, D2; apply AG; lia). }
  apply app_inj_length in Q as [Q1 Q2]; [|unfold zlen in *; lia].
  split; apply sub_agree; try lia; congruence.
Qed.
End WithEnv.

(** For the Examples: a test of [close_bits]. *)
Lemma close_test a f g : zlen g = zlen f ->
  forallb (fun k => Bool.eqb (bit (Z.of_nat k) f) (bit (Z.of_nat k) g) || ((a <=? Z.of_nat k) && (Z.of_nat k <? a + 32))) (seq 0 (8 * List.length f)) = true ->
  close_bits f g.
Proof.
  intros L H j k Hj Hk N1 N2. rewrite forallb_forall in H.
  assert (B : forall i, 0 <= i -> bit i f <> bit i g -> a <= i < a + 32).
  { intros i Hi N. destruct (Z.lt_ge_cases i (8 * zlen f)) as [Q|Q].
    - specialize (H (Z.to_nat i)). rewrite Z2Nat.id in H by lia. assert (T : In (Z.to_nat i) (seq 0 (8 * List.length f))) by (apply in_seq; unfold zlen in Q; lia).
      apply H in T. destruct (Bool.eqb (bit i f) (bit i g)) eqn:E; [apply Bool.eqb_prop in E; contradiction|]. cbn in T. lia.
    - exfalso. apply N. rewrite !bit_past by lia. reflexivity. }
  pose proof (B j Hj N1). pose proof (B k Hk N2). lia.
Qed.
Lemma differ_test f g q r : zlen g = zlen f ->
  forallb (fun k => (Nat.eqb k q) || (Nat.eqb k r) || match nth_error f k, nth_error g k with Some x, Some y => Byte.eqb x y | _, _ => false end) (seq 0 (List.length f)) = true ->
  forall j, 0 <= j -> j <> Z.of_nat q -> j <> Z.of_nat r -> nth_error f (Z.to_nat j) = nth_error g (Z.to_nat j).
Proof.
  intros L H j Hj J1 J2. rewrite forallb_forall in H. destruct (Z.lt_ge_cases j (zlen f)) as [Q|Q].
  - specialize (H (Z.to_nat j)). assert (T : In (Z.to_nat j) (seq 0 (List.length f))) by (apply in_seq; unfold zlen in Q; lia).
    apply H in T. destruct (Nat.eqb_spec (Z.to_nat j) q); [lia|]. destruct (Nat.eqb_spec (Z.to_nat j) r); [lia|]. cbn [orb] in T.
    destruct (nth_error f (Z.to_nat j)), (nth_error g (Z.to_nat j)); try discriminate. apply byte_eqb_eq in T. congruence.
  - rewrite (proj2 (nth_error_None f _)), (proj2 (nth_error_None g _)) by (unfold zlen in *; lia). reflexivity.
Qed.
