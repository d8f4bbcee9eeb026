(** adler32 and crc32. *)
From Verif Require Import Base PyVal Checksums Headers Args FileIO Spec BaseLemmas HeaderProofs.
From Coq Require Import ZifyBool ZifyNat.
Ltac Zify.zify_post_hook ::= Z.div_mod_to_equations.

(** ** adler32 *)
Lemma adler_fold d : forall a b, 0 <= a -> 0 <= b ->
  fold_left adler_step d (a mod 65521, b mod 65521)
  = ((a + byte_sum d) mod 65521, (b + size d * a + weighted_sum d) mod 65521).
Proof.
  induction d as [|x d IH]; intros a b Ha Hb.
  - cbn [fold_left byte_sum weighted_sum]. change (size []) with 0. f_equal; f_equal; lia.
  - cbn [fold_left byte_sum weighted_sum]. unfold adler_step at 2. cbn [fst snd].
    pose proof (Zb_range x) as Hx.
    rewrite Z.add_mod_idemp_l by lia. rewrite <- Z.add_mod by lia.
    rewrite IH by lia. change size with (@zlen byte). rewrite zlen_cons. change (u8b x) with (Zb x). f_equal; f_equal; ring.
Qed.
Lemma adler32_closed d : adler32 d = adler_spec d.
Proof.
  unfold adler32. change (1, 0) with (1 mod 65521, 0 mod 65521). rewrite adler_fold by lia. cbn [fst snd].
  unfold adler_spec. rewrite Z.mul_1_r, Z.add_0_l. lia.
Qed.
Lemma adler32_range d : 0 <= adler32 d < 2 ^ 32.
Proof.
  rewrite adler32_closed. unfold adler_spec.
  pose proof (Z.mod_pos_bound (1 + byte_sum d) 65521 ltac:(lia)). pose proof (Z.mod_pos_bound (size d + weighted_sum d) 65521 ltac:(lia)). lia.
Qed.
Lemma byte_sum_app a b : byte_sum (a ++ b) = byte_sum a + byte_sum b.
Proof. induction a as [|x a IH]; cbn [app byte_sum]; [lia|]. rewrite IH. lia. Qed.
Lemma Zb_inj x y : Zb x = Zb y -> x = y.
Proof. intros H. rewrite <- (bZ_Zb x), <- (bZ_Zb y), H. reflexivity. Qed.
Lemma adler_one a x y b : x <> y -> adler32 (a ++ x :: b) <> adler32 (a ++ y :: b).
Proof.
  intros Hxy H. rewrite !adler32_closed in H. unfold adler_spec in H.
  rewrite !byte_sum_app in H. cbn [byte_sum] in H. change (u8b x) with (Zb x) in H. change (u8b y) with (Zb y) in H.
  apply Hxy. apply Zb_inj. pose proof (Zb_range x). pose proof (Zb_range y).
  set (p := weighted_sum _) in H. set (q := weighted_sum _) in H. 
  set (s1 := size _) in H. set (s2 := size _) in H. set (u := byte_sum a) in *. set (v := byte_sum b) in *.
  assert (M : (1 + (u + (Zb x + v))) mod 65521 = (1 + (u + (Zb y + v))) mod 65521).
  { pose proof (Z.mod_pos_bound (1 + (u + (Zb x + v))) 65521 ltac:(lia)). pose proof (Z.mod_pos_bound (1 + (u + (Zb y + v))) 65521 ltac:(lia)).
    set (B1 := (s1 + p) mod 65521) in *. set (B2 := (s2 + q) mod 65521) in *.
    clearbody B1 B2. lia. }
  clear H. lia.
Qed.

(** ** crc32 *)
Lemma crc_shift_lxor a b : crc_shift (Z.lxor a b) = Z.lxor (crc_shift a) (crc_shift b).
Proof.
  unfold crc_shift. assert (O : Z.odd (Z.lxor a b) = xorb (Z.odd a) (Z.odd b)).
  { rewrite <- !Z.bit0_odd. apply Z.lxor_spec. }
  rewrite O, Z.shiftr_lxor. set (u := Z.shiftr a 1). set (v := Z.shiftr b 1).
  destruct (Z.odd a), (Z.odd b); cbn [xorb].
  - rewrite Z.lxor_assoc, (Z.lxor_comm crc_poly), Z.lxor_assoc, Z.lxor_nilpotent, Z.lxor_0_r. reflexivity.
  - rewrite !Z.lxor_assoc. f_equal. apply Z.lxor_comm.
  - rewrite Z.lxor_assoc. reflexivity.
  - reflexivity.
Qed.
Lemma crc_shift8_lxor a b : crc_shift8 (Z.lxor a b) = Z.lxor (crc_shift8 a) (crc_shift8 b).
Proof. unfold crc_shift8. rewrite !crc_shift_lxor. reflexivity. Qed.
Lemma crc_shift_even y : crc_shift (2 * y) = y.
Proof.
  unfold crc_shift. rewrite Z.odd_mul. cbn [Z.odd andb]. rewrite Z.shiftr_div_pow2 by lia. change (2 ^ 1) with 2. rewrite Z.mul_comm. apply Z.div_mul. lia.
Qed.
Lemma crc_shift8_shiftl y : crc_shift8 (256 * y) = y.
Proof.
  unfold crc_shift8. replace (256 * y) with (2 * (2 * (2 * (2 * (2 * (2 * (2 * (2 * y)))))))) by lia.
  rewrite !crc_shift_even. reflexivity.
Qed.

Definition w32 (c : Z) : Prop := 0 <= c < 2 ^ 32.
Lemma w32_lxor a b : w32 a -> w32 b -> w32 (Z.lxor a b).
Proof.
  unfold w32. intros Ha Hb. destruct (Z.eq_dec (Z.lxor a b) 0) as [->|N]; [lia|].
  assert (0 <= Z.lxor a b) by (apply Z.lxor_nonneg; lia). split; [auto|].
  apply Z.log2_lt_pow2; [lia|].
  pose proof (Z.log2_lxor a b ltac:(lia) ltac:(lia)) as L.
  assert (G : forall x, 0 <= x < 2 ^ 32 -> Z.log2 x < 32).
  { intros x Hx. destruct (Z.eq_dec x 0) as [->|]; [cbn; lia|]. apply Z.log2_lt_pow2; lia. }
  pose proof (G a Ha). pose proof (G b Hb). lia.
Qed.
Lemma w32_shift c : w32 c -> w32 (crc_shift c).
Proof.
  unfold w32. intros H. unfold crc_shift.
  assert (w32 (Z.shiftr c 1)) by (unfold w32; rewrite Z.shiftr_div_pow2 by lia; change (2 ^ 1) with 2; lia).
  destruct (Z.odd c); [|auto]. apply w32_lxor; auto. unfold w32, crc_poly. lia.
Qed.
Lemma w32_shift8 c : w32 c -> w32 (crc_shift8 c).
Proof. intros H. unfold crc_shift8. repeat apply w32_shift. exact H. Qed.
Lemma w32_byte x : w32 (Zb x).
Proof. unfold w32. pose proof (Zb_range x). lia. Qed.
Lemma w32_step c x : w32 c -> w32 (crc_step c x).
Proof. intros H. apply w32_shift8, w32_lxor; auto. apply w32_byte. Qed.
Lemma w32_fold d : forall c, w32 c -> w32 (fold_left crc_step d c).
Proof. induction d as [|x d IH]; intros c H; cbn; auto. apply IH, w32_step, H. Qed.

Lemma crc_shift_zero c : w32 c -> crc_shift c = 0 -> c = 0.
Proof.
  unfold w32, crc_shift. intros H Z0. pose proof (Z.div2_odd c) as D. rewrite Z.div2_spec in D.
  destruct (Z.odd c) eqn:O.
  - apply Z.lxor_eq in Z0. rewrite Z.shiftr_div_pow2 in Z0 by lia. change (2 ^ 1) with 2 in Z0. unfold crc_poly in Z0. lia.
  - rewrite Z0 in D. cbn in D. lia.
Qed.
Lemma crc_shift_inj a b : w32 a -> w32 b -> crc_shift a = crc_shift b -> a = b.
Proof.
  intros Ha Hb H. apply Z.lxor_eq. apply crc_shift_zero; [apply w32_lxor; auto|].
  rewrite crc_shift_lxor, H. apply Z.lxor_nilpotent.
Qed.
Lemma crc_shift8_inj a b : w32 a -> w32 b -> crc_shift8 a = crc_shift8 b -> a = b.
Proof.
  intros Ha Hb H. unfold crc_shift8 in H. do 8 (apply crc_shift_inj in H; [|repeat apply w32_shift; assumption|repeat apply w32_shift; assumption]). exact H.
Qed.
Lemma lxor_inj_r a b c : Z.lxor a c = Z.lxor b c -> a = b.
Proof.
  intros H. apply (f_equal (fun z => Z.lxor z c)) in H.
  rewrite !Z.lxor_assoc, Z.lxor_nilpotent, !Z.lxor_0_r in H. exact H.
Qed.
Lemma crc_suffix d : forall a b, w32 a -> w32 b -> fold_left crc_step d a = fold_left crc_step d b -> a = b.
Proof.
  induction d as [|x d IH]; intros a b Ha Hb H; cbn in H; auto.
  apply IH in H; [|apply w32_step; auto|apply w32_step; auto].
  unfold crc_step in H. apply crc_shift8_inj in H; [|apply w32_lxor; auto using w32_byte|apply w32_lxor; auto using w32_byte].
  eapply lxor_inj_r; eauto.
Qed.

Fixpoint iter8 (n : nat) (c : Z) : Z := match n with O => c | S n' => iter8 n' (crc_shift8 c) end.
Lemma lxor_disjoint x y : 0 <= x < 256 -> Z.lxor x (256 * y) = x + 256 * y.
Proof.
  intros H. rewrite <- Z.add_nocarry_lxor; [reflexivity|].
  apply Z.bits_inj'. intros n Hn. rewrite Z.land_spec, Z.bits_0.
  destruct (Z.lt_ge_cases n 8) as [L|L].
  - replace (256 * y) with (y * 2 ^ 8) by lia. rewrite Z.mul_pow2_bits_low by lia. apply andb_false_r.
  - destruct (Z.eq_dec x 0) as [->|N]; [rewrite Z.bits_0; reflexivity|].
    rewrite Z.bits_above_log2; [reflexivity|lia|]. apply Z.lt_le_trans with 8; [|lia]. apply Z.log2_lt_pow2; lia.
Qed.
Lemma crc_window w : forall c, fold_left crc_step w c = iter8 (List.length w) (Z.lxor c (uint_le w)).
Proof.
  induction w as [|x w IH]; intros c.
  - cbn. rewrite Z.lxor_0_r. reflexivity.
  - cbn [fold_left List.length iter8]. rewrite IH. unfold crc_step. f_equal.
    change (uint_le (x :: w)) with (Zb x + 256 * uint_le w).
    rewrite <- lxor_disjoint by apply Zb_range. rewrite <- Z.lxor_assoc, (crc_shift8_lxor _ (256 * uint_le w)), crc_shift8_shiftl. reflexivity.
Qed.
Lemma iter8_inj n : forall a b, w32 a -> w32 b -> iter8 n a = iter8 n b -> a = b.
Proof.
  induction n as [|n IH]; intros a b Ha Hb H; cbn in H; auto.
  apply IH in H; auto using w32_shift8. apply crc_shift8_inj; auto.
Qed.
Lemma uint_le_inj a : forall b, List.length a = List.length b -> uint_le a = uint_le b -> a = b.
Proof.
  induction a as [|x a IH]; intros [|y b] L H; try discriminate; auto.
  change (uint_le (x :: a)) with (Zb x + 256 * uint_le a) in H. change (uint_le (y :: b)) with (Zb y + 256 * uint_le b) in H.
  pose proof (Zb_range x). pose proof (Zb_range y).
  assert (uint_le a = uint_le b /\ Zb x = Zb y) as [Q1 Q2] by lia.
  apply Zb_inj in Q2. rewrite Q2. f_equal. apply IH; auto.
Qed.

Lemma crc32_range d : 0 <= crc32 d < 2 ^ 32.
Proof. unfold crc32. apply w32_lxor; [apply w32_fold|]; unfold w32; lia. Qed.

Theorem crc_burst p w1 w2 s : size w1 = size w2 -> size w1 <= 4 -> w1 <> w2 ->
  crc32 (p ++ w1 ++ s) <> crc32 (p ++ w2 ++ s).
Proof.
  unfold size. intros L L4 N H. unfold crc32 in H. apply lxor_inj_r in H. rewrite !fold_left_app in H.
  assert (WI : w32 0xFFFFFFFF) by (unfold w32; lia).
  pose proof (w32_fold p _ WI) as WP. set (c := fold_left crc_step p 0xFFFFFFFF) in *.
  apply crc_suffix in H; [|apply w32_fold; auto|apply w32_fold; auto].
  rewrite !crc_window in H. replace (List.length w2) with (List.length w1) in H by lia.
  assert (WW : forall w, (List.length w <= 4)%nat -> w32 (uint_le w)).
  { intros w Hw. pose proof (uint_le_range w) as R. unfold w32. split; [lia|]. apply Z.lt_le_trans with (256 ^ size w); [lia|].
    change (2 ^ 32) with (256 ^ 4). apply Z.pow_le_mono_r; unfold size; lia. }
  apply iter8_inj in H; [|apply w32_lxor; auto; apply WW; lia|apply w32_lxor; auto; apply WW; lia].
  rewrite !(Z.lxor_comm c) in H. apply lxor_inj_r in H. apply N, uint_le_inj; auto. lia.
Qed.

(** ** Digests *)
Lemma le4_inj x y : 0 <= x < 2 ^ 32 -> 0 <= y < 2 ^ 32 -> le_enc 4 x = le_enc 4 y -> x = y.
Proof.
  intros Hx Hy H. apply (f_equal uint_le) in H. rewrite !uint_le_enc in H; auto; change (256 ^ Z.of_nat 4) with (2 ^ 32); auto.
Qed.
Lemma digest_one E ck a x y b : ck = CkAdler32 \/ ck = CkCrc32 -> x <> y ->
  digest E ck (a ++ x :: b) <> digest E ck (a ++ y :: b).
Proof.
  intros [->| ->] N H; cbn [digest cks_digest] in H; apply le4_inj in H; try apply adler32_range; try apply crc32_range.
  - revert H. apply adler_one. exact N.
  - revert H. apply (crc_burst a [x] [y] b); [reflexivity|unfold size; cbn; lia|congruence].
Qed.

Lemma adler_digest E d : adler32 d = adler_spec d /\ uint_le (digest E CkAdler32 d) = adler_spec d /\ size (digest E CkAdler32 d) = 4.
Proof.
  split; [apply adler32_closed|]. cbn [digest cks_digest]. split; [|reflexivity].
  unfold digest. cbn [cks_digest]. rewrite uint_le_enc; [apply adler32_closed|]. change (256 ^ Z.of_nat 4) with (2 ^ 32). apply adler32_range.
Qed.
Lemma crc_digest_burst E p w1 w2 s : size w1 = size w2 -> size w1 <= 4 -> w1 <> w2 ->
  crc32 (p ++ w1 ++ s) <> crc32 (p ++ w2 ++ s) /\ digest E CkCrc32 (p ++ w1 ++ s) <> digest E CkCrc32 (p ++ w2 ++ s).
Proof.
  intros H1 H2 H3. pose proof (crc_burst p w1 w2 s H1 H2 H3) as H. split; [exact H|]. intros X. apply H.
  unfold digest in X. cbn [cks_digest] in X. apply le4_inj in X; try apply crc32_range. exact X.
Qed.
