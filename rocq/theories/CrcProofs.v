(** crc32 is the complemented and reflected remainder of CrcSpec. *)
From Verif Require Import Base Checksums FileIO Spec BytesProofs BaseLemmas CrcSpec ChecksumProofs.

Lemma lxor_pos a b : 0 <= a -> 0 <= b -> 0 <= Z.lxor a b.
Proof. intros Ha Hb. apply Z.lxor_nonneg. tauto. Qed.
Lemma times_step q b g : poly_times (q ++ [b]) g = Z.lxor (2 * poly_times q g) (if b then g else 0).
Proof. unfold poly_times. rewrite fold_left_app. reflexivity. Qed.
Lemma poly_step l b : poly_of (l ++ [b]) = 2 * poly_of l + (if b then 1 else 0).
Proof. unfold poly_of. rewrite fold_left_app. reflexivity. Qed.
Lemma poly_nonneg l : 0 <= poly_of l.
Proof. induction l as [|b l IH] using rev_ind; [cbn; lia|]. rewrite poly_step. destruct b; lia. Qed.
Lemma gen_val : crc_generator = 0x104C11DB7.
Proof. reflexivity. Qed.
Lemma times_nonneg q : 0 <= poly_times q crc_generator.
Proof.
  induction q as [|b q IH] using rev_ind; [cbn; lia|]. rewrite times_step. apply lxor_pos; [lia|]. rewrite gen_val. destruct b; lia.
Qed.

(** ** Remainders are unique *)
Lemma lxor_high z g : 2 ^ 33 <= z -> 0 <= g < 2 ^ 33 -> 2 ^ 33 <= Z.lxor z g.
Proof.
  intros Hz Hg. assert (N : 0 <= Z.lxor z g) by (apply lxor_pos; lia).
  assert (S : Z.shiftr (Z.lxor z g) 33 = Z.shiftr z 33).
  { rewrite Z.shiftr_lxor. rewrite (Z.shiftr_div_pow2 g) by lia. rewrite (Z.div_small g) by lia. apply Z.lxor_0_r. }
  rewrite !Z.shiftr_div_pow2 in S by lia.
  assert (1 <= z / 2 ^ 33) by (apply Z.div_le_lower_bound; lia).
  pose proof (Z.div_mod (Z.lxor z g) (2 ^ 33) ltac:(lia)). pose proof (Z.mod_pos_bound (Z.lxor z g) (2 ^ 33) ltac:(lia)). nia.
Qed.
Lemma times_zero_or_high q : poly_times q crc_generator = 0 \/ 2 ^ 32 <= poly_times q crc_generator.
Proof.
  induction q as [|b q IH] using rev_ind; [left; reflexivity|]. rewrite times_step. rewrite gen_val in *. destruct IH as [->|IH].
  - destruct b; [right; vm_compute; discriminate|left; reflexivity].
  - right. assert (2 ^ 33 <= Z.lxor (2 * poly_times q 0x104C11DB7) (if b then 0x104C11DB7 else 0)); [|lia].
    apply lxor_high; [lia|destruct b; lia].
Qed.
Lemma times_pad k q g : poly_times (repeat false k ++ q) g = poly_times q g.
Proof. unfold poly_times. rewrite fold_left_app. f_equal. induction k; auto. Qed.
Lemma times_xor_len n : forall q q' g, List.length q = n -> List.length q' = n ->
  exists p, Z.lxor (poly_times q g) (poly_times q' g) = poly_times p g.
Proof.
  induction n as [|n IH]; intros q q' g H H'.
  - destruct q, q'; try discriminate. exists []. reflexivity.
  - destruct (exists_last (l := q)) as (r & b & ->); [destruct q; discriminate|].
    destruct (exists_last (l := q')) as (r' & b' & ->); [destruct q'; discriminate|].
    rewrite app_length in *. cbn [List.length] in *.
    destruct (IH r r' g ltac:(lia) ltac:(lia)) as (p & Hp). exists (p ++ [xorb b b']).
    rewrite !times_step, <- Hp.
    assert (D : 2 * Z.lxor (poly_times r g) (poly_times r' g) = Z.lxor (2 * poly_times r g) (2 * poly_times r' g)).
    { pose proof (Z.shiftl_lxor (poly_times r g) (poly_times r' g) 1) as S. rewrite !Z.shiftl_mul_pow2 in S by lia.
      change (2 ^ 1) with 2 in S. rewrite !(Z.mul_comm 2). exact S. }
    rewrite D. apply Z.bits_inj'. intros i Hi. rewrite !Z.lxor_spec.
    destruct b, b'; cbn [xorb]; rewrite ?Z.bits_0; 
    destruct (Z.testbit (2 * poly_times r g) i), (Z.testbit (2 * poly_times r' g) i), (Z.testbit g i); reflexivity.
Qed.
Lemma times_xor q q' g : exists p, Z.lxor (poly_times q g) (poly_times q' g) = poly_times p g.
Proof.
  rewrite <- (times_pad (List.length q') q g), <- (times_pad (List.length q) q' g).
  apply (times_xor_len (List.length q + List.length q')); rewrite app_length, repeat_length; lia.
Qed.
Theorem remainder_unique m r r' : crc_remainder m r -> crc_remainder m r' -> r = r'.
Proof.
  intros [H1 [q ->]] [H2 [q' E]].
  assert (X : Z.lxor r r' = Z.lxor (poly_times q crc_generator) (poly_times q' crc_generator)).
  { apply Z.bits_inj'. intros i Hi. apply (f_equal (fun z => Z.testbit z i)) in E. rewrite !Z.lxor_spec in *.
    destruct (Z.testbit (poly_times q crc_generator) i), (Z.testbit (poly_times q' crc_generator) i), (Z.testbit r i), (Z.testbit r' i); cbn in *; congruence. }
  destruct (times_xor q q' crc_generator) as (p & Hp). rewrite Hp in X.
  assert (w32 (Z.lxor r r')) by (apply w32_lxor; unfold w32; lia). unfold w32 in *.
  apply Z.lxor_eq. destruct (times_zero_or_high p); lia.
Qed.

(** ** One bit *)
Definition bit_step (c : Z) (b : bool) : Z := crc_shift (Z.lxor c (if b then 1 else 0)).
Definition mirror (r c : Z) : Prop := 0 <= r < 2 ^ 32 /\ 0 <= c < 2 ^ 32 /\ forall i, 0 <= i < 32 -> Z.testbit r i = Z.testbit c (31 - i).

Lemma small_bits z : 0 <= z -> (forall i, 32 <= i -> Z.testbit z i = false) -> z < 2 ^ 32.
Proof.
  intros Hz H. destruct (Z.le_gt_cases (2 ^ 32) z) as [L|]; auto. exfalso.
  assert (0 < z) by lia. pose proof (Z.bit_log2 z ltac:(lia)) as B. rewrite H in B; [discriminate|].
  apply Z.log2_le_pow2 in L; lia.
Qed.
Lemma high_bits z i : 0 <= z < 2 ^ 32 -> 32 <= i -> Z.testbit z i = false.
Proof.
  intros Hz Hi. destruct (Z.eq_dec z 0) as [->|]; [apply Z.bits_0|]. apply Z.bits_above_log2; [lia|].
  assert (Z.log2 z < 32) by (apply Z.log2_lt_pow2; lia). lia.
Qed.
Lemma gen_bits : forallb (fun i => Bool.eqb (Z.testbit crc_generator i) (Z.testbit crc_poly (31 - i))) (map Z.of_nat (seq 0 32)) = true.
Proof. vm_compute. reflexivity. Qed.
Lemma gen_bit i : 0 <= i < 32 -> Z.testbit crc_generator i = Z.testbit crc_poly (31 - i).
Proof.
  intros H. pose proof gen_bits as G. rewrite forallb_forall in G. specialize (G i). apply Bool.eqb_prop, G.
  apply in_map_iff. exists (Z.to_nat i). split; [lia|]. apply in_seq. lia.
Qed.

Lemma mirror_step r c b : mirror r c ->
  exists t r', mirror r' (bit_step c b) /\
    Z.lxor (2 * r) (if b then 2 ^ 32 else 0) = Z.lxor (if t : bool then crc_generator else 0) r'.
Proof.
  intros (Hr & Hc & Hm). set (w := Z.lxor (2 * r) (if b then 2 ^ 32 else 0)).
  set (t := xorb (Z.testbit r 31) b). exists t, (Z.lxor (if t then crc_generator else 0) w).
  assert (Wn : 0 <= w) by (apply lxor_pos; destruct b; lia).
  assert (Gn : 0 <= (if t then crc_generator else 0)) by (rewrite gen_val; destruct t; lia).
  assert (W : forall i, 0 <= i -> Z.testbit w i = xorb (if i =? 0 then false else Z.testbit r (i - 1)) (b && (i =? 32))).
  { intros i Hi. unfold w. rewrite Z.lxor_spec. f_equal.
    - destruct (i =? 0) eqn:E0; [assert (i = 0) by lia; subst i; apply Z.testbit_even_0|].
      replace i with (Z.succ (i - 1)) at 1 by lia. apply Z.testbit_even_succ. lia.
    - destruct b; cbn [andb]; [|apply Z.bits_0]. rewrite Z.pow2_bits_eqb by lia. apply Z.eqb_sym. }
  assert (Wh : forall i, 32 < i -> Z.testbit w i = false).
  { intros i Hi. rewrite W by lia. replace (i =? 0) with false by lia. replace (i =? 32) with false by lia.
    rewrite andb_false_r, xorb_false_r. apply high_bits; lia. }
  assert (W32 : Z.testbit w 32 = t).
  { rewrite W by lia. change (32 =? 0) with false. change (32 =? 32) with true. rewrite andb_true_r. reflexivity. }
  assert (GT : forall i, Z.testbit (if t then crc_generator else 0) i = t && Z.testbit crc_generator i).
  { intros i. destruct t; [reflexivity|apply Z.bits_0]. }
  split.
  - split; [|split].
    + split; [apply lxor_pos; assumption|]. apply small_bits; [apply lxor_pos; assumption|].
      intros i Hi. rewrite Z.lxor_spec, GT. destruct (Z.eq_dec i 32) as [->|].
      * rewrite W32. change (Z.testbit crc_generator 32) with true. destruct t; reflexivity.
      * rewrite Wh by lia. rewrite (Z.bits_above_log2 crc_generator) by (first [change (Z.log2 crc_generator) with 32; lia|rewrite gen_val; lia]).
        rewrite andb_false_r. reflexivity.
    + assert (w32 (bit_step c b)) as X; [|exact X]. unfold bit_step. apply w32_shift, w32_lxor; unfold w32; destruct b; lia.
    + intros i Hi. rewrite Z.lxor_spec, GT, W, gen_bit by lia. replace (i =? 32) with false by lia. rewrite andb_false_r, xorb_false_r.
      unfold bit_step, crc_shift. set (d := Z.lxor c (if b then 1 else 0)).
      assert (O : Z.odd d = t).
      { rewrite <- Z.bit0_odd. unfold d, t. rewrite Z.lxor_spec, (Hm 31) by lia. change (31 - 31) with 0. f_equal. destruct b; reflexivity. }
      rewrite O. assert (Sd : Z.testbit (Z.shiftr d 1) (31 - i) = if i =? 0 then false else Z.testbit r (i - 1)).
      { rewrite Z.shiftr_spec by lia. destruct (i =? 0) eqn:E0.
        - apply high_bits; [|lia]. assert (w32 d) as X; [|exact X]. apply w32_lxor; unfold w32; destruct b; lia.
        - rewrite Hm by lia. unfold d. rewrite Z.lxor_spec.
          replace (Z.testbit (if b then 1 else 0) (31 - i + 1)) with false; [rewrite xorb_false_r; f_equal; lia|].
          destruct b; [|symmetry; apply Z.bits_0]. change 1 with (2 ^ 0). rewrite Z.pow2_bits_eqb by lia. lia. }
      destruct t; cbn [andb]; rewrite ?Z.lxor_spec, Sd; [apply xorb_comm|apply xorb_false_l].
  - apply Z.bits_inj'. intros i Hi. rewrite !Z.lxor_spec. destruct (Z.testbit w i), (Z.testbit (if t then crc_generator else 0) i); reflexivity.
Qed.

(** ** Whole messages *)
Lemma two_lxor a b : 2 * Z.lxor a b = Z.lxor (2 * a) (2 * b).
Proof.
  pose proof (Z.shiftl_lxor a b 1) as S. rewrite !Z.shiftl_mul_pow2 in S by lia.
  change (2 ^ 1) with 2 in S. rewrite !(Z.mul_comm 2). exact S.
Qed.
Lemma add_low p b : 0 <= p -> (2 * p + (if b : bool then 1 else 0)) * 2 ^ 32 = Z.lxor (2 * (p * 2 ^ 32)) (if b then 2 ^ 32 else 0).
Proof.
  intros Hp. destruct b; [|rewrite Z.lxor_0_r; ring].
  replace (2 * (p * 2 ^ 32)) with (2 * p * 2 ^ 32) by ring. rewrite <- (Z.mul_1_l (2 ^ 32)) at 3.
  rewrite <- !Z.shiftl_mul_pow2 by lia. rewrite <- Z.shiftl_lxor. f_equal.
  apply Z.bits_inj'. intros i Hi. rewrite Z.lxor_spec. destruct (Z.eq_dec i 0) as [->|].
  - rewrite Z.testbit_odd_0, Z.testbit_even_0. reflexivity.
  - replace i with (Z.succ (i - 1)) by lia. rewrite Z.testbit_odd_succ, Z.testbit_even_succ by lia.
    replace (Z.testbit 1 (Z.succ (i - 1))) with false; [symmetry; apply xorb_false_r|].
    change 1 with (2 ^ 0) at 1. rewrite Z.pow2_bits_eqb by lia. lia.
Qed.
Definition dividend (l : list bool) : Z := Z.lxor (poly_of l * 2 ^ 32) ((2 ^ 32 - 1) * 2 ^ Z.of_nat (List.length l)).
Lemma dividend_step l b : dividend (l ++ [b]) = Z.lxor (2 * dividend l) (if b then 2 ^ 32 else 0).
Proof.
  unfold dividend. rewrite poly_step, app_length, Nat2Z.inj_add, Z.pow_add_r by lia. cbn [List.length].
  change (2 ^ Z.of_nat 1) with 2. rewrite add_low by apply poly_nonneg. rewrite two_lxor.
  replace (2 * ((2 ^ 32 - 1) * 2 ^ Z.of_nat (List.length l))) with ((2 ^ 32 - 1) * (2 ^ Z.of_nat (List.length l) * 2)) by ring.
  rewrite !Z.lxor_assoc. f_equal. apply Z.lxor_comm.
Qed.

Lemma bits_inv l : exists q r, mirror r (fold_left bit_step l 0xFFFFFFFF) /\ dividend l = Z.lxor (poly_times q crc_generator) r.
Proof.
  induction l as [|b l IH] using rev_ind.
  - exists [], (2 ^ 32 - 1). split; [|reflexivity]. split; [lia|]. split; [cbn; lia|]. intros i Hi. cbn [fold_left].
    change (2 ^ 32 - 1) with (Z.ones 32). change 0xFFFFFFFF with (Z.ones 32). rewrite !Z.ones_spec_low by lia. reflexivity.
  - destruct IH as (q & r & M & D). rewrite fold_left_app. cbn [fold_left].
    destruct (mirror_step r _ b M) as (t & r' & M' & S). exists (q ++ [t]), r'. split; [auto|].
    rewrite dividend_step, D, times_step, two_lxor, Z.lxor_assoc, S. rewrite Z.lxor_assoc. reflexivity.
Qed.

Fixpoint low_bits (n : nat) (v : Z) : list bool := match n with O => [] | S k => Z.odd v :: low_bits k (v / 2) end.
Fixpoint iter_shift (n : nat) (c : Z) : Z := match n with O => c | S k => iter_shift k (crc_shift c) end.
Lemma iter_bits n : forall c v, 0 <= v < 2 ^ Z.of_nat n -> iter_shift n (Z.lxor c v) = fold_left bit_step (low_bits n v) c.
Proof.
  induction n as [|n IH]; intros c v Hv; cbn [iter_shift low_bits fold_left].
  - replace v with 0 by (change (2 ^ Z.of_nat 0) with 1 in Hv; lia). apply Z.lxor_0_r.
  - rewrite <- IH.
    + f_equal. unfold bit_step.
      assert (Ev : v = Z.lxor (if Z.odd v then 1 else 0) (2 * (v / 2))).
      { apply Z.bits_inj'. intros i Hi. rewrite Z.lxor_spec. destruct (Z.eq_dec i 0) as [->|].
        - rewrite Z.bit0_odd, Z.testbit_even_0, xorb_false_r. destruct (Z.odd v); reflexivity.
        - replace i with (Z.succ (i - 1)) by lia. rewrite Z.testbit_even_succ by lia. rewrite <- Z.div2_div, Z.div2_spec, Z.shiftr_spec by lia.
          replace (Z.testbit (if Z.odd v then 1 else 0) (Z.succ (i - 1))) with false; [rewrite xorb_false_l; f_equal; lia|].
          destruct (Z.odd v); [|symmetry; apply Z.bits_0]. change 1 with (2 ^ 0). rewrite Z.pow2_bits_eqb by lia. lia. }
      rewrite Ev at 1. rewrite <- Z.lxor_assoc, crc_shift_lxor, crc_shift_even. reflexivity.
    + rewrite Nat2Z.inj_succ, Z.pow_succ_r in Hv by lia. split; [apply Z.div_pos; lia|]. apply Z.div_lt_upper_bound; lia.
Qed.
Lemma byte_step c x : crc_step c x = fold_left bit_step (byte_bits x) c.
Proof.
  assert (B : byte_bits x = low_bits 8 (Zb x)) by (destruct x; vm_compute; reflexivity).
  rewrite B, <- iter_bits; [reflexivity|]. apply Zb_range.
Qed.
Lemma crc_bits d : forall c, fold_left crc_step d c = fold_left bit_step (bits_of d) c.
Proof.
  induction d as [|x d IH]; intros c; [reflexivity|]. cbn [fold_left bits_of flat_map]. rewrite fold_left_app, <- byte_step. apply IH.
Qed.

Theorem crc32_is_remainder d : exists r, crc_remainder (crc_dividend d) r /\
  (forall i, 0 <= i < 32 -> Z.testbit (crc32 d) i = negb (Z.testbit r (31 - i))) /\ 0 <= crc32 d < 2 ^ 32.
Proof.
  destruct (bits_inv (bits_of d)) as (q & r & (Hr & Hc & Hm) & D). exists r. split; [split; [auto|exists q; exact D]|].
  split; [|apply crc32_range]. intros i Hi. unfold crc32. rewrite crc_bits, Z.lxor_spec, (Hm (31 - i)) by lia.
  change 0xFFFFFFFF with (Z.ones 32) at 2. rewrite Z.ones_spec_low by lia. rewrite xorb_true_r. do 2 f_equal. lia.
Qed.

Theorem crc_digest E d : exists r, crc_remainder (crc_dividend d) r /\ (forall r', crc_remainder (crc_dividend d) r' -> r' = r) /\
  (forall i, 0 <= i < 32 -> Z.testbit (crc32 d) i = negb (Z.testbit r (31 - i))) /\ 0 <= crc32 d < 2 ^ 32 /\
  uint_le (digest E CkCrc32 d) = crc32 d /\ size (digest E CkCrc32 d) = 4.
Proof.
  destruct (crc32_is_remainder d) as (r & R & B & H). exists r. split; [auto|]. split; [intros r' R'; eapply remainder_unique; eauto|].
  split; [auto|]. split; [auto|]. split; [|reflexivity]. unfold digest. cbn [cks_digest].
  apply uint_le_enc. change (256 ^ Z.of_nat 4) with (2 ^ 32). exact H.
Qed.
