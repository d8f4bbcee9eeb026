(** Bridges between the model's helpers and the vocabulary of Spec.v, and other
    general lemmas. *)
From Verif Require Import Base PyVal Checksums Headers Args FileIO Spec.
From Coq Require Import ZifyBool ZifyNat.
Ltac Zify.zify_post_hook ::= Z.div_mod_to_equations.

Lemma size_zlen f : size f = zlen f.
Proof. reflexivity. Qed.

Lemma sub_slice a n f : 0 <= a -> sub a n f = slice a (a + n) f.
Proof.
  intros Ha. unfold sub, slice. rewrite ztake_firstn, zdrop_skipn.
  replace (a + n - a) with n by lia. reflexivity.
Qed.

Lemma uint_le_dec b : uint_le b = le_dec b.
Proof. unfold uint_le. induction b; cbn [fold_right le_dec]; [auto|rewrite IHb; reflexivity]. Qed.

Lemma uint_le_range b : 0 <= uint_le b < 256 ^ size b.
Proof. rewrite uint_le_dec. apply le_dec_range. Qed.

Lemma sub_at p n (a x q : bytes) :
  p = size a -> n = size x -> sub p n (a ++ x ++ q) = x.
Proof.
  intros -> ->. unfold sub, size. rewrite !Nat2Z.id.
  rewrite skipn_app, skipn_all, Nat.sub_diag. cbn.
  rewrite firstn_app, firstn_all, Nat.sub_diag. cbn. apply app_nil_r.
Qed.

Lemma sub_at0 n (x q : bytes) : n = size x -> sub 0 n (x ++ q) = x.
Proof. intros H. apply (sub_at 0 n [] x q); auto. Qed.

Lemma size_sub p n f : 0 <= p -> 0 <= n -> size (sub p n f) = Z.min n (Z.max 0 (size f - p)).
Proof. intros. unfold size, sub. rewrite firstn_length, skipn_length. lia. Qed.

Lemma uint_le_enc n z : 0 <= z < 256 ^ Z.of_nat n -> uint_le (le_enc n z) = z.
Proof. intros H. rewrite uint_le_dec, le_dec_enc. apply Z.mod_small; auto. Qed.

Lemma signed_sint n b : zlen b = Z.of_nat n -> (0 < n)%nat ->
  sint_le b = signed (8 * Z.of_nat n) (le_dec b).
Proof.
  intros H Hn. unfold sint_le, signed. rewrite uint_le_dec.
  unfold zlen in H. rewrite H.
  replace (2 ^ (8 * Z.of_nat n)) with (256 ^ Z.of_nat n).
  2:{ change 256 with (2 ^ 8). rewrite <- Z.pow_mul_r by lia. reflexivity. }
  replace (2 ^ (8 * Z.of_nat n - 1)) with (256 ^ Z.of_nat n / 2); [reflexivity|].
  change 256 with (2 ^ 8). rewrite <- Z.pow_mul_r by lia.
  replace (8 * Z.of_nat n) with (Z.succ (8 * Z.of_nat n - 1)) at 1 by lia.
  rewrite Z.pow_succ_r by lia. rewrite Z.mul_comm, Z.div_mul by lia. reflexivity.
Qed.

Lemma signed_mod bits z : 0 < bits -> - 2 ^ (bits - 1) <= z < 2 ^ (bits - 1) ->
  signed bits (z mod 2 ^ bits) = z.
Proof.
  intros Hb H. unfold signed.
  assert (E : 2 ^ bits = 2 * 2 ^ (bits - 1)).
  { rewrite <- Z.pow_succ_r by lia. f_equal. lia. }
  destruct (Z.ltb_spec z 0).
  - assert (z mod 2 ^ bits = z + 2 ^ bits).
    { symmetry. apply Z.mod_unique with (q := -1); [left; lia|lia]. }
    rewrite H1. destruct (Z.ltb_spec (z + 2 ^ bits) (2 ^ (bits - 1))); lia.
  - rewrite Z.mod_small by lia. destruct (Z.ltb_spec z (2 ^ (bits - 1))); lia.
Qed.

Lemma signed_range bits w : 0 < bits -> 0 <= w < 2 ^ bits ->
  - 2 ^ (bits - 1) <= signed bits w < 2 ^ (bits - 1).
Proof.
  intros Hb H. unfold signed.
  assert (E : 2 ^ bits = 2 * 2 ^ (bits - 1)).
  { rewrite <- Z.pow_succ_r by lia. f_equal. lia. }
  destruct (Z.ltb_spec w (2 ^ (bits - 1))); lia.
Qed.

Lemma signed_congr bits w : 0 < bits -> 0 <= w < 2 ^ bits -> (signed bits w) mod 2 ^ bits = w.
Proof.
  intros Hb H. unfold signed. destruct (w <? 2 ^ (bits - 1)).
  - apply Z.mod_small; lia.
  - replace (w - 2 ^ bits) with (w + (-1) * 2 ^ bits) by lia.
    rewrite Z_mod_plus_full. apply Z.mod_small; lia.
Qed.

(** decode/encode of the fixed-size integers *)
Lemma decode_int32_enc z : -2147483648 <= z <= 2147483647 -> decode_int32 (le_enc 4 z) = Ok z.
Proof.
  intros H. unfold decode_int32. rewrite zlen_le_enc. cbn [Z.eqb Z.of_nat Pos.of_succ_nat Pos.succ Pos.eqb].
  rewrite le_dec_enc. change (256 ^ Z.of_nat 4) with (2 ^ 32).
  rewrite signed_mod; [reflexivity|lia|]. change (2 ^ (32 - 1)) with 2147483648. lia.
Qed.
Lemma decode_int64_enc z : -9223372036854775808 <= z <= 9223372036854775807 ->
  decode_int64 (le_enc 8 z) = Ok z.
Proof.
  intros H. unfold decode_int64. rewrite zlen_le_enc. cbn [Z.eqb Z.of_nat Pos.of_succ_nat Pos.succ Pos.eqb].
  rewrite le_dec_enc. change (256 ^ Z.of_nat 8) with (2 ^ 64).
  rewrite signed_mod; [reflexivity|lia|]. change (2 ^ (64 - 1)) with 9223372036854775808. lia.
Qed.
Lemma decode_uint32_enc z : 0 <= z <= 4294967295 -> decode_uint32 (le_enc 4 z) = Ok z.
Proof.
  intros H. unfold decode_uint32. rewrite zlen_le_enc. cbn [Z.eqb Z.of_nat Pos.of_succ_nat Pos.succ Pos.eqb].
  rewrite le_dec_enc. change (256 ^ Z.of_nat 4) with 4294967296.
  rewrite Z.mod_small by lia. reflexivity.
Qed.

Lemma pack_int_Ok n lo hi z b : pack_int n lo hi z = Ok b -> lo <= z <= hi /\ b = le_enc n z.
Proof.
  unfold pack_int. destruct ((lo <=? z) && (z <=? hi)) eqn:E; [|discriminate].
  intros H. inversion H. split; [lia|auto].
Qed.
Lemma pack_int_in n lo hi z : lo <= z <= hi -> pack_int n lo hi z = Ok (le_enc n z).
Proof. intros H. unfold pack_int. replace ((lo <=? z) && (z <=? hi)) with true by lia. reflexivity. Qed.

Lemma check_range_Ok v lo hi u : check_range v lo hi = Ok u -> lo <= v <= hi.
Proof. unfold check_range. destruct ((lo <=? v) && (v <=? hi)) eqn:E; [lia|discriminate]. Qed.
Lemma check_range_in v lo hi : lo <= v <= hi -> check_range v lo hi = Ok tt.
Proof. intros H. unfold check_range. replace ((lo <=? v) && (v <=? hi)) with true by lia. reflexivity. Qed.
Lemma check_range_out v lo hi : ~ (lo <= v <= hi) -> check_range v lo hi = Raise ValueError.
Proof. intros H. unfold check_range. replace ((lo <=? v) && (v <=? hi)) with false by lia. reflexivity. Qed.

Lemma check_valid_name c : check_valid_checksum (cks_name c) = Ok c.
Proof. destruct c; reflexivity. Qed.
Lemma cks_lookup_name c : cks_lookup (cks_name c) = Ok c.
Proof. destruct c; reflexivity. Qed.
Lemma check_valid_checksum_inv s c : check_valid_checksum s = Ok c -> s = cks_name c.
Proof.
  unfold check_valid_checksum. destruct (find _ _) eqn:E; [|discriminate].
  intros H; inversion H; subst. apply find_some in E as [_ E]. apply String.eqb_eq in E. auto.
Qed.
Lemma check_valid_codec_name c : check_valid_codec (codec_name c) = Ok c.
Proof. destruct c; reflexivity. Qed.
Lemma check_valid_codec_inv s c : check_valid_codec s = Ok c -> s = codec_name c.
Proof.
  unfold check_valid_codec. destruct (find _ _) eqn:E; [|discriminate].
  intros H; inversion H; subst. apply find_some in E as [_ E]. apply String.eqb_eq in E. auto.
Qed.
Lemma codec_lookup_inv s c : codec_lookup s = Ok c -> s = codec_name c.
Proof.
  unfold codec_lookup. destruct (find _ _) eqn:E; [|discriminate].
  intros H; inversion H; subst. apply find_some in E as [_ E]. apply String.eqb_eq in E. auto.
Qed.
Lemma codec_lookup_name c : codec_lookup (codec_name c) = Ok c.
Proof. destruct c; reflexivity. Qed.
Lemma cks_index_range c : 0 <= cks_index c <= 8.
Proof. destruct c; cbn; lia. Qed.
Lemma codec_index_range c : 0 <= codec_index c <= 1.
Proof. destruct c; cbn; lia. Qed.
Lemma cks_of_index_index c : cks_of_index (cks_index c) = Ok c.
Proof. destruct c; reflexivity. Qed.
Lemma codec_of_index_index c : codec_of_index (codec_index c) = Ok c.
Proof. destruct c; reflexivity. Qed.
Lemma cks_of_index_inv i c : 0 <= i -> cks_of_index i = Ok c -> i = cks_index c.
Proof.
  unfold cks_of_index. intros Hi.
  destruct (Z.ltb_spec i 9).
  - assert (i = 0 \/ i = 1 \/ i = 2 \/ i = 3 \/ i = 4 \/ i = 5 \/ i = 6 \/ i = 7 \/ i = 8) by lia.
    repeat (destruct H0 as [->|H0]; [cbn; intros X; inversion X; reflexivity|]). subst.
    cbn; intros X; inversion X; reflexivity.
  - destruct (nth_error cks_avail (Z.to_nat i)) eqn:E; [|discriminate].
    assert (nth_error cks_avail (Z.to_nat i) <> None) as E' by congruence.
    apply nth_error_Some in E'. cbn in E'. lia.
Qed.
Lemma cks_of_index_raise i : 9 <= i -> cks_of_index i = Raise IndexError.
Proof.
  intros H. unfold cks_of_index. replace (nth_error cks_avail (Z.to_nat i)) with (@None cks); auto.
  symmetry. apply nth_error_None. cbn. lia.
Qed.
Lemma codec_of_index_inv i c : 0 <= i -> codec_of_index i = Ok c -> i = codec_index c.
Proof.
  unfold codec_of_index. intros Hi.
  destruct (Z.ltb_spec i 2).
  - assert (i = 0 \/ i = 1) by lia.
    repeat (destruct H0 as [->|H0]; [cbn; intros X; inversion X; reflexivity|]). subst.
    cbn; intros X; inversion X; reflexivity.
  - destruct (nth_error codec_avail (Z.to_nat i)) eqn:E; [|discriminate].
    assert (nth_error codec_avail (Z.to_nat i) <> None) as E' by congruence.
    apply nth_error_Some in E'. cbn in E'. lia.
Qed.
Lemma cks_eqb_eq a b : cks_eqb a b = true <-> a = b.
Proof. destruct a, b; cbn; split; intros; congruence || discriminate || reflexivity. Qed.

Lemma cks_size_nonneg c : 0 <= cks_size c.
Proof. destruct c; cbn; lia. Qed.

(** Lists of known length *)
Lemma len_cons_inv {A} n (l : list A) : List.length l = S n -> exists x r, l = x :: r /\ List.length r = n.
Proof. destruct l; cbn; intros H; [discriminate|eauto]. Qed.

Lemma zlen_firstn_skipn {A} (l : list A) n : 0 <= n <= zlen l ->
  exists a b, l = a ++ b /\ zlen a = n.
Proof.
  intros H. exists (ztake n l), (zdrop n l). split; [symmetry; apply ztake_zdrop|].
  rewrite zlen_ztake. lia.
Qed.
