(** Proofs: the flags that a header of any argument types encodes, and packing with any
    value as 'offsets'. *)
From Verif Require Import Base PyVal Checksums Headers Pretty Args FileIO Cli Objects Dynamic Spec DynSpec BaseLemmas HeaderProofs IOProofs DynProofs.
From Coq Require Import ZifyBool ZifyNat.
Local Ltac Zify.zify_post_hook ::= Z.div_mod_to_equations.

Lemma Ok_inj {A} (a b : A) : Ok a = Ok b -> a = b.
Proof. congruence. Qed.

(* ---------------------------------------------------------------- *)
(** ** Texts of zeros and ones *)

Lemma binary_snoc t c z : binary (t ++ [c]) z <->
  exists y, binary t y /\ (c = "0"%char /\ z = 2 * y \/ c = "1"%char /\ z = 2 * y + 1).
Proof.
  split.
  - intros H. inversion H as [Q|t' y B Q|t' y B Q].
    + destruct t; discriminate.
    + apply app_inj_tail in Q as [-> <-]. exists y. auto.
    + apply app_inj_tail in Q as [-> <-]. exists y. auto.
  - intros (y & B & [[-> ->]|[-> ->]]); constructor; exact B.
Qed.
Lemma binary_nil_inv z : binary [] z -> z = 0.
Proof. intros H. inversion H as [Q|t' y B Q|t' y B Q]; auto; destruct t'; discriminate. Qed.
Lemma binary_app s t : forall z, binary (s ++ t) z <-> exists x y, binary s x /\ binary t y /\ z = x * 2 ^ zlen t + y.
Proof.
  induction t as [|c t IH] using rev_ind; intros z.
  - rewrite app_nil_r. split.
    + intros H. exists z, 0. repeat split; auto; [constructor|]. cbn. lia.
    + intros (x & y & H & B & ->). apply binary_nil_inv in B. subst. replace (x * 2 ^ zlen (@nil ascii) + 0) with x by (cbn; lia). exact H.
  - rewrite app_assoc, binary_snoc. rewrite zlen_app. change (zlen [c]) with 1.
    rewrite Z.pow_add_r, Z.pow_1_r by (unfold zlen; lia). split.
    + intros (w & B & C). apply IH in B as (x & y & B1 & B2 & ->).
      destruct C as [[-> ->]|[-> ->]].
      * exists x, (2 * y). repeat split; auto; [constructor; auto|lia].
      * exists x, (2 * y + 1). repeat split; auto; [constructor; auto|lia].
    + intros (x & y & B1 & B2 & ->). apply binary_snoc in B2 as (w & B2 & C). exists (x * 2 ^ zlen t + w).
      split; [apply IH; eauto|]. destruct C as [[-> ->]|[-> ->]]; [left|right]; split; auto; lia.
Qed.
Lemma binary_nonneg t z : binary t z -> 0 <= z.
Proof. induction 1; lia. Qed.
Lemma binary_fun t : forall y z, binary t y -> binary t z -> y = z.
Proof.
  induction t as [|c t IH] using rev_ind; intros y z Hy Hz.
  - apply binary_nil_inv in Hy, Hz. lia.
  - apply binary_snoc in Hy as (a & Ba & Ca), Hz as (b & Bb & Cb). assert (a = b) by eauto. subst b.
    destruct Ca as [[-> ->]|[-> ->]], Cb as [[Q ->]|[Q ->]]; try discriminate; reflexivity.
Qed.
Lemma binary_zeros : binary (t_ "000000") 0.
Proof. exact (binary_0 _ _ (binary_0 _ _ (binary_0 _ _ (binary_0 _ _ (binary_0 _ _ (binary_0 _ _ binary_nil)))))). Qed.

Lemma int_base2_iff s z : int_base2 s = Ok z <-> binary s z.
Proof.
  unfold int_base2, int_of_bits. rewrite list_str. revert z.
  induction s as [|c s IH] using rev_ind; intros z.
  - cbn. split; [intros H; injection H as <-; constructor|intros H; apply binary_nil_inv in H; congruence].
  - rewrite forallb_app, binary_snoc, fold_left_app. cbn [forallb fold_left]. rewrite andb_true_r. split.
    + destruct (forallb is01 s) eqn:F; cbn [andb]; [|discriminate]. destruct (is01 c) eqn:C; [|discriminate].
      set (y := fold_left _ s 0) in *. intros H. apply (f_equal (fun r => match r with Ok a => a | Raise _ => 0 end)) in H. cbv beta iota in H.
      exists y. split; [apply IH; reflexivity|]. unfold is01 in C. apply orb_true_iff in C as [C|C]; apply Ascii.eqb_eq in C; subst c.
      * left. split; auto. cbn [Ascii.eqb Bool.eqb] in H. clearbody y. lia.
      * right. split; auto.
    + intros (y & B & C). apply IH in B. destruct (forallb is01 s) eqn:F; [|discriminate]. apply (f_equal (fun r => match r with Ok a => a | Raise _ => 0 end)) in B. cbv beta iota in B. rewrite B.
      destruct C as [[-> ->]|[-> ->]].
      * cbn [andb is01 Ascii.eqb Bool.eqb orb]. f_equal. lia.
      * cbn [andb is01 Ascii.eqb Bool.eqb orb]. f_equal.
Qed.
Lemma int_base2_raise s : (forall z, ~ binary s z) -> int_base2 s = Raise ValueError.
Proof.
  intros N. destruct (int_base2 s) as [z|e] eqn:I; [apply int_base2_iff in I; destruct (N z I)|].
  unfold int_base2 in I. destruct (forallb is01 s); congruence.
Qed.

(** Decimal texts that happen to consist of zeros and ones. *)
Definition dchar (z : Z) : ascii := ascii_of_nat (Z.to_nat (48 + z)).
Lemma dec_digits_acc f : forall z acc, dec_digits f z acc = dec_digits f z [] ++ acc.
Proof.
  induction f as [|f IH]; intros z acc; [reflexivity|]. cbn [dec_digits].
  destruct (z <? 10); [reflexivity|]. rewrite (IH _ (_ :: acc)), (IH _ [_]), <- app_assoc. reflexivity.
Qed.
Lemma dec_digits_fuel f : forall g z, (1 <= f)%nat -> (1 <= g)%nat -> 0 <= z < 2 ^ Z.of_nat f -> z < 2 ^ Z.of_nat g ->
  dec_digits f z [] = dec_digits g z [].
Proof.
  induction f as [|f IH]; intros g z Hf Hg Hz Hz'; [lia|]. destruct g as [|g]; [lia|].
  cbn [dec_digits]. destruct (z <? 10) eqn:T; [reflexivity|].
  assert (P : forall k, z < 2 ^ Z.of_nat (S k) -> (1 <= k)%nat /\ z / 10 < 2 ^ Z.of_nat k).
  { intros k H. rewrite Nat2Z.inj_succ, Z.pow_succ_r in H by lia. split; [|lia].
    destruct k; [cbn in H; lia|lia]. }
  destruct (P f ltac:(lia)), (P g ltac:(lia)).
  rewrite (dec_digits_acc f), (dec_digits_acc g). f_equal. apply IH; lia.
Qed.
Lemma dec_of_small z : 0 <= z < 10 -> dec_of z = [dchar z].
Proof. intros H. unfold dec_of. cbn [dec_digits]. rewrite Z.mod_small by lia. replace (z <? 10) with true by lia. reflexivity. Qed.
Lemma dec_of_big z : 10 <= z -> dec_of z = dec_of (z / 10) ++ [dchar (z mod 10)].
Proof.
  intros H. unfold dec_of at 1. cbn [dec_digits]. replace (z <? 10) with false by lia.
  rewrite dec_digits_acc. unfold dchar. f_equal. unfold dec_of.
  assert (S : 2 ^ Z.log2 z <= z < 2 ^ Z.succ (Z.log2 z)) by (apply Z.log2_spec; lia).
  assert (S' : 2 ^ Z.log2 (z / 10) <= z / 10 < 2 ^ Z.succ (Z.log2 (z / 10))) by (apply Z.log2_spec; lia).
  assert (L : 3 <= Z.log2 z) by (change 3 with (Z.log2 8); apply Z.log2_le_mono; lia).
  assert (L' : 0 <= Z.log2 (z / 10)) by apply Z.log2_nonneg.
  rewrite Z.pow_succ_r in S by lia.
  apply dec_digits_fuel; try lia.
  - rewrite Z2Nat.id by lia. lia.
  - rewrite Nat2Z.inj_succ, Z2Nat.id by lia. lia.
Qed.
Lemma dchar_01 d : 0 <= d < 10 -> (dchar d = "0"%char <-> d = 0) /\ (dchar d = "1"%char <-> d = 1).
Proof.
  intros H. assert (C : d = 0 \/ d = 1 \/ d = 2 \/ d = 3 \/ d = 4 \/ d = 5 \/ d = 6 \/ d = 7 \/ d = 8 \/ d = 9) by lia.
  repeat (destruct C as [->|C]; [split; split; intros Q; try reflexivity; try discriminate; lia|]).
  subst. split; split; intros Q; try discriminate; lia.
Qed.
Lemma dec_binary a v : 0 <= a -> binary (dec_of a) v ->
  a < 10 /\ a = v /\ (a = 0 \/ a = 1) \/
  10 <= a /\ exists w, binary (dec_of (a / 10)) w /\ (a mod 10 = 0 \/ a mod 10 = 1) /\ v = 2 * w + a mod 10.
Proof.
  intros Ha H. destruct (Z.lt_ge_cases a 10) as [S|B].
  - left. rewrite dec_of_small in H by lia. change [dchar a] with ([] ++ [dchar a]) in H.
    apply binary_snoc in H as (y & N & C). apply binary_nil_inv in N. subst y.
    destruct (dchar_01 a ltac:(lia)) as [D0 D1]. destruct C as [[C ->]|[C ->]]; [apply D0 in C|apply D1 in C]; lia.
  - right. split; auto. rewrite dec_of_big in H by auto. apply binary_snoc in H as (y & N & C). exists y. split; auto.
    destruct (dchar_01 (a mod 10) ltac:(lia)) as [D0 D1]. destruct C as [[C ->]|[C ->]]; [apply D0 in C|apply D1 in C]; lia.
Qed.
Lemma dec_binary_pos a : 1 <= a -> forall v, binary (dec_of a) v -> 1 <= v.
Proof.
  intros H. generalize H. pattern a. apply Z_lt_induction; [|lia]. clear a H.
  intros a IH H v B. apply dec_binary in B; [|lia]. destruct B as [(? & ? & ?)|(T & w & B & D & ->)]; [lia|].
  apply IH in B; lia.
Qed.
Lemma dec_binary_1 a v : 0 <= a -> binary (dec_of a) v -> v <= 1 -> a = v.
Proof.
  intros H B L. apply dec_binary in B; auto. destruct B as [(? & ? & ?)|(T & w & B & D & ->)]; [lia|].
  apply dec_binary_pos in B; lia.
Qed.
Lemma dec_binary_3 a v : 0 <= a -> binary (dec_of a) v -> v <= 3 -> a = v /\ (a = 0 \/ a = 1) \/ a = 10 /\ v = 2 \/ a = 11 /\ v = 3.
Proof.
  intros H B L. apply dec_binary in B; auto. destruct B as [(? & ? & ?)|(T & w & B & D & ->)]; [lia|].
  pose proof B as P. apply dec_binary_pos in P; [|lia]. apply dec_binary_1 in B; lia.
Qed.
Lemma int_text_binary z v : binary (int_text z) v -> 0 <= z /\ binary (dec_of z) v.
Proof.
  unfold int_text. destruct (z <? 0) eqn:N; [|intros H; split; [lia|exact H]].
  intros H. exfalso. change ("-"%char :: dec_of (- z)) with (["-"%char] ++ dec_of (- z)) in H.
  apply binary_app in H as (x & y & B & _). change ["-"%char] with ([] ++ ["-"%char]) in B.
  apply binary_snoc in B as (w & _ & [[C _]|[C _]]); discriminate.
Qed.
Lemma dec_of_len a : 0 <= a -> (a < 10 /\ zlen (dec_of a) = 1) \/ (10 <= a /\ 2 <= zlen (dec_of a)).
Proof.
  intros H. destruct (Z.lt_ge_cases a 10) as [S|B].
  - left. rewrite dec_of_small by lia. auto.
  - right. rewrite dec_of_big by lia. rewrite zlen_app. change (zlen [_]) with 1.
    destruct (Z.lt_ge_cases (a / 10) 10).
    + rewrite dec_of_small by lia. change (zlen [_]) with 1. lia.
    + rewrite dec_of_big by lia. rewrite zlen_app. change (zlen [_]) with 1. unfold zlen. lia.
Qed.

Lemma flags_small m o b : binary (int_text m ++ int_text o) b -> b <= 3 ->
  (m = 0 \/ m = 1) /\ (o = 0 \/ o = 1) /\ b = 2 * m + o \/ m = 0 /\ o = 10 /\ b = 2 \/ m = 0 /\ o = 11 /\ b = 3.
Proof.
  intros H L. apply binary_app in H as (x & y & Bx & By & ->).
  apply int_text_binary in Bx as [Hm Bx], By as [Ho By].
  assert (T : int_text o = dec_of o) by (unfold int_text; replace (o <? 0) with false by lia; reflexivity). rewrite T in L |- *.
  pose proof (binary_nonneg _ _ Bx). pose proof (binary_nonneg _ _ By).
  assert (Y : y <= 3) by (assert (0 <= 2 ^ zlen (dec_of o)) by (apply Z.pow_nonneg; lia); nia).
  destruct (Z.eq_dec m 0) as [->|M].
  - assert (x = 0) by (pose proof (dec_binary 0 x ltac:(lia) Bx); lia). subst x.
    destruct (dec_binary_3 o y Ho By Y) as [(-> & ?)|[(-> & ->)|(-> & ->)]]; lia.
  - pose proof (dec_binary_pos m ltac:(lia) _ Bx) as P.
    destruct (dec_of_len o Ho) as [[O1 O2]|[O1 O2]].
    + rewrite O2 in L |- *. assert (x = 1) by lia. subst x. apply dec_binary_1 in Bx; [|lia|lia]. subst m.
      pose proof (dec_binary o y Ho By). lia.
    + assert (4 <= 2 ^ zlen (dec_of o)) by (change 4 with (2 ^ 2); apply Z.pow_le_mono_r; lia). nia.
Qed.

(* ---------------------------------------------------------------- *)
(** ** Encoding *)

(** The options byte. *)
Definition d_flag (off meta : dyn) : res Z :=
  o <~ d_create_options off meta ;; b <~ int_base2 o ;; _ <~ encode_uint8 b ;; Ok b.
Lemma d_flag_iff off meta b : d_flag off meta = Ok b <->
  exists o m, d_int off = Ok o /\ d_int meta = Ok m /\ binary (int_text m ++ int_text o) b /\ b <= 255.
Proof.
  unfold d_flag, d_create_options. split.
  - intros H. apply rbind_Ok in H as (s & H1 & H). apply rbind_Ok in H1 as (m & Hm & H1). apply rbind_Ok in H1 as (o & Ho & H1).
    apply rbind_Ok in H as (z & Hz & H). apply rbind_Ok in H as (w & Hw & H). injection H as ->.
    apply int_base2_iff in Hz. replace s with (t_ "000000" ++ int_text m ++ int_text o) in Hz by congruence. apply binary_app in Hz as (x & y & Bx & By & Q).
    pose proof (binary_fun _ _ _ Bx binary_zeros). subst x. exists o, m. repeat split; auto.
    + replace b with y by lia. exact By.
    + unfold encode_uint8, pack_int in Hw. destruct (_ && _) eqn:R in Hw; [lia|discriminate].
  - intros (o & m & -> & -> & B & L). cbn [rbind].
    assert (B' : binary (t_ "000000" ++ int_text m ++ int_text o) b).
    { apply binary_app. exists 0, b. repeat split; auto using binary_zeros. }
    apply int_base2_iff in B'. rewrite B'. cbn [rbind]. pose proof (binary_nonneg _ _ B).
    unfold encode_uint8. rewrite pack_int_in by lia. reflexivity.
Qed.

Lemma with_byte_at a x y r : zlen a = 5 -> with_byte 5 x (a ++ y :: r) = a ++ x :: r.
Proof.
  intros L. unfold with_byte, sub, size. unfold zlen in *.
  change (Z.to_nat 0) with 0%nat. cbn [skipn].
  rewrite firstn_app. replace (Z.to_nat 5 - List.length a)%nat with 0%nat by lia. cbn [firstn]. rewrite app_nil_r.
  rewrite firstn_all2 by lia. f_equal. rewrite skipn_app. replace (Z.to_nat (5 + 1) - List.length a)%nat with 1%nat by lia.
  cbn [skipn]. rewrite skipn_all2 by lia. cbn [app].
  f_equal. rewrite app_length. cbn [List.length]. apply firstn_all2. lia.
Qed.

Lemma header_bytes_split h : exists a r, zlen a = 5 /\ forall o m b, b = opt_bits o m ->
  header_bytes (mkH (h_version h) o m (h_checksum h) (h_typesize h) (h_chunk_size h) (h_last_chunk h) (h_nchunks h) (h_max_app h))
  = a ++ bZ b :: r.
Proof.
  exists (MAGIC ++ le_enc 1 (h_version h)).
  exists (le_enc 1 (cks_index (h_checksum h)) ++ le_enc 1 (h_typesize h) ++
          le_enc 4 (h_chunk_size h) ++ le_enc 4 (h_last_chunk h) ++ le_enc 8 (h_nchunks h) ++ le_enc 8 (h_max_app h)).
  split; [reflexivity|]. intros o m b ->. unfold header_bytes. cbn [h_version h_offsets h_metadata h_checksum h_typesize h_chunk_size h_last_chunk h_nchunks h_max_app].
  rewrite <- !app_assoc. reflexivity.
Qed.

(** A header whose numbers are ints in range. *)
Lemma number_eq v : number v = int_or_0 v.
Proof. destruct v as [|[|]|z| | | | | ]; reflexivity. Qed.

Definition d_good (dh : dheader) (c : cks) : Prop :=
  d_checksum dh = DStr (t_ (cks_name c)) /\ header_ok (typed_header dh c false false) /\
  (exists z, as_int (d_version dh) = Some z) /\ (exists z, as_int (d_typesize dh) = Some z) /\
  (exists z, as_int (d_chunk_size dh) = Some z) /\ (exists z, as_int (d_last_chunk dh) = Some z) /\
  (exists z, as_int (d_nchunks dh) = Some z) /\ (exists z, as_int (d_max_app dh) = Some z).

Lemma d_good_encode dh c : d_good dh c ->
  d_header_encode dh = (b <~ d_flag (d_offsets dh) (d_metadata dh) ;; Ok (with_byte 5 (bZ b) (header_bytes (typed_header dh c false false)))).
Proof.
  intros (K & HO & (v & V) & (ts & T) & (cs & C) & (lc & L) & (n & N) & (mx & M)).
  unfold d_header_encode, d_flag. rewrite K, str_list, check_valid_name.
  destruct HO as (H1 & H2). unfold typed_header in H1, H2. cbn [h_version h_typesize h_chunk_size h_last_chunk h_nchunks h_max_app] in H1, H2.
  unfold typed_header in *. rewrite !number_eq in *. unfold int_or_0 in *. rewrite V, T, C, L, N, M in *. unfold d_pack. rewrite V, T, C, L, N, M.
  pose proof (header_encode_ok (mkH v false false c ts cs lc n mx)) as HE.
  specialize (HE ltac:(split; cbn [h_version h_typesize h_chunk_size h_last_chunk h_nchunks h_max_app]; auto)).
  unfold header_encode in HE. cbn [h_version h_offsets h_metadata h_checksum h_typesize h_chunk_size h_last_chunk h_nchunks h_max_app] in HE.
  destruct (encode_uint8 v) as [v'|] eqn:EV; [|discriminate]. cbn [rbind] in HE |- *.
  destruct (encode_uint8 (int_of_bits _)) as [o'|] eqn:EO; [|discriminate]. cbn [rbind] in HE.
  destruct (encode_uint8 (cks_index c)) as [c'|] eqn:EC; [|discriminate]. cbn [rbind] in HE.
  destruct (encode_uint8 ts) as [t'|] eqn:ET; [|discriminate]. cbn [rbind] in HE.
  destruct (encode_int32 cs) as [cs'|] eqn:ES; [|discriminate]. cbn [rbind] in HE.
  destruct (encode_int32 lc) as [l'|] eqn:EL; [|discriminate]. cbn [rbind] in HE.
  destruct (encode_int64 n) as [n'|] eqn:EN; [|discriminate]. cbn [rbind] in HE.
  destruct (encode_int64 mx) as [m'|] eqn:EM; [|discriminate]. cbn [rbind] in HE.
  apply Ok_inj in HE. rewrite <- HE. rewrite !rbind_assoc. apply rbind_ext. intros s. rewrite !rbind_assoc. apply rbind_ext. intros b.
  cbn [rbind].
  assert (U : forall z w, encode_uint8 z = Ok w -> w = [bZ z]).
  { intros z w H. unfold encode_uint8, pack_int in H. destruct (_ && _) in H; [|discriminate]. injection H as <-. reflexivity. }
  destruct (encode_uint8 b) as [b'|] eqn:EB; [|reflexivity]. cbn [rbind].
  apply U in EB, EO, EV. subst b' o' v'. f_equal.
  rewrite (app_assoc MAGIC), (app_assoc MAGIC [bZ v] ([bZ (int_of_bits _)] ++ _)). cbn [app].
  symmetry. apply with_byte_at. reflexivity.
Qed.

Lemma accepted_good kw dh : new_header kw = Ok dh -> exists c, d_good dh c.
Proof.
  intros H. apply header_ok_iff in H as (K & A & C & ->).
  assert (NM : forall k d lo hi, In (k, d, Whole lo hi) header_signature -> (exists z, as_int (value kw k d) = Some z) /\ lo <= int_or_0 (value kw k d) <= hi).
  { intros k d lo hi I. destruct (met kw k d lo hi _ A I) as [I1 I2]. split; [exists (got k d kw); apply as_int_iff, I1|exact I2]. }
  assert (CK : exists s, In s checksum_names /\ value kw "checksum" (DStr (t_ "None")) = DStr (t_ s)).
  { unfold all_meet in A. rewrite Forall_forall in A. specialize (A ("checksum"%string, DStr (list_ascii_of_string "None"), OneOf checksum_names NoSuchChecksum)).
    apply A. cbn. tauto. }
  destruct CK as (s & I & CK).
  assert (X : exists c, s = cks_name c).
  { cbn in I. repeat (destruct I as [<-|I]; [first [exists CkNone; reflexivity|exists CkAdler32; reflexivity|exists CkCrc32; reflexivity|exists CkMd5; reflexivity|exists CkSha1; reflexivity|exists CkSha224; reflexivity|exists CkSha256; reflexivity|exists CkSha384; reflexivity|exists CkSha512; reflexivity]|]). destruct I. }
  destruct X as (c & ->). exists c.
  destruct (NM "format_version" (DInt 3) 0 255 ltac:(cbn; tauto))%string as [V1 V2].
  destruct (NM "typesize" (DInt 0) 0 255 ltac:(cbn; tauto))%string as [T1 T2].
  destruct (NM "chunk_size" (DInt (-1)) (-1) (2 ^ 31 - 1 - 16) ltac:(cbn; tauto))%string as [S1 S2].
  destruct (NM "last_chunk" (DInt (-1)) (-1) (2 ^ 31 - 1 - 16) ltac:(cbn; tauto))%string as [L1 L2].
  destruct (NM "nchunks" (DInt (-1)) (-1) (2 ^ 63 - 1) ltac:(cbn; tauto))%string as [N1 N2].
  destruct (NM "max_app_chunks" (DInt 0) 0 (2 ^ 63 - 1) ltac:(cbn; tauto))%string as [M1 M2].
  unfold d_good, d_fields. cbn [d_checksum d_version d_typesize d_chunk_size d_last_chunk d_nchunks d_max_app].
  split; [exact CK|]. split; [|auto 10].
  unfold typed_header, header_ok. cbn [d_version d_typesize d_chunk_size d_last_chunk d_nchunks d_max_app h_version h_typesize h_chunk_size h_last_chunk h_nchunks h_max_app]. rewrite !number_eq.
  split; [exact V2|].
  destruct S1 as (cs & S1), L1 as (lc & L1), N1 as (n & N1), M1 as (m & M1).
  rewrite ?number_eq. unfold int_or_0 in *. rewrite S1, L1, N1, M1 in *.
  apply as_int_iff in S1, L1, N1, M1. destruct (C cs lc n m S1 L1 N1 M1) as (C1 & C2 & C3).
  unfold header_nums_ok, BUFMAX. lia.
Qed.

Lemma decode_flags dh c b : d_good dh c -> 0 <= b <= 255 ->
  header_decode (with_byte 5 (bZ b) (header_bytes (typed_header dh c false false))) =
  if b <=? 3 then Ok (typed_header dh c (Z.odd b) (2 <=? b)) else Raise ValueError.
Proof.
  intros (_ & HO & _) R. destruct (header_bytes_split (typed_header dh c false false)) as (a & r & La & S).
  unfold typed_header in *. cbn [h_version h_offsets h_metadata h_checksum h_typesize h_chunk_size h_last_chunk h_nchunks h_max_app] in S.
  rewrite (S false false 0 eq_refl), with_byte_at by exact La.
  destruct (b <=? 3) eqn:B.
  - rewrite <- (S (Z.odd b) (2 <=? b) b).
    + apply header_decode_bytes. destruct HO as (H1 & H2). split; [exact H1|exact H2].
    + assert (C : b = 0 \/ b = 1 \/ b = 2 \/ b = 3) by lia. destruct C as [->|[->|[->| ->]]]; reflexivity.
  - pose proof (zlen_header_bytes (mkH (number (d_version dh)) false false c (number (d_typesize dh)) (number (d_chunk_size dh)) (number (d_last_chunk dh)) (number (d_nchunks dh)) (number (d_max_app dh)))) as ZL.
    pose proof (header_decode_bytes _ HO) as D.
    rewrite (S false false 0 eq_refl) in ZL, D. unfold header_decode in *.
    rewrite ZL in D. cbn [Z.eqb negb Pos.eqb BLOSCPACK_HEADER_LENGTH] in D.
    replace (zlen (a ++ bZ b :: r)) with 32 by (rewrite zlen_app in *; cbn [zlen List.length] in *; unfold zlen in *; cbn [List.length] in *; lia).
    change (32 =? BLOSCPACK_HEADER_LENGTH) with true in *. cbn [negb] in *.
    replace (slice 0 4 (a ++ bZ b :: r)) with (slice 0 4 (a ++ bZ 0 :: r)).
    2:{ unfold slice. rewrite !zdrop_0 by lia. rewrite !ztake_app_le by (rewrite La; lia). reflexivity. }
    destruct (bytes_eqb _ MAGIC); cbn [negb] in *; [|discriminate].
    replace (byte_at 5 (a ++ bZ b :: r)) with (@Ok Z b).
    2:{ unfold byte_at. unfold zlen in La. rewrite nth_error_app2 by lia. replace (5 - List.length a)%nat with 0%nat by lia. cbn [nth_error].
        rewrite bZ_small by lia. reflexivity. }
    cbn [rbind]. rewrite decode_options_raise by lia. reflexivity.
Qed.

Theorem typed_encode kw dh o m : new_header kw = Ok dh ->
  d_int (d_offsets dh) = Ok (Z.b2z o) -> d_int (d_metadata dh) = Ok (Z.b2z m) ->
  exists c raw, d_checksum dh = DStr (t_ (cks_name c)) /\ d_header_encode dh = Ok raw /\
    header_decode raw = Ok (typed_header dh c o m) /\ header_encode (typed_header dh c o m) = Ok raw /\
    mk_header (number (d_version dh)) o m (cks_name c) (number (d_typesize dh)) (number (d_chunk_size dh))
      (number (d_last_chunk dh)) (number (d_nchunks dh)) (number (d_max_app dh)) = Ok (typed_header dh c o m).
Proof.
  intros H HO HM. destruct (accepted_good _ _ H) as (c & G). exists c, (header_bytes (typed_header dh c o m)).
  assert (F : d_flag (d_offsets dh) (d_metadata dh) = Ok (opt_bits o m)).
  { apply d_flag_iff. exists (Z.b2z o), (Z.b2z m). repeat split; auto; [|destruct o, m; cbn; lia].
    destruct o, m; apply int_base2_iff; reflexivity. }
  rewrite (d_good_encode dh c G), F. cbn [rbind].
  pose proof G as (K & OK & _).
  assert (OK' : header_ok (typed_header dh c o m)) by (destruct OK; split; auto).
  assert (W : with_byte 5 (bZ (opt_bits o m)) (header_bytes (typed_header dh c false false)) = header_bytes (typed_header dh c o m)).
  { destruct (header_bytes_split (typed_header dh c false false)) as (a & r & La & S).
    unfold typed_header in *. cbn [h_version h_offsets h_metadata h_checksum h_typesize h_chunk_size h_last_chunk h_nchunks h_max_app] in S.
    rewrite (S false false 0 eq_refl), (S o m _ eq_refl), with_byte_at by exact La. reflexivity. }
  rewrite W. repeat split; auto using header_decode_bytes, header_encode_ok.
  unfold typed_header. apply mk_header_intro; apply OK.
Qed.

Theorem flags_exact kw dh raw : new_header kw = Ok dh ->
  (d_header_encode dh = Ok raw <->
   exists c o m b, d_checksum dh = DStr (t_ (cks_name c)) /\
     d_int (d_offsets dh) = Ok o /\ d_int (d_metadata dh) = Ok m /\ binary (int_text m ++ int_text o) b /\ b <= 255 /\
     raw = with_byte 5 (bZ b) (header_bytes (typed_header dh c false false))).
Proof.
  intros H. destruct (accepted_good _ _ H) as (c & G). rewrite (d_good_encode dh c G). split.
  - intros R. apply rbind_Ok in R as (b & F & R). injection R as <-. apply d_flag_iff in F as (o & m & HO & HM & B & L).
    exists c, o, m, b. repeat split; auto. apply G.
  - intros (c' & o & m & b & K & HO & HM & B & L & ->).
    assert (c' = c).
    { destruct G as (K' & _). rewrite K in K'. injection K' as K'. unfold t_ in K'. apply (f_equal string_of_list_ascii) in K'. rewrite !str_list in K'.
      destruct c', c; try discriminate; reflexivity. }
    subst c'. assert (F : d_flag (d_offsets dh) (d_metadata dh) = Ok b) by (apply d_flag_iff; eauto 10). rewrite F. reflexivity.
Qed.

Theorem flags_back kw dh raw : new_header kw = Ok dh -> d_header_encode dh = Ok raw ->
  exists c o m, d_checksum dh = DStr (t_ (cks_name c)) /\ d_int (d_offsets dh) = Ok o /\ d_int (d_metadata dh) = Ok m /\
  ((o = 0 \/ o = 1) /\ (m = 0 \/ m = 1) /\ header_decode raw = Ok (typed_header dh c (o =? 1) (m =? 1)) \/
   m = 0 /\ o = 10 /\ header_decode raw = Ok (typed_header dh c false true) \/
   m = 0 /\ o = 11 /\ header_decode raw = Ok (typed_header dh c true true) \/
   header_decode raw = Raise ValueError /\ ~ ((o = 0 \/ o = 1) /\ (m = 0 \/ m = 1)) /\ ~ (m = 0 /\ (o = 10 \/ o = 11))).
Proof.
  intros H R. pose proof (accepted_good _ _ H) as (c & G).
  rewrite (d_good_encode dh c G) in R. apply rbind_Ok in R as (b & F & R). injection R as <-. apply d_flag_iff in F as (o & m & HO & HM & B & L).
  pose proof (binary_nonneg _ _ B) as P. rewrite (decode_flags dh c b G) by lia.
  exists c, o, m. split; [apply G|]. split; auto. split; auto.
  destruct (b <=? 3) eqn:T.
  - destruct (flags_small m o b B ltac:(lia)) as [(Hm & Ho & ->)|[(-> & -> & ->)|(-> & -> & ->)]].
    + left. split; auto. split; auto. destruct Hm as [->| ->], Ho as [->| ->]; reflexivity.
    + right. left. auto.
    + right. right. left. auto.
  - right. right. right. split; auto. split; intros Q.
    + assert (b = 2 * m + o); [|lia]. apply (binary_fun (int_text m ++ int_text o)); auto.
      destruct Q as [[-> | ->] [-> | ->]]; apply int_base2_iff; reflexivity.
    + assert (b = o - 8); [|lia]. apply (binary_fun (int_text m ++ int_text o)); auto.
      destruct Q as [-> [-> | ->]]; apply int_base2_iff; reflexivity.
Qed.

Theorem flags_written kw dh raw : new_header kw = Ok dh ->
  (d_header_encode dh = Ok raw <->
   exists c o m b raw0, d_checksum dh = DStr (t_ (cks_name c)) /\
     d_int (d_offsets dh) = Ok o /\ d_int (d_metadata dh) = Ok m /\ binary (int_text m ++ int_text o) b /\ b <= 255 /\
     header_encode (typed_header dh c false false) = Ok raw0 /\ raw = with_byte 5 (bZ b) raw0).
Proof.
  intros H. rewrite (flags_exact kw dh raw H). destruct (accepted_good _ _ H) as (c0 & G). split.
  - intros (c & o & m & b & K & H1 & H2 & H3 & H4 & H5). assert (c = c0).
    { destruct G as (G & _). rewrite K in G. destruct c, c0; try reflexivity; discriminate G. }
    subst c0. exists c, o, m, b, (header_bytes (typed_header dh c false false)). repeat split; auto. apply header_encode_ok, G.
  - intros (c & o & m & b & raw0 & K & H1 & H2 & H3 & H4 & H5 & H6). assert (c = c0).
    { destruct G as (G & _). rewrite K in G. destruct c, c0; try reflexivity; discriminate G. }
    subst c0. exists c, o, m, b. repeat split; auto. rewrite (header_encode_ok _ (proj1 (proj2 G))) in H5. apply Ok_inj in H5. rewrite H5. exact H6.
Qed.
