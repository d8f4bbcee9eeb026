(** Remaining small decision procedures: chunking rejections, append reserve,
    Blosc header and flags, options, argument dictionaries (C04, C05, C42, C43,
    C45). *)
From Verif Require Import Base PyVal Checksums Headers Pretty Args FileIO Spec BaseLemmas HeaderProofs IOProofs.
From Coq Require Import ZifyBool ZifyNat.
Ltac Zify.zify_post_hook ::= Z.div_mod_to_equations.

Lemma asked_calc sz cs r : 0 < sz -> calculate_nchunks sz cs = Ok r ->
  exists z, asked cs z /\ calculate_nchunks sz (CSInt z) = Ok r.
Proof.
  intros Hs. unfold calculate_nchunks. replace (sz <? 0) with false by lia. replace (sz =? 0) with false by lia.
  destruct cs as [z|s|]; cbn [rbind asked].
  - eauto.
  - destruct (reverse_pretty s) as [z|e] eqn:E; cbn [rbind]; [|discriminate]. eauto.
  - discriminate.
Qed.

Lemma calculate_partition sz cs n c last :
  0 <= sz -> calculate_nchunks sz cs = Ok (n, c, last) ->
  1 <= n <= 2 ^ 63 - 1 /\ (n - 1) * c + last = sz /\ 0 <= last <= c /\ c <= BUFMAX /\ last <= BUFMAX /\ c <= sz /\
  (0 < sz -> 1 <= c /\ 0 < last /\ exists z, asked cs z /\ c = Z.min z sz) /\
  (sz = 0 -> n = 1 /\ c = 0 /\ last = 0).
Proof.
  intros Hs H. change (2 ^ 63 - 1) with MAX_CHUNKS. unfold BUFMAX.
  destruct (Z.eq_dec sz 0) as [->|Hne].
  - cbn in H. inversion H; subst. unfold MAX_CHUNKS. lia.
  - destruct (asked_calc sz cs _ ltac:(lia) H) as (z & Ha & H').
    apply calculate_nchunks_partition in H'; [|lia]. unfold BLOSC_MAX_BUFFERSIZE in H'.
    destruct H' as (A & B & C & D & E' & F & G & I).
    destruct (G ltac:(lia)) as (G1 & G2 & G3). repeat split; try lia; eauto.
Qed.

Lemma calculate_accepts sz cs :
  (exists r, calculate_nchunks sz cs = Ok r) <->
  sz = 0 \/ (0 < sz /\ exists z, asked cs z /\ 1 <= z <= BUFMAX /\ (sz + z - 1) / z <= 2 ^ 63 - 1).
Proof.
  change (2 ^ 63 - 1) with MAX_CHUNKS. unfold BUFMAX. split.
  - intros [r H]. destruct (Z.lt_total sz 0) as [Hl|[->|Hg]].
    + unfold calculate_nchunks in H. replace (sz <? 0) with true in H by lia. discriminate.
    + auto.
    + right. split; [auto|]. destruct (asked_calc sz cs _ Hg H) as (z & Ha & H').
      exists z. split; [auto|]. destruct r as [[n c] l].
      pose proof (calculate_nchunks_partition sz z n c l ltac:(lia) H') as (A & B & C & D & E' & F & G & I).
      destruct (G Hg) as (G1 & G2 & G3).
      unfold calculate_nchunks in H'. replace (sz <? 0) with false in H' by lia. replace (sz =? 0) with false in H' by lia.
      cbn [rbind] in H'. apply rbind_Ok in H' as (u & Hr & _). apply check_range_Ok in Hr.
      unfold BLOSC_MAX_BUFFERSIZE in Hr. split; [lia|].
      etransitivity; [|exact F].
      apply Z.lt_succ_r. apply Z.div_lt_upper_bound; [lia|].
      assert (B' : (n - 1) * z + Z.min z sz >= sz).
      { destruct (Z.min_spec z sz) as [[M1 M2]|[M1 M2]]; rewrite M2 in *; subst c; [lia|].
        assert (0 <= (n - 1) * z) by (apply Z.mul_nonneg_nonneg; lia). lia. }
      rewrite Z.mul_succ_r, Z.mul_comm. rewrite Z.mul_sub_distr_r in B'. lia.
  - intros [->|(Hs & z & Ha & Hz & Hn)].
    + exists (1, 0, 0). reflexivity.
    + unfold calculate_nchunks. replace (sz <? 0) with false by lia. replace (sz =? 0) with false by lia.
      assert (X : match cs with CSInt z0 => Ok z0 | CSStr s => reverse_pretty s | CSOther => Raise TypeError end = Ok z).
      { destruct cs; cbn in Ha; subst; auto; tauto. }
      rewrite X. cbn [rbind]. rewrite check_range_in by (unfold BLOSC_MAX_BUFFERSIZE; lia). cbn [rbind].
      set (c' := if sz <? z then sz else z).
      assert (Hc' : c' = Z.min z sz) by (unfold c'; destruct (sz <? z) eqn:?; lia). clearbody c'.
      assert (N : forall n, n * z < sz + z -> n <= MAX_CHUNKS).
      { intros n Hlt. etransitivity; [|exact Hn]. apply Z.div_le_lower_bound; lia. }
      pose proof (Z.div_mod sz c' ltac:(lia)) as D. pose proof (Z.mod_pos_bound sz c' ltac:(lia)) as B.
      destruct (c' =? sz) eqn:E3; [|destruct (sz mod c' =? 0) eqn:E4].
      * eexists. reflexivity.
      * assert (c' = z) by lia. clear Hc'. subst c'. replace (MAX_CHUNKS <? sz / z) with false by (symmetry; apply Z.ltb_ge; apply N; lia). eexists. reflexivity.
      * assert (c' = z) by lia. clear Hc'. subst c'. replace (MAX_CHUNKS <? sz / z + 1) with false by (symmetry; apply Z.ltb_ge; apply N; lia). eexists. reflexivity.
Qed.

Lemma calculate_rejects sz cs e : calculate_nchunks sz cs = Raise e ->
  (sz < 0 /\ e = ValueError) \/
  (0 < sz /\ cs = CSOther /\ e = TypeError) \/
  (0 < sz /\ (exists s, cs = CSStr s /\ reverse_pretty s = Raise e)) \/
  (0 < sz /\ (exists z, asked cs z /\ ~ (1 <= z <= BUFMAX)) /\ e = ValueError) \/
  (0 < sz /\ (exists z, asked cs z /\ 1 <= z <= BUFMAX /\ 2 ^ 63 - 1 < (sz + z - 1) / z) /\ e = ChunkingException).
Proof.
  intros H. pose proof H as H0. unfold calculate_nchunks in H.
  destruct (sz <? 0) eqn:E1; [left; split; [lia|congruence]|].
  destruct (sz =? 0) eqn:E2; [discriminate|]. right.
  assert (0 < sz) by lia.
  assert (Y : forall z, asked cs z -> (_ <~ check_range z 1 BLOSC_MAX_BUFFERSIZE ;;
     (let cs := if sz <? z then sz else z in
      let q := sz / cs in let r := sz mod cs in
      let '(n, cs', last) := if cs =? sz then (1, sz, sz) else if r =? 0 then (q, cs, cs) else (q + 1, cs, r) in
      if MAX_CHUNKS <? n then Raise ChunkingException else Ok (n, cs', last))) = Raise e ->
     (0 < sz /\ (exists z, asked cs z /\ ~ (1 <= z <= BUFMAX)) /\ e = ValueError) \/
     (0 < sz /\ (exists z, asked cs z /\ 1 <= z <= BUFMAX /\ 2 ^ 63 - 1 < (sz + z - 1) / z) /\ e = ChunkingException)).
  { intros z Ha Hz. unfold check_range, BLOSC_MAX_BUFFERSIZE in Hz.
    destruct ((1 <=? z) && (z <=? 2147483631)) eqn:R.
    - right. split; [auto|]. cbn [rbind] in Hz. split.
      + exists z. unfold BUFMAX. split; [auto|]. split; [lia|].
        destruct (Z.lt_ge_cases (2 ^ 63 - 1) ((sz + z - 1) / z)) as [L|G]; [auto|exfalso].
        assert (X : exists r, calculate_nchunks sz cs = Ok r).
        { apply calculate_accepts. right. split; [auto|]. exists z. unfold BUFMAX. repeat split; auto; lia. }
        destruct X as [r X]. congruence.
      + cbv zeta in Hz.
        destruct (if (if sz <? z then sz else z) =? sz then _ else _) as [[? ?] ?].
        destruct (MAX_CHUNKS <? _); congruence.
    - left. split; [auto|]. cbn [rbind] in Hz. split; [|congruence]. exists z. unfold BUFMAX. split; [auto|lia]. }
  destruct cs as [z|s|].
  - right. right. apply (Y z); [reflexivity|exact H].
  - destruct (reverse_pretty s) as [z|e'] eqn:R.
    + right. right. apply (Y z); [exact R|exact H].
    + right. left. split; [auto|]. exists s. split; [auto|]. cbn in H. congruence.
  - left. cbn in H. repeat split; auto; congruence.
Qed.

Lemma max_apps_unused off n m : -1 <= n <= 2 ^ 63 - 1 -> off = false \/ n = -1 -> handle_max_apps off n m = Ok 0.
Proof.
  intros Hn H. unfold handle_max_apps. rewrite check_range_in by (unfold MAX_CHUNKS; lia). cbn [rbind].
  replace (off && negb (n =? -1)) with false; [reflexivity|].
  destruct H as [->| ->]; [reflexivity|]. cbn. rewrite andb_false_r. reflexivity.
Qed.
Lemma max_apps_int n v : 0 <= n <= 2 ^ 63 - 1 ->
  handle_max_apps true n (MAInt v) =
  if (0 <=? v) && (v <=? 2 ^ 63 - 1) then Ok (Z.min v (2 ^ 63 - 1 - n)) else Raise ValueError.
Proof.
  intros Hn. unfold handle_max_apps. rewrite check_range_in by (unfold MAX_CHUNKS; lia). cbn [rbind andb].
  replace (n =? -1) with false by lia. cbn [negb]. unfold check_range, MAX_CHUNKS.
  change (2 ^ 63 - 1) with 9223372036854775807 in *.
  destruct ((0 <=? v) && (v <=? 9223372036854775807)) eqn:E; cbn [rbind]; [|reflexivity].
  f_equal. destruct (9223372036854775807 <? n + v) eqn:E2; lia.
Qed.
Lemma max_apps_call n f : 0 <= n <= 2 ^ 63 - 1 ->
  handle_max_apps true n (MACall f) =
  match f n with
  | Ok (Some v) => if 0 <=? v then Ok (Z.min v (2 ^ 63 - 1 - n)) else Raise ValueError
  | Ok None => Raise ValueError
  | Raise e => Raise e
  end.
Proof.
  intros Hn. unfold handle_max_apps. rewrite check_range_in by (unfold MAX_CHUNKS; lia). cbn [rbind andb].
  replace (n =? -1) with false by lia. cbn [negb]. unfold MAX_CHUNKS.
  change (2 ^ 63 - 1) with 9223372036854775807 in *.
  destruct (f n) as [[v|]|]; cbn [rbind]; [|reflexivity|reflexivity].
  destruct (v <? 0) eqn:E; replace (0 <=? v) with (negb (v <? 0)) by lia; rewrite E; cbn [negb rbind]; [reflexivity|].
  f_equal. destruct (9223372036854775807 <? n + v) eqn:E2; lia.
Qed.
Lemma max_apps_other n : 0 <= n <= 2 ^ 63 - 1 -> handle_max_apps true n MAOther = Raise TypeError.
Proof.
  intros Hn. unfold handle_max_apps. rewrite check_range_in by (unfold MAX_CHUNKS; lia). cbn [rbind andb].
  replace (n =? -1) with false by lia. reflexivity.
Qed.
Lemma max_apps_sum off n m v : handle_max_apps off n m = Ok v -> 0 <= v /\ (n <> -1 -> n + v <= 2 ^ 63 - 1).
Proof.
  change (2 ^ 63 - 1) with MAX_CHUNKS. unfold handle_max_apps. intros H.
  apply rbind_Ok in H as (? & H0 & H). apply check_range_Ok in H0.
  destruct (off && negb (n =? -1)) eqn:Eo.
  - apply rbind_Ok in H as (w & Hw & H). assert (0 <= w).
    { destruct m as [y|f|]; [|destruct (f n) as [[y|]|]; [|discriminate|discriminate]; destruct (y <? 0) eqn:?|discriminate].
      - apply rbind_Ok in Hw as (? & Hw & Hw'). apply check_range_Ok in Hw. inversion Hw'; subst; lia.
      - discriminate.
      - inversion Hw; subst; lia. }
    assert (E : (if MAX_CHUNKS <? n + w then MAX_CHUNKS - n else w) = v) by congruence.
    clear H Hw Eo m. unfold MAX_CHUNKS in *.
    destruct (Z.ltb_spec 9223372036854775807 (n + w)); lia.
  - assert (0 = v) by congruence. clear H Eo m. unfold MAX_CHUNKS in *. lia.
Qed.

(** All byte values. *)
Definition all_bytes : list Z := map Z.of_nat (seq 0 256).
Lemma in_all_bytes z : 0 <= z < 256 -> In z all_bytes.
Proof. intros H. unfold all_bytes. apply in_map_iff. exists (Z.to_nat z). split; [lia|]. apply in_seq. lia. Qed.

Definition flags_ok (z : Z) : bool :=
  match decode_blosc_flags z with
  | Ok r => (z / 32 <? 5) && Bool.eqb (bf_byte_shuffle r) (Z.odd z) && Bool.eqb (bf_pure_memcpy r) (Z.odd (z / 2)) &&
            Bool.eqb (bf_bit_shuffle r) (Z.odd (z / 4)) && Bool.eqb (bf_split_blocks r) (Z.odd (z / 16)) &&
            match nth_error ["blosclz"; "lz4"; "snappy"; "zlib"; "zstd"]%string (Z.to_nat (z / 32)) with
            | Some s => String.eqb s (bf_codec r) | None => false end
  | Raise KeyError => 5 <=? z / 32
  | Raise _ => false
  end.
Lemma all_flags_ok : forallb flags_ok all_bytes = true.
Proof. vm_compute. reflexivity. Qed.
Lemma blosc_flags_spec z : 0 <= z < 256 ->
  (z / 32 < 5 -> exists r, decode_blosc_flags z = Ok r /\
     bf_byte_shuffle r = Z.odd z /\ bf_pure_memcpy r = Z.odd (z / 2) /\
     bf_bit_shuffle r = Z.odd (z / 4) /\ bf_split_blocks r = Z.odd (z / 16) /\
     nth_error ["blosclz"; "lz4"; "snappy"; "zlib"; "zstd"]%string (Z.to_nat (z / 32)) = Some (bf_codec r)) /\
  (5 <= z / 32 -> decode_blosc_flags z = Raise KeyError).
Proof.
  intros H. apply in_all_bytes in H. pose proof (proj1 (forallb_forall _ _) all_flags_ok z H) as F.
  unfold flags_ok in F. destruct (decode_blosc_flags z) as [r|e].
  - rewrite !andb_true_iff in F. destruct F as [[[[[F1 F2] F3] F4] F5] F6].
    apply Bool.eqb_prop in F2, F3, F4, F5. split; [|lia]. intros _. exists r. repeat split; auto.
    destruct (nth_error _ _); [|discriminate]. apply String.eqb_eq in F6. congruence.
  - destruct e; try discriminate. split; [lia|auto].
Qed.

Definition options_ok (z : Z) : bool :=
  match decode_options (decode_bitfield z) with
  | Ok (o, m) => (z <? 4) && Bool.eqb o (Z.odd z) && Bool.eqb m (Z.odd (z / 2))
  | Raise ValueError => 4 <=? z
  | Raise _ => false
  end.
Lemma all_options_ok : forallb options_ok all_bytes = true.
Proof. vm_compute. reflexivity. Qed.
Lemma options_spec z : 0 <= z < 256 ->
  decode_options (decode_bitfield z) = if z <? 4 then Ok (Z.odd z, Z.odd (z / 2)) else Raise ValueError.
Proof.
  intros H. apply in_all_bytes in H. pose proof (proj1 (forallb_forall _ _) all_options_ok z H) as F.
  unfold options_ok in F. destruct (decode_options _) as [[o m]|e].
  - rewrite !andb_true_iff in F. destruct F as [[F1 F2] F3]. apply Bool.eqb_prop in F2, F3. rewrite F1. congruence.
  - destruct e; try discriminate. replace (z <? 4) with false by lia. reflexivity.
Qed.

Lemma mem_str_In k l : mem_str k l = true <-> In k l.
Proof.
  unfold mem_str. rewrite existsb_exists. split.
  - intros (x & Hx & E). apply String.eqb_eq in E. congruence.
  - intros H. exists k. split; [auto|]. apply String.eqb_refl.
Qed.
Lemma check_args_spec rec exp :
  check_args rec exp = if forallb (fun k => mem_str k rec) exp && forallb (fun k => mem_str k exp) rec
                       then Ok tt else Raise ValueError.
Proof. unfold check_args. destruct (forallb _ exp), (forallb _ rec); reflexivity. Qed.
Lemma check_args_iff rec exp : check_args rec exp = Ok tt <-> (forall k, In k rec <-> In k exp).
Proof.
  rewrite check_args_spec. destruct (_ && _) eqn:F.
  - apply andb_true_iff in F as [F1 F2]. rewrite forallb_forall in F1, F2. split; [|auto]. intros _ k.
    split; intros H; [apply F2 in H|apply F1 in H]; apply mem_str_In; auto.
  - split; [discriminate|]. intros H. exfalso.
    assert (X : forallb (fun k => mem_str k rec) exp && forallb (fun k => mem_str k exp) rec = true).
    { apply andb_true_iff. split; apply forallb_forall; intros k Hk; apply mem_str_In; apply H; auto. }
    congruence.
Qed.
Lemma check_args_raise rec exp e : check_args rec exp = Raise e -> e = ValueError.
Proof. rewrite check_args_spec. destruct (_ && _); congruence. Qed.
