(** Proofs about headers, options, argument handling (C03-C08, C42, C43, C45). *)
From Verif Require Import Base PyVal Checksums Headers Args FileIO Spec BaseLemmas.
From Coq Require Import ZifyBool ZifyNat.
Ltac Zify.zify_post_hook ::= Z.div_mod_to_equations.

(* ---------------------------------------------------------------- *)
(** ** The numeric side conditions of a header *)

Lemma check_header_nums_iff ts cs lc n m :
  check_header_nums ts cs lc n m = Ok tt <-> header_nums_ok ts cs lc n m.
Proof.
  unfold check_header_nums, header_nums_ok, check_range, BLOSC_MAX_TYPESIZE, BLOSC_MAX_BUFFERSIZE,
    MAX_CHUNKS, BUFMAX, rbind. change (2 ^ 63 - 1) with 9223372036854775807.
  repeat match goal with |- context [if ?c then _ else _] => destruct c eqn:? end;
    split; intros H; try discriminate; try reflexivity; lia.
Qed.

Lemma check_header_nums_raise ts cs lc n m e :
  check_header_nums ts cs lc n m = Raise e -> e = ValueError.
Proof.
  unfold check_header_nums, check_range, rbind.
  repeat match goal with |- context [if ?c then _ else _] => destruct c eqn:? end;
    intros H; inversion H; auto.
Qed.

Lemma mk_header_Ok ver off meta ck ts cs lc n m h :
  mk_header ver off meta ck ts cs lc n m = Ok h ->
  0 <= ver <= 255 /\ header_nums_ok ts cs lc n m /\
  exists c, ck = cks_name c /\ h = mkH ver off meta c ts cs lc n m.
Proof.
  unfold mk_header. intros H.
  apply rbind_Ok in H as (u1 & H1 & H). apply check_range_Ok in H1.
  apply rbind_Ok in H as (c & H2 & H). apply check_valid_checksum_inv in H2.
  apply rbind_Ok in H as ([] & H3 & H). apply check_header_nums_iff in H3.
  inversion H; subst. unfold MAX_FORMAT_VERSION in H1. eauto 6.
Qed.

Lemma mk_header_intro ver off meta c ts cs lc n m :
  0 <= ver <= 255 -> header_nums_ok ts cs lc n m ->
  mk_header ver off meta (cks_name c) ts cs lc n m = Ok (mkH ver off meta c ts cs lc n m).
Proof.
  intros Hv Hn. unfold mk_header. rewrite check_range_in by (unfold MAX_FORMAT_VERSION; lia).
  cbn [rbind]. rewrite check_valid_name. cbn [rbind].
  apply check_header_nums_iff in Hn. rewrite Hn. reflexivity.
Qed.

(** A header that the constructor accepts. *)
Definition header_ok (h : header) : Prop :=
  0 <= h_version h <= 255 /\
  header_nums_ok (h_typesize h) (h_chunk_size h) (h_last_chunk h) (h_nchunks h) (h_max_app h).

Lemma mk_header_ok ver off meta ck ts cs lc n m h :
  mk_header ver off meta ck ts cs lc n m = Ok h -> header_ok h.
Proof. intros H. apply mk_header_Ok in H as (Hv & Hn & c & _ & ->). split; auto. Qed.

Definition opt_bits (off meta : bool) : Z := (if off then 1 else 0) + (if meta then 2 else 0).

Definition header_bytes (h : header) : bytes :=
  MAGIC ++ le_enc 1 (h_version h) ++ le_enc 1 (opt_bits (h_offsets h) (h_metadata h)) ++
  le_enc 1 (cks_index (h_checksum h)) ++ le_enc 1 (h_typesize h) ++
  le_enc 4 (h_chunk_size h) ++ le_enc 4 (h_last_chunk h) ++
  le_enc 8 (h_nchunks h) ++ le_enc 8 (h_max_app h).

Lemma zlen_header_bytes h : zlen (header_bytes h) = 32.
Proof. unfold header_bytes. rewrite !zlen_app, !zlen_le_enc. reflexivity. Qed.

Lemma int_of_create off meta : int_of_bits (create_options off meta) = opt_bits off meta.
Proof. destruct off, meta; reflexivity. Qed.

Lemma header_encode_ok h : header_ok h -> header_encode h = Ok (header_bytes h).
Proof.
  intros (Hv & Ht & Hc & Hl & Hn & Hm & Hnm & Hs & _). unfold BUFMAX in *.
  change (2 ^ 63 - 1) with 9223372036854775807 in Hs.
  unfold header_encode, encode_uint8, encode_int32, encode_int64. rewrite int_of_create.
  pose proof (cks_index_range (h_checksum h)).
  rewrite !pack_int_in; try lia; [reflexivity|]. unfold opt_bits. destruct (h_offsets h), (h_metadata h); lia.
Qed.

Lemma header_encode_inv h b : header_encode h = Ok b -> b = header_bytes h.
Proof.
  unfold header_encode, encode_uint8, encode_int32, encode_int64. rewrite int_of_create. intros H.
  repeat match type of H with
  | rbind _ _ = Ok _ =>
      let x := fresh "x" in let Hx := fresh "Hx" in
      apply rbind_Ok in H as (x & Hx & H); apply pack_int_Ok in Hx as [_ ->]
  end.
  inversion H. reflexivity.
Qed.

Lemma decode_options_bits off meta :
  decode_options (decode_bitfield (opt_bits off meta)) = Ok (off, meta).
Proof. destruct off, meta; reflexivity. Qed.

Lemma bZ_small z : 0 <= z < 256 -> Zb (bZ z) = z.
Proof. intros. rewrite Zb_bZ. apply Z.mod_small; auto. Qed.

Lemma header_decode_bytes h : header_ok h -> header_decode (header_bytes h) = Ok h.
Proof.
  intros Hok. pose proof Hok as ((Hv1 & Hv2) & Hnums).
  pose proof Hnums as (Ht & Hc & Hl & Hn & Hm & Hnm & Hs & Hcl).
  unfold BUFMAX in *. change (2 ^ 63 - 1) with 9223372036854775807 in Hs.
  unfold header_decode. rewrite zlen_header_bytes.
  replace (negb (32 =? BLOSCPACK_HEADER_LENGTH)) with false by reflexivity.
  replace (slice 0 4 (header_bytes h)) with MAGIC by reflexivity.
  rewrite bytes_eqb_refl. cbn [negb].
  replace (byte_at 5 (header_bytes h)) with (@Ok Z (Zb (bZ (opt_bits (h_offsets h) (h_metadata h))))) by reflexivity.
  replace (byte_at 4 (header_bytes h)) with (@Ok Z (Zb (bZ (h_version h)))) by reflexivity.
  replace (byte_at 6 (header_bytes h)) with (@Ok Z (Zb (bZ (cks_index (h_checksum h))))) by reflexivity.
  replace (byte_at 7 (header_bytes h)) with (@Ok Z (Zb (bZ (h_typesize h)))) by reflexivity.
  replace (slice 8 12 (header_bytes h)) with (le_enc 4 (h_chunk_size h)) by reflexivity.
  replace (slice 12 16 (header_bytes h)) with (le_enc 4 (h_last_chunk h)) by reflexivity.
  replace (slice 16 24 (header_bytes h)) with (le_enc 8 (h_nchunks h)) by reflexivity.
  replace (slice 24 32 (header_bytes h)) with (le_enc 8 (h_max_app h)) by reflexivity.
  pose proof (cks_index_range (h_checksum h)).
  cbn [rbind].
  rewrite bZ_small by (unfold opt_bits; destruct (h_offsets h), (h_metadata h); lia).
  rewrite decode_options_bits. cbn [rbind fst snd].
  rewrite !bZ_small by lia. rewrite cks_of_index_index. cbn [rbind].
  rewrite !decode_int32_enc by lia. cbn [rbind].
  rewrite !decode_int64_enc by lia. cbn [rbind].
  rewrite mk_header_intro by (auto; lia). destruct h; reflexivity.
Qed.

Lemma le_enc_signed n b : List.length b = n -> (0 < n)%nat ->
  le_enc n (signed (8 * Z.of_nat n) (le_dec b)) = b.
Proof.
  intros H Hn. rewrite <- le_enc_mod.
  pose proof (le_dec_range b) as Hr. unfold zlen in Hr. rewrite H in Hr.
  assert (E : 256 ^ Z.of_nat n = 2 ^ (8 * Z.of_nat n)).
  { change 256 with (2 ^ 8). rewrite <- Z.pow_mul_r by lia. reflexivity. }
  rewrite E in *. rewrite signed_congr by lia. subst n. apply le_enc_dec.
Qed.

Lemma decode_options_inv z off meta : 0 <= z < 256 ->
  decode_options (decode_bitfield z) = Ok (off, meta) -> z = opt_bits off meta.
Proof.
  intros Hz. assert (Hz' : exists b, z = Zb b).
  { exists (bZ z). rewrite bZ_small; auto. }
  destruct Hz' as [b ->]. clear Hz. destruct b; vm_compute; intros H; inversion H; reflexivity.
Qed.
Lemma decode_options_lt z om : 0 <= z < 256 -> decode_options (decode_bitfield z) = Ok om -> z < 4.
Proof.
  destruct om as [o m]. intros Hz H. apply decode_options_inv in H; auto.
  unfold opt_bits in H. destruct o, m; lia.
Qed.

Ltac destr_list H n :=
  match n with
  | O => idtac
  | S ?k => let x := fresh "b" in let r := fresh "r" in let E := fresh "E" in
            apply len_cons_inv in H as (x & r & E & H); subst; destr_list H k
  end.

Lemma header_decode_inv b h : header_decode b = Ok h ->
  header_ok h /\ b = header_bytes h.
Proof.
  unfold header_decode. destruct (zlen b =? BLOSCPACK_HEADER_LENGTH) eqn:E; [|discriminate]. cbn [negb].
  apply Z.eqb_eq in E. unfold BLOSCPACK_HEADER_LENGTH, zlen in E.
  assert (L : List.length b = 32%nat) by lia. clear E.
  destruct (bytes_eqb (slice 0 4 b) MAGIC) eqn:EM; [|discriminate]. cbn [negb].
  apply bytes_eqb_eq in EM.
  destr_list L 32%nat.
  match type of L with List.length ?r = _ => destruct r; [clear L|discriminate] end.
  cbv in EM. inversion EM; subst. clear EM.
  intros H.
  cbn [byte_at nth_error rbind] in H.
  apply rbind_Ok in H as ([off meta] & Ho & H). apply decode_options_inv in Ho; [|apply Zb_range].
  apply rbind_Ok in H as (c & Hc & H). apply cks_of_index_inv in Hc; [|apply Zb_range].
  apply rbind_Ok in H as (cs & Hcs & H). apply rbind_Ok in H as (lc & Hlc & H).
  apply rbind_Ok in H as (n & Hn & H). apply rbind_Ok in H as (m & Hm & H).
  match type of Hcs with decode_int32 ?s = _ => let s' := eval cbv in s in change s with s' in Hcs end.
  match type of Hlc with decode_int32 ?s = _ => let s' := eval cbv in s in change s with s' in Hlc end.
  match type of Hn with decode_int64 ?s = _ => let s' := eval cbv in s in change s with s' in Hn end.
  match type of Hm with decode_int64 ?s = _ => let s' := eval cbv in s in change s with s' in Hm end.
  unfold decode_int32, decode_int64 in *.
  match type of Hcs with (if ?c then _ else _) = _ => change c with true in Hcs end.
  match type of Hlc with (if ?c then _ else _) = _ => change c with true in Hlc end.
  match type of Hn with (if ?c then _ else _) = _ => change c with true in Hn end.
  match type of Hm with (if ?c then _ else _) = _ => change c with true in Hm end.
  assert (Q : forall x y : Z, Ok x = Ok y -> x = y) by congruence.
  cbv iota in *.
  apply Q in Hcs, Hlc, Hn, Hm.
  apply mk_header_Ok in H as (Hv & Hnums & c' & Hc' & ->). cbn [fst snd] in *.
  assert (c' = c) by (destruct c, c'; cbn in Hc'; congruence). subst c'.
  split; [split; auto|].
  unfold header_bytes; cbn [h_version h_offsets h_metadata h_checksum h_typesize h_chunk_size h_last_chunk h_nchunks h_max_app].
  rewrite <- Ho, <- Hc, <- Hcs, <- Hlc, <- Hn, <- Hm.
  change 32 with (8 * Z.of_nat 4). change 64 with (8 * Z.of_nat 8).
  rewrite !le_enc_signed by (reflexivity || lia).
  cbn [le_enc]. rewrite !bZ_Zb. reflexivity.
Qed.

(** Fields of an encoded header, in specification vocabulary. *)
Lemma header_decode_fields b : size b = 32 -> sub 0 4 b = b_of_string "blpk" ->
  header_decode b =
    (om <~ decode_options (decode_bitfield (u8 5 b)) ;;
     ck <~ cks_of_index (u8 6 b) ;;
     mk_header (u8 4 b) (fst om) (snd om) (cks_name ck) (u8 7 b)
               (i32 8 b) (i32 12 b) (i64 16 b) (i64 24 b)).
Proof.
  intros E EM. unfold size in E. assert (L : List.length b = 32%nat) by lia. clear E.
  destr_list L 32%nat.
  match type of L with List.length ?r = _ => destruct r; [clear L|discriminate] end.
  cbv in EM. inversion EM; subst. clear EM.
  unfold header_decode.
  match goal with |- context [negb (zlen ?l =? ?n)] => change (negb (zlen l =? n)) with false end.
  match goal with |- context [negb (bytes_eqb (slice 0 4 ?l) ?n)] => change (negb (bytes_eqb (slice 0 4 l) n)) with false end.
  cbv iota. cbn [byte_at nth_error rbind].
  unfold u8.
  repeat match goal with |- context [uint_le (sub ?p 1 ?l)] =>
    let s := eval cbv in (sub p 1 l) in change (sub p 1 l) with s end.
  repeat match goal with |- context [slice ?p ?q ?l] =>
    let s := eval cbv in (slice p q l) in change (slice p q l) with s end.
  unfold i32, i64.
  repeat match goal with |- context [sub ?p 4 ?l] =>
    let s := eval cbv in (sub p 4 l) in change (sub p 4 l) with s end.
  repeat match goal with |- context [sub ?p 8 ?l] =>
    let s := eval cbv in (sub p 8 l) in change (sub p 8 l) with s end.
  cbn [uint_le fold_right]. 
  assert (U : forall x, Z.of_N (Byte.to_N x) + 256 * 0 = Zb x) by (intros; unfold Zb; lia).
  rewrite !U.
  rewrite !(signed_sint 4) by (reflexivity || lia).
  rewrite !(signed_sint 8) by (reflexivity || lia).
  unfold decode_int32, decode_int64.
  repeat match goal with |- context [zlen ?l =? ?n] => change (zlen l =? n) with true end.
  reflexivity.
Qed.

Lemma u8_range p b : 0 <= u8 p b < 256.
Proof.
  unfold u8. pose proof (uint_le_range (sub p 1 b)) as H.
  assert (size (sub p 1 b) <= 1). { unfold size, sub. rewrite firstn_length. lia. }
  assert (256 ^ size (sub p 1 b) <= 256 ^ 1). { apply Z.pow_le_mono_r; lia. }
  lia.
Qed.

Lemma decode_options_ok z : 0 <= z < 4 ->
  decode_options (decode_bitfield z) = Ok (Z.odd z, 2 <=? z).
Proof. intros H. assert (z = 0 \/ z = 1 \/ z = 2 \/ z = 3) as [->|[->|[->| ->]]] by lia; reflexivity. Qed.
Lemma decode_options_raise z : 4 <= z < 256 -> decode_options (decode_bitfield z) = Raise ValueError.
Proof.
  intros H. assert (Hz' : exists b, z = Zb b). { exists (bZ z). rewrite bZ_small; auto; lia. }
  destruct Hz' as [b ->]. destruct b; vm_compute in H; try (exfalso; destruct H as [H _]; apply H; reflexivity); vm_compute; reflexivity.
Qed.

Lemma cks_of_index_ok z : 0 <= z < 9 ->
  exists c, cks_of_index z = Ok c /\ cks_index c = z /\ nth_error checksum_names (Z.to_nat z) = Some (cks_name c).
Proof.
  intros H. assert (z = 0 \/ z = 1 \/ z = 2 \/ z = 3 \/ z = 4 \/ z = 5 \/ z = 6 \/ z = 7 \/ z = 8) as X by lia.
  repeat (destruct X as [->|X]; [eexists; repeat split; reflexivity|]). subst. eexists; repeat split; reflexivity.
Qed.

Lemma sint_range n b : size b = Z.of_nat n -> (0 < n)%nat ->
  - (256 ^ Z.of_nat n / 2) <= sint_le b < 256 ^ Z.of_nat n / 2.
Proof.
  intros H Hn. pose proof (uint_le_range b) as Hr. rewrite H in Hr.
  unfold sint_le. unfold size in H. rewrite H.
  assert (E : 256 ^ Z.of_nat n = 2 * (256 ^ Z.of_nat n / 2)).
  { destruct n as [|n]; [lia|]. rewrite pow256_S. generalize (256 ^ Z.of_nat n). intros. lia. }
  destruct (uint_le b <? 256 ^ Z.of_nat n / 2) eqn:Hc; lia.
Qed.

Lemma header_decode_describes b h : header_decode b = Ok h -> header_describes b h.
Proof.
  intros H. apply header_decode_inv in H as (Hok & ->).
  destruct Hok as (Hv & Ht & Hc & Hl & Hn & Hm & Hnm & Hs & _). unfold BUFMAX in *.
  change (2 ^ 63 - 1) with 9223372036854775807 in Hs.
  pose proof (cks_index_range (h_checksum h)).
  unfold header_describes. rewrite size_zlen, zlen_header_bytes. split; [auto|].
  split; [reflexivity|].
  assert (U1 : forall z, 0 <= z < 256 -> uint_le (le_enc 1 z) = z).
  { intros. rewrite uint_le_dec, le_dec_enc. apply Z.mod_small; auto. }
  assert (U4 : forall z, -2147483648 <= z <= 2147483647 -> sint_le (le_enc 4 z) = z).
  { intros z Hz. rewrite (signed_sint 4) by (reflexivity || lia). rewrite le_dec_enc.
    change (256 ^ Z.of_nat 4) with (2 ^ (8 * Z.of_nat 4)). apply signed_mod; [lia|]. change (2 ^ (8 * Z.of_nat 4 - 1)) with 2147483648. lia. }
  assert (U8 : forall z, -9223372036854775808 <= z <= 9223372036854775807 -> sint_le (le_enc 8 z) = z).
  { intros z Hz. rewrite (signed_sint 8) by (reflexivity || lia). rewrite le_dec_enc.
    change (256 ^ Z.of_nat 8) with (2 ^ (8 * Z.of_nat 8)). apply signed_mod; [lia|]. change (2 ^ (8 * Z.of_nat 8 - 1)) with 9223372036854775808. lia. }
  unfold u8, i32, i64.
  replace (sub 4 1 (header_bytes h)) with (le_enc 1 (h_version h)) by reflexivity.
  replace (sub 5 1 (header_bytes h)) with (le_enc 1 (opt_bits (h_offsets h) (h_metadata h))) by reflexivity.
  replace (sub 6 1 (header_bytes h)) with (le_enc 1 (cks_index (h_checksum h))) by reflexivity.
  replace (sub 7 1 (header_bytes h)) with (le_enc 1 (h_typesize h)) by reflexivity.
  replace (sub 8 4 (header_bytes h)) with (le_enc 4 (h_chunk_size h)) by reflexivity.
  replace (sub 12 4 (header_bytes h)) with (le_enc 4 (h_last_chunk h)) by reflexivity.
  replace (sub 16 8 (header_bytes h)) with (le_enc 8 (h_nchunks h)) by reflexivity.
  replace (sub 24 8 (header_bytes h)) with (le_enc 8 (h_max_app h)) by reflexivity.
  rewrite !U1, !U4, !U8 by (try lia; unfold opt_bits; destruct (h_offsets h), (h_metadata h); lia).
  repeat split; try reflexivity.
  destruct (h_checksum h); reflexivity.
Qed.

Lemma header_decode_accepts b :
  (exists h, header_decode b = Ok h) <->
  size b = 32 /\ sub 0 4 b = b_of_string "blpk" /\ u8 5 b < 4 /\ u8 6 b < 9 /\
  header_nums_ok (u8 7 b) (i32 8 b) (i32 12 b) (i64 16 b) (i64 24 b).
Proof.
  split.
  - intros [h H]. pose proof (header_decode_describes b h H) as D.
    apply header_decode_inv in H as ((_ & Hn) & _).
    destruct D as (E & M & _ & O & C & T & Cs & Lc & N & Mx).
    rewrite T, Cs, Lc, N, Mx. refine (conj E (conj M (conj _ (conj _ Hn)))).
    + rewrite O. destruct (h_offsets h), (h_metadata h); lia.
    + assert (X : nth_error checksum_names (Z.to_nat (u8 6 b)) <> None) by congruence.
      apply nth_error_Some in X. change (List.length checksum_names) with 9%nat in X.
      pose proof (u8_range 6 b). lia.
  - intros (E & M & O & C & Hn). rewrite header_decode_fields by auto.
    pose proof (u8_range 5 b). pose proof (u8_range 6 b). pose proof (u8_range 4 b).
    rewrite decode_options_ok by lia. cbn [rbind fst snd].
    destruct (cks_of_index_ok (u8 6 b)) as (c & -> & _ & _); [lia|]. cbn [rbind].
    rewrite mk_header_intro by (auto; lia). eauto.
Qed.

(** which exception a refused buffer raises *)
Lemma header_decode_refuses b e : header_decode b = Raise e ->
  e = ValueError \/ (e = IndexError /\ size b = 32 /\ 9 <= u8 6 b).
Proof.
  intros H. destruct (Z.eq_dec (size b) 32) as [E|E].
  2:{ left. unfold header_decode in H. rewrite <- size_zlen in H.
      replace (size b =? BLOSCPACK_HEADER_LENGTH) with false in H
        by (unfold BLOSCPACK_HEADER_LENGTH; lia). cbn in H. congruence. }
  destruct (bytes_eqb (sub 0 4 b) (b_of_string "blpk")) eqn:M.
  2:{ left. unfold header_decode in H. rewrite <- size_zlen, E in H.
      rewrite sub_slice in M by lia. change (0 + 4) with 4 in M. unfold MAGIC in H. rewrite M in H.
      cbn in H. congruence. }
  apply bytes_eqb_eq in M. rewrite header_decode_fields in H by auto.
  pose proof (u8_range 5 b). pose proof (u8_range 6 b). pose proof (u8_range 4 b).
  destruct (Z.lt_ge_cases (u8 5 b) 4).
  2:{ rewrite decode_options_raise in H by lia. cbn in H. left; congruence. }
  rewrite decode_options_ok in H by lia. cbn [rbind fst snd] in H.
  destruct (Z.lt_ge_cases (u8 6 b) 9).
  2:{ rewrite cks_of_index_raise in H by lia. cbn in H. right. repeat split; auto; congruence. }
  destruct (cks_of_index_ok (u8 6 b)) as (c & Hc & _ & _); [lia|]. rewrite Hc in H. cbn [rbind] in H.
  unfold mk_header in H. rewrite check_range_in in H by (unfold MAX_FORMAT_VERSION; lia).
  cbn [rbind] in H. rewrite check_valid_name in H. cbn [rbind] in H.
  destruct (check_header_nums _ _ _ _ _) eqn:X; cbn in H; [discriminate|].
  apply check_header_nums_raise in X. left; congruence.
Qed.

(* ---------------------------------------------------------------- *)
(** ** Metadata header *)

Lemma lstrip0_id b : match b with [] => True | x :: _ => x <> x00 end -> lstrip0 b = b.
Proof. destruct b as [|x r]; auto. cbn. destruct x; auto. congruence. Qed.
Lemma lstrip0_zrep n b : lstrip0 (repeat x00 n ++ b) = lstrip0 b.
Proof. induction n; cbn; auto. Qed.

Lemma strip0_pad b n : no_edge_nul b -> strip0 (b ++ repeat x00 n) = b.
Proof.
  intros [H1 H2]. unfold strip0. destruct b as [|x r].
  - cbn. rewrite <- (app_nil_r (repeat x00 n)), lstrip0_zrep. reflexivity.
  - rewrite (lstrip0_id ((x :: r) ++ repeat x00 n)) by exact H1. rewrite rev_app_distr.
    assert (R : rev (repeat x00 n) = repeat x00 n).
    { clear. induction n; cbn; auto. rewrite IHn.
      clear. induction n; cbn; auto. f_equal; auto. }
    rewrite R, lstrip0_zrep, (lstrip0_id (rev (x :: r))) by exact H2. apply rev_involutive.
Qed.

Definition mheader_ok (h : mheader) : Prop :=
  zlen (mh_magic h) <= 8 /\ check_options (mh_options h) = Ok tt /\ 0 <= mh_level h <= 9 /\
  0 <= mh_size h <= 4294967295 /\ 0 <= mh_max h <= 4294967295 /\ 0 <= mh_comp h <= 4294967295 /\
  zlen (mh_user h) <= 8.

Lemma check_str_Ok v n u : check_str v n = Ok u -> zlen v <= n.
Proof. unfold check_str. destruct (n <? zlen v) eqn:E; [discriminate|lia]. Qed.
Lemma check_str_in v n : zlen v <= n -> check_str v n = Ok tt.
Proof. intros. unfold check_str. replace (n <? zlen v) with false by lia. reflexivity. Qed.

Lemma mk_mheader_Ok magic opts ck co lvl sz mx cm user h :
  mk_mheader magic opts ck co lvl sz mx cm user = Ok h ->
  mheader_ok h /\ exists c k, ck = cks_name c /\ co = codec_name k /\
  h = mkMH magic opts c k lvl sz mx cm user.
Proof.
  unfold mk_mheader. intros H.
  apply rbind_Ok in H as (? & H1 & H). apply check_str_Ok in H1.
  apply rbind_Ok in H as ([] & H2 & H).
  apply rbind_Ok in H as (c & H3 & H). apply check_valid_checksum_inv in H3.
  apply rbind_Ok in H as (k & H4 & H). apply check_valid_codec_inv in H4.
  apply rbind_Ok in H as (? & H5 & H). apply check_range_Ok in H5.
  apply rbind_Ok in H as (? & H6 & H). apply check_range_Ok in H6.
  apply rbind_Ok in H as (? & H7 & H). apply check_range_Ok in H7.
  apply rbind_Ok in H as (? & H8 & H). apply check_range_Ok in H8.
  apply rbind_Ok in H as (? & H9 & H). apply check_str_Ok in H9.
  inversion H; subst. split; [|eauto]. unfold mheader_ok, MAX_CLEVEL, MAX_META_SIZE in *; cbn; auto 10.
Qed.

Lemma mk_mheader_intro magic opts c k lvl sz mx cm user :
  mheader_ok (mkMH magic opts c k lvl sz mx cm user) ->
  mk_mheader magic opts (cks_name c) (codec_name k) lvl sz mx cm user
  = Ok (mkMH magic opts c k lvl sz mx cm user).
Proof.
  intros (H1 & H2 & H3 & H4 & H5 & H6 & H7). cbn in *. unfold mk_mheader.
  rewrite check_str_in, H2, check_valid_name, check_valid_codec_name by auto. cbn [rbind].
  rewrite !check_range_in by (unfold MAX_CLEVEL, MAX_META_SIZE; lia). cbn [rbind].
  rewrite check_str_in by auto. reflexivity.
Qed.

Definition mheader_bytes (h : mheader) : bytes :=
  pad_with_nulls (mh_magic h) 8 ++ le_enc 1 (int_of_bits (mh_options h)) ++
  le_enc 1 (cks_index (mh_checksum h)) ++ le_enc 1 (codec_index (mh_codec h)) ++
  le_enc 1 (mh_level h) ++ le_enc 4 (mh_size h) ++ le_enc 4 (mh_max h) ++ le_enc 4 (mh_comp h) ++
  pad_with_nulls (mh_user h) 8.

Lemma zlen_pad d n : zlen d <= n -> zlen (pad_with_nulls d n) = n.
Proof. intros. unfold pad_with_nulls. rewrite zlen_app, zlen_zrep. lia. Qed.

Lemma zlen_mheader_bytes h : mheader_ok h -> zlen (mheader_bytes h) = 32.
Proof.
  intros (H1 & _ & _ & _ & _ & _ & H7). unfold mheader_bytes.
  rewrite !zlen_app, !zlen_le_enc, !zlen_pad by auto. reflexivity.
Qed.

(** every options string is one of 256 *)
Lemma check_options_inv s u : check_options s = Ok u ->
  exists b, s = decode_bitfield (Zb b) /\ int_of_bits s = Zb b.
Proof.
  unfold check_options. destruct (_ && _) eqn:E; [|discriminate]. intros _.
  apply andb_true_iff in E as [E1 E2]. apply Nat.eqb_eq in E1.
  do 8 (destruct s as [|? s]; [discriminate|]). destruct s; [|discriminate]. clear E1.
  cbn [list_ascii_of_string forallb] in E2.
  repeat match goal with H : _ && _ = true |- _ => apply andb_true_iff in H as [? ?] end.
  repeat match goal with H : is01 ?a = true |- _ =>
    assert (a = "0"%char \/ a = "1"%char)
      by (unfold is01 in H; apply orb_true_iff in H as [H|H]; apply Ascii.eqb_eq in H; auto); clear H end.
  repeat match goal with H : _ \/ _ |- _ => destruct H as [->| ->] end;
  match goal with |- exists b, ?s = _ /\ _ => exists (bZ (int_of_bits s)) end; split; reflexivity.
Qed.

Lemma mheader_encode_ok h : mheader_ok h -> mheader_encode h = Ok (mheader_bytes h).
Proof.
  intros (H1 & H2 & H3 & H4 & H5 & H6 & H7).
  apply check_options_inv in H2 as (b & Hs & Hi).
  unfold mheader_encode, encode_uint8, encode_uint32.
  pose proof (Zb_range b). pose proof (cks_index_range (mh_checksum h)). pose proof (codec_index_range (mh_codec h)).
  rewrite !pack_int_in by lia. reflexivity.
Qed.

Lemma mheader_decode_bytes h : mheader_ok h -> no_edge_nul (mh_magic h) -> no_edge_nul (mh_user h) ->
  mheader_decode (mheader_bytes h) = Ok h.
Proof.
  intros Hok Hm Hu. pose proof Hok as (H1 & H2 & H3 & H4 & H5 & H6 & H7).
  apply check_options_inv in H2 as (b & Hs & Hi).
  pose proof (zlen_mheader_bytes h Hok) as L.
  unfold mheader_decode. rewrite L. cbn [Z.eqb negb Pos.eqb].
  pose proof (zlen_pad (mh_magic h) 8 H1) as L1. pose proof (zlen_pad (mh_user h) 8 H7) as L2.
  set (mid := le_enc 1 (int_of_bits (mh_options h)) ++ le_enc 1 (cks_index (mh_checksum h)) ++
     le_enc 1 (codec_index (mh_codec h)) ++ le_enc 1 (mh_level h) ++ le_enc 4 (mh_size h) ++
     le_enc 4 (mh_max h) ++ le_enc 4 (mh_comp h)).
  assert (B : mheader_bytes h = pad_with_nulls (mh_magic h) 8 ++ mid ++ pad_with_nulls (mh_user h) 8).
  { unfold mheader_bytes, mid. rewrite <- !app_assoc. reflexivity. }
  assert (Lm : zlen mid = 16) by reflexivity.
  assert (S1 : slice 0 8 (mheader_bytes h) = pad_with_nulls (mh_magic h) 8).
  { rewrite B. unfold slice. rewrite zdrop_0 by lia. apply ztake_app_exact. lia. }
  assert (S2 : slice 24 32 (mheader_bytes h) = pad_with_nulls (mh_user h) 8).
  { rewrite B. unfold slice. rewrite app_assoc, zdrop_app_exact by (rewrite zlen_app; lia).
    apply ztake_all. lia. }
  assert (SM : forall a n, 8 <= a -> a + n <= 24 -> 0 <= n ->
     slice a (a + n) (mheader_bytes h) = slice (a - 8) (a - 8 + n) mid).
  { intros a n Ha Hn1 Hn2. rewrite B. unfold slice.
    rewrite zdrop_app_ge by lia. rewrite L1.
    rewrite zdrop_app_le by lia.
    replace (a + n - a) with n by lia. replace (a - 8 + n - (a - 8)) with n by lia.
    apply ztake_app_le. rewrite zlen_zdrop. lia. }
  assert (SB : forall i, (8 <= i < 24)%nat -> byte_at i (mheader_bytes h) = byte_at (i - 8) mid).
  { intros i Hi8. unfold byte_at. rewrite B. unfold zlen in L1, Lm.
    rewrite nth_error_app2 by lia. rewrite nth_error_app1 by lia.
    replace (i - List.length (pad_with_nulls (mh_magic h) 8))%nat with (i - 8)%nat by lia. reflexivity. }
  rewrite S1, S2.
  rewrite !SB by lia.
  change 16 with (12 + 4) at 1. change 20 with (16 + 4) at 1. change 24 with (20 + 4) at 1.
  rewrite !SM by lia.
  cbn [Nat.sub].
  change (byte_at 0 mid) with (@Ok Z (Zb (bZ (int_of_bits (mh_options h))))).
  change (byte_at 1 mid) with (@Ok Z (Zb (bZ (cks_index (mh_checksum h))))).
  change (byte_at 2 mid) with (@Ok Z (Zb (bZ (codec_index (mh_codec h))))).
  change (byte_at 3 mid) with (@Ok Z (Zb (bZ (mh_level h)))).
  change (slice (12 - 8) (12 - 8 + 4) mid) with (le_enc 4 (mh_size h)).
  change (slice (16 - 8) (16 - 8 + 4) mid) with (le_enc 4 (mh_max h)).
  change (slice (20 - 8) (20 - 8 + 4) mid) with (le_enc 4 (mh_comp h)).
  pose proof (Zb_range b). pose proof (cks_index_range (mh_checksum h)). pose proof (codec_index_range (mh_codec h)).
  cbn [rbind]. rewrite !bZ_small by lia.
  rewrite cks_of_index_index, codec_of_index_index. cbn [rbind].
  rewrite !decode_uint32_enc by lia. cbn [rbind].
  unfold pad_with_nulls, zrep. rewrite !strip0_pad by auto.
  rewrite Hi, <- Hs. rewrite mk_mheader_intro; [destruct h; reflexivity|].
  destruct h; exact Hok.
Qed.

Lemma decode_bitfield_odd b : decode_bitfield (Zb b) = string_of_list_ascii
  (map (fun i => if Z.odd (Zb b / 2 ^ i) then "1"%char else "0"%char) [7; 6; 5; 4; 3; 2; 1; 0]).
Proof. destruct b; reflexivity. Qed.

Lemma pad8 x : zlen x <= 8 -> pad_with_nulls x 8 = padded8 x.
Proof.
  intros H. unfold pad_with_nulls, padded8, zrep. rewrite firstn_app. unfold zlen in *.
  rewrite firstn_all2 by lia. f_equal. replace (Z.to_nat (8 - Z.of_nat (List.length x))) with (8 - List.length x)%nat by lia.
  generalize (List.length x) as k. intros k. do 9 (destruct k as [|k]; [reflexivity|]). reflexivity.
Qed.

(** What an accepted 32-byte buffer says, field by field. *)
Lemma mheader_decode_fields b : size b = 32 ->
  mheader_decode b =
    (ck <~ cks_of_index (u8 9 b) ;;
     co <~ codec_of_index (u8 10 b) ;;
     mk_mheader (strip0 (sub 0 8 b)) (decode_bitfield (u8 8 b)) (cks_name ck) (codec_name co)
                (u8 11 b) (u32 12 b) (u32 16 b) (u32 20 b) (strip0 (sub 24 8 b))).
Proof.
  intros E. unfold size in E. assert (L : List.length b = 32%nat) by lia. clear E.
  destr_list L 32%nat.
  match type of L with List.length ?r = _ => destruct r; [clear L|discriminate] end.
  unfold mheader_decode.
  match goal with |- context [negb (zlen ?l =? ?n)] => change (negb (zlen l =? n)) with false end.
  cbv iota. cbn [byte_at nth_error rbind].
  unfold u8, u32.
  repeat match goal with |- context [sub ?p ?n ?l] =>
    let s := eval cbv in (sub p n l) in change (sub p n l) with s end.
  repeat match goal with |- context [slice ?p ?q ?l] =>
    let s := eval cbv in (slice p q l) in change (slice p q l) with s end.
  rewrite !uint_le_dec.
  unfold decode_uint32.
  repeat match goal with |- context [zlen ?l =? ?n] => change (zlen l =? n) with true end.
  assert (U : forall x, le_dec [x] = Zb x) by (intros; cbn [le_dec]; lia).
  rewrite !U. reflexivity.
Qed.

Lemma u8_byte p b : exists x, u8 p b = Zb x.
Proof. exists (bZ (u8 p b)). rewrite bZ_small; [reflexivity|apply u8_range]. Qed.

Lemma mheader_bytes_describe h : mheader_ok h -> mheader_describes (mheader_bytes h) h.
Proof.
  intros Hok. pose proof Hok as (H1 & H2 & H3 & H4 & H5 & H6 & H7).
  apply check_options_inv in H2 as (b & Hs & Hi).
  pose proof (zlen_mheader_bytes h Hok) as L.
  pose proof (zlen_pad (mh_magic h) 8 H1) as L1. pose proof (zlen_pad (mh_user h) 8 H7) as L2.
  unfold mheader_describes. rewrite size_zlen, L. split; [auto|].
  unfold mheader_bytes.
  set (A := pad_with_nulls (mh_magic h) 8) in *. set (B := pad_with_nulls (mh_user h) 8) in *.
  assert (SA : size A = 8) by exact L1. assert (SB : size B = 8) by exact L2.
  rewrite (sub_at0 8 A) by auto. split; [apply pad8; auto|].
  unfold u8, u32.
  rewrite (sub_at 8 1 A) by (rewrite ?SA; reflexivity).
  rewrite (app_assoc A), (sub_at 9 1) by (rewrite ?size_zlen, ?zlen_app, ?zlen_le_enc, ?L1; reflexivity).
  rewrite (app_assoc (A ++ _)), (sub_at 10 1) by (rewrite ?size_zlen, ?zlen_app, ?zlen_le_enc, ?L1; reflexivity).
  rewrite (app_assoc ((A ++ _) ++ _)), (sub_at 11 1) by (rewrite ?size_zlen, ?zlen_app, ?zlen_le_enc, ?L1; reflexivity).
  rewrite (app_assoc (((A ++ _) ++ _) ++ _)), (sub_at 12 4) by (rewrite ?size_zlen, ?zlen_app, ?zlen_le_enc, ?L1; reflexivity).
  rewrite (app_assoc ((((A ++ _) ++ _) ++ _) ++ _)), (sub_at 16 4) by (rewrite ?size_zlen, ?zlen_app, ?zlen_le_enc, ?L1; reflexivity).
  rewrite (app_assoc (((((A ++ _) ++ _) ++ _) ++ _) ++ _)), (sub_at 20 4) by (rewrite ?size_zlen, ?zlen_app, ?zlen_le_enc, ?L1; reflexivity).
  rewrite (app_assoc ((((((A ++ _) ++ _) ++ _) ++ _) ++ _) ++ _)).
  match goal with |- context [sub 24 8 (?x ++ B)] => replace (sub 24 8 (x ++ B)) with B end.
  2:{ symmetry. rewrite <- (app_nil_r B) at 1. apply sub_at; rewrite ?size_zlen, ?zlen_app, ?zlen_le_enc, ?L1, ?L2; reflexivity. }
  pose proof (cks_index_range (mh_checksum h)). pose proof (codec_index_range (mh_codec h)). pose proof (Zb_range b).
  rewrite !uint_le_enc by (cbn; lia). rewrite Hi, Hs, decode_bitfield_odd.
  repeat split; try reflexivity.
  - destruct (mh_checksum h); reflexivity.
  - destruct (mh_codec h); reflexivity.
  - apply pad8; auto.
Qed.

Lemma codec_of_index_ok z : 0 <= z < 2 ->
  exists c, codec_of_index z = Ok c /\ codec_index c = z /\ nth_error codec_names (Z.to_nat z) = Some (codec_name c).
Proof.
  intros H. assert (z = 0 \/ z = 1) as [->| ->] by lia; eexists; repeat split; reflexivity.
Qed.
Lemma codec_of_index_raise z : 2 <= z -> codec_of_index z = Raise IndexError.
Proof.
  intros H. unfold codec_of_index. destruct (nth_error codec_avail (Z.to_nat z)) eqn:N; [|reflexivity].
  assert (X : nth_error codec_avail (Z.to_nat z) <> None) by congruence.
  apply nth_error_Some in X. cbn in X. lia.
Qed.

Lemma lstrip0_length b : (List.length (lstrip0 b) <= List.length b)%nat.
Proof. induction b as [|x r IH]; [cbn; lia|]. destruct x; cbn in *; lia. Qed.
Lemma strip0_length b : (List.length (strip0 b) <= List.length b)%nat.
Proof.
  unfold strip0. rewrite rev_length.
  pose proof (lstrip0_length (rev (lstrip0 b))). rewrite rev_length in H. pose proof (lstrip0_length b). lia.
Qed.
Lemma check_options_bitfield b : check_options (decode_bitfield (Zb b)) = Ok tt.
Proof. destruct b; reflexivity. Qed.

(** Exactly the 32-byte buffers with known codes and a legal level decode. *)
Lemma mheader_decode_accepts b :
  (exists h, mheader_decode b = Ok h) <-> size b = 32 /\ u8 9 b < 9 /\ u8 10 b < 2 /\ u8 11 b <= 9.
Proof.
  split.
  - intros [h H]. assert (E : size b = 32).
    { unfold mheader_decode in H. rewrite <- size_zlen in H. destruct (size b =? 32) eqn:E; [lia|discriminate]. }
    rewrite mheader_decode_fields in H by auto.
    apply rbind_Ok in H as (c & Hc & H). apply rbind_Ok in H as (k & Hk & H).
    apply mk_mheader_Ok in H as ((_ & _ & Hl & _) & c' & k' & _ & _ & ->). cbn [mh_level] in Hl.
    pose proof (u8_range 9 b). pose proof (u8_range 10 b).
    apply cks_of_index_inv in Hc; [|lia]. apply codec_of_index_inv in Hk; [|lia].
    pose proof (cks_index_range c). pose proof (codec_index_range k). repeat split; lia.
  - intros (E & H9 & H10 & H11). rewrite mheader_decode_fields by auto.
    pose proof (u8_range 9 b). pose proof (u8_range 10 b). pose proof (u8_range 11 b).
    destruct (cks_of_index_ok (u8 9 b)) as (c & -> & _); [lia|].
    destruct (codec_of_index_ok (u8 10 b)) as (k & -> & _); [lia|]. cbn [rbind].
    rewrite mk_mheader_intro; [eauto|].
    destruct (u8_byte 8 b) as [x8 X8].
    assert (Q : forall p, 0 <= p -> zlen (strip0 (sub p 8 b)) <= 8).
    { intros p Hp. unfold zlen. pose proof (strip0_length (sub p 8 b)) as Q1. pose proof (size_sub p 8 b Hp ltac:(lia)) as Q2. unfold size in Q2. lia. }
    assert (V : forall p, 0 <= u32 p b <= 4294967295).
    { intros p. unfold u32. pose proof (uint_le_range (sub p 4 b)) as V.
      assert (size (sub p 4 b) <= 4). { unfold size, sub. rewrite firstn_length. lia. }
      assert (256 ^ size (sub p 4 b) <= 256 ^ 4). { apply Z.pow_le_mono_r; lia. }
      change (256 ^ 4) with 4294967296 in *. lia. }
    unfold mheader_ok; cbn [mh_magic mh_options mh_level mh_size mh_max mh_comp mh_user].
    rewrite X8. repeat split; auto using check_options_bitfield; try lia; try apply Q; try apply V; lia.
Qed.

(* ---------------------------------------------------------------- *)
(** ** Chunking *)

Lemma calculate_nchunks_partition sz cs n c last :
  0 <= sz -> calculate_nchunks sz (CSInt cs) = Ok (n, c, last) ->
  1 <= n /\ (n - 1) * c + last = sz /\ last <= c /\ 0 <= last /\ c = Z.min c sz /\ n <= MAX_CHUNKS /\
  (0 < sz -> c = Z.min cs sz /\ 0 < last /\ 1 <= c <= BLOSC_MAX_BUFFERSIZE) /\
  (sz = 0 -> n = 1 /\ c = 0 /\ last = 0).
Proof.
  intros Hs. unfold calculate_nchunks.
  destruct (sz <? 0) eqn:E1; [lia|]. destruct (sz =? 0) eqn:E2.
  - intros H; inversion H; subst. unfold MAX_CHUNKS. lia.
  - cbn [rbind]. intros H. apply rbind_Ok in H as (u & Hr & H). apply check_range_Ok in Hr.
    set (c' := if sz <? cs then sz else cs) in *.
    assert (Hc' : c' = Z.min cs sz) by (unfold c'; destruct (sz <? cs) eqn:?; lia).
    assert (0 < c') by lia.
    clearbody c'.
    assert (Q : 1 <= sz / c') by (apply Z.div_le_lower_bound; lia).
    pose proof (Z.div_mod sz c' ltac:(lia)) as D. pose proof (Z.mod_pos_bound sz c' ltac:(lia)) as B.
    destruct (c' =? sz) eqn:E3; [|destruct (sz mod c' =? 0) eqn:E4];
      match type of H with (if ?b then _ else _) = _ => destruct b eqn:E5; [discriminate|] end;
      injection H as X1 X2 X3; rewrite <- X1, <- X2, <- X3; clear X1 X2 X3;
      unfold BLOSC_MAX_BUFFERSIZE, MAX_CHUNKS in *; repeat split; try lia; try nia.
Qed.
