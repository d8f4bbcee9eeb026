(** The reader of the model agrees with the reference reader on every byte string. *)
From Verif Require Import Base PyVal Checksums Headers Pretty Args FileIO Append Spec Archive CrcSpec FormatSpec ReadSpec BaseLemmas HeaderProofs IOProofs WfProofs PackProofs SmallProofs BytesProofs MetaProofs DamageProofs CrcProofs FormatProofs ResignProofs.
From Coq Require Import ZifyBool ZifyNat.
Ltac Zify.zify_post_hook ::= Z.div_mod_to_equations.

Lemma same_eqb x y : same x y = bytes_eqb x y.
Proof.
  unfold same. destruct (list_eq_dec _ x y) as [->|N]; [symmetry; apply bytes_eqb_refl|].
  destruct (bytes_eqb x y) eqn:B; [|reflexivity]. apply bytes_eqb_eq in B. contradiction.
Qed.
Lemma is_digest_unique E ck d g : is_digest E (cks_index ck) d g -> g = digest E ck d.
Proof.
  pose proof (digest_is E ck d) as H. intros G. destruct ck; cbn [cks_index is_digest] in *; try congruence.
  1:{ destruct G as (r & v & R & V & B & ->). destruct H as (r' & v' & R' & V' & B' & ->).
    rewrite (remainder_unique _ _ _ R R') in *. f_equal. apply Z.bits_inj'. intros i Hi.
    destruct (Z.lt_ge_cases i 32) as [L|L]; [rewrite B, B' by lia; reflexivity|].
    assert (T : forall w, 0 <= w < 2 ^ 32 -> Z.testbit w i = false).
    { intros w Hw. rewrite <- (Z.mod_small w (2 ^ 32)) by lia. apply Z.mod_pow2_bits_high. lia. }
    rewrite !T by lia. reflexivity. }
  all: destruct G as (c & N & ->); destruct H as (c' & N' & ->); rewrite N in N'; injection N' as N'; destruct c, c'; try discriminate N'; reflexivity.
Qed.

Section WithEnv.
Variable E : Env.
Variable dg : Z -> bytes -> bytes.
Hypothesis HD : forall code d, 0 <= code < 9 -> is_digest E code d (dg code d).

Lemma dg_digest ck d : dg (cks_index ck) d = digest E ck d.
Proof. apply is_digest_unique. apply HD. pose proof (cks_index_range ck). lia. Qed.

Lemma field32 p n f : 0 <= p -> 0 <= n -> p + n <= 32 -> sub p n (ztake 32 f) = sub p n f.
Proof.
  intros. replace (ztake 32 f) with (ztake 32 (zdrop 0 f)) by (rewrite zdrop_0 by lia; reflexivity). rewrite ztake_zdrop_sub, sub_sub_32 by lia. f_equal.
Qed.


Lemma nums_bool c l n r t : 0 <= t <= 255 ->
  (if (c <? -1) || (BUFMAX <? c) || (l <? -1) || (BUFMAX <? l) then true
   else if (n <? -1) || (r <? 0) || ((n =? -1) && (0 <? r)) || (2 ^ 63 <=? n + r) then true
   else (0 <=? c) && (c <? l)) = false <-> header_nums_ok t c l n r.
Proof.
  intros Ht. unfold header_nums_ok, BUFMAX. change (2 ^ 63) with 9223372036854775808.
  destruct ((c <? -1) || _ || _ || _) eqn:A; [split; [discriminate|intros H; exfalso; lia]|].
  destruct ((n <? -1) || _ || _ || _) eqn:B; [split; [discriminate|intros H; exfalso; lia]|].
  split; [intros C|intros H]; lia.
Qed.

Lemma header_exact f :
  match header_fault f with
  | Some e => exists g, read_bloscpack_header (fp_of f) = (g, Raise e)
  | None => exists ck, cks_index ck = u8 6 f /\ header_nums_ok (u8 7 f) (F_chunk f) (F_last f) (F_n f) (F_max f) /\
      read_bloscpack_header (fp_of f) = (mkfp f 32 [], Ok (mkH (u8 4 f) (has_offsets f) (has_meta f) ck (u8 7 f) (F_chunk f) (F_last f) (F_n f) (F_max f)))
  end.
Proof.
  unfold read_bloscpack_header, BLOSCPACK_HEADER_LENGTH.
  pose proof (f_read_gen 32 (fp_of f) ltac:(lia)) as RD. rewrite rest_fp_of in RD. unfold header_fault.
  destruct (Z.ltb_spec (size f) 32) as [L|L].
  { eexists. rewrite (bind_run _ _ _ _ _ RD). apply bind_lift_raise. unfold header_decode. rewrite zlen_ztake. unfold BLOSCPACK_HEADER_LENGTH.
    rewrite size_zlen in L. replace (Z.min (Z.max 0 32) (zlen f) =? 32) with false by lia. reflexivity. }
  rewrite size_zlen in L.
  assert (SZ : size (ztake 32 f) = 32) by (rewrite size_zlen, zlen_ztake; lia).
  assert (U : forall p n, 0 <= p -> 0 <= n -> p + n <= 32 -> sub p n (ztake 32 f) = sub p n f) by (intros; apply field32; lia).
  assert (AD : adv (zlen (ztake 32 f)) (fp_of f) = mkfp f 32 []).
  { rewrite <- size_zlen, SZ. reflexivity. }
  rewrite AD in RD. rewrite same_eqb.
  destruct (bytes_eqb (sub 0 4 f) (b_of_string "blpk")) eqn:M; cbn [negb].
  2:{ eexists. rewrite (bind_run _ _ _ _ _ RD). apply bind_lift_raise. unfold header_decode. rewrite <- size_zlen, SZ.
      cbn [Z.eqb BLOSCPACK_HEADER_LENGTH negb]. unfold BLOSCPACK_HEADER_LENGTH. cbn [Z.eqb Pos.eqb negb].
      rewrite <- (U 0 4) in M by lia. rewrite sub_slice in M by lia. change (0 + 4) with 4 in M. unfold MAGIC. rewrite M. reflexivity. }
  apply bytes_eqb_eq in M. rewrite <- (U 0 4) in M by lia.
  pose proof (header_decode_fields _ SZ M) as HF.
  unfold u8, i32, i64 in HF. rewrite !U in HF by lia. fold (u8 4 f) (u8 5 f) (u8 6 f) (u8 7 f) (i32 8 f) (i32 12 f) (i64 16 f) (i64 24 f) in HF.
  pose proof (u8_range 5 f). pose proof (u8_range 6 f). pose proof (u8_range 4 f). pose proof (u8_range 7 f).
  destruct (Z.leb_spec 4 (u8 5 f)) as [L5|L5].
  { eexists. rewrite (bind_run _ _ _ _ _ RD). apply bind_lift_raise. rewrite HF, decode_options_raise by lia. reflexivity. }
  rewrite decode_options_ok in HF by lia. cbn [rbind fst snd] in HF.
  destruct (Z.leb_spec 9 (u8 6 f)) as [L6|L6].
  { eexists. rewrite (bind_run _ _ _ _ _ RD). apply bind_lift_raise. rewrite HF, cks_of_index_raise by lia. reflexivity. }
  destruct (cks_of_index_ok (u8 6 f) ltac:(lia)) as (ck & CK & CI & _). rewrite CK in HF. cbn [rbind] in HF.
  pose proof (nums_bool (F_chunk f) (F_last f) (F_n f) (F_max f) (u8 7 f) ltac:(lia)) as NB.
  unfold F_version.
  assert (BAD : ~ header_nums_ok (u8 7 f) (F_chunk f) (F_last f) (F_n f) (F_max f) ->
    exists g, bind (f_read 32) (fun raw => h <- lift (header_decode raw) ;; (if FORMAT_VERSION =? h_version h then ret h else raise FormatVersionMismatch)) (fp_of f) = (g, Raise ValueError)).
  { intros N. eexists. rewrite (bind_run _ _ _ _ _ RD). apply bind_lift_raise. rewrite HF. unfold mk_header.
    rewrite check_range_in by (unfold MAX_FORMAT_VERSION; lia). cbn [rbind]. rewrite check_valid_name. cbn [rbind].
    destruct (check_header_nums _ _ _ _ _) as [[]|e] eqn:X; [|apply check_header_nums_raise in X; subst; reflexivity].
    apply check_header_nums_iff in X. contradiction. }
  destruct ((F_chunk f <? -1) || (BUFMAX <? F_chunk f) || (F_last f <? -1) || (BUFMAX <? F_last f)); [apply BAD; rewrite <- NB; discriminate|].
  destruct ((F_n f <? -1) || (F_max f <? 0) || ((F_n f =? -1) && (0 <? F_max f)) || (2 ^ 63 <=? F_n f + F_max f)); [apply BAD; rewrite <- NB; discriminate|].
  destruct ((0 <=? F_chunk f) && (F_chunk f <? F_last f)); [apply BAD; rewrite <- NB; discriminate|].
  pose proof (proj1 NB eq_refl) as OK. rewrite mk_header_intro in HF by (auto; lia).
  rewrite (bind_run _ _ _ _ _ RD), (bind_lift _ _ _ _ HF). cbn [h_version]. unfold FORMAT_VERSION. rewrite (Z.eqb_sym 3).
  destruct (u8 4 f =? 3); cbn [negb]; [|eexists; reflexivity].
  exists ck. split; [exact CI|]. split; [exact OK|]. unfold has_offsets, has_meta. replace (Z.odd (u8 5 f / 2)) with (2 <=? u8 5 f); [reflexivity|].
  assert (V : u8 5 f = 0 \/ u8 5 f = 1 \/ u8 5 f = 2 \/ u8 5 f = 3) by lia. destruct V as [->|[->|[->| ->]]]; reflexivity.
Qed.

Lemma json_magic x : size x = 8 -> is_json x = bytes_eqb (strip0 x) (b_of_string "JSON").
Proof.
  intros L. destruct (bytes_eqb (strip0 x) (b_of_string "JSON")) eqn:B.
  - apply bytes_eqb_eq in B. destruct (strip0_zeros x) as (i & j & X). rewrite B in X.
    assert (LL : (i + 4 + j = 8)%nat). { rewrite X in L. unfold size in L. rewrite !app_length, !repeat_length in L. cbn [b_of_string List.length] in L. change (List.length (b_of_string "JSON")) with 4%nat in L. lia. }
    unfold is_json. apply existsb_exists. exists i. split; [destruct i as [|[|[|[|[|i]]]]]; cbn; tauto || lia|].
    rewrite same_eqb. apply bytes_eqb_eq. replace (4 - i)%nat with j by lia. exact X.
  - unfold is_json. destruct (existsb _ _) eqn:X; [|reflexivity]. apply existsb_exists in X as (i & Hi & X). rewrite same_eqb in X. apply bytes_eqb_eq in X.
    exfalso. assert (B2 : strip0 x = b_of_string "JSON"); [|rewrite B2, bytes_eqb_refl in B; discriminate].
    rewrite X. cbn [In] in Hi. destruct Hi as [<-|[<-|[<-|[<-|[<-|[]]]]]]; reflexivity.
Qed.

Lemma f_read_at n f p l : 0 <= n -> f_read n (mkfp f p l) = (mkfp f (p + size (sub p n f)) l, Ok (sub p n f)).
Proof.
  intros H. rewrite f_read_gen by lia. unfold rest. cbn [fpos fdata]. rewrite ztake_zdrop_sub, <- size_zlen. reflexivity.
Qed.
Lemma digest_len_cks ck : digest_len (cks_index ck) = cks_size ck.
Proof. destruct ck; reflexivity. Qed.

Lemma metadata_exact f : 32 <= size f ->
  match metadata_at_32 E dg f with
  | Raise e => exists g, read_metadata E (mkfp f 32 []) = (g, Raise e)
  | Ok (m, q) => exists h, read_metadata E (mkfp f 32 []) = (mkfp f q [], Ok (m, h)) /\ 0 <= q /\
      mh_max h = u32 48 f /\ cks_index (mh_checksum h) = u8 41 f /\ codec_index (mh_codec h) = u8 42 f /\ mh_level h = u8 43 f /\
      mh_magic h = b_of_string "JSON" /\ u8 43 f <= 9 /\ mh_size h = u32 44 f /\ mh_comp h = u32 52 f
  end.
Proof.
  intros L32. unfold read_metadata, METADATA_HEADER_LENGTH, metadata_at_32.
  pose proof (f_read_at 32 f 32 [] ltac:(lia)) as RD.
  destruct (Z.ltb_spec (size f) 64) as [L|L].
  { eexists. rewrite (bind_run _ _ _ _ _ RD). apply bind_lift_raise. unfold mheader_decode. rewrite <- size_zlen, size_sub by lia.
    replace (Z.min 32 (Z.max 0 (size f - 32)) =? 32) with false by lia. reflexivity. }
  assert (SZ : size (sub 32 32 f) = 32) by (rewrite size_sub by lia; lia). rewrite SZ in RD. change (32 + 32) with 64 in RD.
  assert (U : forall i k, 0 <= i -> 0 <= k -> i + k <= 32 -> sub i k (sub 32 32 f) = sub (32 + i) k f) by (intros; apply sub_sub_32; lia).
  pose proof (mheader_decode_fields _ SZ) as HF. unfold u8, u32 in HF. rewrite !U in HF by lia.
  change (32 + 9) with 41 in HF. change (32 + 10) with 42 in HF. change (32 + 8) with 40 in HF. change (32 + 11) with 43 in HF.
  change (32 + 12) with 44 in HF. change (32 + 16) with 48 in HF. change (32 + 20) with 52 in HF. change (32 + 24) with 56 in HF. change (32 + 0) with 32 in HF.
  fold (u8 41 f) (u8 42 f) (u8 40 f) (u8 43 f) (u32 44 f) (u32 48 f) (u32 52 f) in HF.
  pose proof (u8_range 41 f) as R41. pose proof (u8_range 42 f) as R42. pose proof (u8_range 43 f) as R43.
  destruct (Z.leb_spec 9 (u8 41 f)) as [L41|L41]; cbn [orb].
  { eexists. rewrite (bind_run _ _ _ _ _ RD). apply bind_lift_raise. rewrite HF, cks_of_index_raise by lia. reflexivity. }
  destruct (cks_of_index_ok (u8 41 f) ltac:(lia)) as (ck & CK & CI & _). rewrite CK in HF. cbn [rbind] in HF.
  destruct (Z.leb_spec 2 (u8 42 f)) as [L42|L42].
  { eexists. rewrite (bind_run _ _ _ _ _ RD). apply bind_lift_raise. rewrite HF, codec_of_index_raise by lia. reflexivity. }
  destruct (codec_of_index_ok (u8 42 f) ltac:(lia)) as (co & CO & COI & _). rewrite CO in HF. cbn [rbind] in HF.
  assert (Q8 : forall p, 0 <= p -> zlen (strip0 (sub p 8 f)) <= 8).
  { intros p Hp. unfold zlen. pose proof (strip0_length (sub p 8 f)) as Q1. assert (Q2 : size (sub p 8 f) <= 8) by (rewrite size_sub by lia; lia). unfold size in Q2. lia. }
  destruct (u8_byte 40 f) as [x40 X40].
  destruct (Z.ltb_spec 9 (u8 43 f)) as [L43|L43].
  { eexists. rewrite (bind_run _ _ _ _ _ RD). apply bind_lift_raise. rewrite HF. unfold mk_mheader.
    rewrite (check_str_in _ 8 (Q8 32 ltac:(lia))), X40, check_options_bitfield, check_valid_name, check_valid_codec_name. cbn [rbind].
    unfold check_range, MAX_CLEVEL. replace ((0 <=? u8 43 f) && (u8 43 f <=? 9)) with false by lia. reflexivity. }
  pose proof (u32_range 44 f) as R44. pose proof (u32_range 48 f) as R48. pose proof (u32_range 52 f) as R52.
  rewrite mk_mheader_intro in HF.
  2:{ unfold mheader_ok; cbn [mh_magic mh_options mh_level mh_size mh_max mh_comp mh_user]. rewrite X40. repeat split; auto using check_options_bitfield; try lia; try (apply Q8; lia). }
  set (h := mkMH _ _ ck co _ _ _ _ _) in HF. set (payload := sub 64 (u32 52 f) f). set (pp := 64 + size payload + (u32 48 f - u32 52 f)).
  pose proof (f_read_at (u32 52 f) f 64 [] ltac:(lia)) as RP. fold payload in RP.
  rewrite (bind_run _ _ _ _ _ RD), (bind_lift _ _ _ _ HF). change (mh_comp h) with (u32 52 f). rewrite (bind_run _ _ _ _ _ RP). change (mh_max h) with (u32 48 f).
  change (mh_checksum h) with ck. change (mh_codec h) with co. change (mh_magic h) with (strip0 (sub 32 8 f)).
  destruct ((pp <? 0) && negb (e_mem E)) eqn:SK.
  { eexists. apply bind_run_raise. unfold f_seek_rel. cbn [fpos fdata flog]. fold pp. apply andb_true_iff in SK as [S1 S2]. rewrite S1. apply negb_true_iff in S2. rewrite S2. reflexivity. }
  assert (RS : f_seek_rel E (u32 48 f - u32 52 f) (mkfp f (64 + size payload) []) = (mkfp f (Z.max 0 pp) [], Ok tt)).
  { unfold f_seek_rel. cbn [fpos fdata flog]. fold pp. destruct (Z.ltb_spec pp 0) as [PP|PP].
    - cbn [andb] in SK. apply negb_false_iff in SK. rewrite SK, Z.max_l by lia. reflexivity.
    - rewrite Z.max_r by lia. reflexivity. }
  rewrite (bind_run _ _ _ _ _ RS). rewrite <- CI, digest_len_cks, dg_digest, same_eqb. set (stored := sub (Z.max 0 pp) (cks_size ck) f).
  pose proof (cks_size_nonneg ck) as CN.
  pose proof (f_read_at (cks_size ck) f (Z.max 0 pp) [] CN) as RG. fold stored in RG.
  assert (STEP : bytes_eqb stored (digest E ck payload) = true \/ ck = CkNone ->
     (if cks_eqb ck CkNone then ret tt else expected <- f_read (cks_size ck) ;; if bytes_eqb (digest E ck payload) expected then ret tt else raise ChecksumMismatch)
       (mkfp f (Z.max 0 pp) []) = (mkfp f (Z.max 0 pp + size stored) [], Ok tt)).
  { intros [B| ->].
    - destruct (cks_eqb ck CkNone) eqn:CC; [assert (ck = CkNone) by (destruct ck; auto; discriminate); subst; change (size stored) with 0; rewrite Z.add_0_r; reflexivity|].
      rewrite (bind_run _ _ _ _ _ RG). apply bytes_eqb_eq in B. rewrite B, bytes_eqb_refl. reflexivity.
    - change (size stored) with 0. rewrite Z.add_0_r. reflexivity. }
  destruct ((0 <? cks_index ck) && negb (bytes_eqb stored (digest E ck payload))) eqn:CB.
  { eexists. apply bind_run_raise. destruct (cks_eqb ck CkNone) eqn:CC; [assert (ck = CkNone) by (destruct ck; auto; discriminate); subst; discriminate|].
    rewrite (bind_run _ _ _ _ _ RG). destruct (bytes_eqb (digest E ck payload) stored) eqn:B; [|reflexivity].
    apply bytes_eqb_eq in B. rewrite B, bytes_eqb_refl, andb_false_r in CB. discriminate. }
  rewrite (bind_run _ _ _ _ _ (STEP ltac:(destruct (bytes_eqb stored _); [left; reflexivity|right; destruct ck; auto; discriminate]))).
  rewrite <- COI. rewrite json_magic by (rewrite size_sub by lia; lia). unfold serializer_lookup.
  replace (if codec_index co =? 0 then Ok payload else e_zdecompress E payload) with (codec_decompress E co payload) by (destruct co; reflexivity).
  destruct (codec_decompress E co payload) as [text|e] eqn:CD; [|eexists; apply bind_lift_raise; reflexivity]. rewrite (bind_lift _ _ _ _ eq_refl).
  destruct (bytes_eqb (strip0 (sub 32 8 f)) (b_of_string "JSON")) eqn:BJ; [|eexists; apply bind_lift_raise; reflexivity]. rewrite (bind_lift _ _ _ _ eq_refl).
  destruct (e_loads E text) as [m|e] eqn:LD; [|eexists; apply bind_lift_raise; reflexivity]. rewrite (bind_lift _ _ _ _ eq_refl).
  exists h. split; [reflexivity|]. split; [unfold size; lia|]. apply bytes_eqb_eq in BJ. repeat split; auto.
Qed.

Lemma decode_offsets_struct n : forall raw, zlen raw < 8 * Z.of_nat n -> decode_offsets n raw = Raise StructError.
Proof.
  induction n as [|n IH]; intros raw H; [pose proof (zlen_nonneg raw); lia|]. cbn [decode_offsets].
  unfold decode_int64 at 1. rewrite zlen_ztake. pose proof (zlen_nonneg raw). destruct (Z.lt_ge_cases (zlen raw) 8) as [Q|Q].
  - replace (Z.min (Z.max 0 8) (zlen raw) =? 8) with false by lia. reflexivity.
  - replace (Z.min (Z.max 0 8) (zlen raw) =? 8) with true by lia. cbn [rbind].
    rewrite IH; [reflexivity|]. rewrite zlen_zdrop. lia.
Qed.

Lemma decode_int64_i64 raw : 8 <= zlen raw -> decode_int64 (ztake 8 raw) = Ok (i64 0 raw).
Proof.
  intros H. unfold decode_int64. rewrite zlen_ztake. replace (Z.min (Z.max 0 8) (zlen raw) =? 8) with true by lia. f_equal. unfold i64.
  replace (sub 0 8 raw) with (ztake 8 raw) by (rewrite <- ztake_zdrop_sub, zdrop_0 by lia; reflexivity).
  symmetry. apply (signed_sint 8); [|lia]. rewrite zlen_ztake. lia.
Qed.
Lemma decode_offsets_map n : forall raw, 8 * Z.of_nat n <= zlen raw -> decode_offsets n raw = Ok (map (fun i => i64 (8 * Z.of_nat i) raw) (seq 0 n)).
Proof.
  induction n as [|n IH]; intros raw H; [reflexivity|]. cbn [decode_offsets]. rewrite decode_int64_i64 by lia. cbn [rbind].
  rewrite IH by (rewrite zlen_zdrop; lia). cbn [rbind seq map]. f_equal. f_equal. rewrite <- seq_shift, map_map. apply map_ext. intros i.
  unfold i64. f_equal. rewrite <- !ztake_zdrop_sub, zdrop_zdrop by lia. do 2 f_equal. lia.
Qed.
Lemma i64_sub i q t f : 0 <= i -> 0 <= q -> i + 8 <= t -> i64 i (sub q t f) = i64 (q + i) f.
Proof.
  intros. unfold i64. f_equal. unfold sub. rewrite skipn_firstn_comm, firstn_firstn.
  replace (Nat.min (Z.to_nat 8) (Z.to_nat t - Z.to_nat i)) with (Z.to_nat 8) by lia. f_equal.
  rewrite <- !zdrop_skipn, zdrop_zdrop by lia. f_equal. lia.
Qed.

Lemma offsets_exact f q h : 0 <= q -> h_offsets h = has_offsets f -> h_nchunks h = F_n f -> h_max_app h = F_max f -> 0 <= F_max f ->
  match table_end f q with
  | Raise e => exists g, read_offsets h (mkfp f q []) = (g, Raise e)
  | Ok q' => read_offsets h (mkfp f q []) =
        (mkfp f q' [], Ok (if has_offsets f then map (fun i => i64 (q + 8 * Z.of_nat i) f) (seq 0 (Z.to_nat (F_n f))) else [])) /\ 0 <= q' /\
      (has_offsets f = true -> 0 <= F_n f /\ 8 * F_n f <= Z.max 0 (size f - q))
  end.
Proof.
  intros Hq HO HN HM M0. unfold table_end, read_offsets, total_prospective_chunks. rewrite HO, HN, HM.
  destruct (has_offsets f); cbn [negb]; [|split; [reflexivity|]; split; [lia|discriminate]].
  destruct (Z.ltb_spec (F_n f) 0) as [N|N]; [replace (0 <=? F_n f) with false by lia; eexists; reflexivity|].
  replace (0 <=? F_n f) with true by lia. set (t := 8 * (F_n f + F_max f)). set (left := Z.max 0 (size f - q)).
  assert (ZR : zlen (rest (mkfp f q [])) = left) by (unfold rest; cbn [fpos fdata]; rewrite zlen_zdrop, <- size_zlen; unfold left; lia).
  destruct ((2 ^ 63 <=? t) && (left <? t)) eqn:OV.
  { eexists. apply bind_run_raise. unfold f_read_ssize. fold (rest (mkfp f q [])). rewrite ZR, OV. reflexivity. }
  assert (RD : f_read_ssize t (mkfp f q []) = (mkfp f (q + size (sub q t f)) [], Ok (sub q t f))).
  { unfold f_read_ssize. fold (rest (mkfp f q [])). rewrite ZR, OV. apply f_read_at. unfold t. lia. }
  assert (SS : size (sub q t f) = Z.min t left) by (rewrite size_sub by (unfold t; lia); reflexivity).
  rewrite (bind_run _ _ _ _ _ RD), decode_offsets_cap by lia. rewrite SS.
  destruct (Z.ltb_spec left (8 * F_n f)) as [SH|SH].
  - eexists. rewrite decode_offsets_struct; [reflexivity|]. rewrite <- size_zlen, SS. lia.
  - rewrite decode_offsets_map by (rewrite <- size_zlen, SS; unfold t; lia).
    split; [|unfold left, t in *; split; [lia|intros _; lia]]. unfold lift. f_equal. f_equal. apply map_ext_in. intros i Hi. apply in_seq in Hi.
    apply i64_sub; unfold t; lia.
Qed.

Lemma blosc_short r : zlen r < 16 -> decode_blosc_header r = Raise (if zlen r <? 4 then IndexError else StructError).
Proof.
  intros H. unfold decode_blosc_header.
  destruct r as [|b0 [|b1 [|b2 [|b3 r]]]]; try reflexivity.
  replace (zlen (b0 :: b1 :: b2 :: b3 :: r) <? 4) with false by (unfold zlen; cbn [List.length]; lia).
  change (byte_at 0 (b0 :: b1 :: b2 :: b3 :: r)) with (Ok (Zb b0)). change (byte_at 1 (b0 :: b1 :: b2 :: b3 :: r)) with (Ok (Zb b1)).
  change (byte_at 2 (b0 :: b1 :: b2 :: b3 :: r)) with (Ok (Zb b2)). change (byte_at 3 (b0 :: b1 :: b2 :: b3 :: r)) with (Ok (Zb b3)). cbn [rbind].
  set (x := b0 :: b1 :: b2 :: b3 :: r) in *.
  assert (D : forall l, decode_uint32 l = Raise StructError \/ exists v, decode_uint32 l = Ok v).
  { intros l. unfold decode_uint32. destruct (zlen l =? 4); eauto. }
  destruct (D (slice 4 8 x)) as [->|[v4 ->]]; [reflexivity|]. cbn [rbind].
  destruct (D (slice 8 12 x)) as [->|[v8 ->]]; [reflexivity|]. cbn [rbind].
  unfold decode_uint32. rewrite <- size_zlen. change (slice 12 16 x) with (slice 12 (12 + 4) x). rewrite <- sub_slice, size_sub, size_zlen by lia.
  replace (Z.min 4 (Z.max 0 (zlen x - 12)) =? 4) with false by lia. reflexivity.
Qed.

Lemma chunks_exact f ck : cks_index ck = u8 6 f -> forall n q, 0 <= q ->
  uloop E ck n (zdrop q f) = (fst (chunks_from E dg f n q), match snd (chunks_from E dg f n q) with Some e => Raise e | None => Ok tt end).
Proof.
  intros CI. induction n as [|n IH]; intros q Hq; [reflexivity|]. cbn [uloop chunks_from].
  assert (ZR : zlen (zdrop q f) = Z.max 0 (size f - q)) by (rewrite zlen_zdrop, <- size_zlen; lia).
  rewrite ZR. destruct (Z.ltb_spec (size f - q) 16) as [L|L].
  { replace (Z.max 0 (size f - q) <? 16) with true by lia. rewrite blosc_short by lia. rewrite ZR.
    destruct (Z.ltb_spec (size f - q) 4) as [L4|L4].
    - replace (Z.max 0 (size f - q) <? 4) with true by lia. reflexivity.
    - replace (Z.max 0 (size f - q) <? 4) with false by lia. reflexivity. }
  replace (Z.max 0 (size f - q) <? 16) with false by lia. replace (size f - q <? 4) with false by lia.
  assert (UW : u32 12 (zdrop q f) = u32 (q + 12) f).
  { unfold u32. f_equal. rewrite <- !ztake_zdrop_sub, zdrop_zdrop by lia. do 2 f_equal. lia. }
  pose proof (u32_range (q + 12) f) as UR. set (w := u32 (q + 12) f) in *. unfold chunk_here, digest_here, after_chunk. rewrite UW.
  rewrite !zdrop_zdrop by (pose proof (cks_size_nonneg ck); lia). rewrite !ztake_zdrop_sub. unfold F_digest. rewrite <- CI, digest_len_cks, same_eqb, dg_digest.
  set (c := sub q w f). set (s := cks_size ck). assert (S0 : 0 <= s) by apply cks_size_nonneg.
  assert (SC : size c = Z.min w (size f - q)) by (unfold c; rewrite size_sub by lia; lia).
  assert (DD : sub (w + q) s f = sub (q + size c) s f).
  { destruct (Z.le_gt_cases w (size f - q)); [f_equal; lia|]. unfold sub. rewrite !skipn_all2 by (unfold size in *; lia). rewrite !firstn_nil. reflexivity. }
  rewrite DD. set (d := sub (q + size c) s f). assert (SD : size d = Z.min s (Z.max 0 (size f - (q + size c)))) by (unfold d; rewrite size_sub by (unfold size; lia); reflexivity).
  rewrite <- (size_zlen d).
  destruct ((0 <? size d) && negb (bytes_eqb d (digest E ck c))); [reflexivity|].
  destruct (e_decompress E c) as [x|e]; [|reflexivity].
  assert (NX : zdrop (w + s + q) f = zdrop (q + size c + size d) f).
  { destruct (Z.le_gt_cases (w + s) (size f - q)); [f_equal; lia|]. rewrite !zdrop_all by (rewrite <- size_zlen; lia). reflexivity. }
  rewrite NX, IH by (unfold size; lia). reflexivity.
Qed.

Theorem reader_exact f : unpack_core E f = reference E dg f.
Proof.
  rewrite unpack_core_pure. unfold reference, read_beginning. pose proof (header_exact f) as H.
  assert (L32 : header_fault f = None -> 32 <= size f) by (unfold header_fault; destruct (Z.ltb_spec (size f) 32); [discriminate|lia]).
  destruct (header_fault f) as [e|]; [destruct H as [g H]; rewrite (bind_run_raise _ _ _ _ _ H); reflexivity|].
  destruct H as (ck & CI & NO & H). rewrite (bind_run _ _ _ _ _ H). clear H. set (h := mkH _ _ _ ck _ _ _ _ _). specialize (L32 eq_refl).
  change (h_metadata h) with (has_meta f). unfold metadata_part.
  pose proof (metadata_exact f L32) as M.
  assert (MM : match (if has_meta f then metadata_at_32 E dg f else Ok (PNone, 32)) with
    | Raise e => exists g, (if has_meta f then r <- read_metadata E ;; ret (fst r, Some (snd r)) else ret (PNone, None)) (mkfp f 32 []) = (g, Raise e)
    | Ok (m, q) => 0 <= q /\ exists o, (if has_meta f then r <- read_metadata E ;; ret (fst r, Some (snd r)) else ret (PNone, None)) (mkfp f 32 []) = (mkfp f q [], Ok (m, o))
    end).
  { destruct (has_meta f); [|split; [lia|eexists; reflexivity]].
    destruct (metadata_at_32 E dg f) as [[m q]|e].
    - destruct M as (mh & M & Q & _). split; [exact Q|]. eexists. rewrite (bind_run _ _ _ _ _ M). reflexivity.
    - destruct M as (g & M). eexists. rewrite (bind_run_raise _ _ _ _ _ M). reflexivity. }
  destruct (if has_meta f then metadata_at_32 E dg f else Ok (PNone, 32)) as [[m q]|e].
  2:{ destruct MM as (g & MM). rewrite (bind_run_raise _ _ _ _ _ MM). reflexivity. }
  destruct MM as (Q & o & MM). rewrite (bind_run _ _ _ _ _ MM).
  assert (M0 : 0 <= F_max f) by (unfold header_nums_ok in NO; lia).
  pose proof (offsets_exact f q h Q eq_refl eq_refl eq_refl M0) as O.
  destruct (table_end f q) as [q'|e]; [|destruct O as (g & O); rewrite (bind_run_raise _ _ _ _ _ O); reflexivity].
  destruct O as (O & Q' & _). rewrite (bind_run _ _ _ _ _ O). cbn [ret b_header b_meta fst]. unfold ret. cbn [b_header b_meta fst rest fdata fpos].
  change (h_checksum h) with ck. change (h_nchunks h) with (F_n f).
  unfold rest. cbn [fdata fpos]. rewrite (chunks_exact f ck CI _ _ Q'). cbn [fst snd].
  destruct (snd (chunks_from _ _ _ _ _)); reflexivity.
Qed.
End WithEnv.

Definition the_digest (E : Env) (code : Z) (d : bytes) : bytes :=
  match cks_of_index code with Ok ck => digest E ck d | Raise _ => [] end.
Lemma the_digest_is E code d : 0 <= code < 9 -> is_digest E code d (the_digest E code d).
Proof.
  intros H. unfold the_digest. destruct (cks_of_index_ok code H) as (ck & -> & <- & _). apply digest_is.
Qed.
Lemma digests_unique E : exists dg, forall code d, 0 <= code < 9 -> is_digest E code d (dg code d) /\ forall g, is_digest E code d g -> g = dg code d.
Proof.
  exists (the_digest E). intros code d H. split; [apply the_digest_is; exact H|]. intros g G. unfold the_digest.
  destruct (cks_of_index_ok code H) as (ck & -> & CI & _). subst code. apply is_digest_unique. exact G.
Qed.
