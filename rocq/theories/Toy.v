(** A concrete environment meeting the contract [EnvOK]: the hypotheses of the
    theorems are satisfiable, and the Examples beside the theorems compute. *)
From Verif Require Import Base PyVal Checksums Headers Args FileIO Spec BaseLemmas Json.
From Coq Require Import ZifyBool ZifyNat.
Ltac Zify.zify_post_hook ::= Z.div_mod_to_equations.

(** A toy Blosc: 16-byte Blosc header followed by the data without its trailing
    NULs (so that sizes do depend on contents). *)
Definition rstrip0 (b : bytes) : bytes := rev (lstrip0 (rev b)).
Definition toy_cname (s : string) : bool :=
  existsb (String.eqb s) ["blosclz"; "lz4"; "lz4hc"; "snappy"; "zlib"; "zstd"]%string.
Definition toy_compress (a : bargs) (x : bytes) : res bytes :=
  if (1 <=? ba_typesize a) && (ba_typesize a <=? 255) && (0 <=? ba_clevel a) && (ba_clevel a <=? 9)
     && toy_cname (ba_cname a) && (zlen x <=? BUFMAX)
  then let p := rstrip0 x in
       Ok ([x02; x01; (if ba_shuffle a then x01 else x00); bZ (ba_typesize a)]
           ++ le_enc 4 (zlen x) ++ le_enc 4 (zlen x) ++ le_enc 4 (16 + zlen p) ++ p)
  else Raise ValueError.
Definition toy_decompress (c : bytes) : res bytes :=
  if (16 <=? zlen c) && (u32 12 c =? zlen c) && (zlen c - 16 <=? u32 4 c)
  then Ok (zdrop 16 c ++ zrep (u32 4 c - (zlen c - 16)) x00)
  else Raise BloscError.

(** A toy zlib: a marker byte, then half of the data if both halves agree. *)
Definition toy_zcompress (x : bytes) (l : Z) : res bytes :=
  if (0 <=? l) && (l <=? 9) then
    let h := zlen x / 2 in
    if bytes_eqb (ztake h x) (zdrop h x) then Ok (x01 :: ztake h x) else Ok (x00 :: x)
  else Raise ZlibError.
Definition toy_zdecompress (z : bytes) : res bytes :=
  match z with
  | [] => Raise ZlibError
  | b :: r => if Byte.eqb b x01 then Ok (r ++ r) else if Byte.eqb b x00 then Ok r else Raise ZlibError
  end.

(** A toy hash: the weighted sum of all bytes, in as many bytes as the digest has. *)
Definition toy_hash (c : cks) (x : bytes) : bytes :=
  le_enc (Z.to_nat (cks_size c)) (fold_left (fun acc b => 257 * acc + Zb b + 1) x 0).

Definition toy_env : Env :=
  mkEnv toy_compress toy_decompress toy_cname toy_zcompress toy_zdecompress toy_hash dumps loads false.

Lemma lstrip0_split b : exists n, b = repeat x00 n ++ lstrip0 b.
Proof.
  induction b as [|x b [n IH]]; [exists O; reflexivity|].
  destruct (Byte.eqb x x00) eqn:E.
  - apply byte_eqb_eq in E. subst. exists (S n). cbn. f_equal. exact IH.
  - exists O. destruct x; try reflexivity. discriminate.
Qed.
Lemma rstrip0_split b : exists n, b = rstrip0 b ++ repeat x00 n.
Proof.
  destruct (lstrip0_split (rev b)) as [n H]. exists n. unfold rstrip0.
  rewrite <- (rev_involutive b) at 1. rewrite H at 1. rewrite rev_app_distr. f_equal.
  clear. induction n; [reflexivity|]. cbn. rewrite IHn. symmetry. apply repeat_cons.
Qed.

Lemma toy_compress_inv a x c : toy_compress a x = Ok c ->
  blosc_args_ok toy_env a /\ size x <= BUFMAX /\
  c = [x02; x01; (if ba_shuffle a then x01 else x00); bZ (ba_typesize a)]
           ++ le_enc 4 (zlen x) ++ le_enc 4 (zlen x) ++ le_enc 4 (16 + zlen (rstrip0 x)) ++ rstrip0 x.
Proof.
  unfold toy_compress, blosc_args_ok. cbn [e_cname_ok toy_env]. change size with (@zlen byte).
  destruct (_ && _) eqn:B; [|discriminate]. intros H. injection H as <-.
  repeat (apply andb_true_iff in B as [B ?]). repeat split; auto; lia.
Qed.

Lemma toy_fields a x c : toy_compress a x = Ok c -> exists n, x = rstrip0 x ++ repeat x00 n /\
  zlen c = 16 + zlen (rstrip0 x) /\ u32 12 c = zlen c /\ u32 4 c = zlen x /\ zdrop 16 c = rstrip0 x /\
  zlen x = zlen (rstrip0 x) + Z.of_nat n.
Proof.
  intros H. apply toy_compress_inv in H as (_ & HB & ->). destruct (rstrip0_split x) as [n Hn].
  exists n. split; [exact Hn|].
  assert (L : zlen x = zlen (rstrip0 x) + Z.of_nat n) by (rewrite Hn at 1; rewrite zlen_app; unfold zlen; rewrite repeat_length; lia).
  set (p := rstrip0 x) in *. set (hd := [x02; x01; (if ba_shuffle a then x01 else x00); bZ (ba_typesize a)]).
  rewrite size_zlen in HB. unfold BUFMAX in HB. pose proof (zlen_nonneg p).
  assert (LC : zlen (hd ++ le_enc 4 (zlen x) ++ le_enc 4 (zlen x) ++ le_enc 4 (16 + zlen p) ++ p) = 16 + zlen p).
  { rewrite !zlen_app, !zlen_le_enc. change (zlen hd) with 4. lia. }
  split; [exact LC|]. split; [|split; [|split; [|exact L]]].
  - rewrite LC. unfold u32. rewrite !(app_assoc _ (le_enc 4 (zlen x))).
    rewrite sub_at; [|reflexivity|reflexivity]. apply uint_le_enc. change (256 ^ Z.of_nat 4) with 4294967296. lia.
  - unfold u32. rewrite sub_at; [|reflexivity|reflexivity]. apply uint_le_enc. change (256 ^ Z.of_nat 4) with 4294967296. lia.
  - rewrite !(app_assoc _ (le_enc 4 (zlen x))), app_assoc. apply zdrop_app_exact. reflexivity.
Qed.

Theorem toy_env_ok : EnvOK toy_env.
Proof.
  constructor; cbn [e_compress e_decompress e_cname_ok e_zcompress e_zdecompress e_hashlib e_dumps e_loads toy_env].
  - intros a x (H1 & H2 & H3) Hs. unfold toy_compress. cbn [e_cname_ok toy_env] in H3. change size with (@zlen byte) in Hs. rewrite H3.
    replace (zlen x <=? BUFMAX) with true by lia.
    replace (1 <=? ba_typesize a) with true by lia. replace (ba_typesize a <=? 255) with true by lia.
    replace (0 <=? ba_clevel a) with true by lia. replace (ba_clevel a <=? 9) with true by lia.
    eexists. reflexivity.
  - intros a x c H. apply toy_compress_inv in H. tauto.
  - intros a x c H. destruct (toy_fields a x c H) as (n & _ & H1 & H2 & H3 & _ & H4).
    change size with (@zlen byte). pose proof (zlen_nonneg (rstrip0 x)). repeat split; auto; lia.
  - intros a x c H. destruct (toy_fields a x c H) as (n & H0 & H1 & H2 & H3 & H5 & H4).
    unfold toy_decompress. pose proof (zlen_nonneg (rstrip0 x)). rewrite H2, H3.
    replace (16 <=? zlen c) with true by lia. rewrite Z.eqb_refl. replace (zlen c - 16 <=? zlen x) with true by lia.
    cbn [andb]. rewrite H5. f_equal. rewrite H0 at 3. unfold zrep. do 2 f_equal. lia.
  - intros c x H. unfold toy_decompress in H. destruct (_ && _) eqn:B; [|discriminate]. injection H as <-.
    repeat (apply andb_true_iff in B as [B ?]). change size with (@zlen byte).
    rewrite zlen_app, zlen_zdrop, zlen_zrep. repeat split; lia.
  - intros x l H. unfold toy_zcompress. replace ((0 <=? l) && (l <=? 9)) with true by lia.
    destruct (bytes_eqb _ _); eexists; reflexivity.
  - intros x l z H. unfold toy_zcompress in H. destruct (_ && _); [|discriminate].
    destruct (bytes_eqb _ _) eqn:B; injection H as <-; cbn [toy_zdecompress].
    + apply bytes_eqb_eq in B. change (Byte.eqb x01 x01) with true. cbn iota. f_equal.
      rewrite B at 2. apply ztake_zdrop.
    + reflexivity.
  - intros c x. unfold toy_hash. change size with (@zlen byte). rewrite zlen_le_enc. destruct c; reflexivity.
  - intros m s H. apply loads_dumps; auto.
Qed.

(** The same with io.BytesIO objects instead of files. *)
Definition toy_mem_env : Env :=
  mkEnv toy_compress toy_decompress toy_cname toy_zcompress toy_zdecompress toy_hash dumps loads true.
Theorem toy_mem_env_ok : EnvOK toy_mem_env.
Proof. destruct toy_env_ok. constructor; assumption. Qed.
