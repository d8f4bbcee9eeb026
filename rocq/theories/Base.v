(** Base notions shared by the model: bytes, Python-like results, the
    exception values, little-endian integers and Python list/bytes slicing.

    Nothing here models a function of /repo except where cited. *)
From Coq Require Export String Ascii.
From Coq Require Export Strings.Byte.
From Coq Require Export ZArith Bool Lia List.
From Coq Require Import ZifyBool ZifyNat.
Export ListNotations.
Open Scope Z_scope.
Open Scope list_scope.

Notation byte := Byte.byte.
Definition bytes := list byte.

(** Value of a byte and byte of a value (mod 256). *)
Definition Zb (b : byte) : Z := Z.of_N (Byte.to_N b).
Definition bZ (z : Z) : byte :=
  match Byte.of_N (Z.to_N (z mod 256)) with Some b => b | None => x00 end.

Definition byte_eqb (a b : byte) : bool := Byte.eqb a b.
Fixpoint bytes_eqb (a b : bytes) : bool :=
  match a, b with
  | [], [] => true
  | x :: a', y :: b' => Byte.eqb x y && bytes_eqb a' b'
  | _, _ => false
  end.

(** Python's [len]. *)
Definition zlen {A} (l : list A) : Z := Z.of_nat (List.length l).

(** Exceptions.  One constructor per exception class that the modelled code
    (bloscpack/exceptions.py:6-67, Python builtins, blosc, zlib, json) can let
    escape.  [MemoryFault] is not a Python exception: it is the model's name
    for a write outside of an allocated buffer (undefined behaviour in C). *)
Inductive exn :=
| ValueError | TypeError | IndexError | KeyError | StructError | OverflowError
| ZeroDivisionError | AttributeError | UnboundLocalError | RuntimeError | NotImplementedError | OSError
| NoSuchChecksum | NoSuchCodec | NoSuchSerializer
| ChunkingException | ChunkSizeTypeSizeMismatch | ChecksumMismatch
| FormatVersionMismatch | ChecksumLengthMismatch | NoMetadataFound
| NoChangeInMetadata | MetadataSectionTooSmall | NonUniformTypesize
| NotEnoughSpace | NotANumpyArray | ObjectNumpyArrayRejection | FileNotFound
| BloscError | ZlibError | JSONError
(** sys.exit(code), raised by log.error (log.py:49-53) and by argparse *)
| SystemExit (code : Z)
| MemoryFault.

(** [isinstance(e, ValueError)]: bloscpack/exceptions.py:10-28; json's
    JSONDecodeError and UnicodeDecodeError are ValueErrors; python-blosc raises
    ValueError for bad arguments but blosc.error for bad data. *)
Definition is_ValueError (e : exn) : bool :=
  match e with
  | ValueError | NoSuchChecksum | NoSuchCodec | NoSuchSerializer
  | ChunkSizeTypeSizeMismatch | JSONError => true
  | _ => false
  end.

Inductive res (A : Type) := Ok (a : A) | Raise (e : exn).
Arguments Ok {A} _.
Arguments Raise {A} _.

Definition rbind {A B} (r : res A) (k : A -> res B) : res B :=
  match r with Ok a => k a | Raise e => Raise e end.
Notation "x <~ r ;; k" := (rbind r (fun x => k)) (at level 61, r at next level, right associativity).

(** State + exception: the state survives an exception. *)
Definition SM (S A : Type) := S -> S * res A.
Definition ret {S A} (a : A) : SM S A := fun s => (s, Ok a).
Definition raise {S A} (e : exn) : SM S A := fun s => (s, Raise e).
Definition lift {S A} (r : res A) : SM S A := fun s => (s, r).
Definition bind {S A B} (m : SM S A) (k : A -> SM S B) : SM S B :=
  fun s => match m s with
           | (s', Ok a) => k a s'
           | (s', Raise e) => (s', Raise e)
           end.
Notation "x <- m ;; k" := (bind m (fun x => k)) (at level 61, m at next level, right associativity).
Notation "m ;;; k" := (bind m (fun _ => k)) (at level 61, right associativity).

(** Slicing with Python ints: [l[:n]] and [l[n:]] for n >= 0.  The guards only
    keep evaluation cheap for huge [n]; see [ztake_firstn], [zdrop_skipn]. *)
Definition ztake {A} (n : Z) (l : list A) : list A :=
  if zlen l <=? n then l else firstn (Z.to_nat n) l.
Definition zdrop {A} (n : Z) (l : list A) : list A :=
  if zlen l <=? n then [] else skipn (Z.to_nat n) l.
(** [l[a:b]] for 0 <= a <= b. *)
Definition slice {A} (a b : Z) (l : list A) : list A := ztake (b - a) (zdrop a l).

(** Little-endian two's complement, [n] bytes (what Python's struct does). *)
Fixpoint le_enc (n : nat) (z : Z) : bytes :=
  match n with O => [] | S n' => bZ z :: le_enc n' (z / 256) end.
Fixpoint le_dec (bs : bytes) : Z :=
  match bs with [] => 0 | b :: r => Zb b + 256 * le_dec r end.

Definition zrep {A} (n : Z) (x : A) : list A := repeat x (Z.to_nat n).

(** ASCII text to bytes. *)
Definition b_of_string (s : string) : bytes := list_byte_of_string s.

(* ------------------------------------------------------------------ *)
(** * Lemmas *)

Lemma Zb_range b : 0 <= Zb b < 256.
Proof. unfold Zb. pose proof (Byte.to_N_bounded b). lia. Qed.

Lemma Zb_bZ z : Zb (bZ z) = z mod 256.
Proof.
  unfold Zb, bZ. pose proof (Z.mod_pos_bound z 256 ltac:(lia)) as Hb.
  destruct (Byte.of_N (Z.to_N (z mod 256))) as [b|] eqn:E.
  - apply Byte.to_of_N in E. rewrite E. lia.
  - apply Byte.of_N_None_iff in E. lia.
Qed.

Lemma bZ_Zb b : bZ (Zb b) = b.
Proof.
  unfold bZ. rewrite Z.mod_small by apply Zb_range. unfold Zb.
  rewrite N2Z.id, Byte.of_to_N. reflexivity.
Qed.

Lemma Zb_inj a b : Zb a = Zb b -> a = b.
Proof. intros H. rewrite <- (bZ_Zb a), <- (bZ_Zb b), H. reflexivity. Qed.

Lemma byte_eqb_eq (a b : byte) : Byte.eqb a b = true <-> a = b.
Proof. apply Byte.byte_dec_bl || (split; [apply Byte.byte_dec_bl|apply Byte.byte_dec_lb]). Qed.

Lemma bytes_eqb_eq a b : bytes_eqb a b = true <-> a = b.
Proof.
  revert b; induction a as [|x a IH]; intros [|y b]; cbn; split; intros H; try congruence; auto.
  - apply andb_true_iff in H as [H1 H2]. apply byte_eqb_eq in H1. apply IH in H2. congruence.
  - inversion H; subst. apply andb_true_iff; split; [apply byte_eqb_eq; auto | apply IH; auto].
Qed.

Lemma bytes_eqb_refl a : bytes_eqb a a = true.
Proof. apply bytes_eqb_eq; reflexivity. Qed.

Lemma bytes_eqb_neq a b : bytes_eqb a b = false <-> a <> b.
Proof.
  split; intros H.
  - intros ->. rewrite bytes_eqb_refl in H. discriminate.
  - destruct (bytes_eqb a b) eqn:E; auto. apply bytes_eqb_eq in E. contradiction.
Qed.

Lemma zlen_nonneg {A} (l : list A) : 0 <= zlen l.
Proof. unfold zlen; lia. Qed.
Lemma zlen_nil {A} : zlen (@nil A) = 0.
Proof. reflexivity. Qed.
Lemma zlen_cons {A} (x : A) l : zlen (x :: l) = 1 + zlen l.
Proof. unfold zlen; cbn [List.length]; lia. Qed.
Lemma zlen_app {A} (a b : list A) : zlen (a ++ b) = zlen a + zlen b.
Proof. unfold zlen; rewrite app_length; lia. Qed.
Lemma zlen_map {A B} (f : A -> B) l : zlen (map f l) = zlen l.
Proof. unfold zlen; rewrite map_length; reflexivity. Qed.
Lemma zlen_zrep {A} n (x : A) : zlen (zrep n x) = Z.max 0 n.
Proof. unfold zlen, zrep; rewrite repeat_length; lia. Qed.
Lemma zlen_0 {A} (l : list A) : zlen l = 0 -> l = [].
Proof. destruct l; [auto|rewrite zlen_cons; pose proof (zlen_nonneg l); lia]. Qed.

Lemma ztake_firstn {A} n (l : list A) : ztake n l = firstn (Z.to_nat n) l.
Proof.
  unfold ztake, zlen. destruct (Z.leb_spec (Z.of_nat (List.length l)) n); auto.
  rewrite firstn_all2; auto; lia.
Qed.
Lemma zdrop_skipn {A} n (l : list A) : zdrop n l = skipn (Z.to_nat n) l.
Proof.
  unfold zdrop, zlen. destruct (Z.leb_spec (Z.of_nat (List.length l)) n); auto.
  rewrite skipn_all2; auto; lia.
Qed.

Lemma ztake_zdrop {A} n (l : list A) : ztake n l ++ zdrop n l = l.
Proof. rewrite ztake_firstn, zdrop_skipn. apply firstn_skipn. Qed.

Lemma zlen_ztake {A} n (l : list A) : zlen (ztake n l) = Z.min (Z.max 0 n) (zlen l).
Proof. rewrite ztake_firstn. unfold zlen. rewrite firstn_length. lia. Qed.
Lemma zlen_zdrop {A} n (l : list A) : zlen (zdrop n l) = Z.max 0 (zlen l - Z.max 0 n).
Proof. rewrite zdrop_skipn. unfold zlen. rewrite skipn_length. lia. Qed.

Lemma ztake_app_exact {A} n (a b : list A) : n = zlen a -> ztake n (a ++ b) = a.
Proof.
  intros ->. rewrite ztake_firstn. unfold zlen. rewrite Nat2Z.id.
  rewrite firstn_app, Nat.sub_diag, firstn_O, app_nil_r. apply firstn_all.
Qed.
Lemma zdrop_app_exact {A} n (a b : list A) : n = zlen a -> zdrop n (a ++ b) = b.
Proof.
  intros ->. rewrite zdrop_skipn. unfold zlen. rewrite Nat2Z.id.
  rewrite skipn_app, Nat.sub_diag, skipn_all. reflexivity.
Qed.
Lemma ztake_all {A} n (l : list A) : zlen l <= n -> ztake n l = l.
Proof. intros H. unfold ztake. destruct (Z.leb_spec (zlen l) n); auto; lia. Qed.
Lemma zdrop_all {A} n (l : list A) : zlen l <= n -> zdrop n l = [].
Proof. intros H. unfold zdrop. destruct (Z.leb_spec (zlen l) n); auto; lia. Qed.
Lemma ztake_0 {A} n (l : list A) : n <= 0 -> ztake n l = [].
Proof. intros H. rewrite ztake_firstn. replace (Z.to_nat n) with O by lia. reflexivity. Qed.
Lemma zdrop_0 {A} n (l : list A) : n <= 0 -> zdrop n l = l.
Proof. intros H. rewrite zdrop_skipn. replace (Z.to_nat n) with O by lia. reflexivity. Qed.

Lemma ztake_app_le {A} n (a b : list A) : n <= zlen a -> ztake n (a ++ b) = ztake n a.
Proof.
  intros H. rewrite !ztake_firstn, firstn_app. unfold zlen in H.
  replace (Z.to_nat n - List.length a)%nat with O by lia. cbn. apply app_nil_r.
Qed.
Lemma ztake_app_ge {A} n (a b : list A) : zlen a <= n -> ztake n (a ++ b) = a ++ ztake (n - zlen a) b.
Proof.
  intros H. rewrite !ztake_firstn, firstn_app. unfold zlen in *.
  rewrite firstn_all2 by lia. f_equal. f_equal. lia.
Qed.
Lemma zdrop_app_le {A} n (a b : list A) : n <= zlen a -> zdrop n (a ++ b) = zdrop n a ++ b.
Proof.
  intros H. rewrite !zdrop_skipn, skipn_app. unfold zlen in H.
  replace (Z.to_nat n - List.length a)%nat with O by lia. reflexivity.
Qed.
Lemma zdrop_app_ge {A} n (a b : list A) : zlen a <= n -> zdrop n (a ++ b) = zdrop (n - zlen a) b.
Proof.
  intros H. rewrite !zdrop_skipn, skipn_app. unfold zlen in *.
  rewrite skipn_all2 by lia. cbn. f_equal. lia.
Qed.
Lemma zdrop_zdrop {A} a b (l : list A) : 0 <= a -> 0 <= b -> zdrop a (zdrop b l) = zdrop (a + b) l.
Proof.
  intros Ha Hb. rewrite !zdrop_skipn. rewrite Z2Nat.inj_add by lia.
  generalize (Z.to_nat a) as m, (Z.to_nat b) as n. intros m n. revert l.
  induction n as [|n IH]; intros l; [rewrite Nat.add_0_r; reflexivity|].
  rewrite Nat.add_succ_r. destruct l; [rewrite !skipn_nil; reflexivity|]. cbn. apply IH.
Qed.

Lemma slice_mid {A} a b (p x q : list A) :
  a = zlen p -> b = zlen p + zlen x -> slice a b (p ++ x ++ q) = x.
Proof.
  intros -> ->. unfold slice. rewrite zdrop_app_exact by reflexivity.
  apply ztake_app_exact. lia.
Qed.

Lemma le_enc_length n z : List.length (le_enc n z) = n.
Proof. revert z; induction n; intros z; cbn; auto. Qed.
Lemma zlen_le_enc n z : zlen (le_enc n z) = Z.of_nat n.
Proof. unfold zlen. rewrite le_enc_length. reflexivity. Qed.

Lemma pow256_S n : 256 ^ Z.of_nat (S n) = 256 * 256 ^ Z.of_nat n.
Proof. rewrite Nat2Z.inj_succ, Z.pow_succ_r by lia. reflexivity. Qed.
Lemma pow256_pos n : 0 < 256 ^ Z.of_nat n.
Proof. apply Z.pow_pos_nonneg; lia. Qed.

Lemma le_dec_enc n z : le_dec (le_enc n z) = z mod 256 ^ Z.of_nat n.
Proof.
  revert z; induction n as [|n IH]; intros z; cbn [le_enc le_dec].
  - rewrite Z.mod_1_r. reflexivity.
  - rewrite IH, Zb_bZ, pow256_S. pose proof (pow256_pos n).
    rewrite Z.rem_mul_r by lia. lia.
Qed.

Lemma le_dec_range bs : 0 <= le_dec bs < 256 ^ zlen bs.
Proof.
  induction bs as [|b r IH]; [cbn; lia|]. cbn [le_dec].
  unfold zlen in *. cbn [List.length]. rewrite pow256_S. pose proof (Zb_range b). lia.
Qed.

Lemma le_enc_dec bs : le_enc (List.length bs) (le_dec bs) = bs.
Proof.
  induction bs as [|b r IH]; cbn [le_enc le_dec List.length]; auto.
  pose proof (Zb_range b). f_equal.
  - rewrite <- (bZ_Zb b) at 2. unfold bZ.
    replace ((Zb b + 256 * le_dec r) mod 256) with (Zb b mod 256); [reflexivity|].
    rewrite (Z.mul_comm 256), Z_mod_plus_full. reflexivity.
  - rewrite Z.add_comm, Z.mul_comm, Z.div_add_l by lia.
    rewrite (Z.div_small (Zb b)) by lia. rewrite Z.add_0_r. exact IH.
Qed.

Lemma bZ_mod z : bZ (z mod 256) = bZ z.
Proof. unfold bZ. rewrite Zmod_mod. reflexivity. Qed.

Lemma le_enc_mod n z : le_enc n (z mod 256 ^ Z.of_nat n) = le_enc n z.
Proof.
  rewrite <- le_dec_enc. rewrite <- (le_enc_length n z) at 1. apply le_enc_dec.
Qed.

Lemma rbind_Ok {A B} (r : res A) (k : A -> res B) b :
  rbind r k = Ok b -> exists a, r = Ok a /\ k a = Ok b.
Proof. destruct r; cbn; [eauto|discriminate]. Qed.

Lemma bind_Ok {S A B} (m : SM S A) (k : A -> SM S B) s s' b :
  bind m k s = (s', Ok b) -> exists s1 a, m s = (s1, Ok a) /\ k a s1 = (s', Ok b).
Proof. unfold bind. destruct (m s) as [s1 [a|e]]; [eauto|discriminate]. Qed.

Lemma bind_run {S A B} (m : SM S A) (k : A -> SM S B) s s1 a :
  m s = (s1, Ok a) -> bind m k s = k a s1.
Proof. unfold bind. intros ->. reflexivity. Qed.
Lemma bind_run_raise {S A B} (m : SM S A) (k : A -> SM S B) s s1 e :
  m s = (s1, Raise e) -> bind m k s = (s1, Raise e).
Proof. unfold bind. intros ->. reflexivity. Qed.
Lemma bind_lift {S A B} (r : res A) (k : A -> SM S B) s a : r = Ok a -> bind (lift r) k s = k a s.
Proof. intros ->. reflexivity. Qed.
Lemma bind_lift_raise {S A B} (r : res A) (k : A -> SM S B) s e : r = Raise e -> bind (lift r) k s = (s, Raise e).
Proof. intros ->. reflexivity. Qed.

Lemma concat_app_map {A B} (f : A -> list B) l1 l2 :
  concat (map f (l1 ++ l2)) = concat (map f l1) ++ concat (map f l2).
Proof. rewrite map_app, concat_app. reflexivity. Qed.
