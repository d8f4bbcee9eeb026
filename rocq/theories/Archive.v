(** Specification vocabulary for files that live through appends and metadata
    rewrites: the fields of a file read directly from its bytes, the two
    operations as functions on file contents, and the files they can produce. *)
From Verif Require Import Base PyVal Checksums Headers Pretty Args FileIO Append Spec.

(** ** Fields of a Bloscpack file, by position *)
Definition F_version (f : bytes) : Z := u8 4 f.
Definition has_offsets (f : bytes) : bool := Z.odd (u8 5 f).
Definition has_meta (f : bytes) : bool := Z.odd (u8 5 f / 2).
Definition F_digest (f : bytes) : Z := digest_len (u8 6 f).
Definition F_typesize (f : bytes) : Z := u8 7 f.
Definition F_chunk (f : bytes) : Z := i32 8 f.
Definition F_last (f : bytes) : Z := i32 12 f.
Definition F_n (f : bytes) : Z := i64 16 f.
Definition F_max (f : bytes) : Z := i64 24 f.
(** where the offset table, the chunks start *)
Definition F_table (f : bytes) : Z :=
  32 + (if has_meta f then 32 + u32 48 f + digest_len (u8 41 f) else 0).
Definition F_body (f : bytes) : Z :=
  F_table f + (if has_offsets f then 8 * (F_n f + F_max f) else 0).
(** entry i of the offset table *)
Definition F_off (f : bytes) (i : Z) : Z := i64 (F_table f + 8 * i) f.
(** the compressed chunk at position p, by its own length field *)
Definition chunk_at (p : Z) (f : bytes) : bytes := sub p (u32 (p + 12) f) f.
Definition digest_at (p : Z) (f : bytes) : bytes := sub (p + u32 (p + 12) f) (F_digest f) f.

Fixpoint find_index (s : string) (l : list string) : nat :=
  match l with [] => O | x :: r => if String.eqb s x then O else S (find_index s r) end.

(** The number of additional chunks. *)
Definition extra (f new : bytes) : Z :=
  let room := F_chunk f - F_last f in
  if size new <=? room then 0 else (size new - room + F_chunk f - 1) / F_chunk f.
(** The blosc arguments in effect. *)
Definition effective (f : bytes) (oa : obargs) : bargs :=
  mkBA (opt (oa_typesize oa) (F_typesize f)) (opt (oa_clevel oa) 7) (opt (oa_shuffle oa) true) (opt (oa_cname oa) "blosclz"%string).

(** The numbers whose eight bytes are "JSON" between zeros. *)
Definition json_number (p : Z) : Prop := exists j, 0 <= j <= 4 /\ p = 1313821514 * 256 ^ j.

Section WithEnv.
Variable E : Env.

(** append (append.py:194-223) as seen by the file: the contents after, and the
    outcome of append_fp.  The new content is all of [new]. *)
Definition append_bytes (f new : bytes) (oa : obargs) : bytes * res Z :=
  let r := append_fp E (size new) oa (fp_of new, fp_of f) in (fdata (snd (fst r)), snd r).
(** the single-byte writes it issued, in order *)
Definition append_log (f new : bytes) (oa : obargs) : list (Z * byte) :=
  flog (snd (fst (append_fp E (size new) oa (fp_of new, fp_of f)))).
(** metadata rewrite: _seek_to_metadata then _rewrite_metadata_fp *)
Definition rewrite_bytes (f : bytes) (m : pyval) (ov : overrides) : bytes * res unit :=
  let r := rewrite_metadata E m ov (fp_of f) in (fdata (fst r), snd r).

(** The arguments a metadata rewrite works with: what is not overridden comes from
    the bytes of the old section (its checksum, codec and level are bytes 41, 42
    and 43 of the file, the preallocated size is the word at 48). *)
Definition rewrite_args (f : bytes) (ov : overrides) : margs :=
  mkMA (b_of_string "JSON")
       (match ov_checksum ov with Some s => s | None => nth (Z.to_nat (u8 41 f)) checksum_names ""%string end)
       (match ov_codec ov with Some s => s | None => nth (Z.to_nat (u8 42 f)) codec_names ""%string end)
       (match ov_level ov with Some l => l | None => u8 43 f end)
       (MMInt (u32 48 f)).
(** Overrides naming existing serializers, checksums, codecs and levels. *)
Definition overrides_ok (ov : overrides) : Prop :=
  (forall x, ov_magic ov = Some x -> x = b_of_string "JSON") /\
  (forall s, ov_checksum ov = Some s -> In s checksum_names) /\
  (forall s, ov_codec ov = Some s -> In s codec_names) /\
  (forall l, ov_level ov = Some l -> 0 <= l <= 9).
(** The digest size of a checksum given by name. *)
Definition digest_len_of (s : string) : Z :=
  nth (find_index s checksum_names) digest_sizes 0.

(** Everything stays addressable with 64-bit offsets. *)
Definition sizable (f new : bytes) : Prop := size f + 81 * size new + 2 ^ 32 <= 2 ^ 63 - 1.

(** [archive f b m]: the file [f] results from packing followed by any sequence
    of appends and metadata rewrites, failed or not; [b] and [m] are the contents
    and metadata a user would expect.  (Rewriting to null metadata is excluded:
    see C50.) *)
Inductive archive : bytes -> bytes -> pyval -> Prop :=
| ar_pack b cs m oba obp oma f :
    pack_bytes_to_bytes E b cs m oba obp oma = Ok f -> archive f b (norm m)
| ar_append f b m new oa f' k :
    archive f b m -> sizable f new -> append_bytes f new oa = (f', Ok k) -> archive f' (b ++ new) m
| ar_append_failed f b m new oa f' e :
    archive f b m -> sizable f new -> append_bytes f new oa = (f', Raise e) -> archive f' b m
| ar_rewrite f b m m' ov f' :
    archive f b m -> m' <> PNone -> rewrite_bytes f m' ov = (f', Ok tt) -> archive f' b (norm m')
| ar_rewrite_failed f b m m' ov f' e :
    archive f b m -> rewrite_bytes f m' ov = (f', Raise e) -> archive f' b m.

(** zlib compression makes the serialised metadata longer. *)
Definition grows (m : pyval) (a : margs) : Prop :=
  ma_codec a = "zlib"%string /\ exists raw z, e_dumps E m = Ok raw /\ e_zcompress E raw (ma_level a) = Ok z /\ size raw < size z.

End WithEnv.
