(** Specification vocabulary: which exceptions come out. *)
From Verif Require Import Base PyVal Checksums Headers Args FileIO Append Spec.

(** Exceptions of the functions outside of /repo. *)
Definition foreign_read (E : Env) (e : exn) : Prop :=
  (exists c, e_decompress E c = Raise e) \/ (exists z, e_zdecompress E z = Raise e) \/ (exists s, e_loads E s = Raise e).
Definition foreign_meta (E : Env) (e : exn) : Prop :=
  (exists v, e_dumps E v = Raise e) \/ (exists x l, e_zcompress E x l = Raise e).
Definition foreign_write (E : Env) (e : exn) : Prop :=
  exists a x, e_compress E a x = Raise e.

(** Exceptions raised by the functions of /repo that read an archive... *)
Definition read_errors : list exn :=
  [ValueError; IndexError; StructError; TypeError; KeyError; OverflowError; ChecksumMismatch; FormatVersionMismatch].
(** ... by those that append to it (besides these)... *)
Definition append_errors : list exn := [RuntimeError; NotEnoughSpace; ChunkingException].
(** ... and by those that rewrite its metadata. *)
Definition rewrite_errors : list exn :=
  [ValueError; IndexError; KeyError; ChecksumMismatch; FormatVersionMismatch;
   NoMetadataFound; NoChangeInMetadata; MetadataSectionTooSmall].
(** A setting given by the caller is refused. *)
Definition override_error (ov : overrides) (e : exn) : Prop :=
  ov_magic ov <> None /\ e = NoSuchSerializer \/
  ov_checksum ov <> None /\ (e = NoSuchChecksum \/ e = ChecksumLengthMismatch) \/
  ov_codec ov <> None /\ e = NoSuchCodec.

(** Exceptions of packing and their grounds; [b] is the data, [out] what was written. *)
Definition pack_error (E : Env) (b : bytes) (cs : csarg) (m : pyval) (bp : bpargs) (ma : margs) (out : bytes) (e : exn) : Prop :=
  e = ValueError \/
  e = ChunkingException /\ 2 ^ 63 <= size b \/
  e = IndexError /\ cs = CSStr "" \/
  e = OverflowError /\ (exists s, cs = CSStr s) \/
  e = TypeError /\ (cs = CSOther \/ bp_max_app bp = MAOther) \/
  bp_offsets bp = true /\ (exists g n, bp_max_app bp = MACall g /\ g n = Raise e) \/
  m <> PNone /\ (exists g n, ma_max ma = MMCall g /\ g n = Raise e) \/
  e = NoSuchChecksum /\ (~ In (bp_checksum bp) checksum_names \/ m <> PNone /\ ~ In (ma_checksum ma) checksum_names) \/
  e = KeyError /\ m <> PNone /\ (ma_magic ma <> b_of_string "JSON" \/ ~ In (ma_codec ma) codec_names) \/
  e = MetadataSectionTooSmall /\ m <> PNone \/
  e = UnboundLocalError /\ m <> PNone /\ ma_max ma = MMOther \/
  e = StructError /\ bp_offsets bp = true /\ 2 ^ 63 <= size out \/
  m <> PNone /\ foreign_meta E e \/
  foreign_write E e.
