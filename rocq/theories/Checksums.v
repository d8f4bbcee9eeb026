(** Model of bloscpack/checksums.py and bloscpack/metacodecs.py. *)
From Verif Require Import Base.

(** The nine checksums, in the order of CHECKSUMS (checksums.py:57-66). *)
Inductive cks := CkNone | CkAdler32 | CkCrc32 | CkMd5 | CkSha1 | CkSha224
               | CkSha256 | CkSha384 | CkSha512.

(** CHECKSUMS_AVAIL as names (checksums.py:57-67). *)
Definition cks_avail : list cks :=
  [CkNone; CkAdler32; CkCrc32; CkMd5; CkSha1; CkSha224; CkSha256; CkSha384; CkSha512].

(** Hash.name (checksums.py:57-66). *)
Definition cks_name (c : cks) : string :=
  match c with
  | CkNone => "None" | CkAdler32 => "adler32" | CkCrc32 => "crc32" | CkMd5 => "md5"
  | CkSha1 => "sha1" | CkSha224 => "sha224" | CkSha256 => "sha256"
  | CkSha384 => "sha384" | CkSha512 => "sha512"
  end%string.

(** Hash.size (checksums.py:47, 54, 57-66). *)
Definition cks_size (c : cks) : Z :=
  match c with
  | CkNone => 0 | CkAdler32 => 4 | CkCrc32 => 4 | CkMd5 => 16 | CkSha1 => 20
  | CkSha224 => 28 | CkSha256 => 32 | CkSha384 => 48 | CkSha512 => 64
  end.

(** check_valid_checksum (checksums.py:71-85) followed by the dictionary lookup
    CHECKSUMS_LOOKUP: after the check the name is one of the nine. *)
Definition check_valid_checksum (s : string) : res cks :=
  match find (fun c => String.eqb s (cks_name c)) cks_avail with
  | Some c => Ok c
  | None => Raise NoSuchChecksum
  end.

(** CHECKSUMS_LOOKUP[name] (checksums.py:68): KeyError when unknown. *)
Definition cks_lookup (s : string) : res cks :=
  match find (fun c => String.eqb s (cks_name c)) cks_avail with
  | Some c => Ok c
  | None => Raise KeyError
  end.

(** CHECKSUMS_AVAIL.index(name) for a valid name (headers.py:349, 464). *)
Definition cks_index (c : cks) : Z :=
  match c with
  | CkNone => 0 | CkAdler32 => 1 | CkCrc32 => 2 | CkMd5 => 3 | CkSha1 => 4
  | CkSha224 => 5 | CkSha256 => 6 | CkSha384 => 7 | CkSha512 => 8
  end.

(** CHECKSUMS_AVAIL[i] for a byte value i (headers.py:395, 484): IndexError
    beyond the end. *)
Definition cks_of_index (i : Z) : res cks :=
  match nth_error cks_avail (Z.to_nat i) with Some c => Ok c | None => Raise IndexError end.

(** zlib.adler32 (start value 1), RFC 1950 section 9; zlib itself is not in
    /repo, it is called at checksums.py:58. *)
Definition adler_step (st : Z * Z) (b : byte) : Z * Z :=
  let a := (fst st + Zb b) mod 65521 in (a, (snd st + a) mod 65521).
Definition adler32 (d : bytes) : Z :=
  let st := fold_left adler_step d (1, 0) in snd st * 65536 + fst st.

(** zlib.crc32 (reflected polynomial 0xEDB88320), called at checksums.py:59. *)
Definition crc_poly : Z := 0xEDB88320.
Definition crc_shift (c : Z) : Z :=
  if Z.odd c then Z.lxor (Z.shiftr c 1) crc_poly else Z.shiftr c 1.
Definition crc_shift8 (c : Z) : Z :=
  crc_shift (crc_shift (crc_shift (crc_shift (crc_shift (crc_shift (crc_shift (crc_shift c))))))).
Definition crc_step (c : Z) (b : byte) : Z := crc_shift8 (Z.lxor c (Zb b)).
Definition crc32 (d : bytes) : Z := Z.lxor (fold_left crc_step d 0xFFFFFFFF) 0xFFFFFFFF.

(** Calling a checksum (checksums.py:36-66).  adler32 and crc32 are computed by
    the model; the hashlib digests are the oracle [hashlib]. The [& 0xffffffff]
    of checksums.py:46 is the reduction done by [le_enc 4]. *)
Definition cks_digest (hashlib : cks -> bytes -> bytes) (c : cks) (d : bytes) : bytes :=
  match c with
  | CkNone => []
  | CkAdler32 => le_enc 4 (adler32 d)
  | CkCrc32 => le_enc 4 (crc32 d)
  | _ => hashlib c d
  end.

(** Metadata codecs: CODECS (metacodecs.py:37-40). *)
Inductive codec := CoNone | CoZlib.
Definition codec_avail : list codec := [CoNone; CoZlib].
Definition codec_name (c : codec) : string :=
  match c with CoNone => "None" | CoZlib => "zlib" end%string.

(** check_valid_codec (metacodecs.py:43-57). *)
Definition check_valid_codec (s : string) : res codec :=
  match find (fun c => String.eqb s (codec_name c)) codec_avail with
  | Some c => Ok c
  | None => Raise NoSuchCodec
  end.
(** CODECS_LOOKUP[name] (metacodecs.py:40). *)
Definition codec_lookup (s : string) : res codec :=
  match find (fun c => String.eqb s (codec_name c)) codec_avail with
  | Some c => Ok c
  | None => Raise KeyError
  end.
(** CODECS_AVAIL.index / CODECS_AVAIL[i] (headers.py:465, 485). *)
Definition codec_index (c : codec) : Z := match c with CoNone => 0 | CoZlib => 1 end.
Definition codec_of_index (i : Z) : res codec :=
  match nth_error codec_avail (Z.to_nat i) with Some c => Ok c | None => Raise IndexError end.

Definition cks_eqb (a b : cks) : bool := cks_index a =? cks_index b.
Definition codec_eqb (a b : codec) : bool := codec_index a =? codec_index b.

(** Known-answer checks of the concrete checksums. *)
Example adler32_kat : adler32 (b_of_string "Wikipedia") = 0x11E60398.
Proof. vm_compute. reflexivity. Qed.
Example crc32_kat : crc32 (b_of_string "123456789") = 0xCBF43926.
Proof. vm_compute. reflexivity. Qed.
