(** Vocabulary for C88: the metadata of a file being rewritten while others read it or
    rewrite it too. *)
From Verif Require Import Base PyVal Checksums Headers Args FileIO Append Spec Archive.

(** The files that any number of metadata rewrites, one after the other, make of f
    (failed ones change nothing; null is left out as in [archive], see C50). *)
Inductive rewritten (E : Env) (f : bytes) : bytes -> Prop :=
| rw_none : rewritten E f f
| rw_more g m ov : rewritten E f g -> m <> PNone -> rewritten E f (fst (rewrite_bytes E g m ov)).

(** What may be on the disk, or seen by one read, meanwhile: every byte is the byte
    of one of these files, different bytes of different files. *)
Definition stirred (E : Env) (f g : bytes) : Prop :=
  size g = size f /\ forall p, exists x, rewritten E f x /\ nth_error g p = nth_error x p.

(** The metadata of a file, as stored, and their digest. *)
Definition stored_meta (g : bytes) : bytes := sub 64 (u32 52 g) g.
Definition stored_digest (g : bytes) : bytes := sub (64 + u32 48 g) (digest_len (u8 41 g)) g.
