(** Specification vocabulary for damaged, truncated and half-written files. *)
From Verif Require Import Base PyVal Checksums Headers Pretty Args FileIO Append Spec Archive.

(** Where chunk i starts: each chunk is followed by its digest and the next chunk. *)
Fixpoint chunk_pos (i : nat) (f : bytes) : Z :=
  match i with
  | O => F_body f
  | S i' => let p := chunk_pos i' f in p + u32 (p + 12) f + F_digest f
  end.
(** Where the last chunk ends (its digest not included). *)
Definition chunks_end (f : bytes) : Z :=
  let p := chunk_pos (Z.to_nat (F_n f - 1)) f in p + u32 (p + 12) f.

Section WithEnv.
Variable E : Env.

(** The single-byte writes packing issues to a fresh output file, in order. *)
Definition pack_log (b : bytes) (cs : csarg) (m : pyval)
    (oba : option bargs) (obp : option bpargs) (oma : option margs) : list (Z * byte) :=
  flog (s_fp (fst (pack_bytes_core E b cs m oba obp oma))).

(** [emitted ck f p xs]: starting at position p of f there are complete chunks
    that decompress to xs, and each chunk's stored digest is right, or absent
    because the file has no checksum or ends right after the chunk. *)
Inductive emitted (ck : cks) (f : bytes) : Z -> list bytes -> Prop :=
| em_nil p : emitted ck f p []
| em_cons p x xs :
    let n := u32 (p + 12) f in
    let c := sub p n f in
    let d := sub (p + n) (cks_size ck) f in
    0 <= p -> 16 <= n -> p + n <= size f -> e_decompress E c = Ok x ->
    (ck = CkNone \/ d = [] \/ d = digest E ck c) ->
    emitted ck f (p + n + cks_size ck) xs -> emitted ck f p (x :: xs).

End WithEnv.
