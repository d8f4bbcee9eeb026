(** An archive appended to itself: append.append(f, f), 'blpk append f f'. *)
From Verif Require Import Base PyVal Args FileIO Append Archive Spec Stream.

(** new_content_fp.read(n) (append.py:128,147; file_io.py:343-353) when the new contents are the archive itself, opened a
    second time (append.py:217).  Read number i is shown [view i]: which of the bytes
    written through the other file object it sees depends on the buffers of both.  (Read 0 comes before all
    writes, append.py:125-160, so the theorems have view 0 = the archive.) *)
Definition seen (view : nat -> bytes) (n : Z) : SM (nat * Z) bytes :=
  fun s => let r := f_read n (mkfp (view (fst s)) (snd s) []) in ((S (fst s), fpos (fst r)), snd r).

Section WithEnv.
Variable E : Env.
(** append (append.py:194-223) with the same name twice: the file and the outcome. *)
Definition append_to_itself (f : bytes) (view : nat -> bytes) (oa : obargs) : bytes * res Z :=
  let r := append_from E (seen view) (size f) oa ((O, 0), fp_of f) in (fdata (snd (fst r)), snd r).

(** ** Specification *)
(** What may have been written while there is still something to read: what an append of that size
    leaves behind whose reads answer anything and one of which fails. *)
Definition meanwhile (f : bytes) (oa : obargs) (g : bytes) : Prop :=
  g = f \/ exists w e, append_stream E f (size f) w oa = (g, Raise e) /\ size g < 2 ^ 63.
(** One read may see any mixture of such files. *)
Definition glimpse (f : bytes) (oa : obargs) (v : bytes) : Prop :=
  size f <= size v /\ forall k, 0 <= k < size f -> exists g, meanwhile f oa g /\ nth_error v (Z.to_nat k) = nth_error g (Z.to_nat k).
End WithEnv.
(** Where the last chunk starts, by the offset table. *)
Definition F_last_start (f : bytes) : Z := F_off f (F_n f - 1).
