(** Rewriters of one file's metadata that also read while the others write. *)
From Verif Require Import Base PyVal Checksums Headers Args FileIO Append Spec Archive Overlap.

Section WithEnv.
Variable E : Env.

(** _seek_to_metadata and _rewrite_metadata_fp (append.py:226-281) on a file that
    shows the contents [Sn 0], [Sn 1], ... to successive reads: the single-byte
    writes, in order, and the outcome. *)
Definition rewrite_live (Sn : nat -> bytes) (m : pyval) (ov : overrides) : list (Z * byte) * res unit :=
  match r_header live (l_read Sn) (mkLive 0 0) with
  | (_, Raise e) => ([], Raise e)
  | (v, Ok h) =>
      if h_metadata h then
        match r_metadata E live (l_read Sn) l_seek_rel v with
        | (_, Raise e) => ([], Raise e)
        | (_, Ok (old, oldh)) =>
            if pyeq old m then ([], Raise NoChangeInMetadata)
            else match recreate_metadata oldh ov with
                 | Raise e => ([], Raise e)
                 | Ok a => let '(out, r) := write_metadata E m a (mkfp [] (lv_pos v) []) in
                           (flog out, rbind r (fun _ => Ok tt))
                 end
        end
      else ([], Raise NoMetadataFound)
  end.

(** Everything that may be in the file f, or be seen of it by one read, when any number
    of processes rewrite its metadata, any number of times: f; what one more of
    the writes of a process makes of such a file, whatever such files that
    process has read; and any mixture, byte by byte, of such files. *)
Inductive churned (f : bytes) : bytes -> Prop :=
| ch_start : churned f f
| ch_write g Sn m ov w : churned f g -> (forall i, churned f (Sn i)) -> In w (fst (rewrite_live Sn m ov)) -> churned f (poke g w)
| ch_mix g X : size g = size f -> (forall p, churned f (X p)) -> (forall p, nth_error g p = nth_error (X p) p) -> churned f g.
End WithEnv.
