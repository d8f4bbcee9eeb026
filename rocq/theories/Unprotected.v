(** Specification vocabulary for changes to a file that nothing notices. *)
From Verif Require Import Base PyVal Checksums Headers Pretty Args FileIO Append Spec Archive Damage.

(** Chunk i of a file with its digest. *)
Definition piece (f : bytes) (i : Z) : bytes :=
  let p := chunk_pos (Z.to_nat i) f in sub p (u32 (p + 12) f + F_digest f) f.
(** The file with the chunks picked by [p] in place of its own. *)
Definition reassembled (f : bytes) (p : list Z) : bytes := sub 0 (F_body f) f ++ concat (map (piece f) p).

(** [g] is [f] with other numbers in the header: the magic, the version, the
    options and the checksum are the same (bytes 0 to 6), and so is everything
    after the header. *)
Definition renumbered (f g : bytes) : Prop :=
  agree 0 7 f g /\ skipn 32 f = skipn 32 g /\
  header_nums_ok (F_typesize g) (F_chunk g) (F_last g) (F_n g) (F_max g).
