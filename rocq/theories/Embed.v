(** Bloscpack data inside other files: pack and unpack on file objects that are
    already open and stand somewhere in the file. *)
From Verif Require Import Base PyVal Checksums Headers Args FileIO Spec.

Section WithEnv.
Variable E : Env.

(** calculate_nchunks and pack (abstract_io.py:108-166) from a
    PlainFPSource(inp) (file_io.py:343-353) to a CompressedFPSink(out)
    (file_io.py:384-417): [n] bytes are packed, from the position of [inp]
    onwards.  Results in both file objects and the outcome. *)
Definition pack_through (inp out : fp) (n : Z) (cs : csarg) (m : pyval)
    (oba : option bargs) (obp : option bpargs) (oma : option margs) : fp * fp * res unit :=
  match calculate_nchunks n cs with
  | Raise e => (inp, out, Raise e)
  | Ok (k, c, l) =>
      let '((i, s), r) := pack (fp_source E) (fp_sink E) k c l m oba obp oma (inp, cfs_of out) in
      (i, s_fp s, rbind r (fun _ => Ok tt))
  end.

(** unpack (abstract_io.py:169-196) from a CompressedFPSource(inp)
    (file_io.py:356-369) to a PlainFPSink(out) (file_io.py:372-381); the value is
    the metadata of the source. *)
Definition unpack_through (inp out : fp) : fp * fp * res pyval :=
  match read_beginning E inp with
  | (f, Raise e) => (f, out, Raise e)
  | (f, Ok bg) =>
      let '((f', out'), r) := unpack_fp E (b_header bg) (f, out) in
      (f', out', rbind r (fun _ => Ok (b_meta bg)))
  end.

(** Unpacking [k] times in a row from one file object, each time into a new
    output: what was obtained, and the file object; stops at the first failure. *)
Fixpoint unpack_several (k : nat) (inp : fp) : list (bytes * pyval) * fp :=
  match k with
  | O => ([], inp)
  | S k' => match unpack_through inp (fp_of []) with
            | (f, out, Ok m) => let '(l, f') := unpack_several k' f in ((fdata out, m) :: l, f')
            | (f, _, Raise _) => ([], f)
            end
  end.

(** Packing several contents in a row into one file object. *)
Fixpoint pack_several (l : list (bytes * csarg * pyval)) (oba : option bargs) (obp : option bpargs) (oma : option margs)
    (out : fp) : fp * res unit :=
  match l with
  | [] => (out, Ok tt)
  | (b, cs, m) :: l' =>
      match pack_through (fp_of b) out (size b) cs m oba obp oma with
      | (_, o, Ok _) => pack_several l' oba obp oma o
      | (_, o, Raise e) => (o, Raise e)
      end
  end.
End WithEnv.

(** ** Vocabulary *)
(** A file object with [before] behind it and [after] ahead of it; [log] is what was
    written through it so far. *)
Definition between (before after : bytes) (log : list (Z * byte)) : fp := mkfp (before ++ after) (size before) log.
(** The bytes of [x] with the positions p, p+1, ... *)
Definition numbered (p : Z) (x : bytes) : list (Z * byte) :=
  combine (map (fun i => p + Z.of_nat i) (seq 0 (List.length x))) x.
