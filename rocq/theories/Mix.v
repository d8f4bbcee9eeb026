(** Sources and sinks of different kinds: packing from files, lists of chunks and
    arrays to files and memory, and unpacking from those to files, lists and
    arrays.  (Lists to memory and back: MemoryIO.v; files to files: FileIO.v,
    Embed.v; arrays to and from files: NumpyIO.v.) *)
From Verif Require Import Base PyVal Checksums Headers Args FileIO MemoryIO NumpyIO.

Section WithEnv.
Variable E : Env.

(** calculate_nchunks and pack (abstract_io.py:108-166) from a PlainFPSource
    (file_io.py:343-353) to a CompressedMemorySink (memory_io.py:69-100). *)
Definition pack_to_memory (inp : fp) (n : Z) (cs : csarg) (m : pyval)
    (oba : option bargs) (obp : option bpargs) (oma : option margs) : fp * cms * res unit :=
  match calculate_nchunks n cs with
  | Raise e => (inp, cms_new, Raise e)
  | Ok (k, c, l) =>
      let '((i, s), r) := pack (fp_source E) (mem_sink E) k c l m oba obp oma (inp, cms_new) in
      (i, s, rbind r (fun _ => Ok tt))
  end.

(** pack from a PlainMemorySource (memory_io.py:15-22) to a CompressedFPSink
    (file_io.py:384-417) on a new file; the contents of the file. *)
Definition pack_list_to_file (chunks : list bytes) (n c l : Z) (m : pyval)
    (oba : option bargs) (obp : option bpargs) (oma : option margs) : bytes * res unit :=
  let '((_, k), r) := pack (mem_source E chunks) (fp_sink E) n c l m oba obp oma (tt, cfs_of (fp_of [])) in
  (fdata (s_fp k), rbind r (fun _ => Ok tt)).

(** unpack (abstract_io.py:169-196) from a CompressedMemorySource
    (memory_io.py:25-45) to a PlainFPSink (file_io.py:372-381). *)
Definition unpack_memory_to_file (s : cms) (out : fp) : fp * res unit :=
  let '((_, o), r) := unpack_loop E (mem_next s) (h_checksum (cm_header s)) (plain_put E)
                        (Z.to_nat (h_nchunks (cm_header s))) (O, out) in (o, r).

(** unpack from a CompressedFPSource (file_io.py:356-369) to a PlainMemorySink
    (memory_io.py:48-66); the value is the metadata of the source. *)
Definition unpack_file_to_list (inp : fp) (t : pms) : fp * pms * res pyval :=
  match read_beginning E inp with
  | (f, Raise e) => (f, t, Raise e)
  | (f, Ok bg) =>
      let '((f', t'), r) := unpack_loop E (fp_next E (h_checksum (b_header bg))) (h_checksum (b_header bg)) (pms_put E)
                              (Z.to_nat (h_nchunks (b_header bg))) (f, t) in
      (f', t', rbind r (fun _ => Ok (b_meta bg)))
  end.

(** unpack_ndarray (numpy_io.py:286-307) from a CompressedMemorySource; its
    metadata is the object that was given to pack (memory_io.py:27-29). *)
Definition unpack_array_from_memory (N : NpEnv) (s : cms) : res ndarray :=
  st <~ nps_new N (cm_meta s) ;;
  let '((_, t), r) := unpack_loop E (mem_next s) (h_checksum (cm_header s)) (nps_put E)
                        (Z.to_nat (h_nchunks (cm_header s))) (O, st) in
  _ <~ r ;; Ok (nps_array N t).
End WithEnv.
