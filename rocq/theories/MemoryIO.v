(** Model of bloscpack/memory_io.py. *)
From Verif Require Import Base PyVal Checksums Headers Args FileIO.

Section WithEnv.
Variable E : Env.

(** PlainMemorySource (memory_io.py:15-22): yields the chunks of the list it was
    given, whatever it was configured with. *)
Definition mem_source (chunks : list bytes) : plain_source unit bytes :=
  mkPS unit bytes (fun _ _ _ => map ret chunks) (compress_chunk_str E).

(** CompressedMemorySink (memory_io.py:69-100).  A slot that has not been filled
    is [None].  [self.checksum] is the name of the checksum, which is never an
    empty string (the name for "no checksum" is 'None'), so that the tests
    [if self.checksum] always succeed and the list of digests always exists. *)
Record cms := mkCMS {
  cm_header : header; cm_chunks : list (option bytes); cm_digests : list (option bytes);
  cm_meta : pyval; cm_margs : option margs }.
Definition cms_new : cms := mkCMS dummy_header [] [] PNone None.
(** configure (memory_io.py:71-83). *)
Definition cms_configure (_ : bargs) (h : header) (_ : cms) : cms :=
  mkCMS h (zrep (h_nchunks h) None) (zrep (h_nchunks h) None) PNone None.
(** write_metadata (memory_io.py:89-91): keeps the objects themselves. *)
Definition cms_write_metadata (m : pyval) (a : margs) : SM cms margs :=
  fun s => (mkCMS (cm_header s) (cm_chunks s) (cm_digests s) m (Some a), Ok a).
(** put (memory_io.py:97-100). *)
Definition cms_put (i : Z) (compressed : bytes) : SM cms unit :=
  fun s =>
    match set_nth (Z.to_nat i) (Some compressed) (cm_chunks s) with
    | None => (s, Raise IndexError)
    | Some cs =>
        let s1 := mkCMS (cm_header s) cs (cm_digests s) (cm_meta s) (cm_margs s) in
        match set_nth (Z.to_nat i) (Some (do_checksum E (h_checksum (cm_header s)) compressed))
                      (cm_digests s) with
        | None => (s1, Raise IndexError)
        | Some ds => (mkCMS (cm_header s) cs ds (cm_meta s) (cm_margs s), Ok tt)
        end
    end.
(** write_bloscpack_header, init_offsets (memory_io.py:85-87, 93-95) and the
    inherited finalize (abstract_io.py:88-90) do nothing. *)
Definition mem_sink : compressed_sink cms :=
  mkCS cms cms_configure (ret tt) cms_write_metadata (ret tt) cms_put (ret tt).

(** CompressedMemorySource.__iter__ (memory_io.py:41-45); the state is the index
    of the next chunk.  A slot never filled holds None in both lists: the digest
    is falsy, and blosc.decompress(None) is a TypeError; the model raises it
    here, nothing being observable in between. *)
Definition mem_next (s : cms) : SM nat (bytes * option bytes) :=
  fun i =>
    match nth_error (cm_chunks s) i, nth_error (cm_digests s) i with
    | Some (Some c), Some d => (S i, Ok (c, d))
    | Some None, Some _ => (S i, Raise TypeError)
    | _, _ => (i, Raise IndexError)
    end.

(** PlainMemorySink (memory_io.py:48-66): [None] slots and a running index when
    the number of chunks was given, appending otherwise. *)
Inductive pms :=
| PMfixed (chunks : list (option bytes)) (i : nat)
| PMgrow (chunks : list (option bytes)).
Definition pms_new (nchunks : option Z) : pms :=
  match nchunks with Some n => PMfixed (zrep n None) 0 | None => PMgrow [] end.
Definition pms_chunks (s : pms) : list (option bytes) :=
  match s with PMfixed l _ | PMgrow l => l end.
Definition pms_put (compressed : bytes) : SM pms Z :=
  fun s =>
    match e_decompress E compressed with
    | Raise e => (s, Raise e)
    | Ok d =>
        match s with
        | PMfixed l i =>
            match set_nth i (Some d) l with
            | Some l' => (PMfixed l' (S i), Ok (zlen d))
            | None => (s, Raise IndexError)
            end
        | PMgrow l => (PMgrow (l ++ [Some d]), Ok (zlen d))
        end
    end.

(** unpack (abstract_io.py:169-196) from memory to memory. *)
Definition mem_unpack (s : cms) : SM (nat * pms) unit :=
  unpack_loop E (mem_next s) (h_checksum (cm_header s)) pms_put (Z.to_nat (h_nchunks (cm_header s))).

End WithEnv.
