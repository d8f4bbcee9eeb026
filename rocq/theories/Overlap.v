(** Processes working on the same file at the same time.  Bloscpack takes no locks;
    what can happen is described here by interleaving the single-byte writes of
    two operations, and by a reader whose every read call may see the file in a
    different state. *)
From Verif Require Import Base PyVal Checksums Headers Args FileIO Append Spec Archive.

(** ** Two writers *)

(** [merged a b l]: l contains the writes of a and those of b, each in order. *)
Inductive merged {A} : list A -> list A -> list A -> Prop :=
| mg_nil : merged [] [] []
| mg_left x a b l : merged a b l -> merged (x :: a) b (x :: l)
| mg_right x a b l : merged a b l -> merged a (x :: b) (x :: l).

(** The file after the writes of [log]. *)
Definition replay (log : list (Z * byte)) (f : bytes) : bytes := fold_left poke log f.

(** The single-byte writes of a metadata rewrite, in order. *)
Definition rewrite_log (E : Env) (f : bytes) (m : pyval) (ov : overrides) : list (Z * byte) :=
  flog (fst (rewrite_metadata E m ov (fp_of f))).

(** ** A reader of a changing file *)

(** The reading functions of file_io.py once more, over any object with read and
    relative seek ([rds] is read of a length that may reach 2**63).  [same_reader] in
    LiveProofs.v: for [f_read], [f_read_ssize] and [f_seek_rel] these are the functions of FileIO.v, by computation. *)
Section Reader.
Variable E : Env.
Variable St : Type.
Variable rd : Z -> SM St bytes.
Variable rds : Z -> SM St bytes.
Variable skr : Z -> SM St unit.

(** _read_bloscpack_header (file_io.py:148-178). *)
Definition r_header : SM St header :=
  raw <- rd BLOSCPACK_HEADER_LENGTH ;;
  h <- lift (header_decode raw) ;;
  if FORMAT_VERSION =? h_version h then ret h else raise FormatVersionMismatch.

(** _read_metadata (file_io.py:181-234). *)
Definition r_metadata : SM St (pyval * mheader) :=
  raw <- rd METADATA_HEADER_LENGTH ;;
  h <- lift (mheader_decode raw) ;;
  payload <- rd (mh_comp h) ;;
  skr (mh_max h - mh_comp h) ;;;
  (if cks_eqb (mh_checksum h) CkNone then ret tt
   else
     expected <- rd (cks_size (mh_checksum h)) ;;
     if bytes_eqb (digest E (mh_checksum h) payload) expected then ret tt
     else raise ChecksumMismatch) ;;;
  plain <- lift (codec_decompress E (mh_codec h) payload) ;;
  lift (serializer_lookup (mh_magic h)) ;;;
  m <- lift (e_loads E plain) ;;
  ret (m, h).

(** _read_offsets (file_io.py:237-265). *)
Definition r_offsets (h : header) : SM St (list Z) :=
  if h_offsets h then
    match total_prospective_chunks h with
    | None => raise TypeError
    | Some t => raw <- rds (8 * t) ;;
                lift (decode_offsets (Z.to_nat (Z.min (h_nchunks h) (zlen raw / 8 + 1))) raw)
    end
  else ret [].

(** _read_beginning (file_io.py:268-289). *)
Definition r_beginning : SM St beginning :=
  h <- r_header ;;
  mm <- (if h_metadata h then r <- r_metadata ;; ret (fst r, Some (snd r))
         else ret (PNone, None)) ;;
  o <- r_offsets h ;;
  ret (mkBeg h (fst mm) (snd mm) o).

(** _read_compressed_chunk_fp (file_io.py:301-334), CompressedFPSource.__iter__
    (file_io.py:366-369). *)
Definition r_chunk (c : cks) : SM St (bytes * blosc_header * option bytes) :=
  raw <- rd BLOSC_HEADER_LENGTH ;;
  bh <- lift (decode_blosc_header raw) ;;
  skr (- BLOSC_HEADER_LENGTH) ;;;
  compressed <- rd (bh_ctbytes bh) ;;
  d <- (if 0 <? cks_size c then x <- rd (cks_size c) ;; ret (Some x) else ret None) ;;
  ret (compressed, bh, d).
Definition r_next (c : cks) : SM St (bytes * option bytes) :=
  r <- r_chunk c ;;
  let '(compressed, _, d) := r in ret (compressed, d).

(** unpack_bytes_from_bytes (file_io.py:666-693) on such an object in its initial
    state [s]: the output written, and the outcome. *)
Definition r_unpack (s : St) : bytes * res pyval :=
  match r_beginning s with
  | (_, Raise e) => ([], Raise e)
  | (s1, Ok bg) =>
      let h := b_header bg in
      let '((_, out), r) := unpack_loop E (r_next (h_checksum h)) (h_checksum h) (plain_put E)
                                        (Z.to_nat (h_nchunks h)) (s1, fp_of []) in
      (fdata out, rbind r (fun _ => Ok (b_meta bg)))
  end.
End Reader.

(** A file that changes while it is read: read call number t sees the contents
    [S t].  The state is the number of reads so far and the position. *)
Record live := mkLive { lv_time : nat; lv_pos : Z }.
Definition l_read (S : nat -> bytes) (n : Z) : SM live bytes :=
  fun v => let rest := zdrop (lv_pos v) (S (lv_time v)) in
           let x := if n <? 0 then rest else ztake n rest in
           (mkLive (1 + lv_time v) (lv_pos v + zlen x), Ok x).
Definition l_read_ssize (S : nat -> bytes) (n : Z) : SM live bytes :=
  fun v => if (2 ^ 63 <=? n) && (zlen (zdrop (lv_pos v) (S (lv_time v))) <? n) then (v, Raise OverflowError) else l_read S n v.
Definition l_seek_rel (d : Z) : SM live unit :=
  fun v => if lv_pos v + d <? 0 then (v, Raise OSError)
           else (mkLive (lv_time v) (lv_pos v + d), Ok tt).

(** Unpacking a file that shows the contents [S 0], [S 1], ... to successive reads. *)
Definition unpack_live (E : Env) (S : nat -> bytes) : bytes * res pyval :=
  r_unpack E live (l_read S) (l_read_ssize S) l_seek_rel (mkLive 0 0).

(** What one read of a file under append may show: every byte is that byte at some
    moment of the append, different bytes possibly at different moments (as with
    a buffered reader).  The 32-byte header, written and read in one piece
    (append.py:179-182, file_io.py:158), is seen as it was before or as it is
    after. *)
Definition glimpse (E : Env) (f new : bytes) (oa : obargs) (d : bytes) : Prop :=
  (forall p, exists j, nth_error d p = nth_error (crash j (append_log E f new oa) f) p) /\
  (sub 0 32 d = sub 0 32 f \/ sub 0 32 d = sub 0 32 (fst (append_bytes E f new oa))).
