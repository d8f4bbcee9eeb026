(** Appending from a source that delivers whatever it likes: append_fp with the
    reads of the new contents abstracted.  A file that is changed while it is
    appended, the archive appended to itself, a device that fails. *)
From Verif Require Import Base PyVal Checksums Headers Args FileIO Append Archive Spec.

Section WithEnv.
Variable E : Env.

(** append_fp (append.py:62-191) with [rd n] for [new_content_fp.read(n)]; with
    [f_read] it is [append_fp] by computation. *)
Definition append_from {S} (rd : Z -> SM S bytes) (new_size : Z) (o : obargs) : SM (S * fp) Z :=
  bg <- onr (read_beginning E) ;;
  let h := b_header bg in
  let ck := h_checksum h in
  match b_offsets bg with
  | [] => raise RuntimeError
  | o0 :: os =>
    let offs := o0 :: os in
    let last_off := List.last offs 0 in
    ba <- lift (fill_blosc_args o h) ;;
    onr (f_seek E last_off) ;;;
    r <- onr (read_compressed_chunk E ck) ;;
    let compressed := fst (fst r) in
    decompressed <- lift (e_decompress E compressed) ;;
    let to_read := h_chunk_size h - zlen decompressed in
    if new_size <=? to_read then
      fill_up <- onl (rd new_size) ;;
      onr (f_seek E last_off) ;;;
      c <- lift (compress_chunk_str E ba (decompressed ++ fill_up)) ;;
      onr (write_compressed_chunk c (digest E ck c)) ;;;
      raw <- lift (header_encode (set_counts h (h_last_chunk h + new_size) (h_nchunks h) (h_max_app h))) ;;
      onr (f_seek E 0) ;;;
      onr (f_write raw) ;;;
      ret 0
    else
      let new_new_size := new_size - to_read in
      fill_up <- onl (rd to_read) ;;
      ncl <- lift (calculate_nchunks new_new_size (CSInt (h_chunk_size h))) ;;
      let '(nchunks, chunk_size, last_chunk) := ncl in
      if h_max_app h <? nchunks then raise NotEnoughSpace
      else
        onr (f_seek E last_off) ;;;
        c <- lift (compress_chunk_str E ba (decompressed ++ fill_up)) ;;
        onr (write_compressed_chunk c (digest E ck c)) ;;;
        (fun st =>
           let sink := mkCFS (snd st) 0 h (zrep nchunks (-1)) in
           match pack_loop (compress_chunk_str E ba) (fps_put E) 0
                           (map rd (chunk_sizes nchunks chunk_size last_chunk)) (fst st, sink) with
           | ((nf, s), Raise e) => ((nf, s_fp s), Raise e)
           | ((nf, s), Ok _) =>
               (raw <- lift (header_encode (set_counts h last_chunk (h_nchunks h + nchunks)
                                                       (h_max_app h - nchunks))) ;;
                onr (f_seek E 0) ;;;
                onr (f_write raw) ;;;
                onr (f_seek E (offsets_pos bg)) ;;;
                onr (write_offsets (offs ++ s_storage s)) ;;;
                ret nchunks) (nf, s_fp s)
           end)
  end.

(** Read number i returns, or raises, [w i], whatever was asked for. *)
Definition told (w : nat -> res bytes) (n : Z) : SM nat bytes := fun i => (S i, w i).
(** The archive f, and the outcome, after appending [new_size] bytes so read. *)
Definition append_stream (f : bytes) (new_size : Z) (w : nat -> res bytes) (o : obargs) : bytes * res Z :=
  let r := append_from (told w) new_size o (O, fp_of f) in (fdata (snd (fst r)), snd r).

(** pack_file_to_file (file_io.py:420-471) with the reads of PlainFPSource
    (file_io.py:343-353) done by [rd]; [announced] is the size of the input when
    it was asked for.  The contents of the output. *)
Definition source_from {S} (rd : Z -> SM S bytes) : plain_source S bytes :=
  mkPS S bytes (fun n c l => map rd (chunk_sizes n c l)) (compress_chunk_str E).
Definition pack_from {S} (rd : Z -> SM S bytes) (announced : Z) (csa : csarg) (m : pyval)
    (oba : option bargs) (obp : option bpargs) (oma : option margs) (s : S) : bytes * res unit :=
  match calculate_nchunks announced csa with
  | Raise e => ([], Raise e)
  | Ok (n, c, l) =>
      let '((_, k), r) := pack (source_from rd) (fp_sink E) n c l m oba obp oma (s, cfs_of (fp_of [])) in
      (fdata (s_fp k), rbind r (fun _ => Ok tt))
  end.
Definition pack_stream (announced : Z) (w : nat -> res bytes) (csa : csarg) (m : pyval)
    (oba : option bargs) (obp : option bpargs) (oma : option margs) : bytes * res unit :=
  pack_from (told w) announced csa m oba obp oma O.

(** [streamed f b m]: an archive, or a pack, and then appends, whose reads answered anything.  A
    successful one adds what it was told; one that failed after it had begun to
    write adds the first answer. *)
Inductive streamed : bytes -> bytes -> pyval -> Prop :=
| sm_archive f b m : archive E f b m -> streamed f b m
| sm_pack a w csa m oba obp oma f got : 0 <= a -> pack_stream a w csa m oba obp oma = (f, Ok tt) ->
    zlen got = F_n f -> Forall2 (fun i x => w i = Ok x) (seq 0 (List.length got)) got -> streamed f (concat got) (norm m)
| sm_append f b m n w oa f' k got : streamed f b m -> 0 <= n -> append_stream f n w oa = (f', Ok k) ->
    zlen got = k + 1 -> Forall2 (fun i x => w i = Ok x) (seq 0 (List.length got)) got -> streamed f' (b ++ concat got) m
| sm_failed f b m n w oa f' e x0 : streamed f b m -> 0 <= n -> append_stream f n w oa = (f', Raise e) ->
    f' <> f -> size f' < 2 ^ 63 -> w O = Ok x0 -> streamed f' (b ++ x0) m.
End WithEnv.
