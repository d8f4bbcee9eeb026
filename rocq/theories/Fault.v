(** The writing operations once more, with their single writes visible, so that a
    write (or anything before it) can fail: I/O errors, and a disk that is full.
    Simplification: what was given to write() before the error is on the disk, in
    order (a buffer that is written out later fails later, but also with a prefix). *)
From Verif Require Import Base PyVal Checksums Headers Args FileIO Append.

(** A program over a source state and one file: steps that do not write, and
    writes.  [play]: no errors. *)
Inductive io (S A : Type) : Type :=
| Done (r : res A)
| Do {X : Type} (m : SM (S * fp) X) (k : X -> io S A)
| Write (x : bytes) (k : io S A).
Arguments Done {S A}.
Arguments Do {S A X}.
Arguments Write {S A}.
Fixpoint play {S A} (p : io S A) : SM (S * fp) A :=
  match p with
  | Done r => lift r
  | Do m k => x <- m ;; play (k x)
  | Write x k => onr (f_write x) ;;; play k
  end.

(** [breaks p st g]: an execution from [st] ended by an error at some step, or in
    the middle of some write, leaves the file [g].  Where the position is then does
    not matter. *)
Fixpoint breaks {S A} (p : io S A) (st : S * fp) (g : bytes) : Prop :=
  match p with
  | Done _ => False
  | Do m k => g = fdata (snd st) \/ exists st' x, m st = (st', Ok x) /\ breaks (k x) st' g
  | Write x k => (exists i, g = fdata (fst (f_write (firstn i x) (snd st)))) \/
                 breaks k (fst st, fst (f_write x (snd st))) g
  end.

(** A disk on which the file cannot become longer than [cap] bytes. *)
Fixpoint play_disk {S A} (cap : Z) (p : io S A) : SM (S * fp) A :=
  match p with
  | Done r => lift r
  | Do m k => x <- m ;; play_disk cap (k x)
  | Write x k => fun st =>
      if (fpos (snd st) + zlen x <=? cap) || (zlen x =? 0) then (onr (f_write x) ;;; play_disk cap k) st
      else (onr (f_write (ztake (Z.max 0 (cap - fpos (snd st))) x)) ;;; raise OSError) st
  end.

(** [match r with Raise e => raise e | Ok x => k x end] *)
Definition Try {S A X} (r : res X) (k : X -> io S A) : io S A :=
  match r with Ok x => k x | Raise e => Done (Raise e) end.

Section WithEnv.
Variable E : Env.
Section Programs.
Context {S : Type}.

(** _write_compressed_chunk (file_io.py:337-340). *)
Definition chunk_io {A} (c dig : bytes) (k : io S A) : io S A :=
  Write c (if 0 <? zlen dig then Write dig k else k).

(** _write_metadata (file_io.py:60-145). *)
Definition metadata_io {A} (m : pyval) (a : margs) (k : Z -> io S A) : io S A :=
  Try (plan_metadata E m a) (fun pl => let '(h, payload, a') := pl in
  Try (mheader_encode h) (fun raw =>
  let total := METADATA_HEADER_LENGTH + mh_comp h + (mh_max h - mh_comp h) + cks_size (mh_checksum h) in
  Write raw (Write payload (Write (zrep (mh_max h - mh_comp h) x00)
    (if cks_eqb (mh_checksum h) CkNone then k total
     else Write (digest E (mh_checksum h) payload) (k total)))))).

(** The loop of pack and of append_fp with CompressedFPSink.put
    (abstract_io.py:156-165, append.py:172-177, file_io.py:411-417). *)
Fixpoint loop_io {A Chunk} (compress : Chunk -> res bytes) (h : header) (i : Z) (steps : list (SM S Chunk)) (storage : list Z)
    (k : list Z -> io S A) : io S A :=
  match steps with
  | [] => k storage
  | st :: rest =>
      Do (onl st) (fun chunk =>
      Try (compress chunk) (fun c =>
      Do (onr f_tell) (fun off =>
      chunk_io c (do_checksum E (h_checksum h) c)
        (if h_offsets h
         then match set_nth (Z.to_nat i) off storage with
              | Some storage' => loop_io compress h (i + 1) rest storage' k
              | None => Done (Raise IndexError)
              end
         else loop_io compress h (i + 1) rest storage k))))
  end.

(** pack (abstract_io.py:108-166) to a CompressedFPSink (file_io.py:384-417). *)
Definition pack_io {Chunk} (src : plain_source S Chunk) (n c l : Z) (m : pyval)
    (oba : option bargs) (obp : option bpargs) (oma : option margs) : io S unit :=
  let ba := match oba with Some a => a | None => default_bargs end in
  let bp := match obp with Some a => a | None => default_bpargs end in
  let ma := match oma with Some a => a | None => default_margs end in
  Try (handle_max_apps (bp_offsets bp) n (bp_max_app bp)) (fun max_app =>
  Try (mk_header FORMAT_VERSION (bp_offsets bp) (negb (is_none m)) (bp_checksum bp) (ba_typesize ba) c l n max_app) (fun h =>
  Try (header_encode h) (fun raw =>
  Write raw (
  let rest := fun total =>
    let body := fun storage =>
      loop_io (ps_compress src ba) h 0 (ps_steps src n c l) storage (fun storage' =>
        if h_offsets h then
          Do (onr (f_seek E (BLOSCPACK_HEADER_LENGTH + total))) (fun _ =>
          Try (encode_offsets storage') (fun b => Write b (Done (Ok tt))))
        else Done (Ok tt)) in
    if h_offsets h then
      match total_prospective_chunks h with
      | None => Done (Raise TypeError)
      | Some t => Write (concat (zrep t minus1)) (body (zrep (h_nchunks h) (-1)))
      end
    else body [] in
  if is_none m then rest 0 else metadata_io m ma rest)))).

(** append_fp (append.py:62-191), the new contents read by [rd]. *)
Definition append_io (rd : Z -> SM S bytes) (new_size : Z) (o : obargs) : io S Z :=
  Do (onr (read_beginning E)) (fun bg =>
  let h := b_header bg in
  let ck := h_checksum h in
  match b_offsets bg with
  | [] => Done (Raise RuntimeError)
  | o0 :: os =>
    let offs := o0 :: os in
    let last_off := List.last offs 0 in
    Try (fill_blosc_args o h) (fun ba =>
    Do (onr (f_seek E last_off)) (fun _ =>
    Do (onr (read_compressed_chunk E ck)) (fun r =>
    Try (e_decompress E (fst (fst r))) (fun decompressed =>
    let to_read := h_chunk_size h - zlen decompressed in
    if new_size <=? to_read then
      Do (onl (rd new_size)) (fun fill_up =>
      Do (onr (f_seek E last_off)) (fun _ =>
      Try (compress_chunk_str E ba (decompressed ++ fill_up)) (fun c =>
      chunk_io c (digest E ck c) (
      Try (header_encode (set_counts h (h_last_chunk h + new_size) (h_nchunks h) (h_max_app h))) (fun raw =>
      Do (onr (f_seek E 0)) (fun _ => Write raw (Done (Ok 0))))))))
    else
      Do (onl (rd to_read)) (fun fill_up =>
      Try (calculate_nchunks (new_size - to_read) (CSInt (h_chunk_size h))) (fun ncl =>
      let '(nchunks, chunk_size, last_chunk) := ncl in
      if h_max_app h <? nchunks then Done (Raise NotEnoughSpace)
      else
        Do (onr (f_seek E last_off)) (fun _ =>
        Try (compress_chunk_str E ba (decompressed ++ fill_up)) (fun c =>
        chunk_io c (digest E ck c) (
        loop_io (compress_chunk_str E ba) h 0 (map rd (chunk_sizes nchunks chunk_size last_chunk)) (zrep nchunks (-1)) (fun storage =>
        Try (header_encode (set_counts h last_chunk (h_nchunks h + nchunks) (h_max_app h - nchunks))) (fun raw =>
        Do (onr (f_seek E 0)) (fun _ =>
        Write raw (
        Do (onr (f_seek E (offsets_pos bg))) (fun _ =>
        Try (encode_offsets (offs ++ storage)) (fun b => Write b (Done (Ok nchunks)))))))))))))))))
  end).

(** _seek_to_metadata, _rewrite_metadata_fp (append.py:226-281). *)
Definition rewrite_io (m : pyval) (ov : overrides) : io S unit :=
  Do (onr seek_to_metadata) (fun _ =>
  Do (onr f_tell) (fun pos =>
  Do (onr (read_metadata E)) (fun r =>
  let '(old, oldh) := r in
  if pyeq old m then Done (Raise NoChangeInMetadata)
  else
    Try (recreate_metadata oldh ov) (fun a =>
    Do (onr (f_seek E pos)) (fun _ => metadata_io m a (fun _ => Done (Ok tt))))))).
End Programs.

(** unpack (abstract_io.py:169-196) with a CompressedFPSource and a PlainFPSink
    (file_io.py:356-381): the state is the pair of input and output. *)
Fixpoint unpack_loop_io {A} (ck : cks) (n : nat) (k : io fp A) : io fp A :=
  match n with
  | O => k
  | Datatypes.S n' =>
      Do (onl (fp_next E ck)) (fun cd =>
      Try (if truthy (snd cd) then
             if bytes_eqb (match snd cd with Some d => d | None => [] end) (digest E ck (fst cd))
             then Ok tt else Raise ChecksumMismatch
           else Ok tt) (fun _ =>
      Try (e_decompress E (fst cd)) (fun d => Write d (unpack_loop_io ck n' k))))
  end.
Definition unpack_io : io fp pyval :=
  Do (onl (read_beginning E)) (fun bg =>
  unpack_loop_io (h_checksum (b_header bg)) (Z.to_nat (h_nchunks (b_header bg))) (Done (Ok (b_meta bg)))).

(** ** What an error leaves in the file that is written *)
(** pack_bytes_to_file, pack_file_to_file (file_io.py:420-471, 518-565) *)
Definition broken_pack (b : bytes) (csa : csarg) (m : pyval) (oba : option bargs) (obp : option bpargs) (oma : option margs) (g : bytes) : Prop :=
  exists n c l, calculate_nchunks (zlen b) csa = Ok (n, c, l) /\
    breaks (pack_io (fp_source E) n c l m oba obp oma) (fp_of b, fp_of []) g.
Definition broken_append (f new : bytes) (oa : obargs) (g : bytes) : Prop :=
  breaks (append_io f_read (zlen new) oa) (fp_of new, fp_of f) g.
Definition broken_rewrite (f : bytes) (m : pyval) (ov : overrides) (g : bytes) : Prop :=
  breaks (@rewrite_io unit m ov) (tt, fp_of f) g.
Definition broken_unpack (f g : bytes) : Prop :=
  breaks unpack_io (fp_of f, fp_of []) g.

(** ** On a disk with room for [cap] bytes of the file *)
Definition pack_on_disk (cap : Z) (b : bytes) (csa : csarg) (m : pyval) (oba : option bargs) (obp : option bpargs) (oma : option margs) : bytes * res unit :=
  match calculate_nchunks (zlen b) csa with
  | Raise e => ([], Raise e)
  | Ok (n, c, l) => let r := play_disk cap (pack_io (fp_source E) n c l m oba obp oma) (fp_of b, fp_of []) in (fdata (snd (fst r)), snd r)
  end.
Definition append_on_disk (cap : Z) (f new : bytes) (oa : obargs) : bytes * res Z :=
  let r := play_disk cap (append_io f_read (zlen new) oa) (fp_of new, fp_of f) in (fdata (snd (fst r)), snd r).
Definition rewrite_on_disk (cap : Z) (f : bytes) (m : pyval) (ov : overrides) : bytes * res unit :=
  let r := play_disk cap (@rewrite_io unit m ov) (tt, fp_of f) in (fdata (snd (fst r)), snd r).
Definition unpack_on_disk (cap : Z) (f : bytes) : bytes * res pyval :=
  let r := play_disk cap unpack_io (fp_of f, fp_of []) in (fdata (snd (fst r)), snd r).
End WithEnv.
