(** Model of the file-name level of bloscpack/file_io.py and append.py. *)
From Verif Require Import Base PyVal Checksums Headers Args FileIO Append.

(** The regular files, by path.  Simplifications: no directories, links or
    permissions; every non-empty path can be created. *)
Notation path := string (only parsing).
Definition fs := path -> option bytes.
Definition fs_set (s : fs) (p : path) (d : bytes) : fs :=
  fun q => if String.eqb q p then Some d else s q.
(** os.path.exists. *)
Definition fs_exists (s : fs) (p : path) : bool :=
  match s p with Some _ => true | None => false end.
(** os.path.getsize. *)
Definition getsize (p : path) : SM fs Z :=
  fun s => (s, match s p with Some d => Ok (zlen d) | None => Raise OSError end).
(** open(p, 'rb') or open(p, 'r+b'), giving the contents. *)
Definition open_rb (p : path) : SM fs bytes :=
  fun s => (s, match s p with Some d => Ok d | None => Raise OSError end).
(** open(p, 'wb'): truncates. *)
Definition open_wb (p : path) : SM fs unit :=
  fun s => if String.eqb p "" then (s, Raise OSError) else (fs_set s p [], Ok tt).

Section WithEnv.
Variable E : Env.

(** What other processes do to the files between two steps. *)
Definition meanwhile (meddle : fs -> fs) : SM fs unit := fun s => (meddle s, Ok tt).

(** pack_file_to_file (file_io.py:420-470), with [meddle] happening after the
    size of the input was taken and before the files are opened; the value is
    the metadata argument object as left by the call.  When both names are
    equal the input object reads the file just truncated.  (Simplification: the
    output's buffer reaches the disk when the file is closed; this matters only
    when both names are equal.)  The ratio logged at the end divides by the
    output size. *)
Definition pack_file_racing (meddle : fs -> fs) (in_file out_file : path) (cs : csarg) (m : pyval)
    (oba : option bargs) (obp : option bpargs) (oma : option margs) : SM fs (option margs) :=
  in_size <- getsize in_file ;;
  ncl <- lift (calculate_nchunks in_size cs) ;;
  let '(n, c, l) := ncl in
  meanwhile meddle ;;;
  data <- open_rb in_file ;;
  open_wb out_file ;;;
  let seen := if String.eqb in_file out_file then [] else data in
  r <- (fun s => let '((_, k), r) := pack (fp_source E) (fp_sink E) n c l m oba obp oma
                                          (fp_of seen, cfs_of (fp_of [])) in
                 (fs_set s out_file (fdata (s_fp k)), r)) ;;
  out_size <- getsize out_file ;;
  if out_size =? 0 then raise ZeroDivisionError else ret r.
Definition pack_file_to_file := pack_file_racing (fun s => s).

(** unpack_file_from_file (file_io.py:478-511). *)
Definition unpack_file_from_file (in_file out_file : path) : SM fs pyval :=
  in_size <- getsize in_file ;;
  data <- open_rb in_file ;;
  open_wb out_file ;;;
  let seen := if String.eqb in_file out_file then [] else data in
  m <- (fun s => let '(out, r) := unpack_core E seen in (fs_set s out_file out, r)) ;;
  getsize out_file ;;;
  if in_size =? 0 then raise ZeroDivisionError else ret m.

(** pack_bytes_to_file (file_io.py:519-565). *)
Definition pack_bytes_to_file (b : bytes) (out_file : path) (cs : csarg) (m : pyval)
    (oba : option bargs) (obp : option bpargs) (oma : option margs) : SM fs (option margs) :=
  ncl <- lift (calculate_nchunks (zlen b) cs) ;;
  let '(n, c, l) := ncl in
  open_wb out_file ;;;
  r <- (fun s => let '((_, k), r) := pack (fp_source E) (fp_sink E) n c l m oba obp oma
                                          (fp_of b, cfs_of (fp_of [])) in
                 (fs_set s out_file (fdata (s_fp k)), r)) ;;
  out_size <- getsize out_file ;;
  if out_size =? 0 then raise ZeroDivisionError else ret r.

(** unpack_bytes_from_file (file_io.py:573-602). *)
Definition unpack_bytes_from_file (p : path) : SM fs (bytes * pyval) :=
  d <- open_rb p ;; lift (unpack_bytes_from_bytes E d).

(** append (append.py:194-223) for two different files; the ratio logged at the
    end divides by the size of the new file. *)
Definition append_file (orig new : path) (oa : obargs) : SM fs unit :=
  getsize orig ;;;
  new_size <- getsize new ;;
  d <- open_rb orig ;;
  x <- open_rb new ;;
  (fun s => let r := append_fp E new_size oa (fp_of x, fp_of d) in
            (fs_set s orig (fdata (snd (fst r))), snd r)) ;;;
  getsize orig ;;;
  if new_size =? 0 then raise ZeroDivisionError else ret tt.

(** A source whose successive reads return whatever the list says (at most as
    many bytes as asked for): an input file that is being changed while it is
    packed. *)
Definition stream_read (n : Z) : SM (list bytes) bytes :=
  fun l => match l with [] => ([], Ok []) | x :: r => (r, Ok (ztake n x)) end.
Definition stream_source : plain_source (list bytes) bytes :=
  mkPS (list bytes) bytes (fun n c l => map stream_read (chunk_sizes n c l)) (compress_chunk_str E).
(** What pack_file_to_file (file_io.py:449-466) leaves in its output when the
    size taken first was [in_size] and the reads returned [reads]. *)
Definition pack_stream (in_size : Z) (reads : list bytes) (cs : csarg) (m : pyval)
    (oba : option bargs) (obp : option bpargs) (oma : option margs) : res bytes :=
  ncl <~ calculate_nchunks in_size cs ;;
  let '(n, c, l) := ncl in
  let '((_, k), r) := pack stream_source (fp_sink E) n c l m oba obp oma (reads, cfs_of (fp_of [])) in
  _ <~ r ;; Ok (fdata (s_fp k)).

End WithEnv.
