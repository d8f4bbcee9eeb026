(** Specification for C91: what packing any bytes with any arguments leaves in the
    output, and what it returns or raises, written down from the description of
    the format like C89 and C90.  Nothing here models /repo. *)
From Verif Require Import Base PyVal Checksums Pretty Args FileIO Append Spec Archive CrcSpec FormatSpec ReadSpec ReviseSpec.

(** The number of chunks, their size and the size of the last. *)
Definition chunking (n : Z) (cs : csarg) : res (Z * Z * Z) :=
  if n =? 0 then Ok (1, 0, 0)
  else match (match cs with CSInt z => Ok z | CSStr s => reverse_pretty s | CSOther => Raise TypeError end) with
  | Raise e => Raise e
  | Ok z =>
      let k := (n + z - 1) / z in
      if (z <? 1) || (BUFMAX <? z) then Raise ValueError
      else if 2 ^ 63 <=? k then Raise ChunkingException
      else Ok (k, Z.min z n, n - (k - 1) * z)
  end.

(** The reserve for appending: what is asked for, as far as there can be so many chunks. *)
Definition reserve (off : bool) (m : macarg) (n : Z) : res Z :=
  if negb off then Ok 0
  else match (match m with
              | MAInt v => if 2 ^ 63 <=? v then Raise ValueError else Ok (Some v)
              | MACall g => g n
              | MAOther => Raise TypeError
              end) with
  | Raise e => Raise e
  | Ok None => Raise ValueError
  | Ok (Some v) => if v <? 0 then Raise ValueError else Ok (Z.min v (2 ^ 63 - 1 - n))
  end.

Section Reference.
Variable E : Env.
(** the digest for each checksum code *)
Variable dg : Z -> bytes -> bytes.

(** The metadata section, and the code of the codec in it. *)
Definition first_section (m : pyval) (a : margs) : res (bytes * Z) :=
  let lvl := ma_level a in
  if negb (same (ma_magic a) (b_of_string "JSON")) then Raise KeyError
  else match e_dumps E m with
  | Raise e => Raise e
  | Ok raw =>
      match place (ma_codec a) codec_names with
      | None => Raise KeyError
      | Some co =>
          match packed_text E co lvl raw with
          | Raise e => Raise e
          | Ok (p, co') =>
              match (match ma_max a with MMInt z => Ok z | MMCall g => g (size raw) | MMOther => Raise UnboundLocalError end) with
              | Raise e => Raise e
              | Ok mx =>
                  if mx <? size p then Raise MetadataSectionTooSmall
                  else match place (ma_checksum a) checksum_names with
                  | None => Raise NoSuchChecksum
                  | Some ck =>
                      if (lvl <? 0) || (9 <? lvl) || (2 ^ 32 <=? size raw) || (2 ^ 32 <=? mx) then Raise ValueError
                      else Ok (meta_section ck co' lvl mx raw p (dg ck p), co')
                  end
              end
          end
      end
  end.
(** The metadata arguments afterwards: a codec that was of no use is struck out. *)
Definition with_codec (a : margs) (co : Z) : margs :=
  mkMA (ma_magic a) (ma_checksum a) (nth (Z.to_nat co) codec_names ""%string) (ma_level a) (ma_max a).

(** The pieces compressed and added to [g] with their digests: the file, the starts, the error. *)
Fixpoint lay (ck : Z) (a : bargs) (pieces : list bytes) (g : bytes) : bytes * list Z * option exn :=
  match pieces with
  | [] => (g, [], None)
  | x :: xs =>
      match e_compress E a x with
      | Raise e => (g, [], Some e)
      | Ok z => let r := lay ck a xs (g ++ z ++ dg ck z) in
                (fst (fst r), size g :: snd (fst r), snd r)
      end
  end.

(** n chunks of c bytes each, the last of l bytes, from the bytes there are to read. *)
Definition pieces (n c l : Z) (b : bytes) : list bytes :=
  map (fun i => sub (Z.of_nat i * c) (if Z.of_nat i =? n - 1 then l else c) b) (seq 0 (Z.to_nat n)).

(** The file up to the first chunk: header, metadata section, empty table; then the
    code of the checksum, the place of the table and the metadata arguments. *)
Definition reference_begin (n c l : Z) (m : pyval) (oba : option bargs) (obp : option bpargs) (oma : option margs)
  : bytes * res (Z * Z * option margs) :=
  let ba := match oba with Some a => a | None => mkBA 8 7 true "blosclz" end in
  let bp := match obp with Some a => a | None => mkBPA true "adler32" (MACall (fun n => Ok (Some (10 * n)))) end in
  let ma := match oma with Some a => a | None => mkMA (b_of_string "JSON") "adler32" "zlib" 6 (MMCall (fun n => Ok (10 * n))) end in
  let off := bp_offsets bp in
  let ts := ba_typesize ba in
  match reserve off (bp_max_app bp) n with
  | Raise e => ([], Raise e)
  | Ok r =>
      match place (bp_checksum bp) checksum_names with
      | None => ([], Raise NoSuchChecksum)
      | Some ck =>
          if (ts <? 0) || (255 <? ts) then ([], Raise ValueError)
          else
            let meta := match m with PNone => false | _ => true end in
            let h := head off meta ck ts c l n r in
            match (if meta then match first_section m ma with
                                | Ok (x, co) => Ok (x, Some (with_codec ma co))
                                | Raise e => Raise e
                                end
                   else Ok ([], oma)) with
            | Raise e => (h, Raise e)
            | Ok (sect, args) => (h ++ sect ++ (if off then repeat xff (Z.to_nat (8 * (n + r))) else []), Ok (ck, size (h ++ sect), args))
            end
      end
  end.
(** The whole file; [source] is what there is to be compressed, or why there is nothing. *)
Definition reference_write (n c l : Z) (source : res (list bytes)) (m : pyval) (oba : option bargs) (obp : option bpargs) (oma : option margs)
  : bytes * res (option margs) :=
  let ba := match oba with Some a => a | None => mkBA 8 7 true "blosclz" end in
  let off := match obp with Some a => bp_offsets a | None => true end in
  let r := reference_begin n c l m oba obp oma in
  match snd r, source with
  | Raise e, _ | _, Raise e => (fst r, Raise e)
  | Ok (ck, q, args), Ok xs =>
      let w := lay ck ba xs (fst r) in
      let f := fst (fst w) in
      match snd w with
      | Some e => (f, Raise e)
      | None =>
          if negb off then (f, Ok args)
          else if existsb (fun o => 2 ^ 63 <=? o) (snd (fst w)) then (f, Raise StructError)
          else (overwrite q (concat (map (le 8) (snd (fst w)))) f, Ok args)
      end
  end.
Definition reference_pack (b : bytes) (cs : csarg) (m : pyval) (oba : option bargs) (obp : option bpargs) (oma : option margs)
  : bytes * res (option margs) :=
  match chunking (size b) cs with
  | Raise e => ([], Raise e)
  | Ok (n, c, l) => reference_write n c l (Ok (pieces n c l b)) m oba obp oma
  end.
End Reference.
