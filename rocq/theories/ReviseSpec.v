(** Specification for C90: what appending to, and rewriting the metadata of, any
    byte string does to it, written down from the description of the format and
    without a file position, like the reader of C89.  Nothing here models /repo. *)
From Verif Require Import Base PyVal Checksums Args FileIO Append Spec Archive CrcSpec FormatSpec ReadSpec.

(** x written over f from p on; before p, if f is shorter, NULs. *)
Definition overwrite (p : Z) (x f : bytes) : bytes :=
  match x with
  | [] => f
  | _ => sub 0 p f ++ repeat x00 (Z.to_nat (p - size f)) ++ x ++ skipn (Z.to_nat (p + size x)) f
  end.

(** The place of a name in a list. *)
Fixpoint place (s : string) (l : list string) : option Z :=
  match l with
  | [] => None
  | x :: r => if String.eqb s x then Some 0 else option_map Z.succ (place s r)
  end.
(** The code of what is asked for, or else the old code. *)
Definition choice (o : option string) (l : list string) (old : Z) : option Z :=
  match o with None => Some old | Some s => place s l end.

Section Reference.
Variable E : Env.
(** the digest for each checksum code *)
Variable dg : Z -> bytes -> bytes.
(** whether two values are equal *)
Variable eqv : pyval -> pyval -> bool.
Variable f : bytes.

(** The text as it is stored, with the code of the codec. *)
Definition packed_text (co lvl : Z) (raw : bytes) : res (bytes * Z) :=
  if co =? 0 then Ok (raw, 0)
  else match e_zcompress E raw lvl with
       | Raise e => Raise e
       | Ok z => Ok (if size raw <? size z then (raw, 0) else (z, 1))
       end.

(** The new metadata section: checksum, codec and level are the old ones unless
    others are asked for; the room is the old one. *)
Definition new_section (m : pyval) (ov : overrides) : res bytes :=
  let lvl := match ov_level ov with Some l => l | None => u8 43 f end in
  if match ov_magic ov with Some x => negb (same x (b_of_string "JSON")) | None => false end then Raise NoSuchSerializer
  else match choice (ov_checksum ov) checksum_names (u8 41 f) with
  | None => Raise NoSuchChecksum
  | Some ck =>
      if negb (digest_len ck =? digest_len (u8 41 f)) then Raise ChecksumLengthMismatch
      else match choice (ov_codec ov) codec_names (u8 42 f) with
      | None => Raise NoSuchCodec
      | Some co =>
          if (lvl <? 0) || (9 <? lvl) then Raise ValueError
          else match e_dumps E m with
          | Raise e => Raise e
          | Ok raw =>
              match packed_text co lvl raw with
              | Raise e => Raise e
              | Ok (p, co') =>
                  if u32 48 f <? size p then Raise MetadataSectionTooSmall
                  else if 2 ^ 32 <=? size raw then Raise ValueError
                  else Ok (meta_section ck co' lvl (u32 48 f) raw p (dg ck p))
              end
          end
      end
  end.

Definition reference_rewrite (m : pyval) (ov : overrides) : bytes * res unit :=
  match header_fault f with
  | Some e => (f, Raise e)
  | None =>
      if negb (has_meta f) then (f, Raise NoMetadataFound)
      else match metadata_at_32 E dg f with
      | Raise e => (f, Raise e)
      | Ok (old, _) =>
          if eqv old m then (f, Raise NoChangeInMetadata)
          else match new_section m ov with
          | Raise e => (f, Raise e)
          | Ok x => (overwrite 32 x f, Ok tt)
          end
      end
  end.

(** The header with new counts. *)
Definition new_head (l n r : Z) : bytes :=
  head (has_offsets f) (has_meta f) (u8 6 f) (u8 7 f) (F_chunk f) l n r.
Definition with_digest (z : bytes) : bytes := z ++ dg (u8 6 f) z.

(** Pieces of the size of a chunk of [rest], from the i-th on, compressed and
    written to [g] one after the other from [p] on: the file, the starts, the error. *)
Fixpoint put_chunks (a : bargs) (rest : bytes) (n : nat) (i p : Z) (g : bytes) : bytes * list Z * option exn :=
  match n with
  | O => (g, [], None)
  | S k =>
      match e_compress E a (sub (i * F_chunk f) (F_chunk f) rest) with
      | Raise e => (g, [], Some e)
      | Ok z => let y := with_digest z in
                let r := put_chunks a rest k (i + 1) (p + size y) (overwrite p y g) in
                (fst (fst r), p :: snd (fst r), snd r)
      end
  end.

(** The arguments for blosc: what is not given is the typesize of the file, and the defaults. *)
Definition blosc_choice (oa : obargs) : bargs :=
  mkBA (match oa_typesize oa with Some t => t | None => u8 7 f end)
       (match oa_clevel oa with Some l => l | None => 7 end)
       (match oa_shuffle oa with Some s => s | None => true end)
       (match oa_cname oa with Some c => c | None => "blosclz"%string end).

(** [d], the contents of the last chunk, which starts at [last]; [q] and [m]: the
    offset table and the metadata.  If all fits in the last chunk it is written
    again, and the header.  If not, it is filled up, more chunks
    follow, and then the header and the table. *)
Definition append_here (new : bytes) (oa : obargs) (m : pyval) (q last : Z) (d : bytes) : bytes * res Z :=
  let a := blosc_choice oa in
  let c := F_chunk f in
  let room := c - size d in
  let more := size new - room in
  let k := (more + c - 1) / c in
  if more <=? 0 then
    match e_compress E a (d ++ new) with
    | Raise e => (f, Raise e)
    | Ok z =>
        let g := overwrite last (with_digest z) f in
        if 2 ^ 31 <=? F_last f + size new then (g, Raise StructError)
        else (overwrite 0 (new_head (F_last f + size new) (F_n f) (F_max f)) g, Ok 0)
    end
  else if (c <? 1) then (f, Raise ValueError)
  else if 2 ^ 63 <=? k then (f, Raise ChunkingException)
  else if F_max f <? k then (f, Raise NotEnoughSpace)
  else
    let fill := if room <? 0 then new else sub 0 room new in
    let rest := if room <? 0 then [] else skipn (Z.to_nat room) new in
    match e_compress E a (d ++ fill) with
    | Raise e => (f, Raise e)
    | Ok z =>
        let y := with_digest z in
        let r := put_chunks a rest (Z.to_nat k) 0 (last + size y) (overwrite last y f) in
        match snd r with
        | Some e => (fst (fst r), Raise e)
        | None =>
            let g := overwrite 0 (new_head (more - (k - 1) * c) (F_n f + k) (F_max f - k)) (fst (fst r)) in
            let table := match m with PNone => 32 | _ => 64 + u32 48 f + digest_len (u8 41 f) end in
            if existsb (fun o => 2 ^ 63 <=? o) (snd (fst r)) then (g, Raise StructError)
            else (overwrite table (sub q (8 * F_n f) f ++ concat (map (le 8) (snd (fst r)))) g, Ok k)
        end
    end.

Definition reference_append (new : bytes) (oa : obargs) : bytes * res Z :=
  match header_fault f with
  | Some e => (f, Raise e)
  | None =>
      match metadata_part E dg f with
      | Raise e => (f, Raise e)
      | Ok (m, q) =>
          match table_end f q with
          | Raise e => (f, Raise e)
          | Ok _ =>
              let last := i64 (q + 8 * (F_n f - 1)) f in
              let left := size f - last in
              if negb (has_offsets f) || (F_n f =? 0) then (f, Raise RuntimeError)
              else if last <? 0 then (f, Raise (if e_mem E then ValueError else OSError))
              else if left <? 4 then (f, Raise IndexError)
              else if left <? 16 then (f, Raise StructError)
              else match e_decompress E (sub last (u32 (last + 12) f) f) with
              | Raise e => (f, Raise e)
              | Ok d => append_here new oa m q last d
              end
          end
      end
  end.
End Reference.
