(** Specification for C89: a reader of its own, written down from the description of
    the format.  It knows no file object and no position that moves: every field is
    looked up where it is in the whole byte string, and every way to fail is spelled
    out.  Nothing here models /repo. *)
From Verif Require Import Base PyVal Checksums Args FileIO Spec Archive FormatSpec.

Definition same (x y : bytes) : bool := if list_eq_dec Byte.byte_eq_dec x y then true else false.

Section Reference.
Variable E : Env.
(** the digest for each checksum code *)
Variable dg : Z -> bytes -> bytes.
Variable f : bytes.

(** The header: [None] if it is fine. *)
Definition header_fault : option exn :=
  let c := F_chunk f in let l := F_last f in let n := F_n f in let r := F_max f in
  if size f <? 32 then Some ValueError
  else if negb (same (sub 0 4 f) (b_of_string "blpk")) then Some ValueError
  else if 4 <=? u8 5 f then Some ValueError
  else if 9 <=? u8 6 f then Some IndexError
  else if (c <? -1) || (BUFMAX <? c) || (l <? -1) || (BUFMAX <? l) then Some ValueError
  else if (n <? -1) || (r <? 0) || ((n =? -1) && (0 <? r)) || (2 ^ 63 <=? n + r) then Some ValueError
  else if (0 <=? c) && (c <? l) then Some ValueError
  else if negb (F_version f =? 3) then Some FormatVersionMismatch
  else None.

(** Any amount of NULs around, eight bytes altogether. *)
Definition is_json (x : bytes) : bool :=
  existsb (fun i => same x (repeat x00 i ++ b_of_string "JSON" ++ repeat x00 (4 - i))) [0; 1; 2; 3; 4]%nat.

(** The metadata and where they end.  The recorded size may reach beyond the end of
    the file; the space after them is then counted from there. *)
Definition metadata_at_32 : res (pyval * Z) :=
  let payload := sub 64 (u32 52 f) f in
  let p := 64 + size payload + (u32 48 f - u32 52 f) in
  let p0 := Z.max 0 p in
  let stored := sub p0 (digest_len (u8 41 f)) f in
  if size f <? 64 then Raise ValueError
  else if (9 <=? u8 41 f) || (2 <=? u8 42 f) then Raise IndexError
  else if 9 <? u8 43 f then Raise ValueError
  else if (p <? 0) && negb (e_mem E) then Raise OSError
  else if (0 <? u8 41 f) && negb (same stored (dg (u8 41 f) payload)) then Raise ChecksumMismatch
  else
    match (if u8 42 f =? 0 then Ok payload else e_zdecompress E payload) with
    | Raise e => Raise e
    | Ok text => if is_json (sub 32 8 f)
                 then match e_loads E text with Raise e => Raise e | Ok m => Ok (m, p0 + size stored) end
                 else Raise KeyError
    end.
Definition metadata_part : res (pyval * Z) := if has_meta f then metadata_at_32 else Ok (PNone, 32).

(** The end of the offset table that starts at q.  What is in it does not matter. *)
Definition table_end (q : Z) : res Z :=
  let left := Z.max 0 (size f - q) in
  let t := 8 * (F_n f + F_max f) in
  if negb (has_offsets f) then Ok q
  else if F_n f <? 0 then Raise TypeError
  else if (2 ^ 63 <=? t) && (left <? t) then Raise OverflowError
  else if left <? 8 * F_n f then Raise StructError
  else Ok (q + Z.min t left).

(** n chunks from q on: what comes out, and the error if there is one.  Of a digest
    cut off by the end of the file nothing is left to compare with when the
    file ends with the compressed bytes. *)
Fixpoint chunks_from (n : nat) (q : Z) : bytes * option exn :=
  match n with
  | O => ([], None)
  | S k =>
      let left := size f - q in
      let c := sub q (u32 (q + 12) f) f in
      let d := sub (q + size c) (F_digest f) f in
      if left <? 4 then ([], Some IndexError)
      else if left <? 16 then ([], Some StructError)
      else if (0 <? size d) && negb (same d (dg (u8 6 f) c)) then ([], Some ChecksumMismatch)
      else match e_decompress E c with
           | Raise e => ([], Some e)
           | Ok x => let r := chunks_from k (q + size c + size d) in (x ++ fst r, snd r)
           end
  end.

(** The whole file: the bytes delivered, and the metadata or the error. *)
Definition reference : bytes * res pyval :=
  match header_fault with
  | Some e => ([], Raise e)
  | None =>
      match metadata_part with
      | Raise e => ([], Raise e)
      | Ok (m, q) =>
          match table_end q with
          | Raise e => ([], Raise e)
          | Ok q' => let r := chunks_from (Z.to_nat (F_n f)) q' in
                     (fst r, match snd r with Some e => Raise e | None => Ok m end)
          end
      end
  end.
End Reference.
