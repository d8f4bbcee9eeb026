(** Specification for C86: the bytes of a Bloscpack file, written down from the
    description of the format (header_rfc, README.rst of the project) with a
    writer of its own.  Nothing here models /repo. *)
From Verif Require Import Base PyVal Checksums Args FileIO Spec CrcSpec.

(** [k] bytes, least significant first: byte i is the i-th digit to base 256; a
    negative number is written as its two's complement. *)
Definition le (k : nat) (z : Z) : bytes := map (fun i => bZ ((z / 256 ^ Z.of_nat i) mod 256)) (seq 0 k).

(** The 32 bytes at the start.  [off] and [meta]: whether an offsets table and
    whether metadata follow; [ck]: the checksum code; [ts], [c], [l], [n], [r]:
    typesize, chunk size, size of the last chunk, number of chunks, reserve. *)
Definition head (off meta : bool) (ck ts c l n r : Z) : bytes :=
  b_of_string "blpk" ++ le 1 3 ++ le 1 ((if off then 1 else 0) + 2 * (if meta then 1 else 0)) ++ le 1 ck ++ le 1 ts ++
  le 4 c ++ le 4 l ++ le 8 n ++ le 8 r.

(** The metadata section: [p] the bytes stored for the text [raw], in [mx] bytes
    of room, [g] its digest; [ck], [co]: codes of checksum and codec. *)
Definition meta_section (ck co lvl mx : Z) (raw p g : bytes) : bytes :=
  b_of_string "JSON" ++ repeat x00 4 ++ le 1 0 ++ le 1 ck ++ le 1 co ++ le 1 lvl ++
  le 4 (size raw) ++ le 4 mx ++ le 4 (size p) ++ repeat x00 8 ++
  p ++ repeat x00 (Z.to_nat (mx - size p)) ++ g.

(** Where consecutive pieces start, the first of them at [p]. *)
Fixpoint starts (p : Z) (l : list bytes) : list Z :=
  match l with [] => [] | x :: r => p :: starts (p + size x) r end.
(** The table: a position for each chunk, then [r] entries of -1. *)
Definition offsets_table (p r : Z) (l : list bytes) : bytes :=
  concat (map (le 8) (starts p l)) ++ repeat xff (Z.to_nat (8 * r)).

(** A whole file: [sect] is the metadata section or nothing, [l] the chunks, each
    with its digest. *)
Definition format (off meta : bool) (ck ts c l n r : Z) (sect : bytes) (chunks : list bytes) : bytes :=
  head off meta ck ts c l n r ++ sect ++
  (if off then offsets_table (32 + size sect + 8 * (n + r)) r chunks else []) ++ concat chunks.

(** [g] is the digest of [d] for the checksum of a code. *)
Definition is_digest (E : Env) (code : Z) (d g : bytes) : Prop :=
  match code with
  | 0 => g = []
  | 1 => g = le 4 (adler_spec d)
  | 2 => exists r v, crc_remainder (crc_dividend d) r /\ 0 <= v < 2 ^ 32 /\
           (forall i, 0 <= i < 32 -> Z.testbit v i = negb (Z.testbit r (31 - i))) /\ g = le 4 v
  | _ => exists ck, nth_error checksum_names (Z.to_nat code) = Some (cks_name ck) /\ g = e_hashlib E ck d
  end.
(** The code of a checksum: its place in the list of the format. *)
Definition code_of (code : Z) (name : string) : Prop := 0 <= code /\ nth_error checksum_names (Z.to_nat code) = Some name.

(** What is stored of [raw]: the text itself, code 0, if no codec is asked for or
    if its compressed form is longer; the compressed form, code 1, otherwise. *)
Definition stored_as (E : Env) (codec : string) (lvl : Z) (raw p : bytes) (co : Z) : Prop :=
  (codec = "None"%string /\ p = raw /\ co = 0) \/
  (codec = "zlib"%string /\ exists z, e_zcompress E raw lvl = Ok z /\
     ((size raw < size z /\ p = raw /\ co = 0) \/ (size z <= size raw /\ p = z /\ co = 1))).

(** The metadata section written for [m]; [mx] the room for a text of a size. *)
Definition section_of (E : Env) (m : pyval) (sum codec : string) (lvl : Z) (room : Z -> Z -> Prop) (sect : bytes) : Prop :=
  exists raw p g ck co mx,
    e_dumps E m = Ok raw /\ stored_as E codec lvl raw p co /\ code_of ck sum /\ is_digest E ck p g /\
    room (size raw) mx /\ size p <= mx /\ sect = meta_section ck co lvl mx raw p g.

(** The chunks written for [b]: pieces of [c] bytes, each compressed and followed
    by its digest. *)
Definition chunks_for (E : Env) (a : bargs) (ck c : Z) (b : bytes) (chunks : list bytes) : Prop :=
  Forall2 (fun x y => exists k g, e_compress E a x = Ok k /\ is_digest E ck k g /\ y = k ++ g) (chunks_of c b) chunks.

(** A metadata section that stands for the value [m], however old: the room that
    is not used may hold anything, and so may the options byte and the size
    recorded for the text. *)
Definition section_holds (E : Env) (m : pyval) (sect : bytes) : Prop :=
  exists opts ck co lvl sz mx p pad g name raw,
    sect = b_of_string "JSON" ++ repeat x00 4 ++ le 1 opts ++ le 1 ck ++ le 1 co ++ le 1 lvl ++
           le 4 sz ++ le 4 mx ++ le 4 (size p) ++ repeat x00 8 ++ p ++ pad ++ g /\
    size pad = mx - size p /\ 0 <= mx < 2 ^ 32 /\ 0 <= lvl <= 9 /\ code_of ck name /\ is_digest E ck p g /\
    ((co = 0 /\ raw = p) \/ (co = 1 /\ e_zdecompress E p = Ok raw)) /\ e_loads E raw = Ok m.
