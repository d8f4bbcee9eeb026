(** Specification for C96: what is said of each chunk at the verbosity DEBUG, from the pieces
    that are packed and from the places in the file.  Nothing here models /repo. *)
From Verif Require Import Base PyVal Checksums Pretty Args FileIO Append Objects Log Spec Archive FormatSpec ReadSpec ReviseSpec WriteSpec.

Section Reference.
Variable E : Env.
(** the digest for each checksum code *)
Variable dg : Z -> bytes -> bytes.

Definition chunk_no (i n : Z) : text := t_ "'" ++ int_text i ++ t_ "'" ++ (if i + 1 =? n then t_ " (last)" else []).
Definition from_to (a b : Z) : text := t_ "chunk handled, in: " ++ double_pretty_size a ++ t_ " out: " ++ double_pretty_size b.
Definition named (code : Z) (d : bytes) : text :=
  t_ "(" ++ t_ (nth (Z.to_nat code) checksum_names ""%string) ++ t_ "): " ++ oval_repr (OBytes d).

(** Packing: for every piece a size to show and what compressing it gives. *)
Fixpoint pack_story (code n i : Z) (l : list (Z * res bytes)) : list text :=
  match l with
  | [] => []
  | (w, r) :: t =>
      (t_ "Handle chunk " ++ chunk_no i n) ::
      match r with
      | Raise _ => []
      | Ok z => (if code =? 0 then t_ "no checksum" else t_ "checksum " ++ named code (dg code z)) ::
                from_to w (size z) :: pack_story code n (i + 1) t
      end
  end.
(** The pieces of b with their own sizes; nothing is said if it does not come to that. *)
Definition told_packing (show : bytes -> Z) (n c l : Z) (source : res (list bytes)) (m : pyval)
    (oba : option bargs) (obp : option bpargs) (oma : option margs) : list text :=
  let ba := match oba with Some a => a | None => mkBA 8 7 true "blosclz" end in
  match snd (reference_begin E dg n c l m oba obp oma), source with
  | Ok (code, _, _), Ok xs => pack_story code n 0 (map (fun x => (show x, e_compress E ba x)) xs)
  | _, _ => []
  end.

(** Unpacking: n chunks of a file, the first of them number i, from q on. *)
Definition blosc_fields (q : Z) (f : bytes) : text :=
  t_ "blosc_header: OrderedDict([('version', " ++ int_text (u8 q f) ++ t_ "), ('versionlz', " ++ int_text (u8 (q + 1) f) ++
  t_ "), ('flags', " ++ int_text (u8 (q + 2) f) ++ t_ "), ('typesize', " ++ int_text (u8 (q + 3) f) ++
  t_ "), ('nbytes', " ++ int_text (u32 (q + 4) f) ++ t_ "), ('blocksize', " ++ int_text (u32 (q + 8) f) ++
  t_ "), ('ctbytes', " ++ int_text (u32 (q + 12) f) ++ t_ ")])".
Fixpoint unpack_story (f : bytes) (n : nat) (i q : Z) : list text :=
  match n with
  | O => []
  | S k =>
      let c := sub q (u32 (q + 12) f) f in
      let d := sub (q + size c) (F_digest f) f in
      if size f - q <? 16 then []
      else blosc_fields q f :: (t_ "decompressing chunk " ++ chunk_no i (F_n f)) ::
        (if (0 <? size d) && negb (same d (dg (u8 6 f) c)) then []
         else (if 0 <? size d then [t_ "checksum OK " ++ named (u8 6 f) d] else []) ++
              match e_decompress E c with
              | Raise _ => []
              | Ok x => from_to (size c) (size x) :: unpack_story f k (i + 1) (q + size c + size d)
              end)
  end.
Definition told_unpacking (f : bytes) : list text :=
  match header_fault f with
  | Some _ => []
  | None =>
      match metadata_part E dg f with
      | Raise _ => []
      | Ok (_, q) => match table_end f q with
                     | Raise _ => []
                     | Ok q' => unpack_story f (Z.to_nat (F_n f)) 0 q'
                     end
      end
  end.

(** Appending: of the last chunk, which is filled up, its blosc header; and then the chunks that follow it. *)
Fixpoint append_story (code n i : Z) (l : list (res bytes)) : list text :=
  match l with
  | [] => []
  | r :: t =>
      (t_ "Handle chunk '" ++ int_text i ++ t_ "' " ++ (if i + 1 =? n then t_ "(last)" else [])) ::
      match r with
      | Raise _ => []
      | Ok z => (if code =? 0 then t_ "no checksum" else t_ "checksum " ++ named code (dg code z)) :: append_story code n (i + 1) t
      end
  end.
Definition told_filling (f new : bytes) (oa : obargs) (d : bytes) : list text :=
  let a := blosc_choice f oa in
  let c := F_chunk f in
  let room := c - size d in
  let more := size new - room in
  let k := (more + c - 1) / c in
  if (more <=? 0) || (c <? 1) || (2 ^ 63 <=? k) || (F_max f <? k) then []
  else
    let fill := if room <? 0 then new else sub 0 room new in
    let rest := if room <? 0 then [] else skipn (Z.to_nat room) new in
    match e_compress E a (d ++ fill) with
    | Raise _ => []
    | Ok _ => append_story (u8 6 f) k 0 (map (fun j => e_compress E a (sub (Z.of_nat j * c) c rest)) (seq 0 (Z.to_nat k)))
    end.
Definition told_appending (f new : bytes) (oa : obargs) : list text :=
  match header_fault f with
  | Some _ => []
  | None =>
      match metadata_part E dg f with
      | Raise _ => []
      | Ok (_, q) =>
          match table_end f q with
          | Raise _ => []
          | Ok _ =>
              let last := i64 (q + 8 * (F_n f - 1)) f in
              if negb (has_offsets f) || (F_n f =? 0) || (last <? 0) || (size f - last <? 16) then []
              else blosc_fields last f ::
                   match e_decompress E (sub last (u32 (last + 12) f) f) with
                   | Raise _ => []
                   | Ok d => told_filling f new oa d
                   end
          end
      end
  end.
End Reference.
(** The messages on the screen, each a line of its own, at the verbosity DEBUG only. *)
Definition spoken (l : logst) (ms : list text) : logst :=
  if String.eqb (l_level l) "DEBUG"
  then mkLog (l_level l) (l_prefix l) (l_out l ++ map (fun m => l_prefix l ++ t_ ": " ++ m) ms)
  else l.
