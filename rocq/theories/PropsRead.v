(** C89: an independent reader, and what unpacking any byte string does. *)
From Verif Require Import Base PyVal Checksums Headers Args FileIO Append Spec Archive CrcSpec FormatSpec ReadSpec ReadProofs Json Toy
  PropsPack PropsExc.

(** ** C89.  [reference E dg f] reads the byte string f by the description of the
    format alone: every field where it stands, every fault in the order in which
    they are noticed.  [dg] gives the digests of the nine checksums.

    Unpacking does exactly that, on every byte string: the same bytes are delivered
    before any fault, with the same metadata or the same exception. *)
Theorem C89_reader : forall E dg, (forall code d, 0 <= code < 9 -> is_digest E code d (dg code d)) ->
  forall f, unpack_core E f = reference E dg f.
Proof. exact reader_exact. Qed.
Print Assumptions C89_reader.
(** The digests exist, and there is only one choice. *)
Theorem C89_digests : forall E, exists dg, forall code d, 0 <= code < 9 ->
  is_digest E code d (dg code d) /\ forall g, is_digest E code d g -> g = dg code d.
Proof. exact digests_unique. Qed.
Print Assumptions C89_digests.

(** The reader itself, run: an undamaged file, and one with each kind of fault. *)
Definition ref_dg : Z -> bytes -> bytes := the_digest toy_env.
Example C89_case_digests : forall code d, 0 <= code < 9 -> is_digest toy_env code d (ref_dg code d).
Proof. exact (the_digest_is toy_env). Qed.
Example C89_case_file : reference toy_env ref_dg ex_file = (ex_data, Ok (norm ex_meta)) /\
  reference toy_env ref_dg ex_no_offsets = (ex_data, Ok PNone).
Proof. vm_compute. split; reflexivity. Qed.
Example C89_case_faults : map (fun f => snd (reference toy_env ref_dg f))
  [firstn 20 ex_file; edit 6 [x09] ex_file; firstn 684 ex_file; edit 16 (repeat xff 8 ++ repeat x00 8) ex_file;
   edit 32 (b_of_string "YAML") ex_file; edit 700 [x00] ex_file; edit 4 [x02] ex_file;
   edit 48 (repeat x00 4 ++ [xe8; x03; x00; x00]) ex_file; edit 16 (repeat x00 7 ++ [x10]) ex_file; firstn 660 ex_file]
  = map Raise [ValueError; IndexError; StructError; TypeError; KeyError; ChecksumMismatch; FormatVersionMismatch; OSError; OverflowError; BloscError] /\
  fst (reference toy_env ref_dg (edit 700 [x00] ex_file)) = firstn 40 ex_data.
Proof. vm_compute. split; reflexivity. Qed.
(** Of the digest of the last chunk nothing is missed when the file ends before it. *)
Example C89_case_no_digest : reference toy_env ref_dg (firstn 700 ex_file) = (ex_data, Ok (norm ex_meta)) /\
  snd (reference toy_env ref_dg (firstn 701 ex_file)) = Raise ChecksumMismatch.
Proof. vm_compute. split; reflexivity. Qed.
