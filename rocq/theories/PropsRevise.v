(** C90: what appending to, and rewriting the metadata of, any byte string does. *)
From Verif Require Import Base PyVal Checksums Headers Args FileIO Append Spec Archive CrcSpec FormatSpec EqSpec ReadSpec ReadProofs ReviseSpec ReviseProofs Json Toy
  EqProofs PropsPack PropsAppend PropsExc PropsRead.

(** ** C90.  [reference_rewrite] and [reference_append] say what becomes of the
    byte string f, and what is returned or raised, by the description of the
    format alone and without a file position.  [dg] gives the digests, [eqv]
    decides equality of values as Python does ([alike], C85).

    Rewriting does exactly that, on every byte string. *)
Theorem C90_rewrite : forall E dg, (forall code d, 0 <= code < 9 -> is_digest E code d (dg code d)) ->
  forall eqv, (forall a b, eqv a b = true <-> alike a b) ->
  forall f m ov, rewrite_bytes E f m ov = reference_rewrite E dg eqv f m ov.
Proof. exact rewrite_exact. Qed.
Print Assumptions C90_rewrite.

(** Appending does exactly that, on every byte string: also what is left in the file
    when an exception is raised half way. *)
Theorem C90_append : forall E dg, (forall code d, 0 <= code < 9 -> is_digest E code d (dg code d)) ->
  forall f new oa, append_bytes E f new oa = reference_append E dg f new oa.
Proof. exact (fun E dg HD => append_exact E dg HD pyeq pyeq_alike). Qed.
Print Assumptions C90_append.

(** The specifications themselves, run. *)
Example C90_case_eqv : forall a b, pyeq a b = true <-> alike a b.
Proof. exact pyeq_alike. Qed.
Definition ref_append := reference_append toy_env ref_dg.
Definition ref_rewrite := reference_rewrite toy_env ref_dg pyeq.
Example C90_case_append :
  let r := ref_append ex_file (repeat x41 45) no_obargs in
  snd r = Ok 2 /\ reference toy_env ref_dg (fst r) = (ex_data ++ repeat x41 45, Ok (norm ex_meta)) /\
  let r := ref_append ex_file (repeat x41 5) no_obargs in
  snd r = Ok 0 /\ reference toy_env ref_dg (fst r) = (ex_data ++ repeat x41 5, Ok (norm ex_meta)).
Proof. vm_compute. repeat split. Qed.
Example C90_case_append_faults : map (fun f => snd (ref_append f (repeat x41 60) no_obargs))
  [[]; ex_no_offsets; edit 24 (repeat x00 8) ex_file; edit 8 [x00] ex_file; edit 558 (repeat xff 8) (edit 16 [x01] ex_file);
   edit 558 (repeat x00 7 ++ [x01]) (edit 16 [x01] ex_file); firstn 660 ex_file] =
  map Raise [ValueError; RuntimeError; NotEnoughSpace; ValueError; OSError; IndexError; IndexError].
Proof. vm_compute. reflexivity. Qed.
(** A last chunk that claims to be all but 2^31 bytes long: the new chunk is written
    before the header turns out to be impossible. *)
Example C90_case_half : let f := edit 8 [xef; xff; xff; x7f; xef; xff; xff; x7f] ex_file in
  let r := ref_append f (repeat x41 20) no_obargs in
  snd r = Raise StructError /\ fst r <> f /\ firstn 32 (fst r) = firstn 32 f /\ fst (reference toy_env ref_dg (fst r)) = ex_data ++ repeat x41 20.
Proof. vm_compute. split; [reflexivity|]. split; [discriminate|]. split; reflexivity. Qed.
Example C90_case_rewrite :
  let r := ref_rewrite ex_file ex_meta2 default_overrides in
  snd r = Ok tt /\ fst r <> ex_file /\ reference toy_env ref_dg (fst r) = (ex_data, Ok (norm ex_meta2)) /\
  map (fun f => ref_rewrite f PNone no_overrides)
    [[]; edit 42 [x07] ex_file; edit 32 (b_of_string "YAML") ex_file; edit 64 [x00] ex_file; edit 4 [x02] ex_file; ex_no_offsets] =
  map (fun p => (fst p, Raise (snd p)))
    [([], ValueError); (edit 42 [x07] ex_file, IndexError); (edit 32 (b_of_string "YAML") ex_file, KeyError); (edit 64 [x00] ex_file, ChecksumMismatch);
     (edit 4 [x02] ex_file, FormatVersionMismatch); (ex_no_offsets, NoMetadataFound)] /\
  snd (ref_rewrite ex_file (norm ex_meta) no_overrides) = Raise NoChangeInMetadata /\
  snd (ref_rewrite ex_file (PStr (repeat 65 600)) no_overrides) = Raise MetadataSectionTooSmall /\
  map (fun ov => snd (ref_rewrite ex_file PNone ov))
    [mkOv (Some (b_of_string "YAML")) None None None; mkOv None (Some "md4"%string) None None;
     mkOv None (Some "md5"%string) None None; mkOv None None (Some "lzma"%string) None] =
    map Raise [NoSuchSerializer; NoSuchChecksum; ChecksumLengthMismatch; NoSuchCodec].
Proof. split; [vm_compute; reflexivity|]. split; [vm_compute; discriminate|]. vm_compute. repeat split. Qed.
