(** C74: Bloscpack data inside other files; the order in which packing writes. *)
From Verif Require Import Base PyVal Checksums Headers Pretty Args FileIO Append Spec Json Toy Archive Embed EmbedProofs MetaProofs PropsPack PropsAppend.

(** ** Without offsets, packing works at the end of any file: the bytes it writes are
    those it writes to a file of its own, each of them once and in order, and it
    reads exactly the bytes to be packed. *)
Theorem C74_pack_anywhere : forall E, EnvOK E -> forall b cs m oba obp oma f before after log1 d log2,
  pack_bytes_to_bytes E b cs m oba obp oma = Ok f -> bp_offsets (the_bpargs obp) = false ->
  pack_through E (between before (b ++ after) log1) (between d [] log2) (size b) cs m oba obp oma =
    (between (before ++ b) after log1, between (d ++ f) [] (log2 ++ numbered (size d) f), Ok tt).
Proof. exact pack_anywhere. Qed.
Print Assumptions C74_pack_anywhere.

(** ** Unpacking works wherever the data is, reads no byte behind the last chunk and
    stops there: for a freshly packed file, at its end. *)
Theorem C74_unpack_anywhere : forall E, EnvOK E -> forall f b m before after log d log2, archive E f b m ->
  exists tail, unpack_through E (between before (f ++ after) log) (between d [] log2) =
    (between (before ++ sub 0 (size f - size tail) f) (tail ++ after) log, between (d ++ b) [] (log2 ++ numbered (size d) b), Ok m) /\
    f = sub 0 (size f - size tail) f ++ tail.
Proof. exact unpack_anywhere. Qed.
Print Assumptions C74_unpack_anywhere.
Theorem C74_unpack_packed : forall E, EnvOK E -> forall b cs m oba obp oma f before after log d log2,
  pack_bytes_to_bytes E b cs m oba obp oma = Ok f ->
  unpack_through E (between before (f ++ after) log) (between d [] log2) =
    (between (before ++ f) after log, between (d ++ b) [] (log2 ++ numbered (size d) b), Ok (norm m)).
Proof. exact unpack_packed. Qed.
Print Assumptions C74_unpack_packed.

(** ** Packed files can be put one behind the other and read one after the other. *)
Theorem C74_several : forall E, EnvOK E -> forall l,
  Forall (fun x => exists cs m oba obp oma, pack_bytes_to_bytes E (fst (snd x)) cs m oba obp oma = Ok (fst x) /\ snd (snd x) = norm m) l ->
  forall before after log,
  unpack_several E (List.length l) (between before (concat (map fst l) ++ after) log) =
    (map snd l, between (before ++ concat (map fst l)) after log).
Proof. exact unpack_row. Qed.
Print Assumptions C74_several.
(** Without offsets they can be packed straight into one file. *)
Theorem C74_pack_several : forall E, EnvOK E -> forall l oba obp oma, bp_offsets (the_bpargs obp) = false -> forall fs d log,
  Forall2 (fun x f => pack_bytes_to_bytes E (fst (fst x)) (snd (fst x)) (snd x) oba obp oma = Ok f) l fs ->
  pack_several E l oba obp oma (between d [] log) = (between (d ++ concat fs) [] (log ++ numbered (size d) (concat fs)), Ok tt).
Proof. exact pack_row. Qed.
Print Assumptions C74_pack_several.

(** ** With offsets (the default) packing succeeds but spoils what is before: the
    offsets, counted from the start of the whole file, go to the place where the
    table of a file of its own would be; the table of the data itself keeps -1 in
    every entry.  Unpacking, which does not look at the table, still works. *)
Theorem C74_with_offsets : forall E, EnvOK E -> forall b cs m oba obp oma f before after log1 d log2,
  pack_bytes_to_bytes E b cs m oba obp oma = Ok f -> bp_offsets (the_bpargs obp) = true ->
  size d + size f <= 2 ^ 63 - 1 -> F_table f + 8 * F_n f <= size d ->
  exists f' w log',
    pack_through E (between before (b ++ after) log1) (between d [] log2) (size b) cs m oba obp oma =
      (between (before ++ b) after log1,
       mkfp ((sub 0 (F_table f) d ++ w ++ skipn (Z.to_nat (F_table f + 8 * F_n f)) d) ++ f') (F_table f + 8 * F_n f) log', Ok tt) /\
    size w = 8 * F_n f /\ (forall i, 0 <= i < F_n f -> i64 (8 * i) w = size d + F_off f i) /\
    f' = sub 0 (F_table f) f ++ repeat xff (Z.to_nat (8 * F_n f)) ++ skipn (Z.to_nat (F_table f + 8 * F_n f)) f /\
    (forall i, 0 <= i < F_n f -> F_off f' i = -1) /\
    (forall pre post log3 d2 log4, unpack_through E (between pre (f' ++ post) log3) (between d2 [] log4) =
        (between (pre ++ f') post log3, between (d2 ++ b) [] (log4 ++ numbered (size d2) b), Ok (norm m))).
Proof. exact pack_with_offsets. Qed.
Print Assumptions C74_with_offsets.

(** ** The order of the writes of pack_bytes_to_bytes: without offsets from the first
    byte to the last; with offsets, first everything with -1 in the whole table,
    then once more the entries in use, at their place, and nothing else. *)
Theorem C74_order : forall E, EnvOK E -> forall b cs m oba obp oma f, pack_bytes_to_bytes E b cs m oba obp oma = Ok f ->
  flog (s_fp (fst (pack_bytes_core E b cs m oba obp oma))) =
    if has_offsets f
    then numbered 0 (sub 0 (F_table f) f ++ repeat xff (Z.to_nat (8 * F_n f)) ++ skipn (Z.to_nat (F_table f + 8 * F_n f)) f) ++
         numbered (F_table f) (sub (F_table f) (8 * F_n f) f)
    else numbered 0 f.
Proof. exact pack_order. Qed.
Print Assumptions C74_order.

(** A tar-like file: text, an archive without offsets, one with, text. *)
Definition ex_plain : bytes :=
  match pack_bytes_to_bytes toy_env ex_data (CSInt 20) PNone None (Some (mkBPA false "crc32" (MAInt 0))) None with Ok f => f | Raise _ => [] end.
Definition ex_text : bytes := b_of_string "Some text that has nothing to do with Bloscpack, long enough for the table that will be written over it. "
  ++ concat (repeat (b_of_string "And some more of it, and more, and yet more, until the end of the text. ") 8).
Example C74_case :
  pack_bytes_to_bytes toy_env ex_data (CSInt 20) PNone None (Some (mkBPA false "crc32" (MAInt 0))) None = Ok ex_plain /\
  size ex_plain = 138 /\
  snd (fst (pack_through toy_env (between ex_new1 (ex_data ++ ex_new1) []) (between ex_text [] []) 47 (CSInt 20) PNone None
    (Some (mkBPA false "crc32" (MAInt 0))) None)) = between (ex_text ++ ex_plain) [] (numbered (size ex_text) ex_plain) /\
  unpack_several toy_env 2 (between ex_text (ex_plain ++ ex_file ++ ex_text) []) =
    ([(ex_data, PNone); (ex_data, norm ex_meta)], between (ex_text ++ ex_plain ++ ex_file) ex_text []).
Proof. repeat split; vm_compute; reflexivity. Qed.
(** The same with the default arguments: the text is damaged. *)
Definition ex_spoilt : bytes :=
  fdata (snd (fst (pack_through toy_env (fp_of ex_data) (between ex_text [] []) 47 (CSInt 20) ex_meta None (Some ex_bp) None))).
Example C74_case_spoilt :
  pack_bytes_to_bytes toy_env ex_data (CSInt 20) ex_meta None (Some ex_bp) None = Ok ex_file /\ bp_offsets ex_bp = true /\
  F_table ex_file + 8 * F_n ex_file <= size ex_text /\
  snd (pack_through toy_env (fp_of ex_data) (between ex_text [] []) 47 (CSInt 20) ex_meta None (Some ex_bp) None) = Ok tt /\
  sub 0 (size ex_text) ex_spoilt <> ex_text /\ F_off (skipn (List.length ex_text) ex_spoilt) 0 = -1 /\ 0 < F_off ex_file 0.
Proof.
  split; [vm_compute; reflexivity|]. split; [reflexivity|]. split; [vm_compute; discriminate|]. split; [vm_compute; reflexivity|].
  split; [|split; vm_compute; reflexivity].
  intros H. assert (X : bytes_eqb (sub 0 (size ex_text) ex_spoilt) ex_text = false) by (vm_compute; reflexivity).
  rewrite H in X. vm_compute in X. discriminate X.
Qed.
