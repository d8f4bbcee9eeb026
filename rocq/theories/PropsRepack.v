(** C66: which arguments chunks are made with; appending is packing again. *)
From Verif Require Import Base PyVal Checksums Headers Pretty Args FileIO Append Spec Json Toy MetaProofs Archive Damage Unprotected Repack RepackProofs
  PropsPack PropsAppend.

(** ** C66: a successful append leaves all chunks but the last one as they are, and
    each of the others is the output of Blosc for its part of the contents, with
    the arguments given and, where none is given, the type size in the header and
    the defaults, followed by its digest. *)
Theorem C66_append_chunks : forall E, EnvOK E -> forall f b m new oa f' k,
  archive E f b m -> sizable f new -> append_bytes E f new oa = (f', Ok k) ->
  F_n f' = F_n f + k /\ (forall i, 0 <= i < F_n f - 1 -> piece f' i = piece f i) /\
  exists ck, nth_error checksum_names (Z.to_nat (u8 6 f)) = Some (cks_name ck) /\
    forall i, F_n f - 1 <= i < F_n f' -> exists c,
      e_compress E (effective f oa) (sub (i * F_chunk f) (F_chunk f) (b ++ new)) = Ok c /\ piece f' i = c ++ digest E ck c.
Proof. exact append_chunks. Qed.
Print Assumptions C66_append_chunks.

(** Two files with the same contents, chunk size and checksum, made with the same
    Blosc arguments by whatever packs, appends and metadata rewrites, consist of
    the same chunks, byte by byte. *)
Theorem C66_same_chunks : forall E, EnvOK E -> forall ba f g b m m',
  built E ba f b m -> built E ba g b m' -> F_chunk f = F_chunk g -> u8 6 f = u8 6 g ->
  F_n f = F_n g /\ F_last f = F_last g /\ (forall i, 0 <= i < F_n f -> piece f i = piece g i) /\
  exists L, chunks_end f + F_digest f = F_body f + L /\ chunks_end g + F_digest g = F_body g + L /\
    sub (F_body f) L f = sub (F_body g) L g.
Proof. exact same_chunks. Qed.
Print Assumptions C66_same_chunks.

(** A file made by pack, append, and metadata rewrite, and one made by a single
    pack without metadata and with another reserve. *)
Definition ex_once : bytes :=
  match pack_bytes_to_bytes toy_env (ex_data ++ ex_new1) (CSInt 20) PNone (Some default_bargs) (Some (mkBPA true "adler32" (MAInt 7))) None with Ok f => f | _ => [] end.
Lemma ex_f1_built : built toy_env default_bargs ex_f1 (ex_data ++ ex_new1) (norm ex_meta).
Proof.
  apply (bu_append toy_env default_bargs ex_file ex_data (norm ex_meta) ex_new1 no_obargs ex_f1 1);
    [apply (bu_pack toy_env default_bargs ex_data (CSInt 20) ex_meta None (Some ex_bp) None)| | |]; try (vm_compute; reflexivity).
  vm_compute. discriminate.
Qed.
Lemma ex_once_built : built toy_env default_bargs ex_once (ex_data ++ ex_new1) PNone.
Proof.
  apply (bu_pack toy_env default_bargs (ex_data ++ ex_new1) (CSInt 20) PNone (Some default_bargs) (Some (mkBPA true "adler32" (MAInt 7))) None);
    [reflexivity|vm_compute; reflexivity].
Qed.
Example C66_case : built toy_env default_bargs ex_f1 (ex_data ++ ex_new1) (norm ex_meta) /\
  built toy_env default_bargs ex_once (ex_data ++ ex_new1) PNone /\ F_chunk ex_f1 = F_chunk ex_once /\ u8 6 ex_f1 = u8 6 ex_once /\
  F_n ex_f1 = 4 /\ ex_f1 <> ex_once /\ F_body ex_f1 <> F_body ex_once /\ size (piece ex_f1 3) = 39.
Proof.
  split; [exact ex_f1_built|]. split; [exact ex_once_built|].
  split; [vm_compute; reflexivity|]. split; [vm_compute; reflexivity|]. split; [vm_compute; reflexivity|].
  split; [intros X; apply (f_equal size) in X; vm_compute in X; discriminate|].
  split; [vm_compute; discriminate|vm_compute; reflexivity].
Qed.
Example C66_case_append : archive toy_env ex_file ex_data (norm ex_meta) /\ sizable ex_file ex_new1 /\
  append_bytes toy_env ex_file ex_new1 (mkOBA None (Some 3) None None) =
    (fst (append_bytes toy_env ex_file ex_new1 (mkOBA None (Some 3) None None)), Ok 1) /\
  effective ex_file (mkOBA None (Some 3) None None) = mkBA 8 3 true "blosclz".
Proof. split; [exact ex_file_archive|]. split; [vm_compute; discriminate|]. split; vm_compute; reflexivity. Qed.
