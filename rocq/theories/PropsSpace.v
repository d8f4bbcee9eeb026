(** C67: the room a file takes; C18: truncation, exactly. *)
From Verif Require Import Base PyVal Checksums Headers Pretty Args FileIO Append Spec Json Toy MetaProofs Archive Damage SpaceProofs
  PropsPack PropsAppend PropsDamage.

(** ** C67: the part of a file in use, from its start to the end of the last digest,
    is what the layout says plus the chunks; compression never adds more than 16
    bytes per chunk. *)
Theorem C67_bounds : forall E, EnvOK E -> forall f b m,
  archive E f b m ->
  F_body f + F_n f * (16 + F_digest f) <= chunks_end f + F_digest f <= F_body f + size b + F_n f * (16 + F_digest f) /\
  chunks_end f + F_digest f <= size f.
Proof. exact space_bounds. Qed.
Print Assumptions C67_bounds.
(** A packed file ends there. *)
Theorem C67_pack : forall E, EnvOK E -> forall b cs m oba obp oma f,
  pack_bytes_to_bytes E b cs m oba obp oma = Ok f -> size f = chunks_end f + F_digest f.
Proof. exact pack_space. Qed.
Print Assumptions C67_pack.
(** An append never makes the file shorter, and longer only as far as the new last
    chunk reaches. *)
Theorem C67_append : forall E, EnvOK E -> forall f b m new oa f' k,
  archive E f b m -> sizable f new -> append_bytes E f new oa = (f', Ok k) ->
  size f' = Z.max (size f) (chunks_end f' + F_digest f').
Proof. exact append_space. Qed.
Print Assumptions C67_append.
(** A metadata rewrite leaves the size alone, whatever its outcome. *)
Theorem C67_rewrite : forall E, EnvOK E -> forall f b m m' ov,
  archive E f b m -> size (fst (rewrite_bytes E f m' ov)) = size f.
Proof. exact rewrite_space. Qed.
Print Assumptions C67_rewrite.
Example C67_case : archive toy_env ex_f5 ((ex_data ++ ex_new1) ++ ex_new2) (norm ex_meta2) /\
  F_body ex_f5 = 598 /\ F_n ex_f5 = 4 /\ F_digest ex_f5 = 4 /\ size ((ex_data ++ ex_new1) ++ ex_new2) = 80 /\
  chunks_end ex_f5 + F_digest ex_f5 = 758 /\ size ex_f5 = 758.
Proof. split; [exact ex_f5_archive|]. vm_compute. auto 10. Qed.
Example C67_case_append : pack_bytes_to_bytes toy_env ex_data (CSInt 20) ex_meta None (Some ex_bp) None = Ok ex_file /\
  sizable ex_file ex_new1 /\ append_bytes toy_env ex_file ex_new1 no_obargs = (ex_f1, Ok 1) /\
  size ex_file = 704 /\ size ex_f1 = chunks_end ex_f1 + F_digest ex_f1 /\ size ex_f1 = 757 /\
  snd (rewrite_bytes toy_env ex_f1 ex_meta2 default_overrides) = Ok tt.
Proof. split; [vm_compute; reflexivity|]. split; [vm_compute; discriminate|]. vm_compute. auto 10. Qed.

(** ** C18: unpacking a truncated file succeeds in two cases only: nothing of the
    chunks and digests is missing, or the last digest is missing completely. *)
Theorem C18_truncation_exact : forall E, EnvOK E -> forall f b m k,
  archive E f b m ->
  snd (unpack_core E (firstn k f)) = Ok m <-> (Z.of_nat k = chunks_end f \/ chunks_end f + F_digest f <= Z.of_nat k).
Proof. exact truncation_exact. Qed.
Print Assumptions C18_truncation_exact.
Example C18_exact_case : archive toy_env ex_f5 ((ex_data ++ ex_new1) ++ ex_new2) (norm ex_meta2) /\
  map (fun k => match snd (unpack_core toy_env (firstn k ex_f5)) with Ok _ => true | Raise _ => false end) [753; 754; 755; 756; 757; 758; 759]%nat
  = [false; true; false; false; false; true; true].
Proof. split; [exact ex_f5_archive|]. vm_compute. reflexivity. Qed.
