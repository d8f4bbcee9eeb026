(** C26 (in general), C56-C58: operations on one file that overlap in time. *)
From Verif Require Import Base PyVal Checksums Headers Pretty Args FileIO Append Spec Json Toy MetaProofs Archive Overlap HistoryProofs OverlapProofs LiveProofs PropsPack PropsAppend.

(** ** C26, for writes that reach the disk in any order: whatever writes of an append
    have happened, all chunks but the last are intact and found. *)
Theorem C26_any_order : forall E, EnvOK E -> forall f b m new oa ws,
  archive E f b m -> sizable f new -> has_offsets f = true -> incl ws (append_log E f new oa) ->
  let d := replay ws f in
  sub 0 12 d = sub 0 12 f /\ sub 32 (F_table f - 32) d = sub 32 (F_table f - 32) f /\ F_table d = F_table f /\
  (forall i, 0 <= i < F_n f -> F_off d i = F_off f i) /\
  (forall i, 0 <= i < F_n f - 1 ->
     chunk_at (F_off d i) d = chunk_at (F_off f i) f /\
     e_decompress E (chunk_at (F_off d i) d) = Ok (sub (i * F_chunk f) (F_chunk f) b)).
Proof. exact append_write_chunks. Qed.
Print Assumptions C26_any_order.
Example C26_order_case : archive toy_env ex_file ex_data (norm ex_meta) /\ sizable ex_file ex_new1 /\ has_offsets ex_file = true /\
  let ws := firstn 50 (rev (append_log toy_env ex_file ex_new1 no_obargs)) in
  incl ws (append_log toy_env ex_file ex_new1 no_obargs) /\ replay ws ex_file <> ex_file /\ F_n (replay ws ex_file) = 4.
Proof.
  split; [exact ex_file_archive|]. split; [vm_compute; discriminate|]. split; [vm_compute; reflexivity|]. cbv zeta. split.
  - generalize (append_log toy_env ex_file ex_new1 no_obargs). intros l x Hx. apply in_rev. rewrite <- (firstn_skipn 50). apply in_or_app. left. exact Hx.
  - assert (N : F_n (replay (firstn 50 (rev (append_log toy_env ex_file ex_new1 no_obargs))) ex_file) = 4) by (vm_compute; reflexivity).
    split; [|exact N]. intros X. rewrite X in N. clear X. vm_compute in N. discriminate N.
Qed.

(** ** C26: every successful append passes through a state in which unpacking
    succeeds and gives the old contents plus as much of the new ones as fits into
    the last chunk. *)
Theorem C26_silent_mix : forall E, EnvOK E -> forall f b m new oa f' k,
  archive E f b m -> sizable f new -> append_bytes E f new oa = (f', Ok k) ->
  exists j, unpack_bytes_from_bytes E (crash j (append_log E f new oa) f) = Ok (b ++ sub 0 (F_chunk f - F_last f) new, m).
Proof. exact silent_mix. Qed.
Print Assumptions C26_silent_mix.
Example C26_mix_case : snd (append_bytes toy_env ex_file ex_new1 no_obargs) = Ok 1 /\ sizable ex_file ex_new1 /\
  F_chunk ex_file - F_last ex_file = 13 /\ size ex_new1 = 32.
Proof. split; [vm_compute; reflexivity|]. split; [vm_compute; discriminate|]. split; vm_compute; reflexivity. Qed.

(** ** C56: a reader that overlaps an append.  Whatever each of its reads sees of
    the append, it gets the metadata and all chunks but the last as they are. *)
Theorem C56_reader_during_append : forall E, EnvOK E -> forall Sn f b m new oa f' k,
  archive E f b m -> sizable f new -> append_bytes E f new oa = (f', Ok k) ->
  (forall i, glimpse E f new oa (Sn i)) ->
  exists rest r, unpack_live E Sn = (sub 0 ((F_n f - 1) * F_chunk f) b ++ rest, r) /\ (forall v, r = Ok v -> v = m).
Proof. exact live_reader. Qed.
Print Assumptions C56_reader_during_append.
(** The reader is the one of FileIO.v: on a file that does not change it is unpack. *)
Theorem C56_same_reader : forall E b, r_unpack E fp f_read f_read_ssize (f_seek_rel E) (fp_of b) = unpack_core E b.
Proof. exact same_unpack. Qed.
Print Assumptions C56_same_reader.

(** A reader that sees the old header, then the finished file. *)
Definition ex_seen (i : nat) : bytes :=
  match i with O => ex_file | S O => crash 50 (append_log toy_env ex_file ex_new1 no_obargs) ex_file | _ => ex_f1 end.
Lemma ex_seen_glimpse : forall i, glimpse toy_env ex_file ex_new1 no_obargs (ex_seen i).
Proof.
  assert (C : forall j d, d = crash j (append_log toy_env ex_file ex_new1 no_obargs) ex_file ->
     (sub 0 32 d = sub 0 32 ex_file \/ sub 0 32 d = sub 0 32 (fst (append_bytes toy_env ex_file ex_new1 no_obargs))) ->
     glimpse toy_env ex_file ex_new1 no_obargs d).
  { intros j d -> H. split; [intros p; exists j; reflexivity|exact H]. }
  intros [|[|i]]; cbn [ex_seen].
  - apply (C 0%nat); [vm_compute; reflexivity|left; vm_compute; reflexivity].
  - apply (C 50%nat); [vm_compute; reflexivity|left; vm_compute; reflexivity].
  - apply (C 143%nat); [vm_compute; reflexivity|right; vm_compute; reflexivity].
Qed.
Example C56_case : (forall i, glimpse toy_env ex_file ex_new1 no_obargs (ex_seen i)) /\ sizable ex_file ex_new1 /\
  snd (append_bytes toy_env ex_file ex_new1 no_obargs) = Ok 1 /\ (F_n ex_file - 1) * F_chunk ex_file = 40 /\
  unpack_live toy_env ex_seen = (ex_data ++ sub 0 13 ex_new1, Ok (norm ex_meta)).
Proof.
  split; [exact ex_seen_glimpse|]. split; [vm_compute; discriminate|]. repeat split; vm_compute; reflexivity.
Qed.

(** ** C57: two appends at once.  If both read the file before either writes, the
    one that writes last wins; what the other has appended is lost without a
    trace. *)
Theorem C57_last_append_wins : forall E, EnvOK E -> forall f b m newA oaA fA kA newB oaB fB kB,
  archive E f b m -> sizable f newA -> sizable f newB ->
  append_bytes E f newA oaA = (fA, Ok kA) -> append_bytes E f newB oaB = (fB, Ok kB) ->
  unpack_bytes_from_bytes E (replay (append_log E f newA oaA ++ append_log E f newB oaB) f) = Ok (b ++ newB, m).
Proof. exact last_append_wins. Qed.
Print Assumptions C57_last_append_wins.
Theorem C57_both_kept_refuted : exists E f b m newA oaA fA kA newB oaB fB kB, EnvOK E /\ archive E f b m /\
  sizable f newA /\ sizable f newB /\ append_bytes E f newA oaA = (fA, Ok kA) /\ append_bytes E f newB oaB = (fB, Ok kB) /\
  newA <> [] /\ newB <> [] /\
  unpack_bytes_from_bytes E (replay (append_log E f newA oaA ++ append_log E f newB oaB) f) = Ok (b ++ newB, m) /\
  merged (append_log E f newA oaA) (append_log E f newB oaB) (append_log E f newA oaA ++ append_log E f newB oaB) /\
  exists l e, merged (append_log E f newA oaA) (append_log E f newB oaB) l /\ unpack_bytes_from_bytes E (replay l f) = Raise e.
Proof.
  exists toy_env, ex_file, ex_data, (norm ex_meta), ex_new1, no_obargs, ex_f1, 1, ex_new2, no_obargs,
    (fst (append_bytes toy_env ex_file ex_new2 no_obargs)), 0.
  split; [exact toy_env_ok|]. split; [exact ex_file_archive|]. split; [vm_compute; discriminate|]. split; [vm_compute; discriminate|].
  split; [vm_compute; reflexivity|]. split; [vm_compute; reflexivity|]. split; [discriminate|]. split; [discriminate|].
  split; [vm_compute; reflexivity|].
  split; [apply merged_app|].
  eexists _, ChecksumMismatch. split; [apply (merged_4 20 30)|]. vm_compute. reflexivity.
Qed.
Print Assumptions C57_both_kept_refuted.

(** ** C58: an append and a metadata rewrite at once.  However their single-byte
    writes interleave, the result is the one of doing them one after the other. *)
Theorem C58_append_and_rewrite : forall E, EnvOK E -> forall f b m new oa f' k m' ov g l,
  archive E f b m -> sizable f new ->
  append_bytes E f new oa = (f', Ok k) -> m' <> PNone -> rewrite_bytes E f m' ov = (g, Ok tt) ->
  merged (append_log E f new oa) (rewrite_log E f m' ov) l ->
  rewrite_bytes E f' m' ov = (replay l f, Ok tt) /\ archive E (replay l f) (b ++ new) (norm m') /\
  unpack_bytes_from_bytes E (replay l f) = Ok (b ++ new, norm m').
Proof. exact append_rewrite_overlap. Qed.
Print Assumptions C58_append_and_rewrite.
Example C58_case : sizable ex_file ex_new1 /\ snd (append_bytes toy_env ex_file ex_new1 no_obargs) = Ok 1 /\
  ex_meta2 <> PNone /\ snd (rewrite_bytes toy_env ex_file ex_meta2 default_overrides) = Ok tt /\
  exists l, merged (append_log toy_env ex_file ex_new1 no_obargs) (rewrite_log toy_env ex_file ex_meta2 default_overrides) l /\
    nth_error l 1 = nth_error (rewrite_log toy_env ex_file ex_meta2 default_overrides) 0.
Proof.
  split; [vm_compute; discriminate|]. split; [vm_compute; reflexivity|]. split; [discriminate|]. split; [vm_compute; reflexivity|].
  eexists. split; [apply (merged_4 1 1)|]. vm_compute. reflexivity.
Qed.
