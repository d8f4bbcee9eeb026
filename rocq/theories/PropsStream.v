(** C78: appending when the reads of the new contents do not deliver what was
    announced (the file is changed meanwhile, is the archive itself, or fails). *)
From Verif Require Import Base PyVal Checksums Headers Args FileIO Append Spec Archive Toy Stream StreamProofs HistoryProofs PropsPack PropsAppend.

(** ** The model: append_fp with other reads; every kind of source is one of these *)
Theorem C78_model : forall E n oa, append_from E f_read n oa = append_fp E n oa.
Proof. exact same_append. Qed.
Print Assumptions C78_model.
Theorem C78_any_source : forall E S (rd : Z -> SM S bytes) (s : S) f n oa, exists w,
  append_stream E f n w oa = let r := append_from E rd n oa (s, fp_of f) in (fdata (snd (fst r)), snd r).
Proof. exact @any_source. Qed.
Print Assumptions C78_any_source.

(** ** A successful append adds what the reads returned, in order; the header counts
    what was announced *)
Theorem C78_success : forall E, EnvOK E -> forall f b m new_size w oa f' k,
  archive E f b m -> 0 <= new_size -> append_stream E f new_size w oa = (f', Ok k) ->
  exists got, zlen got = k + 1 /\ Forall2 (fun i x => w i = Ok x) (seq 0 (List.length got)) got /\
    unpack_bytes_from_bytes E f' = Ok (b ++ concat got, m) /\
    F_chunk f' * (F_n f' - 1) + F_last f' = size b + new_size /\
    F_n f' = F_n f + k /\ F_max f' = F_max f - k /\ F_chunk f' = F_chunk f.
Proof. exact stream_success. Qed.
Print Assumptions C78_success.

(** ** A failed one leaves the file alone, or adds the first answer; header untouched *)
Theorem C78_failure : forall E, EnvOK E -> forall f b m new_size w oa f' e,
  archive E f b m -> 0 <= new_size -> append_stream E f new_size w oa = (f', Raise e) ->
  f' = f \/
  (exists x0, w O = Ok x0 /\ unpack_bytes_from_bytes E f' = Ok (b ++ x0, m) /\ sub 0 32 f' = sub 0 32 f) \/
  (e = StructError /\ 2 ^ 63 <= size f').
Proof. exact stream_failure. Qed.
Print Assumptions C78_failure.
(** It does add it whenever the second read fails. *)
Theorem C78_leak : forall E, EnvOK E -> forall f b m new_size w oa x0 e,
  archive E f b m -> has_offsets f = true ->
  0 < F_chunk f -> F_chunk f - F_last f < new_size ->
  (new_size - (F_chunk f - F_last f) + F_chunk f - 1) / F_chunk f <= F_max f ->
  blosc_args_ok E (effective f oa) -> size x0 <= F_chunk f - F_last f ->
  w O = Ok x0 -> w 1%nat = Raise e ->
  exists f', append_stream E f new_size w oa = (f', Raise e) /\ unpack_bytes_from_bytes E f' = Ok (b ++ x0, m).
Proof. exact stream_leak. Qed.
Print Assumptions C78_leak.

(** ** Any number of such appends *)
Theorem C78_history : forall E, EnvOK E -> forall f b m,
  streamed E f b m -> unpack_bytes_from_bytes E f = Ok (b, m) \/ unpack_bytes_from_bytes E f = Raise ValueError.
Proof. exact streamed_unpack. Qed.
Print Assumptions C78_history.
Theorem C78_stuck : forall E, EnvOK E -> forall f b m n w oa,
  streamed E f b m -> unpack_bytes_from_bytes E f = Raise ValueError -> append_stream E f n w oa = (f, Raise ValueError).
Proof. exact streamed_stuck. Qed.
Print Assumptions C78_stuck.

(** ** Cases *)
Definition ex_answers (i : nat) : res bytes := match i with O => Ok (b_of_string "a") | _ => Raise OSError end.
Definition ex_short : bytes := fst (append_stream toy_env ex_file 10 ex_answers no_obargs).
Definition ex_late : bytes := b_of_string "0123456789".
Definition ex_leaked : bytes := fst (append_stream toy_env ex_file 30 ex_answers no_obargs).
Example C78_case :
  append_stream toy_env ex_file 10 ex_answers no_obargs = (ex_short, Ok 0) /\
  unpack_bytes_from_bytes toy_env ex_short = Ok (ex_data ++ b_of_string "a", norm ex_meta) /\
  F_last ex_short = F_last ex_file + 10 /\
  snd (append_stream toy_env ex_file 30 ex_answers no_obargs) = Raise OSError /\ ex_leaked <> ex_file.
Proof.
  split; [vm_compute; reflexivity|]. split; [vm_compute; reflexivity|]. split; [vm_compute; reflexivity|].
  split; [vm_compute; reflexivity|]. intros H. apply (f_equal (@List.length byte)) in H. vm_compute in H. discriminate.
Qed.
Lemma toy_args_ok : blosc_args_ok toy_env (effective ex_file no_obargs).
Proof.
  apply (ok_compress_only toy_env toy_env_ok _ [] (match e_compress toy_env (effective ex_file no_obargs) [] with Ok c => c | Raise _ => [] end)).
  vm_compute. reflexivity.
Qed.
Example C78_case_leak : archive toy_env ex_file ex_data (norm ex_meta) /\ has_offsets ex_file = true /\
  0 < F_chunk ex_file /\ F_chunk ex_file - F_last ex_file < 30 /\
  (30 - (F_chunk ex_file - F_last ex_file) + F_chunk ex_file - 1) / F_chunk ex_file <= F_max ex_file /\
  blosc_args_ok toy_env (effective ex_file no_obargs).
Proof. split; [exact ex_file_archive|]. do 4 (split; [vm_compute; congruence|]). exact toy_args_ok. Qed.

(** ** "A failed append changes nothing", "it can be repeated", "a successful append
    leaves a readable file" all fail *)
Theorem C78_failure_undone_refuted : exists E f b m n w oa f' e new f2 k, EnvOK E /\ archive E f b m /\
  append_stream E f n w oa = (f', Raise e) /\ f' <> f /\
  append_bytes E f' new oa = (f2, Ok k) /\ unpack_bytes_from_bytes E f2 <> Ok (b ++ new, m).
Proof.
  exists toy_env, ex_file, ex_data, (norm ex_meta), 30, ex_answers, no_obargs, ex_leaked, OSError, (b_of_string "abc"),
    (fst (append_bytes toy_env ex_leaked (b_of_string "abc") no_obargs)), 0.
  split; [exact toy_env_ok|]. split; [exact ex_file_archive|]. split; [vm_compute; reflexivity|]. split; [apply C78_case|].
  split; [vm_compute; reflexivity|]. intros H. vm_compute in H. discriminate.
Qed.
Print Assumptions C78_failure_undone_refuted.
Theorem C78_readable_refuted : exists E f b m n w oa f' k new f2 k2, EnvOK E /\ archive E f b m /\
  append_stream E f n w oa = (f', Ok k) /\ append_bytes E f' new oa = (f2, Ok k2) /\
  unpack_bytes_from_bytes E f2 = Raise ValueError.
Proof.
  exists toy_env, ex_file, ex_data, (norm ex_meta), 10, ex_answers, no_obargs, ex_short, 0, ex_late,
    (fst (append_bytes toy_env ex_short ex_late no_obargs)), 0.
  split; [exact toy_env_ok|]. split; [exact ex_file_archive|]. split; [vm_compute; reflexivity|].
  split; [vm_compute; reflexivity|]. vm_compute. reflexivity.
Qed.
Print Assumptions C78_readable_refuted.
(** Both histories are of the kind [streamed] describes. *)
Example C78_case_history : streamed toy_env ex_leaked (ex_data ++ b_of_string "a") (norm ex_meta) /\
  streamed toy_env ex_short (ex_data ++ concat [b_of_string "a"]) (norm ex_meta).
Proof.
  split.
  - apply (sm_failed toy_env ex_file ex_data (norm ex_meta) 30 ex_answers no_obargs ex_leaked OSError (b_of_string "a")).
    + apply sm_archive. exact ex_file_archive.
    + discriminate.
    + vm_compute. reflexivity.
    + apply C78_case.
    + vm_compute. reflexivity.
    + reflexivity.
  - apply (sm_append toy_env ex_file ex_data (norm ex_meta) 10 ex_answers no_obargs ex_short 0 [b_of_string "a"]).
    + apply sm_archive. exact ex_file_archive.
    + discriminate.
    + vm_compute. reflexivity.
    + reflexivity.
    + repeat constructor.
Qed.

(** * C79: packing when the reads do not deliver what was announced *)
Theorem C79_model : forall E b csa m oba obp oma,
  pack_from E f_read (size b) csa m oba obp oma (fp_of b) =
  let r := pack_bytes_core E b csa m oba obp oma in (fdata (s_fp (fst r)), rbind (snd r) (fun _ => Ok tt)).
Proof. exact same_pack. Qed.
Print Assumptions C79_model.
Theorem C79_any_source : forall E S (rd : Z -> SM S bytes) (s : S) a csa m oba obp oma, exists w,
  pack_stream E a w csa m oba obp oma = pack_from E rd a csa m oba obp oma s.
Proof. exact @any_pack_source. Qed.
Print Assumptions C79_any_source.

(** ** A successful pack holds what the reads returned; the header counts what was
    announced *)
Theorem C79_success : forall E, EnvOK E -> forall a w csa m oba obp oma f,
  0 <= a -> pack_stream E a w csa m oba obp oma = (f, Ok tt) ->
  exists got, zlen got = F_n f /\ Forall2 (fun i x => w i = Ok x) (seq 0 (List.length got)) got /\
    unpack_bytes_from_bytes E f = Ok (concat got, norm m) /\
    F_chunk f * (F_n f - 1) + F_last f = a.
Proof. exact pack_stream_success. Qed.
Print Assumptions C79_success.
(** ** It succeeds on whatever the reads return, up to the limit of Blosc *)
Theorem C79_total : forall E, EnvOK E -> forall b csa m oba obp oma f0 w,
  pack_bytes_to_bytes E b csa m oba obp oma = Ok f0 ->
  (forall i, Z.of_nat i < F_n f0 -> exists x, w i = Ok x /\ size x <= BUFMAX) ->
  (exists f, pack_stream E (size b) w csa m oba obp oma = (f, Ok tt)) \/
  (exists f, pack_stream E (size b) w csa m oba obp oma = (f, Raise StructError) /\ 2 ^ 63 <= size f).
Proof. exact pack_stream_total. Qed.
Print Assumptions C79_total.
(** ** A failed pack leaves a file that cannot be unpacked; it gives back what had
    been read *)
Theorem C79_failure : forall E, EnvOK E -> forall a w csa m oba obp oma f e,
  0 <= a -> pack_stream E a w csa m oba obp oma = (f, Raise e) ->
  (exists got e', Forall2 (fun i x => w i = Ok x) (seq 0 (List.length got)) got /\ unpack_core E f = (concat got, Raise e')) \/
  (e = StructError /\ 2 ^ 63 <= size f).
Proof. exact pack_stream_failure. Qed.
Print Assumptions C79_failure.
Theorem C79_read_error : forall E, EnvOK E -> forall b csa m oba obp oma f0 w got e,
  pack_bytes_to_bytes E b csa m oba obp oma = Ok f0 ->
  Forall2 (fun i x => w i = Ok x) (seq 0 (List.length got)) got -> Forall (fun x => size x <= BUFMAX) got ->
  zlen got < F_n f0 -> w (List.length got) = Raise e ->
  exists f, pack_stream E (size b) w csa m oba obp oma = (f, Raise e) /\ unpack_core E f = (concat got, Raise IndexError).
Proof. exact pack_stream_read_error. Qed.
Print Assumptions C79_read_error.

(** ** Cases: a file of 47 bytes cut to 25 after it was measured; a read that fails *)
Definition ex_cut (i : nat) : res bytes :=
  match i with O => Ok (ztake 20 ex_data) | S O => Ok (sub 20 5 ex_data) | _ => Ok [] end.
Definition ex_cut_file : bytes := fst (pack_stream toy_env 47 ex_cut (CSInt 20) ex_meta None (Some ex_bp) None).
Example C79_case : size ex_data = 47 /\ pack_stream toy_env 47 ex_cut (CSInt 20) ex_meta None (Some ex_bp) None = (ex_cut_file, Ok tt) /\
  unpack_bytes_from_bytes toy_env ex_cut_file = Ok (ztake 25 ex_data, norm ex_meta) /\
  F_chunk ex_cut_file * (F_n ex_cut_file - 1) + F_last ex_cut_file = 47.
Proof. split; [reflexivity|]. split; [vm_compute; reflexivity|]. split; vm_compute; reflexivity. Qed.
Definition ex_broken (i : nat) : res bytes := match i with O => Ok (ztake 20 ex_data) | _ => Raise OSError end.
Definition ex_broken_file : bytes := fst (pack_stream toy_env 47 ex_broken (CSInt 20) ex_meta None (Some ex_bp) None).
Example C79_case_error : pack_stream toy_env 47 ex_broken (CSInt 20) ex_meta None (Some ex_bp) None = (ex_broken_file, Raise OSError) /\
  pack_bytes_to_bytes toy_env ex_data (CSInt 20) ex_meta None (Some ex_bp) None = Ok ex_file /\ F_n ex_file = 3 /\
  unpack_core toy_env ex_broken_file = (ztake 20 ex_data, Raise IndexError).
Proof. split; [vm_compute; reflexivity|]. split; [vm_compute; reflexivity|]. split; vm_compute; reflexivity. Qed.
(** The offsets and the sizes in the header are no longer those of the contents: an
    append to such a file can leave it unreadable. *)
Example C79_case_history : streamed toy_env ex_cut_file (concat [ztake 20 ex_data; sub 20 5 ex_data; []]) (norm ex_meta).
Proof.
  apply (sm_pack toy_env 47 ex_cut (CSInt 20) ex_meta None (Some ex_bp) None).
  - discriminate.
  - vm_compute. reflexivity.
  - vm_compute. reflexivity.
  - repeat constructor.
Qed.
Theorem C79_detected_refuted : exists E a w csa m oba obp oma f b new f2 k, EnvOK E /\
  pack_stream E a w csa m oba obp oma = (f, Ok tt) /\ unpack_bytes_from_bytes E f = Ok (b, norm m) /\ size b <> a /\
  append_bytes E f new no_obargs = (f2, Ok k) /\ unpack_bytes_from_bytes E f2 = Raise ValueError.
Proof.
  exists toy_env, 47, ex_cut, (CSInt 20), ex_meta, None, (Some ex_bp), None, ex_cut_file, (ztake 25 ex_data), (ztake 20 ex_data),
    (fst (append_bytes toy_env ex_cut_file (ztake 20 ex_data) no_obargs)), 0.
  split; [exact toy_env_ok|]. split; [vm_compute; reflexivity|]. split; [vm_compute; reflexivity|]. split; [vm_compute; discriminate|].
  split; [vm_compute; reflexivity|]. vm_compute. reflexivity.
Qed.
Print Assumptions C79_detected_refuted.
