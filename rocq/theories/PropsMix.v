(** C75: sources and sinks of different kinds put together. *)
From Verif Require Import Base PyVal Checksums Headers Args FileIO MemoryIO NumpyIO NumpySpec Spec Archive Json Toy ToyNumpy Embed Mix MixProofs PropsPack PropsNumpy.

(** ** A file packed to memory, and memory unpacked to a file or to a list. *)
Theorem C75_file_through_memory : forall E, EnvOK E -> forall before b after log csa m oba obp oma i s,
  pack_to_memory E (between before (b ++ after) log) (size b) csa m oba obp oma = (i, s, Ok tt) ->
  i = between (before ++ b) after log /\ cm_meta s = m /\
  (forall d log2, unpack_memory_to_file E s (between d [] log2) = (between (d ++ b) [] (log2 ++ numbered (size d) b), Ok tt)) /\
  exists n c l xs, calculate_nchunks (size b) csa = Ok (n, c, l) /\ concat xs = b /\ map size xs = repeat c (Z.to_nat (n - 1)) ++ [l] /\
    forall t, t = pms_new None \/ t = pms_new (Some n) ->
    exists j t', mem_unpack E s (O, t) = ((j, t'), Ok tt) /\ pms_chunks t' = map Some xs.
Proof. exact file_through_memory. Qed.
Print Assumptions C75_file_through_memory.

(** ** Whatever can be packed to a file can be packed to memory, with the same chunks
    and the same digests: behind its table the file is these, one after the other. *)
Theorem C75_memory_like_file : forall E, EnvOK E -> forall b csa m oba obp oma f before after log,
  pack_bytes_to_bytes E b csa m oba obp oma = Ok f ->
  exists s cs ds, pack_to_memory E (between before (b ++ after) log) (size b) csa m oba obp oma = (between (before ++ b) after log, s, Ok tt) /\
    cm_chunks s = map Some cs /\ cm_digests s = map Some ds /\ List.length cs = List.length ds /\
    skipn (Z.to_nat (F_body f)) f = concat (map (fun p => fst p ++ snd p) (combine cs ds)).
Proof. exact memory_like_file. Qed.
Print Assumptions C75_memory_like_file.

(** ** The converse fails: in memory the metadata is kept as it is and neither it nor
    its arguments are looked at. *)
Theorem C75_any_metadata : forall E before b after log csa m oba obp oma i s m' oma',
  pack_to_memory E (between before (b ++ after) log) (size b) csa m oba obp oma = (i, s, Ok tt) ->
  m <> PNone -> m' <> PNone ->
  exists s', pack_to_memory E (between before (b ++ after) log) (size b) csa m' oba obp oma' = (i, s', Ok tt) /\
    cm_header s' = cm_header s /\ cm_chunks s' = cm_chunks s /\ cm_digests s' = cm_digests s /\ cm_meta s' = m'.
Proof. exact memory_any_metadata. Qed.
Print Assumptions C75_any_metadata.

(** ** Any archive (packed, appended to, ...) unpacked to a list: one entry per chunk,
    of the sizes in the header; empty places at the end of a list made too long; an
    IndexError, and a full list, if it was made too short. *)
Theorem C75_file_to_list : forall E, EnvOK E -> forall f b m, archive E f b m ->
  exists xs tail, concat xs = b /\ map size xs = repeat (F_chunk f) (Z.to_nat (F_n f - 1)) ++ [F_last f] /\ f = sub 0 (size f - size tail) f ++ tail /\
  forall before after log,
  (forall t, t = pms_new None \/ t = pms_new (Some (F_n f)) -> exists t', unpack_file_to_list E (between before (f ++ after) log) t =
     (between (before ++ sub 0 (size f - size tail) f) (tail ++ after) log, t', Ok m) /\ pms_chunks t' = map Some xs) /\
  (forall k, F_n f < k -> exists t', unpack_file_to_list E (between before (f ++ after) log) (pms_new (Some k)) =
     (between (before ++ sub 0 (size f - size tail) f) (tail ++ after) log, t', Ok m) /\ pms_chunks t' = map Some xs ++ repeat None (Z.to_nat (k - F_n f))) /\
  (forall k, k < F_n f -> exists i t', unpack_file_to_list E (between before (f ++ after) log) (pms_new (Some k)) = (i, t', Raise IndexError) /\
     pms_chunks t' = map Some (firstn (Z.to_nat k) xs)).
Proof. exact archive_to_list. Qed.
Print Assumptions C75_file_to_list.

(** ** A list packed to a file comes back, from the file alone and with other bytes
    around it, as one string and as the same list, whatever the lengths of its
    entries and whatever chunk sizes were announced. *)
Theorem C75_list_through_file : forall E, EnvOK E -> forall chunks n c l m oba obp oma f,
  pack_list_to_file E chunks n c l m oba obp oma = (f, Ok tt) -> zlen chunks = n -> 1 <= n ->
  unpack_bytes_from_bytes E f = Ok (concat chunks, norm m) /\
  (forall before after log d log2, unpack_through E (between before (f ++ after) log) (between d [] log2) =
     (between (before ++ f) after log, between (d ++ concat chunks) [] (log2 ++ numbered (size d) (concat chunks)), Ok (norm m))) /\
  forall before after log t, t = pms_new None \/ t = pms_new (Some n) ->
  exists t', unpack_file_to_list E (between before (f ++ after) log) t = (between (before ++ f) after log, t', Ok (norm m)) /\
    pms_chunks t' = map Some chunks.
Proof. exact list_through_file. Qed.
Print Assumptions C75_list_through_file.

(** ** A list of another length than announced.  Too short: packing does not notice;
    unpacking writes everything and then fails.  Too long: with offsets packing
    fails; without, nothing fails, and what is beyond the announced number is lost. *)
Theorem C75_list_too_short : forall E, EnvOK E -> forall chunks n c l m oba obp oma f,
  pack_list_to_file E chunks n c l m oba obp oma = (f, Ok tt) -> zlen chunks < n ->
  unpack_core E f = (concat chunks, Raise IndexError).
Proof. exact list_too_short. Qed.
Print Assumptions C75_list_too_short.
Theorem C75_list_too_long_offsets : forall E, EnvOK E -> forall chunks n c l m oba obp oma f r,
  pack_list_to_file E chunks n c l m oba obp oma = (f, r) -> 1 <= n < zlen chunks -> bp_offsets (the_bpargs obp) = true ->
  r <> Ok tt /\
  (forall f0, pack_list_to_file E (firstn (Z.to_nat n) chunks) n c l m oba obp oma = (f0, Ok tt) -> Forall (fun x => size x <= BUFMAX) chunks ->
   r = Raise IndexError).
Proof. exact list_too_long_table. Qed.
Print Assumptions C75_list_too_long_offsets.
Theorem C75_list_too_long : forall E, EnvOK E -> forall chunks n c l m oba obp oma f,
  pack_list_to_file E chunks n c l m oba obp oma = (f, Ok tt) -> 1 <= n <= zlen chunks -> bp_offsets (the_bpargs obp) = false ->
  unpack_core E f = (concat (firstn (Z.to_nat n) chunks), Ok (norm m)).
Proof. exact list_too_long. Qed.
Print Assumptions C75_list_too_long.

(** ** Arrays through memory, any layout and any data type that goes through a file. *)
Theorem C75_array_through_memory : forall E, EnvOK E -> forall N N' a csa oba obp oma s r, nd_ok a -> NpOK N N' (nd_dtype a) ->
  pack_ndarray E N a (mem_sink E) csa oba obp oma cms_new = (s, Ok r) ->
  exists x, unpack_array_from_memory E N' s = Ok x /\ same_array a x.
Proof. exact array_through_memory. Qed.
Print Assumptions C75_array_through_memory.

(** Cases. *)
Definition ex_noff : option bpargs := Some (mkBPA false "crc32" (MAInt 0)).
Definition ex_badma : option margs := Some (mkMA (b_of_string "JSON") "nosuch" "None" 0 (MMInt 4700)).
Example C75_case_memory :
  match pack_to_memory toy_env (between ex_file (ex_data ++ ex_file) []) 47 (CSInt 20) ex_meta None (Some ex_bp) None with
  | (i, s, Ok tt) => i = between (ex_file ++ ex_data) ex_file [] /\ List.length (cm_chunks s) = 3%nat /\
      fst (unpack_memory_to_file toy_env s (fp_of [])) = mkfp ex_data 47 (numbered 0 ex_data)
  | _ => False
  end /\ snd (pack_to_memory toy_env (fp_of ex_data) 47 (CSInt 20) ex_meta None (Some ex_bp) ex_badma) = Ok tt /\
  (exists e, pack_bytes_to_bytes toy_env ex_data (CSInt 20) ex_meta None (Some ex_bp) ex_badma = Raise e) /\
  pms_chunks (snd (fst (unpack_file_to_list toy_env (fp_of ex_file) (pms_new (Some 5))))) =
    [Some (sub 0 20 ex_data); Some (sub 20 20 ex_data); Some (sub 40 7 ex_data); None; None].
Proof.
  split; [vm_compute; repeat split; reflexivity|]. split; [vm_compute; reflexivity|].
  split; [exists NoSuchChecksum; vm_compute; reflexivity|vm_compute; reflexivity].
Qed.
Example C75_case_lists :
  (let '(f, r) := pack_list_to_file toy_env ex_chunks 3 (-1) (-1) ex_meta None None None in r = Ok tt /\
     unpack_bytes_from_bytes toy_env f = Ok (concat ex_chunks, norm ex_meta)) /\
  (let '(f, r) := pack_list_to_file toy_env ex_chunks 5 100 50 ex_meta None None None in r = Ok tt /\
     unpack_core toy_env f = (concat ex_chunks, Raise IndexError)) /\
  snd (pack_list_to_file toy_env ex_chunks 2 (-1) (-1) ex_meta None None None) = Raise IndexError /\
  snd (pack_list_to_file toy_env (firstn 2 ex_chunks) 2 (-1) (-1) ex_meta None None None) = Ok tt /\
  (let '(f, r) := pack_list_to_file toy_env ex_chunks 1 (-1) (-1) ex_meta None ex_noff None in r = Ok tt /\
     unpack_core toy_env f = (ex_data, Ok (norm ex_meta))).
Proof.
  vm_compute. repeat split; reflexivity.
Qed.
Example C75_case_array :
  match pack_ndarray toy_env ex_np1 ex_view (mem_sink toy_env) (CSInt 10) None None None cms_new with
  | (s, Ok _) => List.length (cm_chunks s) = 3%nat /\ match unpack_array_from_memory toy_env ex_np2 s with Ok x => nd_shape x = [4; 3] | Raise _ => False end
  | _ => False
  end.
Proof. vm_compute. split; reflexivity. Qed.
