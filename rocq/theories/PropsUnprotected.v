(** C59-C61: changes to a file that nothing notices. *)
From Verif Require Import Base PyVal Checksums Headers Pretty Args FileIO Append Files NumpyIO Spec NumpySpec Json Toy ToyNumpy MetaProofs Archive Damage Unprotected
  HistoryProofs UnprotectedProofs NumpyAppend PropsPack PropsAppend PropsNumpy.

(** ** C59: appending to a file that holds an array.  The bytes are appended, the
    description of the array stays, and unpacking the array then writes past its
    end: always, whatever the array and whatever is appended. *)
Theorem C59_append_to_array : forall E, EnvOK E -> forall N N' a csa oba obp oma f new oa f' k,
  nd_ok a -> NpOK N N' (nd_dtype a) ->
  pack_ndarray_to_bytes E N a csa oba obp oma = Ok f -> new <> [] -> sizable f new ->
  append_bytes E f new oa = (f', Ok k) ->
  unpack_bytes_from_bytes E f' = Ok (array_bytes a ++ new, norm (ndarray_meta N a)) /\
  unpack_ndarray_from_bytes E N' f' = Raise MemoryFault.
Proof. exact array_append. Qed.
Print Assumptions C59_append_to_array.
(** After any history: whenever the contents have outgrown the array. *)
Theorem C59_outgrown : forall E, EnvOK E -> forall N N' a f b,
  nd_ok a -> NpOK N N' (nd_dtype a) -> archive E f b (norm (ndarray_meta N a)) ->
  nd_size a * nd_itemsize a < size b -> unpack_ndarray_from_bytes E N' f = Raise MemoryFault.
Proof. exact array_archive. Qed.
Print Assumptions C59_outgrown.
Definition ex_arr : bytes := ex_np_file ex_view 10.
Definition ex_arr1 : bytes := fst (append_bytes toy_env ex_arr ex_new2 no_obargs).
Example C59_case : nd_ok ex_view /\ NpOK ex_np1 ex_np2 (nd_dtype ex_view) /\
  pack_ndarray_to_bytes toy_env ex_np1 ex_view (CSInt 10) None None None = Ok ex_arr /\
  sizable ex_arr ex_new2 /\ snd (append_bytes toy_env ex_arr ex_new2 no_obargs) = Ok 0.
Proof.
  split; [repeat constructor; cbn; try discriminate|]. split; [apply C34_case_oks|]. split; [vm_compute; reflexivity|].
  split; [vm_compute; discriminate|vm_compute; reflexivity].
Qed.

(** ** C60: the chunks are not tied to their places.  Put any chunks of a file, in
    any order and with any repetitions, behind its first part, as many as there
    were: unpacking succeeds, every digest being right, and gives those pieces. *)
Theorem C60_any_order : forall E, EnvOK E -> forall f b m p,
  archive E f b m -> Forall (fun i => 0 <= i < F_n f) p -> Z.of_nat (List.length p) = F_n f ->
  unpack_bytes_from_bytes E (reassembled f p) = Ok (concat (map (fun i => sub (i * F_chunk f) (F_chunk f) b) p), m).
Proof. exact shuffled. Qed.
Print Assumptions C60_any_order.
(** So a changed file can unpack, with checksums, to other contents. *)
Theorem C60_order_protected_refuted : exists E f b m g b', EnvOK E /\ archive E f b m /\ F_digest f = 4 /\ size g = size f /\
  unpack_bytes_from_bytes E g = Ok (b', m) /\ b' <> b.
Proof.
  exists toy_env, ex_f5, ((ex_data ++ ex_new1) ++ ex_new2), (norm ex_meta2), (reassembled ex_f5 [3; 0; 0; 1]).
  exists (concat (map (fun i => sub (i * F_chunk ex_f5) (F_chunk ex_f5) ((ex_data ++ ex_new1) ++ ex_new2)) [3; 0; 0; 1])).
  split; [exact toy_env_ok|]. split; [exact ex_f5_archive|]. split; [vm_compute; reflexivity|]. split; [vm_compute; reflexivity|].
  split; [apply (C60_any_order toy_env toy_env_ok); [exact ex_f5_archive| |vm_compute; reflexivity]|vm_compute; discriminate].
  repeat constructor; vm_compute; congruence.
Qed.
Print Assumptions C60_order_protected_refuted.

(** ** C61: nothing protects the numbers in the header.  Whatever is written over
    the type size, the chunk size and the last chunk size, unpacking does not look
    at it ([j] = 0); and taking [j] chunks off the count, which a file with offsets
    has to give to the spare ones, cuts the contents off without an error. *)
Theorem C61_numbers : forall E, EnvOK E -> forall f b m g j,
  archive E f b m -> renumbered f g -> 0 <= j <= F_n f -> F_n g = F_n f - j ->
  (has_offsets f = true -> F_max g = F_max f + j) ->
  unpack_bytes_from_bytes E g = Ok (sub 0 ((F_n f - j) * F_chunk f) b, m).
Proof. exact renumbering. Qed.
Print Assumptions C61_numbers.
(** Type size 0, chunk size and last chunk 5, 2 chunks, 3 spare ones. *)
Definition ex_short : bytes :=
  sub 0 7 ex_f5 ++ [x00] ++ [x05; x00; x00; x00] ++ [x05; x00; x00; x00] ++
  [x02; x00; x00; x00; x00; x00; x00; x00] ++ [x03; x00; x00; x00; x00; x00; x00; x00] ++ skipn 32 ex_f5.
Example C61_case : renumbered ex_f5 ex_short /\ F_n ex_f5 = 4 /\ F_n ex_short = 2 /\ F_max ex_short = F_max ex_f5 + 2 /\
  (F_typesize ex_f5, F_chunk ex_f5, F_last ex_f5) <> (F_typesize ex_short, F_chunk ex_short, F_last ex_short) /\
  unpack_bytes_from_bytes toy_env ex_short = Ok (sub 0 40 ex_data, norm ex_meta2).
Proof.
  split; [|split; [vm_compute; reflexivity|]; split; [vm_compute; reflexivity|]; split; [vm_compute; reflexivity|];
           split; [vm_compute; discriminate|vm_compute; reflexivity]].
  split; [|split; [vm_compute; reflexivity|vm_compute; intuition congruence]].
  intros i Hi. assert (X : (Z.to_nat i < 7)%nat) by lia. revert X. generalize (Z.to_nat i). clear.
  intros n Hn. do 7 (destruct n as [|n]; [vm_compute; reflexivity|]). lia.
Qed.
