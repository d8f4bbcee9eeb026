(** C94: an archive appended to itself. *)
From Verif Require Import Base PyVal Checksums Headers Args FileIO Append Spec Archive Toy Stream Itself CrashProofs ItselfProofs PropsPack PropsAppend.

(** ** While it runs only the last chunk and what follows may change *)
Theorem C94_meanwhile : forall E, EnvOK E -> forall f b m oa g, archive E f b m -> meanwhile E f oa g ->
  size f <= size g /\ agree 0 (F_last_start f) f g.
Proof. exact meanwhile_front. Qed.
Print Assumptions C94_meanwhile.

(** ** It is an append of bytes of which all before the last chunk, and all that fit into
    the last chunk, are those of the archive; a failure leaves the archive as it was *)
Theorem C94_result : forall E, EnvOK E -> forall f b m view oa, archive E f b m -> view O = f -> (forall i, glimpse E f oa (view i)) ->
  exists x, size x = size f /\ agree 0 (Z.min (size f) (F_last_start f)) f x /\ agree 0 (Z.min (size f) (F_chunk f - F_last f)) f x /\
    (forall k, 0 <= k < size f -> exists g, meanwhile E f oa g /\ nth_error x (Z.to_nat k) = nth_error g (Z.to_nat k)) /\
    append_to_itself E f view oa = append_bytes E f x oa /\
    (sizable f f -> match append_to_itself E f view oa with
      | (f', Ok k) => unpack_bytes_from_bytes E f' = Ok (b ++ x, m)
      | (f', Raise e) => f' = f end).
Proof. exact itself_result. Qed.
Print Assumptions C94_result.

(** ** When one read is enough, or nothing of what is written is seen: the archive as it was is added *)
Theorem C94_faithful : forall E, EnvOK E -> forall f b m view oa f' k, archive E f b m -> view O = f -> (forall i, glimpse E f oa (view i)) -> sizable f f ->
  size f <= F_chunk f - F_last f \/ (forall i, view i = f) ->
  append_to_itself E f view oa = (f', Ok k) -> unpack_bytes_from_bytes E f' = Ok (b ++ f, m).
Proof. exact itself_faithful. Qed.
Print Assumptions C94_faithful.

(** ** Otherwise not: the end of the added copy is read after the last chunk was rewritten *)
Definition ex_short : bytes := b_of_string "abcdefghijklmnopqrstuvwx".
Definition ex_self : bytes := match pack_bytes_to_bytes toy_env ex_short (CSInt 16) PNone None (Some (mkBPA true "crc32" (MAInt 40))) None with Ok f => f | _ => [] end.
Lemma ex_self_archive : archive toy_env ex_self ex_short (norm PNone).
Proof. apply (ar_pack toy_env ex_short (CSInt 16) PNone None (Some (mkBPA true "crc32" (MAInt 40))) None). vm_compute. reflexivity. Qed.
(** the first read answered, the second not *)
Definition ex_half : bytes := fst (append_stream toy_env ex_self (size ex_self) (fun i => match i with O => Ok (sub 0 8 ex_self) | _ => Raise OSError end) no_obargs).
Definition ex_view (i : nat) : bytes := match i with O => ex_self | _ => ex_half end.
Lemma ex_view_glimpses : forall i, glimpse toy_env ex_self no_obargs (ex_view i).
Proof.
  intros [|i].
  - split; [vm_compute; discriminate|]. intros k _. exists ex_self. split; [left; reflexivity|reflexivity].
  - split; [vm_compute; discriminate|]. intros k _. exists ex_half. split; [|reflexivity]. right.
    exists (fun i => match i with O => Ok (sub 0 8 ex_self) | _ => Raise OSError end), OSError. split; vm_compute; reflexivity.
Qed.
Definition ex_doubled : bytes := fst (append_to_itself toy_env ex_self ex_view no_obargs).
Theorem C94_copy_refuted : exists E f b m view oa f' k, EnvOK E /\ archive E f b m /\ view O = f /\ (forall i, glimpse E f oa (view i)) /\ sizable f f /\
  append_to_itself E f view oa = (f', Ok k) /\ unpack_bytes_from_bytes E f' <> Ok (b ++ f, m).
Proof.
  exists toy_env, ex_self, ex_short, (norm PNone), ex_view, no_obargs, ex_doubled, 27.
  split; [exact toy_env_ok|]. split; [exact ex_self_archive|]. split; [reflexivity|]. split; [exact ex_view_glimpses|].
  split; [vm_compute; discriminate|]. split; [vm_compute; reflexivity|]. vm_compute. discriminate.
Qed.
Print Assumptions C94_copy_refuted.
(** The 404 bytes before the last chunk are copied, the 28 after it not all. *)
Example C94_case : size ex_self = 432 /\ F_last_start ex_self = 404 /\ F_chunk ex_self - F_last ex_self = 8 /\
  exists x, unpack_bytes_from_bytes toy_env ex_doubled = Ok (ex_short ++ x, PNone) /\ size x = 432 /\ sub 0 404 x = sub 0 404 ex_self /\ sub 404 28 x <> sub 404 28 ex_self.
Proof.
  split; [vm_compute; reflexivity|]. split; [vm_compute; reflexivity|]. split; [vm_compute; reflexivity|].
  exists (sub 0 432 ex_half). split; [vm_compute; reflexivity|]. split; [vm_compute; reflexivity|]. split; [vm_compute; reflexivity|]. vm_compute. discriminate.
Qed.
(** Reads that see nothing new. *)
Example C94_case_faithful : unpack_bytes_from_bytes toy_env (fst (append_to_itself toy_env ex_self (fun _ => ex_self) no_obargs)) = Ok (ex_short ++ ex_self, PNone).
Proof.
  apply (C94_faithful toy_env toy_env_ok ex_self ex_short PNone (fun _ => ex_self) no_obargs _ 27 ex_self_archive eq_refl).
  - intros _. exact (ex_view_glimpses O).
  - vm_compute. discriminate.
  - right. reflexivity.
  - vm_compute. reflexivity.
Qed.
