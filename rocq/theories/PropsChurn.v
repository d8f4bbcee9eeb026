(** C95: processes that rewrite the metadata of one file, reading while the others write. *)
From Verif Require Import Base PyVal Checksums Headers Args FileIO Append Spec Archive Toy Overlap Stir Churn ChurnProofs CrashProofs PropsPack PropsAppend PropsStir.

(** ** The model: on a file at rest a rewriter does what C88's do *)
Theorem C95_model : forall E f m ov, EnvOK E -> e_mem E = false ->
  rewrite_live E (fun _ => f) m ov = (rewrite_log E f m ov, snd (rewrite_metadata E m ov (fp_of f))).
Proof. exact rewrite_live_static. Qed.
Print Assumptions C95_model.

(** ** Header, offset table, chunks and the place of everything stay *)
Theorem C95_places : forall E, EnvOK E -> forall f b m g, archive E f b m -> churned E f g ->
  size g = size f /\ agree 0 32 f g /\ agree (F_table f) (size f - F_table f) f g /\ F_table g = F_table f /\ F_body g = F_body f.
Proof. exact churn_places. Qed.
Print Assumptions C95_places.

(** ** Unpacking gives the contents or raises before anything is written: the file left
    behind, and a file still being changed *)
Theorem C95_file : forall E, EnvOK E -> forall f b m g, archive E f b m -> churned E f g ->
  (has_meta f = true -> 64 + u32 52 g <= size f) ->
  (exists e, unpack_core E g = ([], Raise e)) \/ (exists v, unpack_core E g = (b, Ok v)).
Proof. exact churn_file. Qed.
Print Assumptions C95_file.
Theorem C95_reader : forall E, EnvOK E -> forall f b m Sn, archive E f b m -> (forall i, churned E f (Sn i)) ->
  (has_meta f = true -> forall i, 64 + u32 52 (Sn i) <= size f) ->
  (exists e, unpack_live E Sn = ([], Raise e)) \/ (exists v, unpack_live E Sn = (b, Ok v)).
Proof. exact churn_reader. Qed.
Print Assumptions C95_reader.
(** The proviso, from the space set aside. *)
Theorem C95_room : forall E, EnvOK E -> forall f b m g k, archive E f b m -> has_meta f = true -> churned E f g ->
  0 <= k -> u32 48 f < 256 ^ k -> u32 52 g < 256 ^ k.
Proof. exact churn_room. Qed.
Print Assumptions C95_room.

(** A rewriter that sees the metadata header before, and the metadata after, another's rewrite of 5 to 73
    takes 7 for the metadata, and replaces them. *)
Definition ex_plain_ov : overrides := mkOv None None None None.
Lemma ex_five_archive : archive toy_env ex_five ex_data (norm (PInt 5)).
Proof. apply (ar_pack toy_env ex_data (CSInt 20) (PInt 5) None (Some ex_bp) (Some (mkMA (b_of_string "JSON") "None" "None" 6 (MMInt 4)))). vm_compute. reflexivity. Qed.
Definition ex_first : list (Z * byte) := fst (rewrite_live toy_env (fun _ => ex_five) (PInt 73) ex_plain_ov).
Definition ex_second : list (Z * byte) := fst (rewrite_live toy_env ex_view5 (PInt 5) ex_plain_ov).
(** All writes of the first, and all but the last four of the second: 7 is read back, which nobody asked for. *)
Definition ex_churn : bytes := replay (firstn 32 ex_second) (replay ex_first ex_five).
Lemma ex_churn_churned : churned toy_env ex_five ex_churn.
Proof.
  assert (V : forall i, churned toy_env ex_five (ex_view5 i)).
  { assert (B : churned toy_env ex_five ex_rewritten5).
    { assert (EQ : ex_rewritten5 = replay ex_first ex_five) by (vm_compute; reflexivity). rewrite EQ.
      apply (churned_replay toy_env ex_five (fun _ => ex_five) (PInt 73) ex_plain_ov); [intros; constructor| |constructor]. apply Forall_forall. intros w H. exact H. }
    intros [|[|i]]; [constructor|constructor|exact B]. }
  apply (churned_replay toy_env ex_five ex_view5 (PInt 5) ex_plain_ov); [exact V| |].
  - apply Forall_forall. intros w H. assert (S : forall n (l : list (Z * byte)), In w (firstn n l) -> In w l).
    { intros n l HI. rewrite <- (firstn_skipn n l). apply in_or_app. left. exact HI. } exact (S _ _ H).
  - exact (churned_replay toy_env ex_five (fun _ => ex_five) (PInt 73) ex_plain_ov ex_first (fun _ => ch_start _ _) (proj2 (Forall_forall _ _) (fun w H => H)) ex_five (ch_start _ _)).
Qed.
Example C95_case : size ex_five = size ex_churn /\ ex_second <> [] /\ ex_churn <> ex_five /\ ex_churn <> ex_rewritten5 /\
  has_meta ex_five = true /\ 64 + u32 52 ex_churn <= size ex_five /\ unpack_core toy_env ex_churn = (ex_data, Ok (PInt 7)).
Proof. repeat split; try (vm_compute; reflexivity); try (vm_compute; discriminate). Qed.
