(** Proofs about printed values being readable. *)
From Verif Require Import Base Checksums Headers Pretty Args FileIO Objects Log ObjectsSpec ReprSpec Spec BaseLemmas HeaderProofs PrettyProofs ObjectsProofs.

Lemma read_rest_char q c r : q = squote \/ q = dquote ->
  read_rest q (repr_char q c ++ r) = option_map (cons c) (read_rest q r).
Proof. intros [-> | ->]; destruct c as [[] [] [] [] [] [] [] []]; reflexivity. Qed.
Lemma read_rest_body q s : q = squote \/ q = dquote -> read_rest q (flat_map (repr_char q) s ++ [q]) = Some s.
Proof.
  intros Q. induction s as [|c s IH]; cbn [flat_map app].
  - cbn [read_rest]. rewrite Ascii.eqb_refl. reflexivity.
  - rewrite <- app_assoc, read_rest_char, IH by exact Q. reflexivity.
Qed.
Lemma repr_quoted_shape s : exists q, (q = squote \/ q = dquote) /\ repr_quoted s = q :: flat_map (repr_char q) s ++ [q].
Proof. unfold repr_quoted. destruct (_ && _); [exists dquote|exists squote]; auto. Qed.
Lemma read_quoted_repr s : read_quoted (repr_quoted s) = Some s.
Proof.
  destruct (repr_quoted_shape s) as (q & Q & ->). unfold read_quoted.
  replace (Ascii.eqb q squote || Ascii.eqb q dquote) with true by (destruct Q as [-> | ->]; reflexivity). apply read_rest_body. exact Q.
Qed.
Lemma digit_10 v : 0 <= v < 10 -> digit_of 10 (ascii_of_nat (Z.to_nat (48 + v))) = Some v.
Proof.
  intros H. unfold digit_of. rewrite nat_ascii_embedding by lia. rewrite Z2Nat.id by lia.
  replace ((48 <=? 48 + v) && (48 + v <=? 57)) with true by lia. replace (48 + v - 48) with v by lia. replace (v <? 10) with true by lia. reflexivity.
Qed.
Lemma read_digits_take l : Forall digit_char l -> forall acc cnt, exists n, take_digits acc cnt l = (n, cnt + Z.of_nat (List.length l), []) /\ read_digits acc l = Some n.
Proof.
  induction 1 as [|c l (v & Hv & ->) _ IH]; intros acc cnt; cbn [take_digits read_digits List.length].
  - exists acc. rewrite Z.add_0_r. auto.
  - rewrite digit_val_of, digit_10 by exact Hv. destruct (IH (10 * acc + v) (cnt + 1)) as (n & T & R). exists n. rewrite T. split; [|exact R].
    do 2 f_equal. lia.
Qed.
Lemma read_digits_dec z : 0 <= z -> read_digits 0 (dec_of z) = Some z.
Proof.
  intros Hz. destruct (read_digits_take _ (dec_of_chars z) 0 0) as (n & T & R). destruct (dec_of_take z Hz) as (len & _ & D).
  specialize (D 0 0 []). rewrite app_nil_r, T in D. cbn [take_digits] in D. injection D as D _. rewrite R. f_equal. lia.
Qed.
Lemma dec_of_shape z : exists c r, dec_of z = c :: r /\ digit_char c.
Proof.
  pose proof (dec_of_chars z) as F. destruct (dec_of z) as [|c r] eqn:D; [|inversion F; eauto].
  exfalso. unfold dec_of in D. revert D. generalize (Z.to_nat (Z.log2 z)). intros f D.
  assert (X : forall f z acc, acc <> [] -> dec_digits f z acc <> []).
  { induction f0 as [|f0 IH]; intros z0 acc H; [exact H|]. cbn [dec_digits]. destruct (z0 <? 10); [discriminate|apply IH; discriminate]. }
  cbn [dec_digits] in D. destruct (z <? 10); [discriminate|]. revert D. apply X. discriminate.
Qed.
Lemma read_int_text z : read_int (int_text z) = Some z.
Proof.
  unfold int_text. destruct (z <? 0) eqn:N.
  - cbn [read_int]. rewrite Ascii.eqb_refl. pose proof (read_digits_dec (- z) ltac:(lia)) as R.
    destruct (dec_of_shape (- z)) as (c & r & D & _). rewrite D in *. rewrite R. cbn [option_map]. f_equal. lia.
  - pose proof (read_digits_dec z ltac:(lia)) as R. destruct (dec_of_shape z) as (c & r & D & C). rewrite D in *. cbn [read_int].
    destruct (Ascii.eqb c "-") eqn:M; [|exact R]. apply Ascii.eqb_eq in M. destruct (digit_char_not _ "-" C); [left; cbn; lia|exact M].
Qed.
Lemma byte_of_ascii b : byte_of (ascii_of_byte b) = b.
Proof.
  unfold byte_of, ascii_of_byte. rewrite N_ascii_embedding by (pose proof (Byte.to_N_bounded b); lia). rewrite Byte.of_to_N. reflexivity.
Qed.
Theorem read_repr v : (forall n, v <> OCall n) -> read_value (oval_repr v) = Some v.
Proof.
  destruct v as [|b|z|s|s|n]; intros NC; try reflexivity.
  - destruct b; reflexivity.
  - cbn [oval_repr]. assert (S : exists c r, int_text z = c :: r /\ (digit_char c \/ c = "-"%char)).
    { unfold int_text. destruct (z <? 0); [eauto|]. destruct (dec_of_shape z) as (c & r & -> & C). eauto. }
    destruct S as (c & r & S & C).
    assert (X : forall d, (nat_of_ascii d < 48 \/ 58 <= nat_of_ascii d)%nat -> d <> "-"%char -> c <> d).
    { intros d Hd Nd. destruct C as [C | ->]; [exact (digit_char_not _ _ C Hd)|congruence]. }
    unfold read_value. pose proof (read_int_text z) as R. rewrite S in *.
    destruct (list_eq_dec ascii_dec (c :: r) (t_ "None")) as [E|_]; [exfalso; injection E as E _; revert E; apply X; [right; cbn; lia|discriminate]|].
    destruct (list_eq_dec ascii_dec (c :: r) (t_ "True")) as [E|_]; [exfalso; injection E as E _; revert E; apply X; [right; cbn; lia|discriminate]|].
    destruct (list_eq_dec ascii_dec (c :: r) (t_ "False")) as [E|_]; [exfalso; injection E as E _; revert E; apply X; [right; cbn; lia|discriminate]|].
    assert (Y : forall d, (nat_of_ascii d < 48 \/ 58 <= nat_of_ascii d)%nat -> d <> "-"%char -> Ascii.eqb c d = false).
    { intros d H1 H2. apply Ascii.eqb_neq. auto. }
    rewrite !Y by (first [left; cbn; lia | right; cbn; lia | discriminate]). cbn [orb]. rewrite R. reflexivity.
  - cbn [oval_repr]. pose proof (read_quoted_repr s) as R. destruct (repr_quoted_shape s) as (q & Q & EQ). rewrite EQ in *. unfold read_value.
    destruct (list_eq_dec _ _ _) as [E|_]; [exfalso; injection E as E _; destruct Q; subst; discriminate|].
    destruct (list_eq_dec _ _ _) as [E|_]; [exfalso; injection E as E _; destruct Q; subst; discriminate|].
    destruct (list_eq_dec _ _ _) as [E|_]; [exfalso; injection E as E _; destruct Q; subst; discriminate|].
    rewrite R. destruct Q; subst; reflexivity.
  - cbn [oval_repr]. unfold read_value.
    destruct (list_eq_dec _ _ _) as [E|_]; [discriminate|].
    destruct (list_eq_dec _ _ _) as [E|_]; [discriminate|].
    destruct (list_eq_dec _ _ _) as [E|_]; [discriminate|].
    rewrite read_quoted_repr. cbn [Ascii.eqb Bool.eqb option_map]. do 2 f_equal. rewrite map_map. erewrite map_ext; [apply map_id|]. apply byte_of_ascii.
  - destruct (NC n eq_refl).
Qed.

(** ** Reports *)
Lemma shown_repr v : (forall n, v <> OCall n) -> shown v (oval_repr v).
Proof. left. apply read_repr. exact H. Qed.
Lemma shown_size z : shown (OInt z) (size_value z).
Proof.
  unfold size_value. destruct (z =? -1); [left; exact (read_repr (OInt z) ltac:(discriminate))|].
  right. unfold double_pretty_size. eexists _, _, _. split; [reflexivity|]. split; [reflexivity|]. apply read_int_text.
Qed.
Lemma shown_field n k v t : shown v t -> shown_line n (k, v) (repeat " "%char n ++ field k t).
Proof. intros H. exists t. split; [reflexivity|exact H]. Qed.
Theorem header_lines i h x : snd (pformat i (header_obj h)) = Ok x ->
  exists ls, lines x (t_ "BloscpackHeader:" :: ls) /\
    Forall2 (shown_line i)
      [("format_version", OInt (h_version h)); ("offsets", OBool (h_offsets h)); ("metadata", OBool (h_metadata h));
       ("checksum", OStr (t_ (cks_name (h_checksum h)))); ("typesize", OInt (h_typesize h)); ("chunk_size", OInt (h_chunk_size h));
       ("last_chunk", OInt (h_last_chunk h)); ("nchunks", OInt (h_nchunks h)); ("max_app_chunks", OInt (h_max_app h))]%string ls.
Proof.
  rewrite pformat_header. cbn [snd]. intros EQ. injection EQ as <-. exists (map (app (repeat " "%char i)) (header_fields h)). split.
  - apply (report_lines (t_ "BloscpackHeader:")); [cbv; intuition discriminate|apply header_fields_lacks|discriminate].
  - unfold header_fields. cbn [map].
    constructor; [apply shown_field, (shown_repr (OInt _)); discriminate|].
    constructor; [apply shown_field, (shown_repr (OBool _)); discriminate|].
    constructor; [apply shown_field, (shown_repr (OBool _)); discriminate|].
    constructor; [apply shown_field, (shown_repr (OStr _)); discriminate|].
    constructor; [apply shown_field, (shown_repr (OInt _)); discriminate|].
    constructor; [apply shown_field, shown_size|].
    constructor; [apply shown_field, shown_size|].
    constructor; [apply shown_field, (shown_repr (OInt _)); discriminate|].
    constructor; [apply shown_field, (shown_repr (OInt _)); discriminate|]. constructor.
Qed.
Theorem mheader_lines i h x : snd (pformat i (mheader_obj h)) = Ok x ->
  exists ls, lines x (t_ "MetadataHeader:" :: ls) /\
    Forall2 (shown_line i)
      [("magic_format", OBytes (mh_magic h)); ("meta_options", OStr (t_ (mh_options h)));
       ("meta_checksum", OStr (t_ (cks_name (mh_checksum h)))); ("meta_codec", OStr (t_ (codec_name (mh_codec h))));
       ("meta_level", OInt (mh_level h)); ("meta_size", OInt (mh_size h)); ("max_meta_size", OInt (mh_max h));
       ("meta_comp_size", OInt (mh_comp h)); ("user_codec", OBytes (mh_user h))]%string ls.
Proof.
  rewrite pformat_mheader. cbn [snd]. intros EQ. injection EQ as <-. exists (map (app (repeat " "%char i)) (mheader_fields h)). split.
  - apply (report_lines (t_ "MetadataHeader:")); [cbv; intuition discriminate|apply mheader_fields_lacks|discriminate].
  - unfold mheader_fields. cbn [map].
    constructor; [apply shown_field, (shown_repr (OBytes _)); discriminate|].
    constructor; [apply shown_field, (shown_repr (OStr _)); discriminate|].
    constructor; [apply shown_field, (shown_repr (OStr _)); discriminate|].
    constructor; [apply shown_field, (shown_repr (OStr _)); discriminate|].
    constructor; [apply shown_field, (shown_repr (OInt _)); discriminate|].
    constructor; [apply shown_field, shown_size|].
    constructor; [apply shown_field, shown_size|].
    constructor; [apply shown_field, shown_size|].
    constructor; [apply shown_field, (shown_repr (OBytes _)); discriminate|]. constructor.
Qed.

(** ** Levels of debug and normal *)
Theorem debug_prints m s ls j : rank (l_level s) = Some j -> lines m ls -> Exists (fun x => x <> []) ls ->
  (l_out (fst (debug m s)) <> l_out s <-> l_level s = "DEBUG"%string) /\ l_out (fst (normal m s)) <> l_out s.
Proof.
  intros Hj HL NE.
  assert (X : forall i level, rank level = Some i -> (l_out (fst (verbose m level s)) <> l_out s <-> i <= j)).
  { intros i level Hi. rewrite (log_verbose m level s i j ls Hi Hj HL). cbn [fst l_out]. destruct (i <=? j) eqn:L.
    - split; [lia|]. intros _ EQ. apply (f_equal (@List.length text)) in EQ. rewrite app_length, map_length in EQ.
      apply Exists_exists in NE as (x & I & Nx). assert (F : In x (filter has_text ls)) by (apply filter_In; split; [exact I|destruct x; [congruence|reflexivity]]).
      destruct (filter has_text ls); [exact F|cbn [List.length] in EQ; lia].
    - rewrite app_nil_r. split; [congruence|lia]. }
  assert (R : rank (l_level s) = Some 2 <-> l_level s = "DEBUG"%string).
  { split; [|intros ->; reflexivity]. unfold rank. destruct (String.eqb _ "NORMAL"); [discriminate|]. destruct (String.eqb _ "VERBOSE"); [discriminate|].
    destruct (String.eqb _ "DEBUG") eqn:D; [|discriminate]. intros _. apply String.eqb_eq. exact D. }
  assert (B : 0 <= j <= 2).
  { revert Hj. unfold rank. repeat destruct (String.eqb _ _); intros H; try discriminate; injection H as <-; lia. }
  split.
  - unfold debug. rewrite (X 2 "DEBUG"%string eq_refl), <- R, Hj. split; [intros; f_equal; lia|intros H; injection H as ->; lia].
  - unfold normal. apply (X 0 "NORMAL"%string eq_refl). lia.
Qed.
(** ** Attributes announced and missing; the items of BloscArgs *)
Lemma getattr_missing k l : ~ In k (map fst l) -> getattr k l = Raise AttributeError.
Proof.
  induction l as [|(k', v) l IH]; cbn [map In getattr fst]; intros H; [reflexivity|].
  destruct (String.eqb k k') eqn:E; [apply String.eqb_eq in E; subst; tauto|]. apply IH. tauto.
Qed.
Theorem missing_attribute o k : In k (o_attrs o) -> ~ In k (map fst (o_vars o)) -> o_getitem k o = (o, Raise AttributeError).
Proof.
  intros I N. unfold o_getitem. apply mem_in in I. rewrite I, getattr_missing by exact N. reflexivity.
Qed.
Theorem bargs_items a : o_items (bargs_obj a) = (bargs_obj a,
  Ok [("typesize", OInt (ba_typesize a)); ("clevel", OInt (ba_clevel a)); ("shuffle", OBool (ba_shuffle a)); ("cname", OStr (t_ (ba_cname a)))]%string).
Proof. reflexivity. Qed.
(** repr() of the three argument objects. *)
Theorem args_repr a b m nm :
  snd (o_repr (bargs_obj a)) = Ok (t_ "BloscArgs(typesize=" ++ int_text (ba_typesize a) ++ t_ ", clevel=" ++ int_text (ba_clevel a) ++
    t_ ", shuffle=" ++ (if ba_shuffle a then t_ "True" else t_ "False") ++ t_ ", cname=" ++ oval_repr (OStr (t_ (ba_cname a))) ++ t_ ")") /\
  snd (o_repr (bpargs_obj nm b)) = Ok (t_ "BloscpackArgs(offsets=" ++ (if bp_offsets b then t_ "True" else t_ "False") ++ t_ ", checksum=" ++
    oval_repr (OStr (t_ (bp_checksum b))) ++ t_ ", max_app_chunks=" ++ (match bp_max_app b with MAInt z => int_text z | _ => nm end) ++ t_ ")") /\
  snd (o_repr (margs_obj nm m)) = Ok (t_ "MetadataArgs(magic_format=b" ++ repr_quoted (map ascii_of_byte (ma_magic m)) ++ t_ ", meta_checksum=" ++
    oval_repr (OStr (t_ (ma_checksum m))) ++ t_ ", meta_codec=" ++ oval_repr (OStr (t_ (ma_codec m))) ++ t_ ", meta_level=" ++ int_text (ma_level m) ++
    t_ ", max_meta_size=" ++ (match ma_max m with MMInt z => int_text z | _ => nm end) ++ t_ ")").
Proof.
  split; [|split].
  - destruct a as [ts cl [|] cn]; cbn -[int_text repr_quoted]; repeat (rewrite <- ?app_assoc; cbn [app]); rewrite <- ?app_assoc; reflexivity.
  - destruct b as [[|] ck [z|f|]]; cbn -[int_text repr_quoted]; repeat (rewrite <- ?app_assoc; cbn [app]); rewrite <- ?app_assoc; reflexivity.
  - destruct m as [mg ck cd lv [z|f|]]; cbn -[int_text repr_quoted]; repeat (rewrite <- ?app_assoc; cbn [app]); rewrite <- ?app_assoc; reflexivity.
Qed.
(** keyword arguments: the values can be taken out by name. *)
Theorem args_items b m nm :
  snd (o_items (bpargs_obj nm b)) = Ok [("offsets", OBool (bp_offsets b)); ("checksum", OStr (t_ (bp_checksum b)));
    ("max_app_chunks", match bp_max_app b with MAInt z => OInt z | _ => OCall nm end)]%string /\
  snd (o_items (margs_obj nm m)) = Ok [("magic_format", OBytes (ma_magic m)); ("meta_checksum", OStr (t_ (ma_checksum m)));
    ("meta_codec", OStr (t_ (ma_codec m))); ("meta_level", OInt (ma_level m)); ("max_meta_size", match ma_max m with MMInt z => OInt z | _ => OCall nm end)]%string.
Proof. split; reflexivity. Qed.

(** Printed values are printable, and printable text is printed as it is. *)
Definition printableb (c : ascii) : bool := (Nat.leb 32 (nat_of_ascii c) && Nat.leb (nat_of_ascii c) 126)%bool.
Lemma printableb_ok c : printableb c = true -> printable c.
Proof. unfold printableb, printable. intros H. apply andb_prop in H as [H1 H2]. apply Nat.leb_le in H1, H2. auto. Qed.
Lemma repr_char_printable q c : q = squote \/ q = dquote -> Forall printable (repr_char q c).
Proof.
  intros Q. assert (F : forallb printableb (repr_char q c) = true).
  { destruct Q as [-> | ->]; [pattern c; apply (sweep (fun c => forallb printableb (repr_char squote c)))|pattern c; apply (sweep (fun c => forallb printableb (repr_char dquote c)))]; vm_compute; reflexivity. }
  rewrite forallb_forall in F. apply Forall_forall. intros x I. apply printableb_ok, F, I.
Qed.
Lemma repr_quoted_printable s : Forall printable (repr_quoted s).
Proof.
  destruct (repr_quoted_shape s) as (q & Q & ->). assert (P : printable q) by (destruct Q as [-> | ->]; vm_compute; lia).
  constructor; [exact P|]. apply Forall_app. split; [|constructor; [exact P|constructor]].
  induction s as [|c s IH]; cbn [flat_map]; [constructor|]. apply Forall_app. split; [apply repr_char_printable; exact Q|exact IH].
Qed.
Lemma repr_printable v : (forall n, v <> OCall n) -> Forall printable (oval_repr v).
Proof.
  intros H. destruct v as [|[]|z|s|b|n]; cbn [oval_repr].
  - repeat constructor; vm_compute; lia.
  - repeat constructor; vm_compute; lia.
  - repeat constructor; vm_compute; lia.
  - assert (D : Forall printable (dec_of (Z.abs z))).
    { eapply Forall_impl; [|apply dec_of_chars]. intros c (v & Hv & ->). unfold printable. rewrite nat_ascii_embedding by lia. lia. }
    unfold int_text. destruct (z <? 0) eqn:Z0; [constructor; [vm_compute; lia|]; replace (- z) with (Z.abs z) by lia; exact D|replace z with (Z.abs z) by lia; exact D].
  - apply repr_quoted_printable.
  - constructor; [vm_compute; lia|apply repr_quoted_printable].
  - destruct (H n eq_refl).
Qed.
Lemma repr_char_plain c : printable c -> c <> squote -> c <> "\"%char -> repr_char squote c = [c].
Proof.
  intros P Q B. unfold repr_char. replace (Ascii.eqb c squote) with false by (symmetry; apply Ascii.eqb_neq; exact Q).
  assert (N : nat_of_ascii c <> 92%nat).
  { intros N. apply B. rewrite <- (ascii_nat_embedding c), N. reflexivity. }
  unfold printable in P. replace (Z.of_nat (nat_of_ascii c) =? 92) with false by lia. cbn [orb].
  replace (Z.of_nat (nat_of_ascii c) =? 9) with false by lia. replace (Z.of_nat (nat_of_ascii c) =? 10) with false by lia.
  replace (Z.of_nat (nat_of_ascii c) =? 13) with false by lia. replace (Z.of_nat (nat_of_ascii c) <? 32) with false by lia.
  replace (127 <=? Z.of_nat (nat_of_ascii c)) with false by lia. reflexivity.
Qed.
Lemma repr_plain s : Forall (fun c => printable c /\ c <> squote /\ c <> "\"%char) s -> oval_repr (OStr s) = [squote] ++ s ++ [squote].
Proof.
  intros F. cbn [oval_repr]. unfold repr_quoted.
  assert (X : existsb (Ascii.eqb squote) s = false).
  { apply Bool.not_true_is_false. intros X. apply existsb_exists in X as (c & I & X). apply Ascii.eqb_eq in X. rewrite Forall_forall in F. destruct (F c I) as (_ & N & _). congruence. }
  rewrite X. cbn [andb app]. f_equal. f_equal. clear X. induction F as [|c s (P & Q & B) _ IH]; cbn [flat_map]; [reflexivity|]. rewrite repr_char_plain by auto. cbn [app]. f_equal. exact IH.
Qed.
Lemma size_text_shape a : exists t n, double_pretty_size a = t ++ t_ " (" ++ n ++ t_ "B)" /\ read_int n = Some a /\
  (0 <= a -> t = t_ (pretty_size a)) /\ (a < 0 -> t = t_ "None").
Proof.
  unfold double_pretty_size. exists (if a <? 0 then t_ "None" else t_ (pretty_size a)), (int_text a). split; [reflexivity|]. split.
  - apply read_int_text.
  - split; intros H; destruct (a <? 0) eqn:L; try reflexivity; lia.
Qed.
