(** Proofs about Objects.v and Log.v. *)
From Verif Require Import Base Checksums Headers Pretty Args FileIO Objects Log ObjectsSpec Spec BaseLemmas HeaderProofs PrettyProofs.
From Coq Require Import ZifyBool ZifyNat.
Ltac Zify.zify_post_hook ::= Z.div_mod_to_equations.

(** ** Lines *)
Lemma lacks_app c x y : lacks c (x ++ y) <-> lacks c x /\ lacks c y.
Proof. unfold lacks. rewrite in_app_iff. tauto. Qed.
Lemma lacks_cons c d x : lacks c (d :: x) <-> d <> c /\ lacks c x.
Proof. unfold lacks. cbn [In]. tauto. Qed.
(** cutting at the first c *)
Lemma cut_first c x y x' y' : lacks c x -> lacks c x' -> x ++ c :: y = x' ++ c :: y' -> x = x' /\ y = y'.
Proof.
  revert x'. induction x as [|a x IH]; intros [|a' x'] H H' EQ; cbn [app] in EQ.
  - injection EQ as EQ. auto.
  - injection EQ as -> EQ. apply lacks_cons in H'. tauto.
  - injection EQ as -> EQ. apply lacks_cons in H. tauto.
  - injection EQ as <- EQ. apply lacks_cons in H as [_ H]. apply lacks_cons in H' as [_ H'].
    destruct (IH x' H H' EQ) as [-> ->]. auto.
Qed.

Lemma split_nl_ne m : split_nl m <> [].
Proof. destruct m as [|c m]; cbn [split_nl]; [discriminate|]. destruct (Ascii.eqb c nl); [discriminate|]. destruct (split_nl m); discriminate. Qed.
Lemma split_nl_lacks m : Forall (lacks nl) (split_nl m).
Proof.
  induction m as [|c m IH]; cbn [split_nl]; [constructor; [intros []|constructor]|].
  destruct (Ascii.eqb c nl) eqn:Q; [constructor; [intros []|exact IH]|]. apply Ascii.eqb_neq in Q.
  destruct (split_nl m) as [|x l]; [constructor; [|constructor]; apply lacks_cons; split; [auto|intros []]|].
  inversion IH; subst. constructor; [apply lacks_cons; auto|auto].
Qed.
Lemma split_nl_join m : join_text [nl] (split_nl m) = m.
Proof.
  induction m as [|c m IH]; [reflexivity|]. cbn [split_nl]. pose proof (split_nl_ne m) as NE.
  destruct (Ascii.eqb c nl) eqn:Q.
  - apply Ascii.eqb_eq in Q as ->. destruct (split_nl m) as [|x l]; [congruence|].
    change (join_text [nl] ([] :: x :: l)) with (nl :: join_text [nl] (x :: l)). rewrite IH. reflexivity.
  - destruct (split_nl m) as [|x [|y l]]; [congruence| |]; rewrite <- IH; reflexivity.
Qed.
Lemma split_nl_app x r : lacks nl x -> split_nl (x ++ nl :: r) = x :: split_nl r.
Proof.
  induction x as [|c x IH]; intros H; [reflexivity|]. apply lacks_cons in H as [H1 H2]. cbn [app split_nl].
  apply Ascii.eqb_neq in H1. rewrite H1, IH by auto. reflexivity.
Qed.
Lemma split_nl_one x : lacks nl x -> split_nl x = [x].
Proof.
  induction x as [|c x IH]; intros H; [reflexivity|]. apply lacks_cons in H as [H1 H2]. cbn [split_nl].
  apply Ascii.eqb_neq in H1. rewrite H1, IH by auto. reflexivity.
Qed.
Lemma split_join l : l <> [] -> Forall (lacks nl) l -> split_nl (join_text [nl] l) = l.
Proof.
  intros NE H. induction H as [|x l Hx H IH]; [congruence|]. destruct l as [|y l].
  - apply split_nl_one. auto.
  - change (join_text [nl] (x :: y :: l)) with (x ++ nl :: join_text [nl] (y :: l)). rewrite split_nl_app, IH by (auto; discriminate). reflexivity.
Qed.
Lemma join_indent ind l : l <> [] -> ind ++ join_text (nl :: ind) l = join_text [nl] (map (app ind) l).
Proof.
  intros NE. induction l as [|x l IH]; [congruence|]. destruct l as [|y l]; [reflexivity|].
  change (join_text (nl :: ind) (x :: y :: l)) with (x ++ nl :: ind ++ join_text (nl :: ind) (y :: l)).
  rewrite IH by discriminate. cbn [map]. change (join_text [nl] ((ind ++ x) :: (ind ++ y) :: map (app ind) l)) with ((ind ++ x) ++ nl :: join_text [nl] ((ind ++ y) :: map (app ind) l)).
  rewrite <- app_assoc. reflexivity.
Qed.

(** ** Printing *)
Lemma print_all_run pre l : forall s, print_all pre l s = (mkLog (l_level s) (l_prefix s) (l_out s ++ map (app pre) l), Ok tt).
Proof.
  induction l as [|x l IH]; intros s; cbn [print_all map].
  - unfold ret. rewrite app_nil_r. destruct s; reflexivity.
  - unfold bind, print. rewrite IH. cbn [l_level l_prefix l_out]. rewrite <- app_assoc. reflexivity.
Qed.
Lemma lv_rank l : lv_index l verbosity_levels = match rank l with Some i => Ok i | None => Raise ValueError end.
Proof.
  unfold rank, verbosity_levels, lv_index. destruct (String.eqb l "NORMAL"); [reflexivity|]. destruct (String.eqb l "VERBOSE"); [reflexivity|].
  destruct (String.eqb l "DEBUG"); reflexivity.
Qed.
Lemma mem_rank l : mem l verbosity_levels = match rank l with Some _ => true | None => false end.
Proof.
  unfold rank, verbosity_levels, mem, existsb. destruct (String.eqb l "NORMAL"); [reflexivity|]. destruct (String.eqb l "VERBOSE"); [reflexivity|].
  destruct (String.eqb l "DEBUG"); reflexivity.
Qed.
(** the lines a message is made of *)
Lemma lines_unique m ls : lines m ls -> ls = split_nl m.
Proof. intros (NE & H & ->). symmetry. apply split_join; auto. Qed.
Lemma lines_exist m : lines m (split_nl m).
Proof. split; [apply split_nl_ne|split; [apply split_nl_lacks|symmetry; apply split_nl_join]]. Qed.

Theorem log_verbose m level s i j ls : rank level = Some i -> rank (l_level s) = Some j ->
  lines m ls ->
  verbose m level s = (mkLog (l_level s) (l_prefix s)
    (l_out s ++ if i <=? j then map (fun x => l_prefix s ++ t_ ": " ++ x) (filter has_text ls) else []), Ok tt).
Proof.
  intros Hi Hj HL. rewrite (lines_unique _ _ HL). unfold verbose. rewrite mem_rank, Hi. cbn [negb]. unfold bind, lift.
  rewrite !lv_rank, Hi, Hj. destruct (i <=? j).
  - rewrite print_all_run. do 3 f_equal. apply map_ext. intros x. rewrite <- app_assoc. reflexivity.
  - unfold ret. rewrite app_nil_r. destruct s; reflexivity.
Qed.
Theorem set_level_idle level s : set_level level s = (s, match rank level with Some _ => Ok tt | None => Raise ValueError end).
Proof. unfold set_level. rewrite mem_rank. destruct (rank level); reflexivity. Qed.
Theorem log_error {A} m code s ls : lines m ls ->
  @error A m code s = (mkLog (l_level s) (l_prefix s)
    (l_out s ++ map (fun x => l_prefix s ++ t_ ": error: " ++ x) (filter has_text ls)), Raise (SystemExit code)).
Proof.
  intros HL. rewrite (lines_unique _ _ HL). unfold error, bind. rewrite print_all_run. unfold raise.
  do 3 f_equal. apply map_ext. intros x. rewrite <- app_assoc. reflexivity.
Qed.
Theorem log_bad_level m level s : rank level = None -> verbose m level s = (s, Raise TypeError).
Proof. intros H. unfold verbose. rewrite mem_rank, H. reflexivity. Qed.

(** ** Numbers *)
Definition digit_char (c : ascii) : Prop := exists v, 0 <= v < 10 /\ c = ascii_of_nat (Z.to_nat (48 + v)).
Lemma digit_char_not c d : digit_char c -> (nat_of_ascii d < 48 \/ 58 <= nat_of_ascii d)%nat -> c <> d.
Proof.
  intros (v & Hv & ->) H EQ. rewrite <- EQ in H. rewrite nat_ascii_embedding in H by lia. lia.
Qed.
Lemma dec_digits_chars fuel : forall z acc, Forall digit_char acc -> Forall digit_char (dec_digits fuel z acc).
Proof.
  induction fuel as [|f IH]; intros z acc H; [exact H|]. cbn [dec_digits].
  assert (D : Forall digit_char (ascii_of_nat (Z.to_nat (48 + z mod 10)) :: acc)).
  { constructor; [|exact H]. exists (z mod 10). split; [apply Z.mod_pos_bound; lia|reflexivity]. }
  destruct (z <? 10); [exact D|apply IH; exact D].
Qed.
Lemma dec_of_chars z : Forall digit_char (dec_of z).
Proof. apply dec_digits_chars. constructor. Qed.
Lemma dec_of_lacks c z : (nat_of_ascii c < 48 \/ 58 <= nat_of_ascii c)%nat -> lacks c (dec_of z).
Proof.
  intros H I. pose proof (dec_of_chars z) as F. rewrite Forall_forall in F. apply F in I. exact (digit_char_not _ _ I H eq_refl).
Qed.
Lemma dec_of_inj a b : 0 <= a -> 0 <= b -> dec_of a = dec_of b -> a = b.
Proof.
  intros Ha Hb EQ. destruct (dec_of_take a Ha) as (la & _ & TA). destruct (dec_of_take b Hb) as (lb & _ & TB).
  specialize (TA 0 0 []). specialize (TB 0 0 []). rewrite !app_nil_r in *. rewrite EQ, TB in TA. cbn [take_digits] in TA. injection TA as TA _. lia.
Qed.
Lemma int_text_inj a b : int_text a = int_text b -> a = b.
Proof.
  unfold int_text. destruct (a <? 0) eqn:A, (b <? 0) eqn:B; intros EQ.
  - injection EQ as EQ. apply dec_of_inj in EQ; lia.
  - exfalso. apply (dec_of_lacks "-" b); [left; cbn; lia|]. rewrite <- EQ. left. reflexivity.
  - exfalso. apply (dec_of_lacks "-" a); [left; cbn; lia|]. rewrite EQ. left. reflexivity.
  - apply dec_of_inj in EQ; lia.
Qed.
Lemma int_text_lacks c z : (nat_of_ascii c < 48 \/ 58 <= nat_of_ascii c)%nat -> c <> "-"%char -> lacks c (int_text z).
Proof.
  intros H N. unfold int_text. destruct (z <? 0); [apply lacks_cons; split; [congruence|]|]; apply dec_of_lacks; auto.
Qed.

Lemma pretty_lacks c z : c = nl \/ c = "("%char -> lacks c (t_ (pretty_size z)).
Proof.
  intros Hc. unfold pretty_size. destruct (z =? 0); [destruct Hc as [->| ->]; cbv; intuition discriminate|].
  destruct (pretty_unit z) as [k s] eqn:U. destruct (b64_of z (2 ^ k)) as [m e]. unfold t_. rewrite list_ascii_of_string_of_list_ascii.
  assert (D : forall y, lacks c (dec_of y)) by (intros y; apply dec_of_lacks; destruct Hc as [->| ->]; left; cbn; lia).
  unfold str_hundredths. rewrite !lacks_app. repeat split; auto.
  - intros [X|[]]. subst c. destruct Hc as [X|X]; discriminate.
  - destruct (_ =? 0); [auto|]. rewrite lacks_app. auto.
  - unfold pretty_unit in U. repeat match type of U with context [if ?b then _ else _] => destruct b end;
      injection U as _ <-; intros [X|[]]; subst c; destruct Hc as [X|X]; discriminate.
Qed.
Lemma size_text_lacks z : lacks nl (double_pretty_size z).
Proof.
  unfold double_pretty_size. rewrite !lacks_app. repeat split.
  - destruct (z <? 0); [cbv; intuition discriminate|apply pretty_lacks; auto].
  - cbv. intuition discriminate.
  - apply int_text_lacks; [left; cbn; lia|discriminate].
  - cbv. intuition discriminate.
Qed.
Lemma size_text_inj a b : double_pretty_size a = double_pretty_size b -> a = b.
Proof.
  unfold double_pretty_size. intros EQ.
  assert (L : forall z, lacks "(" ((if z <? 0 then t_ "None" else t_ (pretty_size z)) ++ t_ " ")).
  { intros z. rewrite lacks_app. split; [destruct (z <? 0); [cbv; intuition discriminate|apply pretty_lacks; auto]|cbv; intuition discriminate]. }
  assert (S : forall z, (if z <? 0 then t_ "None" else t_ (pretty_size z)) ++ t_ " (" ++ int_text z ++ t_ "B)" =
                        ((if z <? 0 then t_ "None" else t_ (pretty_size z)) ++ t_ " ") ++ "("%char :: (int_text z ++ t_ "B)")).
  { intros z. rewrite <- app_assoc. reflexivity. }
  rewrite !S in EQ. apply cut_first in EQ as [_ EQ]; [|apply L|apply L]. apply app_inv_tail in EQ. apply int_text_inj. exact EQ.
Qed.
Lemma size_value_inj a b : (if a =? -1 then int_text a else double_pretty_size a) = (if b =? -1 then int_text b else double_pretty_size b) -> a = b.
Proof.
  assert (P : forall z, ~ lacks "(" (double_pretty_size z)).
  { intros z H. unfold double_pretty_size in H. rewrite !lacks_app in H. destruct H as (_ & H & _). apply H. cbv. auto. }
  assert (Q : forall z, lacks "(" (int_text z)) by (intros z; apply int_text_lacks; [left; cbn; lia|discriminate]).
  destruct (a =? -1) eqn:A, (b =? -1) eqn:B; intros EQ; try (apply int_text_inj; exact EQ); try (apply size_text_inj; exact EQ); exfalso.
  - apply (P b). rewrite <- EQ. apply Q.
  - apply (P a). rewrite EQ. apply Q.
Qed.

(** ** repr *)
Definition all_ascii : list ascii := map ascii_of_nat (seq 0 256).
Lemma all_ascii_in c : In c all_ascii.
Proof.
  unfold all_ascii. rewrite <- (ascii_nat_embedding c). apply in_map. apply in_seq. pose proof (nat_ascii_bounded c). lia.
Qed.
Lemma sweep (P : ascii -> bool) : forallb P all_ascii = true -> forall c, P c = true.
Proof. intros H c. rewrite forallb_forall in H. apply H, all_ascii_in. Qed.
Fixpoint prefix_of (x y : text) : bool :=
  match x, y with [], _ => true | a :: x', b :: y' => Ascii.eqb a b && prefix_of x' y' | _, _ => false end.
Lemma prefix_of_app x : forall y p q, x ++ p = y ++ q -> prefix_of x y = true \/ prefix_of y x = true.
Proof.
  induction x as [|a x IH]; intros [|b y] p q EQ; cbn [prefix_of]; auto. cbn [app] in EQ. injection EQ as <- EQ. rewrite Ascii.eqb_refl. cbn [andb]. eapply IH; eauto.
Qed.
Definition prefix_free (q : ascii) : bool :=
  forallb (fun c => forallb (fun d => implb (prefix_of (repr_char q c) (repr_char q d)) (Ascii.eqb c d)) all_ascii) all_ascii.
Lemma prefix_free_s : prefix_free squote = true. Proof. vm_compute. reflexivity. Qed.
Lemma prefix_free_d : prefix_free dquote = true. Proof. vm_compute. reflexivity. Qed.
Lemma prefix_free_use q c d : prefix_free q = true -> prefix_of (repr_char q c) (repr_char q d) = true -> c = d.
Proof.
  intros H P. unfold prefix_free in H. pose proof (sweep _ H c) as H1. cbv beta in H1. pose proof (sweep _ H1 d) as H2. cbv beta in H2.
  rewrite P in H2. apply Ascii.eqb_eq. exact H2.
Qed.
Lemma repr_char_ne q c : repr_char q c <> [].
Proof. unfold repr_char. repeat match goal with |- context [if ?b then _ else _] => destruct b end; discriminate. Qed.
Lemma repr_body_inj q : prefix_free q = true -> forall s s', flat_map (repr_char q) s = flat_map (repr_char q) s' -> s = s'.
Proof.
  intros H. induction s as [|c s IH]; intros [|d s'] EQ; cbn [flat_map] in EQ; auto.
  - symmetry in EQ. apply app_eq_nil in EQ as [EQ _]. destruct (repr_char_ne _ _ EQ).
  - apply app_eq_nil in EQ as [EQ _]. destruct (repr_char_ne _ _ EQ).
  - assert (c = d).
    { destruct (prefix_of_app _ _ _ _ EQ) as [X|X]; [|symmetry]; eapply prefix_free_use; eauto. }
    subst d. apply app_inv_head in EQ. f_equal. auto.
Qed.
Lemma repr_quoted_inj s s' : repr_quoted s = repr_quoted s' -> s = s'.
Proof.
  unfold repr_quoted.
  set (q := if existsb (Ascii.eqb squote) s && negb (existsb (Ascii.eqb dquote) s) then dquote else squote).
  set (q' := if existsb (Ascii.eqb squote) s' && negb (existsb (Ascii.eqb dquote) s') then dquote else squote).
  intros EQ. injection EQ as Q EQ. rewrite <- Q in EQ. apply app_inj_tail in EQ as [EQ _].
  apply (repr_body_inj q) in EQ; auto. unfold q. destruct (_ && _); [apply prefix_free_d|apply prefix_free_s].
Qed.
Definition quiet (q : ascii) : bool := forallb (fun c => negb (existsb (Ascii.eqb nl) (repr_char q c))) all_ascii.
Lemma quiet_use q c : quiet q = true -> lacks nl (repr_char q c).
Proof.
  intros H I. pose proof (sweep _ H c) as H1. cbv beta in H1. apply Bool.negb_true_iff in H1.
  assert (X : existsb (Ascii.eqb nl) (repr_char q c) = true) by (apply existsb_exists; exists nl; split; [exact I|apply Ascii.eqb_refl]). congruence.
Qed.
Lemma repr_quoted_lacks s : lacks nl (repr_quoted s).
Proof.
  unfold repr_quoted. set (b := _ && _). 
  assert (X : exists q, (if b then dquote else squote) = q /\ quiet q = true /\ q <> nl).
  { destruct b; eexists; (split; [reflexivity|]); (split; [vm_compute; reflexivity|discriminate]). }
  destruct X as (q & -> & Q & N). apply lacks_cons. split; [exact N|]. apply lacks_app. split; [|apply lacks_cons; split; [exact N|intros []]].
  induction s as [|c s IH]; cbn [flat_map]; [intros []|]. apply lacks_app. split; [apply quiet_use; exact Q|exact IH].
Qed.
Lemma t_inj a b : t_ a = t_ b -> a = b.
Proof. intros H. rewrite <- (string_of_list_ascii_of_string a), <- (string_of_list_ascii_of_string b). unfold t_ in H. rewrite H. reflexivity. Qed.
Lemma ascii_of_byte_inj a b : ascii_of_byte a = ascii_of_byte b -> a = b.
Proof.
  unfold ascii_of_byte. intros H. assert (X : Byte.to_N a = Byte.to_N b).
  { rewrite <- (N_ascii_embedding (Byte.to_N a)), <- (N_ascii_embedding (Byte.to_N b)); [congruence| |];
      pose proof (Byte.to_N_bounded a); pose proof (Byte.to_N_bounded b); lia. }
  pose proof (Byte.of_to_N a) as A. pose proof (Byte.of_to_N b) as B. rewrite X in A. congruence.
Qed.
Lemma bytes_text_inj (a b : bytes) : map ascii_of_byte a = map ascii_of_byte b -> a = b.
Proof.
  revert b. induction a as [|x a IH]; intros [|y b] H; try discriminate; [reflexivity|]. cbn [map] in H. injection H as H1 H2.
  apply ascii_of_byte_inj in H1 as ->. f_equal. apply IH. exact H2.
Qed.
Lemma bool_text_inj a b : oval_repr (OBool a) = oval_repr (OBool b) -> a = b.
Proof. destruct a, b; (reflexivity || discriminate). Qed.

(** ** pformat *)
Lemma join_inj ind : forall l l', List.length l = List.length l' -> Forall (lacks nl) l -> Forall (lacks nl) l' ->
  join_text (nl :: ind) l = join_text (nl :: ind) l' -> l = l'.
Proof.
  induction l as [|x [|y l] IH]; intros [|x' [|y' l']] HL F F' EQ; try discriminate; [reflexivity|cbn in EQ; congruence|].
  change (join_text (nl :: ind) (x :: y :: l)) with (x ++ nl :: ind ++ join_text (nl :: ind) (y :: l)) in EQ.
  change (join_text (nl :: ind) (x' :: y' :: l')) with (x' ++ nl :: ind ++ join_text (nl :: ind) (y' :: l')) in EQ.
  inversion F; inversion F'; subst. apply cut_first in EQ as [-> EQ]; auto. apply app_inv_head in EQ. f_equal. apply IH; auto.
Qed.

Definition size_value (z : Z) : text := if z =? -1 then int_text z else double_pretty_size z.
Lemma size_value_lacks z : lacks nl (size_value z).
Proof. unfold size_value. destruct (z =? -1); [apply int_text_lacks; [left; cbn; lia|discriminate]|apply size_text_lacks]. Qed.
Definition field (k : string) (v : text) : text := t_ k ++ t_ ": " ++ v.
Definition header_fields (h : header) : list text :=
  [field "format_version" (int_text (h_version h)); field "offsets" (oval_repr (OBool (h_offsets h)));
   field "metadata" (oval_repr (OBool (h_metadata h))); field "checksum" (repr_quoted (t_ (cks_name (h_checksum h))));
   field "typesize" (int_text (h_typesize h)); field "chunk_size" (size_value (h_chunk_size h));
   field "last_chunk" (size_value (h_last_chunk h)); field "nchunks" (int_text (h_nchunks h));
   field "max_app_chunks" (int_text (h_max_app h))].
Definition mheader_fields (h : mheader) : list text :=
  [field "magic_format" ("b"%char :: repr_quoted (map ascii_of_byte (mh_magic h))); field "meta_options" (repr_quoted (t_ (mh_options h)));
   field "meta_checksum" (repr_quoted (t_ (cks_name (mh_checksum h)))); field "meta_codec" (repr_quoted (t_ (codec_name (mh_codec h))));
   field "meta_level" (int_text (mh_level h)); field "meta_size" (size_value (mh_size h));
   field "max_meta_size" (size_value (mh_max h)); field "meta_comp_size" (size_value (mh_comp h));
   field "user_codec" ("b"%char :: repr_quoted (map ascii_of_byte (mh_user h)))].
Lemma pformat_header i h : pformat i (header_obj h) =
  (header_obj h, Ok (t_ "BloscpackHeader:" ++ nl :: repeat " "%char i ++ join_text (nl :: repeat " "%char i) (header_fields h))).
Proof. reflexivity. Qed.
Lemma pformat_mheader i h : pformat i (mheader_obj h) =
  (mheader_obj h, Ok (t_ "MetadataHeader:" ++ nl :: repeat " "%char i ++ join_text (nl :: repeat " "%char i) (mheader_fields h))).
Proof. reflexivity. Qed.

Lemma field_lacks k v : lacks nl (t_ k) -> lacks nl v -> lacks nl (field k v).
Proof. intros. unfold field. rewrite !lacks_app. repeat split; auto. cbv. intuition discriminate. Qed.
Lemma int_lacks z : lacks nl (int_text z).
Proof. apply int_text_lacks; [left; cbn; lia|discriminate]. Qed.
Lemma bool_lacks b : lacks nl (oval_repr (OBool b)).
Proof. destruct b; cbv; intuition discriminate. Qed.
Lemma bytes_repr_lacks s : lacks nl ("b"%char :: repr_quoted s).
Proof. apply lacks_cons. split; [discriminate|apply repr_quoted_lacks]. Qed.
Local Hint Resolve int_lacks bool_lacks bytes_repr_lacks repr_quoted_lacks size_value_lacks : plain.
Ltac solve_lines := repeat constructor; (apply field_lacks; [cbv; intuition discriminate|auto with plain]).
Lemma header_fields_lacks h : Forall (lacks nl) (header_fields h).
Proof. unfold header_fields. solve_lines. Qed.
Lemma mheader_fields_lacks h : Forall (lacks nl) (mheader_fields h).
Proof. unfold mheader_fields. solve_lines. Qed.
Lemma field_inj k v v' : field k v = field k v' -> v = v'.
Proof. unfold field. intros H. apply app_inv_head in H. apply app_inv_head in H. exact H. Qed.
Lemma list9_inj {A} (a1 a2 a3 a4 a5 a6 a7 a8 a9 b1 b2 b3 b4 b5 b6 b7 b8 b9 : A) :
  [a1; a2; a3; a4; a5; a6; a7; a8; a9] = [b1; b2; b3; b4; b5; b6; b7; b8; b9] ->
  a1 = b1 /\ a2 = b2 /\ a3 = b3 /\ a4 = b4 /\ a5 = b5 /\ a6 = b6 /\ a7 = b7 /\ a8 = b8 /\ a9 = b9.
Proof. intros H. injection H as -> -> -> -> -> -> -> -> ->. tauto. Qed.
Lemma cks_name_inj a b : cks_name a = cks_name b -> a = b.
Proof. destruct a, b; (reflexivity || discriminate). Qed.
Lemma codec_name_inj a b : codec_name a = codec_name b -> a = b.
Proof. destruct a, b; (reflexivity || discriminate). Qed.
Lemma header_fields_inj h h' : header_fields h = header_fields h' -> h = h'.
Proof.
  intros H. apply list9_inj in H as (H1 & H2 & H3 & H4 & H5 & H6 & H7 & H8 & H9).
  apply field_inj, int_text_inj in H1. apply field_inj, bool_text_inj in H2. apply field_inj, bool_text_inj in H3.
  apply field_inj, repr_quoted_inj, t_inj, cks_name_inj in H4. apply field_inj, int_text_inj in H5.
  apply field_inj, size_value_inj in H6. apply field_inj, size_value_inj in H7. apply field_inj, int_text_inj in H8. apply field_inj, int_text_inj in H9.
  destruct h, h'; cbn in *; congruence.
Qed.
Lemma mheader_fields_inj h h' : mheader_fields h = mheader_fields h' -> h = h'.
Proof.
  intros H. apply list9_inj in H as (H1 & H2 & H3 & H4 & H5 & H6 & H7 & H8 & H9).
  apply field_inj in H1. apply (f_equal (@tl ascii)) in H1. cbn [tl] in H1. apply repr_quoted_inj, bytes_text_inj in H1.
  apply field_inj, repr_quoted_inj, t_inj in H2. apply field_inj, repr_quoted_inj, t_inj, cks_name_inj in H3.
  apply field_inj, repr_quoted_inj, t_inj, codec_name_inj in H4. apply field_inj, int_text_inj in H5.
  apply field_inj, size_value_inj in H6. apply field_inj, size_value_inj in H7. apply field_inj, size_value_inj in H8.
  apply field_inj in H9. apply (f_equal (@tl ascii)) in H9. cbn [tl] in H9. apply repr_quoted_inj, bytes_text_inj in H9.
  destruct h, h'; cbn in *; congruence.
Qed.

(** printed with log.normal *)
Lemma report_lines cls i fs : lacks nl cls -> Forall (lacks nl) fs -> fs <> [] ->
  lines (cls ++ nl :: repeat " "%char i ++ join_text (nl :: repeat " "%char i) fs) (cls :: map (app (repeat " "%char i)) fs).
Proof.
  intros C F NE. split; [discriminate|]. split.
  - constructor; [exact C|]. apply Forall_map. eapply Forall_impl; [|exact F]. intros x Hx. apply lacks_app. split; [|exact Hx].
    intros I. apply repeat_spec in I. discriminate.
  - rewrite join_indent by auto. destruct fs; [congruence|reflexivity].
Qed.
Lemma nonempty_fields cls i fs : cls <> [] -> Forall (fun x => x <> []) fs ->
  filter has_text (cls :: map (app (repeat " "%char i)) fs) = cls :: map (app (repeat " "%char i)) fs.
Proof.
  intros C F. assert (X : forall l, Forall (fun x => x <> []) l -> filter has_text l = l).
  { induction 1 as [|x l H _ IH]; [reflexivity|]. cbn [filter]. destruct x; [congruence|]. cbn [has_text]. rewrite IH. reflexivity. }
  apply X. constructor; [exact C|]. apply Forall_map. eapply Forall_impl; [|exact F]. intros x Hx Y. apply app_eq_nil in Y as [_ Y]. auto.
Qed.
Lemma map_app_inj {A} (p : list A) l l' : map (app p) l = map (app p) l' -> l = l'.
Proof.
  revert l'. induction l as [|x l IH]; intros [|y l'] H; try discriminate; [reflexivity|]. cbn [map] in H. injection H as H1 H2.
  apply app_inv_head in H1 as ->. f_equal. auto.
Qed.
Lemma report_inj cls i fs fs' s : rank (l_level s) <> None -> lacks nl cls -> cls <> [] -> fs <> [] -> fs' <> [] -> Forall (lacks nl) fs -> Forall (lacks nl) fs' ->
  Forall (fun x => x <> []) fs -> Forall (fun x => x <> []) fs' ->
  l_out (fst (normal (cls ++ nl :: repeat " "%char i ++ join_text (nl :: repeat " "%char i) fs) s)) =
  l_out (fst (normal (cls ++ nl :: repeat " "%char i ++ join_text (nl :: repeat " "%char i) fs') s)) -> fs = fs'.
Proof.
  intros R C CN N N' F F' G G'. destruct (rank (l_level s)) as [j|] eqn:RJ; [|congruence].
  assert (J : 0 <= j) by (unfold rank in RJ; repeat match type of RJ with context [if ?b then _ else _] => destruct b end; congruence || (injection RJ as <-; lia)).
  unfold normal. rewrite (log_verbose _ "NORMAL" s 0 j _ eq_refl RJ (report_lines cls i fs C F N)).
  rewrite (log_verbose _ "NORMAL" s 0 j _ eq_refl RJ (report_lines cls i fs' C F' N')).
  cbn [fst l_out]. replace (0 <=? j) with true by lia. rewrite !nonempty_fields by auto. intros H. apply app_inv_head in H.
  assert (M : forall l, map (fun x => l_prefix s ++ t_ ": " ++ x) l = map (app (l_prefix s ++ t_ ": ")) l) by (intros l; apply map_ext; intros x; apply app_assoc).
  rewrite !M in H. apply map_app_inj in H. injection H as H. apply map_app_inj in H. exact H.
Qed.
Lemma field_ne k v : field k v <> [].
Proof. unfold field. intros H. apply app_eq_nil in H as [_ H]. discriminate. Qed.
Theorem header_report i s h h' x x' : rank (l_level s) <> None ->
  snd (pformat i (header_obj h)) = Ok x -> snd (pformat i (header_obj h')) = Ok x' ->
  l_out (fst (normal x s)) = l_out (fst (normal x' s)) -> h = h'.
Proof.
  intros R. rewrite !pformat_header. cbn [snd]. intros X X'. injection X as <-. injection X' as <-. intros H.
  apply header_fields_inj. apply (report_inj (t_ "BloscpackHeader:") i (header_fields h) (header_fields h') s R); try discriminate;
    [cbv; intuition discriminate|apply header_fields_lacks|apply header_fields_lacks| | |exact H];
    unfold header_fields; repeat (constructor; [apply field_ne|]); constructor.
Qed.
Theorem mheader_report i s h h' x x' : rank (l_level s) <> None ->
  snd (pformat i (mheader_obj h)) = Ok x -> snd (pformat i (mheader_obj h')) = Ok x' ->
  l_out (fst (normal x s)) = l_out (fst (normal x' s)) -> h = h'.
Proof.
  intros R. rewrite !pformat_mheader. cbn [snd]. intros X X'. injection X as <-. injection X' as <-. intros H.
  apply mheader_fields_inj. apply (report_inj (t_ "MetadataHeader:") i (mheader_fields h) (mheader_fields h') s R); try discriminate;
    [cbv; intuition discriminate|apply mheader_fields_lacks|apply mheader_fields_lacks| | |exact H];
    unfold mheader_fields; repeat (constructor; [apply field_ne|]); constructor.
Qed.
Lemma ok_inj {A} (x y : A) : Ok x = Ok y -> x = y.
Proof. intros H. injection H. auto. Qed.
Theorem pformat_inj i h h' : snd (pformat i (header_obj h)) = snd (pformat i (header_obj h')) -> h = h'.
Proof.
  rewrite !pformat_header. cbn [snd]. intros H. apply ok_inj in H. apply app_inv_head in H. apply (f_equal (@tl ascii)) in H. cbn [tl] in H. apply app_inv_head in H.
  apply header_fields_inj. eapply join_inj; [|apply header_fields_lacks|apply header_fields_lacks|exact H]. reflexivity.
Qed.

(** ** Objects as dictionaries *)
Lemma mem_in k l : mem k l = true <-> In k l.
Proof.
  unfold mem. rewrite existsb_exists. split.
  - intros (x & I & Q). apply String.eqb_eq in Q as ->. exact I.
  - intros I. exists k. split; [exact I|apply String.eqb_refl].
Qed.
Lemma mem_not k l : mem k l = false <-> ~ In k l.
Proof. rewrite <- mem_in. destruct (mem k l); intuition congruence. Qed.
Lemma getattr_set k v k' l : getattr k' (setattr k v l) = if String.eqb k' k then Ok v else getattr k' l.
Proof.
  induction l as [|[a x] l IH]; cbn [setattr getattr].
  - destruct (String.eqb k' k); reflexivity.
  - destruct (String.eqb k a) eqn:A; cbn [getattr].
    + apply String.eqb_eq in A as ->. destruct (String.eqb k' a); reflexivity.
    + rewrite IH. destruct (String.eqb k' a) eqn:B; [|reflexivity]. apply String.eqb_eq in B as ->. destruct (String.eqb a k) eqn:C; [|reflexivity].
      apply String.eqb_eq in C as ->. rewrite String.eqb_refl in A. discriminate.
Qed.
Definition same_class (o o' : obj) : Prop := o_class o' = o_class o /\ o_attrs o' = o_attrs o /\ o_bytes_attrs o' = o_bytes_attrs o.
Lemma items_of_run ks : forall o, fst (o_items_of ks o) = o.
Proof.
  induction ks as [|k ks IH]; intros o; [reflexivity|]. cbn [o_items_of]. unfold bind, o_getitem. destruct (if mem k (o_attrs o) then _ else _); [|reflexivity].
  specialize (IH o). destruct (o_items_of ks o) as [o' [l|e]]; cbn [fst] in *; exact IH.
Qed.
Lemma setitem_step k v o d : views o d ->
  same_class o (fst (o_setitem k v o)) /\ views (fst (o_setitem k v o)) (fun k' => last_value k' (known_part (o_attrs o) [(k, v)]) (d k')) /\
  (snd (o_setitem k v o) = Ok tt <-> In k (o_attrs o)).
Proof.
  intros V. unfold o_setitem. cbn [known_part fst]. destruct (in_dec String.string_dec k (o_attrs o)) as [I|I].
  - apply mem_in in I. rewrite I. cbn [fst snd o_attrs o_vars]. split; [repeat split|]. apply mem_in in I. split; [|tauto].
    intros k' I'. cbn [o_attrs o_vars] in *. rewrite getattr_set. unfold last_value. cbn [fold_left fst snd].
    destruct (String.string_dec k k') as [->|N]; [rewrite String.eqb_refl; reflexivity|].
    destruct (String.eqb k' k) eqn:Q; [apply String.eqb_eq in Q; congruence|]. apply V. exact I'.
  - apply mem_not in I. rewrite I. cbn [fst snd]. apply mem_not in I. split; [repeat split|]. split; [exact V|]. split; [discriminate|tauto].
Qed.
Lemma update_step l : forall o d, views o d ->
  same_class o (fst (o_update l o)) /\ views (fst (o_update l o)) (fun k' => last_value k' (known_part (o_attrs o) l) (d k')) /\
  (snd (o_update l o) = Ok tt <-> Forall (fun kv => In (fst kv) (o_attrs o)) l).
Proof.
  induction l as [|[k v] l IH]; intros o d V; cbn [o_update].
  - split; [repeat split|]. split; [exact V|]. split; [constructor|reflexivity].
  - destruct (setitem_step k v o d V) as (S1 & S2 & S3). unfold bind. cbn [known_part fst] in *.
    destruct (o_setitem k v o) as [o1 [[]|e]] eqn:Q; cbn [fst snd] in *.
    + destruct S1 as (C1 & C2 & C3). assert (I : In k (o_attrs o)) by (apply S3; reflexivity).
      destruct (in_dec String.string_dec k (o_attrs o)) as [I'|I']; [|tauto].
      destruct (IH o1 _ S2) as (T1 & T2 & T3). destruct T1 as (D1 & D2 & D3). rewrite C2 in *.
      split; [split; [congruence|split; congruence]|]. split.
      * intros k' Hk'. rewrite T2 by exact Hk'. reflexivity.
      * rewrite T3. split; [intros; constructor; auto|intros F; inversion F; auto].
    + assert (N : ~ In k (o_attrs o)) by (intros I; apply S3 in I; discriminate).
      destruct (in_dec String.string_dec k (o_attrs o)) as [I'|I']; [tauto|]. split; [exact S1|]. split; [exact S2|].
      split; [discriminate|intros F; inversion F; tauto].
Qed.
Lemma catch_getitem k (h : SM obj oval) o : (~ In k (o_attrs o) -> fst (h o) = o) -> fst (catch_KeyError (o_getitem k) h o) = o.
Proof.
  intros H. unfold catch_KeyError, o_getitem. destruct (mem k (o_attrs o)) eqn:M.
  - assert (G : forall l, getattr k l <> Raise KeyError) by (induction l as [|[a x] l IH]; cbn [getattr]; [discriminate|destruct (String.eqb k a); [discriminate|exact IH]]).
    specialize (G (o_vars o)). destruct (getattr k (o_vars o)) as [v|[]]; try reflexivity. congruence.
  - apply H. apply mem_not. exact M.
Qed.
Lemma run_op_step p o d : views o d ->
  same_class o (run_op p o) /\ views (run_op p o) (fun k => last_value k (assignments (o_attrs o) p) (d k)).
Proof.
  intros V. assert (ID : same_class o o /\ views o (fun k => last_value k [] (d k))) by (split; [repeat split|exact V]).
  destruct p; cbn [run_op assignments]; try exact ID.
  - replace (fst (o_get k d0 o)) with o; [exact ID|]. symmetry. unfold o_get. apply catch_getitem. reflexivity.
  - replace (fst (o_contains k o)) with o; [exact ID|]. unfold o_contains, catch_KeyError, bind, o_getitem.
    destruct (if mem k (o_attrs o) then _ else _) as [v|[]]; reflexivity.
  - replace (fst (o_items o)) with o; [exact ID|]. symmetry. apply items_of_run.
  - destruct (setitem_step k v o d V) as (S1 & S2 & _). auto.
  - replace (fst (o_pop k d0 o)) with o; [exact ID|]. unfold o_pop, o_getitem. destruct (if mem k (o_attrs o) then _ else _) as [v|e]; [reflexivity|].
    destruct e; try reflexivity. destruct d0; reflexivity.
  - replace (fst (o_popitem o)) with o; [exact ID|]. unfold o_popitem. destruct (o_iter o) as [|k ks]; [reflexivity|].
    unfold bind, o_getitem. destruct (if mem k (o_attrs o) then _ else _) as [v|e]; reflexivity.
  - replace (fst (o_clear o)) with o; [exact ID|]. unfold o_clear, catch_KeyError, o_popitem, bind. destruct (o_iter o) as [|k ks]; [reflexivity|].
    unfold o_getitem. destruct (if mem k (o_attrs o) then _ else _) as [v|[]]; reflexivity.
  - destruct (update_step l o d V) as (S1 & S2 & _). auto.
  - replace (fst (o_setdefault k d0 o)) with o; [exact ID|]. symmetry. unfold o_setdefault. apply catch_getitem. intros N.
    unfold bind, o_setitem. apply mem_not in N. rewrite N. reflexivity.
Qed.
Theorem run_ops_views ops : forall o d, views o d ->
  same_class o (run_ops ops o) /\
  views (run_ops ops o) (fun k => last_value k (concat (map (assignments (o_attrs o)) ops)) (d k)).
Proof.
  induction ops as [|p ops IH]; intros o d V; [split; [repeat split|exact V]|].
  destruct (run_op_step p o d V) as ((C1 & C2 & C3) & S2). cbn [run_ops fold_left map concat]. fold (run_ops ops (run_op p o)).
  destruct (IH _ _ S2) as ((D1 & D2 & D3) & T2). rewrite C2 in *. split; [split; [congruence|split; congruence]|].
  intros k Hk. rewrite T2 by exact Hk. unfold last_value. rewrite fold_left_app. reflexivity.
Qed.
(** what each operation answers *)
Theorem op_results o d : views o d ->
  (forall k, snd (o_getitem k o) = if in_dec String.string_dec k (o_attrs o) then Ok (d k) else Raise KeyError) /\
  (forall k x, snd (o_get k x o) = Ok (if in_dec String.string_dec k (o_attrs o) then d k else x)) /\
  (forall k, snd (o_contains k o) = Ok (if in_dec String.string_dec k (o_attrs o) then true else false)) /\
  snd (o_items o) = Ok (map (fun k => (k, d k)) (o_attrs o)) /\
  (forall k v, snd (o_setitem k v o) = if in_dec String.string_dec k (o_attrs o) then Ok tt else Raise KeyError) /\
  (forall k, snd (o_delitem k o) = Raise NotImplementedError) /\
  (forall k x, snd (o_pop k x o) = if in_dec String.string_dec k (o_attrs o) then Raise NotImplementedError
                                   else match x with Some y => Ok y | None => Raise KeyError end) /\
  snd (o_popitem o) = (match o_attrs o with [] => Raise KeyError | _ => Raise NotImplementedError end) /\
  snd (o_clear o) = (match o_attrs o with [] => Ok tt | _ => Raise NotImplementedError end) /\
  (forall l, snd (o_update l o) = Ok tt <-> Forall (fun kv => In (fst kv) (o_attrs o)) l) /\
  (forall k x, snd (o_setdefault k x o) = if in_dec String.string_dec k (o_attrs o) then Ok (d k) else Raise KeyError) /\
  o_len o = Z.of_nat (List.length (o_attrs o)) /\ o_iter o = o_attrs o.
Proof.
  intros V.
  assert (G : forall k, o_getitem k o = (o, if in_dec String.string_dec k (o_attrs o) then Ok (d k) else Raise KeyError)).
  { intros k. unfold o_getitem. destruct (in_dec String.string_dec k (o_attrs o)) as [I|I].
    - pose proof I as I'. apply mem_in in I'. rewrite I', V by exact I. reflexivity.
    - apply mem_not in I. rewrite I. reflexivity. }
  assert (S : forall k v, snd (o_setitem k v o) = if in_dec String.string_dec k (o_attrs o) then Ok tt else Raise KeyError).
  { intros k v. unfold o_setitem. destruct (in_dec String.string_dec k (o_attrs o)) as [I|I].
    - apply mem_in in I. rewrite I. reflexivity.
    - apply mem_not in I. rewrite I. reflexivity. }
  repeat split.
  - intros k. rewrite G. reflexivity.
  - intros k x. unfold o_get, catch_KeyError. rewrite G. destruct (in_dec _ _ _); reflexivity.
  - intros k. unfold o_contains, catch_KeyError, bind. rewrite G. destruct (in_dec _ _ _); reflexivity.
  - unfold o_items, o_iter. assert (X : forall ks, (forall k, In k ks -> In k (o_attrs o)) -> o_items_of ks o = (o, Ok (map (fun k => (k, d k)) ks))).
    { induction ks as [|k ks IH]; intros H; [reflexivity|]. cbn [o_items_of]. unfold bind. rewrite G.
      destruct (in_dec String.string_dec k (o_attrs o)) as [_|I]; [|destruct I; apply H; left; reflexivity].
      rewrite IH by (intros k' I; apply H; right; exact I). reflexivity. }
    rewrite X by auto. reflexivity.
  - exact S.
  - intros k x. unfold o_pop. rewrite G. destruct (in_dec _ _ _); [reflexivity|]. destruct x; reflexivity.
  - unfold o_popitem, o_iter, bind. destruct (o_attrs o) as [|k ks] eqn:A; [reflexivity|]. rewrite G.
    destruct (in_dec _ _ _) as [_|I]; [reflexivity|destruct I; rewrite ?A; left; reflexivity].
  - unfold o_clear, catch_KeyError, o_popitem, o_iter, bind. destruct (o_attrs o) as [|k ks] eqn:A; [reflexivity|]. rewrite G.
    destruct (in_dec _ _ _) as [_|I]; [reflexivity|destruct I; rewrite ?A; left; reflexivity].
  - intros H. apply (update_step l o d V). exact H.
  - intros H. apply (update_step l o d V). exact H.
  - intros k x. unfold o_setdefault, catch_KeyError, bind. rewrite G. destruct (in_dec String.string_dec k (o_attrs o)) as [I|I] eqn:Q; [reflexivity|].
    specialize (S k x). rewrite Q in S. destruct (o_setitem k x o) as [o' [[]|e]]; cbn [snd] in *; congruence.
Qed.
Theorem header_views h : exists d, views (header_obj h) d.
Proof.
  exists (fun k => match getattr k (o_vars (header_obj h)) with Ok v => v | _ => ONone end).
  intros k I. cbn [header_obj o_attrs header_attrs In] in I.
  repeat (destruct I as [<-|I]; [reflexivity|]). destruct I.
Qed.

(** ** A header assigned to through the dictionary interface *)
Lemma le_enc_inj_s n a b : le_enc n a = le_enc n b -> - (256 ^ Z.of_nat n / 2) <= a < 256 ^ Z.of_nat n / 2 ->
  - (256 ^ Z.of_nat n / 2) <= b < 256 ^ Z.of_nat n / 2 -> a = b.
Proof.
  intros H Ha Hb. assert (X : a mod 256 ^ Z.of_nat n = b mod 256 ^ Z.of_nat n) by (rewrite <- !le_dec_enc; congruence).
  assert (P : 0 < 256 ^ Z.of_nat n) by (apply Z.pow_pos_nonneg; lia). set (m := 256 ^ Z.of_nat n) in *. clearbody m.
  assert (Y : (a - b) mod m = 0) by (rewrite Zminus_mod, X, Z.sub_diag; apply Z.mod_0_l; lia).
  apply Z.mod_divide in Y; [|lia]. destruct Y as [q Y]. assert (q = 0); [|subst; lia]. 
  assert (-m < a - b < m) by (pose proof (Z.div_mod m 2); lia). nia.
Qed.
Lemma le_enc1_inj a b : le_enc 1 a = le_enc 1 b -> 0 <= a <= 255 -> 0 <= b <= 255 -> a = b.
Proof.
  intros H Ha Hb. assert (X : a mod 256 ^ Z.of_nat 1 = b mod 256 ^ Z.of_nat 1) by (rewrite <- !le_dec_enc; congruence).
  change (256 ^ Z.of_nat 1) with 256 in X. rewrite !Z.mod_small in X by lia. exact X.
Qed.
Theorem header_unchecked h b : header_encode h = Ok b ->
  (header_nums_ok (h_typesize h) (h_chunk_size h) (h_last_chunk h) (h_nchunks h) (h_max_app h) -> header_decode b = Ok h) /\
  (~ header_nums_ok (h_typesize h) (h_chunk_size h) (h_last_chunk h) (h_nchunks h) (h_max_app h) -> header_decode b = Raise ValueError).
Proof.
  intros H. pose proof (header_encode_inv _ _ H) as ->.
  assert (R : 0 <= h_version h <= 255 /\ 0 <= h_typesize h <= 255 /\ - 2147483648 <= h_chunk_size h <= 2147483647 /\ - 2147483648 <= h_last_chunk h <= 2147483647 /\
              - 9223372036854775808 <= h_nchunks h <= 9223372036854775807 /\ - 9223372036854775808 <= h_max_app h <= 9223372036854775807).
  { clear -H. unfold header_encode, encode_uint8, encode_int32, encode_int64 in H.
    repeat match type of H with
    | rbind _ _ = Ok _ => let x := fresh "x" in let Hx := fresh "Hx" in
        apply rbind_Ok in H as (x & Hx & H); apply pack_int_Ok in Hx as [Hx _]
    end. repeat split; lia. }
  destruct R as (R1 & R2 & R3 & R4 & R5 & R6). split.
  - intros N. apply header_decode_bytes. split; [exact R1|exact N].
  - intros N. destruct (header_decode (header_bytes h)) as [h'|e] eqn:D.
    + exfalso. apply header_decode_inv in D as [(V' & N') EQ].
      pose proof N' as (T1 & T2 & T3 & T4 & T5 & T6 & T7 & _). unfold BUFMAX in *. change (2 ^ 63 - 1) with 9223372036854775807 in T7.
      assert (X : forall p n, sub p n (header_bytes h) = sub p n (header_bytes h')) by (intros; rewrite EQ; reflexivity).
      pose proof (X 7 1) as X7. pose proof (X 8 4) as X8. pose proof (X 12 4) as X12. pose proof (X 16 8) as X16. pose proof (X 24 8) as X24.
      assert (F : forall h, sub 7 1 (header_bytes h) = le_enc 1 (h_typesize h) /\ sub 8 4 (header_bytes h) = le_enc 4 (h_chunk_size h) /\
                 sub 12 4 (header_bytes h) = le_enc 4 (h_last_chunk h) /\ sub 16 8 (header_bytes h) = le_enc 8 (h_nchunks h) /\
                 sub 24 8 (header_bytes h) = le_enc 8 (h_max_app h)) by (intros; repeat split; reflexivity).
      destruct (F h) as (F1 & F2 & F3 & F4 & F5). destruct (F h') as (G1 & G2 & G3 & G4 & G5).
      rewrite F1, G1 in X7. rewrite F2, G2 in X8. rewrite F3, G3 in X12. rewrite F4, G4 in X16. rewrite F5, G5 in X24.
      apply le_enc1_inj in X7; [|lia|lia].
      apply (le_enc_inj_s 4) in X8; [|change (256 ^ Z.of_nat 4 / 2) with 2147483648; lia|change (256 ^ Z.of_nat 4 / 2) with 2147483648; lia].
      apply (le_enc_inj_s 4) in X12; [|change (256 ^ Z.of_nat 4 / 2) with 2147483648; lia|change (256 ^ Z.of_nat 4 / 2) with 2147483648; lia].
      apply (le_enc_inj_s 8) in X16; [|change (256 ^ Z.of_nat 8 / 2) with 9223372036854775808; lia|change (256 ^ Z.of_nat 8 / 2) with 9223372036854775808; lia].
      apply (le_enc_inj_s 8) in X24; [|change (256 ^ Z.of_nat 8 / 2) with 9223372036854775808; lia|change (256 ^ Z.of_nat 8 / 2) with 9223372036854775808; lia].
      apply N. rewrite X7, X8, X12, X16, X24. exact N'.
    + apply header_decode_refuses in D as [->|(_ & _ & D)]; [reflexivity|exfalso].
      assert (F : sub 6 1 (header_bytes h) = le_enc 1 (cks_index (h_checksum h))) by reflexivity.
      unfold u8 in D. rewrite F in D. destruct (h_checksum h); vm_compute in D; apply D; reflexivity.
Qed.
