(** Proofs about header arguments of any type. *)
From Verif Require Import Base PyVal Checksums Headers Pretty Args FileIO Cli Objects Dynamic Spec DynSpec BaseLemmas HeaderProofs IOProofs.
From Coq Require Import ZifyBool ZifyNat.
Local Ltac Zify.zify_post_hook ::= Z.div_mod_to_equations.

Lemma arg_value kw k d : arg kw k d = value kw k d.
Proof.
  unfold value. induction kw as [|[k' v] r IH]; cbn [arg find fst]; auto.
  destruct (String.eqb k k'); auto.
Qed.

Lemma as_int_iff v z : as_int v = Some z <-> is_int v z.
Proof.
  split.
  - destruct v as [|b|y| | | | | ]; cbn; intros H; try discriminate; injection H as <-; [destruct b; constructor|constructor].
  - intros I. destruct I as [y|[|]]; reflexivity.
Qed.
Lemma is_int_fun v y z : is_int v y -> is_int v z -> y = z.
Proof. rewrite <- !as_int_iff. congruence. Qed.
Lemma is_int_value v z : is_int v z -> int_or_0 v = z.
Proof. rewrite <- as_int_iff. unfold int_or_0. intros ->. reflexivity. Qed.

(** One demand, as a check. *)
Definition check_of (d : demand) (v : dyn) : res unit :=
  match d with
  | Whole lo hi => d_check_range v lo hi
  | OneOf names e =>
      match v with
      | DStr s => if existsb (String.eqb (string_of_list_ascii s)) names then Ok tt else Raise e
      | _ => d_not_valid v e
      end
  | Octets n => d_check_str v n
  | EightBits => d_check_options v
  end.

Lemma str_list s : string_of_list_ascii (list_ascii_of_string s) = s.
Proof. apply string_of_list_ascii_of_string. Qed.
Lemma list_str s : list_ascii_of_string (string_of_list_ascii s) = s.
Proof. apply list_ascii_of_string_of_list_ascii. Qed.
Lemma str_inj a b : string_of_list_ascii a = string_of_list_ascii b -> a = b.
Proof. intros H. apply (f_equal list_ascii_of_string) in H. rewrite !list_str in H. exact H. Qed.

Lemma check_of_ok d v : check_of d v = Ok tt <-> meets d v.
Proof.
  destruct d as [lo hi|names e|n|]; cbn [check_of meets].
  - unfold d_check_range. split.
    + destruct (as_int v) as [z|] eqn:I; [|discriminate]. intros H. apply check_range_Ok in H. exists z. rewrite <- as_int_iff. auto.
    + intros (z & I & R). apply as_int_iff in I. rewrite I. apply check_range_in. lia.
  - destruct v as [|b|y|t i|s|b|n|t]; try (split; [intros H|intros (? & ? & ?)]; cbn in H; try destruct (n =? 1)%nat; discriminate).
    split.
    + destruct (existsb _ names) eqn:X; [|discriminate]. intros _. apply existsb_exists in X as (x & I & Q).
      apply String.eqb_eq in Q. exists x. split; auto. rewrite <- Q, list_str. reflexivity.
    + intros (x & I & Q). injection Q as ->. rewrite str_list.
      replace (existsb _ names) with true; auto. symmetry. apply existsb_exists. exists x. split; auto. apply String.eqb_refl.
  - destruct v as [|b|y|t i|s|b|k|t]; try (split; [discriminate|intros (? & ? & ?); discriminate]).
    cbn [d_check_str]. split.
    + intros H. exists b. apply check_str_Ok in H. auto.
    + intros (x & Q & L). injection Q as <-. apply check_str_in. exact L.
  - destruct v as [|b|y|t i|s|b|k|t]; try (split; [discriminate|intros (? & ? & ?); discriminate]).
    cbn [d_check_options]. unfold check_options. rewrite list_str.
    assert (L : String.length (string_of_list_ascii s) = List.length s) by (clear; induction s; cbn; auto).
    rewrite L.
    assert (W : forall c, is01 c = true <-> zero_or_one c).
    { intros c. unfold is01, zero_or_one. rewrite orb_true_iff, !Ascii.eqb_eq. tauto. }
    split.
    + destruct (_ && _) eqn:X; [|discriminate]. intros _. apply andb_true_iff in X as [X1 X2].
      apply Nat.eqb_eq in X1. exists s. repeat split; auto. rewrite forallb_forall in X2. apply Forall_forall.
      intros c I. apply W, X2, I.
    + intros (x & Q & X1 & X2). injection Q as <-. rewrite X1, Nat.eqb_refl.
      replace (forallb is01 s) with true; auto. symmetry. apply forallb_forall. rewrite Forall_forall in X2.
      intros c I. apply W, X2, I.
Qed.

Lemma check_of_raise d v e : check_of d v = Raise e <-> offends d v e.
Proof.
  unfold offends. rewrite <- check_of_ok. split.
  - intros H. split; [congruence|]. destruct d as [lo hi|names e'|n|]; cbn [check_of wrong_type wrong_value] in *.
    + unfold d_check_range in H. destruct (as_int v) as [z|] eqn:I.
      * right. split; [|unfold check_range in H; destruct (_ && _) in H; congruence]. intros N. apply N. exists z. apply as_int_iff, I.
      * left. split; [|congruence]. intros (z & Z). apply as_int_iff in Z. congruence.
    + destruct v as [|b|y|t i|s|b|n|t]; cbn [d_not_valid] in H;
        try (right; split; [intros (? & Q & _); discriminate|congruence]).
      * destruct (existsb _ _) in H; [discriminate|]. right. split; [intros (? & Q & _); discriminate|congruence].
      * destruct (n =? 1)%nat eqn:N.
        -- right. split; [|congruence]. intros (k & Q & W). apply Nat.eqb_eq in N. congruence.
        -- left. split; [|congruence]. exists n. split; auto. apply Nat.eqb_neq, N.
    + destruct v as [|b|y|t i|s|b|k|t]; cbn [d_check_str] in H;
        try (left; split; [intros (? & Q); discriminate|congruence]).
      right. split; [intros N; apply N; eauto|]. unfold check_str in H. destruct (_ <? _) in H; congruence.
    + destruct v as [|b|y|t i|s|b|k|t]; cbn [d_check_options] in H;
        try (left; split; [intros (? & Q); discriminate|congruence]).
      right. split; [intros N; apply N; eauto|]. unfold check_options in H. destruct (_ && _) in H; congruence.
  - intros [N W]. destruct d as [lo hi|names e'|n|]; cbn [check_of wrong_type wrong_value] in *.
    + unfold d_check_range in *. destruct (as_int v) as [z|] eqn:I.
      * destruct W as [[W _]|[_ ->]]; [exfalso; apply W; exists z; apply as_int_iff, I|].
        unfold check_range in *. destruct (_ && _); congruence.
      * destruct W as [[_ ->]|[W _]]; auto. exfalso. apply W. intros (z & Z). apply as_int_iff in Z. congruence.
    + destruct v as [|b|y|t i|s|b|n|t]; cbn [d_not_valid] in *;
        try (destruct W as [[(k & Q & _) _]|[_ ->]]; [discriminate|reflexivity]).
      * destruct W as [[(k & Q & _) _]|[_ ->]]; [discriminate|]. destruct (existsb _ _); congruence.
      * destruct W as [[(k & Q & Z) ->]|[Z ->]].
        -- injection Q as <-. apply Nat.eqb_neq in Z. rewrite Z. reflexivity.
        -- destruct (n =? 1)%nat eqn:X; auto. exfalso. apply Z. exists n. split; auto. apply Nat.eqb_neq, X.
    + destruct v as [|b|y|t i|s|b|k|t]; cbn [d_check_str] in *;
        try (destruct W as [[_ ->]|[W _]]; [reflexivity|exfalso; apply W; intros (? & Q); discriminate]).
      destruct W as [[W _]|[_ ->]]; [exfalso; apply W; eauto|]. unfold check_str in *. destruct (_ <? _); congruence.
    + destruct v as [|b|y|t i|s|b|k|t]; cbn [d_check_options] in *;
        try (destruct W as [[_ ->]|[W _]]; [reflexivity|exfalso; apply W; intros (? & Q); discriminate]).
      destruct W as [[W _]|[_ ->]]; [exfalso; apply W; eauto|]. unfold check_options in *. destruct (_ && _); congruence.
Qed.

(** All demands of a signature. *)
Fixpoint checks (ds : signature) (kw : kwargs) : res unit :=
  match ds with
  | [] => Ok tt
  | x :: r => _ <~ check_of (snd x) (value kw (fst (fst x)) (snd (fst x))) ;; checks r kw
  end.
Lemma checks_ok ds kw : checks ds kw = Ok tt <-> all_meet ds kw.
Proof.
  unfold all_meet. induction ds as [|x r IH]; cbn [checks]; [split; auto|].
  split.
  - intros H. apply rbind_Ok in H as ([] & H1 & H2). constructor; [apply check_of_ok, H1|apply IH, H2].
  - intros H. inversion H as [|? ? H1 H2]; subst. apply check_of_ok in H1. rewrite H1. cbn [rbind]. apply IH, H2.
Qed.
Lemma checks_raise ds kw e : checks ds kw = Raise e <-> first_offence ds kw e.
Proof.
  unfold first_offence. induction ds as [|x r IH]; cbn [checks].
  - split; [discriminate|]. intros (pre & x & post & H & _). destruct pre; discriminate.
  - split.
    + intros H. destruct (check_of (snd x) _) as [[]|e'] eqn:C; cbn [rbind] in H.
      * apply IH in H as (pre & y & post & -> & P & O). exists (x :: pre), y, post. repeat split; try apply O.
        constructor; auto. apply check_of_ok, C.
      * injection H as ->. exists [], x, r. split; [reflexivity|]. split; [constructor|]. apply check_of_raise, C.
    + intros (pre & y & post & H & P & O). destruct pre as [|z pre].
      * cbn in H. injection H as <- <-. apply check_of_raise in O. rewrite O. reflexivity.
      * cbn in H. injection H as <- ->. inversion P as [|? ? P1 P2]; subst. apply check_of_ok in P1. rewrite P1. cbn [rbind].
        apply IH. exists pre, y, post. auto.
Qed.
Lemma checks_cases ds kw : all_meet ds kw \/ exists e, first_offence ds kw e.
Proof.
  destruct (checks ds kw) as [[]|e] eqn:C; [left; apply checks_ok, C|right; exists e; apply checks_raise, C].
Qed.

Lemma checksum_check v : d_check_checksum v = check_of (OneOf checksum_names NoSuchChecksum) v.
Proof.
  destruct v; try reflexivity. cbn [d_check_checksum check_of]. unfold check_valid_checksum, checksum_names, cks_avail.
  set (x := string_of_list_ascii s). cbn [find existsb cks_name].
  repeat (match goal with |- context [String.eqb x ?y] => destruct (String.eqb x y); [reflexivity|] end). reflexivity.
Qed.
Lemma codec_check v : d_check_codec v = check_of (OneOf ["None"; "zlib"]%string NoSuchCodec) v.
Proof.
  destruct v; try reflexivity. cbn [d_check_codec check_of]. unfold check_valid_codec, codec_avail.
  set (x := string_of_list_ascii s). cbn [find existsb codec_name].
  repeat (match goal with |- context [String.eqb x ?y] => destruct (String.eqb x y); [reflexivity|] end). reflexivity.
Qed.

Definition d_together (kw : kwargs) : res unit :=
  let n := int_or_0 (value kw "nchunks" (DInt (-1))) in
  let m := int_or_0 (value kw "max_app_chunks" (DInt 0)) in
  let cs := int_or_0 (value kw "chunk_size" (DInt (-1))) in
  let lc := int_or_0 (value kw "last_chunk" (DInt (-1))) in
  _ <~ (if negb (n =? -1) then check_range (n + m) 0 MAX_CHUNKS else if negb (m =? 0) then Raise ValueError else Ok tt) ;;
  (if negb (cs =? -1) && negb (lc =? -1) && (cs <? lc) then Raise ValueError else Ok tt).
Definition d_fields (kw : kwargs) : dheader :=
  mkDH (value kw "format_version" (DInt 3)) (value kw "offsets" (DBool false)) (value kw "metadata" (DBool false))
       (value kw "checksum" (DStr (t_ "None"))) (value kw "typesize" (DInt 0)) (value kw "chunk_size" (DInt (-1)))
       (value kw "last_chunk" (DInt (-1))) (value kw "nchunks" (DInt (-1))) (value kw "max_app_chunks" (DInt 0)).

Lemma rbind_assoc {A B C} (r : res A) (f : A -> res B) (g : B -> res C) : rbind (rbind r f) g = rbind r (fun x => rbind (f x) g).
Proof. destruct r; reflexivity. Qed.
Lemma rbind_ext {A B} (r : res A) (f g : A -> res B) : (forall x, f x = g x) -> rbind r f = rbind r g.
Proof. destruct r; cbn; auto. Qed.

Lemma new_header_eq kw : new_header kw =
  (_ <~ check_keywords kw header_attrs ;; _ <~ checks header_signature kw ;; _ <~ d_together kw ;; Ok (d_fields kw)).
Proof.
  unfold new_header. cbv zeta. rewrite !arg_value, checksum_check.
  apply rbind_ext. intros _. unfold header_signature. cbn [checks fst snd].
  change (2 ^ 31 - 1 - 16) with BLOSC_MAX_BUFFERSIZE. change (2 ^ 63 - 1) with MAX_CHUNKS.
  rewrite !rbind_assoc. cbn [check_of]. apply rbind_ext. intros _.
  do 6 (rewrite ?rbind_assoc; apply rbind_ext; intros _).
  cbn [rbind]. unfold d_together. rewrite !rbind_assoc. reflexivity.
Qed.

Lemma known_iff kw names : check_keywords kw names = Ok tt <-> known names kw.
Proof.
  unfold check_keywords, known, mem. split.
  - destruct (forallb _ kw) eqn:F; [|discriminate]. intros _. rewrite forallb_forall in F. apply Forall_forall.
    intros kv I. apply F in I. apply existsb_exists in I as (x & I & Q). apply String.eqb_eq in Q. subst. exact I.
  - intros F. replace (forallb _ kw) with true; auto. symmetry. apply forallb_forall. rewrite Forall_forall in F.
    intros kv I. apply F in I. apply existsb_exists. exists (fst kv). split; auto. apply String.eqb_refl.
Qed.
Lemma unknown_raise kw names : ~ known names kw -> check_keywords kw names = Raise TypeError.
Proof. rewrite <- known_iff. unfold check_keywords. destruct (forallb _ kw); congruence. Qed.

Definition got (k : string) (d : dyn) (kw : kwargs) : Z := int_or_0 (value kw k d).
Lemma met kw k d lo hi ds : all_meet ds kw -> In (k, d, Whole lo hi) ds ->
  is_int (value kw k d) (got k d kw) /\ lo <= got k d kw <= hi.
Proof.
  unfold all_meet. rewrite Forall_forall. intros F I. apply F in I. cbn in I. destruct I as (z & I & R).
  unfold got. rewrite (is_int_value _ _ I). auto.
Qed.

Lemma together_ok kw : all_meet header_signature kw -> d_together kw = Ok tt <-> consistent kw.
Proof.
  intros A.
  assert (N := met kw "nchunks" (DInt (-1)) (-1) (2 ^ 63 - 1) _ A ltac:(cbn; tauto)).
  assert (M := met kw "max_app_chunks" (DInt 0) 0 (2 ^ 63 - 1) _ A ltac:(cbn; tauto)).
  assert (C := met kw "chunk_size" (DInt (-1)) (-1) (2 ^ 31 - 1 - 16) _ A ltac:(cbn; tauto)).
  assert (L := met kw "last_chunk" (DInt (-1)) (-1) (2 ^ 31 - 1 - 16) _ A ltac:(cbn; tauto)).
  unfold d_together, consistent. cbv zeta. fold (got "nchunks" (DInt (-1)) kw) (got "max_app_chunks" (DInt 0) kw).
  fold (got "chunk_size" (DInt (-1)) kw) (got "last_chunk" (DInt (-1)) kw).
  destruct N as [IN N], M as [IM M], C as [IC C], L as [IL L].
  set (n := got "nchunks" _ kw) in *. set (m := got "max_app_chunks" _ kw) in *.
  set (cs := got "chunk_size" _ kw) in *. set (lc := got "last_chunk" _ kw) in *.
  unfold check_range, MAX_CHUNKS. split.
  - intros H cs' lc' n' m' Hc Hl Hn Hm.
    rewrite (is_int_fun _ _ _ Hc IC), (is_int_fun _ _ _ Hl IL), (is_int_fun _ _ _ Hn IN), (is_int_fun _ _ _ Hm IM).
    apply rbind_Ok in H as ([] & H1 & H2).
    destruct (n =? -1) eqn:Z; cbn [negb] in H1;
    [destruct (m =? 0) eqn:Z2; cbn [negb] in H1; [|discriminate]|
     destruct ((0 <=? n + m) && (n + m <=? 9223372036854775807)) eqn:Z2; [|discriminate]];
    destruct (negb (cs =? -1) && negb (lc =? -1) && (cs <? lc)) eqn:Z3; try discriminate; lia.
  - intros H. destruct (H cs lc n m IC IL IN IM) as (H1 & H2 & H3).
    destruct (n =? -1) eqn:Z; cbn [negb].
    + replace (m =? 0) with true by lia. cbn [negb rbind].
      replace (negb (cs =? -1) && negb (lc =? -1) && (cs <? lc)) with false by lia. reflexivity.
    + replace ((0 <=? n + m) && (n + m <=? 9223372036854775807)) with true by lia. cbn [rbind].
      replace (negb (cs =? -1) && negb (lc =? -1) && (cs <? lc)) with false by lia. reflexivity.
Qed.
Lemma together_raise kw e : d_together kw = Raise e -> e = ValueError.
Proof.
  unfold d_together, check_range. cbv zeta. repeat (destruct (_ : bool); cbn [negb rbind andb]; try congruence).
Qed.

Theorem header_ok_iff kw h : new_header kw = Ok h <->
  known header_attrs kw /\ all_meet header_signature kw /\ consistent kw /\ h = d_fields kw.
Proof.
  rewrite new_header_eq. split.
  - intros H. apply rbind_Ok in H as ([] & H1 & H). apply rbind_Ok in H as ([] & H2 & H). apply rbind_Ok in H as ([] & H3 & H).
    apply known_iff in H1. apply checks_ok in H2. apply together_ok in H3; auto. injection H as <-. auto.
  - intros (H1 & H2 & H3 & ->). apply (proj2 (together_ok kw H2)) in H3. apply known_iff in H1. apply checks_ok in H2.
    rewrite H1, H2, H3. reflexivity.
Qed.
Theorem header_raise_iff kw e : known header_attrs kw ->
  (new_header kw = Raise e <->
   first_offence header_signature kw e \/ all_meet header_signature kw /\ ~ consistent kw /\ e = ValueError).
Proof.
  intros K. rewrite new_header_eq. apply known_iff in K. rewrite K. cbn [rbind]. split.
  - destruct (checks header_signature kw) as [[]|e'] eqn:C; cbn [rbind].
    + intros H. right. apply checks_ok in C. destruct (d_together kw) as [[]|e'] eqn:D; [discriminate|].
      cbn [rbind] in H. injection H as <-. repeat split; auto; [|apply (together_raise _ _ D)].
      intros N. apply (together_ok kw C) in N. congruence.
    + intros H. injection H as <-. left. apply checks_raise, C.
  - intros [O|(A & N & ->)].
    + apply checks_raise in O. rewrite O. reflexivity.
    + pose proof A as A'. apply checks_ok in A'. rewrite A'. cbn [rbind].
      destruct (d_together kw) as [[]|e'] eqn:D; [exfalso; apply N, (together_ok kw A), D|].
      cbn [rbind]. rewrite (together_raise _ _ D). reflexivity.
Qed.
Theorem header_unknown kw : ~ known header_attrs kw -> new_header kw = Raise TypeError.
Proof. intros H. rewrite new_header_eq, unknown_raise by exact H. reflexivity. Qed.

Definition dm_fields (kw : kwargs) : dmheader :=
  mkDMH (value kw "magic_format" (DBytes [])) (value kw "meta_options" (DStr (t_ "00000000")))
        (value kw "meta_checksum" (DStr (t_ "None"))) (value kw "meta_codec" (DStr (t_ "None")))
        (value kw "meta_level" (DInt 0)) (value kw "meta_size" (DInt 0)) (value kw "max_meta_size" (DInt 0))
        (value kw "meta_comp_size" (DInt 0)) (value kw "user_codec" (DBytes [])).
Lemma new_mheader_eq kw : new_mheader kw =
  (_ <~ check_keywords kw mheader_attrs ;; _ <~ checks metadata_signature kw ;; Ok (dm_fields kw)).
Proof.
  unfold new_mheader. cbv zeta. rewrite !arg_value, checksum_check, codec_check.
  apply rbind_ext. intros _. unfold metadata_signature. cbn [checks fst snd].
  change (2 ^ 32 - 1) with MAX_META_SIZE.
  rewrite !rbind_assoc. cbn [check_of]. apply rbind_ext. intros _.
  do 8 (rewrite ?rbind_assoc; apply rbind_ext; intros _).
  reflexivity.
Qed.
Theorem mheader_ok_iff kw h : new_mheader kw = Ok h <->
  known mheader_attrs kw /\ all_meet metadata_signature kw /\ h = dm_fields kw.
Proof.
  rewrite new_mheader_eq. split.
  - intros H. apply rbind_Ok in H as ([] & H1 & H). apply rbind_Ok in H as ([] & H2 & H).
    apply known_iff in H1. apply checks_ok in H2. injection H as <-. auto.
  - intros (H1 & H2 & ->). apply known_iff in H1. apply checks_ok in H2. rewrite H1, H2. reflexivity.
Qed.
Theorem mheader_raise_iff kw e : known mheader_attrs kw ->
  (new_mheader kw = Raise e <-> first_offence metadata_signature kw e).
Proof.
  intros K. rewrite new_mheader_eq. apply known_iff in K. rewrite K. cbn [rbind]. rewrite <- checks_raise.
  destruct (checks metadata_signature kw) as [[]|e']; cbn [rbind]; split; congruence.
Qed.
Theorem mheader_unknown kw : ~ known mheader_attrs kw -> new_mheader kw = Raise TypeError.
Proof. intros H. rewrite new_mheader_eq, unknown_raise by exact H. reflexivity. Qed.
