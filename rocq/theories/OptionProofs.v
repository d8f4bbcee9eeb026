(** Proofs about the -z option of the command line. *)
From Verif Require Import Base Pretty Args FileIO Append Files Cli Spec BaseLemmas PrettyProofs.
From Coq Require Import ZifyBool ZifyNat.
Ltac Zify.zify_post_hook ::= Z.div_mod_to_equations.

(** ** Specification *)
(** Integers as int() reads them: blanks, a sign or none, digits that may have
    underscores between them, blanks. *)
Definition sign_of (sgn : list ascii) (s : Z) : Prop := (sgn = [] /\ s = 1) \/ (sgn = ["+"%char] /\ s = 1) \/ (sgn = ["-"%char] /\ s = -1).
Definition int_literal (l : list ascii) (z : Z) : Prop :=
  exists a sgn s d b, l = a ++ sgn ++ d ++ b /\ forallb blank a = true /\ forallb blank b = true /\ sign_of sgn s /\
    between_digits d /\ filter not_underscore d <> [] /\ forallb digit (filter not_underscore d) = true /\
    z = s * decimal (filter not_underscore d).

Lemma number_text_plain l : forallb plainc l = true -> number_text l = Some l.
Proof.
  intros H. unfold number_text. rewrite plain_strip, no_underscores_good by exact H.
  assert (F : filter not_underscore l = l).
  { revert H. induction l as [|c l IH]; [reflexivity|]. cbn [forallb filter]. intros H. apply andb_true_iff in H as [H1 H2]. destruct (plainc_facts c H1) as (_ & -> & _). rewrite IH by exact H2. reflexivity. }
  assert (G : good zero l = true) by (apply good_between; rewrite <- F; apply between_none). rewrite G, F. reflexivity.
Qed.
Lemma between_drop c l : digit c = false -> between_digits (c :: l) -> between_digits l.
Proof.
  intros W H a b EQ. destruct (H (c :: a) b) as [D1 D2]; [rewrite EQ; reflexivity|]. split; [|exact D2].
  rewrite last_cons_ in D1. destruct a as [|x a]; [cbn in D1; congruence|]. rewrite last_cons_ in *. exact D1.
Qed.
Lemma between_add c l : c <> "_"%char -> between_digits l -> between_digits (c :: l).
Proof.
  intros N H a b EQ. destruct a as [|x a]; [injection EQ as EQ _; congruence|]. injection EQ as <- EQ. destruct (H a b EQ) as [D1 D2]. split; [|exact D2].
  rewrite last_cons_. destruct a as [|y a]; [discriminate|]. rewrite last_cons_ in *. exact D1.
Qed.
Lemma int_plain sgn s d : sign_of sgn s -> d <> [] -> forallb digit d = true ->
  take_sign (sgn ++ d) = (s <? 0, d) /\ number_text (sgn ++ d) = Some (sgn ++ d) /\ take_digits 0 0 d = (decimal d, zlen d, []) /\ 0 < zlen d /\ 0 <= decimal d.
Proof.
  intros S N D. split; [|split; [|split; [|split]]].
  - destruct S as [[-> ->]|[[-> ->]|[-> ->]]]; cbn [app]; [apply digits_sign; exact D|reflexivity|reflexivity].
  - apply number_text_plain. rewrite forallb_app, (digits_plain d D). destruct S as [[-> ->]|[[-> ->]|[-> ->]]]; reflexivity.
  - rewrite take_all_digits by exact D. reflexivity.
  - destruct d as [|x d]; [congruence|]. rewrite zlen_cons. pose proof (zlen_nonneg d). lia.
  - apply (decimal_nonneg_from d D 0). lia.
Qed.
Lemma take_digits_all l : forall acc cnt v n, take_digits acc cnt l = (v, n, []) ->
  forallb digit l = true.
Proof.
  induction l as [|c l IH]; intros acc cnt v n; cbn [take_digits forallb]; [reflexivity|].
  unfold digit_val. fold (digit c). destruct (digit c) eqn:D; [|discriminate]. intros H. apply IH in H. exact H.
Qed.

Theorem int_of_text_iff t z : int_of_text t = Ok z <-> int_literal (list_ascii_of_string t) z.
Proof.
  unfold int_of_text. set (l := list_ascii_of_string t). clearbody l. split.
  - destruct (number_text l) as [m|] eqn:NT; [|discriminate].
    unfold number_text in NT. rewrite no_underscores_good in NT. destruct (good zero (strip_text l)) eqn:G; [|discriminate]. injection NT as <-.
    apply good_between in G. destruct (strip_split l) as (a & b & EQ & A & B). set (m := strip_text l) in *. clearbody m.
    assert (A' : forallb blank a = true) by (apply forallb_forall; intros x I; rewrite <- is_ws_blank; rewrite forallb_forall in A; auto).
    assert (B' : forallb blank b = true) by (apply forallb_forall; intros x I; rewrite <- is_ws_blank; rewrite forallb_forall in B; auto).
    destruct (take_sign (filter not_underscore m)) as [neg r] eqn:TS. destruct (take_digits 0 0 r) as [[v n] rest] eqn:TD.
    destruct rest; [|discriminate]. destruct (n =? 0) eqn:N0; [discriminate|]. intros EZ. injection EZ as <-.
    pose proof (take_digits_all _ _ _ _ _ TD) as D. rewrite take_all_digits in TD by exact D. injection TD as <- <-. fold (decimal r).
    assert (S : exists sgn s d, m = sgn ++ d /\ sign_of sgn s /\ filter not_underscore d = r /\ between_digits d /\ (if neg then - decimal r else decimal r) = s * decimal r).
    { destruct m as [|c m]; [cbn in TS; injection TS as <- <-; exists [], 1, []; refine (conj eq_refl (conj _ (conj eq_refl (conj _ _)))); [left; auto|exact G|lia]|].
      assert (C : Ascii.eqb c "_" = false).
      { destruct (Ascii.eqb c "_") eqn:C; [|reflexivity]. apply Ascii.eqb_eq in C. subst c. destruct (G [] m eq_refl) as [X _]. discriminate. }
      cbn [filter] in TS. change (not_underscore c) with (negb (Ascii.eqb c "_")) in TS. rewrite C in TS. cbn [negb take_sign] in TS.
      destruct (Ascii.eqb c "-") eqn:M.
      - apply Ascii.eqb_eq in M. subst c. injection TS as <- <-. exists ["-"%char], (-1), m. refine (conj eq_refl (conj _ (conj eq_refl (conj _ _)))); [right; right; auto|eapply between_drop; [|exact G]; reflexivity|lia].
      - destruct (Ascii.eqb c "+") eqn:P.
        + apply Ascii.eqb_eq in P. subst c. injection TS as <- <-. exists ["+"%char], 1, m. refine (conj eq_refl (conj _ (conj eq_refl (conj _ _)))); [right; left; auto|eapply between_drop; [|exact G]; reflexivity|lia].
        + injection TS as <- <-. exists [], 1, (c :: m). refine (conj eq_refl (conj _ (conj _ (conj _ _)))); [left; auto| |exact G|lia].
          cbn [filter]. change (not_underscore c) with (negb (Ascii.eqb c "_")). rewrite C. reflexivity. }
    destruct S as (sgn & s & d & -> & S & FD & BD & V). rewrite <- app_assoc in EQ. exists a, sgn, s, d, b. rewrite FD.
    refine (conj EQ (conj A' (conj B' (conj S (conj BD (conj _ (conj D V))))))). intros ->. cbn in N0. discriminate.
  - intros (a & sgn & s & d & b & -> & A & B & S & BD & NE & D & ->).
    replace (sgn ++ d ++ b) with ((sgn ++ d) ++ b) by (rewrite <- app_assoc; reflexivity). rewrite number_text_blanks by assumption.
    assert (BS : between_digits (sgn ++ d)) by (destruct S as [[-> _]|[[-> _]|[-> _]]]; cbn [app]; [exact BD|apply between_add; [discriminate|exact BD]|apply between_add; [discriminate|exact BD]]).
    rewrite number_text_under by exact BS. rewrite filter_app. replace (filter not_underscore sgn) with sgn by (destruct S as [[-> _]|[[-> _]|[-> _]]]; reflexivity).
    set (r := filter not_underscore d) in *. clearbody r. destruct (int_plain sgn s r S NE D) as (T1 & T2 & T3 & T4 & T5). rewrite T2, T1, T3.
    replace (zlen r =? 0) with false by lia. f_equal. destruct (s <? 0) eqn:SG; destruct S as [[_ ->]|[[_ ->]|[_ ->]]]; lia.
Qed.
Lemma int_of_text_raise t e : int_of_text t = Raise e -> e = ValueError.
Proof.
  unfold int_of_text. destruct (number_text _); [|congruence]. destruct (take_sign _) as [neg r]. destruct (take_digits 0 0 r) as [[v n] [|]]; [|congruence].
  destruct (n =? 0); congruence.
Qed.
Lemma reverse_pretty_raise t e : reverse_pretty t = Raise e -> t <> EmptyString -> e = ValueError \/ e = OverflowError.
Proof.
  unfold reverse_pretty. destruct (rev (list_ascii_of_string t)) as [|c r] eqn:R.
  - intros _ N. apply (f_equal (@rev ascii)) in R. rewrite rev_involutive in R. destruct t; [congruence|discriminate].
  - intros H _. destruct (suffix_bits c); [|left; congruence]. unfold float_times in H. destruct (number_text _); [|left; congruence].
    destruct (inf_or_nan _) as [[]|]; [right; congruence|left; congruence|]. unfold decimal_times in H. destruct (parse_decimal _) as [[[neg m] ex]|]; [|left; congruence].
    destruct (if 0 <=? ex then _ else _) as [mm ee]. unfold int_of_scaled in H. destruct (_ && _); [right; congruence|discriminate].
Qed.
Definition ends_in_unit (t : string) : Prop := exists l c, list_ascii_of_string t = l ++ [c] /\ In c (map fst units).
Lemma suffix_not c : ~ In c (map fst units) -> suffix_bits c = None.
Proof.
  intros H. unfold suffix_bits. cbn [map fst units In] in H.
  repeat match goal with |- context [Ascii.eqb c ?x] => let E := fresh in destruct (Ascii.eqb c x) eqn:E; [apply Ascii.eqb_eq in E; subst c; exfalso; apply H; tauto|] end.
  reflexivity.
Qed.

(** The outcome of -z <text>. *)
Theorem chunk_size_option_outcome t : t <> "max"%string -> t <> ""%string ->
  (forall z, ends_in_unit t -> reverse_pretty t = Ok z -> chunk_size_option t = if z <? 0 then Raise (SystemExit 1) else Ok z) /\
  (forall z, ~ ends_in_unit t -> int_literal (list_ascii_of_string t) z -> chunk_size_option t = if z <? 0 then Raise (SystemExit 1) else Ok z) /\
  (ends_in_unit t -> reverse_pretty t = Raise ValueError -> chunk_size_option t = Raise (SystemExit 1)) /\
  (ends_in_unit t -> reverse_pretty t = Raise OverflowError -> chunk_size_option t = Raise OverflowError) /\
  (~ ends_in_unit t -> (forall z, ~ int_literal (list_ascii_of_string t) z) -> chunk_size_option t = Raise (SystemExit 1)).
Proof.
  intros M N. unfold chunk_size_option. apply String.eqb_neq in M. rewrite M.
  assert (X : exists l c, list_ascii_of_string t = l ++ [c]).
  { destruct (list_ascii_of_string t) as [|x r] eqn:L using rev_ind; [destruct t; [congruence|discriminate]|eauto]. }
  destruct X as (l & c & L). rewrite L, rev_app_distr. cbn [rev app].
  assert (EU : ends_in_unit t <-> In c (map fst units)).
  { split; [|exists l, c; auto]. intros (l' & c' & L' & I). rewrite L in L'. apply app_inj_tail in L' as [_ ->]. exact I. }
  assert (SU : In c (map fst units) -> exists k, suffix_bits c = Some k).
  { intros I. apply in_map_iff in I as ((c', w) & <- & I). cbn [fst]. apply suffix_units in I as (k & K & _). eauto. }
  repeat split.
  - intros z E R. apply EU, SU in E as (k & ->). rewrite R. cbn [rbind]. reflexivity.
  - intros z E R. rewrite EU in E. rewrite (suffix_not c E). rewrite <- L in R. apply int_of_text_iff in R. rewrite R. cbn [rbind]. reflexivity.
  - intros E R. apply EU, SU in E as (k & ->). rewrite R. reflexivity.
  - intros E R. apply EU, SU in E as (k & ->). rewrite R. reflexivity.
  - intros E R. rewrite EU in E. rewrite (suffix_not c E). destruct (int_of_text t) as [z|e] eqn:I.
    + apply int_of_text_iff in I. rewrite L in I. destruct (R z I).
    + apply int_of_text_raise in I. subst e. reflexivity.
Qed.
Theorem chunk_size_option_total t : chunk_size_option "max" = Ok (2 ^ 31 - 17) /\ chunk_size_option "" = Raise IndexError /\
  match chunk_size_option t with
  | Ok z => 0 <= z
  | Raise e => e = SystemExit 1 \/ (e = IndexError /\ t = ""%string) \/ (e = OverflowError /\ reverse_pretty t = Raise OverflowError)
  end.
Proof.
  split; [reflexivity|]. split; [reflexivity|]. unfold chunk_size_option. destruct (String.eqb t "max"); [discriminate|].
  destruct (rev (list_ascii_of_string t)) as [|c r] eqn:R.
  - cbn [rbind]. right. left. split; [reflexivity|]. apply (f_equal (@rev ascii)) in R. rewrite rev_involutive in R. destruct t; [reflexivity|discriminate].
  - assert (NE : t <> ""%string) by (intros ->; discriminate). destruct (suffix_bits c).
    + destruct (reverse_pretty t) as [z0|e] eqn:RP; cbn [rbind].
      * destruct (z0 <? 0) eqn:Z0; [left; reflexivity|lia].
      * destruct (reverse_pretty_raise t e RP NE) as [-> | ->]; cbn [is_ValueError rbind]; auto.
    + destruct (int_of_text t) as [z0|e] eqn:RP; cbn [rbind].
      * destruct (z0 <? 0) eqn:Z0; [left; reflexivity|lia].
      * apply int_of_text_raise in RP. subst e. cbn [is_ValueError rbind]. auto.
Qed.
Theorem refused_option E o t e s : blosc_choices E (co_clevel o) (co_cname o) = Ok tt -> co_chunk o = Some t -> chunk_size_option t = Raise e ->
  main E (CmdCompress o) s = (s, Raise e).
Proof. intros B C H. unfold main, cli_compress, bind, lift. rewrite B, C, H. reflexivity. Qed.
