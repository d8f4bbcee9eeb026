(** Proofs about argparse's reading of one argument. *)
From Verif Require Import Base PyVal Checksums Headers Pretty Args FileIO Append Files Cli Parser Argparse Spec BaseLemmas PrettyProofs OptionProofs ParserSpec ParserProofs ParserMain ArgSpec.
From Coq Require Import ZifyBool ZifyNat.
Ltac Zify.zify_post_hook ::= Z.div_mod_to_equations.
Local Open Scope string_scope.

(** ** Texts *)
Lemma starts_iff p s : starts_with p s = true <-> prefix p s.
Proof.
  revert s. induction p as [|a p IH]; intros s; cbn [starts_with]; [split; [intros _; exists s; reflexivity|reflexivity]|].
  destruct s as [|b s]; [split; [discriminate|intros [r H]; discriminate]|]. rewrite andb_true_iff, Ascii.eqb_eq, IH. unfold prefix. cbn [append]. split.
  - intros [-> [r ->]]. exists r. reflexivity.
  - intros [r H]. injection H as -> ->. split; [reflexivity|exists r; reflexivity].
Qed.
Lemma has_iff c s : has_char c s = true <-> In c (chars s).
Proof.
  unfold chars. induction s as [|x s IH]; cbn [has_char list_ascii_of_string In]; [split; [discriminate|intros []]|]. rewrite orb_true_iff, Ascii.eqb_eq, IH. reflexivity.
Qed.
Lemma partition_before s p x : partition_eq s = (p, x) -> before_equals p s /\ s = match x with Some e => p ++ String "=" e | None => p end.
Proof.
  revert p x. induction s as [|c s IH]; intros p x; cbn [partition_eq].
  - intros H. injection H as <- <-. split; [split; [intros []|left; reflexivity]|reflexivity].
  - destruct (Ascii.eqb c "=") eqn:C.
    + intros H. injection H as <- <-. apply Ascii.eqb_eq in C. subst c. split; [split; [intros []|right; exists s; reflexivity]|reflexivity].
    + destruct (partition_eq s) as [a b] eqn:Q. intros H. injection H as <- <-. destruct (IH a b eq_refl) as [[N B] S]. cbn [append]. split.
      * split; [intros [H|H]; [subst c; discriminate|exact (N H)]|]. destruct B as [B|[e B]]; [left; congruence|right; exists e; cbn [append]; congruence].
      * rewrite S. destruct b; reflexivity.
Qed.
Lemma partition_none p : ~ In "="%char (chars p) -> partition_eq p = (p, None).
Proof.
  unfold chars. induction p as [|c p IH]; cbn [list_ascii_of_string In partition_eq]; intros N; [reflexivity|]. destruct (Ascii.eqb_spec c "=") as [-> |C]; [destruct N; auto|].
  rewrite IH by tauto. reflexivity.
Qed.
Lemma partition_some p e : ~ In "="%char (chars p) -> partition_eq (p ++ String "=" e) = (p, Some e).
Proof.
  unfold chars. induction p as [|c p IH]; cbn [list_ascii_of_string In partition_eq append]; intros N; [reflexivity|]. destruct (Ascii.eqb_spec c "=") as [-> |C]; [destruct N; auto|].
  rewrite IH by tauto. reflexivity.
Qed.
Lemma before_fun p p' s : before_equals p s -> before_equals p' s -> p = p'.
Proof.
  intros [N B] [N' B']. assert (P : fst (partition_eq s) = p) by (destruct B as [-> |[e ->]]; [rewrite partition_none by exact N|rewrite partition_some by exact N]; reflexivity).
  assert (P' : fst (partition_eq s) = p') by (destruct B' as [-> |[e ->]]; [rewrite partition_none by exact N'|rewrite partition_some by exact N']; reflexivity). congruence.
Qed.
Fixpoint prefixes (s : string) : list string := "" :: match s with EmptyString => [] | String c r => map (String c) (prefixes r) end.
Lemma prefixes_iff p s : In p (prefixes s) <-> prefix p s.
Proof.
  revert p. induction s as [|c s IH]; intros p; cbn [prefixes In].
  - split; [intros [<-|[]]; exists ""; reflexivity|]. intros [r H]. destruct p; [auto|discriminate].
  - rewrite in_map_iff. split.
    + intros [<-|(x & <- & I)]; [exists (String c s); reflexivity|]. apply IH in I as [r ->]. exists r. reflexivity.
    + intros [r H]. destruct p as [|a p]; [auto|]. cbn [append] in H. injection H as -> ->. right. exists p. split; [reflexivity|]. apply IH. exists r. reflexivity.
Qed.
Lemma app_assoc_s (a b c : string) : (a ++ b) ++ c = a ++ (b ++ c).
Proof. induction a as [|x a IH]; cbn [append]; [reflexivity|]. rewrite IH. reflexivity. Qed.

(** ** Tables *)
Definition the_tables : list (table * list dest) :=
  [(main_options, main_set); (compress_options, sub_set SubCompress); (decompress_options, sub_set SubDecompress); (append_options, sub_set SubAppend); (help_options, sub_set SubInfo)].
Lemma sub_in_tables c : In (options_of c, sub_set c) the_tables.
Proof. destruct c; cbn; tauto. Qed.
Lemma main_in_tables : In (main_options, main_set) the_tables. Proof. cbn; tauto. Qed.
Lemma tables_tabled t set : In (t, set) the_tables -> tabled t set.
Proof.
  intros I. unfold the_tables in I. cbn [In] in I. destruct I as [I|[I|[I|[I|[I|[]]]]]]; injection I as <- <-;
  [exact main_tabled|exact (sub_tabled SubCompress)|exact (sub_tabled SubDecompress)|exact (sub_tabled SubAppend)|exact (sub_tabled SubInfo)].
Qed.
Definition nodupb (t : table) : bool :=
  (fix go l := match l with [] => true | x :: r => negb (existsb (String.eqb x) r) && go r end) (map fst t).
Lemma nodupb_ok t : nodupb t = true -> NoDup (map fst t).
Proof.
  unfold nodupb. induction (map fst t) as [|x r IH]; [constructor|]. intros H. apply andb_true_iff in H as [H1 H2]. constructor; [|exact (IH H2)].
  intros I. apply negb_true_iff in H1. assert (existsb (String.eqb x) r = true) by (apply existsb_exists; exists x; split; [exact I|apply String.eqb_refl]). congruence.
Qed.
Lemma tables_nodup t set : In (t, set) the_tables -> NoDup (map fst t).
Proof. intros I. apply nodupb_ok. unfold the_tables in I. cbn [In] in I. destruct I as [I|[I|[I|[I|[I|[]]]]]]; injection I as <- <-; reflexivity. Qed.
Lemma nodup_pairs (t : table) : NoDup (map fst t) -> NoDup t.
Proof. apply NoDup_map_inv. Qed.
Lemma in_named t set s d : In (t, set) the_tables -> In (s, d) t <-> In d set /\ In s (names d).
Proof.
  intros I. pose proof (tables_tabled t set I) as T. split; [apply (proj1 T)|]. intros [D N]. pose proof (proj2 T s d D N) as O. destruct (find_named t s) as [X|(d' & X & J)]; congruence.
Qed.

Definition all_dests : list dest :=
  [Help; Version; Verbose; Debug; Force; Threads; Typesize; Clevel; NoShuffle; Cname; ChunkSize; Checksum; NoOffsets; Metadata; NoCheck].
Lemma all_dests_all d : In d all_dests. Proof. destruct d; cbn; tauto. Qed.
(** Facts about the names, checked one by one. *)
Definition name_shape (s : string) : bool :=
  match s with
  | String "-" (String "-" (String c r)) => negb (has_char "=" s)
  | String "-" (String c "") => negb (Ascii.eqb c "-") && negb (Ascii.eqb c "=") && negb (is_digit c) && negb (Ascii.eqb c ".") && negb (Ascii.eqb c " ")
  | _ => false
  end.
Lemma names_shape d s : In s (names d) -> name_shape s = true.
Proof. destruct d; cbn [names In]; intros H; ins; subst s; reflexivity. Qed.
Lemma name_cases d s : In s (names d) ->
  (exists c r, s = String "-" (String "-" (String c r)) /\ ~ In "="%char (chars s)) \/
  (exists c, s = String "-" (String c "") /\ c <> "-"%char /\ c <> "="%char /\ is_digit c = false /\ c <> "."%char /\ c <> " "%char).
Proof.
  intros H. apply names_shape in H. destruct s as [|a [|b [|c r]]].
  - discriminate.
  - cbn in H. destruct (ascii_dec a "-") as [-> |N]; [discriminate|]. destruct a as [[] [] [] [] [] [] [] []]; try discriminate; congruence.
  - right. exists b. destruct (ascii_dec a "-") as [-> |N].
    + assert (X : negb (Ascii.eqb b "-") && negb (Ascii.eqb b "=") && negb (is_digit b) && negb (Ascii.eqb b ".") && negb (Ascii.eqb b " ") = true)
        by (destruct b as [[] [] [] [] [] [] [] []]; first [exact H|reflexivity|discriminate]).
      clear H. apply andb_true_iff in X as [X X5]. apply andb_true_iff in X as [X X4]. apply andb_true_iff in X as [X X3]. apply andb_true_iff in X as [X1 X2]. apply negb_true_iff in X1, X2, X3, X4, X5.
      split; [reflexivity|]. split; [intros ->; discriminate|]. split; [intros ->; discriminate|]. split; [exact X3|]. split; intros ->; discriminate.
    + exfalso. destruct a as [[] [] [] [] [] [] [] []]; try discriminate; congruence.
  - left. exists c, r. destruct (ascii_dec a "-") as [-> |N]; [|exfalso; destruct a as [[] [] [] [] [] [] [] []]; try discriminate; congruence].
    destruct (ascii_dec b "-") as [-> |N]; [|exfalso; destruct b as [[] [] [] [] [] [] [] []]; try discriminate; congruence].
    split; [reflexivity|]. intros I. apply has_iff in I. cbn [name_shape] in H. apply negb_true_iff in H. congruence.
Qed.
Lemma one_long d n n' : In n (names d) -> In n' (names d) -> prefix "--" n -> prefix "--" n' -> n = n'.
Proof.
  intros I J P Q. apply starts_iff in P, Q. destruct d; cbn [names In] in I, J; ins; subst n n'; try reflexivity; discriminate.
Qed.
Lemma short_fun d d' c : short d c -> short d' c -> d = d'.
Proof. apply names_inj. Qed.
Lemma full_name_unique : forallb (fun d => forallb (fun n => forallb (fun d' => forallb (fun n' => negb (starts_with "--" n) || negb (starts_with n n') || (if dest_eq d' d then true else false)) (names d')) all_dests) (names d)) all_dests = true.
Proof. vm_compute. reflexivity. Qed.
Lemma name_unique d n d' n' : In n (names d) -> In n' (names d') -> prefix "--" n -> prefix n n' -> d' = d.
Proof.
  intros I J P Q. pose proof full_name_unique as F. rewrite forallb_forall in F. specialize (F d (all_dests_all d)). rewrite forallb_forall in F. specialize (F n I).
  rewrite forallb_forall in F. specialize (F d' (all_dests_all d')). rewrite forallb_forall in F. specialize (F n' J). apply starts_iff in P, Q. rewrite P, Q in F. cbn [negb orb] in F.
  destruct (dest_eq d' d); [assumption|discriminate].
Qed.

(** ** One argument *)
Lemma named_noeq t set p e : In (t, set) the_tables -> option_named t (p ++ String "=" e) = None.
Proof.
  intros I. destruct (option_named t (p ++ String "=" e)) as [d|] eqn:O; [|reflexivity]. exfalso. apply (tabled_some t set _ _ (tables_tabled t set I)) in O as [_ N].
  assert (X : In "="%char (chars (p ++ String "=" e))). { clear. unfold chars. induction p as [|c p IH]; cbn [append list_ascii_of_string In]; auto. }
  destruct (name_cases d _ N) as [(c & r & _ & Y)|(c & S & _ & Y & _)]; [exact (Y X)|]. rewrite S in X. cbn in X. destruct X as [X|[X|[]]]; [discriminate|]. congruence.
Qed.
Lemma only_one {A} (l : list A) (a : A) : NoDup l -> (forall x, In x l -> x = a) -> In a l -> l = [a].
Proof.
  intros N H I. destruct l as [|x [|y l]]; [destruct I|rewrite (H x); [reflexivity|left; reflexivity]|]. exfalso. inversion N as [|? ? NI _]. apply NI. left.
  rewrite (H x), (H y); [reflexivity|right; left; reflexivity|left; reflexivity].
Qed.
Lemma flat_one {A} (t : table) n d (g : string * dest -> A) : NoDup (map fst t) -> In (n, d) t -> flat_map (fun o => if String.eqb (fst o) n then [g o] else []) t = [g (n, d)].
Proof.
  intros N I. induction t as [|[m e] t IH]; [destruct I|]. cbn [map fst] in N. inversion N as [|? ? NI N']. subst. cbn [flat_map fst]. destruct (String.eqb_spec m n) as [-> |D].
  - destruct I as [I|I]; [|destruct NI; apply in_map_iff; exists (n, d); auto]. injection I as <-.
    replace (flat_map _ t) with (@nil A); [reflexivity|]. symmetry. clear IH N N'. induction t as [|[m e'] t IH]; [reflexivity|]. cbn [flat_map fst]. cbn [map fst In] in NI.
    destruct (String.eqb_spec m n) as [-> |D]; [destruct NI; auto|]. cbn [app]. apply IH. tauto.
  - destruct I as [I|I]; [congruence|]. cbn [app]. exact (IH N' I).
Qed.
Lemma flat_none {A} (t : table) n (g : string * dest -> A) : ~ In n (map fst t) -> flat_map (fun o => if String.eqb (fst o) n then [g o] else []) t = [].
Proof. induction t as [|[m e] t IH]; intros N; [reflexivity|]. cbn [flat_map fst map In] in *. destruct (String.eqb_spec m n) as [-> |D]; [destruct N; auto|]. apply IH. tauto. Qed.
Lemma substring_all s : substring 0 (String.length s) s = s.
Proof. induction s as [|c s IH]; [reflexivity|]. cbn. rewrite IH. reflexivity. Qed.
(** '-c' followed by something *)
Lemma tuples_short t set c x r : In (t, set) the_tables -> c <> "-"%char ->
  option_tuples t (String "-" (String c (String x r))) =
  flat_map (fun o => if String.eqb (fst o) (String "-" (String c "")) then [(snd o, fst o, Some (false, String x r))] else []) t.
Proof.
  intros I C. unfold option_tuples. replace (starts_with "--" (String "-" (String c (String x r)))) with false.
  2:{ cbn [starts_with]. rewrite Ascii.eqb_refl. destruct (Ascii.eqb_spec "-" c); [congruence|reflexivity]. }
  replace (substring 0 2 (String "-" (String c (String x r)))) with (String "-" (String c "")) by (cbn; destruct r; reflexivity).
  replace (substring 2 (String.length (String "-" (String c (String x r))) - 2) (String "-" (String c (String x r)))) with (String x r)
    by (cbn [String.length Nat.sub substring]; change (S (String.length r)) with (String.length (String x r)); rewrite substring_all; reflexivity).
  assert (H : forall o, In o t -> starts_with (String "-" (String c (String x r))) (fst o) = false).
  { intros [n d] J. cbn [fst]. destruct (starts_with _ n) eqn:S; [|reflexivity]. exfalso. apply starts_iff in S as [q S]. apply (in_named t set n d I) in J as [_ N].
    destruct (name_cases d n N) as [(a & b & E & _)|(a & E & _)]; rewrite E in S; cbn [append] in S; congruence. }
  revert H. generalize t. clear. induction t as [|o t IH]; intros H; [reflexivity|]. cbn [flat_map]. rewrite IH by (intros p J; apply H; right; exact J). rewrite (H o (or_introl eq_refl)).
  destruct (String.eqb (fst o) _); reflexivity.
Qed.
Lemma named_longer t set c x r : In (t, set) the_tables -> c <> "-"%char -> option_named t (String "-" (String c (String x r))) = None.
Proof.
  intros I C. destruct (option_named t _) as [d|] eqn:O; [|reflexivity]. exfalso. apply (tabled_some t set _ _ (tables_tabled t set I)) in O as [_ N].
  destruct (name_cases d _ N) as [(a & b & S & _)|(a & S & _)]; injection S as S; congruence.
Qed.
Lemma short_char d c : short d c -> c <> "-"%char /\ c <> "="%char /\ is_digit c = false /\ c <> "."%char /\ c <> " "%char.
Proof. intros S. destruct (name_cases d _ S) as [(a & b & E & _)|(a & E & X)]; injection E as E; [discriminate|]. subst a. exact X. Qed.
Lemma short_case t set d c r : In (t, set) the_tables -> In d set -> short d c ->
  parse_optional t (String "-" (String c r)) = Some (KO (Some (d, String "-" (String c "")))
    match r with "" => None | String x e => if Ascii.eqb x "=" then Some (true, e) else Some (false, r) end).
Proof.
  intros I D S. pose proof (tables_tabled t set I) as T. destruct (short_char d c S) as (C1 & C2 & _). unfold parse_optional.
  replace (Ascii.eqb "-" "-") with true by reflexivity. cbn [negb]. destruct r as [|x e].
  - rewrite (proj2 T _ d D S). reflexivity.
  - rewrite (named_longer t set c x e I C1). cbn [String.eqb]. cbn [partition_eq]. replace (Ascii.eqb "-" "=") with false by reflexivity.
    destruct (Ascii.eqb_spec c "=") as [X|_]; [congruence|]. destruct (Ascii.eqb_spec x "=") as [-> |X].
    + rewrite (proj2 T _ d D S). reflexivity.
    + destruct (partition_eq e) as [p y]. rewrite (named_longer t set c x p I C1), (tuples_short t set c x e I C1).
      rewrite (flat_one t (String "-" (String c "")) d (fun o => (snd o, fst o, Some (false, String x e))) (tables_nodup t set I)) by (apply (in_named t set _ d I); auto).
      destruct y; reflexivity.
Qed.
(** '-c..' where there is no '-c' *)
Lemma short_no t set c r : In (t, set) the_tables -> c <> "-"%char -> (forall d, In d set -> ~ short d c) ->
  parse_optional t (String "-" (String c r)) = Some (if negative_number (String "-" (String c r)) then KA else if has_char " " (String "-" (String c r)) then KA else KO None None).
Proof.
  intros I C1 H. pose proof (tables_tabled t set I) as T. unfold parse_optional. replace (Ascii.eqb "-" "-") with true by reflexivity. cbn [negb].
  assert (N : option_named t (String "-" (String c "")) = None).
  { destruct (option_named t _) as [d|] eqn:O; [|reflexivity]. exfalso. apply (tabled_some t set _ _ T) in O as [D N]. exact (H d D N). }
  assert (N' : ~ In (String "-" (String c "")) (map fst t)).
  { intros J. apply in_map_iff in J as ([n d] & E & J). cbn [fst] in E. subst n. apply (in_named t set _ d I) in J as [D J]. exact (H d D J). }
  assert (U : option_tuples t (String "-" (String c r)) = []).
  { destruct r as [|x e].
    - unfold option_tuples. replace (starts_with "--" (String "-" (String c ""))) with false.
      2:{ cbn [starts_with]. rewrite Ascii.eqb_refl. destruct (Ascii.eqb_spec "-" c); [congruence|reflexivity]. }
      replace (substring 0 2 (String "-" (String c ""))) with (String "-" (String c "")) by reflexivity.
      assert (Q : forall o, In o t -> starts_with (String "-" (String c "")) (fst o) = false).
      { intros [n d] J. cbn [fst]. destruct (starts_with _ n) eqn:S; [|reflexivity]. exfalso. apply starts_iff in S as [q S]. pose proof J as J'. apply (in_named t set n d I) in J as [_ M].
        destruct (name_cases d n M) as [(a & b & E & _)|(a & E & _)]; rewrite E in S; cbn [append] in S; [congruence|]. injection S as S _. subst a. apply N'. apply in_map_iff. exists (n, d). split; [cbn; congruence|exact J']. }
      revert N' Q. generalize t. clear. induction t as [|o t IH]; intros N' Q; [reflexivity|]. cbn [flat_map]. cbn [map In] in N'.
      rewrite IH; [|tauto|intros p J; apply Q; right; exact J]. rewrite (Q o (or_introl eq_refl)). destruct (String.eqb_spec (fst o) (String "-" (String c ""))); [tauto|reflexivity].
    - rewrite (tuples_short t set c x e I C1). apply flat_none. exact N'. }
  replace (option_named t (String "-" (String c r))) with (@None dest) by (destruct r; symmetry; [exact N|apply (named_longer t set c a r I C1)]).
  cbn [String.eqb]. destruct (partition_eq (String "-" (String c r))) as [p [e|]] eqn:PE.
  - assert (P : option_named t p = None).
    { apply partition_before in PE as [_ S]. destruct (option_named t p) as [d|] eqn:O; [|reflexivity]. exfalso. pose proof O as O'. apply (tabled_some t set _ _ T) in O as [D M].
      destruct (name_cases d p M) as [(a & b & E & _)|(a & E & A1 & A2 & _)]; rewrite E in S; cbn [append] in S; injection S as S S2; subst; [congruence|]. exact (H d D M). }
    rewrite P, U. destruct (negative_number _); [reflexivity|]. destruct (has_char _ _); reflexivity.
  - rewrite U. destruct (negative_number _); [reflexivity|]. destruct (has_char _ _); reflexivity.
Qed.
(** '--..' *)
Definition fitting (t : table) (p : string) : table := filter (fun o => starts_with p (fst o)) t.
Lemma fitting_iff t set p n d : In (t, set) the_tables -> In (n, d) (fitting t p) <-> In d set /\ In n (names d) /\ prefix p n.
Proof. intros I. unfold fitting. rewrite filter_In, (in_named t set n d I). cbn [fst]. rewrite starts_iff. tauto. Qed.
Lemma prefix_trans a b c : prefix a b -> prefix b c -> prefix a c.
Proof. intros [x ->] [y ->]. exists (x ++ y). apply app_assoc_s. Qed.
Lemma fitting_full t set p d : In (t, set) the_tables -> In d set -> In p (names d) -> prefix "--" p -> fitting t p = [(p, d)].
Proof.
  intros I D N P. apply only_one.
  - apply NoDup_filter, nodup_pairs, (tables_nodup t set I).
  - intros [n e] J. apply (fitting_iff t set p n e I) in J as (D' & N' & Q). assert (e = d) as -> by (eapply name_unique; eassumption).
    rewrite (one_long d p n N N' P); [reflexivity|]. eapply prefix_trans; eassumption.
  - apply (fitting_iff t set p p d I). split; [exact D|]. split; [exact N|]. exists "". symmetry. clear. induction p as [|c p IH]; [reflexivity|]. cbn. rewrite IH. reflexivity.
Qed.
Lemma long_text t set s p x : In (t, set) the_tables -> prefix "--" s -> partition_eq s = (p, x) ->
  parse_optional t s = match fitting t p with
    | [] => Some (if has_char " " s then KA else KO None None)
    | [(n, d)] => Some (KO (Some (d, n)) match x with Some e => Some (true, e) | None => None end)
    | _ => None
    end.
Proof.
  intros I P PE. pose proof (tables_tabled t set I) as T. destruct P as [r ->]. cbn [append] in PE |- *.
  assert (P : prefix "--" p).
  { destruct (partition_before _ _ _ PE) as [_ S]. destruct x as [e|]; [|exists r; symmetry; exact S]. destruct p as [|a [|b p]]; cbn [append] in S; [discriminate|injection S as S1 S2; discriminate|]. injection S as S1 S2 _. subst. exists p. reflexivity. }
  unfold parse_optional. replace (Ascii.eqb "-" "-") with true by reflexivity. cbn [negb].
  destruct (option_named t (String "-" (String "-" r))) as [d|] eqn:O.
  - apply (tabled_some t set _ _ T) in O as [D N]. assert (x = None /\ p = String "-" (String "-" r)) as [-> ->].
    { destruct (name_cases d _ N) as [(c & q & _ & NE)|(c & E & C & _)]; [|injection E as <-; congruence]. rewrite (partition_none _ NE) in PE. injection PE as <- <-. auto. }
    rewrite (fitting_full t set _ d I D N); [reflexivity|exists r; reflexivity].
  - cbn [String.eqb]. rewrite PE.
    assert (U : option_tuples t (String "-" (String "-" r)) = map (fun o => (snd o, fst o, match x with Some e => Some (true, e) | None => None end)) (fitting t p)).
    { unfold option_tuples. replace (starts_with "--" (String "-" (String "-" r))) with true by reflexivity. rewrite PE. reflexivity. }
    assert (NN : negative_number (String "-" (String "-" r)) = false) by reflexivity. rewrite U, NN. clear U NN.
    destruct x as [e|].
    + destruct (option_named t p) as [d|] eqn:OP.
      * apply (tabled_some t set _ _ T) in OP as [D N]. rewrite (fitting_full t set p d I D N P). reflexivity.
      * destruct (fitting t p) as [|[n d] [|]]; cbn [map]; try reflexivity. destruct (has_char _ _); reflexivity.
    + destruct (fitting t p) as [|[n d] [|]]; cbn [map]; try reflexivity. destruct (has_char _ _); reflexivity.
Qed.
Lemma prefix_dashes c r : prefix "--" (String "-" (String "-" (String c r))).
Proof. exists (String c r). reflexivity. Qed.
Lemma long_fitting t set p d : In (t, set) the_tables -> long set p d -> exists n, fitting t p = [(n, d)] /\ prefix "--" n /\ prefix p n.
Proof.
  intros I (D & (c & r & E) & (n & N & P) & U). exists n. assert (P2 : prefix "--" n) by (eapply prefix_trans; [|exact P]; rewrite E; apply prefix_dashes).
  split; [|auto]. apply only_one.
  - apply NoDup_filter, nodup_pairs, (tables_nodup t set I).
  - intros [n' d'] J. apply (fitting_iff t set p n' d' I) in J as (D' & N' & Q). assert (d' = d) as -> by (eapply U; eassumption). rewrite (one_long d n n' N N' P2); [reflexivity|].
    eapply prefix_trans; [|exact Q]. rewrite E. apply prefix_dashes.
  - apply (fitting_iff t set p n d I). auto.
Qed.
Lemma fitting_long t set p n d c r : In (t, set) the_tables -> p = String "-" (String "-" (String c r)) -> fitting t p = [(n, d)] -> long set p d.
Proof.
  intros I E F. assert (J : In (n, d) (fitting t p)) by (rewrite F; left; reflexivity). apply (fitting_iff t set p n d I) in J as (D & N & P).
  split; [exact D|]. split; [eauto|]. split; [eauto|]. intros d' n' D' N' P'. assert (J : In (n', d') (fitting t p)) by (apply (fitting_iff t set p n' d' I); auto).
  rewrite F in J. destruct J as [J|[]]. congruence.
Qed.
Lemma prefix_noeq p n : prefix p n -> ~ In "="%char (chars n) -> ~ In "="%char (chars p).
Proof.
  intros [r ->] H I. apply H. unfold chars in *. clear H. induction p as [|c p IH]; cbn [append list_ascii_of_string In] in *; [destruct I|]. destruct I; auto.
Qed.
Lemma long_noeq set p d : long set p d -> ~ In "="%char (chars p).
Proof.
  intros (D & (c & r & E) & (n & N & P) & U). apply (prefix_noeq p n P). destruct (name_cases d n N) as [(a & b & _ & X)|(a & X & _)]; [exact X|]. exfalso. rewrite X, E in P. destruct P as [q P]. discriminate.
Qed.
(** ** Words *)
Lemma digit_is c : is_digit c = digit c.
Proof. unfold is_digit, digit_val. fold (digit c). destruct (digit c); reflexivity. Qed.
Lemma digits_end_iff b s : digits_end b s = true <-> exists a nl, chars s = (a ++ nl)%list /\ forallb digit a = true /\ (nl = [] \/ nl = [newline]) /\ (b = true \/ a <> []).
Proof.
  unfold chars. revert b. induction s as [|c s IH]; intros b; cbn [digits_end list_ascii_of_string].
  - split; [intros ->; exists [], []; auto|]. intros (a & nl & E & _ & _ & [H|H]); [exact H|]. destruct a; [congruence|discriminate].
  - destruct (is_digit c) eqn:C; rewrite digit_is in C.
    + rewrite IH. split.
      * intros (a & nl & E & A & N & _). exists (c :: a), nl. cbn [app forallb]. rewrite E, C, A. split; [reflexivity|]. split; [reflexivity|]. split; [exact N|right; discriminate].
      * intros (a & nl & E & A & N & H). destruct a as [|x a].
        { cbn [app] in E. destruct N as [-> | ->]; [discriminate|]. injection E as -> _. discriminate. }
        cbn [app] in E. injection E as -> E. cbn [forallb] in A. apply andb_true_iff in A as [_ A]. exists a, nl. auto.
    + rewrite andb_true_iff, String.eqb_eq. split.
      * intros [-> H]. injection H as -> ->. exists [], [newline]. auto.
      * intros (a & nl & E & A & N & H). destruct a as [|x a].
        { cbn [app] in E. destruct H as [H|H]; [|congruence]. split; [exact H|]. destruct N as [-> | ->]; [discriminate|]. injection E as -> E. destruct s; [reflexivity|discriminate]. }
        exfalso. cbn [app] in E. injection E as -> E. cbn [forallb] in A. rewrite C in A. discriminate.
Qed.
Lemma digits_dot_iff s : digits_dot s = true <-> exists a c nl, chars s = (a ++ "."%char :: c ++ nl)%list /\ forallb digit a = true /\ forallb digit c = true /\ c <> [] /\ (nl = [] \/ nl = [newline]).
Proof.
  induction s as [|x s IH]; cbn [digits_dot].
  - split; [discriminate|]. intros (a & c & nl & E & _). destruct a; discriminate.
  - unfold chars in *. cbn [list_ascii_of_string]. destruct (is_digit x) eqn:C; rewrite digit_is in C.
    + rewrite IH. split.
      * intros (a & c & nl & E & A & H). exists (x :: a), c, nl. cbn [app forallb]. rewrite E, C, A. auto.
      * intros (a & c & nl & E & A & H). destruct a as [|y a]; cbn [app] in E; injection E as -> E; [discriminate|]. cbn [forallb] in A. apply andb_true_iff in A as [_ A]. exists a, c, nl. auto.
    + rewrite andb_true_iff, Ascii.eqb_eq, digits_end_iff. split.
      * intros [-> (a & nl & E & A & N & [H|H])]; [discriminate|]. exists [], a, nl. unfold chars in E. rewrite E. auto.
      * intros (a & c & nl & E & A & B & H & N). destruct a as [|y a]; cbn [app] in E; injection E as -> E; [|cbn [forallb] in A; rewrite C in A; discriminate]. split; [reflexivity|]. exists c, nl. auto.
Qed.
Lemma negative_iff s : negative_number s = true <-> negative s.
Proof.
  unfold negative_number, negative. destruct s as [|c r].
  - split; [discriminate|]. intros (a & b & nl & E & _). discriminate.
  - rewrite andb_true_iff, orb_true_iff, Ascii.eqb_eq, digits_end_iff, digits_dot_iff. unfold chars. cbn [list_ascii_of_string]. split.
    + intros [-> [(a & nl & E & A & N & [H|H])|(a & x & nl & E & A & B & H & N)]]; [discriminate| |].
      * exists a, [], nl. rewrite E. cbn [app]. split; [reflexivity|]. split; [exact A|]. split; [exact N|]. left. auto.
      * exists a, ("."%char :: x), nl. rewrite E. split; [reflexivity|]. split; [exact A|]. split; [exact N|]. right. eauto.
    + intros (a & b & nl & E & A & N & H). injection E as -> E. split; [reflexivity|]. destruct H as [[-> H]|(x & -> & H & B)].
      * left. exists a, nl. auto.
      * right. exists a, x, nl. auto.
Qed.
Lemma negative_shape s : negative s -> exists c r, s = String "-" (String c r) /\ (is_digit c = true \/ c = "."%char).
Proof.
  intros (a & b & nl & E & A & N & H). unfold chars in E. destruct s as [|x [|c r]]; cbn [list_ascii_of_string] in E; try discriminate.
  - exfalso. injection E as _ E. destruct H as [[-> H]|(y & -> & _)]; [destruct a; [congruence|discriminate]|destruct a; discriminate].
  - injection E as -> E. exists c, r. split; [reflexivity|]. destruct a as [|y a].
    + right. destruct H as [[_ H]|(y & -> & _)]; [congruence|]. cbn [app] in E. congruence.
    + left. cbn [app] in E. injection E as -> _. cbn [forallb] in A. apply andb_true_iff in A as [A _]. rewrite digit_is. exact A.
Qed.
(** What is not an option *)
Definition wordish (allowed : list dest) (s : string) : Prop :=
  (forall r, s <> String "-" r) \/ s = "-" \/ negative s \/ In " "%char (chars s) /\ ~ option_like allowed s.
Lemma word_split allowed s : word allowed s <-> wordish allowed s /\ ((forall r, s <> String "-" r) \/ s = "-" \/ negative s \/ ~ vague s).
Proof. unfold word, wordish. tauto. Qed.
Lemma word_kind t set s : In (t, set) the_tables -> s <> "--" -> (parse_optional t s = Some KA <-> wordish set s).
Proof.
  intros I ND. unfold wordish. destruct s as [|a s]; [split; [left; discriminate|reflexivity]|]. destruct (ascii_dec a "-") as [-> |A].
  2:{ split; [intros _; left; congruence|]. intros _. cbn [parse_optional]. destruct (Ascii.eqb_spec a "-"); [congruence|reflexivity]. }
  destruct s as [|c r].
  { split; [auto|]. intros _. unfold parse_optional. cbn [negb Ascii.eqb Bool.eqb]. destruct (option_named t "-") as [d|] eqn:O; [|reflexivity]. exfalso.
    apply (tabled_some t set _ _ (tables_tabled t set I)) in O as [_ N]. destruct (name_cases d _ N) as [(? & ? & E & _)|(? & E & _)]; discriminate. }
  destruct (ascii_dec c "-") as [-> |C].
  - destruct (partition_eq (String "-" (String "-" r))) as [p x] eqn:PE. rewrite (long_text t set _ p x I); [|exists r; reflexivity|exact PE].
    destruct (partition_before _ _ _ PE) as [B S].
    assert (P : prefix "--" p).
    { destruct x as [e|]; [|exists r; symmetry; exact S]. destruct p as [|a [|b p]]; cbn [append] in S; [discriminate|injection S as S1 S2; discriminate|]. injection S as S1 S2 _. subst. exists p. reflexivity. }
    split.
    + intros H. right. right. right. destruct (fitting t p) as [|[n d] [|]] eqn:F; try discriminate. destruct (has_char " " _) eqn:HC; [|discriminate]. apply has_iff in HC. split; [exact HC|].
      intros [(p' & d & n & B' & _ & D & N & PN)|(c & q & d & E & D & SH)].
      * assert (p' = p) as -> by (eapply before_fun; eassumption). assert (J : In (n, d) (fitting t p)) by (apply (fitting_iff t set p n d I); auto). rewrite F in J. destruct J.
      * injection E as <- _. apply short_char in SH as [SH _]. congruence.
    + intros [H|[H|[H|[HS HO]]]]; [destruct (H (String "-" r)); reflexivity|discriminate| |].
      * apply negative_shape in H as (c & q & E & [H|H]); injection E as <- _; discriminate.
      * apply has_iff in HS. rewrite HS. destruct (fitting t p) as [|[n d] l] eqn:F; [reflexivity|]. exfalso. apply HO. left. exists p, d, n.
        assert (J : In (n, d) (fitting t p)) by (rewrite F; left; reflexivity). apply (fitting_iff t set p n d I) in J. tauto.
  - destruct (in_dec dest_eq Help set) as [_|_]; [|].
    all: destruct (Exists_dec (fun d => short d c) set (fun d => in_dec string_dec _ _)) as [X|X].
    all: try (apply Exists_exists in X as (d & D & SH); rewrite (short_case t set d c r I D SH); split; [discriminate|];
      intros [H|[H|[H|[_ H]]]]; [destruct (H (String c r)); reflexivity|discriminate| |destruct H; right; exists c, r, d; auto];
      apply negative_shape in H as (c' & q & E & H); injection E as <- _; destruct (short_char d c SH) as (_ & _ & H1 & H2 & _); destruct H; congruence).
    all: assert (X' : forall d, In d set -> ~ short d c) by (intros d D S; apply X, Exists_exists; exists d; auto).
    all: rewrite (short_no t set c r I C X'); destruct (negative_number (String "-" (String c r))) eqn:NN;
      [apply negative_iff in NN; split; auto|]; destruct (has_char " " (String "-" (String c r))) eqn:HC;
      [apply has_iff in HC; split; [intros _|reflexivity]; right; right; right; (split; [exact HC|]); intros [(p & d & n & [B1 B2] & [q B3] & _)|(c' & q & d & E & D & S)];
        [destruct B2 as [B2|[e B2]]; rewrite B3 in B2; cbn [append] in B2; congruence|injection E as <- _; exact (X' d D S)]|].
    all: split; [discriminate|]; intros [H|[H|[H|[H _]]]]; [destruct (H (String c r)); reflexivity|discriminate|apply negative_iff in H; congruence|apply has_iff in H; congruence].
Qed.
