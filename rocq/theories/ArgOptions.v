(** Proofs about argparse's reading of one option with its value. *)
From Verif Require Import Base PyVal Checksums Headers Pretty Args FileIO Append Files Cli Parser Argparse Spec BaseLemmas PrettyProofs OptionProofs ParserSpec ParserProofs ParserMain ArgSpec ArgProofs.
From Coq Require Import ZifyBool ZifyNat.
Ltac Zify.zify_post_hook ::= Z.div_mod_to_equations.
Local Open Scope string_scope.
Local Open Scope list_scope.

(** ** Vague arguments *)
Lemma fitting_vague p : In p ["--"; "--v"; "--ve"; "--ver"] -> exists x y l, fitting main_options p = x :: y :: l.
Proof. cbn [In]. intros H. ins; subst p; vm_compute; eauto. Qed.
Lemma vague_dashes s : vague s -> exists p x, partition_eq s = (p, x) /\ prefix "--" s /\ In p ["--"; "--v"; "--ve"; "--ver"].
Proof.
  intros (p & [N B] & I). assert (P : prefix "--" p) by (apply starts_iff; cbn [In] in I; ins; match goal with H : _ = p |- _ => rewrite <- H end; reflexivity). destruct P as [q ->]. destruct B as [-> |[e ->]].
  - eexists _, _. split; [apply (partition_none _ N)|]. split; [exists q; reflexivity|exact I].
  - eexists _, _. split; [apply (partition_some _ _ N)|]. split; [|exact I]. eexists. rewrite app_assoc_s. reflexivity.
Qed.
Lemma vague_main s : vague s -> parse_optional main_options s = None.
Proof.
  intros V. destruct (vague_dashes s V) as (p & x & PE & P & I). rewrite (long_text _ _ s p x main_in_tables P PE).
  destruct (fitting_vague p I) as ([n d] & y & l & ->). reflexivity.
Qed.
Definition vague_table (t : table) (l : list string) : bool :=
  forallb (fun o => forallb (fun p => match fitting t p with _ :: _ :: _ => existsb (String.eqb p) l || negb (starts_with "--" p) | _ => true end) (prefixes (fst o))) t.
Lemma fitting_two t l p x y r : vague_table t l = true -> fitting t p = x :: y :: r -> prefix "--" p -> In p l.
Proof.
  intros V F P. assert (I : In x (fitting t p)) by (rewrite F; left; reflexivity). unfold fitting in I. apply filter_In in I as [I S]. apply starts_iff in S. apply prefixes_iff in S.
  unfold vague_table in V. rewrite forallb_forall in V. specialize (V x I). rewrite forallb_forall in V. specialize (V p S). rewrite F in V. apply starts_iff in P. rewrite P in V. rewrite orb_false_r in V.
  apply existsb_exists in V as (z & J & E). apply String.eqb_eq in E. subst z. exact J.
Qed.
Lemma parse_dashes t set s : In (t, set) the_tables -> parse_optional t s = None -> prefix "--" s.
Proof.
  intros I H. destruct s as [|a [|c r]]; [discriminate| |].
  - unfold parse_optional in H. destruct (negb _); [discriminate|]. destruct (option_named _ _); discriminate.
  - destruct (ascii_dec a "-") as [-> |A]; [|cbn [parse_optional] in H; destruct (Ascii.eqb_spec a "-"); [congruence|discriminate]].
    destruct (ascii_dec c "-") as [-> |C]; [exists r; reflexivity|]. exfalso.
    destruct (Exists_dec (fun d => short d c) set (fun d => in_dec string_dec _ _)) as [X|X].
    + apply Exists_exists in X as (d & D & SH). rewrite (short_case t set d c r I D SH) in H. discriminate.
    + rewrite (short_no t set c r I C) in H; [discriminate|]. intros d D S. apply X, Exists_exists. exists d. auto.
Qed.
Lemma partition_dashes s p x : prefix "--" s -> partition_eq s = (p, x) -> prefix "--" p.
Proof.
  intros [r ->] PE. destruct (partition_before _ _ _ PE) as [_ S]. cbn [append] in S. destruct x as [e|]; [|exists r; symmetry; exact S].
  destruct p as [|a [|b p]]; cbn [append] in S; [discriminate|injection S as S1 S2; discriminate|]. injection S as S1 S2 _. subst. exists p. reflexivity.
Qed.
Lemma vague_iff s : parse_optional main_options s = None <-> vague s.
Proof.
  split; [|apply vague_main]. intros H. pose proof (parse_dashes _ _ s main_in_tables H) as P. destruct (partition_eq s) as [p x] eqn:PE.
  rewrite (long_text _ _ s p x main_in_tables P PE) in H. destruct (fitting main_options p) as [|[n d] [|y l]] eqn:F; try discriminate. exists p. split; [exact (proj1 (partition_before _ _ _ PE))|].
  apply (fitting_two main_options ["--"; "--v"; "--ve"; "--ver"] p (n, d) y l); [vm_compute; reflexivity|exact F|]. exact (partition_dashes s p x P PE).
Qed.
(** No option of a subcommand is vague. *)
Lemma sub_not_vague c p d : long (sub_set c) p d -> ~ In p ["--"; "--v"; "--ve"; "--ver"].
Proof.
  intros L I. pose proof (long_fitting _ _ p d (sub_in_tables c) L) as (n & F & _). destruct L as (D & (x & r & E) & _). cbn [In] in I.
  destruct I as [<-|I]; [discriminate|]. clear E. destruct c; ins; subst p; vm_compute in F; discriminate F.
Qed.

(** ** Options and their values *)
Definition acts (q : list arg) : list (dest * string) := flat_map (fun a => match a with Given d _ v => [(d, v)] | File _ => [] end) q.
Lemma acts_app a b : acts (a ++ b) = acts a ++ acts b. Proof. apply flat_map_app. Qed.
Definition kw (ws : list string) : list (string * kind) := map (fun w => (w, KA)) ws.
Lemma takes_no d : takes d = false -> ~ In d valued. Proof. apply takes_not. Qed.
Lemma takes_yes d : takes d = true -> In d valued. Proof. apply takes_iff. Qed.
Lemma named_short t set c d : In (t, set) the_tables -> option_named t (String "-" (String c "")) = Some d -> In d set /\ short d c.
Proof. intros I. apply (tabled_some t set _ _ (tables_tabled t set I)). Qed.
Lemma short_named t set c d : In (t, set) the_tables -> In d set -> short d c -> option_named t (String "-" (String c "")) = Some d.
Proof. intros I D S. apply (proj2 (tables_tabled t set I)); assumption. Qed.

Lemma bundled_sound t set : In (t, set) the_tables -> forall e d c l po, In d set -> short d c -> takes d = false -> bundled t d e = Some (l, po, false) ->
  match po with
  | None => exists q, bundle set q (String c e) None /\ acts q = l
  | Some d' => if takes d' then exists q, bundle set q (String c e) (Some d') /\ acts q = l
               else exists q, bundle set q (String c e) None /\ acts q = l ++ [(d', ""%string)]
  end.
Proof.
  intros I. induction e as [|x e IH]; intros d c l po D S T; [discriminate|]. cbn [bundled]. destruct (Ascii.eqb x "-"); [discriminate|].
  destruct (option_named t (String "-" (String x ""))) as [d'|] eqn:O; [|discriminate]. destruct (named_short t set x d' I O) as [D' S']. apply takes_no in T.
  destruct e as [|y e].
  - intros H. injection H as <- <-. destruct (takes d') eqn:T'.
    + eexists. split; [eapply b_more; [exact D|exact S|exact T|apply (b_next _ d' x D' S'), takes_yes, T']|reflexivity].
    + eexists. split; [eapply b_more; [exact D|exact S|exact T|apply (b_flag _ d' x D' S'), takes_no, T']|reflexivity].
  - destruct (Ascii.eqb_spec y "=") as [-> |Y].
    + destruct (takes d') eqn:T'; [|discriminate]. intros H. injection H as <- <-. eexists. split; [eapply b_more; [exact D|exact S|exact T|apply (b_equals _ d' x e D' S'), takes_yes, T']|reflexivity].
    + destruct (takes d') eqn:T'.
      * intros H. injection H as <- <-. eexists. split; [eapply b_more; [exact D|exact S|exact T|apply (b_value _ d' x y e D' S'); [apply takes_yes, T'|exact Y]]|reflexivity].
      * destruct (bundled t d' (String y e)) as [[[a p] ex]|] eqn:B; [|discriminate]. intros H. injection H as <- <- ->. specialize (IH d' x a p D' S' T' B).
        destruct p as [d''|]; [destruct (takes d'')|]; destruct IH as (q & Q & A); (eexists; split; [eapply b_more; [exact D|exact S|exact T|exact Q]|]); cbn [acts flat_map app]; fold (acts q); rewrite A; reflexivity.
Qed.
Lemma bundle_run t set q s po : In (t, set) the_tables -> bundle set q s po -> exists d c e, s = String c e /\ In d set /\ short d c /\
  (takes d = true /\ (e = ""%string /\ q = [] /\ po = Some d \/ (exists x v, e = String x v /\ x <> "="%char /\ acts q = [(d, e)] /\ po = None) \/
                      (exists v, e = String "=" v /\ acts q = [(d, v)] /\ po = None)) \/
   takes d = false /\ (e = ""%string /\ acts q = [(d, ""%string)] /\ po = None \/
     (exists x v l po', e = String x v /\ x <> "="%char /\ bundled t d e = Some (l, po', false) /\
       match po' with
       | None => po = None /\ acts q = l
       | Some d' => if takes d' then po = Some d' /\ acts q = l else po = None /\ acts q = l ++ [(d', ""%string)]
       end))).
Proof.
  intros I. induction 1 as [d c D S V|d c q s p D S V B IH|d c x v D S V X|d c v D S V|d c D S V].
  - exists d, c, ""%string. apply takes_not in V. split; [reflexivity|]. split; [exact D|]. split; [exact S|]. right. split; [exact V|]. left. auto.
  - exists d, c, s. apply takes_not in V. split; [reflexivity|]. split; [exact D|]. split; [exact S|]. right. split; [exact V|]. right.
    destruct IH as (d' & c' & e & -> & D' & S' & IH). exists c', e. destruct (short_char d' c' S') as (C1 & C2 & _).
    destruct IH as [(T & [(-> & -> & ->)|[(x & v & -> & X & A & ->)|(v & -> & A & ->)]])|(T & [(-> & A & ->)|(x & v & l & po' & -> & X & B' & M)])].
    + exists [(d, ""%string)], (Some d'). split; [reflexivity|]. split; [exact C2|]. cbn [bundled]. rewrite (short_named t set c' d' I D' S'). destruct (Ascii.eqb_spec c' "-"); [congruence|].
      split; [reflexivity|]. rewrite T. auto.
    + exists [(d, ""%string); (d', String x v)], None. split; [reflexivity|]. split; [exact C2|]. cbn [bundled]. rewrite (short_named t set c' d' I D' S'). destruct (Ascii.eqb_spec c' "-"); [congruence|].
      destruct (Ascii.eqb_spec x "="); [congruence|]. rewrite T. split; [reflexivity|]. split; [reflexivity|]. cbn [acts flat_map app]. fold (acts q). rewrite A. reflexivity.
    + exists [(d, ""%string); (d', v)], None. split; [reflexivity|]. split; [exact C2|]. cbn [bundled]. rewrite (short_named t set c' d' I D' S'). destruct (Ascii.eqb_spec c' "-"); [congruence|].
      replace (Ascii.eqb "=" "=") with true by reflexivity. rewrite T. split; [reflexivity|]. split; [reflexivity|]. cbn [acts flat_map app]. fold (acts q). rewrite A. reflexivity.
    + exists [(d, ""%string)], (Some d'). split; [reflexivity|]. split; [exact C2|]. cbn [bundled]. rewrite (short_named t set c' d' I D' S'). destruct (Ascii.eqb_spec c' "-"); [congruence|].
      split; [reflexivity|]. rewrite T. split; [reflexivity|]. cbn [acts flat_map app]. fold (acts q). rewrite A. reflexivity.
    + exists ((d, ""%string) :: l), po'. split; [reflexivity|]. split; [exact C2|]. cbn [bundled]. rewrite (short_named t set c' d' I D' S'). destruct (Ascii.eqb_spec c' "-"); [congruence|].
      destruct (Ascii.eqb_spec x "="); [congruence|]. cbn [bundled] in B'. rewrite T, B'. split; [reflexivity|]. cbn [acts flat_map app]. fold (acts q).
      destruct po' as [d''|]; [destruct (takes d'')|]; destruct M as [-> ->]; auto.
  - exists d, c, (String x v). apply takes_iff in V. split; [reflexivity|]. split; [exact D|]. split; [exact S|]. left. split; [exact V|]. right. left. exists x, v. auto.
  - exists d, c, (String "=" v). apply takes_iff in V. split; [reflexivity|]. split; [exact D|]. split; [exact S|]. left. split; [exact V|]. right. right. exists v. auto.
  - exists d, c, ""%string. apply takes_iff in V. split; [reflexivity|]. split; [exact D|]. split; [exact S|]. left. split; [exact V|]. left. auto.
Qed.

(** An option read is one of the forms of [written]... *)
Lemma short_is c : c <> "-"%char -> is_short (String "-" (String c "")) = true.
Proof. intros C. cbn [is_short]. destruct (Ascii.eqb_spec c "-"); [congruence|reflexivity]. Qed.
Lemma long_is n : prefix "--" n -> is_short n = false.
Proof. intros [r ->]. reflexivity. Qed.
Definition all_given (q : list arg) : Prop := files q = [].
Lemma next_sound d r l r' : with_next d r = Some (l, r') ->
  (takes d = true /\ exists v, r = (v, KA) :: r' /\ l = [(d, v)]) \/ (takes d = false /\ r = r' /\ l = [(d, ""%string)]).
Proof.
  unfold with_next. destruct (takes d); [|intros H; injection H as <- <-; auto]. destruct r as [|[v [| |]] r0]; try discriminate. intros H. injection H as <- <-. left. eauto.
Qed.
Lemma bundle_files set q s po : bundle set q s po -> files q = [].
Proof. induction 1; cbn; auto. Qed.
Lemma opt_sound t set s ao x r l r' : In (t, set) the_tables -> s <> "--"%string -> parse_optional t s = Some (KO ao x) -> consume_optional t ao x r = Some (l, r', false) ->
  exists q vs, r = kw vs ++ r' /\ acts q = l /\ files q = [] /\ l <> [] /\ (Forall (word set) vs -> written set q (s :: vs)).
Proof.
  intros I ND PO CO. destruct ao as [[d o]|]; [|discriminate].
  destruct s as [|a [|c s]]; [discriminate|unfold parse_optional in PO; destruct (negb _); [discriminate|]; destruct (option_named t _) as [d'|] eqn:O; [|discriminate]; exfalso;
    apply (tabled_some t set _ _ (tables_tabled t set I)) in O as [_ N]; destruct (name_cases d' _ N) as [(? & ? & E & _)|(? & E & _)]; discriminate|].
  destruct (ascii_dec a "-") as [-> |A]; [|exfalso; cbn [parse_optional] in PO; destruct (Ascii.eqb_spec a "-"); [congruence|discriminate]].
  destruct (ascii_dec c "-") as [-> |C].
  - (* long *)
    destruct (partition_eq (String "-" (String "-" s))) as [p y] eqn:PE. assert (PS : prefix "--" (String "-" (String "-" s))) by (exists s; reflexivity).
    rewrite (long_text t set _ p y I PS PE) in PO. pose proof (partition_dashes _ p y PS PE) as [r0 PP]. destruct (partition_before _ _ _ PE) as [_ SE].
    destruct (fitting t p) as [|[n d'] [|z l0]] eqn:F; [destruct (has_char _ _); discriminate| |discriminate]. injection PO as <- <- <-.
    assert (IN : In (n, d') (fitting t p)) by (rewrite F; left; reflexivity). apply (fitting_iff t set p n d' I) in IN as (D & N & PN).
    assert (SN : is_short n = false). { apply long_is. eapply prefix_trans; [|exact PN]. exists r0. exact PP. }
    destruct r0 as [|c0 r0]; cbn [append] in PP.
    { destruct y as [e|]; [|congruence]. exfalso. cbn [consume_optional] in CO.
      assert (T : takes d' = false). { rewrite PP in F. clear - I F. unfold the_tables in I. cbn [In] in I. destruct I as [I|[I|[I|[I|[I|[]]]]]]; injection I as <- <-; vm_compute in F; try discriminate. injection F as <- <-. reflexivity. }
      rewrite T, SN in CO. discriminate. }
    pose proof (fitting_long t set p n d' c0 r0 I PP F) as L. destruct y as [e|]; cbn [consume_optional] in CO.
    + destruct (takes d') eqn:T; [|rewrite SN in CO; discriminate]. injection CO as <- <-. exists [Given d' p e], []. split; [reflexivity|]. split; [reflexivity|]. split; [reflexivity|]. split; [discriminate|].
      intros _. rewrite SE. apply w_equals; [exact L|apply takes_yes, T].
    + destruct (with_next d' r) as [[l0 r1]|] eqn:W; [|discriminate]. injection CO as <- <-. apply next_sound in W as [(T & v & -> & ->)|(T & -> & ->)].
      * exists [Given d' p v], [v]. split; [reflexivity|]. split; [reflexivity|]. split; [reflexivity|]. split; [discriminate|]. intros FW. inversion FW. subst. rewrite SE. apply w_value; [exact L|apply takes_yes, T|assumption].
      * exists [Given d' p ""], []. split; [reflexivity|]. split; [reflexivity|]. split; [reflexivity|]. split; [discriminate|]. intros _. rewrite SE. apply w_flag; [exact L|apply takes_no, T].
  - (* short *)
    destruct (Exists_dec (fun d => short d c) set (fun d => in_dec string_dec _ _)) as [X|X].
    2:{ exfalso. rewrite (short_no t set c s I C) in PO; [destruct (negative_number _); [discriminate|destruct (has_char _ _); discriminate]|]. intros e D S. apply X, Exists_exists. exists e. auto. }
    apply Exists_exists in X as (d' & D & S). rewrite (short_case t set d' c s I D S) in PO. injection PO as <- <- <-.
    destruct s as [|x0 s]; cbn [consume_optional] in CO.
    + destruct (with_next d' r) as [[l0 r1]|] eqn:W; [|discriminate]. injection CO as <- <-. apply next_sound in W as [(T & v & -> & ->)|(T & -> & ->)].
      * exists ([] ++ [Given d' (String "-" (String c "")) v]), [v]. split; [reflexivity|]. split; [reflexivity|]. split; [reflexivity|]. split; [discriminate|]. intros FW. inversion FW. subst.
        apply w_short_next; [|assumption]. apply b_next; [exact D|exact S|apply takes_yes, T].
      * exists [Given d' (String "-" (String c "")) ""], []. split; [reflexivity|]. split; [reflexivity|]. split; [reflexivity|]. split; [discriminate|]. intros _. apply w_short, b_flag; [exact D|exact S|apply takes_no, T].
    + destruct (Ascii.eqb_spec x0 "=") as [-> |X0]; cbn [consume_optional] in CO.
      * destruct (takes d') eqn:T; [|rewrite andb_false_r in CO; discriminate]. injection CO as <- <-. exists [Given d' (String "-" (String c "")) s], []. split; [reflexivity|]. split; [reflexivity|]. split; [reflexivity|]. split; [discriminate|].
        intros _. apply w_short, b_equals; [exact D|exact S|apply takes_yes, T].
      * destruct (takes d') eqn:T.
        { injection CO as <- <-. exists [Given d' (String "-" (String c "")) (String x0 s)], []. split; [reflexivity|]. split; [reflexivity|]. split; [reflexivity|]. split; [discriminate|].
          intros _. apply w_short, b_value; [exact D|exact S|apply takes_yes, T|exact X0]. }
        rewrite (short_is c C) in CO. cbn [andb negb] in CO. destruct (bundled t d' (String x0 s)) as [[[a po] ex]|] eqn:B; [|discriminate].
        assert (EX : ex = false) by (destruct po as [d''|]; [destruct (with_next d'' r) as [[? ?]|]; [|discriminate]|]; congruence). subst ex.
        pose proof (bundled_sound t set I _ d' c a po D S T B) as BS. destruct po as [d''|].
        { destruct (with_next d'' r) as [[l0 r1]|] eqn:W; [|discriminate]. injection CO as <- <-. apply next_sound in W as [(T' & v & -> & ->)|(T' & -> & ->)]; rewrite T' in BS; destruct BS as (q & Q & AQ).
          - exists (q ++ [Given d'' "" v]), [v]. split; [reflexivity|]. split; [rewrite acts_app, AQ; reflexivity|]. split; [rewrite files_app, (bundle_files _ _ _ _ Q); reflexivity|].
            split; [intros H; apply app_eq_nil in H as [_ H]; discriminate|]. intros FW. inversion FW. subst. apply w_short_next; assumption.
          - exists q, []. split; [reflexivity|]. split; [exact AQ|]. split; [exact (bundle_files _ _ _ _ Q)|]. split; [intros H; apply app_eq_nil in H as [_ H]; discriminate|]. intros _. apply w_short, Q. }
        { injection CO as <- <-. destruct BS as (q & Q & AQ). exists q, []. split; [reflexivity|]. split; [exact AQ|]. split; [exact (bundle_files _ _ _ _ Q)|].
          split; [|intros _; apply w_short, Q]. intros ->. cbn [bundled] in B. destruct (Ascii.eqb x0 "-"); [discriminate|]. destruct (option_named t _) as [d0|]; [|discriminate]. destruct s as [|a s]; [discriminate|].
          destruct (Ascii.eqb a "="); [destruct (takes d0); discriminate|]. destruct (takes d0); [discriminate|]. destruct (bundled t d0 _) as [[[? ?] ?]|]; discriminate. }
Qed.
(** ... and the other way round. *)
Lemma next_complete d n v r : takes d = true -> with_next d (kw [v] ++ r) = Some (acts [Given d n v], r).
Proof. intros T. unfold with_next. rewrite T. reflexivity. Qed.
Lemma opt_complete t set q l : In (t, set) the_tables -> written set q l ->
  (exists w, q = [File w] /\ l = [w] /\ word set w) \/
  (exists s vs d o x, l = s :: vs /\ s <> "--"%string /\ Forall (word set) vs /\ files q = [] /\ acts q <> [] /\ parse_optional t s = Some (KO (Some (d, o)) x) /\
    forall k, consume_optional t (Some (d, o)) x (kw vs ++ k) = Some (acts q, k, false)).
Proof.
  intros I. induction 1 as [w W|q s B|q s d n v B W|p d L V|p d v L V W|p d v L V]; [left; eauto| | | | |]; right.
  - pose proof (bundle_files _ _ _ _ B) as BF. destruct (bundle_run t set q s None I B) as (d & c & e & -> & D & S & H). destruct (short_char d c S) as (C1 & _).
    exists (String "-" (String c e)), [], d, (String "-" (String c "")), (match e with ""%string => None | String x e0 => if Ascii.eqb x "=" then Some (true, e0) else Some (false, e) end).
    split; [reflexivity|]. split; [congruence|]. split; [constructor|]. split; [exact BF|].
    destruct H as [(T & [(_ & _ & H)|[(x & v & -> & X & A & _)|(v & -> & A & _)]])|(T & [(-> & A & _)|(x & v & l & po' & -> & X & B' & M)])]; [discriminate| | | |].
    + split; [rewrite A; discriminate|]. split; [rewrite (short_case t set d c _ I D S); reflexivity|]. intros k. destruct (Ascii.eqb_spec x "="); [congruence|]. cbn [consume_optional]. rewrite T, A. reflexivity.
    + split; [rewrite A; discriminate|]. split; [rewrite (short_case t set d c _ I D S); reflexivity|]. intros k. replace (Ascii.eqb "=" "=") with true by reflexivity. cbn [consume_optional]. rewrite T, A. reflexivity.
    + split; [rewrite A; discriminate|]. split; [rewrite (short_case t set d c _ I D S); reflexivity|]. intros k. cbn [consume_optional]. unfold with_next. rewrite T, A. reflexivity.
    + destruct (Ascii.eqb_spec x "="); [congruence|]. split.
      { destruct po' as [d'|]; [destruct (takes d'); destruct M as [M1 M2]; [discriminate|rewrite M2; intros Y; apply app_eq_nil in Y as [_ Y]; discriminate]|]. destruct M as [_ M]. rewrite M. intros ->.
        clear - B'. cbn [bundled] in B'. destruct (Ascii.eqb x "-"); [discriminate|]. destruct (option_named t _) as [d0|]; [|discriminate]. destruct v as [|a v]; [discriminate|].
        destruct (Ascii.eqb a "="); [destruct (takes d0); discriminate|]. destruct (takes d0); [discriminate|]. destruct (bundled t d0 _) as [[[? ?] ?]|]; discriminate. }
      split; [rewrite (short_case t set d c _ I D S); destruct (Ascii.eqb_spec x "="); [congruence|reflexivity]|]. intros k. cbn [consume_optional]. rewrite T, (short_is c C1). cbn [andb negb]. rewrite B'.
      destruct po' as [d'|]; [destruct (takes d') eqn:T'; destruct M as [M1 ->]; [discriminate|]|destruct M as [_ ->]; reflexivity]. unfold with_next. rewrite T'. reflexivity.
  - pose proof (bundle_files _ _ _ _ B) as BF. destruct (bundle_run t set q s (Some d) I B) as (d0 & c & e & -> & D & S & H). destruct (short_char d0 c S) as (C1 & _).
    exists (String "-" (String c e)), [v], d0, (String "-" (String c "")), (match e with ""%string => None | String x e0 => if Ascii.eqb x "=" then Some (true, e0) else Some (false, e) end).
    split; [reflexivity|]. split; [congruence|]. split; [auto|]. split; [rewrite files_app, BF; reflexivity|]. split; [rewrite acts_app; intros Y; apply app_eq_nil in Y as [_ Y]; discriminate|].
    split; [rewrite (short_case t set d0 c _ I D S); reflexivity|]. intros k. rewrite acts_app.
    destruct H as [(T & [(-> & -> & H)|[(x & v0 & -> & X & A & ?)|(v0 & -> & A & ?)]])|(T & [(-> & A & ?)|(x & v0 & l & po' & -> & X & B' & M)])]; try discriminate.
    + injection H as <-. cbn [consume_optional]. unfold with_next. rewrite T. reflexivity.
    + destruct (Ascii.eqb_spec x "="); [congruence|]. cbn [consume_optional]. rewrite T, (short_is c C1). cbn [andb negb]. rewrite B'.
      destruct po' as [d'|]; [destruct (takes d') eqn:T'; destruct M as [M1 M2]|destruct M as [M1 _]]; try discriminate. injection M1 as ->. rewrite (next_complete d' n v k T'), M2. reflexivity.
  - pose proof (long_noeq _ _ _ L) as NE. destruct (long_fitting t set p d I L) as (n & F & N1 & _). destruct L as (_ & (c & r & E) & _).
    exists p, [], d, n, None. split; [reflexivity|]. split; [congruence|]. split; [constructor|]. split; [reflexivity|]. split; [discriminate|].
    split; [rewrite (long_text t set p p None I); [rewrite F; reflexivity|rewrite E; apply prefix_dashes|apply partition_none, NE]|]. intros k. cbn [consume_optional]. unfold with_next. apply takes_not in V. rewrite V. reflexivity.
  - pose proof (long_noeq _ _ _ L) as NE. destruct (long_fitting t set p d I L) as (n & F & N1 & _). destruct L as (_ & (c & r & E) & _).
    exists p, [v], d, n, None. split; [reflexivity|]. split; [congruence|]. split; [auto|]. split; [reflexivity|]. split; [discriminate|].
    split; [rewrite (long_text t set p p None I); [rewrite F; reflexivity|rewrite E; apply prefix_dashes|apply partition_none, NE]|]. intros k. cbn [consume_optional]. apply takes_iff in V. rewrite (next_complete d p v k V). reflexivity.
  - pose proof (long_noeq _ _ _ L) as NE. destruct (long_fitting t set p d I L) as (n & F & N1 & _). destruct L as (_ & (c & r & E) & _).
    exists (p ++ String "=" v)%string, [], d, n, (Some (true, v)). split; [reflexivity|]. split; [rewrite E; discriminate|]. split; [constructor|]. split; [reflexivity|]. split; [discriminate|].
    split; [rewrite (long_text t set _ p (Some v) I); [rewrite F; reflexivity|rewrite E; cbn [append]; apply prefix_dashes|apply partition_some, NE]|]. intros k. cbn [consume_optional]. apply takes_iff in V. rewrite V. reflexivity.
Qed.
