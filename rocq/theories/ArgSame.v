(** Proofs: the two models of the command line agree. *)
From Verif Require Import Base PyVal Checksums Headers Pretty Args FileIO Append Files Cli Parser Argparse Spec BaseLemmas Archive PrettyProofs OptionProofs FilesProofs CliProofs ParserSpec ParserProofs ParserMain ArgSpec ArgProofs ArgOptions ArgLoop ArgMain ArgRefuse.
From Coq Require Import ZifyBool ZifyNat.
Ltac Zify.zify_post_hook ::= Z.div_mod_to_equations.
Local Open Scope string_scope.
Local Open Scope list_scope.

(** ** Spelled in full *)
Lemma plain_word set s : plain s -> word set s.
Proof.
  intros [H|(r & -> & D)]; [left; exact H|]. destruct r as [|c r]; [right; left; reflexivity|]. right. right. left. exists (list_ascii_of_string (String c r)), [], []. rewrite app_nil_r.
  split; [reflexivity|]. split; [exact D|]. split; [auto|]. left. split; [reflexivity|discriminate].
Qed.
Lemma full_long set d n : In d set -> In n (names d) -> prefix "--" n -> long set n d.
Proof.
  intros D N P. split; [exact D|]. split; [destruct (name_cases d n N) as [(c & r & H & _)|(c & H & X & _)]; [eauto|]; exfalso; rewrite H in P; destruct P as [r P]; injection P as -> _; congruence|].
  split; [exists n; split; [exact N|exists ""; symmetry; clear; induction n as [|c n IH]; [reflexivity|]; cbn; rewrite IH; reflexivity]|].
  intros d' n' _ N' P'. eapply name_unique; eassumption.
Qed.
Lemma spells_written set a l : spells set a l -> written set [a] l.
Proof.
  destruct a as [d n v|w]; cbn [spells].
  - intros (D & N & H). destruct (name_cases d n N) as [(c & r & EQ & _)|(c & EQ & _)].
    + assert (L : long set n d) by (apply full_long; [exact D|exact N|rewrite EQ; apply prefix_dashes]). destruct H as [(V & P & ->)|(V & -> & ->)]; [apply w_value; [exact L|exact V|apply plain_word, P]|apply w_flag; assumption].
    + subst n. destruct H as [(V & P & ->)|(V & -> & ->)].
      * apply (w_short_next set [] (String c "") d); [apply b_next; assumption|apply plain_word, P].
      * apply w_short, b_flag; assumption.
  - intros [P ->]. apply w_file, plain_word, P.
Qed.
Lemma spelling_run set q l : spelling set q l -> run set q l.
Proof. induction 1 as [|a l q r S _ IH]; [constructor|]. apply (r_cons set [a] l q r (spells_written set a l S) IH). Qed.
Lemma name_no_word set d s : In s (names d) -> ~ word set s.
Proof.
  intros N [H|[H|[H|(H & _)]]]; destruct d; cbn [names In] in N; ins; subst s; try discriminate; try (eapply H; reflexivity);
    try (apply negative_shape in H as (c & r & E & [X|X]); injection E as <- _; discriminate); unfold chars in H; cbn in H; ins; discriminate.
Qed.
Lemma known_fine set s : known_arg s -> s <> "--" /\ ~ ambiguous set s.
Proof.
  intros [P|[d N]].
  - split; [intros ->; destruct P as [P|(r & E & D)]; [eapply P; reflexivity|injection E as <-; discriminate]|].
    intros (p & _ & _ & _ & _ & [_ B] & [r ->] & _). destruct P as [P|(r' & E & D)].
    + destruct B as [-> |[e ->]]; [apply (P (String "-" r)); reflexivity|apply (P (String "-" (r ++ String "=" e))); reflexivity].
    + rewrite E in B. destruct B as [B|[e B]]; injection B as ->; discriminate.
  - split; [intros ->; destruct (name_cases d _ N) as [(? & ? & H & _)|(? & H & X & _)]; [discriminate|injection H as <-; congruence]|].
    intros (p & d1 & n1 & d2 & n2 & [NE B] & P & D1 & N1 & P1 & D2 & N2 & P2 & ND). destruct (name_cases d s N) as [(c & r & EQ & NO)|(c & EQ & X & _)].
    + assert (p = s) as ->. { destruct B as [-> |[e ->]]; [reflexivity|]. exfalso. apply NO. clear. unfold chars. induction p as [|c p IH]; cbn [append list_ascii_of_string In]; auto. }
      apply ND. rewrite (name_unique d s d1 n1 N N1 P P1), (name_unique d s d2 n2 N N2 P P2). reflexivity.
    + destruct P as [r ->]. subst s. destruct B as [B|[e B]]; injection B as -> _; congruence.
Qed.
Lemma known_clear set l : Forall known_arg l -> clear set l.
Proof. intros F. exists l, []. rewrite app_nil_r. split; [reflexivity|]. split; [|auto]. eapply Forall_impl; [|exact F]. intros s. apply known_fine. Qed.

Section WithEnv.
Variable E : Env.
Lemma refused_stops set prev bad e : in_order E prev -> refused E set prev bad e -> Forall known_arg bad -> stops E set prev bad e.
Proof.
  intros O (d & name & r & D & N & -> & H) K.
  destruct H as [(V & v & r' & -> & P & B)|[(V & -> & H)|[(DH & ->)|(C & ->)]]].
  - apply (st_value E set prev [] d name v [] [name; v] r'); [apply (spells_written set (Given d name v)); cbn; auto 8|rewrite app_nil_r; exact O|auto].
  - assert (NV : no_value set r).
    { destruct H as [-> |(v & r' & -> & NP)]; [left; reflexivity|]. right. exists v, r'. split; [reflexivity|]. inversion K as [|? ? _ K']. inversion K' as [|? ? [KV|[d' KV]] _]; [contradiction|]. apply (name_no_word set d'), KV. }
    destruct (name_cases d name N) as [(c & u & EQ & _)|(c & EQ & _)].
    + apply (st_lacking_long E set prev name d); [apply full_long; [exact D|exact N|rewrite EQ; apply prefix_dashes]|exact V|exact NV].
    + subst name. apply (st_lacking E set prev [] (String c "") d); [apply b_next; assumption|exact NV].
  - apply (st_value E set prev [] d name "" [] [name] r); [|rewrite app_nil_r; exact O|left; destruct DH as [-> | ->]; reflexivity].
    apply (spells_written set (Given d name "")). cbn. split; [exact D|]. split; [exact N|]. right. split; [apply takes_not; destruct DH as [-> | ->]; reflexivity|auto].
  - apply (st_value E set prev [] d name "" [] [name] r); [|rewrite app_nil_r; exact O|right; rewrite app_nil_r; auto].
    apply (spells_written set (Given d name "")). cbn. split; [exact D|]. split; [exact N|]. right. split; [apply takes_not; destruct C as [[-> _]|[-> _]]; reflexivity|auto].
Qed.

(** ** Every refusal has one of the causes. *)
Lemma act_raise d v p n e : holds p n -> act E d v n = Raise e -> bad_value E d v e \/ clash d p /\ e = SystemExit 2.
Proof.
  intros H A. destruct (clash_dec d p) as [C|C]; [right; split; [exact C|]; rewrite (act_clash E d v p n H C) in A; congruence|]. left.
  assert (NG : ~ good_value E d v) by (intros G; destruct (act_good E d "" v p n H G C) as (n' & A' & _); congruence).
  assert (X : exists e', bad_value E d v e').
  { destruct d; cbn [bad_value]; try (eexists; split; [exact NG|reflexivity]); try (eexists; reflexivity).
    - destruct (int_value v) as [z|e0] eqn:IV.
      + apply int_value_iff in IV. exists (SystemExit 1). right. exists z. split; [exact IV|]. split; [|reflexivity]. intros R. apply NG. exists z. auto.
      + apply int_value_raise in IV as [_ NI]. eauto.
    - destruct (size_outcome v) as [[_ G]|(e' & _ & B & _)]; [contradiction|]. eauto. }
  destruct X as [e' B]. rewrite (act_bad E d v n e' B) in A. congruence.
Qed.
Lemma items_fail stop t set : tabled t set -> forall k l p n e, (List.length l <= k)%nat -> holds p n -> perform E (fst (items stop t l)) n = Fail e ->
  exists q lq bad, l = lq ++ bad /\ spelling set q lq /\ (stop = true -> files q = []) /\ steps_ok E p q /\ refused E set (p ++ q) bad e.
Proof.
  intros T. assert (S0 : forall p, steps_ok E p []) by (intros p a d s v b EQ; destruct a; discriminate).
  induction k as [|k IH]; intros l p n e L H; (destruct l as [|s r]; [discriminate|]); [cbn in L; lia|]. cbn [items List.length] in *.
  destruct (option_named t s) as [d|] eqn:ON.
  - pose proof (tabled_some _ _ _ _ T ON) as [I N]. destruct (takes d) eqn:TK.
    + assert (LK : forall r, r = [] \/ (exists v r', r = v :: r' /\ ~ plain v) -> @Fail ns (SystemExit 2) = Fail e -> exists q lq bad, s :: r = lq ++ bad /\ spelling set q lq /\ (stop = true -> files q = []) /\ steps_ok E p q /\ refused E set (p ++ q) bad e).
      { intros r0 R X. injection X as <-. exists [], [], (s :: r0). split; [reflexivity|]. split; [constructor|]. split; [reflexivity|]. split; [apply S0|]. exists d, s, r0. split; [exact I|]. split; [exact N|]. split; [reflexivity|]. right. left.
        split; [apply takes_iff, TK|]. auto. }
      destruct r as [|v r]; [apply LK; auto|]. destruct (is_word v) eqn:W; [|apply is_word_not in W; apply LK; right; eauto].
      destruct (items stop t r) as [i x] eqn:IT. cbn [fst perform]. apply is_word_iff in W. destruct (act E d v n) as [n1|e1] eqn:A.
      * intros P. pose proof (act_inv E d v n n1 A) as G. destruct (clash_dec d p) as [C|C]; [rewrite (act_clash E d v p n H C) in A; discriminate|].
        destruct (act_good E d s v p n H G C) as (n2 & A2 & H2). assert (n2 = n1) by congruence. subst n2. cbn [List.length] in L.
        destruct (IH r (p ++ [Given d s v]) n1 e) as (q & lq & bad & -> & SP & F & ST & R); [lia|exact H2|rewrite IT; exact P|].
        exists (Given d s v :: q), ([s; v] ++ lq), bad. split; [reflexivity|]. split; [constructor; [cbn; split; [exact I|]; split; [exact N|]; left; split; [apply takes_iff, TK|auto]|exact SP]|]. split; [exact F|].
        split; [apply steps_cons; assumption|]. rewrite <- app_assoc in R. exact R.
      * intros X. injection X as <-. exists [], [], (s :: v :: r). split; [reflexivity|]. split; [constructor|]. split; [reflexivity|]. split; [apply S0|]. exists d, s, (v :: r). split; [exact I|]. split; [exact N|]. split; [reflexivity|].
        rewrite app_nil_r. destruct (act_raise d v p n e1 H A) as [B|[C ->]]; [left; split; [apply takes_iff, TK|]; eauto|]. right. right. right. auto.
    + destruct (items stop t r) as [i x] eqn:IT. cbn [fst perform]. destruct (act E d "" n) as [n1|e1] eqn:A.
      * intros P. pose proof (act_inv E d "" n n1 A) as G. destruct (clash_dec d p) as [C|C]; [rewrite (act_clash E d "" p n H C) in A; discriminate|].
        destruct (act_good E d s "" p n H G C) as (n2 & A2 & H2). assert (n2 = n1) by congruence. subst n2.
        destruct (IH r (p ++ [Given d s ""]) n1 e) as (q & lq & bad & -> & SP & F & ST & R); [lia|exact H2|rewrite IT; exact P|].
        exists (Given d s "" :: q), ([s] ++ lq), bad. split; [reflexivity|]. split; [constructor; [cbn; split; [exact I|]; split; [exact N|]; right; split; [apply takes_not, TK|auto]|exact SP]|]. split; [exact F|].
        split; [apply steps_cons; assumption|]. rewrite <- app_assoc in R. exact R.
      * intros X. injection X as <-. exists [], [], (s :: r). split; [reflexivity|]. split; [constructor|]. split; [reflexivity|]. split; [apply S0|]. exists d, s, r. split; [exact I|]. split; [exact N|]. split; [reflexivity|].
        rewrite app_nil_r. destruct (act_raise d "" p n e1 H A) as [B|[C ->]]; [|right; right; right; auto]. right. right. left. destruct d; try discriminate; cbn [bad_value] in B; auto; destruct B as [B _]; destruct B; exact Logic.I.
  - destruct (is_word s) eqn:W; [|discriminate]. apply is_word_iff in W. destruct stop; [discriminate|]. destruct (items false t r) as [i x] eqn:IT. cbn [fst perform]. intros P.
    destruct (IH r (p ++ [File s]) n e) as (q & lq & bad & -> & SP & F & ST & R); [lia|apply holds_file, H|rewrite IT; exact P|].
    exists (File s :: q), ([s] ++ lq), bad. split; [reflexivity|]. split; [constructor; [cbn; auto|exact SP]|]. split; [discriminate|]. split; [|rewrite <- app_assoc in R; exact R].
    intros a d s' v b EQ. destruct a as [|y a]; [discriminate|]. injection EQ as <- EQ. destruct (ST a d s' v b EQ) as [G C]. rewrite <- app_assoc in C. auto.
Qed.
Lemma refused_own c g q bad e : refused E (sub_set c) (g ++ q) bad e -> refused E (sub_set c) q bad e.
Proof.
  intros (d & name & r & D & N & EQ & H). exists d, name, r. split; [exact D|]. split; [exact N|]. split; [exact EQ|]. destruct H as [H|[H|[H|[C _]]]]; auto.
  exfalso. destruct C as [[-> _]|[-> _]]; destruct c; cbn [sub_set In] in D; repeat (destruct D as [D|D]; [discriminate|]); exact D.
Qed.
Lemma steps_own g q : steps_ok E g q -> in_order E q.
Proof.
  intros ST. apply steps_order. intros a d s v b EQ. destruct (ST a d s v b EQ) as [G C]. split; [exact G|]. cbn [app]. intros C'. apply C. destruct C' as [[-> C']|[-> C']]; [left|right]; (split; [reflexivity|]); rewrite is_given_or, C'; apply orb_true_r.
Qed.
(** What is refused of the command lines with names in full. *)
Theorem refused_only l e : parse E l = Fail e -> Forall known_arg l /\
  exists g lg, spelling main_set g lg /\ files g = [] /\
    ((exists bad, l = lg ++ bad /\ in_order E g /\ refused E main_set g bad e) \/
     (in_order E g /\ e = SystemExit 2 /\ exists name r, l = lg ++ name :: r /\ plain name /\ forall c, ~ In name (sub_names c)) \/
     exists c name q lq, in_order E g /\ In name (sub_names c) /\ spelling (sub_set c) q lq /\ in_order E q /\
       ((exists bad, l = lg ++ name :: lq ++ bad /\ refused E (sub_set c) q bad e) \/
        (l = lg ++ name :: lq /\ e = SystemExit 2 /\ ~ file_count c (zlen (files q))))).
Proof.
  unfold parse. destruct (forallb known l) eqn:K; cbn [negb]; [|discriminate].
  assert (KA : Forall known_arg l) by (apply Forall_forall; intros s I; apply known_iff; rewrite forallb_forall in K; apply K, I).
  intros H. split; [exact KA|]. destruct (items true main_options l) as [i rest] eqn:IT. destruct (perform E i ns0) as [n|e0|] eqn:PF; [|injection H as <-|discriminate].
  2: { destruct (items_fail true main_options main_set main_tabled (List.length l) l [] ns0 e0 (Nat.le_refl _) holds0) as (q & lq & bad & EQ & SP & F & ST & R); [rewrite IT; exact PF|].
       exists q, lq. split; [exact SP|]. split; [auto|]. left. exists bad. split; [exact EQ|]. split; [apply steps_order, ST|exact R]. }
  destruct (items_inv true main_options main_set main_tabled (List.length l) l (Nat.le_refl _)) as (g & lg & SG & MG & EQ & FG & _); [rewrite IT; eapply perform_clean; exact PF|].
  rewrite IT in MG, EQ, FG. cbn [fst snd] in *. destruct (FG eq_refl) as [FG' PL]. rewrite <- MG in PF. destruct (perform_inv E g [] ns0 n holds0 PF) as [OG HG]. cbn [app] in HG. apply steps_order in OG.
  exists g, lg. split; [exact SG|]. split; [exact FG'|]. right. destruct rest as [|name r]; [discriminate|]. destruct (sub_of name) as [c|] eqn:SO.
  2: { injection H as <-. left. split; [exact OG|]. split; [reflexivity|]. exists name, r. split; [exact EQ|]. split; [exact PL|]. intros c I. apply sub_of_iff in I. congruence. }
  right. apply sub_of_iff in SO. unfold parse_sub in H. exists c, name. destruct (items false (options_of c) r) as [j y] eqn:IJ. cbn [fst] in H. destruct (perform E j n) as [n'|e1|] eqn:PJ; [|injection H as <-|discriminate].
  - destruct (items_inv false (options_of c) (sub_set c) (sub_tabled c) (List.length r) r (Nat.le_refl _)) as (q & lq & SQ & MQ & EQQ & _ & RQ); [rewrite IJ; eapply perform_clean; exact PJ|].
    rewrite IJ in MQ, EQQ, RQ. cbn [fst snd] in *. rewrite (RQ eq_refl), app_nil_r in EQQ. subst r. rewrite <- MQ in *. destruct (perform_inv E q g n n' HG PJ) as [OQ HQ].
    destruct (optional_second c && negb (together (map to_item q))) eqn:OT; [discriminate|]. rewrite words_map in H. destruct (command_of c n' (files q)) as [x'|] eqn:CO; [discriminate|]. injection H as <-.
    exists q, lq. split; [exact OG|]. split; [exact SO|]. split; [exact SQ|]. split; [eapply steps_own; exact OQ|]. right. split; [exact EQ|].
    assert (NF : ~ file_count c (zlen (files q))). { intros FC. destruct (command_stands c g q n' (spelled_only _ _ _ SG) (spelled_only _ _ _ SQ) HQ FC) as (x2 & CO2 & _). congruence. }
    split; [|exact NF]. rewrite (command_refused c n' _ NF) in CO. congruence.
  - destruct (items_fail false (options_of c) (sub_set c) (sub_tabled c) (List.length r) r g n e1 (Nat.le_refl _) HG) as (q & lq & bad & EQB & SP & _ & ST & R); [rewrite IJ; exact PJ|].
    exists q, lq. split; [exact OG|]. split; [exact SO|]. split; [exact SP|]. split; [eapply steps_own; exact ST|]. left. exists bad. split; [rewrite EQ, EQB; reflexivity|]. eapply refused_own; exact R.
Qed.
Lemma none_main l : parse E l = Done CmdNone -> exists g, run main_set g l /\ files g = [] /\ in_order E g.
Proof.
  unfold parse. destruct (forallb known l); cbn [negb]; [|discriminate]. destruct (items true main_options l) as [i rest] eqn:IT.
  destruct (perform E i ns0) as [n| |] eqn:PF; [|discriminate|discriminate].
  destruct (items_inv true main_options main_set main_tabled (List.length l) l (Nat.le_refl _)) as (g & lg & SG & MG & EQ & FG & _); [rewrite IT; eapply perform_clean; exact PF|].
  rewrite IT in MG, EQ, FG. cbn [fst snd] in *. destruct (FG eq_refl) as [FG' _]. rewrite <- MG in PF. destruct (perform_inv E g [] ns0 n holds0 PF) as [OG HG].
  destruct rest as [|name r].
  - intros _. rewrite app_nil_r in EQ. subst lg. exists g. split; [apply spelling_run, SG|]. split; [exact FG'|apply steps_order, OG].
  - destruct (sub_of name) as [c|]; [|discriminate]. unfold parse_sub. destruct (perform E (fst (items false (options_of c) r)) n) as [n'| |]; [|discriminate|discriminate].
    destruct (optional_second c && _); [discriminate|]. unfold command_of. destruct c, (words (fst (items false _ r))) as [|w1 [|w2 [|w3 ws]]]; discriminate.
Qed.
Theorem same l s r : blpk E l s = Some r -> command_line E l s = r.
Proof.
  unfold blpk. destruct (parse E l) as [x|e|] eqn:P; intros H; [injection H as <-|injection H as <-|discriminate].
  - destruct (match x with CmdNone => true | _ => false end) eqn:X.
    + destruct x; try discriminate. destruct (none_main l P) as (g & R & F & O). rewrite (line_no_subcommand E g l R F O). reflexivity.
    + destruct (accepted_only E l x P) as (g & lg & c & name & q & lq & -> & SG & FG & N & SQ & OG & OQ & FC & PL & ST); [intros ->; discriminate|].
      destruct (line_accepted E g lg c name q lq (spelling_run _ _ _ SG) FG N (run_line _ _ _ (spelling_run _ _ _ SQ)) OG OQ FC PL) as (x' & ST' & C). rewrite C, (stands_for_one c g q x x' ST ST'). reflexivity.
  - destruct (refused_only l e P) as (K & g & lg & SG & FG & H). apply spelling_run in SG. destruct H as [(bad & -> & OG & R)|[(OG & -> & name & r & -> & PL & N)|(c & name & q & lq & OG & N & SQ & OQ & H)]].
    + apply Forall_app in K as [_ K]. apply (line_refused_main E g lg bad e SG FG OG); [apply refused_stops; assumption|apply known_clear, K].
    + apply (line_unknown_subcommand E g lg name r SG FG OG); [right; apply plain_word, PL|exact N].
    + apply spelling_run in SQ. destruct H as [(bad & -> & R)|(-> & -> & NF)].
      * apply Forall_app in K as [_ K]. inversion K as [|? ? _ K']. assert (K'' := K'). apply Forall_app in K'' as [_ K''].
        apply (line_refused_sub E g lg c name q lq bad e SG FG N SQ OG OQ); [apply refused_stops; assumption|apply known_clear, K'|apply known_clear, K''].
      * apply (line_wrong_files E g lg c name q lq SG FG N (run_line _ _ _ SQ) OG OQ). tauto.
Qed.
End WithEnv.

(** There is no third way. *)
Theorem line_outcomes E l s :
  (exists g lg c name q lq x, l = lg ++ name :: lq /\ run main_set g lg /\ files g = [] /\ In name (sub_names c) /\ line (sub_set c) q lq /\
    in_order E g /\ in_order E q /\ file_count c (zlen (files q)) /\ placed c q /\ stands_for c g q x /\ command_line E l s = main E x s) \/
  exists e, command_line E l s = (s, Raise e) /\ In e [SystemExit 0; SystemExit 1; SystemExit 2; IndexError; OverflowError].
Proof.
  unfold command_line. destruct (parse_args E l) as [x|e] eqn:P; [|right; exists e; split; [reflexivity|eapply line_endings; exact P]].
  destruct (match x with CmdNone => true | _ => false end) eqn:X.
  - destruct x; try discriminate. right. exists (SystemExit 2). split; [reflexivity|cbn; tauto].
  - left. destruct (line_accepted_only E l x P) as (g & lg & c & name & q & lq & H); [intros ->; discriminate|]. exists g, lg, c, name, q, lq, x. tauto.
Qed.
(** What one command line compresses, another gives back. *)
Theorem line_and_back E : EnvOK E -> forall g lg name q lq g' lg' name' q' lq' f a out b s s1,
  run main_set g lg -> files g = [] -> In name (sub_names SubCompress) -> line (sub_set SubCompress) q lq -> in_order E g -> in_order E q -> placed SubCompress q ->
  files q = [f] /\ a = (f ++ ".blp")%string \/ files q = [f; a] /\ a <> "" /\ a <> f ->
  s f = Some b -> command_line E (lg ++ name :: lq) s = (s1, Ok tt) ->
  run main_set g' lg' -> files g' = [] -> In name' (sub_names SubDecompress) -> line (sub_set SubDecompress) q' lq' -> in_order E g' -> in_order E q' -> placed SubDecompress q' ->
  files q' = [a; out] -> out <> "" -> out <> a -> is_given NoCheck q' = true \/ (exists r, a = (r ++ ".blp")%string) -> is_given Force g' = true \/ s1 out = None ->
  exists s2, command_line E (lg' ++ name' :: lq') s1 = (s2, Ok tt) /\ s2 out = Some b /\ forall p, p <> a -> p <> out -> s2 p = s p.
Proof.
  intros EO g lg name q lq g' lg' name' q' lq' f a out b s s1 RG FG N LQ OG OQ PL FQ SF H RG' FG' N' LQ' OG' OQ' PL' FQ' NE NA XT FO.
  destruct (line_accepted E g lg SubCompress name q lq RG FG N LQ OG OQ) as (x & ST & B); [destruct FQ as [[-> _]|[-> _]]; cbn; lia|exact PL|]. rewrite B in H. clear B.
  destruct x as [o| | | |]; try (destruct ST; fail). destruct ST as (OT & _). cbn [main] in H.
  assert (CO : co_in o = f /\ compress_out o = a /\ f <> a).
  { unfold compress_out. destruct FQ as [[FQ ->]|(FQ & N1 & N2)]; rewrite FQ in OT; destruct OT as [[OI OO]|(p & OI & OO)]; try discriminate.
    - injection OI as OI. rewrite OO, <- OI. split; [reflexivity|]. split; [reflexivity|]. intros X. apply (f_equal String.length) in X. rewrite length_append in X. cbn in X. lia.
    - injection OI as <- <-. rewrite OO. unfold or_default. apply String.eqb_neq in N1. rewrite N1. auto. }
  destruct CO as (CI & CO & NF).
  destruct (line_accepted E g' lg' SubDecompress name' q' lq' RG' FG' N' LQ' OG' OQ') as (y & SY & B); [rewrite FQ'; cbn; lia|exact PL'|]. rewrite B. clear B.
  destruct y as [|o'| | |]; try (destruct SY; fail). destruct o' as [i' out' fo' nc']. cbn [stands_for do_in do_out do_force do_no_check] in SY. destruct SY as (OT' & -> & ->).
  rewrite FQ' in OT'. destruct OT' as [[OI _]|(p & OI & ->)]; [discriminate|]. injection OI as <- <-. cbn [main].
  destruct (cli_decompress E (mkDO a (Some out) (is_given Force g') (is_given NoCheck q')) s1) as [s2 r] eqn:D. exists s2. rewrite <- CO in D.
  destruct (cli_round_trip E EO o s s1 b (Some out) (is_given Force g') (is_given NoCheck q') out s2 r) as ((m & _ & ->) & S2 & FR).
  - rewrite CI. exact SF.
  - rewrite CO, CI. exact NF.
  - exact H.
  - unfold decompress_out. cbn [do_in do_out do_no_check]. rewrite CO. destruct (is_given NoCheck q'); [reflexivity|]. destruct XT as [XT|XT]; [discriminate|].
    replace (ends_with_ext a) with true by (symmetry; apply ext_iff; exact XT). unfold or_default. apply String.eqb_neq in NE. rewrite NE. reflexivity.
  - exact NE.
  - rewrite CO. exact NA.
  - exact FO.
  - exact D.
  - unfold bind. rewrite <- CO at 1. rewrite D. split; [reflexivity|]. split; [exact S2|]. rewrite CO in FR. exact FR.
Qed.
