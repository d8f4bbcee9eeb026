(** Proofs about command lines that are refused. *)
From Verif Require Import Base PyVal Checksums Headers Pretty Args FileIO Append Files Cli Parser Argparse Spec BaseLemmas PrettyProofs OptionProofs ParserSpec ParserProofs ParserMain ArgSpec ArgProofs ArgOptions ArgLoop ArgMain.
From Coq Require Import ZifyBool ZifyNat.
Ltac Zify.zify_post_hook ::= Z.div_mod_to_equations.
Local Open Scope string_scope.
Local Open Scope list_scope.

(** ** Ambiguity *)
Lemma ambiguous_iff t set s : In (t, set) the_tables -> (parse_optional t s = None <-> ambiguous set s).
Proof.
  intros I. split.
  - intros H. pose proof (parse_dashes t set s I H) as P. destruct (partition_eq s) as [p x] eqn:PE. rewrite (long_text t set s p x I P PE) in H.
    destruct (fitting t p) as [|[n1 d1] [|[n2 d2] l]] eqn:F; try discriminate. pose proof (partition_dashes s p x P PE) as PP.
    assert (I1 : In (n1, d1) (fitting t p)) by (rewrite F; left; reflexivity). assert (I2 : In (n2, d2) (fitting t p)) by (rewrite F; right; left; reflexivity).
    apply (fitting_iff t set p _ _ I) in I1 as (D1 & N1 & P1). apply (fitting_iff t set p _ _ I) in I2 as (D2 & N2 & P2).
    exists p, d1, n1, d2, n2. split; [exact (proj1 (partition_before _ _ _ PE))|]. repeat (split; [assumption|]). intros <-.
    rewrite (one_long d1 n1 n2 N1 N2 (prefix_trans _ _ _ PP P1) (prefix_trans _ _ _ PP P2)) in F.
    assert (ND : NoDup (fitting t p)) by apply NoDup_filter, nodup_pairs, (tables_nodup t set I). rewrite F in ND. inversion ND as [|? ? NI _]. apply NI. left. reflexivity.
  - intros (p & d1 & n1 & d2 & n2 & [NE B] & PP & D1 & N1 & P1 & D2 & N2 & P2 & ND).
    assert (exists x, partition_eq s = (p, x) /\ prefix "--" s) as (x & PE & PS).
    { destruct B as [-> |[e ->]]; eexists; (split; [first [apply (partition_none _ NE)|apply (partition_some _ _ NE)]|]); [exact PP|]. destruct PP as [r ->]. exists (r ++ String "=" e)%string. apply app_assoc_s. }
    rewrite (long_text t set s p x I PS PE). assert (I1 : In (n1, d1) (fitting t p)) by (apply (fitting_iff t set p _ _ I); auto). assert (I2 : In (n2, d2) (fitting t p)) by (apply (fitting_iff t set p _ _ I); auto).
    destruct (fitting t p) as [|[n d] [|y l]]; [destruct I1| |reflexivity]. destruct I1 as [I1|[]], I2 as [I2|[]]. congruence.
Qed.
Lemma vague_ambiguous s : vague s <-> ambiguous main_set s.
Proof. rewrite <- vague_iff. apply ambiguous_iff, main_in_tables. Qed.
Lemma clear_some t set l : In (t, set) the_tables -> clear set l -> exists k, classify t l = Some k.
Proof.
  intros I (l1 & l2 & -> & F & D). assert (exists m, classify t l2 = Some m) as [m M] by (destruct D as [-> |[r ->]]; eexists; reflexivity).
  apply (classify_known t l1 l2 m); [|exact M]. eapply Forall_impl; [|exact F]. intros s [N A]. split; [exact N|]. destruct (parse_optional t s) eqn:P; [eauto|]. apply (ambiguous_iff t set s I) in P. contradiction.
Qed.
Lemma ambiguous_none t set l1 s l2 : In (t, set) the_tables -> ~ In "--" l1 -> s <> "--" -> ambiguous set s -> classify t (l1 ++ s :: l2) = None.
Proof.
  intros I N NS A. apply (ambiguous_iff t set s I) in A. induction l1 as [|x l1 IH]; cbn [app].
  - rewrite (classify_cons t s _ NS), A. reflexivity.
  - rewrite (classify_cons t x); [|intros ->; apply N; left; reflexivity]. rewrite IH by (intros H; apply N; right; exact H). destruct (parse_optional t x); reflexivity.
Qed.

(** ** Options that end the program *)
Lemma flags_equals t set q s po v : In (t, set) the_tables -> bundle set q s po -> po = None -> (forall d n x, In (Given d n x) q -> ~ In d valued) ->
  forall d0, bundled t d0 (s ++ String "=" v) = None.
Proof.
  intros I. induction 1 as [d c D S V|d c q s p D S V B IH|d c x w D S V X|d c w D S V|d c D S V]; intros PN FL d0; try discriminate.
  - destruct (short_char d c S) as (C1 & C2 & _). cbn [append bundled]. destruct (Ascii.eqb_spec c "-"); [congruence|]. rewrite (short_named t set c d I D S). replace (Ascii.eqb "=" "=") with true by reflexivity.
    apply takes_not in V. rewrite V. reflexivity.
  - destruct (short_char d c S) as (C1 & C2 & _). cbn [append bundled]. destruct (Ascii.eqb_spec c "-"); [congruence|]. rewrite (short_named t set c d I D S).
    destruct (bundle_run t set q s p I B) as (d' & c' & e' & -> & _ & S' & _). destruct (short_char d' c' S') as (_ & C2' & _). cbn [append]. destruct (Ascii.eqb_spec c' "="); [congruence|].
    apply takes_not in V. rewrite V. change (String c' (e' ++ String "=" v)) with (String c' e' ++ String "=" v)%string. rewrite IH; [reflexivity|exact PN|]. intros d1 n1 x1 IN. apply (FL d1 n1 x1). right. exact IN.
  - exfalso. apply (FL d (String "-" (String c "")) (String x w)); [left; reflexivity|exact V].
  - exfalso. apply (FL d (String "-" (String c "")) w); [left; reflexivity|exact V].
Qed.
Definition wordless (k : list (string * kind)) : Prop := match k with (_, KA) :: _ => False | _ => True end.
Lemma no_value_wordless t set r k m : In (t, set) the_tables -> no_value set r -> classify t r = Some k -> classify main_options r = Some m -> wordless k.
Proof.
  intros I [-> |(v & r' & -> & NW)] C M; [injection C as <-; exact Logic.I|]. destruct (string_dec v "--") as [-> |N]; [cbn in C; injection C as <-; exact Logic.I|].
  rewrite (classify_cons t v _ N) in C. rewrite (classify_cons _ v _ N) in M. destruct (parse_optional t v) as [kd|] eqn:P; [|discriminate]. destruct (classify t r') as [q|]; [|discriminate]. injection C as <-.
  destruct kd; cbn [wordless]; auto. apply NW, (word_of t set v I); [split; assumption|]. destruct (parse_optional main_options v); congruence.
Qed.
Lemma wordless_next d k : takes d = true -> wordless k -> with_next d k = None.
Proof. unfold with_next. intros -> W. destruct k as [|[v [| |]] k]; [reflexivity|destruct W|reflexivity|reflexivity]. Qed.
Lemma stop_optional t set s r k m : In (t, set) the_tables -> classify t r = Some k -> classify main_options r = Some m ->
  (exists q u d, s = String "-" u /\ bundle set q u (Some d) /\ no_value set r) \/ (exists d, long set s d /\ In d valued /\ no_value set r) \/
  (exists q u v, s = String "-" (u ++ String "=" v) /\ bundle set q u None /\ forall d n x, In (Given d n x) q -> ~ In d valued) \/
  (exists p d v, s = (p ++ String "=" v)%string /\ long set p d /\ ~ In d valued) ->
  s <> "--" /\ exists a x, parse_optional t s = Some (KO a x) /\ consume_optional t a x k = None.
Proof.
  intros I C M [(q & u & d & -> & B & NV)|[(d & L & V & NV)|[(q & u & v & -> & B & FL)|(p & d & v & -> & L & V)]]].
  - pose proof (no_value_wordless t set r k m I NV C M) as W. destruct (bundle_run t set q u (Some d) I B) as (d0 & c & e & -> & D & S & H). destruct (short_char d0 c S) as (C1 & _). split; [congruence|].
    rewrite (short_case t set d0 c e I D S). eexists _, _. split; [reflexivity|].
    destruct H as [(T & [(-> & _ & H)|[(x & v0 & -> & X & A & H)|(v0 & -> & A & H)]])|(T & [(-> & A & H)|(x & v0 & l & po' & -> & X & B' & H)])]; try discriminate.
    + cbn [consume_optional]. rewrite (wordless_next d0 k T W). reflexivity.
    + destruct (Ascii.eqb_spec x "="); [congruence|]. cbn [consume_optional]. rewrite T, (short_is c C1). cbn [andb negb]. rewrite B'.
      destruct po' as [d'|]; [destruct (takes d') eqn:T'; destruct H as [H _]|destruct H as [H _]]; try discriminate. rewrite (wordless_next d' k T' W). reflexivity.
  - pose proof (no_value_wordless t set r k m I NV C M) as W. pose proof (long_noeq _ _ _ L) as NE. destruct (long_fitting t set s d I L) as (n & F & N1 & _). destruct L as (_ & (c & r0 & E) & _). split; [congruence|].
    exists (Some (d, n)), None. split; [rewrite (long_text t set s s None I); [rewrite F; reflexivity|rewrite E; apply prefix_dashes|apply partition_none, NE]|]. cbn [consume_optional]. apply takes_iff in V. rewrite (wordless_next d k V W). reflexivity.
  - inversion B as [d c D S V|d c q' s' p D S V B'|d c x w D S V X|d c w D S V|]; subst; try (exfalso; eapply FL; [left; reflexivity|exact V]).
    + destruct (short_char d c S) as (C1 & _). cbn [append]. split; [congruence|]. rewrite (short_case t set d c _ I D S). eexists _, _. split; [reflexivity|]. replace (Ascii.eqb "=" "=") with true by reflexivity.
      cbn [consume_optional]. apply takes_not in V. rewrite V, andb_false_r. reflexivity.
    + destruct (short_char d c S) as (C1 & _). cbn [append]. split; [congruence|]. rewrite (short_case t set d c _ I D S). eexists _, _. split; [reflexivity|].
      assert (BN : bundled t d (s' ++ String "=" v) = None). { eapply flags_equals; [exact I|exact B'|reflexivity|]. intros d1 n1 x1 IN. apply (FL d1 n1 x1). right. exact IN. }
      destruct (bundle_run t set q' s' None I B') as (d' & c' & e' & -> & _ & S' & _). destruct (short_char d' c' S') as (_ & C2' & _). cbn [append] in *. destruct (Ascii.eqb_spec c' "="); [congruence|].
      cbn [consume_optional]. apply takes_not in V. rewrite V, (short_is c C1). cbn [andb negb]. rewrite BN. reflexivity.
  - pose proof (long_noeq _ _ _ L) as NE. destruct (long_fitting t set p d I L) as (n & F & N1 & _). destruct L as (_ & (c & r0 & E) & _). split; [rewrite E; discriminate|].
    exists (Some (d, n)), (Some (true, v)). split; [rewrite (long_text t set _ p (Some v) I); [rewrite F; reflexivity|rewrite E; cbn [append]; apply prefix_dashes|apply partition_some, NE]|].
    cbn [consume_optional]. apply takes_not in V. rewrite V, (long_is n N1). reflexivity.
Qed.

Section WithEnv.
Variable E : Env.
Lemma stop_loop t set prev p l k m e n : In (t, set) the_tables -> classify t l = Some k -> classify main_options l = Some m -> stops E set prev l e ->
  (forall a, in_order E (prev ++ a) -> only set a -> steps_ok E p a) -> (forall d a, clash d (prev ++ a) -> clash d (p ++ a)) -> holds p n ->
  optioned k /\ forall f ps ws ex, loop E (S f) t ps k n ws ex = Raise e.
Proof.
  intros I C M ST HS HC HN.
  assert (ER : forall s r, l = s :: r -> e = SystemExit 2 ->
    (exists q u d, s = String "-" u /\ bundle set q u (Some d) /\ no_value set r) \/ (exists d, long set s d /\ In d valued /\ no_value set r) \/
    (exists q u v, s = String "-" (u ++ String "=" v) /\ bundle set q u None /\ forall d n x, In (Given d n x) q -> ~ In d valued) \/
    (exists p d v, s = (p ++ String "=" v)%string /\ long set p d /\ ~ In d valued) -> optioned k /\ forall f ps ws ex, loop E (S f) t ps k n ws ex = Raise e).
  { intros s r -> -> H. assert (NS : s <> "--").
    { destruct H as [(q & u & d & -> & B & _)|[(d & L & _)|[(q & u & v & -> & B & _)|(p0 & d & v & -> & L & _)]]].
      - destruct (bundle_run t set q u _ I B) as (d0 & c & e0 & -> & D & S & _). destruct (short_char d0 c S). congruence.
      - destruct L as (_ & (? & ? & ->) & _). discriminate.
      - destruct (bundle_run t set q u _ I B) as (d0 & c & e0 & -> & D & S & _). destruct (short_char d0 c S). cbn [append]. congruence.
      - destruct L as (_ & (? & ? & ->) & _). discriminate. }
    rewrite (classify_cons t s _ NS) in C. rewrite (classify_cons _ s _ NS) in M. destruct (classify t r) as [k0|] eqn:CR; [|destruct (parse_optional t s); discriminate].
    destruct (classify main_options r) as [m0|] eqn:MR; [|destruct (parse_optional main_options s); discriminate].
    destruct (stop_optional t set s r k0 m0 I CR MR H) as (_ & a & x & PO & CO). rewrite PO in C. injection C as <-. split; [eexists _, _, _, _; reflexivity|].
    intros f ps ws ex. cbn [loop]. change (has_option ((s, KO a x) :: k0)) with true. cbn iota. rewrite CO. reflexivity. }
  destruct ST as [a d nm v b tx r e W O B|q s d r B NV|p0 d r L V NV|q s v r B FL|p0 d v r L V].
  - destruct (opt_complete t set _ tx I W) as [(w & EQ & _)|(s & vs & d0 & o & x & -> & NS & FV & FA & NA & PO & CO)]; [destruct a as [|? [|? ?]]; discriminate|]. clear ER.
    cbn [app] in C. rewrite (classify_cons t s _ NS), PO, (classify_words t vs r (words_plainly t set vs I FV)) in C. destruct (classify t r) as [k0|]; [|discriminate]. injection C as <-.
    split; [eexists _, _, _, _; reflexivity|]. intros f ps ws ex. rewrite (loop_option E t set _ s vs d0 o x k0 f ps n ws ex I CO).
    assert (P : perform E (map to_item (a ++ Given d nm v :: b)) n = Fail e).
    { rewrite map_app. destruct (perform_good E a (map to_item (Given d nm v :: b)) p n HN) as (n1 & -> & H1).
      - apply HS; [exact O|]. apply written_only in W. intros d1 s1 v1 IN. apply (W d1 s1 v1). apply in_or_app. auto.
      - cbn [map to_item perform]. destruct B as [B|[B ->]]; [rewrite (act_bad E d v n1 e B); reflexivity|]. rewrite (act_clash E d v _ n1 H1 (HC d a B)). reflexivity. }
    rewrite perform_acts in P. destruct (take_actions E _ n); [discriminate|]. congruence.
  - apply (ER _ r eq_refl eq_refl). left. eauto 10.
  - apply (ER _ r eq_refl eq_refl). right. left. eauto 10.
  - apply (ER _ r eq_refl eq_refl). right. right. left. eauto 10.
  - apply (ER _ r eq_refl eq_refl). right. right. right. eauto 10.
Qed.
Lemma main_prefix g lg l2 k2 n n' : run main_set g lg -> files g = [] -> classify main_options l2 = Some k2 -> perform E (map to_item g) n = Done n' ->
  exists k, classify main_options (lg ++ l2) = Some k /\ forall f, (List.length k < f)%nat -> exists f', (List.length k2 < f')%nat /\
    loop E f main_options [Rest] k n [] false = loop E f' main_options [Rest] k2 n' [] false.
Proof.
  intros RG FG C2. revert n. induction RG as [|a t q l WA RG IH]; intros n P.
  - exists k2. split; [exact C2|]. intros f LT. cbn in P. injection P as <-. exists f. auto.
  - rewrite files_app in FG. apply app_eq_nil in FG as [FA FQ]. destruct (opt_complete _ _ a t main_in_tables WA) as [(w & -> & _)|(s0 & vs & d & o & x & -> & N0 & FV & _ & NA & PO & CO)]; [discriminate|].
    rewrite perform_app, (perform_acts E a) in P. destruct (take_actions E (acts a) n) as [n1|] eqn:TA; [|discriminate]. destruct (IH FQ n1 P) as (k & C & H).
    exists ((s0, KO (Some (d, o)) x) :: kw vs ++ k). split.
    + cbn [app]. rewrite <- app_assoc, (classify_cons _ _ _ N0), PO, (classify_words _ vs _ (words_plainly _ _ vs main_in_tables FV)), C. reflexivity.
    + intros f LT. destruct f as [|f]; [lia|]. rewrite (loop_option E _ _ a s0 vs d o x k f [Rest] n [] false main_in_tables CO), TA. apply H. cbn [List.length] in LT. rewrite app_length in LT. lia.
Qed.
Lemma order_perform g : in_order E g -> exists n, perform E (map to_item g) ns0 = Done n /\ holds g n.
Proof. intros O. destruct (perform_good E g [] [] ns0 holds0 (order_steps E g O)) as (n & P & H). rewrite app_nil_r in P. eauto. Qed.

Theorem line_refused_main g lg bad e : run main_set g lg -> files g = [] -> in_order E g -> stops E main_set g bad e -> clear main_set bad ->
  forall s, command_line E (lg ++ bad) s = (s, Raise e).
Proof.
  intros RG FG OG ST CL s. destruct (clear_some _ _ bad main_in_tables CL) as [k2 C2]. destruct (order_perform g OG) as (n & PG & HG).
  destruct (main_prefix g lg bad k2 ns0 n RG FG C2 PG) as (k & C & H). destruct (H (S (List.length k)) (Nat.lt_succ_diag_r _)) as (f' & LT & L). destruct f' as [|f']; [lia|].
  destruct (stop_loop _ _ g g bad k2 k2 e n main_in_tables C2 C2 ST) as [_ SL]; [| |exact HG|].
  - intros a O _. exact (proj2 (steps_app E [] g a (order_steps E _ O))).
  - auto.
  - unfold command_line, parse_args, parse_known. rewrite C, L, SL. reflexivity.
Qed.
Lemma to_sub g lg c name l : run main_set g lg -> files g = [] -> in_order E g -> In name (sub_names c) -> clear main_set l ->
  exists n m, holds g n /\ classify main_options l = Some m /\ parse_args E (lg ++ name :: l) =
    (q <~ parse_known E (options_of c) (positionals c) l n ;; if p_extras q then Raise (SystemExit 2) else command_of c (p_ns q) (p_words q)).
Proof.
  intros RG FG OG N CL. destruct (clear_some _ _ l main_in_tables CL) as [m M]. destruct (order_perform g OG) as (n & PG & HG). exists n, m. split; [exact HG|]. split; [exact M|].
  destruct (main_complete E g lg name l m ns0 n RG FG (sub_plainly name c N) M PG) as (k & CK & LK). unfold parse_args. unfold parse_known at 1. rewrite CK, (LK _ (Nat.lt_succ_diag_r _)).
  cbn [rbind p_left existsb p_words p_extras p_ns]. rewrite (proj2 (sub_of_iff name c) N). reflexivity.
Qed.
Theorem line_refused_sub g lg c name q lq bad e : run main_set g lg -> files g = [] -> In name (sub_names c) -> run (sub_set c) q lq -> in_order E g -> in_order E q ->
  stops E (sub_set c) q bad e -> clear main_set (lq ++ bad) -> clear (sub_set c) bad -> forall s, command_line E (lg ++ name :: lq ++ bad) s = (s, Raise e).
Proof.
  intros RG FG N RQ OG OQ ST CM CB s. destruct (to_sub g lg c name (lq ++ bad) RG FG OG N CM) as (n & m & HG & M & PA). unfold command_line. rewrite PA. clear PA.
  destruct (clear_some _ _ bad (sub_in_tables c) CB) as [k2 C2].
  assert (exists m2, classify main_options bad = Some m2) as [m2 M2].
  { destruct (classify_app main_options lq bad m) as [_ X]; [|exact M|exact X]. clear - RQ. induction RQ as [|a t q r W R IH]; [constructor|]. apply Forall_app. split; [|exact IH].
    eapply Forall_impl; [|eapply written_not_vague; exact W]. intros s [H _]. exact H. }
  destruct (perform_good E q [] g n HG (sub_in_order E g q c (run_only _ _ _ RQ) OG OQ)) as (n' & PQ & HQ). rewrite app_nil_r in PQ. cbn [perform] in PQ.
  destruct (stop_loop _ _ q (g ++ q) bad k2 m2 e n' (sub_in_tables c) C2 M2 ST) as [O2 SL].
  - intros a O OA. assert (SO : steps_ok E g (q ++ a)). { apply (sub_in_order E g (q ++ a) c); [apply only_app; [exact (run_only _ _ _ RQ)|exact OA]|exact OG|exact O]. } exact (proj2 (steps_app E g q a SO)).
  - intros d a [[-> X]|[-> X]]; [left|right]; (split; [reflexivity|]); rewrite <- app_assoc, is_given_or, X; apply orb_true_r.
  - exact HQ.
  - destruct (run_then E _ _ q lq bad k2 (positionals c) n n' (sub_in_tables c) RQ C2 O2 (positionals_stage c) PQ) as (k & CK & H).
    destruct (H (S (List.length k)) [] false (Nat.lt_succ_diag_r _)) as (f' & ps' & ws' & ex' & _ & LT & L). destruct f' as [|f']; [lia|].
    unfold parse_known. rewrite CK, L, SL. reflexivity.
Qed.
Theorem line_wrong_files g lg c name q lq : run main_set g lg -> files g = [] -> In name (sub_names c) -> line (sub_set c) q lq -> in_order E g -> in_order E q ->
  ~ (file_count c (zlen (files q)) /\ placed c q) -> forall s, command_line E (lg ++ name :: lq) s = (s, Raise (SystemExit 2)).
Proof.
  intros RG FG N LQ OG OQ NF s. destruct (line_main c q lq LQ) as [m M]. destruct (order_perform g OG) as (n & PG & HG).
  destruct (main_complete E g lg name lq m ns0 n RG FG (sub_plainly name c N) M PG) as (k & CK & LK).
  destruct (perform_good E q [] g n HG (sub_in_order E g q c (line_only _ _ _ LQ) OG OQ)) as (n' & PQ & HQ). rewrite app_nil_r in PQ. cbn [perform] in PQ.
  destruct (loop_total E _ _ (sub_in_tables c) (List.length lq) lq q (Nat.le_refl _) LQ) as (k2 & CK2 & H).
  destruct (H (S (List.length k2)) (positionals c) n n' [] false (positionals_stage c) (Nat.lt_succ_diag_r _) PQ) as (p & L & _ & OUT).
  unfold command_line, parse_args, parse_known. rewrite CK, (LK _ (Nat.lt_succ_diag_r _)). cbn [rbind p_left existsb p_words p_extras p_ns].
  rewrite (proj2 (sub_of_iff name c) N), CK2, L. cbn [rbind]. destruct (existsb _ (p_left p)) eqn:EO; [reflexivity|]. cbn [rbind orb].
  destruct OUT as [[_ X]|(ps' & W & ->)]; [rewrite X; reflexivity|]. exfalso. apply NF, walk_iff. exists ps'. auto.
Qed.
Theorem line_no_subcommand g lg : run main_set g lg -> files g = [] -> in_order E g -> forall s, command_line E lg s = (s, Raise (SystemExit 2)).
Proof.
  intros RG FG OG s. destruct (order_perform g OG) as (n & PG & HG). destruct (main_prefix g lg [] [] ns0 n RG FG eq_refl PG) as (k & C & H). rewrite app_nil_r in C.
  destruct (H _ (Nat.lt_succ_diag_r _)) as (f' & LT & L). destruct f' as [|f']; [lia|]. unfold command_line, parse_args, parse_known. rewrite C, L. reflexivity.
Qed.
Theorem line_unknown_subcommand g lg name l : run main_set g lg -> files g = [] -> in_order E g -> name = "--" \/ word main_set name -> (forall c, ~ In name (sub_names c)) ->
  forall s, command_line E (lg ++ name :: l) s = (s, Raise (SystemExit 2)).
Proof.
  intros RG FG OG W N s. assert (SN : sub_of name = None) by (destruct (sub_of name) as [c|] eqn:SO; [apply sub_of_iff in SO; destruct (N c SO)|reflexivity]).
  unfold command_line, parse_args. destruct (order_perform g OG) as (n & PG & HG). destruct W as [-> |W].
  - destruct (main_prefix g lg ("--" :: l) _ ns0 n RG FG eq_refl PG) as (k & C & H). destruct (H _ (Nat.lt_succ_diag_r _)) as (f' & LT & L). destruct f' as [|f']; [lia|].
    unfold parse_known at 1. rewrite C, L. cbn [loop]. fold (kw l). rewrite (no_option_dash [] l "--" : has_option (("--", KD) :: kw l) = false). destruct l; reflexivity.
  - pose proof (word_plainly _ _ name main_in_tables W) as P. unfold parse_known at 1. destruct (classify main_options (lg ++ name :: l)) as [k|] eqn:C; [|reflexivity].
    assert (exists m, classify main_options l = Some m) as [m M].
    { destruct (classify_app main_options (lg ++ [name]) l k) as [_ X]; [|rewrite <- app_assoc; exact C|exact X]. apply Forall_app. split; [|constructor; [exact (proj1 P)|constructor]].
      clear - RG. induction RG as [|a t q r W R IH]; [constructor|]. apply Forall_app. split; [|exact IH].
      destruct (opt_complete _ _ a t main_in_tables W) as [(w & -> & -> & WW)|(s & vs & d & o & x & -> & NS & FV & _)]; [constructor; [eapply word_dash; exact WW|constructor]|].
      constructor; [exact NS|]. eapply Forall_impl; [|exact FV]. intros v WV. eapply word_dash; exact WV. }
    destruct (main_complete E g lg name l m ns0 n RG FG P M PG) as (k' & CK & LK). rewrite C in CK. injection CK as <-. rewrite (LK _ (Nat.lt_succ_diag_r _)). cbn [rbind p_left existsb p_words p_extras p_ns]. rewrite SN. reflexivity.
Qed.
Theorem line_ambiguous l1 x l2 : ~ In "--" l1 -> x <> "--" -> ambiguous main_set x -> forall s, command_line E (l1 ++ x :: l2) s = (s, Raise (SystemExit 2)).
Proof. intros N NX A s. unfold command_line, parse_args, parse_known. rewrite (ambiguous_none _ _ l1 x l2 main_in_tables N NX A). reflexivity. Qed.
Theorem line_ambiguous_sub g lg c name l1 x l2 : run main_set g lg -> files g = [] -> in_order E g -> In name (sub_names c) -> ~ In "--" l1 -> x <> "--" -> ambiguous (sub_set c) x ->
  forall s, command_line E (lg ++ name :: l1 ++ x :: l2) s = (s, Raise (SystemExit 2)).
Proof.
  intros RG FG OG N NI NX A s. unfold command_line. destruct (classify main_options (l1 ++ x :: l2)) as [m|] eqn:M.
  - destruct (order_perform g OG) as (n & PG & HG). destruct (main_complete E g lg name _ m ns0 n RG FG (sub_plainly name c N) M PG) as (k & CK & LK).
    unfold parse_args, parse_known. rewrite CK, (LK _ (Nat.lt_succ_diag_r _)). cbn [rbind p_left existsb p_words p_extras p_ns]. rewrite (proj2 (sub_of_iff name c) N), (ambiguous_none _ _ l1 x l2 (sub_in_tables c) NI NX A). reflexivity.
  - unfold parse_args, parse_known. destruct (classify main_options (lg ++ name :: l1 ++ x :: l2)) as [k|] eqn:C; [|reflexivity]. exfalso.
    destruct (classify_app main_options (lg ++ [name]) (l1 ++ x :: l2) k) as [_ [m' X]]; [|rewrite <- app_assoc; exact C|congruence]. apply Forall_app. split; [|constructor; [exact (proj1 (sub_plainly name c N))|constructor]].
    clear - RG. induction RG as [|a t q r W R IH]; [constructor|]. apply Forall_app. split; [|exact IH].
    destruct (opt_complete _ _ a t main_in_tables W) as [(w & -> & -> & WW)|(s & vs & d & o & x & -> & NS & FV & _)]; [constructor; [eapply word_dash; exact WW|constructor]|].
    constructor; [exact NS|]. eapply Forall_impl; [|exact FV]. intros v WV. eapply word_dash; exact WV.
Qed.

(** ** How it may end *)
Definition endings : list exn := [SystemExit 0; SystemExit 1; SystemExit 2; IndexError; OverflowError].
Lemma act_endings d v n e : act E d v n = Raise e -> In e endings.
Proof.
  destruct n. intros H. assert (CS : forall v e, chunk_size_option v = Raise e -> In e endings).
  { intros v0 e0 X. destruct (size_outcome v0) as [[[z Z0] _]|(e1 & X1 & B & _)]; [congruence|]. assert (e1 = e0) by congruence. subst. unfold endings. cbn. destruct B as [[_ ->]|[(_ & _ & _ & ->)|(_ & _ & _ & ->)]]; tauto. }
  destruct d; cbn [act] in H; unfold endings; cbn [In];
    repeat match type of H with
    | Raise _ = Raise _ => injection H as <-; tauto
    | Ok _ = Raise _ => discriminate
    | (if ?b then _ else _) = _ => destruct b
    | rbind (int_value ?v) _ = _ => let X := fresh in destruct (int_value v) eqn:X; cbn [rbind] in H; [|apply int_value_raise in X as [-> _]]
    | rbind (chunk_size_option ?v) _ = _ => let X := fresh in destruct (chunk_size_option v) eqn:X; cbn [rbind] in H; [discriminate|apply CS in X; injection H as <-; exact X]
    | match check_valid_checksum ?v with _ => _ end = _ => destruct (check_valid_checksum v)
    end.
Qed.
Lemma actions_endings l n e : take_actions E l n = Raise e -> In e endings.
Proof.
  revert n. induction l as [|[d v] l IH]; intros n; cbn [take_actions]; [discriminate|]. destruct (act E d v n) eqn:A; cbn [rbind]; [apply IH|]. intros H. injection H as <-. eapply act_endings; exact A.
Qed.
Lemma next_shorter d r l r' : with_next d r = Some (l, r') -> (List.length r' <= List.length r)%nat.
Proof. intros H. apply next_sound in H as [(_ & v & -> & _)|(_ & -> & _)]; cbn; lia. Qed.
Lemma optional_shorter t a x r l r' ex : consume_optional t a x r = Some (l, r', ex) -> (List.length r' <= List.length r)%nat.
Proof.
  destruct a as [[d o]|]; cbn [consume_optional]; [|intros H; injection H as _ <- _; lia]. destruct x as [[eq e]|].
  - destruct (takes d); [intros H; injection H as _ <- _; lia|]. destruct (is_short o && negb eq); [|discriminate]. destruct (bundled t d e) as [[[a [d'|]] y]|]; [| |discriminate].
    + destruct (with_next d' r) as [[l' r0]|] eqn:W; [|discriminate]. intros H. injection H as _ <- _. eapply next_shorter; exact W.
    + intros H. injection H as _ <- _. lia.
  - destruct (with_next d r) as [[l' r0]|] eqn:W; [|discriminate]. intros H. injection H as _ <- _. eapply next_shorter; exact W.
Qed.
Lemma to_option_shape l : has_option l = true -> exists s a x r, to_option l = (s, KO a x) :: r /\ (List.length r < List.length l)%nat.
Proof.
  induction l as [|[s k] l IH]; [discriminate|]. destruct k as [| |a x]; cbn [to_option].
  - intros H. destruct (IH H) as (s' & a & x & r & EQ & LT). exists s', a, x, r. split; [exact EQ|]. cbn. lia.
  - intros H. destruct (IH H) as (s' & a & x & r & EQ & LT). exists s', a, x, r. split; [exact EQ|]. cbn. lia.
  - intros _. exists s, a, x, l. split; [reflexivity|]. cbn. lia.
Qed.
Lemma loop_endings t : forall f ps k n ws ex e, (List.length k < f)%nat -> loop E f t ps k n ws ex = Raise e -> In e endings.
Proof.
  induction f as [|f IH]; intros ps k n ws ex e LT; [lia|]. cbn [loop].
  assert (O : forall ps l ws ex, (exists s a x r, l = (s, KO a x) :: r /\ (List.length r < f)%nat) -> match l with
        | (_, KO a x) :: r =>
            match consume_optional t a x r with
            | None => Raise (SystemExit 2)
            | Some (acts, r', ex') => n' <~ take_actions E acts n ;; loop E f t ps r' n' ws (ex || ex')
            end
        | _ => Raise RuntimeError
        end = Raise e -> In e endings).
  { intros ps0 l ws0 ex0 (s & a & x & r & -> & LR). destruct (consume_optional t a x r) as [[[ac r'] ex']|] eqn:CO; [|intros H; injection H as <-; unfold endings; cbn; tauto].
    destruct (take_actions E ac n) eqn:TA; cbn [rbind]; [apply IH; apply optional_shorter in CO; lia|]. intros H. injection H as <-. eapply actions_endings; exact TA. }
  destruct (has_option k) eqn:HO; [|discriminate]. destruct (to_option_shape k HO) as (s & a & x & r & TO & LR).
  destruct k as [|[s0 [| |a0 x0]] r0]; [discriminate| | |apply (O ps ((s0, KO a0 x0) :: r0) ws ex); eexists _, _, _, _; split; [reflexivity|cbn in LT; lia]].
  all: destruct (consume_positionals ps _) as [[w ps'] l']; destruct (_ <? _)%nat eqn:LL; [apply IH; apply Nat.ltb_lt in LL; lia|apply O; exists s, a, x, r; split; [exact TO|lia]].
Qed.
Lemma known_endings t ps l n e : parse_known E t ps l n = Raise e -> In e endings.
Proof.
  unfold parse_known. destruct (classify t l) as [k|]; [|intros H; injection H as <-; unfold endings; cbn; tauto]. destruct (loop E _ t ps k n [] false) as [p|] eqn:L; cbn [rbind].
  - destruct (existsb _ _); [|discriminate]. intros H. injection H as <-. unfold endings. cbn. tauto.
  - intros H. injection H as <-. eapply loop_endings; [|exact L]. lia.
Qed.
Theorem line_endings l e : parse_args E l = Raise e -> In e endings.
Proof.
  unfold parse_args. destruct (parse_known E main_options [Rest] l ns0) as [p|] eqn:PK; cbn [rbind]; [|intros H; injection H as <-; eapply known_endings; exact PK].
  assert (TW : In (SystemExit 2) endings) by (unfold endings; cbn; tauto).
  destruct (p_words p) as [|s r]; [destruct (p_extras p); [intros H; injection H as <-; exact TW|discriminate]|]. destruct (sub_of s) as [c|]; [|intros H; injection H as <-; exact TW].
  destruct (parse_known E (options_of c) (positionals c) r (p_ns p)) as [q|] eqn:PK2; cbn [rbind]; [|intros H; injection H as <-; eapply known_endings; exact PK2].
  destruct (p_extras p || p_extras q); [intros H; injection H as <-; exact TW|]. destruct c, (p_words q) as [|? [|? [|? ?]]]; cbn [command_of]; intros H; try discriminate; injection H as <-; exact TW.
Qed.
End WithEnv.
