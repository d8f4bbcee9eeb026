(** Proofs about every command line. *)
From Verif Require Import Base PyVal Checksums Headers Pretty Args FileIO Append Files Cli Parser Argparse Spec BaseLemmas PrettyProofs OptionProofs ParserSpec ParserProofs ParserMain ArgSpec ArgProofs ArgOptions ArgLoop.
From Coq Require Import ZifyBool ZifyNat.
Ltac Zify.zify_post_hook ::= Z.div_mod_to_equations.
Local Open Scope string_scope.
Local Open Scope list_scope.

(** ** Files *)
Lemma walk_none q ps : walk [] q = Some ps <-> files q = [] /\ ps = [].
Proof.
  revert ps. induction q as [|[d s v|w] q IH]; intros ps; cbn [walk files].
  - split; [intros H; injection H as <-; auto|intros [_ ->]; reflexivity].
  - apply IH.
  - split; [discriminate|intros [H _]; discriminate].
Qed.
Lemma walk_one q ps : walk [One] q = Some ps <-> files q = [] /\ ps = [One] \/ (exists w, files q = [w]) /\ ps = [].
Proof.
  revert ps. induction q as [|[d s v|w] q IH]; intros ps; cbn [walk files].
  - split; [intros H; injection H as <-; auto|intros [[_ ->]|[[w H] _]]; [reflexivity|discriminate]].
  - apply IH.
  - rewrite walk_none. split; [intros [-> ->]; right; eauto|]. intros [[H _]|[[x H] ->]]; [discriminate|]. injection H as _ H. auto.
Qed.
Lemma walk_two q ps : walk [One; One] q = Some ps <-> files q = [] /\ ps = [One; One] \/ (exists w, files q = [w]) /\ ps = [One] \/ (exists w x, files q = [w; x]) /\ ps = [].
Proof.
  revert ps. induction q as [|[d s v|w] q IH]; intros ps; cbn [walk files].
  - split; [intros H; injection H as <-; auto|intros [[_ ->]|[[[w H] _]|[[w [x H]] _]]]; [reflexivity|discriminate|discriminate]].
  - apply IH.
  - rewrite walk_one. split.
    + intros [[-> ->]|[[x ->] ->]]; [right; left; eauto|right; right; eauto].
    + intros [[H _]|[[[x H] ->]|[[x [y H]] ->]]]; [discriminate| |]; injection H as _ H; [auto|right; eauto].
Qed.
Lemma placed_given c d s v q : (placed c (Given d s v :: q) <-> placed c q).
Proof.
  destruct c; cbn [placed]; try reflexivity; (split; [intros (l1 & w & l3 & E & F1 & F3); destruct l1 as [|[d1 s1 v1|w1] l1];
    [destruct w as [|w0 w]; [cbn in E; exists [], [], q; subst l3; auto|discriminate]|injection E as _ _ _ ->; exists l1, w, l3; auto|discriminate]
    |intros (l1 & w & l3 & -> & F1 & F3); exists (Given d s v :: l1), w, l3; auto]).
Qed.
Lemma walk_maybe c q ps : optional_second c = true -> walk [One; Maybe] q = Some ps <-> files q = [] /\ ps = [One; Maybe] \/ (file_count c (zlen (files q)) /\ placed c q) /\ ps = [].
Proof.
  intros O. assert (FC : forall k, file_count c k <-> k = 1 \/ k = 2) by (destruct c; try discriminate; reflexivity).
  assert (PL : forall l, placed c l <-> exists l1 w l3, l = l1 ++ map File w ++ l3 /\ files l1 = [] /\ files l3 = []) by (destruct c; try discriminate; reflexivity).
  revert ps. induction q as [|[d s v|w] q IH]; intros ps.
  - cbn [walk files]. split; [intros H; injection H as <-; auto|]. intros [[_ ->]|[[H _] _]]; [reflexivity|]. apply FC in H. cbn in H. lia.
  - rewrite placed_given. cbn [walk files]. apply IH.
  - cbn [walk files]. destruct q as [|[d s v|x] q]; cbn [walk files].
    + split; [intros H; injection H as <-; right; split; [|reflexivity]; split; [apply FC; auto|apply PL; exists [], [w], []; auto]|]. intros [[H _]|[_ ->]]; [discriminate|reflexivity].
    + rewrite walk_none. split.
      * intros [F ->]. rewrite F. right. split; [|reflexivity]. split; [apply FC; auto|]. apply PL. exists [], [w], (Given d s v :: q). auto.
      * intros [[H _]|[[K P] ->]]; [discriminate|]. split; [|reflexivity]. apply PL in P as (l1 & u & l3 & E & F1 & F3). destruct l1 as [|[? ? ?|?] l1]; [|discriminate|discriminate].
        destruct u as [|u0 [|u1 u]]; [cbn in E; subst l3; discriminate| |discriminate]. injection E as _ <-. exact F3.
    + rewrite walk_none. split.
      * intros [F ->]. rewrite F. right. split; [|reflexivity]. split; [apply FC; auto|]. apply PL. exists [], [w; x], q. auto.
      * intros [[H _]|[[K P] ->]]; [discriminate|]. split; [|reflexivity]. apply FC in K. unfold zlen in K. cbn [List.length] in K. destruct (files q); [reflexivity|]. cbn [List.length] in K. lia.
Qed.
Lemma walk_iff c q : (exists ps, walk (positionals c) q = Some ps /\ existsb (fun a => match a with One => true | _ => false end) ps = false) <-> file_count c (zlen (files q)) /\ placed c q.
Proof.
  split.
  - intros (ps & W & N). destruct c; cbn [positionals] in W.
    + apply (walk_maybe SubCompress q ps eq_refl) in W as [[_ ->]|[W _]]; [discriminate|exact W].
    + apply (walk_maybe SubDecompress q ps eq_refl) in W as [[_ ->]|[W _]]; [discriminate|exact W].
    + apply walk_two in W as [[_ ->]|[[_ ->]|[(w & x & ->) _]]]; [discriminate|discriminate|split; [reflexivity|exact I]].
    + apply walk_one in W as [[_ ->]|[[w ->] _]]; [discriminate|]. split; [reflexivity|exact I].
  - intros [FC P]. exists []. split; [|reflexivity]. destruct c; cbn [positionals].
    + apply (walk_maybe SubCompress q [] eq_refl). auto.
    + apply (walk_maybe SubDecompress q [] eq_refl). auto.
    + apply walk_two. right. right. split; [|reflexivity]. cbn in FC. unfold zlen in FC. destruct (files q) as [|a [|b [|e l]]]; cbn [List.length] in FC; try lia. eauto.
    + apply walk_one. right. split; [|reflexivity]. cbn in FC. unfold zlen in FC. destruct (files q) as [|a [|b l]]; cbn [List.length] in FC; try lia. eauto.
Qed.
Lemma positionals_stage c : stage (positionals c).
Proof. destruct c; unfold stage; cbn; auto. Qed.

(** ** The options allowed *)
Lemma bundle_only set q s po : bundle set q s po -> only set q /\ forall d, po = Some d -> In d set.
Proof.
  induction 1 as [d c D S V|d c q s p D S V B [IH1 IH2]|d c x v D S V X|d c v D S V|d c D S V]; split; try discriminate.
  - intros d' s' v' [H|[]]. congruence.
  - intros d' s' v' [H|H]; [congruence|]. eapply IH1; exact H.
  - exact IH2.
  - intros d' s' v' [H|[]]. congruence.
  - intros d' s' v' [H|[]]. congruence.
  - intros d' s' v' [].
  - intros d' H. congruence.
Qed.
Lemma only_app set a b : only set a -> only set b -> only set (a ++ b).
Proof. intros A B d s v I. apply in_app_or in I as [I|I]; [apply (A d s v I)|apply (B d s v I)]. Qed.
Lemma only_single set d s v : In d set -> only set [Given d s v].
Proof. intros D d' s' v' [H|[]]. congruence. Qed.
Lemma only_file set w : only set (map File w).
Proof. intros d s v I. apply in_map_iff in I as (x & H & _). discriminate. Qed.
Lemma written_only set a t : written set a t -> only set a.
Proof.
  intros [w W|q s B|q s d n v B W|p d L V|p d v L V W|p d v L V]; try (apply only_single; exact (proj1 L)).
  - apply (only_file set [w]).
  - apply (bundle_only _ _ _ _ B).
  - apply only_app; [|apply only_single]; apply (bundle_only _ _ _ _ B). reflexivity.
Qed.
Lemma line_only set q l : line set q l -> only set q.
Proof. induction 1; [intros ? ? ? []|apply only_app; [eapply written_only; eassumption|assumption]|apply only_file]. Qed.
Lemma run_only set q l : run set q l -> only set q.
Proof. induction 1; [intros ? ? ? []|apply only_app; [eapply written_only; eassumption|assumption]]. Qed.
Lemma run_line set q l : run set q l -> line set q l.
Proof. induction 1; [constructor|apply l_cons; assumption]. Qed.

(** ** What the main parser makes of the arguments of a subcommand *)
Lemma not_vague_some s : s <> "--" -> ~ vague s -> exists k, parse_optional main_options s = Some k.
Proof. intros _ V. destruct (parse_optional main_options s) eqn:P; [eauto|]. apply vague_iff in P. contradiction. Qed.
Lemma written_not_vague c a t : written (sub_set c) a t -> Forall (fun s => s <> "--" /\ ~ vague s) t.
Proof.
  assert (BV : forall q s po, bundle (sub_set c) q s po -> String "-" s <> "--" /\ ~ vague (String "-" s)).
  { intros q s po B. destruct (bundle_run _ _ q s po (sub_in_tables c) B) as (d & x & e & -> & _ & S & _). destruct (short_char d x S) as (X & _). split; [congruence|].
    intros V. destruct (vague_dashes _ V) as (p & y & _ & [r E] & _). injection E as -> _. congruence. }
  assert (WV : forall w, word (sub_set c) w -> w <> "--" /\ ~ vague w) by (intros w W; split; [eapply word_dash; exact W|eapply word_not_vague; exact W]).
  assert (LV : forall p d s, long (sub_set c) p d -> s = p \/ (exists e, s = p ++ String "=" e)%string -> s <> "--" /\ ~ vague s).
  { intros p d s L B. pose proof (long_noeq _ _ _ L) as NE. pose proof (sub_not_vague c p d L) as NV. split.
    - destruct L as (_ & (x & r & ->) & _). destruct B as [-> |[e ->]]; discriminate.
    - intros (p' & BE & IN). apply NV. replace p with p'; [exact IN|]. apply (before_fun p' p s BE). split; assumption. }
  intros [w W|q s B|q s d n v B W|p d L V|p d v L V W|p d v L V]; repeat constructor; eauto; try (eapply WV; eassumption); try (eapply BV; eassumption); try (eapply LV; eauto).
Qed.
Lemma classify_known t l r m : Forall (fun s => s <> "--" /\ exists k, parse_optional t s = Some k) l -> classify t r = Some m -> exists m', classify t (l ++ r) = Some m'.
Proof.
  intros F C. induction F as [|s l [N [k K]] F [m' IH]]; [eauto|]. cbn [app]. rewrite (classify_cons t s _ N), K, IH. eauto.
Qed.
Lemma line_main c q l : line (sub_set c) q l -> exists m, classify main_options l = Some m.
Proof.
  induction 1 as [|a t q r W L [m IH]|w1 w2 F N]; [eexists; reflexivity| |].
  - apply (classify_known main_options t r m); [|exact IH]. eapply Forall_impl; [|eapply written_not_vague; exact W]. intros s [N V]. split; [exact N|]. apply not_vague_some; assumption.
  - apply (classify_known main_options w1 ("--" :: w2) (("--", KD) :: kw w2)); [|reflexivity]. eapply Forall_impl; [|exact F]. intros s W. split; [eapply word_dash; exact W|].
    apply not_vague_some; [eapply word_dash; exact W|eapply word_not_vague; exact W].
Qed.
Lemma classify_fst t l k : classify t l = Some k -> map fst k = l.
Proof.
  revert k. induction l as [|s l IH]; intros k; [intros H; injection H as <-; reflexivity|]. cbn [classify]. destruct (String.eqb s "--").
  - intros H. injection H as <-. cbn [map fst]. fold (kw l). rewrite kw_fst. reflexivity.
  - destruct (parse_optional t s); [|discriminate]. destruct (classify t l) as [q|]; [|discriminate]. intros H. injection H as <-. cbn [map fst]. rewrite (IH q eq_refl). reflexivity.
Qed.
Lemma sub_plainly name c : In name (sub_names c) -> plainly main_options name.
Proof.
  intros N. destruct c; cbn [sub_names In] in N; ins; subst name; (split; [discriminate|reflexivity]).
Qed.

Section WithEnv.
Variable E : Env.
Lemma main_sound : forall f l k n p s r, classify main_options l = Some k -> loop E f main_options [Rest] k n [] false = Ok p -> p_extras p = false -> p_words p = s :: r -> s <> "--" ->
  exists g lg, l = lg ++ s :: r /\ run main_set g lg /\ files g = [] /\ perform E (map to_item g) n = Done (p_ns p) /\ exists m, classify main_options r = Some m.
Proof.
  induction f as [|f IH]; intros l k n p s r C H X W ND; [discriminate|]. cbn [loop] in H. destruct (split_words _ l k C) as (w & l' & k' & EL & EK & F & C' & D).
  destruct w as [|w0 w].
  - cbn [app kw map] in EL, EK. subst l' k'. destruct D as [[-> ->]|[(w2 & -> & ->)|(s0 & r0 & a & x & k'' & -> & NS & PO & -> & CR)]].
    + cbn in H. injection H as <-. discriminate.
    + rewrite (no_option_dash [] w2 "--" : has_option (("--", KD) :: kw w2) = false) in H. unfold finish in H. destruct w2 as [|x w2]; cbn in H; injection H as <-; cbn in *; [discriminate|]. congruence.
    + change (has_option ((s0, KO a x) :: k'')) with true in H. cbn iota in H. destruct (consume_optional main_options a x k'') as [[[ac r'] ex']|] eqn:CO; [|discriminate]. cbn [orb] in H.
      destruct (take_actions E ac n) as [n'|] eqn:TA; cbn [rbind] in H; [|discriminate]. destruct ex'; [apply loop_extras in H; congruence|].
      destruct (opt_sound _ _ s0 a x k'' ac r' main_in_tables NS PO CO) as (q0 & vs & -> & AQ & FQ & NE & WR).
      assert (exists l1, r0 = vs ++ l1 /\ Forall (plainly main_options) vs /\ classify main_options l1 = Some r') as (l1 & -> & FV & CL).
      { clear - CR. revert r0 CR. induction vs as [|v vs IHv]; intros r0 CR; [exists r0; auto|]. destruct r0 as [|v' r0]; [discriminate|]. cbn [kw map app] in CR. fold (kw vs) in CR.
        cbn [classify] in CR. destruct (String.eqb_spec v' "--"); [discriminate|]. destruct (parse_optional main_options v') eqn:PV; [|discriminate].
        destruct (classify main_options r0) as [q|] eqn:CQ; [|discriminate]. injection CR as -> -> ->. destruct (IHv r0 CQ) as (l1 & -> & FV & CL). exists l1. split; [reflexivity|]. split; [|exact CL]. constructor; [split; assumption|exact FV]. }
      destruct (IH l1 r' n' p s r CL H X W ND) as (g & lg & -> & RG & FG & PF & M). exists (q0 ++ g), ((s0 :: vs) ++ lg). split; [rewrite <- app_assoc; reflexivity|].
      split; [apply r_cons; [|exact RG]; apply WR; eapply Forall_impl; [|exact FV]; intros v PV; apply (word_of _ _ v main_in_tables PV); destruct PV as [_ PV]; congruence|].
      split; [rewrite files_app, FQ; exact FG|]. split; [rewrite perform_app, (perform_acts E q0), AQ, TA; exact PF|exact M].
  - assert (CP : consume_positionals [Rest] k = (l, [], [])).
    { assert (CO : consume_one Rest k = Some (map fst k, [])) by (rewrite EK; reflexivity). cbn [consume_positionals]. rewrite CO, (classify_fst _ _ _ C), app_nil_r. reflexivity. }
    assert (P : p = mkP n l [] false).
    { destruct (has_option k) eqn:HO.
      - rewrite EK in H at 1. cbn [kw map app] in H. rewrite CP in H. rewrite EK in H. cbn [kw map app List.length] in H. replace (0 <? S _)%nat with true in H by reflexivity. destruct f; [discriminate|]. cbn in H. rewrite app_nil_r in H. congruence.
      - unfold finish in H. rewrite CP in H. cbn in H. congruence. }
    subst p. cbn [p_words p_ns] in *. subst l. exists [], []. split; [reflexivity|]. split; [constructor|]. split; [reflexivity|]. split; [reflexivity|].
    injection EL as -> EL. inversion F as [|? ? [NW PW] F']. subst. rewrite (classify_cons _ _ _ NW), PW in C. destruct (classify main_options (w ++ l')) as [m|] eqn:CM; [|discriminate]. eauto.
Qed.
Lemma main_complete g lg s r m n n' : run main_set g lg -> files g = [] -> plainly main_options s -> classify main_options r = Some m -> perform E (map to_item g) n = Done n' ->
  exists k, classify main_options (lg ++ s :: r) = Some k /\ forall f, (List.length k < f)%nat -> loop E f main_options [Rest] k n [] false = Ok (mkP n' (s :: r) [] false).
Proof.
  intros RG FG [NS PS] CR. revert n. induction RG as [|a t q l WA RG IH]; intros n P.
  - cbn [app]. cbn in P. injection P as <-. assert (C : classify main_options (s :: r) = Some ((s, KA) :: m)) by (rewrite (classify_cons _ _ _ NS), PS, CR; reflexivity).
    exists ((s, KA) :: m). split; [exact C|]. intros f LT. destruct f as [|f]; [lia|]. cbn [loop].
    assert (CP : consume_positionals [Rest] ((s, KA) :: m) = (s :: r, [], [])) by (cbn [consume_positionals consume_one dashes]; rewrite (classify_fst _ _ _ C), app_nil_r; reflexivity).
    destruct (has_option ((s, KA) :: m)).
    + rewrite CP. replace (List.length [] <? List.length ((s, KA) :: m))%nat with true by reflexivity. destruct f; [cbn in LT; lia|]. cbn [loop has_option existsb finish consume_positionals app orb]. rewrite app_nil_r. reflexivity.
    + unfold finish. rewrite CP. reflexivity.
  - rewrite files_app in FG. apply app_eq_nil in FG as [FA FQ]. destruct (opt_complete _ _ a t main_in_tables WA) as [(w & -> & _)|(s0 & vs & d & o & x & -> & N0 & FV & _ & NA & PO & CO)]; [discriminate|].
    rewrite perform_app, (perform_acts E a) in P. destruct (take_actions E (acts a) n) as [n1|] eqn:TA; [|discriminate]. destruct (IH FQ n1 P) as (k & C & H).
    exists ((s0, KO (Some (d, o)) x) :: kw vs ++ k). split.
    + cbn [app]. rewrite <- app_assoc, (classify_cons _ _ _ N0), PO, (classify_words _ vs _ (words_plainly _ _ vs main_in_tables FV)), C. reflexivity.
    + intros f LT. destruct f as [|f]; [lia|]. rewrite (loop_option E _ _ a s0 vs d o x k f [Rest] n [] false main_in_tables CO), TA. apply H. cbn [List.length] in LT. rewrite app_length in LT. lia.
Qed.

Theorem line_accepted g lg c name q lq : run main_set g lg -> files g = [] -> In name (sub_names c) -> line (sub_set c) q lq ->
  in_order E g -> in_order E q -> file_count c (zlen (files q)) -> placed c q ->
  exists x, stands_for c g q x /\ forall s, command_line E (lg ++ name :: lq) s = main E x s.
Proof.
  intros RG FG N LQ OG OQ FC P. destruct (line_main c q lq LQ) as [m M].
  destruct (perform_good E g [] [] ns0 holds0 (order_steps E g OG)) as (n & PG & HG). rewrite app_nil_r in PG. cbn [perform app] in PG, HG.
  destruct (perform_good E q [] g n HG (sub_in_order E g q c (line_only _ _ _ LQ) OG OQ)) as (n' & PQ & HQ). rewrite app_nil_r in PQ. cbn [perform] in PQ.
  destruct (main_complete g lg name lq m ns0 n RG FG (sub_plainly name c N) M PG) as (k & CK & LK).
  destruct (loop_complete E _ _ (sub_in_tables c) lq q LQ) as (k2 & CK2 & LK2).
  destruct (proj2 (walk_iff c q) (conj FC P)) as (ps & W & NO).
  destruct (command_stands c g q n' (run_only _ _ _ RG) (line_only _ _ _ LQ) HQ FC) as (x & CO & ST). exists x. split; [exact ST|]. intros s.
  unfold command_line, parse_args, parse_known. rewrite CK, (LK _ (Nat.lt_succ_diag_r _)). cbn [rbind p_left existsb p_words p_extras p_ns].
  rewrite (proj2 (sub_of_iff name c) N), CK2. rewrite (LK2 _ (positionals c) n n' [] false ps (positionals_stage c) (Nat.lt_succ_diag_r _) PQ W).
  cbn [rbind p_left p_words p_extras p_ns orb app]. rewrite NO. cbn [rbind p_left p_words p_extras p_ns orb app]. rewrite CO. reflexivity.
Qed.
Theorem line_accepted_only l x : parse_args E l = Ok x -> x <> CmdNone ->
  exists g lg c name q lq, l = lg ++ name :: lq /\ run main_set g lg /\ files g = [] /\ In name (sub_names c) /\ line (sub_set c) q lq /\
    in_order E g /\ in_order E q /\ file_count c (zlen (files q)) /\ placed c q /\ stands_for c g q x.
Proof.
  unfold parse_args. intros H NX. destruct (parse_known E main_options [Rest] l ns0) as [p|] eqn:PK; cbn [rbind] in H; [|discriminate].
  unfold parse_known in PK. destruct (classify main_options l) as [k|] eqn:CK; [|discriminate]. destruct (loop E _ main_options [Rest] k ns0 [] false) as [p0|] eqn:LK; cbn [rbind] in PK; [|discriminate].
  assert (p0 = p) by (destruct (existsb _ _); congruence). subst p0. clear PK.
  destruct (p_words p) as [|name r] eqn:PW; [destruct (p_extras p); congruence|]. destruct (sub_of name) as [c|] eqn:SO; [|discriminate].
  destruct (parse_known E (options_of c) (positionals c) r (p_ns p)) as [p2|] eqn:PK2; cbn [rbind] in H; [|discriminate].
  destruct (p_extras p || p_extras p2) eqn:EX; [discriminate|]. apply orb_false_iff in EX as [EX1 EX2].
  unfold parse_known in PK2. destruct (classify (options_of c) r) as [k2|] eqn:CK2; [|discriminate]. destruct (loop E _ (options_of c) _ k2 _ [] false) as [p0|] eqn:LK2; cbn [rbind] in PK2; [|discriminate].
  assert (p0 = p2 /\ existsb (fun a => match a with One => true | _ => false end) (p_left p2) = false) as [-> NO] by (destruct (existsb _ (p_left p0)) eqn:EO; [discriminate|]; injection PK2 as ->; auto).
  assert (ND : name <> "--") by (intros ->; discriminate).
  destruct (main_sound _ l k ns0 p name r CK LK EX1 PW ND) as (g & lg & -> & RG & FG & PG & [m M]).
  destruct (loop_sound E _ _ (sub_in_tables c) _ r k2 m (positionals c) (p_ns p) [] p2 CK2 M (positionals_stage c) LK2 EX2) as (q & LQ & PQ & WQ & KQ & _). cbn [app] in WQ.
  destruct (perform_inv E g [] ns0 _ holds0 PG) as [OG HG]. cbn [app] in HG. destruct (perform_inv E q g _ _ HG PQ) as [OQ HQ].
  destruct (proj1 (walk_iff c q)) as [FC P]; [exists (p_left p2); auto|]. apply sub_of_iff in SO.
  destruct (command_stands c g q (p_ns p2) (run_only _ _ _ RG) (line_only _ _ _ LQ) HQ FC) as (x2 & CO & ST). rewrite WQ in H. assert (x2 = x) by congruence. subst x2.
  exists g, lg, c, name, q, r. split; [reflexivity|]. split; [exact RG|]. split; [exact FG|]. split; [exact SO|]. split; [exact LQ|]. split; [apply steps_order; exact OG|].
  assert (OQ' : steps_ok E [] q).
  { intros a d s v b EQ2. destruct (OQ a d s v b EQ2) as [G C]. split; [exact G|]. cbn [app]. intros C'. apply C. destruct C' as [[-> C']|[-> C']]; [left|right]; (split; [reflexivity|]); rewrite is_given_or, C'; apply orb_true_r. }
  split; [apply steps_order; exact OQ'|]. auto.
Qed.
Theorem line_carried_out l s s' r : command_line E l s = (s', r) -> s' <> s \/ r = Ok tt ->
  exists g lg c name q lq x, l = lg ++ name :: lq /\ run main_set g lg /\ files g = [] /\ In name (sub_names c) /\ line (sub_set c) q lq /\
    in_order E g /\ in_order E q /\ file_count c (zlen (files q)) /\ placed c q /\ stands_for c g q x /\ main E x s = (s', r).
Proof.
  unfold command_line. destruct (parse_args E l) as [x|e] eqn:PA; intros H D; [|injection H as <- <-; destruct D; congruence].
  assert (NX : x <> CmdNone) by (intros ->; apply main_none_raise in H as [-> ->]; destruct D; congruence).
  destruct (line_accepted_only l x PA NX) as (g & lg & c & name & q & lq & A). exists g, lg, c, name, q, lq, x. tauto.
Qed.
End WithEnv.
