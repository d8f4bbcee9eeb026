(** Proofs about whole command lines of 'blpk'. *)
From Verif Require Import Base PyVal Checksums Headers Pretty Args FileIO Append Files Cli Parser Spec BaseLemmas Archive IOProofs Unprotected PrettyProofs OptionProofs Repack RepackProofs FilesProofs CliProofs ParserSpec ParserProofs.
From Coq Require Import ZifyBool ZifyNat.
Ltac Zify.zify_post_hook ::= Z.div_mod_to_equations.

Lemma known_all l : Forall known_arg l -> forallb known l = true.
Proof. intros H. apply forallb_forall. intros x I. apply known_iff. rewrite Forall_forall in H. auto. Qed.
Lemma words_map q : words (map to_item q) = files q.
Proof. induction q as [|[|] q IH]; cbn; [reflexivity|exact IH|rewrite IH; reflexivity]. Qed.
Lemma after_words_map w l : after_words (map to_item (map File w) ++ l) = after_words l.
Proof. induction w; [reflexivity|assumption]. Qed.
Lemma after_options_map a l : files a = [] -> after_options (map to_item a ++ l) = after_options l.
Proof. induction a as [|[|] a IH]; intros H; [reflexivity|exact (IH H)|discriminate]. Qed.
Lemma after_options_none l : files l = [] -> words (after_words (after_options (map to_item l))) = [].
Proof. intros H. rewrite <- (app_nil_r (map to_item l)), (after_options_map l [] H). reflexivity. Qed.
Lemma words_after l : files l = [] -> words (after_words (map to_item l)) = [].
Proof. destruct l as [|[|] l]; intros H; [reflexivity| |discriminate]. cbn [map to_item after_words words]. rewrite words_map. exact H. Qed.
Lemma together_placed c l : optional_second c = true -> (together (map to_item l) = true <-> placed c l).
Proof.
  intros O. assert (P : placed c l = exists l1 w l3, l = l1 ++ map File w ++ l3 /\ files l1 = [] /\ files l3 = []) by (destruct c; try discriminate; reflexivity).
  rewrite P. clear P O c. unfold together. split.
  - intros H. induction l as [|x l IH]; [exists [], [], []; auto|]. destruct x as [d s v|w].
    + cbn [map to_item after_options] in H. destruct (IH H) as (l1 & w & l3 & -> & F1 & F3). exists (Given d s v :: l1), w, l3. auto.
    + cbn [map to_item after_options after_words] in H. clear IH. exists []. revert w H. induction l as [|y l IH]; intros w H; [exists [w], []; auto|].
      destruct y as [d s v|w']; cbn [map to_item after_words words] in H.
      * rewrite words_map in H. exists [w], (Given d s v :: l). cbn [app map files]. destruct (files l); [auto|discriminate].
      * destruct (IH w' H) as (ws & l3 & EQ & F1 & F3). exists (w :: ws), l3. cbn [app map] in *. rewrite EQ. auto.
  - intros (l1 & w & l3 & -> & F1 & F3). rewrite !map_app, after_options_map by exact F1. destruct w as [|x w].
    + cbn [map app]. rewrite after_options_none by exact F3. reflexivity.
    + cbn [map to_item app after_options after_words]. rewrite after_words_map, words_after by exact F3. reflexivity.
Qed.

(** Options of one parser only. *)
Definition only (set : list dest) (q : list arg) : Prop := forall d s v, In (Given d s v) q -> In d set.
Lemma spelled_only set q l : spelling set q l -> only set q.
Proof.
  induction 1 as [|a la q r SA S IH]; intros d s v I; [destruct I|]. destruct I as [-> |I]; [exact (proj1 SA)|exact (IH d s v I)].
Qed.
Lemma no_given set q d : only set q -> ~ In d set -> last_given d q = None.
Proof.
  intros S N. induction q as [|a q IH]; [reflexivity|]. assert (S' : only set q) by (intros d' s v I; apply (S d' s v); right; exact I).
  destruct a as [d' s v|w]; cbn [last_given]; rewrite (IH S'); [|reflexivity].
  destruct (dest_eq d d') as [<-|]; [|reflexivity]. destruct N. apply (S d s v). left. reflexivity.
Qed.
Ltac not_in := cbn; intros HH; ins; discriminate.

Lemma command_stands c g q n : only main_set g -> only (sub_set c) q -> holds (g ++ q) n -> file_count c (zlen (files q)) ->
  exists x, command_of c n (files q) = Ok x /\ stands_for c g q x.
Proof.
  intros SG SQ [(H1 & H2 & H3 & H4 & H5 & H6 & H7) (H8 & H9 & H10 & H11 & H12)] FC. unfold is_given in *. rewrite !last_given_app in *.
  destruct c; cbn [file_count] in FC.
  - rewrite (no_given _ _ Force SQ) in H3 by not_in. rewrite (no_given _ _ Typesize SG) in H4 by not_in. rewrite (no_given _ _ Clevel SG) in H5 by not_in.
    rewrite (no_given _ _ NoShuffle SG) in H6 by not_in. rewrite (no_given _ _ Cname SG) in H7 by not_in. rewrite (no_given _ _ ChunkSize SG) in H8 by not_in.
    rewrite (no_given _ _ Checksum SG) in H9 by not_in. rewrite (no_given _ _ NoOffsets SG) in H10 by not_in. rewrite (no_given _ _ Metadata SG) in H11 by not_in.
    destruct (files q) as [|i [|o [|x l]]] eqn:FQ; rewrite ?zlen_cons, ?zlen_nil in FC; try (pose proof (zlen_nonneg l)); try lia; (eexists; split; [reflexivity|]);
      cbn [stands_for co_in co_out co_force co_typesize co_clevel co_shuffle co_cname co_chunk co_checksum co_offsets co_meta]; unfold is_given; rewrite FQ;
      (split; [first [left; split; reflexivity|right; exists o; split; reflexivity]|]).
    all: repeat match goal with |- _ /\ _ => split end.
    all: try exact H3; try (destruct (last_given Typesize q); exact H4); try (destruct (last_given Clevel q); exact H5); try (destruct (last_given NoShuffle q); exact H6);
      try (destruct (last_given Cname q); exact H7); try (destruct (last_given ChunkSize q); exact H8); try (destruct (last_given Checksum q); exact H9);
      try (destruct (last_given NoOffsets q); exact H10); try (destruct (last_given Metadata q); exact H11).
  - rewrite (no_given _ _ Force SQ) in H3 by not_in. rewrite (no_given _ _ NoCheck SG) in H12 by not_in.
    destruct (files q) as [|i [|o [|x l]]] eqn:FQ; rewrite ?zlen_cons, ?zlen_nil in FC; try (pose proof (zlen_nonneg l)); try lia; (eexists; split; [reflexivity|]);
      cbn [stands_for do_in do_out do_force do_no_check]; unfold is_given; rewrite FQ;
      (split; [first [left; split; reflexivity|right; exists o; split; reflexivity]|]).
    all: split; [exact H3|destruct (last_given NoCheck q); exact H12].
  - rewrite (no_given _ _ Typesize SG) in H4 by not_in. rewrite (no_given _ _ Clevel SG) in H5 by not_in.
    rewrite (no_given _ _ NoShuffle SG) in H6 by not_in. rewrite (no_given _ _ Cname SG) in H7 by not_in.
    rewrite (no_given _ _ Metadata SG) in H11 by not_in. rewrite (no_given _ _ NoCheck SG) in H12 by not_in.
    destruct (files q) as [|i [|o [|x l]]] eqn:FQ; rewrite ?zlen_cons, ?zlen_nil in FC; try (pose proof (zlen_nonneg l)); try lia. eexists. split; [reflexivity|].
    cbn [stands_for ao_orig ao_new ao_no_check ao_typesize ao_clevel ao_shuffle ao_cname ao_meta]. unfold is_given. rewrite FQ.
    repeat match goal with |- _ /\ _ => split end.
    all: try reflexivity; try (destruct (last_given Typesize q); exact H4); try (destruct (last_given Clevel q); exact H5); try (destruct (last_given NoShuffle q); exact H6);
      try (destruct (last_given Cname q); exact H7); try (destruct (last_given Metadata q); exact H11); try (destruct (last_given NoCheck q); exact H12).
  - destruct (files q) as [|i [|o l]] eqn:FQ; rewrite ?zlen_cons, ?zlen_nil in FC; try (pose proof (zlen_nonneg l)); try lia. eexists. split; [reflexivity|]. exact FQ.
Qed.
Lemma command_count c n w x : command_of c n w = Ok x -> file_count c (zlen w).
Proof. destruct c; destruct w as [|i [|o [|y l]]]; try discriminate; intros _; cbn; lia. Qed.
Lemma command_refused c n w : ~ file_count c (zlen w) -> command_of c n w = Raise (SystemExit 2).
Proof. intros H. destruct c; destruct w as [|i [|o [|y l]]]; try reflexivity; destruct H; cbn; lia. Qed.

Section Lines.
Variable E : Env.
Lemma steps_app p g q : steps_ok E p (g ++ q) -> steps_ok E p g /\ steps_ok E (p ++ g) q.
Proof.
  intros S. split; intros a d s v b EQ.
  - apply (S a d s v (b ++ q)). rewrite EQ, <- app_assoc. reflexivity.
  - rewrite <- app_assoc. apply (S (g ++ a) d s v b). rewrite EQ, <- app_assoc. reflexivity.
Qed.
(** The main parser, up to the subcommand. *)
Lemma parse_to_sub g lg c name l : spelling main_set g lg -> files g = [] -> In name (sub_names c) -> in_order E g -> Forall known_arg l ->
  exists n, holds g n /\ parse E (lg ++ name :: l) = parse_sub E c l n.
Proof.
  intros SG FG N O K. unfold parse. pose proof (sub_plain name c N) as P.
  rewrite (known_all (lg ++ name :: l)); [|apply Forall_app; split; [eapply spelled_known; exact SG|constructor; [left; exact P|exact K]]]. cbn [negb].
  rewrite (items_spelled true main_options main_set g lg (name :: l) main_tabled SG) by auto. apply is_word_iff in P.
  cbn [items]. rewrite (word_named _ _ _ main_tabled P), P. cbn [fst snd].
  destruct (perform_good E g [] [] ns0 holds0 (order_steps E g O)) as (n & -> & H). cbn [perform]. apply sub_of_iff in N. rewrite N. exists n. auto.
Qed.
Lemma sub_in_order g q c : only (sub_set c) q -> in_order E g -> in_order E q -> steps_ok E g q.
Proof.
  intros S G Q a d s v b EQ. split; [apply (proj1 Q d s v); rewrite EQ; apply in_elt|].
  assert (I : ~ In Verbose (sub_set c) /\ ~ In Debug (sub_set c)) by (destruct c; split; not_in). destruct I as [I1 I2].
  intros [[-> _]|[-> _]].
  - pose proof (no_given _ _ Verbose S I1) as N. pose proof (is_given_mid Verbose a s v b) as M. rewrite <- EQ in M. unfold is_given in M. rewrite N in M. discriminate.
  - pose proof (no_given _ _ Debug S I2) as N. pose proof (is_given_mid Debug a s v b) as M. rewrite <- EQ in M. unfold is_given in M. rewrite N in M. discriminate.
Qed.
Lemma optional_placed c i q : i = map to_item q -> placed c q -> optional_second c && negb (together i) = false.
Proof. intros -> P. destruct (optional_second c) eqn:O; [|reflexivity]. apply (together_placed c q O) in P. rewrite P. reflexivity. Qed.

Theorem accepted g lg c name q lq : spelling main_set g lg -> files g = [] -> In name (sub_names c) -> spelling (sub_set c) q lq ->
  in_order E g -> in_order E q -> file_count c (zlen (files q)) -> placed c q ->
  exists x, stands_for c g q x /\ forall s, blpk E (lg ++ name :: lq) s = Some (main E x s).
Proof.
  intros SG FG N SQ OG OQ FC P. destruct (parse_to_sub g lg c name lq SG FG N OG (spelled_known _ _ _ SQ)) as (n & H & PE).
  unfold blpk. rewrite PE. unfold parse_sub. pose proof (items_spelled false (options_of c) (sub_set c) q lq [] (sub_tabled c) SQ ltac:(discriminate)) as IT.
  rewrite app_nil_r in IT. rewrite IT. cbn [items fst snd]. destruct (perform_good E q [] g n H (sub_in_order g q c (spelled_only _ _ _ SQ) OG OQ)) as (n' & PF & H'). rewrite PF. cbn [perform].
  rewrite app_nil_r, words_map, (optional_placed c _ q eq_refl P). destruct (command_stands c g q n' (spelled_only _ _ _ SG) (spelled_only _ _ _ SQ) H' FC) as (x & CO & ST). rewrite CO. exists x. split; [exact ST|]. reflexivity.
Qed.
Theorem wrong_files g lg c name q lq : spelling main_set g lg -> files g = [] -> In name (sub_names c) -> spelling (sub_set c) q lq ->
  in_order E g -> in_order E q -> ~ file_count c (zlen (files q)) -> placed c q ->
  forall s, blpk E (lg ++ name :: lq) s = Some (s, Raise (SystemExit 2)).
Proof.
  intros SG FG N SQ OG OQ FC P s. destruct (parse_to_sub g lg c name lq SG FG N OG (spelled_known _ _ _ SQ)) as (n & H & PE).
  unfold blpk. rewrite PE. unfold parse_sub. pose proof (items_spelled false (options_of c) (sub_set c) q lq [] (sub_tabled c) SQ ltac:(discriminate)) as IT.
  rewrite app_nil_r in IT. rewrite IT. cbn [items fst snd]. destruct (perform_good E q [] g n H (sub_in_order g q c (spelled_only _ _ _ SQ) OG OQ)) as (n' & PF & H'). rewrite PF. cbn [perform].
  rewrite app_nil_r, words_map, (optional_placed c _ q eq_refl P), (command_refused c n' _ FC). reflexivity.
Qed.
Theorem refused_sub g lg c name q lq bad e : spelling main_set g lg -> files g = [] -> In name (sub_names c) -> spelling (sub_set c) q lq ->
  in_order E g -> in_order E q -> refused E (sub_set c) q bad e -> Forall known_arg bad ->
  forall s, blpk E (lg ++ name :: lq ++ bad) s = Some (s, Raise e).
Proof.
  intros SG FG N SQ OG OQ R K s. destruct (parse_to_sub g lg c name (lq ++ bad) SG FG N OG) as (n & H & PE); [apply Forall_app; split; [eapply spelled_known; exact SQ|exact K]|].
  unfold blpk. rewrite PE. unfold parse_sub.
  assert (R' : refused E (sub_set c) (g ++ q) bad e).
  { destruct R as (d & nm & r & I & NM & EQ & R). exists d, nm, r. split; [exact I|]. split; [exact NM|]. split; [exact EQ|].
    destruct R as [R|[R|[R|[[[-> C]|[-> C]] ->]]]]; [auto|auto|auto| |]; right; right; right; (split; [|reflexivity]); [left|right]; (split; [reflexivity|]); rewrite is_given_or, C; apply orb_true_r. }
  rewrite (perform_refused E (sub_set c) (options_of c) false q lq bad e g n (sub_tabled c) SQ ltac:(discriminate) H (sub_in_order g q c (spelled_only _ _ _ SQ) OG OQ) R'). reflexivity.
Qed.
Theorem refused_main g lg bad e : spelling main_set g lg -> files g = [] -> in_order E g -> refused E main_set g bad e -> Forall known_arg bad ->
  forall s, blpk E (lg ++ bad) s = Some (s, Raise e).
Proof.
  intros SG FG OG R K s. unfold blpk, parse. rewrite (known_all (lg ++ bad)); [|apply Forall_app; split; [eapply spelled_known; exact SG|exact K]]. cbn [negb].
  pose proof (perform_refused E main_set main_options true g lg bad e [] ns0 main_tabled SG (fun _ => FG) holds0 (order_steps E g OG) R) as P.
  destruct (items true main_options (lg ++ bad)) as [i rest]. cbn [fst] in P. rewrite P. reflexivity.
Qed.
Theorem no_subcommand g lg : spelling main_set g lg -> files g = [] -> in_order E g -> forall s, blpk E lg s = Some (s, Raise (SystemExit 2)).
Proof.
  intros SG FG OG s. unfold blpk, parse. rewrite (known_all lg (spelled_known _ _ _ SG)). cbn [negb].
  pose proof (items_spelled true main_options main_set g lg [] main_tabled SG (fun _ => FG)) as IT. rewrite app_nil_r in IT. rewrite IT. cbn [items fst snd].
  destruct (perform_good E g [] [] ns0 holds0 (order_steps E g OG)) as (n & -> & H). reflexivity.
Qed.
Theorem unknown_subcommand g lg name l : spelling main_set g lg -> files g = [] -> in_order E g -> plain name -> (forall c, ~ In name (sub_names c)) -> Forall known_arg l ->
  forall s, blpk E (lg ++ name :: l) s = Some (s, Raise (SystemExit 2)).
Proof.
  intros SG FG OG P N K s. unfold blpk, parse. rewrite (known_all (lg ++ name :: l)); [|apply Forall_app; split; [eapply spelled_known; exact SG|constructor; [left; exact P|exact K]]]. cbn [negb].
  rewrite (items_spelled true main_options main_set g lg (name :: l) main_tabled SG (fun _ => FG)). apply is_word_iff in P.
  cbn [items]. rewrite (word_named _ _ _ main_tabled P), P. cbn [fst snd].
  destruct (perform_good E g [] [] ns0 holds0 (order_steps E g OG)) as (n & -> & H). cbn [perform].
  destruct (sub_of name) as [c|] eqn:Q; [apply sub_of_iff in Q; destruct (N c Q)|]. reflexivity.
Qed.

(** What is carried out is a command line in order. *)
Theorem accepted_only l x : parse E l = Done x -> x <> CmdNone ->
  exists g lg c name q lq, l = lg ++ name :: lq /\ spelling main_set g lg /\ files g = [] /\ In name (sub_names c) /\ spelling (sub_set c) q lq /\
    in_order E g /\ in_order E q /\ file_count c (zlen (files q)) /\ placed c q /\ stands_for c g q x.
Proof.
  unfold parse. destruct (forallb known l); cbn [negb]; [|discriminate]. destruct (items true main_options l) as [i rest] eqn:IT.
  destruct (perform E i ns0) as [n| |] eqn:PF; [|discriminate|discriminate].
  destruct (items_inv true main_options main_set main_tabled (List.length l) l (Nat.le_refl _)) as (g & lg & SG & MG & EQ & FG & _); [rewrite IT; eapply perform_clean; exact PF|].
  rewrite IT in MG, EQ, FG. cbn [fst snd] in *. destruct (FG eq_refl) as [FG' _]. rewrite <- MG in PF. destruct (perform_inv E g [] ns0 n holds0 PF) as [OG HG]. cbn [app] in HG.
  destruct rest as [|name r]; [intros H; injection H as <-; congruence|]. destruct (sub_of name) as [c|] eqn:SO; [|discriminate]. apply sub_of_iff in SO. unfold parse_sub.
  destruct (items false (options_of c) r) as [j y] eqn:IJ. cbn [fst]. destruct (perform E j n) as [n'| |] eqn:PJ; [|discriminate|discriminate].
  destruct (items_inv false (options_of c) (sub_set c) (sub_tabled c) (List.length r) r (Nat.le_refl _)) as (q & lq & SQ & MQ & EQQ & _ & RQ); [rewrite IJ; eapply perform_clean; exact PJ|].
  rewrite IJ in MQ, EQQ, RQ. cbn [fst snd] in *. rewrite (RQ eq_refl), app_nil_r in EQQ. subst r. rewrite <- MQ in *. destruct (perform_inv E q g n n' HG PJ) as [OQ HQ].
  destruct (optional_second c && negb (together (map to_item q))) eqn:OT; [discriminate|]. rewrite words_map.
  destruct (command_of c n' (files q)) as [x'|] eqn:CO; [|discriminate]. intros H _. injection H as <-. pose proof (command_count c n' _ _ CO) as FC.
  destruct (command_stands c g q n' (spelled_only _ _ _ SG) (spelled_only _ _ _ SQ) HQ FC) as (x2 & CO2 & ST). assert (x2 = x') by congruence. subst x2.
  exists g, lg, c, name, q, lq. split; [exact EQ|]. split; [exact SG|]. split; [exact FG'|]. split; [exact SO|]. split; [exact SQ|]. split; [apply steps_order; exact OG|].
  assert (OQ' : steps_ok E [] q).
  { intros a d s v b EQ2. destruct (OQ a d s v b EQ2) as [G C]. split; [exact G|]. cbn [app]. intros C'. apply C. destruct C' as [[-> C']|[-> C']]; [left|right]; (split; [reflexivity|]); rewrite is_given_or, C'; apply orb_true_r. }
  split; [apply steps_order; exact OQ'|]. split; [exact FC|]. split; [|exact ST].
  destruct (optional_second c) eqn:O; [|destruct c; try discriminate; exact I]. apply (together_placed c q O). cbn [andb] in OT. destruct (together (map to_item q)); [reflexivity|discriminate].
Qed.
Theorem stands_for_one c g q x x' : stands_for c g q x -> stands_for c g q x' -> x = x'.
Proof.
  assert (IO : forall o d z z', int_or o d z -> int_or o d z' -> z = z') by (intros [v|] d z z'; cbn; [apply is_int_fun|congruence]).
  assert (OT : forall l i o i' o', one_or_two l i o -> one_or_two l i' o' -> i = i' /\ o = o').
  { intros l i o i' o' [[A B]|(p & A & B)] [[A' B']|(p' & A' & B')]; rewrite A in A'; try discriminate; injection A'; intros; subst; auto. }
  destruct c, x; cbn [stands_for]; try tauto; destruct x'; try tauto.
  - destruct o, o0. cbn. intros (A1 & A2 & A3 & A4 & A5 & A6 & A7 & A8 & A9 & A10) (B1 & B2 & B3 & B4 & B5 & B6 & B7 & B8 & B9 & B10).
    destruct (OT _ _ _ _ _ A1 B1) as [-> ->]. rewrite (IO _ _ _ _ A3 B3), (IO _ _ _ _ A4 B4). congruence.
  - destruct o, o0. cbn. intros (A1 & A2 & A3) (B1 & B2 & B3). destruct (OT _ _ _ _ _ A1 B1) as [-> ->]. congruence.
  - destruct o, o0. cbn. intros (A1 & A2 & A3 & A4 & A5 & A6 & A7) (B1 & B2 & B3 & B4 & B5 & B6 & B7). rewrite A1 in B1. injection B1 as -> ->.
    rewrite (IO _ _ _ _ A3 B3), (IO _ _ _ _ A4 B4). congruence.
  - intros A B. congruence.
Qed.
(** Nothing but what parse refuses or main does happens to the files. *)
Theorem blpk_inv l s s' r : blpk E l s = Some (s', r) -> (exists x, parse E l = Done x /\ main E x s = (s', r)) \/ (s' = s /\ exists e, parse E l = Fail e /\ r = Raise e).
Proof. unfold blpk. destruct (parse E l); intros H; [|injection H as <- <-; eauto|discriminate]. left. injection H as H. eauto. Qed.
End Lines.

(** ** Some command lines *)
Lemma main_none_raise E s s' r : main E CmdNone s = (s', r) -> s' = s /\ r = Raise (SystemExit 2).
Proof. intros H. injection H as <- <-. auto. Qed.
Theorem carried_out E l s s' r : blpk E l s = Some (s', r) -> s' <> s \/ r = Ok tt ->
  exists g lg c name q lq x, l = lg ++ name :: lq /\ spelling main_set g lg /\ files g = [] /\ In name (sub_names c) /\ spelling (sub_set c) q lq /\
    in_order E g /\ in_order E q /\ file_count c (zlen (files q)) /\ placed c q /\ stands_for c g q x /\ main E x s = (s', r).
Proof.
  intros H D. apply blpk_inv in H as [(x & P & M)|(-> & e & _ & ->)]; [|destruct D; congruence].
  assert (N : x <> CmdNone). { intros ->. apply main_none_raise in M as [-> ->]. destruct D; congruence. }
  destruct (accepted_only E l x P N) as (g & lg & c & name & q & lq & A). exists g, lg, c, name, q, lq, x. tauto.
Qed.
Lemma spelled_files set ws : Forall plain ws -> spelling set (map File ws) ws.
Proof. induction 1 as [|w ws P _ IH]; [constructor|]. cbn [map]. apply (sp_cons set (File w) [w] (map File ws) ws); [split; [exact P|reflexivity]|exact IH]. Qed.
Lemma files_files ws : files (map File ws) = ws.
Proof. induction ws as [|w ws IH]; [reflexivity|]. cbn [map files]. rewrite IH. reflexivity. Qed.
Lemma order_files E ws : in_order E (map File ws).
Proof.
  assert (L : forall d, last_given d (map File ws) = None) by (intros d; induction ws; [reflexivity|assumption]).
  split; [intros d n v I; apply in_map_iff in I as (w & H & _); discriminate|]. unfold is_given. rewrite L. intros [H _]. discriminate.
Qed.
Lemma order_nil E : in_order E []. Proof. exact (order_files E []). Qed.
Lemma bare_line E c name ws : In name (sub_names c) -> Forall plain ws -> file_count c (zlen ws) ->
  exists x, stands_for c [] (map File ws) x /\ forall s, blpk E (name :: ws) s = Some (main E x s).
Proof.
  intros N P FC. apply (accepted E [] [] c name (map File ws) ws); try assumption.
  - constructor.
  - reflexivity.
  - apply spelled_files. exact P.
  - apply order_nil.
  - apply order_files.
  - rewrite files_files. exact FC.
  - destruct c; try exact I; exists [], ws, []; rewrite app_nil_r; auto.
Qed.
Theorem plain_compress E s f d : plain f -> e_cname_ok E "blosclz" = true -> s f = Some d -> s (f ++ ".blp")%string = None ->
  blpk E ["c"%string; f] s = Some
    (match pack_file_to_file E f (f ++ ".blp") (CSStr "1M") PNone (Some default_bargs) (Some default_bpargs) (Some default_margs) s with
     | (s', Ok _) => (s', Ok tt)
     | (s', Raise ChunkingException) => (s', Raise (SystemExit 1))
     | (s', Raise e) => (s', Raise e)
     end).
Proof.
  intros P CN SF SN. destruct (bare_line E SubCompress "c" [f]) as (x & ST & B); [cbn; tauto|constructor; [exact P|constructor]|cbn; lia|]. rewrite B. f_equal. clear B.
  assert (x = CmdCompress (mkCO f None false 8 7 true "blosclz" None "adler32" true None)) as -> by (apply (stands_for_one SubCompress [] [File f] _ _ ST); cbn; repeat split; left; auto).
  cbn [main]. unfold cli_compress, compress_out, EXTENSION. cbn [co_in co_out co_force co_typesize co_clevel co_shuffle co_cname co_chunk co_checksum co_offsets co_meta or_default].
  unfold bind at 1, lift at 1, blosc_choices. rewrite CN. cbn [andb Z.leb]. unfold MIN_CLEVEL, MAX_CLEVEL. replace ((0 <=? 7) && (7 <=? 9) && true) with true by reflexivity. cbv iota.
  unfold bind at 1, lift at 1. unfold bind at 1, lift at 1. replace (check_valid_checksum "adler32") with (Ok CkAdler32) by reflexivity. cbv iota.
  unfold bind at 1, check_files, fs_exists. rewrite SF, SN. cbn [negb andb]. unfold process_metadata_args, bind, ret.
  change (mkBA 8 7 true "blosclz") with default_bargs. change (mk_bpargs true (Some "adler32"%string) (bp_max_app default_bpargs)) with default_bpargs.
  destruct (pack_file_to_file _ _ _ _ _ _ _ _ s) as [s' [r|[]]]; reflexivity.
Qed.
Theorem compress_and_back E : EnvOK E -> forall g lg name q lq f b s s1 out,
  spelling main_set g lg -> files g = [] -> In name (sub_names SubCompress) -> spelling (sub_set SubCompress) q lq -> in_order E g -> in_order E q ->
  files q = [f] -> placed SubCompress q -> s f = Some b -> blpk E (lg ++ name :: lq) s = Some (s1, Ok tt) ->
  plain (f ++ ".blp")%string -> plain out -> out <> ""%string -> out <> (f ++ ".blp")%string -> s1 out = None ->
  exists s2, blpk E ["d"%string; (f ++ ".blp")%string; out] s1 = Some (s2, Ok tt) /\ s2 out = Some b /\
    forall p, p <> (f ++ ".blp")%string -> p <> out -> s2 p = s p.
Proof.
  intros EO g lg name q lq f b s s1 out SG FG N SQ OG OQ FQ PL SF H P1 P2 NE ND NO.
  destruct (accepted E g lg SubCompress name q lq SG FG N SQ OG OQ) as (x & ST & B); [rewrite FQ; cbn; lia|exact PL|]. rewrite B in H. injection H as H. clear B.
  destruct x as [o| | | |]; try (destruct ST; fail). destruct ST as (OT & ST). rewrite FQ in OT. destruct OT as [[OI OO]|(p & OI & _)]; [|discriminate]. injection OI as OI. cbn [main] in H.
  assert (CO : compress_out o = (f ++ ".blp")%string) by (unfold compress_out; rewrite OO, <- OI; reflexivity).
  destruct (bare_line E SubDecompress "d" [(f ++ ".blp")%string; out]) as (y & SY & BY); [cbn; tauto|repeat (constructor; try assumption)|cbn; lia|]. rewrite BY. clear BY.
  assert (y = CmdDecompress (mkDO (compress_out o) (Some out) false false)) as -> by (apply (stands_for_one SubDecompress [] _ _ _ SY); rewrite CO; cbn; repeat split; right; eauto).
  cbn [main]. destruct (cli_decompress E (mkDO (compress_out o) (Some out) false false) s1) as [s2 r] eqn:D. exists s2.
  destruct (cli_round_trip E EO o s s1 b (Some out) false false out s2 r) as ((m & _ & ->) & S2 & FR).
  - rewrite <- OI. exact SF.
  - rewrite CO, <- OI. intros X. apply (f_equal String.length) in X. rewrite length_append in X. cbn in X. lia.
  - exact H.
  - unfold decompress_out. cbn [do_in do_out do_no_check]. rewrite CO. replace (ends_with_ext (f ++ ".blp")) with true by (symmetry; apply ext_iff; eauto).
    unfold or_default. apply String.eqb_neq in NE. rewrite NE. reflexivity.
  - exact NE.
  - rewrite CO. exact ND.
  - auto.
  - exact D.
  - unfold bind. rewrite D. split; [reflexivity|]. split; [exact S2|]. rewrite CO in FR. exact FR.
Qed.
Theorem plain_append E : EnvOK E -> forall base q s f b m x s',
  plain (base ++ ".blp")%string -> plain q -> e_cname_ok E "blosclz" = true -> s (base ++ ".blp")%string = Some f -> s q = Some x ->
  archive E f b m -> sizable f x -> blpk E ["a"%string; (base ++ ".blp")%string; q] s = Some (s', Ok tt) ->
  exists f' k, append_bytes E f x (obargs_of default_bargs) = (f', Ok k) /\ s' (base ++ ".blp")%string = Some f' /\
  forall i, F_n f - 1 <= i < F_n f' -> exists c ck,
    e_compress E (mkBA 8 7 true "blosclz") (sub (i * F_chunk f) (F_chunk f) (b ++ x)) = Ok c /\ piece f' i = c ++ digest E ck c.
Proof.
  intros EO base q s f b m x s' P1 P2 CN SF SX A Z H. set (p := (base ++ ".blp")%string) in *.
  destruct (bare_line E SubAppend "a" [p; q]) as (y & SY & BY); [cbn; tauto|repeat (constructor; try assumption)|cbn; lia|]. rewrite BY in H. injection H as H. clear BY.
  assert (y = CmdAppend (mkAO p q false 8 7 true "blosclz" None)) as -> by (apply (stands_for_one SubAppend [] _ _ _ SY); cbn; repeat split).
  cbn [main] in H. unfold cli_append in H. cbn [ao_orig ao_new ao_no_check ao_typesize ao_clevel ao_shuffle ao_cname ao_meta] in H.
  unfold bind at 1, lift at 1, blosc_choices in H. rewrite CN in H. unfold MIN_CLEVEL, MAX_CLEVEL in H. replace ((0 <=? 7) && (7 <=? 9) && true) with true in H by reflexivity. cbv iota in H.
  unfold bind at 1, lift at 1 in H. replace (ends_with_ext p) with true in H by (symmetry; apply ext_iff; unfold p; eauto). cbn [negb andb] in H.
  unfold bind at 1, fs_exists in H. rewrite SF, SX in H. cbn [negb] in H. unfold bind at 1, process_metadata_args, ret at 1 in H.
  change (mkBA 8 7 true "blosclz") with default_bargs in H. unfold bind at 1 in H. rewrite (append_file_run E s p q _ f x SF SX) in H.
  destruct (append_bytes E f x (obargs_of default_bargs)) as [f' [k|e]] eqn:AB; cbn [fst snd] in H; [|discriminate]. destruct (size x =? 0); [discriminate|].
  cbn [is_none] in H. injection H as <-. exists f', k. split; [reflexivity|]. split; [apply fs_set_same|].
  destruct (append_chunks E EO f b m x (obargs_of default_bargs) f' k A Z AB) as (_ & _ & ck & _ & C). intros i I. destruct (C i I) as (c & CC & PC). exists c, ck. auto.
Qed.
