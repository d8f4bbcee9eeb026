(** Proofs about argparse's way through a list of arguments. *)
From Verif Require Import Base PyVal Checksums Headers Pretty Args FileIO Append Files Cli Parser Argparse Spec BaseLemmas PrettyProofs OptionProofs ParserSpec ParserProofs ParserMain ArgSpec ArgProofs ArgOptions.
From Coq Require Import ZifyBool ZifyNat.
Ltac Zify.zify_post_hook ::= Z.div_mod_to_equations.
Local Open Scope string_scope.
Local Open Scope list_scope.

(** ** Classification *)
Lemma parse_kinds t s k : parse_optional t s = Some k -> k = KA \/ exists a x, k = KO a x.
Proof.
  destruct s as [|c r]; cbn [parse_optional]; [intros H; injection H as <-; auto|]. destruct (negb _); [intros H; injection H as <-; auto|].
  destruct (option_named t _); [intros H; injection H as <-; eauto|]. destruct (String.eqb r ""); [intros H; injection H as <-; auto|]. destruct (partition_eq _) as [p x].
  match goal with |- match ?m with _ => _ end = _ -> _ => destruct m as [[[d q] e]|] end; [intros H; injection H as <-; eauto|].
  destruct (option_tuples t _) as [|[[d o] y] [|]]; [|intros H; injection H as <-; eauto|discriminate].
  destruct (negative_number _); [intros H; injection H as <-; auto|]. destruct (has_char _ _); intros H; injection H as <-; eauto.
Qed.
Lemma classify_cons t s r : s <> "--" -> classify t (s :: r) = match parse_optional t s, classify t r with Some k, Some q => Some ((s, k) :: q) | _, _ => None end.
Proof. intros H. cbn [classify]. destruct (String.eqb_spec s "--"); [congruence|reflexivity]. Qed.
Lemma classify_length t l k : classify t l = Some k -> List.length k = List.length l.
Proof.
  revert k. induction l as [|s l IH]; intros k; [intros H; injection H as <-; reflexivity|]. cbn [classify]. destruct (String.eqb s "--"); [intros H; injection H as <-; cbn; rewrite map_length; reflexivity|].
  destruct (parse_optional t s); [|discriminate]. destruct (classify t l) as [q|]; [|discriminate]. intros H. injection H as <-. cbn. rewrite (IH q eq_refl). reflexivity.
Qed.
Lemma kw_app a b : kw (a ++ b) = kw a ++ kw b. Proof. apply map_app. Qed.
Lemma kw_length a : List.length (kw a) = List.length a. Proof. apply map_length. Qed.
Lemma kw_fst a : map fst (kw a) = a. Proof. induction a as [|x a IH]; [reflexivity|]. cbn [kw map fst]. fold (kw a). rewrite IH. reflexivity. Qed.
Definition plainly (t : table) (s : string) : Prop := s <> "--" /\ parse_optional t s = Some KA.
Lemma classify_words t w l : Forall (plainly t) w -> classify t (w ++ l) = match classify t l with Some k => Some (kw w ++ k) | None => None end.
Proof.
  induction 1 as [|s w [N P] _ IH]; cbn [app kw map]; [destruct (classify t l); reflexivity|]. rewrite (classify_cons t s _ N), P, IH. destruct (classify t l); reflexivity.
Qed.
Lemma split_words t l k : classify t l = Some k -> exists w l' k', l = w ++ l' /\ k = kw w ++ k' /\ Forall (plainly t) w /\ classify t l' = Some k' /\
  (l' = [] /\ k' = [] \/ (exists w2, l' = "--" :: w2 /\ k' = ("--", KD) :: kw w2) \/
   exists s r a x k'', l' = s :: r /\ s <> "--" /\ parse_optional t s = Some (KO a x) /\ k' = (s, KO a x) :: k'' /\ classify t r = Some k'').
Proof.
  revert k. induction l as [|s l IH]; intros k H.
  - exists [], [], []. injection H as <-. repeat (split; [first [reflexivity|constructor]|]). left. auto.
  - destruct (string_dec s "--") as [-> |N].
    + exists [], ("--" :: l), k. split; [reflexivity|]. split; [reflexivity|]. split; [constructor|]. split; [exact H|]. right. left. exists l. split; [reflexivity|]. cbn in H. injection H as <-. reflexivity.
    + pose proof H as H0. rewrite (classify_cons t s l N) in H. destruct (parse_optional t s) as [kd|] eqn:PO; [|discriminate]. destruct (classify t l) as [q|] eqn:CL; [|discriminate]. injection H as <-.
      destruct (parse_kinds t s kd PO) as [-> |(a & x & ->)].
      * destruct (IH q eq_refl) as (w & l' & k' & -> & -> & F & C & D). exists (s :: w), l', k'. split; [reflexivity|]. split; [reflexivity|]. split; [constructor; [split; assumption|exact F]|]. auto.
      * exists [], (s :: l), ((s, KO a x) :: q). split; [reflexivity|]. split; [reflexivity|]. split; [constructor|]. split; [exact H0|]. right. right. exists s, l, a, x, q. auto.
Qed.
Lemma classify_app t w l m : Forall (fun s => s <> "--") w -> classify t (w ++ l) = Some m -> Forall (fun s => parse_optional t s <> None) w /\ exists m', classify t l = Some m'.
Proof.
  intros F. revert m. induction F as [|s w N F IH]; intros m H; [split; [constructor|eauto]|]. cbn [app] in H. rewrite (classify_cons t s _ N) in H.
  destruct (parse_optional t s) eqn:PO; [|discriminate]. destruct (classify t (w ++ l)) as [q|] eqn:C; [|discriminate]. destruct (IH q eq_refl) as [A B]. split; [constructor; [congruence|exact A]|exact B].
Qed.
Lemma word_of t set s : In (t, set) the_tables -> plainly t s -> parse_optional main_options s <> None -> word set s.
Proof.
  intros I [N P] M. apply (word_kind t set s I N) in P. apply word_split. split; [exact P|]. right. right. right. intros V. apply M, vague_main, V.
Qed.
Lemma words_of t set w l m : In (t, set) the_tables -> Forall (plainly t) w -> classify main_options (w ++ l) = Some m -> Forall (word set) w /\ exists m', classify main_options l = Some m'.
Proof.
  intros I F C. destruct (classify_app main_options w l m) as [A B]; [eapply Forall_impl; [|exact F]; intros s [N _]; exact N|exact C|]. split; [|exact B].
  rewrite Forall_forall in *. intros s IN. apply (word_of t set s I (F s IN) (A s IN)).
Qed.
Lemma word_not_vague set s : word set s -> ~ vague s.
Proof.
  intros W V. destruct (vague_dashes s V) as (p & x & _ & [r ->] & _). cbn [append] in *. destruct W as [H|[H|[H|(_ & _ & H)]]].
  - exact (H _ eq_refl).
  - discriminate.
  - apply negative_shape in H as (c & q & E & H). injection E as <- _. destruct H; discriminate.
  - exact (H V).
Qed.
Lemma word_dash set s : word set s -> s <> "--".
Proof. intros W ->. apply (word_not_vague set "--" W). exists "--". split; [split; [intros [H|[H|[]]]; discriminate|left; reflexivity]|left; reflexivity]. Qed.
Lemma word_plainly t set s : In (t, set) the_tables -> word set s -> plainly t s.
Proof.
  intros I W. pose proof (word_dash set s W) as N. split; [exact N|]. apply (word_kind t set s I N). apply word_split in W. exact (proj1 W).
Qed.

(** ** Positional arguments *)
Definition stage (ps : list nargs) : Prop := ps = [] \/ ps = [One] \/ ps = [One; One] \/ ps = [One; Maybe].
Fixpoint walk (ps : list nargs) (q : list arg) : option (list nargs) :=
  match q with
  | [] => Some match ps with Maybe :: r => r | _ => ps end
  | File _ :: q' => match ps with One :: r | Maybe :: r => walk r q' | _ => None end
  | Given _ _ _ :: q' => walk match ps with Maybe :: r => r | _ => ps end q'
  end.
Definition starts_given (q : list arg) : Prop := exists d n v q', q = Given d n v :: q'.
Lemma walk_given ps a q : stage ps -> files a = [] -> walk ps (a ++ q) = walk ps q.
Proof.
  intros S. induction a as [|x a IH]; intros F; [reflexivity|]. destruct x as [d n v|w]; [|discriminate]. cbn [app walk]. rewrite <- (IH F).
  destruct S as [-> |[-> |[-> | ->]]]; reflexivity.
Qed.
Lemma walk_files_none w q : w <> [] -> walk [] (map File w ++ q) = None.
Proof. destruct w; [congruence|reflexivity]. Qed.
Definition optioned (k : list (string * kind)) : Prop := exists s a x r, k = (s, KO a x) :: r.
Lemma cp_words ps w k : stage ps -> w <> [] -> optioned k -> exists tk w' ps', w = tk ++ w' /\ consume_positionals ps (kw w ++ k) = (tk, ps', kw w' ++ k) /\ stage ps' /\
  (w' <> [] -> ps' = []) /\ forall q, (w' = [] -> starts_given q) -> walk ps (map File tk ++ q) = walk ps' q.
Proof.
  intros S W (s & a & x & r & ->). unfold stage. destruct w as [|w0 w]; [congruence|].
  assert (DK : forall w, dashes (kw w ++ (s, KO a x) :: r) = kw w ++ (s, KO a x) :: r) by (intros [|? ?]; reflexivity).
  destruct S as [-> |[-> |[-> | ->]]].
  - exists [], (w0 :: w), []. split; [reflexivity|]. split; [reflexivity|]. split; [auto|]. split; [reflexivity|reflexivity].
  - exists [w0], w, []. split; [reflexivity|]. split; [cbn [consume_positionals consume_one kw map app dashes]; rewrite DK; reflexivity|]. split; [auto|]. split; [reflexivity|reflexivity].
  - destruct w as [|w1 w].
    + exists [w0], [], [One]. split; [reflexivity|]. split; [reflexivity|]. split; [auto|]. split; [congruence|reflexivity].
    + exists [w0; w1], w, []. split; [reflexivity|]. split; [cbn [consume_positionals consume_one kw map app dashes]; rewrite DK; reflexivity|]. split; [auto|]. split; [reflexivity|reflexivity].
  - destruct w as [|w1 w].
    + exists [w0], [], []. split; [reflexivity|]. split; [reflexivity|]. split; [auto|]. split; [reflexivity|]. intros q H. destruct (H eq_refl) as (d & n & v & q' & ->). reflexivity.
    + exists [w0; w1], w, []. split; [reflexivity|]. split; [cbn [consume_positionals consume_one kw map app dashes]; rewrite DK; reflexivity|]. split; [auto|]. split; [reflexivity|reflexivity].
Qed.
Lemma cp_end ps w : stage ps -> let '(tk, ps', l') := consume_positionals ps (kw w) in
  walk ps (map File w) = Some ps' /\ tk = w /\ l' = [] \/ walk ps (map File w) = None /\ l' <> [].
Proof. intros [-> |[-> |[-> | ->]]]; destruct w as [|a [|b [|c w]]]; cbn; first [left; repeat split; reflexivity|right; split; [reflexivity|discriminate]]. Qed.
Lemma cp_dash ps w1 w2 s : stage ps -> let '(tk, ps', l') := consume_positionals ps (kw w1 ++ (s, KD) :: kw w2) in
  w1 ++ w2 <> [] /\ walk ps (map File (w1 ++ w2)) = Some ps' /\ tk = w1 ++ w2 /\ l' = [] \/ (w1 ++ w2 = [] \/ walk ps (map File (w1 ++ w2)) = None) /\ l' <> [].
Proof.
  intros [-> |[-> |[-> | ->]]]; destruct w1 as [|a [|b [|c w1]]]; destruct w2 as [|a' [|b' [|c' w2]]]; cbn;
    first [left; split; [discriminate|]; repeat split; reflexivity|right; split; [first [left; reflexivity|right; reflexivity]|discriminate]].
Qed.
Lemma no_option w : has_option (kw w) = false.
Proof. induction w; [reflexivity|assumption]. Qed.
Lemma no_option_dash w1 w2 s : has_option (kw w1 ++ (s, KD) :: kw w2) = false.
Proof. unfold has_option. rewrite existsb_app. cbn [existsb snd]. fold (has_option (kw w1)). fold (has_option (kw w2)). rewrite !no_option. reflexivity. Qed.
Lemma some_option w s a x k : has_option (kw w ++ (s, KO a x) :: k) = true.
Proof. unfold has_option. rewrite existsb_app. cbn [existsb snd]. apply orb_true_r. Qed.
Lemma to_kw w s a x k : to_option (kw w ++ (s, KO a x) :: k) = (s, KO a x) :: k.
Proof. induction w; [reflexivity|assumption]. Qed.
Lemma line_files set w q l : Forall (word set) w -> line set q l -> line set (map File w ++ q) (w ++ l).
Proof. induction 1 as [|s w W _ IH]; intros L; [exact L|]. cbn [map app]. apply (l_cons set [File s] [s]); [apply w_file, W|exact (IH L)]. Qed.

Section WithEnv.
Variable E : Env.
Lemma perform_acts q n : perform E (map to_item q) n = match take_actions E (acts q) n with Ok n' => Done n' | Raise e => Fail e end.
Proof.
  revert n. induction q as [|[d s v|w] q IH]; intros n; cbn [map to_item perform acts flat_map app take_actions]; [reflexivity| |apply IH]. fold (acts q).
  destruct (act E d v n); cbn [rbind]; [apply IH|reflexivity].
Qed.
Lemma perform_app q q' n : perform E (map to_item (q ++ q')) n = match perform E (map to_item q) n with Done n' => perform E (map to_item q') n' | o => o end.
Proof.
  revert n. induction q as [|[d s v|w] q IH]; intros n; cbn [app map to_item perform]; [reflexivity| |apply IH]. destruct (act E d v n); [apply IH|reflexivity].
Qed.
Lemma perform_files w q n : perform E (map to_item (map File w ++ q)) n = perform E (map to_item q) n.
Proof. induction w; [reflexivity|assumption]. Qed.

Lemma loop_extras t f : forall ps k n ws p, loop E f t ps k n ws true = Ok p -> p_extras p = true.
Proof.
  induction f as [|f IH]; intros ps k n ws p; cbn [loop]; [discriminate|].
  assert (O : forall ps l ws, match l with
        | (_, KO a x) :: r =>
            match consume_optional t a x r with
            | None => Raise (SystemExit 2)
            | Some (acts, r', ex') => n' <~ take_actions E acts n ;; loop E f t ps r' n' ws (true || ex')
            end
        | _ => Raise RuntimeError
        end = Ok p -> p_extras p = true).
  { intros ps0 l ws0. destruct l as [|[s [| |a x]] r]; try discriminate. destruct (consume_optional t a x r) as [[[ac r'] ex']|]; [|discriminate].
    destruct (take_actions E ac n); cbn [rbind orb]; [apply IH|discriminate]. }
  destruct (has_option k).
  - destruct k as [|[s [| |a x]] r]; [| | |apply (O ps ((s, KO a x) :: r) ws)].
    all: destruct (consume_positionals ps _) as [[w ps'] l']; destruct (_ <? _)%nat; [apply IH|apply O].
  - unfold finish. destruct (consume_positionals ps k) as [[w ps'] l']. intros H. injection H as <-. reflexivity.
Qed.

Lemma loop_sound t set : In (t, set) the_tables -> forall f l k m ps n ws p, classify t l = Some k -> classify main_options l = Some m -> stage ps ->
  loop E f t ps k n ws false = Ok p -> p_extras p = false ->
  exists q, line set q l /\ perform E (map to_item q) n = Done (p_ns p) /\ p_words p = ws ++ files q /\ walk ps q = Some (p_left p) /\ (optioned k -> starts_given q).
Proof.
  intros I. induction f as [|f IH]; intros l k m ps n ws p C M S H X; [discriminate|]. cbn [loop] in H.
  destruct (split_words t l k C) as (w & l' & k' & -> & -> & F & C' & D). destruct (words_of t set w l' m I F M) as [FW [m' M']].
  destruct D as [[-> ->]|[(w2 & -> & ->)|(s & r & a & x & k'' & -> & NS & PO & -> & CR)]].
  - (* only words *)
    rewrite app_nil_r in *. rewrite no_option in H. unfold finish in H. pose proof (cp_end ps w S) as CE. destruct (consume_positionals ps (kw w)) as [[tk ps'] l'].
    injection H as <-. cbn [p_extras p_ns p_words p_left orb] in *. destruct CE as [(W & -> & ->)|(W & L)]; [|destruct l'; congruence].
    exists (map File w ++ []). split; [rewrite <- (app_nil_r w) at 2; apply line_files; [exact FW|constructor]|]. rewrite app_nil_r. split; [rewrite <- (app_nil_r (map File w)), perform_files; reflexivity|].
    split; [rewrite files_files; reflexivity|]. split; [exact W|]. intros (s & a & x & r & EQ). destruct w; discriminate.
  - (* '--' *)
    rewrite no_option_dash in H. unfold finish in H. pose proof (cp_dash ps w w2 "--" S) as CE. destruct (consume_positionals ps _) as [[tk ps'] l'].
    injection H as <-. cbn [p_extras p_ns p_words p_left orb] in *. destruct CE as [(NE & W & -> & ->)|(W & L)]; [|destruct l'; congruence].
    exists (map File (w ++ w2)). split; [apply l_end; assumption|]. split; [rewrite <- (app_nil_r (map File _)), perform_files; reflexivity|].
    split; [rewrite files_files; reflexivity|]. split; [exact W|]. intros (s & a & x & r & EQ). destruct w; discriminate.
  - (* an option *)
    rewrite some_option in H. destruct w as [|w0 w].
    + cbn [kw map app] in H. destruct (consume_optional t a x k'') as [[[ac r'] ex']|] eqn:CO; [|discriminate]. cbn [orb] in H.
      destruct (take_actions E ac n) as [n'|] eqn:TA; cbn [rbind] in H; [|discriminate]. destruct ex'; [apply loop_extras in H; congruence|].
      destruct (opt_sound t set s a x k'' ac r' I NS PO CO) as (q0 & vs & -> & AQ & FQ & NE & WR).
      (* the values *)
      destruct (split_words t r _ CR) as (w' & l'' & k0 & -> & EK & F' & C0 & D0). cbn [app] in M. rewrite (classify_cons _ s _ NS) in M.
      destruct (parse_optional main_options s); [|discriminate]. destruct (classify main_options (w' ++ l'')) as [mr|] eqn:MR; [|discriminate].
      assert (exists w'', w' = vs ++ w'') as [w'' ->].
      { clear - EK D0. revert w' EK. induction vs as [|v vs IHv]; intros w' EK; [exists w'; reflexivity|]. destruct w' as [|v' w']; cbn [kw map app] in EK.
        - exfalso. destruct D0 as [[_ ->]|[(w2 & _ & ->)|(s & r & a & x & k'' & _ & _ & _ & -> & _)]]; discriminate.
        - injection EK as -> EK. destruct (IHv w' EK) as [w'' ->]. exists w''. reflexivity. }
      apply Forall_app in F' as [FV FW'']. rewrite kw_app, <- app_assoc in EK. apply app_inv_head in EK. subst r'.
      rewrite <- app_assoc in MR. destruct (words_of t set vs (w'' ++ l'') mr I FV MR) as [WV [mr' MR']].
      assert (CL : classify t (w'' ++ l'') = Some (kw w'' ++ k0)) by (rewrite (classify_words t w'' l'' FW''), C0; reflexivity).
      destruct (IH (w'' ++ l'') _ mr' ps n' ws p CL MR' S H X) as (q & L & P & W & K & _).
      exists (q0 ++ q). cbn [app]. split; [rewrite <- app_assoc; apply (l_cons set q0 (s :: vs) q (w'' ++ l'')); [apply WR, WV|exact L]|].
      split; [rewrite perform_app, (perform_acts q0), AQ, TA; exact P|]. split; [rewrite files_app, FQ; exact W|]. split; [rewrite (walk_given ps q0 q S FQ); exact K|].
      intros _. destruct q0 as [|[d nm v|fl] q0]; [cbn in AQ; congruence|eexists _, _, _, _; reflexivity|discriminate].
    + assert (OP : optioned ((s, KO a x) :: k'')) by (eexists _, _, _, _; reflexivity).
      destruct (cp_words ps (w0 :: w) _ S ltac:(discriminate) OP) as (tk & w' & ps' & EW & CP & S' & WP & WK).
      pose proof (to_kw (w0 :: w) s a x k'') as TK. cbn [kw map app] in H, CP, TK. rewrite CP in H.
      destruct (_ <? _)%nat eqn:LT.
      * assert (F2 : Forall (plainly t) (tk ++ w')) by (rewrite <- EW; exact F). apply Forall_app in F2 as [FT F']. rewrite EW, <- app_assoc in M. destruct (words_of t set tk (w' ++ s :: r) m I FT M) as [WT [mm MM]].
        assert (CL : classify t (w' ++ s :: r) = Some (kw w' ++ (s, KO a x) :: k'')) by (rewrite (classify_words t w' _ F'), C'; reflexivity).
        destruct (IH (w' ++ s :: r) _ mm ps' n (ws ++ tk) p CL MM S' H X) as (q & L & P & W & K & ST).
        exists (map File tk ++ q). split; [rewrite EW, <- app_assoc; apply line_files; [exact WT|exact L]|]. split; [rewrite perform_files; exact P|].
        split; [rewrite files_app, files_files, app_assoc; exact W|]. split; [rewrite WK; [exact K|]; intros ->; apply ST; exact OP|]. intros (s1 & a1 & x1 & r1 & EQ). discriminate.
      * exfalso. rewrite TK in H. destruct (consume_optional t a x k'') as [[[ac r'] ex']|]; [|discriminate]. destruct (take_actions E ac n); cbn [rbind orb] in H; [|discriminate].
        apply loop_extras in H. congruence.
Qed.

(** The other way round. *)
Lemma loop_group t ps w k n ws ex f : stage ps -> w <> [] -> optioned k -> (List.length (kw w ++ k) < f)%nat ->
  exists f' ps' ws' ex', stage ps' /\ (List.length k < f')%nat /\ loop E f t ps (kw w ++ k) n ws ex = loop E f' t ps' k n ws' ex' /\
    ((forall q, starts_given q -> walk ps (map File w ++ q) = walk ps' q) /\ ws' = ws ++ w /\ ex' = ex \/
     (forall q, starts_given q -> walk ps (map File w ++ q) = None) /\ ex' = true).
Proof.
  intros HS W OP LT. destruct OP as (s & a & x & r & ->). assert (OP : optioned ((s, KO a x) :: r)) by (eexists _, _, _, _; reflexivity).
  (* nothing to be taken *)
  assert (NT : forall f ps w ws ex, w <> [] -> ps = [] -> (List.length ((s, KO a x) :: r) < S f)%nat -> loop E (S f) t ps (kw w ++ (s, KO a x) :: r) n ws ex = loop E (S f) t ps ((s, KO a x) :: r) n ws true).
  { intros f0 ps0 w0 ws0 ex0 W0 -> L0. destruct w0 as [|y w0]; [congruence|]. pose proof (to_kw (y :: w0) s a x r) as TK. pose proof (some_option (y :: w0) s a x r) as SO.
    pose proof (some_option [] s a x r) as SO'. cbn [kw map app] in *. cbn [loop]. rewrite SO, SO'. cbn [consume_positionals]. rewrite Nat.ltb_irrefl, TK, app_nil_r. reflexivity. }
  destruct (cp_words ps w _ HS W OP) as (tk & w' & ps' & EW & CP & S' & WP & WK). destruct f as [|f]; [lia|]. rewrite app_length, kw_length in LT.
  destruct tk as [|t0 tk].
  - cbn [app] in EW. subst w'. assert (ps' = []) as -> by (apply WP; exact W). assert (ps = []) as ->.
    { destruct HS as [-> |[-> |[-> | ->]]]; [reflexivity| | |]; exfalso; destruct w as [|y [|z w]]; try congruence; cbn in CP; try discriminate. all: try (destruct w; discriminate). }
    exists (S f), [], ws, true. split; [exact S'|]. split; [lia|]. split; [apply NT; [exact W|reflexivity|lia]|]. right. split; [|reflexivity]. intros q _. apply (walk_files_none w q W).
  - assert (L : loop E (S f) t ps (kw w ++ (s, KO a x) :: r) n ws ex = loop E f t ps' (kw w' ++ (s, KO a x) :: r) n (ws ++ t0 :: tk) ex).
    { cbn [loop]. rewrite some_option, CP. destruct w as [|y w]; [congruence|]. cbn [kw map app]. change ((y, KA) :: map (fun w0 => (w0, KA)) w ++ (s, KO a x) :: r) with (kw (y :: w) ++ (s, KO a x) :: r).
      rewrite EW. fold (kw w'). rewrite !app_length, !kw_length, !app_length. cbn [List.length]. match goal with |- context [(?u <? ?v)%nat] => replace (u <? v)%nat with true by (symmetry; apply Nat.ltb_lt; cbn [List.length] in *; lia) end. reflexivity. }
    rewrite L. rewrite EW, app_length in LT. cbn [List.length] in LT. destruct w' as [|y w'].
    + exists f, ps', (ws ++ t0 :: tk), ex. rewrite app_nil_r in EW. subst w. split; [exact S'|]. split; [cbn [List.length] in *; lia|]. split; [reflexivity|]. left. split; [|auto]. intros q SG. apply WK. auto.
    + destruct f as [|f]; [cbn [List.length] in *; lia|]. assert (ps' = []) as -> by (apply WP; discriminate). exists (S f), [], (ws ++ t0 :: tk), true. split; [exact S'|]. split; [cbn [List.length] in *; lia|].
      split; [apply NT; [discriminate|reflexivity|cbn [List.length] in *; lia]|]. right. split; [|reflexivity]. intros q SG. rewrite EW, map_app, <- app_assoc. rewrite WK by discriminate. reflexivity.
Qed.
Lemma loop_option t set q s vs d o x k f ps n ws ex : In (t, set) the_tables -> (forall k, consume_optional t (Some (d, o)) x (kw vs ++ k) = Some (acts q, k, false)) ->
  loop E (S f) t ps ((s, KO (Some (d, o)) x) :: kw vs ++ k) n ws ex = match take_actions E (acts q) n with Ok n' => loop E f t ps k n' ws ex | Raise e => Raise e end.
Proof.
  intros I C. cbn [loop]. change (has_option ((s, KO (Some (d, o)) x) :: kw vs ++ k)) with true. cbn iota. rewrite C. rewrite orb_false_r. destruct (take_actions E (acts q) n); reflexivity.
Qed.
Lemma split_line t set q l : In (t, set) the_tables -> line set q l -> exists w q' l', q = map File w ++ q' /\ l = w ++ l' /\ Forall (word set) w /\
  (q' = [] /\ l' = [] \/ (exists w2, q' = map File w2 /\ l' = "--" :: w2 /\ w ++ w2 <> []) \/
   exists a q'' s vs d o x r, q' = a ++ q'' /\ l' = s :: vs ++ r /\ s <> "--" /\ Forall (word set) vs /\ files a = [] /\ acts a <> [] /\ parse_optional t s = Some (KO (Some (d, o)) x) /\
     (forall k, consume_optional t (Some (d, o)) x (kw vs ++ k) = Some (acts a, k, false)) /\ line set q'' r).
Proof.
  intros I. induction 1 as [|a tx q r W L IH|w1 w2 F N].
  - exists [], [], []. split; [reflexivity|]. split; [reflexivity|]. split; [constructor|]. auto.
  - destruct (opt_complete t set a tx I W) as [(w & -> & -> & WW)|(s & vs & d & o & x & -> & NS & FV & FA & NA & PO & CO)].
    + destruct IH as (w' & q' & l' & -> & -> & FW & D). exists (w :: w'), q', l'. split; [reflexivity|]. split; [reflexivity|]. split; [constructor; assumption|].
      destruct D as [D|[(w2 & D1 & D2 & _)|D]]; [auto|right; left; exists w2; split; [exact D1|]; split; [exact D2|discriminate]|auto].
    + exists [], (a ++ q), (s :: vs ++ r). split; [reflexivity|]. split; [reflexivity|]. split; [constructor|]. right. right. exists a, q, s, vs, d, o, x, r. auto 10.
  - exists w1, (map File w2), ("--" :: w2). split; [apply map_app|]. split; [reflexivity|]. split; [exact F|]. right. left. exists w2. auto.
Qed.
Lemma given_start a q : files a = [] -> acts a <> [] -> starts_given (a ++ q).
Proof. destruct a as [|[d s v|w] a]; intros F N; [cbn in N; congruence|eexists _, _, _, _; reflexivity|discriminate]. Qed.
Lemma words_plainly t set w : In (t, set) the_tables -> Forall (word set) w -> Forall (plainly t) w.
Proof. intros I F. eapply Forall_impl; [|exact F]. intros s. apply (word_plainly t set s I). Qed.
Lemma classify_dash t w : classify t ("--" :: w) = Some (("--", KD) :: kw w). Proof. reflexivity. Qed.
(** The loop on a line that is in order; there may be too many files, or too few. *)
Definition outcome_of (ps : list nargs) (q : list arg) (n' : ns) (ws : list string) (ex : bool) (p : parsed) : Prop :=
  walk ps q = None /\ p_extras p = true \/ exists ps', walk ps q = Some ps' /\ p = mkP n' (ws ++ files q) ps' ex.
Lemma loop_total t set : In (t, set) the_tables -> forall N l q, (List.length l <= N)%nat -> line set q l -> exists k, classify t l = Some k /\
  forall f ps n n' ws ex, stage ps -> (List.length k < f)%nat -> perform E (map to_item q) n = Done n' ->
  exists p, loop E f t ps k n ws ex = Ok p /\ (ex = true -> p_extras p = true) /\ outcome_of ps q n' ws ex p.
Proof.
  intros I. induction N as [|N IH]; intros l q LN L; destruct (split_line t set q l I L) as (w & q' & l' & -> & -> & FW & D); pose proof (words_plainly t set w I FW) as FP.
  1: { destruct l'; [|rewrite app_length in LN; cbn in LN; lia]. destruct w; [|cbn in LN; lia]. destruct D as [[-> _]|[(? & _ & ? & _)|(? & ? & ? & ? & ? & ? & ? & ? & _ & ? & _)]]; try discriminate.
    exists []. split; [reflexivity|]. intros [|f] ps n n' ws ex S LT P; [cbn in LT; lia|]. cbn in P. injection P as <-. eexists. split; [reflexivity|].
    split; [intros ->; unfold finish; destruct (consume_positionals ps []) as [[? ?] ?]; reflexivity|]. right. unfold finish. cbn [map app files walk]. rewrite app_nil_r.
    destruct S as [-> |[-> |[-> | ->]]]; (eexists; split; [reflexivity|]; cbn; rewrite app_nil_r, orb_false_r; reflexivity). }
  destruct D as [[-> ->]|[(w2 & -> & -> & NE)|(a & q'' & s & vs & d & o & x & r & -> & -> & NS & FV & FA & NA & PO & CO & LR)]].
  - exists (kw w). split; [rewrite (classify_words t w [] FP); cbn [classify]; rewrite app_nil_r; reflexivity|]. intros [|f] ps n n' ws ex S LT P; [lia|]. cbn [loop]. rewrite no_option. eexists. split; [reflexivity|]. unfold finish, outcome_of.
    rewrite app_nil_r in *. pose proof (cp_end ps w S) as CE. destruct (consume_positionals ps (kw w)) as [[tk p0] l0]. split; [intros ->; reflexivity|].
    rewrite <- (app_nil_r (map File w)), perform_files in P. injection P as <-. destruct CE as [(W' & -> & ->)|[W' L0]].
    + right. exists p0. split; [exact W'|]. rewrite files_files, orb_false_r. reflexivity.
    + left. split; [exact W'|]. destruct l0; [congruence|]. apply orb_true_r.
  - exists (kw w ++ ("--", KD) :: kw w2). split; [rewrite (classify_words t w _ FP), classify_dash; reflexivity|]. intros [|f] ps n n' ws ex S LT P; [lia|]. cbn [loop]. rewrite no_option_dash. eexists. split; [reflexivity|]. unfold finish, outcome_of.
    rewrite <- map_app in *. pose proof (cp_dash ps w w2 "--" S) as CE. destruct (consume_positionals ps _) as [[tk p0] l0]. split; [intros ->; reflexivity|].
    rewrite <- (app_nil_r (map File _)), perform_files in P. injection P as <-. destruct CE as [(_ & W' & -> & ->)|[[W'|W'] L0]]; [|congruence|].
    + right. exists p0. split; [exact W'|]. rewrite files_files, orb_false_r. reflexivity.
    + left. split; [exact W'|]. destruct l0; [congruence|]. apply orb_true_r.
  - rewrite !app_length in LN. cbn [List.length] in LN. rewrite app_length in LN. destruct (IH r q'' ltac:(lia) LR) as (k & CK & H). pose proof (words_plainly t set vs I FV) as FP'.
    assert (CS : classify t (s :: vs ++ r) = Some ((s, KO (Some (d, o)) x) :: kw vs ++ k)) by (rewrite (classify_cons t s _ NS), PO, (classify_words t vs r FP'), CK; reflexivity).
    exists (kw w ++ (s, KO (Some (d, o)) x) :: kw vs ++ k). split; [rewrite (classify_words t w _ FP), CS; reflexivity|].
    intros f ps n n' ws ex S LT P. rewrite perform_files in P.
    (* the options first, without words before them *)
    assert (OPT : forall f ps ws ex, stage ps -> (List.length ((s, KO (Some (d, o)) x) :: kw vs ++ k) < f)%nat ->
      exists p, loop E f t ps ((s, KO (Some (d, o)) x) :: kw vs ++ k) n ws ex = Ok p /\ (ex = true -> p_extras p = true) /\ outcome_of ps (a ++ q'') n' ws ex p).
    { intros [|f0] ps0 ws0 ex0 S0 L0; [lia|]. rewrite (loop_option t set a s vs d o x k f0 ps0 n ws0 ex0 I CO). rewrite perform_app, perform_acts in P.
      destruct (take_actions E (acts a) n) as [n1|]; [|discriminate]. unfold outcome_of. rewrite files_app, FA, (walk_given ps0 a q'' S0 FA). cbn [app]. apply H; [exact S0| |exact P]. cbn [List.length] in L0. rewrite app_length in L0. lia. }
    destruct w as [|w0 w].
    + cbn [kw map app] in *. apply OPT; assumption.
    + destruct (loop_group t ps (w0 :: w) _ n ws ex f S ltac:(discriminate) (ex_intro _ s (ex_intro _ _ (ex_intro _ x (ex_intro _ (kw vs ++ k) eq_refl)))) LT) as (f' & ps1 & ws' & ex' & S1 & L1 & -> & G).
      destruct (OPT f' ps1 ws' ex' S1 L1) as (p & LP & XP & OP). exists p. split; [exact LP|]. pose proof (given_start a q'' FA NA) as GS.
      destruct G as [(G & -> & ->)|[G ->]]; unfold outcome_of; rewrite (G _ GS).
      * split; [exact XP|]. destruct OP as [OP|(ps' & W & ->)]; [left; exact OP|right]. exists ps'. split; [exact W|]. rewrite (files_app (map File (w0 :: w))), files_files, app_assoc. reflexivity.
      * split; [intros _; apply XP; reflexivity|]. left. split; [reflexivity|]. apply XP. reflexivity.
Qed.
Lemma loop_complete t set : In (t, set) the_tables -> forall l q, line set q l -> exists k, classify t l = Some k /\
  forall f ps n n' ws ex ps', stage ps -> (List.length k < f)%nat -> perform E (map to_item q) n = Done n' -> walk ps q = Some ps' ->
  loop E f t ps k n ws ex = Ok (mkP n' (ws ++ files q) ps' ex).
Proof.
  intros I l q L. destruct (loop_total t set I (List.length l) l q (Nat.le_refl _) L) as (k & C & H). exists k. split; [exact C|]. intros f ps n n' ws ex ps' S LT P W.
  destruct (H f ps n n' ws ex S LT P) as (p & -> & _ & [[W' _]|(ps0 & W' & ->)]); [congruence|]. congruence.
Qed.
(** A run of arguments, and an option after it. *)
Lemma run_prefix t set : In (t, set) the_tables -> forall q l, run set q l -> forall l2 k2, classify t l2 = Some k2 -> optioned k2 ->
  exists w k, classify t (l ++ l2) = Some (kw w ++ k) /\ optioned k /\ forall ps n n', stage ps -> perform E (map to_item q) n = Done n' ->
    forall f ws ex, (List.length k < f)%nat -> exists f' ps' ws' ex', stage ps' /\ (List.length k2 < f')%nat /\ loop E f t ps k n ws ex = loop E f' t ps' k2 n' ws' ex'.
Proof.
  intros I q l R l2 k2 C2 O2. induction R as [|a tx q r W R IH].
  - exists [], k2. split; [exact C2|]. split; [exact O2|]. intros ps n n' S P f ws ex LT. cbn in P. injection P as <-. exists f, ps, ws, ex. auto.
  - destruct IH as (w & k & CK & OK & H). destruct (opt_complete t set a tx I W) as [(w0 & -> & -> & WW)|(s & vs & d & o & x & -> & NS & FV & FA & NA & PO & CO)].
    + exists (w0 :: w), k. split; [rewrite <- app_assoc, (classify_words t [w0] (r ++ l2)); [rewrite CK; reflexivity|constructor; [apply (word_plainly t set w0 I WW)|constructor]]|]. split; [exact OK|]. exact H.
    + exists [], ((s, KO (Some (d, o)) x) :: kw vs ++ kw w ++ k). split.
      { cbn [app kw map]. rewrite (classify_cons t s _ NS), PO, <- app_assoc, (classify_words t vs _ (words_plainly t set vs I FV)), CK. reflexivity. }
      split; [eexists _, _, _, _; reflexivity|]. intros ps n n' S P f ws ex LT. destruct f as [|f]; [lia|]. rewrite (loop_option t set a s vs d o x (kw w ++ k) f ps n ws ex I CO).
      rewrite perform_app, perform_acts in P. destruct (take_actions E (acts a) n) as [n1|]; [|discriminate]. cbn [List.length] in LT. rewrite !app_length in LT.
      destruct w as [|w0 w]; [apply H; [exact S|exact P|cbn [kw map app]; lia]|].
      destruct (loop_group t ps (w0 :: w) k n1 ws ex f S ltac:(discriminate) OK) as (f' & ps1 & ws1 & ex1 & S1 & L1 & -> & _); [rewrite app_length; lia|]. apply H; assumption.
Qed.
Lemma run_then t set q l l2 k2 ps n n' : In (t, set) the_tables -> run set q l -> classify t l2 = Some k2 -> optioned k2 -> stage ps -> perform E (map to_item q) n = Done n' ->
  exists k, classify t (l ++ l2) = Some k /\ forall f ws ex, (List.length k < f)%nat ->
    exists f' ps' ws' ex', stage ps' /\ (List.length k2 < f')%nat /\ loop E f t ps k n ws ex = loop E f' t ps' k2 n' ws' ex'.
Proof.
  intros I R C2 O2 S P. destruct (run_prefix t set I q l R l2 k2 C2 O2) as (w & k & CK & OK & H). exists (kw w ++ k). split; [exact CK|]. intros f ws ex LT.
  destruct w as [|w0 w]; [apply H; assumption|]. destruct (loop_group t ps (w0 :: w) k n ws ex f S ltac:(discriminate) OK LT) as (f' & ps1 & ws1 & ex1 & S1 & L1 & -> & _). apply H; assumption.
Qed.
End WithEnv.
