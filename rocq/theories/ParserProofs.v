(** Proofs about the command line of 'blpk'. *)
From Verif Require Import Base PyVal Checksums Headers Pretty Args FileIO Append Files Cli Parser Spec BaseLemmas PrettyProofs OptionProofs ParserSpec.
From Coq Require Import ZifyBool ZifyNat.
Ltac Zify.zify_post_hook ::= Z.div_mod_to_equations.

(** ** Arguments *)
Lemma all_digits_spec r : all_digits r = forallb digit (list_ascii_of_string r).
Proof.
  unfold all_digits. induction (list_ascii_of_string r) as [|c l IH]; [reflexivity|]. cbn [forallb]. rewrite IH. f_equal.
  unfold digit_val. fold (digit c). destruct (digit c); reflexivity.
Qed.
Lemma is_word_iff s : is_word s = true <-> plain s.
Proof.
  unfold is_word, plain. destruct s as [|c r]; [split; [left; discriminate|reflexivity]|]. rewrite all_digits_spec. destruct (Ascii.eqb c "-") eqn:C; cbn [negb orb].
  - apply Ascii.eqb_eq in C. subst c. split.
    + intros H. right. exists r. split; [reflexivity|]. destruct (String.eqb r "") eqn:R; [|exact H]. apply String.eqb_eq in R. subst r. reflexivity.
    + intros [H|(r' & H & D)]; [destruct (H r eq_refl)|]. injection H as <-. rewrite D. apply orb_true_r.
  - split; [|reflexivity]. intros _. left. intros r' H. injection H as -> ->. discriminate.
Qed.
Lemma is_word_not s : is_word s = false <-> ~ plain s.
Proof. rewrite <- is_word_iff. destruct (is_word s); split; congruence. Qed.
Ltac ins := repeat match goal with H : In _ (_ :: _) |- _ => destruct H as [H|H] | H : In _ [] |- _ => destruct H | H : _ \/ _ |- _ => destruct H | H : False |- _ => destruct H end.
Lemma name_not_word d s : In s (names d) -> is_word s = false.
Proof. destruct d; cbn [names In]; intros H; ins; subst s; reflexivity. Qed.
Lemma names_inj d d' s : In s (names d) -> In s (names d') -> d = d'.
Proof. destruct d; cbn [names In]; intros H; ins; subst s; destruct d'; cbn [names In]; intros H; ins; congruence. Qed.
Lemma find_named t s : option_named t s = None \/ exists d, option_named t s = Some d /\ In (s, d) t.
Proof.
  unfold option_named. destruct (find _ t) as [[s' d]|] eqn:F; [|auto]. right. exists d. split; [reflexivity|].
  apply find_some in F as [I Q]. cbn [fst snd] in *. apply String.eqb_eq in Q. subst s'. exact I.
Qed.
Definition tabled (t : list (string * dest)) (set : list dest) : Prop :=
  (forall s d, In (s, d) t -> In d set /\ In s (names d)) /\ (forall s d, In d set -> In s (names d) -> option_named t s = Some d).
Lemma tabled_by t set :
  forallb (fun p => existsb (fun d => if dest_eq (snd p) d then true else false) set && existsb (String.eqb (fst p)) (names (snd p))) t = true ->
  forallb (fun d => forallb (fun s => match option_named t s with Some d' => if dest_eq d d' then true else false | None => false end) (names d)) set = true ->
  tabled t set.
Proof.
  intros A B. rewrite forallb_forall in A, B. split.
  - intros s d I. specialize (A _ I). cbn [fst snd] in A. apply andb_true_iff in A as [A1 A2].
    apply existsb_exists in A1 as (d' & I1 & Q). destruct (dest_eq d d') as [<-|]; [|discriminate].
    apply existsb_exists in A2 as (s' & I2 & Q2). apply String.eqb_eq in Q2. subst s'. auto.
  - intros s d I N. specialize (B _ I). rewrite forallb_forall in B. specialize (B _ N). destruct (option_named t s) as [d'|]; [|discriminate].
    destruct (dest_eq d d') as [<-|]; [reflexivity|discriminate].
Qed.
Lemma main_tabled : tabled main_options main_set. Proof. apply tabled_by; reflexivity. Qed.
Lemma sub_tabled c : tabled (options_of c) (sub_set c). Proof. destruct c; apply tabled_by; reflexivity. Qed.
Lemma tabled_some t set s d : tabled t set -> option_named t s = Some d -> In d set /\ In s (names d).
Proof. intros [A _] H. destruct (find_named t s) as [N|(d' & N & I)]; [congruence|]. assert (d' = d) by congruence. subst. auto. Qed.
Lemma word_named t set s : tabled t set -> is_word s = true -> option_named t s = None.
Proof. intros T W. destruct (option_named t s) as [d|] eqn:N; [|reflexivity]. apply (tabled_some _ _ _ _ T) in N as [_ N]. apply name_not_word in N. congruence. Qed.
Lemma takes_iff d : takes d = true <-> In d valued.
Proof. destruct d; cbn; split; intros H; try discriminate; try reflexivity; ins; try congruence; auto 10. Qed.
Lemma takes_not d : takes d = false <-> ~ In d valued.
Proof. rewrite <- takes_iff. destruct (takes d); split; congruence. Qed.
Lemma known_iff s : known s = true <-> known_arg s.
Proof.
  unfold known, known_arg. split.
  - intros H. apply orb_true_iff in H as [H|H]; [left; apply is_word_iff; exact H|]. destruct (find_named all_options s) as [N|(d & N & I)]; rewrite N in H; [discriminate|].
    right. exists d. assert (T : tabled all_options (main_set ++ sub_set SubCompress ++ sub_set SubDecompress ++ sub_set SubAppend)) by (apply tabled_by; reflexivity).
    apply (tabled_some _ _ _ _ T) in N as [_ N]. exact N.
  - intros [H|[d H]]; [apply is_word_iff in H; rewrite H; reflexivity|]. apply orb_true_iff. right.
    assert (T : tabled all_options (main_set ++ sub_set SubCompress ++ sub_set SubDecompress ++ sub_set SubAppend)) by (apply tabled_by; reflexivity).
    rewrite (proj2 T s d); [reflexivity| |exact H]. apply in_or_app. destruct d; cbn; tauto.
Qed.
Lemma sub_of_iff s c : sub_of s = Some c <-> In s (sub_names c).
Proof.
  unfold sub_of, mem_str. cbn [existsb]. split.
  - intros H. repeat match type of H with context [String.eqb s ?x] => destruct (String.eqb s x) eqn:?; cbn [orb] in H end; try discriminate; injection H as <-;
    match goal with H : String.eqb _ _ = true |- _ => apply String.eqb_eq in H; subst s end; cbn; tauto.
  - intros H. destruct c; cbn [sub_names In] in H; ins; subst s; reflexivity.
Qed.
Lemma sub_plain s c : In s (sub_names c) -> plain s.
Proof. intros H. apply is_word_iff. destruct c; cbn [sub_names In] in H; ins; subst s; reflexivity. Qed.

(** ** Spelled arguments *)
Definition to_item (a : arg) : item := match a with Given d _ v => Opt d v | File w => Word w end.
Lemma items_cons stop t set a la l : tabled t set -> spells set a la -> (stop = true -> files [a] = []) ->
  items stop t (la ++ l) = (to_item a :: fst (items stop t l), snd (items stop t l)).
Proof.
  intros T S F. destruct a as [d name v|w]; cbn [spells] in S.
  - destruct S as (I & N & S). assert (ON : option_named t name = Some d) by (apply (proj2 T); assumption).
    destruct S as [(V & P & ->)|(V & -> & ->)]; cbn [app items]; rewrite ON.
    + apply takes_iff in V. apply is_word_iff in P. rewrite V, P. destruct (items stop t l); reflexivity.
    + apply takes_not in V. rewrite V. destruct (items stop t l); reflexivity.
  - destruct S as (P & ->). apply is_word_iff in P. cbn [app items]. rewrite (word_named _ _ _ T P), P.
    destruct stop; [discriminate (F eq_refl)|]. destruct (items false t l); reflexivity.
Qed.
Lemma items_spelled stop t set q lq l : tabled t set -> spelling set q lq -> (stop = true -> files q = []) ->
  items stop t (lq ++ l) = (map to_item q ++ fst (items stop t l), snd (items stop t l)).
Proof.
  intros T S. revert l. induction S as [|a la q r SA S IH]; intros l F; [cbn [app map]; apply surjective_pairing|].
  rewrite <- app_assoc, (items_cons stop t set a la (r ++ l) T SA), IH; [reflexivity| |].
  - intros H. specialize (F H). destruct a; [exact F|discriminate].
  - intros H. specialize (F H). destruct a; [reflexivity|discriminate].
Qed.
Lemma spelled_known set q l : spelling set q l -> Forall known_arg l.
Proof.
  induction 1 as [|a la q r SA S IH]; [constructor|]. apply Forall_app. split; [|exact IH]. destruct a as [d name v|w]; cbn [spells] in SA.
  - destruct SA as (I & N & SA). assert (K : known_arg name) by (right; exists d; exact N). destruct SA as [(_ & P & ->)|(_ & _ & ->)]; [constructor; [exact K|constructor; [left; exact P|constructor]]|constructor; [exact K|constructor]].
  - destruct SA as (P & ->). constructor; [left; exact P|constructor].
Qed.
(** The converse: arguments read without fault are spelled so. *)
Definition clean (i : list item) : Prop := forall x, In x i -> x <> Lacking /\ x <> Foreign.
Lemma clean_cons x i : clean (x :: i) -> clean i.
Proof. intros H y I. apply H. right. exact I. Qed.
Lemma items_inv stop t set : tabled t set -> forall k l, (List.length l <= k)%nat -> clean (fst (items stop t l)) ->
  exists q lq, spelling set q lq /\ map to_item q = fst (items stop t l) /\ l = lq ++ snd (items stop t l) /\
    (stop = true -> files q = [] /\ match snd (items stop t l) with [] => True | s :: _ => plain s end) /\ (stop = false -> snd (items stop t l) = []).
Proof.
  intros T. induction k as [|k IH]; intros l L C.
  - destruct l; [|cbn in L; lia]. exists [], []. repeat split; constructor.
  - destruct l as [|s r]; [exists [], []; repeat split; constructor|]. cbn [items] in *. cbn [List.length] in L.
    destruct (option_named t s) as [d|] eqn:ON.
    + pose proof (tabled_some _ _ _ _ T ON) as [I N]. destruct (takes d) eqn:TK.
      * destruct r as [|v r]; [destruct (C Lacking) as [H _]; [left; reflexivity|congruence]|]. cbn [List.length] in L.
        destruct (is_word v) eqn:W; [|destruct (C Lacking) as [H _]; [left; reflexivity|congruence]].
        destruct (items stop t r) as [i x] eqn:IT. cbn [fst snd] in *. destruct (IH r) as (q & lq & S & M & EQ & F1 & F2); [lia|rewrite IT; eapply clean_cons; exact C|].
        rewrite IT in M, EQ, F1, F2. cbn [fst snd] in *. exists (Given d s v :: q), ([s; v] ++ lq). split; [|split; [|split; [|split]]].
        -- constructor; [|exact S]. cbn [spells]. split; [exact I|]. split; [exact N|]. left. split; [apply takes_iff; exact TK|]. split; [apply is_word_iff; exact W|reflexivity].
        -- cbn [map to_item]. rewrite M. reflexivity.
        -- cbn [app]. rewrite <- EQ. reflexivity.
        -- exact F1.
        -- exact F2.
      * destruct (items stop t r) as [i x] eqn:IT. cbn [fst snd] in *. destruct (IH r) as (q & lq & S & M & EQ & F1 & F2); [lia|rewrite IT; eapply clean_cons; exact C|].
        rewrite IT in M, EQ, F1, F2. cbn [fst snd] in *. exists (Given d s "" :: q), ([s] ++ lq). split; [|split; [|split; [|split]]].
        -- constructor; [|exact S]. cbn [spells]. split; [exact I|]. split; [exact N|]. right. split; [apply takes_not; exact TK|]. split; reflexivity.
        -- cbn [map to_item]. rewrite M. reflexivity.
        -- cbn [app]. rewrite <- EQ. reflexivity.
        -- exact F1.
        -- exact F2.
    + destruct (is_word s) eqn:W; [|destruct (C Foreign) as [_ H]; [left; reflexivity|congruence]]. destruct stop.
      * cbn [fst snd] in *. exists [], []. split; [constructor|]. split; [reflexivity|]. split; [reflexivity|]. split; [|discriminate]. intros _. split; [reflexivity|apply is_word_iff; exact W].
      * destruct (items false t r) as [i x] eqn:IT. cbn [fst snd] in *. destruct (IH r) as (q & lq & S & M & EQ & F1 & F2); [lia|rewrite IT; eapply clean_cons; exact C|].
        rewrite IT in M, EQ, F1, F2. cbn [fst snd] in *. exists (File s :: q), ([s] ++ lq). split; [|split; [|split; [|split]]].
        -- constructor; [|exact S]. cbn [spells]. split; [apply is_word_iff; exact W|reflexivity].
        -- cbn [map to_item]. rewrite M. reflexivity.
        -- cbn [app]. rewrite <- EQ. reflexivity.
        -- discriminate.
        -- exact F2.
Qed.

(** ** Values *)
Lemma last_given_app d a b : last_given d (a ++ b) = match last_given d b with Some x => Some x | None => last_given d a end.
Proof.
  induction a as [|x a IH]; [cbn [app last_given]; destruct (last_given d b); reflexivity|]. cbn [app last_given]. rewrite IH. destruct x; [|reflexivity]. destruct (last_given d b); reflexivity.
Qed.
Lemma files_app a b : files (a ++ b) = files a ++ files b.
Proof. induction a as [|[|] a IH]; cbn; [reflexivity|exact IH|rewrite IH; reflexivity]. Qed.
Lemma int_value_iff v z : int_value v = Ok z <-> is_int v z.
Proof. unfold int_value, is_int. rewrite <- int_of_text_iff. destruct (int_of_text v); split; congruence. Qed.
Lemma int_value_raise v e : int_value v = Raise e -> e = SystemExit 2 /\ forall z, ~ is_int v z.
Proof.
  intros H. split; [unfold int_value in H; destruct (int_of_text v); congruence|]. intros z I. apply int_value_iff in I. congruence.
Qed.
Lemma int_value_no v : (forall z, ~ is_int v z) -> int_value v = Raise (SystemExit 2).
Proof. intros H. destruct (int_value v) as [z|e] eqn:Q; [apply int_value_iff in Q; destruct (H z Q)|]. apply int_value_raise in Q as [-> _]. reflexivity. Qed.
Lemma is_int_fun v z z' : is_int v z -> is_int v z' -> z = z'.
Proof. intros A B. apply int_value_iff in A, B. congruence. Qed.
Lemma unit_dec v : ends_in_unit v \/ ~ ends_in_unit v.
Proof.
  destruct (list_ascii_of_string v) as [|x r] eqn:L using rev_ind; [right; intros (l & c & Q & _); rewrite L in Q; destruct l; discriminate|]. clear IHr.
  destruct (in_dec Ascii.ascii_dec x (map fst units)) as [I|I]; [left; exists r, x; auto|right]. intros (l & c & Q & J). rewrite L in Q. apply app_inj_tail in Q as [_ ->]. auto.
Qed.
Lemma good_size_ok v : good_size v -> exists z, chunk_size_option v = Ok z.
Proof.
  intros [-> |(N & z & Z0 & H)]; [eexists; apply (chunk_size_option_total "")|]. destruct (string_dec v "max") as [-> |M]; [eexists; apply (chunk_size_option_total "")|].
  destruct (chunk_size_option_outcome v M N) as (A & B & _). exists z. destruct H as [[U R]|[U R]]; [rewrite (A z U R)|rewrite (B z U R)]; replace (z <? 0) with false by lia; reflexivity.
Qed.
Lemma size_outcome v : (exists z, chunk_size_option v = Ok z) /\ good_size v \/ exists e, chunk_size_option v = Raise e /\ bad_size v e /\ ~ good_size v.
Proof.
  destruct (string_dec v "max") as [-> |M]; [left; split; [eexists; apply (chunk_size_option_total "")|left; reflexivity]|].
  destruct (string_dec v "") as [-> |N].
  { right. exists IndexError. split; [reflexivity|]. split; [left; auto|]. intros [H|[H _]]; [discriminate|congruence]. }
  destruct (chunk_size_option_outcome v M N) as (A & B & C & D & F). destruct (unit_dec v) as [U|U].
  - destruct (reverse_pretty v) as [z|e] eqn:R.
    + rewrite (A z U eq_refl). destruct (z <? 0) eqn:Z0; [right|left; split; [eauto|right; split; [exact N|exists z; split; [lia|left; auto]]]].
      assert (G : ~ good_size v). { intros [H|(_ & z' & Z' & [[_ H]|[H _]])]; [congruence| |exact (H U)]. injection (eq_trans (eq_sym R) H) as <-. lia. }
      exists (SystemExit 1). split; [reflexivity|]. split; [|exact G]. right. right. repeat split; [exact N|exact G|]. intros [_ H]. congruence.
    + right. assert (G : ~ good_size v). { intros [H|(_ & z' & Z' & [[_ H]|[H _]])]; [congruence|congruence|exact (H U)]. }
      destruct (reverse_pretty_raise v e R N) as [-> | ->].
      * exists (SystemExit 1). split; [apply C; auto|]. split; [|exact G]. right. right. repeat split; [exact N|exact G|]. intros [_ H]. congruence.
      * exists OverflowError. split; [apply D; auto|]. split; [|exact G]. right. left. auto.
  - destruct (int_of_text v) as [z|e] eqn:R.
    + apply int_of_text_iff in R. rewrite (B z U R). destruct (z <? 0) eqn:Z0; [right|left; split; [eauto|right; split; [exact N|exists z; split; [lia|right; auto]]]].
      assert (G : ~ good_size v). { intros [H|(_ & z' & Z' & [[H _]|[_ H]])]; [congruence|exact (U H)|]. pose proof (is_int_fun v z z' R H). lia. }
      exists (SystemExit 1). split; [reflexivity|]. split; [|exact G]. right. right. repeat split; [exact N|exact G|]. intros [H _]. exact (U H).
    + right. assert (NI : forall z, ~ int_literal (list_ascii_of_string v) z) by (intros z I; apply int_of_text_iff in I; congruence).
      assert (G : ~ good_size v). { intros [H|(_ & z' & Z' & [[H _]|[_ H]])]; [congruence|exact (U H)|exact (NI z' H)]. }
      exists (SystemExit 1). split; [apply F; auto|]. split; [|exact G]. right. right. repeat split; [exact N|exact G|]. intros [H _]. exact (U H).
Qed.
Lemma bad_size_fun v e e' : bad_size v e -> bad_size v e' -> e = e'.
Proof. intros [[A ->]|[(A & B & C & ->)|(A & B & C & ->)]] [[A' ->]|[(A' & B' & C' & ->)|(A' & B' & C' & ->)]]; try reflexivity; try congruence; exfalso; tauto. Qed.
Lemma checksum_iff v : (exists c, check_valid_checksum v = Ok c) <-> In v checksum_names.
Proof.
  split.
  - intros [c H]. apply check_valid_checksum_inv in H. subst v. destruct c; cbn; tauto.
  - intros H. cbn [checksum_names In] in H. ins; subst v; eexists; reflexivity.
Qed.

(** ** Actions *)
Definition holds (p : list arg) (n : ns) : Prop :=
  (n_verbose n = is_given Verbose p /\ n_debug n = is_given Debug p /\ n_force n = is_given Force p /\
   int_or (last_given Typesize p) 8 (n_typesize n) /\ int_or (last_given Clevel p) 7 (n_clevel n) /\
   n_shuffle n = negb (is_given NoShuffle p) /\ n_cname n = text_or (last_given Cname p) "blosclz") /\
  (n_chunk n = last_given ChunkSize p /\ n_checksum n = text_or (last_given Checksum p) "adler32" /\
   n_offsets n = negb (is_given NoOffsets p) /\ n_meta n = last_given Metadata p /\ n_nocheck n = is_given NoCheck p).
Lemma holds0 : holds [] ns0. Proof. repeat split. Qed.
Lemma last_given_one d p d' s v : last_given d (p ++ [Given d' s v]) = if dest_eq d d' then Some v else last_given d p.
Proof. rewrite last_given_app. cbn [last_given]. destruct (dest_eq d d'); reflexivity. Qed.
Lemma holds_file p n w : holds p n -> holds (p ++ [File w]) n.
Proof. unfold holds, is_given. rewrite !last_given_app. cbn [last_given]. auto. Qed.

Section Acts.
Variable E : Env.
Lemma act_good d s v p n : holds p n -> good_value E d v -> ~ clash d p ->
  exists n', act E d v n = Ok n' /\ holds (p ++ [Given d s v]) n'.
Proof.
  intros H G C. destruct n as [vb db fo th ts cl sh cn ch ck off me nc]. unfold holds, is_given in *. rewrite !last_given_one in *.
  cbn [n_verbose n_debug n_force n_typesize n_clevel n_shuffle n_cname n_chunk n_checksum n_offsets n_meta n_nocheck] in H.
  destruct d; cbn [good_value] in G; cbn [act]; try (destruct G; fail).
  - destruct db eqn:DB; [exfalso; apply C; left; split; [reflexivity|unfold is_given; destruct (last_given Debug p); [reflexivity|destruct H as [(_ & H & _) _]; discriminate]]|].
    eexists. split; [reflexivity|]. cbn. intuition auto.
  - destruct vb eqn:VB; [exfalso; apply C; right; split; [reflexivity|unfold is_given; destruct (last_given Verbose p); [reflexivity|destruct H as [(H & _) _]; discriminate]]|].
    eexists. split; [reflexivity|]. cbn. intuition auto.
  - eexists. split; [reflexivity|]. cbn. intuition auto.
  - destruct G as (z & I & R). apply int_value_iff in I. rewrite I. cbn [rbind]. unfold BLOSC_MAX_THREADS. replace ((1 <=? z) && (z <=? 256)) with true by lia.
    eexists. split; [reflexivity|]. cbn. intuition auto.
  - destruct G as (z & I). pose proof I as I'. apply int_value_iff in I. rewrite I. cbn [rbind]. eexists. split; [reflexivity|]. cbn. intuition auto.
  - destruct G as (z & I & R). pose proof I as I'. apply int_value_iff in I. rewrite I. cbn [rbind]. unfold MIN_CLEVEL, MAX_CLEVEL. replace ((0 <=? z) && (z <=? 9)) with true by lia.
    eexists. split; [reflexivity|]. cbn. intuition auto.
  - eexists. split; [reflexivity|]. cbn. intuition auto.
  - rewrite G. eexists. split; [reflexivity|]. cbn. intuition auto.
  - apply good_size_ok in G as (z & G). rewrite G. cbn [rbind]. eexists. split; [reflexivity|]. cbn. intuition auto.
  - apply checksum_iff in G as (c & G). rewrite G. eexists. split; [reflexivity|]. cbn. intuition auto.
  - eexists. split; [reflexivity|]. cbn. intuition auto.
  - eexists. split; [reflexivity|]. cbn. intuition auto.
  - eexists. split; [reflexivity|]. cbn. intuition auto.
Qed.
Lemma act_bad d v n e : bad_value E d v e -> act E d v n = Raise e.
Proof.
  intros B. destruct n as [vb db fo th ts cl sh cn ch ck off me nc]. destruct d; cbn [bad_value good_value] in B; cbn [act]; try (subst e; reflexivity); try (apply proj1 in B; destruct (B I); fail).
  - destruct B as [[N ->]|(z & I & R & ->)]; [rewrite (int_value_no v N); reflexivity|]. apply int_value_iff in I. rewrite I. cbn [rbind]. unfold BLOSC_MAX_THREADS. replace ((1 <=? z) && (z <=? 256)) with false by lia. reflexivity.
  - destruct B as [N ->]. rewrite int_value_no; [reflexivity|]. intros z I. apply N. eauto.
  - destruct B as [N ->]. destruct (int_value v) as [z|e] eqn:Q.
    + apply int_value_iff in Q. cbn [rbind]. unfold MIN_CLEVEL, MAX_CLEVEL. destruct ((0 <=? z) && (z <=? 9)) eqn:R; [|reflexivity]. destruct N. exists z. split; [exact Q|lia].
    + apply int_value_raise in Q as [-> _]. reflexivity.
  - destruct B as [N ->]. destruct (e_cname_ok E v); [destruct (N eq_refl)|reflexivity].
  - destruct (size_outcome v) as [[_ G]|(e' & Q & B' & _)].
    + destruct B as [[-> _]|[(N & U & R & _)|(_ & N & _)]]; [|  |destruct (N G)].
      * destruct G as [G|[G _]]; congruence.
      * destruct G as [-> |(_ & z & _ & [[_ H]|[H _]])]; [|congruence|destruct (H U)]. vm_compute in R. discriminate.
    + rewrite Q. cbn [rbind]. f_equal. eapply bad_size_fun; eassumption.
  - destruct B as [N ->]. destruct (check_valid_checksum v) eqn:Q; [|reflexivity]. destruct N. apply checksum_iff. eauto.
Qed.
Lemma act_clash d v p n : holds p n -> clash d p -> act E d v n = Raise (SystemExit 2).
Proof.
  intros H C. destruct n as [vb db fo th ts cl sh cn ch ck off me nc]. destruct H as [(H1 & H2 & _) _]. cbn [n_verbose n_debug] in H1, H2.
  destruct C as [[-> C]|[-> C]]; rewrite <- ?H1, <- ?H2 in C; cbn [act]; rewrite C; reflexivity.
Qed.
Lemma act_inv d v n n' : act E d v n = Ok n' -> good_value E d v.
Proof.
  intros H. destruct n as [vb db fo th ts cl sh cn ch ck off me nc]. destruct d; cbn [good_value]; cbn [act] in H; try exact I; try discriminate.
  - destruct (int_value v) as [z|e] eqn:Q; [|discriminate]. cbn [rbind] in H. unfold BLOSC_MAX_THREADS in H. destruct ((1 <=? z) && (z <=? 256)) eqn:R; [|discriminate]. exists z. apply int_value_iff in Q. split; [exact Q|lia].
  - destruct (int_value v) as [z|e] eqn:Q; [|discriminate]. exists z. apply int_value_iff in Q. exact Q.
  - destruct (int_value v) as [z|e] eqn:Q; [|discriminate]. cbn [rbind] in H. unfold MIN_CLEVEL, MAX_CLEVEL in H. destruct ((0 <=? z) && (z <=? 9)) eqn:R; [|discriminate]. exists z. apply int_value_iff in Q. split; [exact Q|lia].
  - destruct (e_cname_ok E v); [reflexivity|discriminate].
  - destruct (size_outcome v) as [[_ G]|(e' & Q & B' & _)]; [exact G|]. rewrite Q in H. discriminate.
  - destruct (check_valid_checksum v) eqn:Q; [|discriminate]. apply checksum_iff. eauto.
Qed.
Lemma clash_dec d p : clash d p \/ ~ clash d p.
Proof.
  unfold clash. destruct (dest_eq d Verbose) as [-> |V]; [destruct (is_given Debug p)|destruct (dest_eq d Debug) as [-> |D]; [destruct (is_given Verbose p)|]]; intuition congruence.
Qed.

(** A list of arguments, from a state. *)
Definition steps_ok (p q : list arg) : Prop :=
  forall a d s v b, q = a ++ Given d s v :: b -> good_value E d v /\ ~ clash d (p ++ a).
Lemma steps_cons p d s v q : good_value E d v -> ~ clash d p -> steps_ok (p ++ [Given d s v]) q -> steps_ok p (Given d s v :: q).
Proof.
  intros G C S a d' s' v' b EQ. destruct a as [|x a].
  - injection EQ as <- <- <- _. rewrite app_nil_r. auto.
  - injection EQ as <- EQ. destruct (S a d' s' v' b EQ) as [G' C']. rewrite <- app_assoc in C'. auto.
Qed.
Lemma steps_tail p x q : steps_ok p (x :: q) -> steps_ok (p ++ [x]) q.
Proof. intros S a d s v b EQ. rewrite <- app_assoc. apply (S (x :: a) d s v b). rewrite EQ. reflexivity. Qed.
Lemma perform_good q r : forall p n, holds p n -> steps_ok p q ->
  exists n', perform E (map to_item q ++ r) n = perform E r n' /\ holds (p ++ q) n'.
Proof.
  induction q as [|x q IH]; intros p n H S; [exists n; rewrite app_nil_r; auto|]. destruct x as [d s v|w]; cbn [map to_item app perform].
  - destruct (S [] d s v q eq_refl) as [G C]. rewrite app_nil_r in C. destruct (act_good d s v p n H G C) as (n1 & A & H1). rewrite A.
    destruct (IH (p ++ [Given d s v]) n1 H1 (steps_tail _ _ _ S)) as (n' & P & H'). rewrite <- app_assoc in H'. eauto.
  - destruct (IH (p ++ [File w]) n (holds_file p n w H) (steps_tail _ _ _ S)) as (n' & P & H'). rewrite <- app_assoc in H'. eauto.
Qed.
Lemma perform_inv q : forall p n n', holds p n -> perform E (map to_item q) n = Done n' -> steps_ok p q /\ holds (p ++ q) n'.
Proof.
  induction q as [|x q IH]; intros p n n' H P.
  - cbn in P. injection P as <-. rewrite app_nil_r. split; [|exact H]. intros a d s v b EQ. destruct a; discriminate.
  - destruct x as [d s v|w]; cbn [map to_item perform] in P.
    + destruct (act E d v n) as [n1|e] eqn:A; [|discriminate]. pose proof (act_inv d v n n1 A) as G.
      destruct (clash_dec d p) as [C|C]; [rewrite (act_clash d v p n H C) in A; discriminate|].
      destruct (act_good d s v p n H G C) as (n2 & A2 & H2). assert (n2 = n1) by congruence. subst n2.
      destruct (IH _ _ _ H2 P) as [S H']. rewrite <- app_assoc in H'. split; [|exact H']. apply steps_cons; assumption.
    + destruct (IH _ _ _ (holds_file p n w H) P) as [S H']. rewrite <- app_assoc in H'. split; [|exact H'].
      intros a d s v b EQ. destruct a as [|y a]; [discriminate|]. injection EQ as <- EQ. destruct (S a d s v b EQ) as [G C]. rewrite <- app_assoc in C. auto.
Qed.
Lemma perform_clean l n n' : perform E l n = Done n' -> clean l.
Proof.
  revert n. induction l as [|x l IH]; intros n P; [intros y []|]. destruct x as [d v|w| |]; cbn [perform] in P; try discriminate.
  - destruct (act E d v n); [|discriminate]. intros y [<-|I]; [split; discriminate|eapply IH; eassumption].
  - intros y [<-|I]; [split; discriminate|eapply IH; eassumption].
Qed.
Lemma is_given_mid d a s v b : is_given d (a ++ Given d s v :: b) = true.
Proof. unfold is_given. rewrite last_given_app. cbn [last_given]. destruct (last_given d b); [reflexivity|]. destruct (dest_eq d d); [reflexivity|congruence]. Qed.
Lemma is_given_or d a b : is_given d (a ++ b) = is_given d a || is_given d b.
Proof. unfold is_given. rewrite last_given_app. destruct (last_given d b); [rewrite orb_true_r; reflexivity|]. rewrite orb_false_r. reflexivity. Qed.
Lemma is_given_in d l : is_given d l = true -> exists a s v b, l = a ++ Given d s v :: b.
Proof.
  induction l as [|x l IH]; [discriminate|]. change (x :: l) with ([x] ++ l). rewrite is_given_or. intros H. apply orb_true_iff in H as [H|H].
  - destruct x as [d' s v|w]; [|discriminate]. unfold is_given in H. cbn [last_given] in H. destruct (dest_eq d d') as [<-|]; [|discriminate]. exists [], s, v, l. reflexivity.
  - destruct (IH H) as (a & s & v & b & ->). exists (x :: a), s, v, b. reflexivity.
Qed.
(** In order, and step by step. *)
Lemma order_steps l : in_order E l -> steps_ok [] l.
Proof.
  intros [G N] a d s v b EQ. split; [apply (G d s v); rewrite EQ; apply in_elt|]. cbn [app]. intros [[-> C]|[-> C]]; apply N; rewrite EQ; split; try apply is_given_mid; rewrite is_given_or, C; reflexivity.
Qed.
Lemma steps_order l : steps_ok [] l -> in_order E l.
Proof.
  intros S. split.
  - intros d s v I. apply in_split in I as (a & b & EQ). apply (S a d s v b EQ).
  - intros [V D]. apply is_given_in in V as (a & s & v & b & V). rewrite V in D. rewrite is_given_or in D. destruct (is_given Debug a) eqn:DA.
    + apply (S a Verbose s v b V). left. auto.
    + change (Given Verbose s v :: b) with ([Given Verbose s v] ++ b) in D. rewrite is_given_or in D. cbn in D. apply is_given_in in D as (a' & s' & v' & b' & D). subst b.
      apply (S (a ++ Given Verbose s v :: a') Debug s' v' b'); [rewrite V, <- app_assoc; reflexivity|]. right. split; [reflexivity|]. cbn [app]. apply is_given_mid.
Qed.
Lemma perform_refused set t stop q lq bad e p n : tabled t set -> spelling set q lq -> (stop = true -> files q = []) -> holds p n -> steps_ok p q ->
  refused E set (p ++ q) bad e -> perform E (fst (items stop t (lq ++ bad))) n = Fail e.
Proof.
  intros T SP F H S (d & name & r & I & N & -> & B). rewrite (items_spelled stop t set q lq (name :: r) T SP F). cbn [fst].
  destruct (perform_good q (fst (items stop t (name :: r))) p n H S) as (n' & -> & H'). cbn [items]. rewrite (proj2 T name d I N).
  destruct B as [(V & v & r' & -> & P & B)|[(V & -> & B)|[(D & ->)|(C & ->)]]].
  - apply takes_iff in V. apply is_word_iff in P. rewrite V, P. destruct (items stop t r') as [i x]. cbn [fst perform]. rewrite (act_bad d v n' e B). reflexivity.
  - apply takes_iff in V. rewrite V. destruct B as [-> |(v & r' & -> & P)]; [reflexivity|]. apply is_word_not in P. rewrite P. reflexivity.
  - destruct n'. destruct D as [-> | ->]; cbn [takes]; destruct (items stop t r) as [i x]; cbn [fst perform act]; reflexivity.
  - assert (takes d = false) as -> by (destruct C as [[-> _]|[-> _]]; reflexivity). destruct (items stop t r) as [i x]. cbn [fst perform]. rewrite (act_clash d "" _ n' H' C). reflexivity.
Qed.
End Acts.
