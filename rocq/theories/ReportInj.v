(** What 'blpk info' prints determines what it was printed for. *)
From Verif Require Import Base PyVal Checksums Headers Pretty Args FileIO Append Files Cli Objects Log ObjectsSpec ReprSpec Report ReportSpec Spec
  BaseLemmas HeaderProofs PrettyProofs ObjectsProofs ReprProofs ReportProofs.

(** ** Characters of literals *)
Lemma digit_of_lacks d c v : digit_of 10 c = Some v -> (nat_of_ascii d < 48 \/ 58 <= nat_of_ascii d)%nat -> c <> d.
Proof.
  unfold digit_of. intros H Hd ->. destruct ((48 <=? Z.of_nat (nat_of_ascii d)) && (Z.of_nat (nat_of_ascii d) <=? 57)) eqn:X; [lia|].
  destruct ((97 <=? Z.of_nat (nat_of_ascii d)) && (Z.of_nat (nat_of_ascii d) <=? 102)) eqn:Y; cbn in H; [|discriminate].
  destruct (Z.of_nat (nat_of_ascii d) - 87 <? 10) eqn:Z; [lia|discriminate].
Qed.
Lemma read_digits_lacks d l : (nat_of_ascii d < 48 \/ 58 <= nat_of_ascii d)%nat -> forall acc z, read_digits acc l = Some z -> lacks d l.
Proof.
  intros Hd. induction l as [|c l IH]; intros acc z H; [intros []|]. cbn [read_digits] in H. destruct (digit_of 10 c) as [v|] eqn:D; [|discriminate].
  apply lacks_cons. split; [exact (digit_of_lacks d c v D Hd)|exact (IH _ _ H)].
Qed.
Lemma read_int_lacks d l z : (nat_of_ascii d < 48 \/ 58 <= nat_of_ascii d)%nat -> d <> "-"%char -> read_int l = Some z -> lacks d l.
Proof.
  intros Hd N H. destruct l as [|c l]; [discriminate|]. cbn [read_int] in H. destruct (Ascii.eqb c "-") eqn:M.
  - apply Ascii.eqb_eq in M as ->. apply lacks_cons. split; [congruence|]. destruct l as [|c' l]; [intros []|].
    destruct (read_digits 0 (c' :: l)) eqn:RD; [|discriminate]. exact (read_digits_lacks d _ Hd _ _ RD).
  - exact (read_digits_lacks d _ Hd _ _ H).
Qed.
Lemma read_int_ne l z : read_int l = Some z -> l <> []. Proof. destruct l; discriminate. Qed.
Lemma read_rest_last q : forall n l s, (List.length l <= n)%nat -> read_rest q l = Some s -> exists l', l = l' ++ [q].
Proof.
  induction n as [|n IH]; intros l s Hn H; [destruct l; [discriminate|cbn in Hn; lia]|].
  destruct l as [|c r]; [discriminate|]. cbn [List.length] in Hn.
  assert (K : forall r0 s0 pre, (List.length r0 <= n)%nat -> read_rest q r0 = Some s0 -> exists l', pre ++ r0 = l' ++ [q]).
  { intros r0 s0 pre L X. destruct (IH r0 s0 L X) as (l' & ->). exists (pre ++ l'). apply app_assoc. }
  cbn [read_rest] in H.
  destruct (Ascii.eqb c q) eqn:Q; [apply Ascii.eqb_eq in Q as ->; destruct r; [exists []; reflexivity|discriminate]|].
  destruct (Ascii.eqb c "\") eqn:B.
  2:{ destruct (read_rest q r) as [s0|] eqn:R; [|discriminate]. apply (K r s0 [c]); [lia|exact R]. }
  destruct r as [|e r]; [discriminate|]. cbn [List.length] in Hn.
  assert (G1 : forall x s1, option_map (cons x) (read_rest q r) = Some s1 -> exists l', c :: e :: r = l' ++ [q]).
  { intros x s1 X. destruct (read_rest q r) as [s0|] eqn:R; [|discriminate]. apply (K r s0 [c; e]); [lia|exact R]. }
  assert (G2 : forall a b r' x s1, r = a :: b :: r' -> option_map (cons x) (read_rest q r') = Some s1 -> exists l', c :: e :: r = l' ++ [q]).
  { intros a b r' x s1 -> X. cbn [List.length] in Hn. destruct (read_rest q r') as [s0|] eqn:R; [|discriminate]. apply (K r' s0 [c; e; a; b]); [lia|exact R]. }
  destruct e as [[] [] [] [] [] [] [] []]; try (eapply G1; exact H); try (cbn in H; discriminate);
    try (cbn [Ascii.eqb Bool.eqb orb squote dquote ascii_of_nat] in H; cbn in H; (eapply G1; exact H) || discriminate).
  destruct r as [|a [|b r']]; try (cbn in H; discriminate).
  destruct (digit_of 16 a); [|discriminate]. destruct (digit_of 16 b); [|discriminate]. eapply G2; [reflexivity|exact H].
Qed.
Lemma read_quoted_last l s : read_quoted l = Some s -> exists l' q, (q = squote \/ q = dquote) /\ l = l' ++ [q].
Proof.
  destruct l as [|c r]; [discriminate|]. cbn [read_quoted]. destruct (Ascii.eqb c squote || Ascii.eqb c dquote) eqn:Q; [|discriminate].
  intros H. destruct (read_rest_last c _ r s (le_n _) H) as (l' & ->). exists (c :: l'), c. split; [|reflexivity].
  apply orb_prop in Q as [Q|Q]; apply Ascii.eqb_eq in Q; auto.
Qed.
Lemma snoc_eq {A} (x y : list A) a b : x ++ [a] = y ++ [b] -> x = y /\ a = b.
Proof. intros H. apply app_inj_tail in H. exact H. Qed.
Lemma read_value_last t v x : read_value t = Some v -> t = x ++ [")"%char] -> False.
Proof.
  unfold read_value. destruct (list_eq_dec _ _ _) as [->|_]; [intros _ H; apply (snoc_eq (t_ "Non")) in H as [_ H]; discriminate|].
  destruct (list_eq_dec _ _ _) as [->|_]; [intros _ H; apply (snoc_eq (t_ "Tru")) in H as [_ H]; discriminate|].
  destruct (list_eq_dec _ _ _) as [->|_]; [intros _ H; apply (snoc_eq (t_ "Fals")) in H as [_ H]; discriminate|].
  assert (Q : forall r s y, read_quoted r = Some s -> y ++ r = x ++ [")"%char] -> False).
  { intros r s y R EQ. destruct (read_quoted_last _ _ R) as (l' & q & Q & ->). rewrite app_assoc in EQ. apply snoc_eq in EQ as [_ EQ]. destruct Q; subst; discriminate. }
  destruct t as [|c r]; [discriminate|]. destruct (Ascii.eqb c "b").
  - destruct (read_quoted r) as [s|] eqn:R; [|discriminate]. intros _ EQ. exact (Q r s [c] R EQ).
  - destruct (Ascii.eqb c squote || Ascii.eqb c dquote).
    + destruct (read_quoted (c :: r)) as [s|] eqn:R; [|discriminate]. intros _ EQ. exact (Q _ s [] R EQ).
    + destruct (read_int (c :: r)) as [z|] eqn:R; [|discriminate]. intros _ EQ.
      apply (read_int_lacks ")" _ z) in R; [|left; cbn; lia|discriminate]. apply R. rewrite EQ. apply in_or_app. right. left. reflexivity.
Qed.
Lemma cut_last c (x y x' y' : text) : lacks c y -> lacks c y' -> x ++ c :: y = x' ++ c :: y' -> x = x' /\ y = y'.
Proof.
  intros L L' EQ. apply (f_equal (@rev ascii)) in EQ. rewrite !rev_app_distr in EQ. cbn [rev] in EQ. rewrite <- !app_assoc in EQ. cbn [app] in EQ.
  apply cut_first in EQ as [E1 E2]; [|intros I; apply in_rev in I; auto|intros I; apply in_rev in I; auto].
  split; [rewrite <- (rev_involutive x), E2, rev_involutive; reflexivity|rewrite <- (rev_involutive y), E1, rev_involutive; reflexivity].
Qed.
Lemma shown_inj v v' t : shown v t -> shown v' t -> v = v'.
Proof.
  assert (M : forall v z p d, read_value t = Some v -> t = p ++ t_ " (" ++ d ++ t_ "B)" -> read_int d = Some z -> False).
  { intros w z p d R EQ _. apply (read_value_last t w (p ++ t_ " (" ++ d ++ t_ "B") R). rewrite EQ, <- !app_assoc. reflexivity. }
  intros [H|(z & p & d & -> & EQ & R)] [H'|(z' & p' & d' & -> & EQ' & R')].
  - congruence.
  - destruct (M _ _ _ _ H EQ' R').
  - destruct (M _ _ _ _ H' EQ R).
  - f_equal. rewrite EQ in EQ'. change (t_ " (") with (" "%char :: t_ "(") in EQ'. cbn [app] in EQ'.
    apply cut_last in EQ' as [_ EQ'].
    + apply app_inv_head, app_inv_tail in EQ'. congruence.
    + change (t_ "(" ++ d ++ t_ "B)") with ("("%char :: d ++ t_ "B)"). rewrite lacks_cons, lacks_app. split; [discriminate|]. split; [|cbv; intuition discriminate].
      apply (read_int_lacks " " _ z); [left; cbn; lia|discriminate|exact R].
    + change (t_ "(" ++ d' ++ t_ "B)") with ("("%char :: d' ++ t_ "B)"). rewrite lacks_cons, lacks_app. split; [discriminate|]. split; [|cbv; intuition discriminate].
      apply (read_int_lacks " " _ z'); [left; cbn; lia|discriminate|exact R'].
Qed.
Lemma shown_lines_inj n l : forall l' ls, map fst l = map fst l' -> Forall2 (shown_line n) l ls -> Forall2 (shown_line n) l' ls -> l = l'.
Proof.
  induction l as [|[k v] l IH]; intros [|[k' v'] l'] ls K F F'; try discriminate; [reflexivity|]. cbn [map fst] in K. injection K as -> K.
  inversion F as [|? x ? ls1 (t & T1 & T2) F1]; subst. inversion F' as [|? ? ? ? (t' & T1' & T2') F1']; subst. cbn [fst snd] in *.
  cbn [app t_] in T1'. apply app_inv_head in T1'. apply app_inv_head in T1'. injection T1' as <-. rewrite (shown_inj _ _ _ T2 T2'). f_equal. exact (IH _ _ K F1 F1').
Qed.
Lemma header_block_inj h h' ls : header_block h ls -> header_block h' ls -> h = h'.
Proof.
  intros (f & -> & F) (f' & EQ & F'). injection EQ as <-. pose proof (fun K => shown_lines_inj _ _ _ _ K F F') as G. specialize (G eq_refl). clear F F'. rename G into F'. destruct h, h'. cbn -[t_ cks_name codec_name] in F'.
  injection F' as -> -> -> EC -> -> -> -> ->. apply t_inj, cks_name_inj in EC. subst. reflexivity.
Qed.
Lemma mheader_block_inj h h' ls : metadata_header_block h ls -> metadata_header_block h' ls -> h = h'.
Proof.
  intros (f & -> & F) (f' & EQ & F'). injection EQ as <-. pose proof (fun K => shown_lines_inj _ _ _ _ K F F') as G. specialize (G eq_refl). clear F F'. rename G into F'. destruct h, h'. cbn -[t_ cks_name codec_name] in F'.
  injection F' as -> EO EC ED -> -> -> -> ->. apply t_inj in EO. apply t_inj, cks_name_inj in EC. apply t_inj, codec_name_inj in ED. subst. reflexivity.
Qed.
Lemma f2_len {A B} (R : A -> B -> Prop) l l' : Forall2 R l l' -> List.length l = List.length l'.
Proof. intros H; induction H; cbn [List.length]; congruence. Qed.
Lemma header_block_len h ls : header_block h ls -> List.length ls = 10%nat.
Proof. intros (f & -> & F). apply f2_len in F. cbn [List.length] in *. lia. Qed.
Lemma mheader_block_len h ls : metadata_header_block h ls -> List.length ls = 10%nat.
Proof. intros (f & -> & F). apply f2_len in F. cbn [List.length] in *. lia. Qed.

(** ** Offsets *)
Lemma commas_inj ts : forall ts' (r : text) l l', Forall2 (fun z t => read_int t = Some z) l ts -> Forall2 (fun z t => read_int t = Some z) l' ts' ->
  concat (map (fun t => t ++ t_ ",") ts) ++ t_ "...]" = concat (map (fun t => t ++ t_ ",") ts') ++ t_ "...]" -> l = l'.
Proof.
  assert (N : forall z t (r : text), read_int t = Some z -> t_ "...]" = (t ++ t_ ",") ++ r -> False).
  { intros z t r R EQ. destruct t as [|c t]; [discriminate|]. injection EQ as <- _.
    apply (read_int_lacks "." _ z) in R; [|left; cbn; lia|discriminate]. apply R. left. reflexivity. }
  induction ts as [|t ts IH]; intros [|t' ts'] r l l' F F' EQ; inversion F; inversion F'; subst.
  - reflexivity.
  - exfalso. cbn [map concat app] in EQ. rewrite <- app_assoc in EQ. eapply N; [eassumption|exact EQ].
  - exfalso. cbn [map concat app] in EQ. rewrite <- app_assoc in EQ. symmetry in EQ. eapply N; [eassumption|exact EQ].
  - cbn [map concat] in EQ. rewrite <- !app_assoc in EQ.
    change (t_ "," ++ concat (map (fun t => t ++ t_ ",") ts) ++ t_ "...]") with (","%char :: concat (map (fun t => t ++ t_ ",") ts) ++ t_ "...]") in EQ.
    change (t_ "," ++ concat (map (fun t => t ++ t_ ",") ts') ++ t_ "...]") with (","%char :: concat (map (fun t => t ++ t_ ",") ts') ++ t_ "...]") in EQ.
    apply cut_first in EQ as [-> EQ]; [|eapply read_int_lacks; [left; cbn; lia|discriminate|eassumption]|eapply read_int_lacks; [left; cbn; lia|discriminate|eassumption]].
    f_equal; [congruence|]. eapply IH; eassumption.
Qed.
Lemma offsets_report_inj l l' ls : offsets_report l ls -> offsets_report l' ls -> l = l'.
Proof.
  unfold offsets_report. destruct l as [|z l], l' as [|z' l']; [reflexivity| | |].
  - intros -> (ts & _ & EQ). discriminate.
  - intros (ts & _ & ->) EQ. discriminate.
  - intros (ts & F & ->) (ts' & F' & EQ). apply (f_equal (fun k => nth 1 k [])) in EQ. cbn [nth] in EQ. apply app_inv_head in EQ. exact (commas_inj _ _ [] _ _ F F' EQ).
Qed.

(** ** Dictionaries *)
Definition easy (v : oval) : Prop := match v with OInt _ | OBool _ => True | _ => False end.
Lemma easy_lacks y v : easy v -> read_value y = Some v -> lacks ")" y.
Proof.
  intros Ev. unfold read_value. destruct (list_eq_dec _ _ _) as [->|_]; [intros _; cbv; intuition discriminate|].
  destruct (list_eq_dec _ _ _) as [->|_]; [intros _; cbv; intuition discriminate|].
  destruct (list_eq_dec _ _ _) as [->|_]; [intros _; cbv; intuition discriminate|].
  destruct y as [|c r]; [discriminate|]. destruct (Ascii.eqb c "b"); [destruct (read_quoted r); [|discriminate]; intros H; injection H as <-; destruct Ev|].
  destruct (Ascii.eqb c squote || Ascii.eqb c dquote); [destruct (read_quoted (c :: r)); [|discriminate]; intros H; injection H as <-; destruct Ev|].
  destruct (read_int (c :: r)) as [z|] eqn:R; [|discriminate]. intros _. apply (read_int_lacks _ _ z); [left; cbn; lia|discriminate|exact R].
Qed.
(** All values but the last are numbers or truth values. *)
Lemma join_pairs_inj l : forall l' ts ts' e, map fst l = map fst l' -> Forall (fun kv => easy (snd kv)) (removelast l) -> Forall (fun kv => easy (snd kv)) (removelast l') ->
  Forall2 (fun kv t => exists y, read_value y = Some (snd kv) /\ t = pair_text (fst kv) y) l ts ->
  Forall2 (fun kv t => exists y, read_value y = Some (snd kv) /\ t = pair_text (fst kv) y) l' ts' ->
  join_text (t_ ", ") ts ++ e = join_text (t_ ", ") ts' ++ e -> l = l'.
Proof.
  induction l as [|[k v] l IH]; intros [|[k' v'] l'] ts ts' e K G G' F F' EQ; try discriminate; [reflexivity|].
  cbn [map fst] in K. injection K as -> K.
  inversion F as [|? ? ? ts1 (y & Y1 & ->) F1]; subst. inversion F' as [|? ? ? ts1' (y' & Y1' & ->) F1']; subst. cbn [fst snd] in *.
  destruct l as [|kv l], l' as [|kv' l']; try discriminate.
  - inversion F1; inversion F1'; subst. cbn [join_text] in EQ. apply app_inv_tail in EQ. unfold pair_text in EQ.
    apply app_inv_head in EQ. apply app_inv_head in EQ. apply app_inv_head in EQ. apply app_inv_tail in EQ. subst. rewrite Y1 in Y1'. injection Y1' as ->. reflexivity.
  - inversion F1 as [|? t2 ? ts2 _ _]; subst. inversion F1' as [|? t2' ? ts2' _ _]; subst.
    change (removelast ((k', v) :: kv :: l)) with ((k', v) :: removelast (kv :: l)) in G. change (removelast ((k', v') :: kv' :: l')) with ((k', v') :: removelast (kv' :: l')) in G'.
    inversion G as [|? ? G1 G2]; inversion G' as [|? ? G1' G2']; subst. cbn [snd] in *.
    change (join_text (t_ ", ") (pair_text k' y :: t2 :: ts2)) with (pair_text k' y ++ t_ ", " ++ join_text (t_ ", ") (t2 :: ts2)) in EQ.
    change (join_text (t_ ", ") (pair_text k' y' :: t2' :: ts2')) with (pair_text k' y' ++ t_ ", " ++ join_text (t_ ", ") (t2' :: ts2')) in EQ.
    unfold pair_text in EQ. rewrite <- !app_assoc in EQ. apply app_inv_head in EQ. apply app_inv_head in EQ. apply app_inv_head in EQ.
    change (t_ ")" ++ ?r) with (")"%char :: r) in EQ.
    apply cut_first in EQ as [-> EQ]; [|exact (easy_lacks _ _ G1 Y1)|exact (easy_lacks _ _ G1' Y1')].
    apply app_inv_head in EQ. rewrite Y1 in Y1'. injection Y1' as ->. f_equal. exact (IH _ _ _ e K G2 G2' F1 F1' EQ).
Qed.
Lemma dict_line_inj l l' x : map fst l = map fst l' -> Forall (fun kv => easy (snd kv)) (removelast l) -> Forall (fun kv => easy (snd kv)) (removelast l') ->
  dict_line l x -> dict_line l' x -> l = l'.
Proof.
  intros K G G' (ts & F & ->) (ts' & F' & EQ). apply app_inv_head in EQ. exact (join_pairs_inj _ _ _ _ _ K G G' F F' EQ).
Qed.
Lemma blosc_line_inj h h' x : dict_line (blosc_items h) x -> dict_line (blosc_items h') x -> h = h'.
Proof.
  intros D D'. pose proof (fun K G G' => dict_line_inj _ _ _ K G G' D D') as X. specialize (X eq_refl ltac:(repeat constructor) ltac:(repeat constructor)). clear D D'. rename X into D'.
  destruct h, h'. cbn -[t_] in D'. injection D' as -> -> -> -> -> -> ->. reflexivity.
Qed.
Lemma flags_line_inj h h' x : dict_line (flags_items h) x -> dict_line (flags_items h') x -> h = h'.
Proof.
  intros D D'. pose proof (fun K G G' => dict_line_inj _ _ _ K G G' D D') as X. specialize (X eq_refl ltac:(repeat constructor) ltac:(repeat constructor)). clear D D'. rename X into D'.
  destruct h, h'. cbn -[t_] in D'. injection D' as -> -> -> -> EC. apply t_inj in EC. subst. reflexivity.
Qed.

(** ** The whole report *)
Lemma app_len_head {A} (a a' b b' : list A) : List.length a = List.length a' -> a ++ b = a' ++ b' -> a = a' /\ b = b'.
Proof.
  revert a'. induction a as [|x a IH]; intros [|y a'] L EQ; try discriminate; [auto|]. cbn [app] in EQ. injection EQ as -> EQ. injection L as L.
  destruct (IH _ L EQ) as [-> ->]. auto.
Qed.
Lemma app_len_tail {A} (a a' b b' : list A) : List.length b = List.length b' -> a ++ b = a' ++ b' -> a = a' /\ b = b'.
Proof.
  intros L EQ. apply app_len_head; [|exact EQ]. apply (f_equal (@List.length A)) in EQ. rewrite !app_length in EQ. lia.
Qed.
Theorem info_report_inj T i i' out : info_report T i out -> info_report T i' out ->
  i_header i = i_header i' /\ i_offsets i = i_offsets i' /\ i_mheader i = i_mheader i' /\ i_blosc i = i_blosc i' /\ i_flags i = i_flags i' /\
  forall pp pp', lines (t_pprint T (i_meta i)) pp -> lines (t_pprint T (i_meta i')) pp' -> filter has_text pp = filter has_text pp'.
Proof.
  intros (hd & fl & H & F & ->) (hd' & fl' & H' & F' & EQ). apply snoc_eq in EQ as [<- EQ]. apply app_inv_head in EQ. subst fl'.
  destruct H as (hl & ol & ml & bl & HH & HO & HM & HB & ->). destruct H' as (hl' & ol' & ml' & bl' & HH' & HO' & HM' & HB' & EQ).
  apply (map_app_inj (t_ ": ")) in EQ. rewrite !app_assoc in EQ. apply app_len_tail in EQ as [EQ EB]; [|reflexivity].
  injection EB as <-. rewrite <- !app_assoc in EQ. apply app_len_head in EQ as [<- EQ]; [|exact (eq_trans (header_block_len _ _ HH) (eq_sym (header_block_len _ _ HH')))].
  rewrite (header_block_inj _ _ _ HH HH'), (blosc_line_inj _ _ _ HB HB'), (flags_line_inj _ _ _ F F').
  assert (O : ol = ol' /\ ml = ml').
  { assert (SO : forall l o, offsets_report l o -> o = [] \/ exists x, o = [t_ "'offsets':"; x]).
    { intros [|z l] o X; [left; exact X|right]. destruct X as (ts & _ & ->). eauto. }
    assert (SM : forall m q k, metadata_report T m q k -> k = [] \/ exists r, k = t_ "Metadata:" :: r).
    { intros m [q|] k X; [right; destruct X as (pp & x & _ & _ & _ & ->); eauto|left; apply X]. }
    destruct (SO _ _ HO) as [-> |[x ->]], (SO _ _ HO') as [-> |[x' ->]].
    - auto.
    - exfalso. cbn [app] in EQ. destruct (SM _ _ _ HM) as [-> |[r ->]]; discriminate.
    - exfalso. cbn [app] in EQ. destruct (SM _ _ _ HM') as [-> |[r ->]]; discriminate.
    - cbn [app] in EQ. injection EQ as -> ->. auto. }
  destruct O as [<- <-]. rewrite (offsets_report_inj _ _ _ HO HO').
  destruct (i_mheader i) as [mh|], (i_mheader i') as [mh'|].
  - destruct HM as (pp & x & _ & L & X & ->). destruct HM' as (pp' & x' & _ & L' & X' & EM). injection EM as EM.
    apply app_len_tail in EM as [EP <-]; [|exact (eq_trans (mheader_block_len _ _ X) (eq_sym (mheader_block_len _ _ X')))].
    rewrite (mheader_block_inj _ _ _ X X'). repeat (split; [reflexivity|]). intros q q' Q Q'.
    rewrite (lines_unique _ _ Q), (lines_unique _ _ Q'), <- (lines_unique _ _ L), <- (lines_unique _ _ L'). exact EP.
  - destruct HM as (pp & x & _ & _ & _ & ->). destruct HM' as [_ EM]. discriminate.
  - destruct HM' as (pp & x & _ & _ & _ & ->). destruct HM as [_ EM]. discriminate.
  - destruct HM as [-> _]. destruct HM' as [-> _]. repeat (split; [reflexivity|]). intros q q' Q Q'. rewrite (lines_unique _ _ Q), (lines_unique _ _ Q'). reflexivity.
Qed.

(** ** At the verbosity NORMAL *)
Lemma normal_rank l : l_level l = "NORMAL"%string -> rank (l_level l) <> None.
Proof. intros ->. discriminate. Qed.
Definition report_outcome_normal := fun E T H c s l R => report_outcome E T H c s l (normal_rank l R).
Definition status_one_normal := fun E T c s l l' out H1 H2 R => status_one E T c s l l' out H1 H2 (normal_rank l R).
