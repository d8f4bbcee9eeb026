(** Proofs about pretty.py. *)
From Verif Require Import Base Pretty BaseLemmas.
From Coq Require Import ZifyBool ZifyNat.
Ltac Zify.zify_post_hook ::= Z.div_mod_to_equations.

(** ** Rounding to the nearest integer *)
Lemma rhe_near a b : 0 < b -> 2 * Z.abs (rhe a b * b - a) <= b.
Proof.
  intros Hb. unfold rhe. pose proof (Z.div_mod a b ltac:(lia)) as D. pose proof (Z.mod_pos_bound a b Hb) as M.
  set (q := a / b) in *. set (r := a mod b) in *. clearbody q r.
  destruct (2 * r <? b) eqn:E1; [replace (q * b - a) with (- r) by lia; lia|].
  destruct (b <? 2 * r) eqn:E2; [replace ((q + 1) * b - a) with (b - r) by lia; lia|].
  destruct (Z.even q); [replace (q * b - a) with (- r) by lia; lia|replace ((q + 1) * b - a) with (b - r) by lia; lia].
Qed.
Lemma rhe_exact x b : 0 < b -> rhe (x * b) b = x.
Proof.
  intros Hb. unfold rhe. rewrite Z.div_mul, Z.mod_mul by lia. replace (2 * 0 <? b) with true by lia. reflexivity.
Qed.
Lemma rhe_scale a b c : 0 < b -> 0 < c -> rhe (a * c) (b * c) = rhe a b.
Proof.
  intros Hb Hc. unfold rhe. rewrite Z.div_mul_cancel_r, Z.mul_mod_distr_r by lia. set (r := a mod b). clearbody r.
  replace (2 * (r * c) <? b * c) with (2 * r <? b) by nia.
  replace (b * c <? 2 * (r * c)) with (b <? 2 * r) by nia. reflexivity.
Qed.
Lemma rhe_mono_le a b x : 0 < b -> a <= x * b -> rhe a b <= x.
Proof.
  intros Hb H. pose proof (rhe_near a b Hb). assert (rhe a b * b <= x * b + b / 2) by lia.
  assert (rhe a b * b < (x + 1) * b) by lia. assert (rhe a b < x + 1) by nia. lia.
Qed.
Lemma rhe_mono_ge a b x : 0 < b -> x * b <= a -> x <= rhe a b.
Proof.
  intros Hb H. pose proof (rhe_near a b Hb).
  assert ((x - 1) * b < rhe a b * b) by lia. assert (x - 1 < rhe a b) by nia. lia.
Qed.

(** ** Doubles *)
Lemma b64_exp_bounds n d : 0 < n -> 0 < d -> -1000 <= Z.log2 n - Z.log2 d ->
  let e := b64_exp n d in
  (0 <= e + 52 -> d * 2 ^ (e + 52) <= n) /\ e <= Z.log2 n - Z.log2 d - 52 /\ Z.log2 n - Z.log2 d - 53 <= e.
Proof.
  intros Hn Hd Hl. unfold b64_exp. set (l := Z.log2 n - Z.log2 d) in *.
  pose proof (Z.log2_spec n Hn) as Ln. pose proof (Z.log2_spec d Hd) as Ld.
  pose proof (Z.log2_nonneg n). pose proof (Z.log2_nonneg d).
  destruct (shl_num d l <=? shl_den n l) eqn:C.
  - rewrite Z.max_l by lia. split; [|lia]. intros Hl0. replace (l - 52 + 52) with l by lia.
    unfold shl_num, shl_den in C. replace (0 <=? l) with true in C by lia. lia.
  - rewrite Z.max_l by lia. split; [|lia]. intros Hl0. replace (l - 53 + 52) with (l - 1) by lia.
    assert (P : d * 2 ^ (l - 1) <= 2 ^ Z.succ (Z.log2 d) * 2 ^ (l - 1)).
    { apply Z.mul_le_mono_nonneg_r; [apply Z.pow_nonneg; lia|lia]. }
    rewrite <- Z.pow_add_r in P by lia. replace (Z.succ (Z.log2 d) + (l - 1)) with (Z.log2 n) in P by (unfold l; lia). lia.
Qed.

(** a fraction with a double on the spot *)
Lemma b64_of_exact n k : 1 <= n < 2 ^ 53 -> 0 <= k <= 60 ->
  exists e, b64_of n (2 ^ k) = (n * 2 ^ (- e - k), e) /\ e <= 0 /\ k <= - e.
Proof.
  intros Hn Hk. unfold b64_of. replace (n =? 0) with false by lia.
  assert (L : Z.log2 n <= 52).
  { destruct (Z.le_gt_cases (Z.log2 n) 52); auto. assert (2 ^ 53 <= n); [|lia].
    pose proof (Z.log2_spec n ltac:(lia)). pose proof (Z.pow_le_mono_r 2 53 (Z.log2 n)). lia. }
  pose proof (Z.log2_nonneg n).
  destruct (b64_exp_bounds n (2 ^ k)) as (_ & U & _); [lia|lia| |].
  { rewrite Z.log2_pow2 by lia. lia. }
  rewrite Z.log2_pow2 in U by lia. set (e := b64_exp n (2 ^ k)) in *.
  exists e. split; [|lia]. f_equal. unfold shl_num, shl_den. replace (0 <=? - e) with true by lia.
  replace (n * 2 ^ (- e)) with (n * 2 ^ (- e - k) * 2 ^ k).
  - apply rhe_exact. lia.
  - rewrite <- Z.mul_assoc, <- Z.pow_add_r by lia. do 2 f_equal. lia.
Qed.

Lemma hundredths_exact n k e : 0 <= n -> e <= 0 -> 0 <= k <= - e ->
  hundredths (n * 2 ^ (- e - k)) e = rhe (100 * n) (2 ^ k).
Proof.
  intros Hn He Hk. unfold hundredths, shl_num, shl_den. destruct (0 <=? e) eqn:E0.
  - assert (e = 0) by lia. assert (k = 0) by lia. subst. change (2 ^ (- 0 - 0)) with 1. change (2 ^ 0) with 1. rewrite !Z.mul_1_r. reflexivity.
  - rewrite Z.mul_1_l. rewrite <- (rhe_scale (100 * n) (2 ^ k) (2 ^ (- e - k))) by (apply Z.pow_pos_nonneg; lia).
    f_equal; [ring|]. rewrite <- Z.pow_add_r by lia. f_equal. lia.
Qed.

(** ** Decimal text *)
Lemma digit_val_of d : 0 <= d < 10 -> digit_val (ascii_of_nat (Z.to_nat (48 + d))) = Some d.
Proof.
  intros H. unfold digit_val. rewrite nat_ascii_embedding by lia. rewrite Z2Nat.id by lia.
  replace ((48 <=? 48 + d) && (48 + d <=? 57)) with true by lia. f_equal. lia.
Qed.
Lemma dec_digits_take fuel : forall z tail, (1 <= fuel)%nat -> 0 <= z < 2 ^ Z.of_nat fuel ->
  exists len, 1 <= len /\ forall acc cnt rest,
    take_digits acc cnt (dec_digits fuel z tail ++ rest) = take_digits (acc * 10 ^ len + z) (cnt + len) (tail ++ rest).
Proof.
  induction fuel as [|fuel IH]; intros z tail Hf Hz; [lia|].
  cbn [dec_digits]. destruct (z <? 10) eqn:E.
  - exists 1. split; [lia|]. intros acc cnt rest. cbn [app take_digits]. rewrite Z.mod_small, digit_val_of by lia. f_equal. lia.
  - destruct fuel as [|fuel]; [cbn in Hz; lia|].
    rewrite Nat2Z.inj_succ, Z.pow_succ_r in Hz by lia.
    destruct (IH (z / 10) (ascii_of_nat (Z.to_nat (48 + z mod 10)) :: tail) ltac:(lia) ltac:(lia)) as (len & L1 & L2).
    exists (len + 1). split; [lia|]. intros acc cnt rest. rewrite L2. cbn [app take_digits].
    rewrite digit_val_of by lia. rewrite Z.pow_add_r by lia. f_equal; [|lia].
    pose proof (Z.div_mod z 10 ltac:(lia)). nia.
Qed.
Lemma dec_of_take z : 0 <= z -> exists len, 1 <= len /\ forall acc cnt rest,
  take_digits acc cnt (dec_of z ++ rest) = take_digits (acc * 10 ^ len + z) (cnt + len) rest.
Proof.
  intros Hz. unfold dec_of. destruct (dec_digits_take (S (Z.to_nat (Z.log2 z))) z [] ltac:(lia)) as (len & L1 & L2).
  - split; [auto|]. rewrite Nat2Z.inj_succ. pose proof (Z.log2_nonneg z). rewrite Z2Nat.id by lia.
    destruct (Z.eq_dec z 0) as [->|]; [cbn; lia|]. apply Z.log2_spec. lia.
  - exists len. split; [auto|]. intros. rewrite L2. reflexivity.
Qed.
Lemma dec_of_digit z : 0 <= z < 10 -> dec_of z = [ascii_of_nat (Z.to_nat (48 + z))].
Proof. intros H. unfold dec_of. cbn [dec_digits]. rewrite Z.mod_small by lia. replace (z <? 10) with true by lia. reflexivity. Qed.
Lemma dec_of_head z : 0 <= z -> forall rest, take_sign (dec_of z ++ rest) = (false, dec_of z ++ rest).
Proof.
  intros Hz rest. destruct (dec_of_take z Hz) as (len & L1 & L2). specialize (L2 0 0 []).
  destruct (dec_of z) as [|c r]; cbn [app take_digits take_sign] in *; [injection L2 as _ H; lia|].
  destruct (Ascii.eqb c "-") eqn:M.
  - apply Ascii.eqb_eq in M. subst c. cbn in L2. injection L2 as _ H _. lia.
  - destruct (Ascii.eqb c "+") eqn:P; [|reflexivity]. apply Ascii.eqb_eq in P. subst c. cbn in L2. injection L2 as _ H _. lia.
Qed.

(** ** Specification *)
Definition digit (c : ascii) : bool := (48 <=? Z.of_nat (nat_of_ascii c)) && (Z.of_nat (nat_of_ascii c) <=? 57).
Definition decimal (l : list ascii) : Z := fold_left (fun acc c => 10 * acc + (Z.of_nat (nat_of_ascii c) - 48)) l 0.
Definition units : list (ascii * Z) := [("B", 1); ("K", 1024); ("M", 1048576); ("G", 1073741824); ("T", 1099511627776)]%char.
(** the largest unit not above n *)
Definition unit_of (n : Z) : Z := fold_left (fun acc cu => if snd cu <=? n then snd cu else acc) units 1.

(** What int() and float() make of white space and underscores: white space around
    the number is dropped, an underscore is allowed where it is between digits. *)
Definition blank (c : ascii) : bool := existsb (Ascii.eqb c) (map ascii_of_nat [9; 10; 11; 12; 13; 32]%nat).
Definition between_digits (l : list ascii) : Prop :=
  forall a b, l = a ++ "_"%char :: b -> digit (last a zero) = true /\ digit (hd zero b) = true.
Definition not_underscore (c : ascii) : bool := negb (Ascii.eqb c "_").

Lemma is_ws_blank c : is_ws c = blank c.
Proof. destruct c as [[] [] [] [] [] [] [] []]; reflexivity. Qed.
Lemma digit_val_digit c : (match digit_val c with Some _ => true | None => false end) = digit c.
Proof. unfold digit_val, digit. destruct (_ && _); reflexivity. Qed.
Lemma ws_facts c : is_ws c = true -> digit c = false /\ Ascii.eqb c "_" = false /\ not_underscore c = true.
Proof. destruct c as [[] [] [] [] [] [] [] []]; try discriminate; repeat split. Qed.
Lemma digit_facts c : digit c = true -> is_ws c = false /\ Ascii.eqb c "_" = false /\ not_underscore c = true.
Proof. destruct c as [[] [] [] [] [] [] [] []]; try discriminate; repeat split. Qed.
Lemma last_cons_ {A} (x d : A) l : last (x :: l) d = last l x.
Proof.
  revert x d. induction l as [|y l IH]; intros x d; [reflexivity|]. change (last (x :: y :: l) d) with (last (y :: l) d). rewrite !IH. reflexivity.
Qed.

Fixpoint good (prev : ascii) (l : list ascii) : bool :=
  match l with
  | [] => negb (Ascii.eqb prev "_")
  | c :: r => (if Ascii.eqb c "_" then digit prev else negb (Ascii.eqb prev "_") || digit c) && good c r
  end.
Lemma no_underscores_good l : forall prev, no_underscores prev l = if good prev l then Some (filter not_underscore l) else None.
Proof.
  induction l as [|c l IH]; intros prev; cbn [no_underscores good filter]; [destruct (Ascii.eqb prev "_"); reflexivity|].
  rewrite !digit_val_digit, !IH. change (not_underscore c) with (negb (Ascii.eqb c "_")). destruct (Ascii.eqb c "_") eqn:C; cbn [negb].
  - destruct (digit prev); reflexivity.
  - destruct (Ascii.eqb prev "_"), (digit c); cbn [negb andb orb]; try reflexivity; destruct (good c l); reflexivity.
Qed.
Lemma good_iff l : forall prev, good prev l = true <->
  (prev = "_"%char -> digit (hd zero l) = true) /\
  (forall a b, l = a ++ "_"%char :: b -> digit (last a prev) = true /\ digit (hd zero b) = true).
Proof.
  induction l as [|c l IH]; intros prev; cbn [good hd].
  - split.
    + intros H. split; [intros ->; discriminate|]. intros [|] b EQ; discriminate.
    + intros [H _]. destruct (Ascii.eqb prev "_") eqn:P; [|reflexivity]. apply Ascii.eqb_eq in P. specialize (H P). discriminate.
  - rewrite andb_true_iff, IH. destruct (Ascii.eqb c "_") eqn:C.
    + apply Ascii.eqb_eq in C. subst c. split.
      * intros (D & H1 & H2). split; [intros ->; discriminate|]. intros [|x a] b EQ; [injection EQ as EQ2|injection EQ as EQ1 EQ2].
        -- subst b. split; [exact D|apply H1; reflexivity].
        -- subst x. rewrite last_cons_. apply H2. exact EQ2.
      * intros (H1 & H2). destruct (H2 [] l eq_refl) as [D1 D2]. split; [exact D1|]. split; [intros _; exact D2|].
        intros a b EQ. destruct (H2 ("_"%char :: a) b) as [D3 D4]; [rewrite EQ; reflexivity|]. rewrite last_cons_ in D3. auto.
    + apply Ascii.eqb_neq in C. split.
      * intros (D & H1 & H2). split.
        -- intros ->. exact D.
        -- intros [|x a] b EQ; injection EQ as EQ1 EQ2; [congruence|]. subst x. rewrite last_cons_. apply H2. exact EQ2.
      * intros (H1 & H2). split; [|split; [congruence|]].
        -- destruct (Ascii.eqb prev "_") eqn:P; [|reflexivity]. apply Ascii.eqb_eq in P. rewrite (H1 P). reflexivity.
        -- intros a b EQ. destruct (H2 (c :: a) b) as [D3 D4]; [rewrite EQ; reflexivity|]. rewrite last_cons_ in D3. auto.
Qed.
Lemma good_between l : good zero l = true <-> between_digits l.
Proof. rewrite good_iff. unfold between_digits. split; [tauto|]. intros H. split; [discriminate|exact H]. Qed.

Lemma lstrip_app a l : forallb is_ws a = true -> lstrip_text (a ++ l) = lstrip_text l.
Proof. induction a as [|c a IH]; cbn [forallb app lstrip_text]; [reflexivity|]. intros H. apply andb_true_iff in H as [-> H]. auto. Qed.
Lemma lstrip_tail l b : forallb is_ws b = true -> rev (lstrip_text (rev (lstrip_text (l ++ b)))) = rev (lstrip_text (rev (lstrip_text l))).
Proof.
  intros H. assert (R : forallb is_ws (rev b) = true) by (apply forallb_forall; intros x I; apply in_rev in I; rewrite forallb_forall in H; auto).
  induction l as [|c l IH]; cbn [app lstrip_text].
  - rewrite <- (app_nil_r b) at 1. rewrite lstrip_app by exact H. reflexivity.
  - destruct (is_ws c); [exact IH|]. change (c :: l ++ b) with ((c :: l) ++ b). rewrite rev_app_distr, lstrip_app by exact R. reflexivity.
Qed.
Lemma strip_blanks a l b : forallb is_ws a = true -> forallb is_ws b = true -> strip_text (a ++ l ++ b) = strip_text l.
Proof. intros A B. unfold strip_text. rewrite lstrip_app by exact A. apply lstrip_tail. exact B. Qed.

Lemma between_cons c l : is_ws c = true -> between_digits (c :: l) -> between_digits l.
Proof.
  intros W H a b EQ. destruct (H (c :: a) b) as [D1 D2]; [rewrite EQ; reflexivity|]. split; [|exact D2].
  rewrite last_cons_ in D1. destruct a as [|x a]; [destruct (ws_facts c W) as (X & _); cbn in D1; congruence|].
  rewrite last_cons_ in *. exact D1.
Qed.
Lemma lstrip_filter l : between_digits l -> lstrip_text (filter not_underscore l) = filter not_underscore (lstrip_text l).
Proof.
  induction l as [|c l IH]; intros H; [reflexivity|]. cbn [filter lstrip_text]. destruct (is_ws c) eqn:W.
  - destruct (ws_facts c W) as (_ & _ & ->). cbn [lstrip_text]. rewrite W. apply IH. eapply between_cons; eauto.
  - change (not_underscore c) with (negb (Ascii.eqb c "_")). destruct (Ascii.eqb c "_") eqn:C.
    + apply Ascii.eqb_eq in C. subst c. destruct (H [] l eq_refl) as [D _]. discriminate.
    + cbn [negb lstrip_text filter]. rewrite W. cbn [filter]. change (not_underscore c) with (negb (Ascii.eqb c "_")). rewrite C. reflexivity.
Qed.
Lemma hd_rev_last l : hd zero (rev l) = last l zero.
Proof. induction l as [|c l IH] using rev_ind; [reflexivity|]. rewrite rev_app_distr, last_last. reflexivity. Qed.
Lemma between_rev l : between_digits l -> between_digits (rev l).
Proof.
  intros H a b EQ. apply (f_equal (@rev ascii)) in EQ. rewrite rev_involutive, rev_app_distr in EQ. cbn [rev] in EQ. rewrite <- app_assoc in EQ.
  destruct (H _ _ EQ) as [D1 D2]. rewrite hd_rev_last in D2. rewrite <- hd_rev_last, rev_involutive in D1. auto.
Qed.
Lemma between_lstrip l : between_digits l -> between_digits (lstrip_text l).
Proof. induction l as [|c l IH]; intros H; [exact H|]. cbn [lstrip_text]. destruct (is_ws c) eqn:W; [|exact H]. apply IH. eapply between_cons; eauto. Qed.
Lemma filter_rev_ {A} (f : A -> bool) l : filter f (rev l) = rev (filter f l).
Proof. induction l as [|x l IH]; [reflexivity|]. cbn [rev filter]. rewrite filter_app, IH. cbn [filter]. destruct (f x); cbn [rev]; [reflexivity|apply app_nil_r]. Qed.
Lemma strip_filter l : between_digits l -> strip_text (filter not_underscore l) = filter not_underscore (strip_text l).
Proof.
  intros H. unfold strip_text. rewrite lstrip_filter by exact H. rewrite <- filter_rev_.
  rewrite lstrip_filter by (apply between_rev, between_lstrip; exact H). rewrite <- filter_rev_. reflexivity.
Qed.
Lemma between_strip l : between_digits l -> between_digits (strip_text l).
Proof. intros H. unfold strip_text. apply between_rev, between_lstrip, between_rev, between_lstrip. exact H. Qed.
Lemma between_none l : between_digits (filter not_underscore l).
Proof.
  intros a b EQ. assert (I : In "_"%char (filter not_underscore l)) by (rewrite EQ; apply in_or_app; right; left; reflexivity).
  apply filter_In in I as [_ I]. discriminate.
Qed.
Lemma filter_idem {A} (f : A -> bool) l : filter f (filter f l) = filter f l.
Proof. induction l as [|x l IH]; [reflexivity|]. cbn [filter]. destruct (f x) eqn:F; [cbn [filter]; rewrite F, IH; reflexivity|exact IH]. Qed.
Lemma number_text_under l : between_digits l -> number_text l = number_text (filter not_underscore l).
Proof.
  intros H. unfold number_text. rewrite !no_underscores_good.
  assert (G1 : good zero (strip_text l) = true) by (apply good_between, between_strip; exact H).
  assert (G2 : good zero (strip_text (filter not_underscore l)) = true) by (apply good_between, between_strip, between_none).
  rewrite G1, G2, strip_filter by exact H. rewrite filter_idem. reflexivity.
Qed.
Lemma lstrip_split l : exists a, l = a ++ lstrip_text l /\ forallb is_ws a = true.
Proof.
  induction l as [|c l (a & EQ & W)]; [exists []; auto|]. cbn [lstrip_text]. destruct (is_ws c) eqn:C; [|exists []; auto].
  exists (c :: a). split; [cbn [app]; congruence|]. cbn [forallb]. rewrite C. exact W.
Qed.
Lemma strip_split l : exists a b, l = a ++ strip_text l ++ b /\ forallb is_ws a = true /\ forallb is_ws b = true.
Proof.
  destruct (lstrip_split l) as (a & E1 & A). destruct (lstrip_split (rev (lstrip_text l))) as (b & E2 & B).
  exists a, (rev b). split; [|split; [exact A|]].
  - rewrite E1 at 1. f_equal. unfold strip_text. rewrite <- rev_app_distr, <- E2, rev_involutive. reflexivity.
  - apply forallb_forall. intros x I. apply in_rev in I. rewrite forallb_forall in B. auto.
Qed.
Lemma between_unstrip a m b : forallb is_ws a = true -> forallb is_ws b = true -> between_digits m -> between_digits (a ++ m ++ b).
Proof.
  intros A B H. apply good_between. apply good_between in H.
  assert (X : forall m p, good p m = true -> good p (m ++ b) = true).
  { clear A H. induction m0 as [|c m0 IH]; intros p; cbn [app good].
    - revert p. induction b as [|w b IHb]; intros p P; [exact P|]. cbn [forallb] in B. apply andb_true_iff in B as [B1 B2].
      destruct (ws_facts w B1) as (_ & X & _). cbn [good]. rewrite X, P. cbn [orb andb]. apply IHb; [exact B2|]. rewrite X. reflexivity.
    - rewrite !andb_true_iff. intros [H1 H2]. auto. }
  assert (Y : forall p, Ascii.eqb p "_" = false -> digit p = false -> good p m = true -> good p (a ++ m ++ b) = true).
  { clear H. induction a as [|w a IH]; intros p P D G; cbn [app good]; [apply X; exact G|]. cbn [forallb] in A. apply andb_true_iff in A as [A1 A2].
    destruct (ws_facts w A1) as (X1 & X2 & _). rewrite X2, P. cbn [negb orb andb]. apply IH; auto.
    destruct m as [|c m]; cbn [good] in *; [rewrite X2; reflexivity|]. apply andb_true_iff in G as [G1 G2]. rewrite G2, andb_true_r.
    destruct (Ascii.eqb c "_"); [congruence|]. rewrite X2. reflexivity. }
  apply Y; auto.
Qed.
Lemma number_text_bad l : ~ between_digits l -> number_text l = None.
Proof.
  intros H. unfold number_text. rewrite no_underscores_good. destruct (good zero (strip_text l)) eqn:G; [|reflexivity]. exfalso. apply H.
  destruct (strip_split l) as (a & b & EQ & A & B). apply good_between in G. rewrite EQ. apply between_unstrip; auto.
Qed.
Lemma number_text_blanks a l b : forallb blank a = true -> forallb blank b = true -> number_text (a ++ l ++ b) = number_text l.
Proof.
  intros A B. unfold number_text. rewrite strip_blanks; [reflexivity| |]; apply forallb_forall; intros x I; rewrite is_ws_blank.
  - rewrite forallb_forall in A. auto.
  - rewrite forallb_forall in B. auto.
Qed.

(** Texts of digits, points and signs are taken as they are. *)
Definition plainc (c : ascii) : bool := digit c || Ascii.eqb c "." || Ascii.eqb c "+" || Ascii.eqb c "-".
Lemma plainc_facts c : plainc c = true -> is_ws c = false /\ not_underscore c = true /\ lower c <> "i"%char /\ lower c <> "n"%char.
Proof. destruct c as [[] [] [] [] [] [] [] []]; try discriminate; vm_compute; repeat split; discriminate. Qed.
Lemma plain_strip l : forallb plainc l = true -> strip_text l = l.
Proof.
  assert (X : forall l, forallb plainc l = true -> lstrip_text l = l).
  { intros [|c m]; [reflexivity|]. cbn [forallb lstrip_text]. intros H. apply andb_true_iff in H as [H _]. destruct (plainc_facts c H) as (-> & _). reflexivity. }
  intros H. unfold strip_text. rewrite (X l H), X; [apply rev_involutive|]. apply forallb_forall. intros x I. apply in_rev in I. rewrite forallb_forall in H. auto.
Qed.
Lemma float_plain l k : forallb plainc l = true -> float_times l k = decimal_times l k.
Proof.
  intros H. unfold float_times, number_text. rewrite plain_strip, no_underscores_good by exact H.
  assert (F : filter not_underscore l = l).
  { revert H. induction l as [|c l IH]; [reflexivity|]. cbn [forallb filter]. intros H. apply andb_true_iff in H as [H1 H2]. destruct (plainc_facts c H1) as (_ & -> & _). rewrite IH by exact H2. reflexivity. }
  assert (G : good zero l = true).
  { apply good_between. rewrite <- F. apply between_none. }
  rewrite G, F. unfold inf_or_nan.
  assert (P : forallb plainc (snd (take_sign l)) = true).
  { destruct l as [|c l]; [reflexivity|]. cbn [take_sign]. cbn [forallb] in H. apply andb_true_iff in H as [H1 H2].
    destruct (Ascii.eqb c "-"); [exact H2|]. destruct (Ascii.eqb c "+"); [exact H2|]. cbn [snd forallb]. rewrite H1, H2. reflexivity. }
  destruct (snd (take_sign l)) as [|c r]; [reflexivity|]. cbn [forallb] in P. apply andb_true_iff in P as [P _]. destruct (plainc_facts c P) as (_ & _ & N1 & N2).
  cbn [map string_of_list_ascii String.eqb].
  apply Ascii.eqb_neq in N1. apply Ascii.eqb_neq in N2. rewrite N1, N2. reflexivity.
Qed.
Lemma digits_plain l : forallb digit l = true -> forallb plainc l = true.
Proof. intros H. apply forallb_forall. intros x I. rewrite forallb_forall in H. unfold plainc. rewrite (H x I). reflexivity. Qed.
Lemma sign_plain s neg l : take_sign s = (neg, l) -> forallb plainc l = true -> forallb plainc s = true.
Proof.
  destruct s as [|c s]; cbn [take_sign]; [reflexivity|]. destruct (Ascii.eqb c "-") eqn:M.
  - intros EQ H. injection EQ as _ ->. apply Ascii.eqb_eq in M. subst c. cbn [forallb]. exact H.
  - destruct (Ascii.eqb c "+") eqn:P; intros EQ H; injection EQ as _ <-; [|exact H]. apply Ascii.eqb_eq in P. subst c. exact H.
Qed.

Lemma suffix_units c w : In (c, w) units -> exists k, suffix_bits c = Some k /\ w = 2 ^ k /\ 0 <= k <= 40.
Proof.
  intros H. cbn [units In] in H.
  repeat (destruct H as [H|H]; [injection H as <- <-; eexists; split; [reflexivity|split; [reflexivity|lia]]|]). tauto.
Qed.

Lemma take_all_digits l : forallb digit l = true -> forall acc cnt,
  take_digits acc cnt l = (fold_left (fun acc c => 10 * acc + (Z.of_nat (nat_of_ascii c) - 48)) l acc, cnt + zlen l, []).
Proof.
  induction l as [|c l IH]; intros H acc cnt; cbn [take_digits fold_left forallb] in *.
  - change (zlen (@nil ascii)) with 0. rewrite Z.add_0_r. reflexivity.
  - apply andb_true_iff in H as [H1 H2]. unfold digit_val, digit in *. rewrite H1, IH by auto. rewrite zlen_cons. f_equal. f_equal. lia.
Qed.
Lemma digits_sign l : forallb digit l = true -> take_sign l = (false, l).
Proof.
  destruct l as [|c l]; [reflexivity|]. cbn [forallb take_sign]. intros H. apply andb_true_iff in H as [H _].
  destruct (Ascii.eqb c "-") eqn:M; [apply Ascii.eqb_eq in M; subst c; discriminate|].
  destruct (Ascii.eqb c "+") eqn:P; [apply Ascii.eqb_eq in P; subst c; discriminate|]. reflexivity.
Qed.
Lemma decimal_nonneg_from l : forallb digit l = true -> forall acc, 0 <= acc -> 
  0 <= fold_left (fun acc c => 10 * acc + (Z.of_nat (nat_of_ascii c) - 48)) l acc.
Proof.
  induction l as [|c l IH]; intros H acc Ha; cbn [fold_left forallb] in *; auto.
  apply andb_true_iff in H as [H1 H2]. apply IH; auto. unfold digit in H1. lia.
Qed.

Lemma scaled_exact neg z e k : 0 <= z < 2 ^ 53 -> e <= 0 -> 0 <= k <= 40 ->
  int_of_scaled neg (z * 2 ^ (- e)) e k = Ok (if neg then - (z * 2 ^ k) else z * 2 ^ k).
Proof.
  intros Hz He Hk. unfold int_of_scaled. destruct (0 <=? e + k) eqn:X.
  - assert (V : z * 2 ^ (- e) * 2 ^ (e + k) = z * 2 ^ k).
    { rewrite <- Z.mul_assoc, <- Z.pow_add_r by lia. do 2 f_equal. lia. }
    rewrite V. cbn [andb]. replace (2 ^ 1024 <=? z * 2 ^ k) with false; [reflexivity|]. symmetry. apply Z.leb_gt.
    apply Z.lt_le_trans with (2 ^ 53 * 2 ^ k); [apply Z.mul_lt_mono_pos_r; [apply Z.pow_pos_nonneg; lia|tauto]|].
    rewrite <- Z.pow_add_r by lia. apply Z.pow_le_mono_r; lia.
  - cbn [andb]. replace (z * 2 ^ (- e)) with (z * 2 ^ k * 2 ^ (- (e + k))).
    + rewrite Z.div_mul by (apply Z.pow_nonzero; lia). reflexivity.
    + rewrite <- Z.mul_assoc, <- Z.pow_add_r by lia. do 2 f_equal. lia.
Qed.
Lemma of_int z : 0 <= z < 2 ^ 53 -> exists e, b64_of z 1 = (z * 2 ^ (- e), e) /\ e <= 0.
Proof.
  intros Hz. destruct (Z.eq_dec z 0) as [->|]; [exists 0; split; [reflexivity|lia]|].
  destruct (b64_of_exact z 0 ltac:(lia) ltac:(lia)) as (e & B & He & _). change (2 ^ 0) with 1 in B. rewrite Z.sub_0_r in B. eauto.
Qed.

Theorem integer_suffix l c w : l <> [] -> forallb digit l = true -> decimal l < 2 ^ 53 -> In (c, w) units ->
  reverse_pretty (string_of_list_ascii (l ++ [c])) = Ok (decimal l * w) /\
  reverse_pretty (string_of_list_ascii ("+"%char :: l ++ [c])) = Ok (decimal l * w) /\
  reverse_pretty (string_of_list_ascii ("-"%char :: l ++ [c])) = Ok (- (decimal l * w)).
Proof.
  intros Hl Hd Hv Hc. apply suffix_units in Hc as (k & Hk & -> & Hk2).
  pose proof (decimal_nonneg_from l Hd 0 ltac:(lia)) as H0. fold (decimal l) in H0.
  destruct (of_int (decimal l) ltac:(lia)) as (e & B & He).
  assert (LL : 0 < zlen l) by (destruct l; [tauto|]; rewrite zlen_cons; pose proof (zlen_nonneg l); lia).
  assert (G : forall neg s, take_sign s = (neg, l) -> float_times s k = Ok (if neg then - (decimal l * 2 ^ k) else decimal l * 2 ^ k)).
  { intros neg s Hs. rewrite float_plain by (eapply sign_plain; [exact Hs|apply digits_plain; exact Hd]). unfold decimal_times, parse_decimal. rewrite Hs, take_all_digits by auto. fold (decimal l).
    cbn iota beta. replace (0 + zlen l + 0 =? 0) with false by lia.
    change (- 0) with 0. change (0 <=? 0) with true. cbn iota. change (10 ^ 0) with 1. rewrite Z.mul_1_r, B. apply scaled_exact; lia. }
  unfold reverse_pretty. rewrite !list_ascii_of_string_of_list_ascii.
  change ("+"%char :: l ++ [c]) with (("+"%char :: l) ++ [c]). change ("-"%char :: l ++ [c]) with (("-"%char :: l) ++ [c]).
  rewrite !rev_app_distr. cbn [rev app]. rewrite Hk.
  change (rev (rev l ++ ["+"%char])) with (rev (rev ("+"%char :: l))). change (rev (rev l ++ ["-"%char])) with (rev (rev ("-"%char :: l))).
  rewrite !rev_involutive. split; [|split].
  - apply (G false). apply digits_sign; auto.
  - apply (G false). reflexivity.
  - apply (G true). reflexivity.
Qed.

(** ** Round trip *)
Lemma parse_hundredths h : 0 <= h -> exists m nf, parse_decimal (str_hundredths h) = Some (false, m, - nf) /\
  ((m * 10 = h /\ nf = 1) \/ (m = h /\ nf = 2)).
Proof.
  intros Hh. unfold str_hundredths. cbv zeta. set (f := h mod 100). assert (Hf : 0 <= f < 100) by (unfold f; lia).
  destruct (dec_of_take (h / 100) ltac:(lia)) as (len & L1 & L2).
  unfold parse_decimal. rewrite dec_of_head by lia. rewrite L2. cbn [app take_digits].
  change (digit_val "."%char) with (@None Z). cbn iota.
  change (Ascii.eqb "." ".") with true. cbn iota. rewrite !Z.add_0_l.
  assert (D : h = 100 * (h / 100) + f) by (unfold f; lia).
  set (hi := h / 100) in *. clearbody f hi.
  destruct (f mod 10 =? 0) eqn:E.
  - rewrite dec_of_digit by lia. cbn [take_digits]. rewrite digit_val_of by lia.
    replace (len + (0 + 1) =? 0) with false by lia.
    eexists _, 1. split; [reflexivity|]. left. lia.
  - rewrite !dec_of_digit by lia. cbn [app take_digits]. rewrite !digit_val_of by lia.
    replace (len + (0 + 1 + 1) =? 0) with false by lia.
    eexists _, 2. split; [reflexivity|]. right. lia.
Qed.

Lemma dec_of_plain z : forallb plainc (dec_of z) = true.
Proof.
  unfold dec_of. generalize (S (Z.to_nat (Z.log2 z))). intros f.
  assert (X : forall f z acc, forallb plainc acc = true -> forallb plainc (dec_digits f z acc) = true).
  { induction f0 as [|f0 IH]; intros z0 acc H; [exact H|]. cbn [dec_digits].
    assert (D : forallb plainc (ascii_of_nat (Z.to_nat (48 + z0 mod 10)) :: acc) = true).
    { cbn [forallb]. rewrite H, andb_true_r. unfold plainc, digit. rewrite nat_ascii_embedding by lia. rewrite Z2Nat.id by lia.
      replace ((48 <=? 48 + z0 mod 10) && (48 + z0 mod 10 <=? 57)) with true by lia. reflexivity. }
    destruct (z0 <? 10); auto. }
  apply X. reflexivity.
Qed.
Lemma hundredths_plain h : forallb plainc (str_hundredths h) = true.
Proof.
  unfold str_hundredths. cbv zeta. rewrite !forallb_app. rewrite dec_of_plain. cbn [forallb]. change (plainc ".") with true. cbn [andb].
  destruct (_ =? 0); rewrite ?forallb_app, !dec_of_plain; reflexivity.
Qed.

Lemma pretty_unit_spec n : 1 <= n < 2 ^ 53 -> exists k c, pretty_unit n = (k, c) /\ suffix_bits c = Some k /\ 0 <= k <= 40 /\
  unit_of n = 2 ^ k /\ 2 ^ k <= n /\ (k < 40 -> n < 2 ^ k * 1024 /\ k <= 30).
Proof.
  intros Hn. unfold pretty_unit, unit_of. cbn [units fold_left snd].
  change (2 ^ 40) with 1099511627776. change (2 ^ 30) with 1073741824. change (2 ^ 20) with 1048576. change (2 ^ 10) with 1024.
  replace (1 <=? n) with true by lia.
  destruct (1099511627776 <=? n) eqn:E4; [|destruct (1073741824 <=? n) eqn:E3; [|destruct (1048576 <=? n) eqn:E2;
    [|destruct (1024 <=? n) eqn:E1]]];
  repeat match goal with |- context [if ?a <=? n then _ else _] => first [replace (a <=? n) with true by lia|replace (a <=? n) with false by lia] end;
  eexists _, _; (split; [reflexivity|split; [reflexivity|split; [lia|split; [reflexivity|split; [lia|lia]]]]]).
Qed.

(** int(float(a/b) * 2^k) is within one of a/b * 2^k while that is below 2^53 *)
Lemma scaled_near a b k : 0 < b <= 10 ^ 300 -> 0 < a -> 0 <= k <= 40 -> a * 2 ^ k < b * 2 ^ 53 ->
  exists r, (let '(mm, ee) := b64_of a b in int_of_scaled false mm ee k) = Ok r /\ Z.abs (r * b - a * 2 ^ k) <= b.
Proof.
  intros Hb Ha Hk Hs. unfold b64_of. replace (a =? 0) with false by lia.
  pose proof (Z.log2_nonneg a). assert (Z.log2 b <= 996) by (apply (Z.log2_le_mono b (10 ^ 300)); lia).
  destruct (b64_exp_bounds a b ltac:(lia) ltac:(lia) ltac:(lia)) as (B1 & _ & B3).
  set (e := b64_exp a b) in *. clearbody e.
  assert (Hek : e + k <= 0).
  { destruct (Z.le_gt_cases (e + k) 0) as [?|G]; auto. exfalso.
    assert (b * 2 ^ 53 <= a * 2 ^ k); [|lia].
    apply Z.le_trans with (b * 2 ^ (e + 52) * 2 ^ k).
    - rewrite <- Z.mul_assoc, <- Z.pow_add_r by lia. apply Z.mul_le_mono_nonneg_l; [lia|]. apply Z.pow_le_mono_r; lia.
    - apply Z.mul_le_mono_nonneg_r; [apply Z.pow_nonneg; lia|]. apply B1. lia. }
  unfold shl_num, shl_den. replace (0 <=? - e) with true by lia.
  pose proof (rhe_near (a * 2 ^ (- e)) b ltac:(lia)) as R. set (m := rhe (a * 2 ^ (- e)) b) in *. clearbody m.
  unfold int_of_scaled. set (j := - (e + k)). assert (Hj : 0 <= j) by lia.
  assert (E2 : a * 2 ^ (- e) = a * 2 ^ k * 2 ^ j).
  { rewrite <- Z.mul_assoc, <- Z.pow_add_r by lia. do 2 f_equal. lia. }
  rewrite E2 in R. set (t := a * 2 ^ k) in *. clearbody t. clear E2 B1 B3.
  assert (W : exists r, (if 0 <=? e + k then m * 2 ^ (e + k) else m / 2 ^ j) = r /\ Z.abs (r * b - t) <= b /\
               (0 <= e + k -> r = m)).
  { destruct (0 <=? e + k) eqn:X.
    - assert (e + k = 0) by lia. replace j with 0 in * by lia. replace (e + k) with 0 by lia. change (2 ^ 0) with 1 in *.
      rewrite Z.mul_1_r in *. exists m. split; [reflexivity|]. split; [lia|auto].
    - exists (m / 2 ^ j). split; [reflexivity|]. split; [|lia].
      assert (Q : 2 <= 2 ^ j) by (pose proof (Z.pow_le_mono_r 2 1 j); change (2 ^ 1) with 2 in *; lia).
      set (P := 2 ^ j) in *. clearbody P. pose proof (Z.div_mod m P ltac:(lia)) as D. pose proof (Z.mod_pos_bound m P ltac:(lia)) as M.
      set (q := m / P) in *. set (r := m mod P) in *. clearbody q r.
      (* P * (q b - t) = (m b - t P) - r b *)
      assert (I : P * (q * b - t) = (m * b - t * P) - r * b) by (rewrite D; ring).
      assert (rb : 0 <= r * b <= (P - 1) * b) by nia.
      assert (- (P * b) <= P * (q * b - t) <= P * b) by (rewrite I; nia).
      nia. }
  destruct W as (r & Hr & W1 & W2).
  destruct ((0 <=? e + k) && (2 ^ 1024 <=? m * 2 ^ (e + k))) eqn:O.
  - exfalso. apply andb_true_iff in O as [O1 O2]. assert (e + k = 0) by lia. replace (e + k) with 0 in O2 by lia.
    replace j with 0 in * by lia. change (2 ^ 0) with 1 in *. rewrite Z.mul_1_r in *.
    assert (m <= 2 ^ 53) by nia.
    assert (2 ^ 53 < 2 ^ 1024) by reflexivity. lia.
  - exists r. fold j. rewrite Hr. split; [reflexivity|auto].
Qed.

Lemma hundredths_bounds n k : 1 <= n < 2 ^ 53 -> 0 <= k <= 40 -> 2 ^ k <= n -> (k < 40 -> n < 2 ^ k * 1024 /\ k <= 30) ->
  let h := rhe (100 * n) (2 ^ k) in
  100 <= h /\ 2 * Z.abs (h * 2 ^ k - 100 * n) <= 2 ^ k /\ (h * 2 ^ k < 100 * 2 ^ 53 \/ k = 40 /\ h = 819200).
Proof.
  intros Hn Hk H1 H2 h. assert (P : 0 < 2 ^ k) by (apply Z.pow_pos_nonneg; lia).
  split; [apply rhe_mono_ge; lia|]. split; [apply rhe_near; auto|].
  destruct (Z.eq_dec k 40) as [->|K].
  - assert (h <= 819200); [|change (2 ^ 40) with 1099511627776; lia].
    apply rhe_mono_le; [lia|]. change (2 ^ 40) with 1099511627776. lia.
  - left. destruct (H2 ltac:(lia)) as [H3 H4].
    assert (h <= 102400) by (apply rhe_mono_le; lia).
    assert (2 ^ k <= 2 ^ 30) by (apply Z.pow_le_mono_r; lia). change (2 ^ 30) with 1073741824 in *. nia.
Qed.

Theorem pretty_round_trip n : 0 <= n < 2 ^ 53 -> exists r,
  reverse_pretty (pretty_size n) = Ok r /\ 200 * Z.abs (r - n) <= unit_of n + 200.
Proof.
  intros Hn. destruct (Z.eq_dec n 0) as [->|N0]; [exists 0; split; [reflexivity|cbn; lia]|].
  destruct (pretty_unit_spec n ltac:(lia)) as (k & c & PU & SB & Hk & -> & U1 & U2).
  destruct (b64_of_exact n k ltac:(lia) ltac:(lia)) as (e & BE & He & Hke).
  destruct (hundredths_bounds n k ltac:(lia) Hk U1 U2) as (B1 & B2 & B3).
  unfold pretty_size. replace (n =? 0) with false by lia. rewrite PU, BE, hundredths_exact by lia.
  set (h := rhe (100 * n) (2 ^ k)) in *. clearbody h.
  unfold reverse_pretty. rewrite list_ascii_of_string_of_list_ascii, rev_app_distr. cbn [rev app]. rewrite SB, rev_involutive.
  rewrite float_plain by apply hundredths_plain. unfold decimal_times. destruct (parse_hundredths h ltac:(lia)) as (m & nf & -> & M).
  assert (P : 0 < 2 ^ k) by (apply Z.pow_pos_nonneg; lia).
  assert (G : exists r, (let '(mm, ee) := b64_of m (10 ^ nf) in int_of_scaled false mm ee k) = Ok r /\ Z.abs (r * 10 ^ nf - m * 2 ^ k) <= 10 ^ nf).
  { destruct M as [[M ->]|[-> ->]]; (destruct B3 as [B3|[-> B3]]; [apply scaled_near; [lia|lia|lia|lia]|]).
    - assert (m = 81920) by lia. subst m. exists 9007199254740992. split; [vm_compute; reflexivity|]. change (2 ^ 40) with 1099511627776. lia.
    - subst h. exists 9007199254740992. split; [vm_compute; reflexivity|]. change (2 ^ 40) with 1099511627776. lia. }
  destruct G as (r & G1 & G2). exists r. split.
  - replace (0 <=? - nf) with false by lia. rewrite Z.opp_involutive. exact G1.
  - destruct M as [[M ->]|[-> ->]]; [change (10 ^ 1) with 10 in G2|change (10 ^ 2) with 100 in G2]; nia.
Qed.

Lemma of_int_over q b : 0 < q < 2 ^ 53 -> 0 < b <= 100 -> exists e, b64_of (q * b) b = (q * 2 ^ (- e), e) /\ e <= 0.
Proof.
  intros Hq Hb. unfold b64_of. replace (q * b =? 0) with false by nia.
  pose proof (Z.log2_nonneg (q * b)). assert (Z.log2 b <= 6) by (pose proof (Z.log2_le_mono b 100); change (Z.log2 100) with 6 in *; lia).
  destruct (b64_exp_bounds (q * b) b ltac:(nia) ltac:(lia) ltac:(lia)) as (B1 & _ & _).
  set (e := b64_exp (q * b) b) in *. clearbody e.
  assert (He : e <= 0).
  { destruct (Z.le_gt_cases e 0) as [?|G]; auto. exfalso. specialize (B1 ltac:(lia)).
    assert (2 ^ 53 <= 2 ^ (e + 52)) by (apply Z.pow_le_mono_r; lia). nia. }
  exists e. split; [|auto]. unfold shl_num, shl_den. replace (0 <=? - e) with true by lia. f_equal.
  replace (q * b * 2 ^ (- e)) with (q * 2 ^ (- e) * b) by ring. apply rhe_exact. lia.
Qed.

(** whole numbers of units survive unchanged *)
Theorem pretty_round_trip_exact n : 0 <= n < 2 ^ 53 -> n mod unit_of n = 0 -> reverse_pretty (pretty_size n) = Ok n.
Proof.
  intros Hn. destruct (Z.eq_dec n 0) as [->|N0]; [reflexivity|].
  destruct (pretty_unit_spec n ltac:(lia)) as (k & c & PU & SB & Hk & -> & U1 & U2). intros Hm.
  assert (P : 0 < 2 ^ k) by (apply Z.pow_pos_nonneg; lia).
  assert (Hq : n = n / 2 ^ k * 2 ^ k) by (pose proof (Z.div_mod n (2 ^ k)); lia).
  set (q := n / 2 ^ k) in *. clearbody q. assert (0 < q < 2 ^ 53) by nia.
  destruct (b64_of_exact n k ltac:(lia) ltac:(lia)) as (e & BE & He & Hke).
  unfold pretty_size. replace (n =? 0) with false by lia. rewrite PU, BE, hundredths_exact by lia.
  replace (100 * n) with (100 * q * 2 ^ k) by lia. rewrite rhe_exact by lia.
  unfold reverse_pretty. rewrite list_ascii_of_string_of_list_ascii, rev_app_distr. cbn [rev app]. rewrite SB, rev_involutive.
  rewrite float_plain by apply hundredths_plain. unfold decimal_times. destruct (parse_hundredths (100 * q) ltac:(lia)) as (m & nf & -> & M).
  replace (0 <=? - nf) with false by lia. rewrite Z.opp_involutive.
  assert (G : m = q * 10 ^ nf /\ 0 < 10 ^ nf <= 100) by (destruct M as [[M ->]|[-> ->]]; [change (10 ^ 1) with 10|change (10 ^ 2) with 100]; lia).
  destruct G as [-> G]. destruct (of_int_over q (10 ^ nf) ltac:(lia) G) as (e' & -> & He').
  rewrite scaled_exact by lia. f_equal. lia.
Qed.

Lemma suffix_only c k : suffix_bits c = Some k -> In (c, 2 ^ k) units.
Proof.
  unfold suffix_bits. 
  repeat (destruct (Ascii.eqb c _) eqn:?E; [apply Ascii.eqb_eq in E; subst c; injection 1 as <-; vm_compute; tauto|clear E]). discriminate.
Qed.

(** anything not ending in one of the five letters is refused *)
Theorem bad_suffix s : (forall l c, list_ascii_of_string s = l ++ [c] -> ~ In c (map fst units)) ->
  reverse_pretty s = Raise (match s with EmptyString => IndexError | _ => ValueError end).
Proof.
  intros H. unfold reverse_pretty. destruct s as [|a s]; [reflexivity|].
  destruct (rev (list_ascii_of_string (String a s))) as [|c r] eqn:R.
  - apply (f_equal (@rev ascii)) in R. rewrite rev_involutive in R. discriminate.
  - apply (f_equal (@rev ascii)) in R. rewrite rev_involutive in R. cbn [rev] in R.
    destruct (suffix_bits c) as [k|] eqn:S; [|reflexivity].
    exfalso. apply (H _ _ R). apply suffix_only in S. apply (in_map fst) in S. exact S.
Qed.

(** ** Any decimal *)
Lemma take_digits_dot l r : forallb digit l = true -> forall acc cnt,
  take_digits acc cnt (l ++ "."%char :: r) = (fold_left (fun acc c => 10 * acc + (Z.of_nat (nat_of_ascii c) - 48)) l acc, cnt + zlen l, "."%char :: r).
Proof.
  induction l as [|c l IH]; intros H acc cnt; cbn [app take_digits fold_left forallb] in *.
  - change (zlen (@nil ascii)) with 0. rewrite Z.add_0_r. reflexivity.
  - apply andb_true_iff in H as [H1 H2]. unfold digit_val, digit in *. rewrite H1, IH by auto. rewrite zlen_cons. f_equal. f_equal. lia.
Qed.
Lemma dot_sign l r : forallb digit l = true -> take_sign (l ++ "."%char :: r) = (false, l ++ "."%char :: r).
Proof.
  destruct l as [|c l]; [reflexivity|]. cbn [forallb take_sign app]. intros H. apply andb_true_iff in H as [H _].
  destruct (Ascii.eqb c "-") eqn:M; [apply Ascii.eqb_eq in M; subst c; discriminate|].
  destruct (Ascii.eqb c "+") eqn:P; [apply Ascii.eqb_eq in P; subst c; discriminate|]. reflexivity.
Qed.

Theorem decimal_suffix ip fp c w : ip ++ fp <> [] -> forallb digit (ip ++ fp) = true -> zlen fp <= 300 ->
  In (c, w) units -> let v := decimal (ip ++ fp) in let b := 10 ^ zlen fp in v * w < b * 2 ^ 53 ->
  exists r, Z.abs (r * b - v * w) <= b /\ 0 <= r /\
    reverse_pretty (string_of_list_ascii (ip ++ "."%char :: fp ++ [c])) = Ok r /\
    reverse_pretty (string_of_list_ascii ("+"%char :: ip ++ "."%char :: fp ++ [c])) = Ok r /\
    reverse_pretty (string_of_list_ascii ("-"%char :: ip ++ "."%char :: fp ++ [c])) = Ok (- r).
Proof.
  intros Hl Hd Hf Hc v b Hv. apply suffix_units in Hc as (k & Hk & -> & Hk2).
  pose proof (decimal_nonneg_from _ Hd 0 ltac:(lia)) as H0. fold (decimal (ip ++ fp)) in H0. fold v in H0.
  pose proof (zlen_nonneg fp) as F0. pose proof (zlen_nonneg ip) as I0.
  assert (Hb : 0 < b <= 10 ^ 300) by (split; [apply Z.pow_pos_nonneg; lia|apply Z.pow_le_mono_r; lia]).
  assert (LL : 0 < zlen ip + zlen fp).
  { rewrite <- zlen_app. destruct (ip ++ fp); [tauto|]; rewrite zlen_cons; pose proof (zlen_nonneg l); lia. }
  assert (W : exists r, 0 <= r /\ Z.abs (r * b - v * 2 ^ k) <= b /\ forall neg,
     (let '(mm, ee) := b64_of v b in int_of_scaled neg mm ee k) = Ok (if neg : bool then - r else r)).
  { destruct (Z.eq_dec v 0) as [->|V0].
    - exists 0. split; [lia|]. split; [lia|]. intros neg. cbn iota beta.
      assert (X : int_of_scaled neg (0 * 2 ^ (- 0)) 0 k = Ok (if neg then - (0 * 2 ^ k) else 0 * 2 ^ k)) by (apply scaled_exact; lia).
      unfold b64_of. change (0 =? 0) with true. cbn iota. change (0 * 2 ^ (- 0)) with 0 in X. rewrite X. rewrite Z.mul_0_l. reflexivity.
    - destruct (scaled_near v b k Hb ltac:(lia) Hk2 Hv) as (r & R1 & R2).
      assert (R0 : 0 <= r).
      { destruct (Z.le_gt_cases 0 r); auto. exfalso. assert (0 < 2 ^ k) by (apply Z.pow_pos_nonneg; lia). nia. }
      exists r. split; [auto|]. split; [auto|]. intros neg. destruct (b64_of v b) as [mm ee].
      unfold int_of_scaled in *. destruct neg; [|exact R1].
      destruct (0 <=? ee + k); destruct (2 ^ 1024 <=? _); cbn [andb] in *; congruence. }
  destruct W as (r & R0 & R1 & R2). exists r. split; [auto|]. split; [auto|].
  rewrite forallb_app in Hd. apply andb_true_iff in Hd as [Hd1 Hd2].
  assert (G : forall neg s, take_sign s = (neg, ip ++ "."%char :: fp) -> float_times s k = Ok (if neg then - r else r)).
  { intros neg s Hs. rewrite float_plain by (eapply sign_plain; [exact Hs|rewrite forallb_app; cbn [forallb]; rewrite !digits_plain by assumption; reflexivity]). unfold decimal_times, parse_decimal. rewrite Hs, take_digits_dot by auto. cbn iota beta.
    change (Ascii.eqb "." ".") with true. cbn iota beta. rewrite take_all_digits by auto. rewrite <- fold_left_app. fold (decimal (ip ++ fp)). fold v.
    rewrite !Z.add_0_l. replace (zlen ip + zlen fp =? 0) with false by lia.
    specialize (R2 neg). destruct (0 <=? - zlen fp) eqn:Z0.
    - assert (zlen fp = 0) by lia. replace (- zlen fp) with 0 by lia. change (10 ^ 0) with 1. rewrite Z.mul_1_r.
      replace b with 1 in R2 by (unfold b; replace (zlen fp) with 0 by lia; reflexivity). exact R2.
    - rewrite Z.opp_involutive. exact R2. }
  unfold reverse_pretty. rewrite !list_ascii_of_string_of_list_ascii.
  assert (Q : forall p, ip ++ "."%char :: fp ++ [p] = (ip ++ "."%char :: fp) ++ [p]) by (intros; rewrite <- app_assoc; reflexivity).
  rewrite !Q. set (B := ip ++ "."%char :: fp) in *.
  change ("+"%char :: B ++ [c]) with (("+"%char :: B) ++ [c]). change ("-"%char :: B ++ [c]) with (("-"%char :: B) ++ [c]).
  rewrite !rev_app_distr. cbn [rev app]. rewrite Hk.
  change (rev (rev B ++ ["+"%char])) with (rev (rev ("+"%char :: B))). change (rev (rev B ++ ["-"%char])) with (rev (rev ("-"%char :: B))).
  rewrite !rev_involutive. split; [|split].
  - apply (G false). apply dot_sign; auto.
  - apply (G false). reflexivity.
  - apply (G true). reflexivity.
Qed.

(** ** Blanks, underscores, infinities *)
Lemma reverse_pretty_snoc l c : reverse_pretty (string_of_list_ascii (l ++ [c])) = match suffix_bits c with None => Raise ValueError | Some k => float_times l k end.
Proof. unfold reverse_pretty. rewrite list_ascii_of_string_of_list_ascii, rev_app_distr. cbn [rev app]. rewrite rev_involutive. reflexivity. Qed.
Theorem pretty_blanks a l b c : forallb blank a = true -> forallb blank b = true ->
  reverse_pretty (string_of_list_ascii ((a ++ l ++ b) ++ [c])) = reverse_pretty (string_of_list_ascii (l ++ [c])).
Proof. intros A B. rewrite !reverse_pretty_snoc. destruct (suffix_bits c); [|reflexivity]. unfold float_times. rewrite number_text_blanks by assumption. reflexivity. Qed.
Theorem pretty_underscores l c : 
  (between_digits l -> reverse_pretty (string_of_list_ascii (l ++ [c])) = reverse_pretty (string_of_list_ascii (filter not_underscore l ++ [c]))) /\
  (~ between_digits l -> reverse_pretty (string_of_list_ascii (l ++ [c])) = Raise ValueError).
Proof.
  split; intros H; rewrite !reverse_pretty_snoc; (destruct (suffix_bits c); [|reflexivity]); unfold float_times.
  - rewrite number_text_under by exact H. reflexivity.
  - rewrite number_text_bad by exact H. reflexivity.
Qed.
Definition any_case (w : string) (l : list ascii) : Prop :=
  Forall2 (fun x c => c = x \/ Z.of_nat (nat_of_ascii c) = Z.of_nat (nat_of_ascii x) - 32) (list_ascii_of_string w) l.
Lemma any_case_lower w l : any_case w l -> Forall (fun x => 97 <= Z.of_nat (nat_of_ascii x) <= 122) (list_ascii_of_string w) ->
  map lower l = list_ascii_of_string w /\ Forall (fun c => is_ws c = false /\ not_underscore c = true /\ Ascii.eqb c "-" = false /\ Ascii.eqb c "+" = false) l.
Proof.
  unfold any_case. induction 1 as [|x c xs cs H _ IH]; intros F; [split; constructor|]. inversion F as [|? ? F1 F2]; subst. destruct (IH F2) as [IH1 IH2]. cbn [map].
  assert (X : lower c = x /\ (is_ws c = false /\ not_underscore c = true /\ Ascii.eqb c "-" = false /\ Ascii.eqb c "+" = false)).
  { clear - H F1. destruct H as [-> | H].
    - revert F1. destruct x as [[] [] [] [] [] [] [] []]; vm_compute; intros [P1 P2]; try (exfalso; congruence); repeat split.
    - assert (C : 65 <= Z.of_nat (nat_of_ascii c) <= 90) by lia. split.
      + unfold lower. replace ((65 <=? Z.of_nat (nat_of_ascii c)) && (Z.of_nat (nat_of_ascii c) <=? 90)) with true by lia.
        rewrite <- (ascii_nat_embedding x). f_equal. lia.
      + clear H F1. revert C. destruct c as [[] [] [] [] [] [] [] []]; vm_compute; intros [P1 P2]; try (exfalso; congruence); repeat split. }
  destruct X as [-> X]. rewrite IH1. split; [reflexivity|constructor; auto].
Qed.
Lemma special_text sgn w l : any_case w l -> Forall (fun x => 97 <= Z.of_nat (nat_of_ascii x) <= 122) (list_ascii_of_string w) ->
  In sgn [[]; ["+"%char]; ["-"%char]] ->
  number_text (sgn ++ l) = Some (sgn ++ l) /\ (l <> [] -> string_of_list_ascii (map lower (snd (take_sign (sgn ++ l)))) = w).
Proof.
  intros W F S. destruct (any_case_lower w l W F) as [L X].
  assert (Y : Forall (fun c => is_ws c = false /\ not_underscore c = true) (sgn ++ l)).
  { apply Forall_app. split; [|eapply Forall_impl; [|exact X]; cbv beta; tauto]. cbn [In] in S. destruct S as [<-|[<-|[<-|[]]]]; repeat constructor. }
  split.
  - unfold number_text.
    assert (LS : forall m, Forall (fun c => is_ws c = false /\ not_underscore c = true) m -> lstrip_text m = m).
    { intros [|c m] HM; [reflexivity|]. inversion HM as [|? ? [HM1 _] _]; subst. cbn [lstrip_text]. rewrite HM1. reflexivity. }
    assert (ST : strip_text (sgn ++ l) = sgn ++ l).
    { unfold strip_text. rewrite (LS _ Y). rewrite LS; [apply rev_involutive|]. apply Forall_rev. exact Y. }
    assert (FI : filter not_underscore (sgn ++ l) = sgn ++ l).
    { clear - Y. induction Y as [|c m [_ H] _ IH]; [reflexivity|]. cbn [filter]. rewrite H, IH. reflexivity. }
    rewrite ST, no_underscores_good. replace (good zero (sgn ++ l)) with true; [rewrite FI; reflexivity|].
    symmetry. apply good_between. rewrite <- FI. apply between_none.
  - intros NE. assert (Z : snd (take_sign (sgn ++ l)) = l).
    { cbn [In] in S. destruct S as [<-|[<-|[<-|[]]]]; cbn [app take_sign]; try reflexivity. destruct l as [|c l]; [congruence|]. inversion X as [|? ? (_ & _ & X1 & X2) _]; subst.
      cbn [take_sign]. rewrite X1, X2. reflexivity. }
    rewrite Z, L. apply string_of_list_ascii_of_string.
Qed.
Theorem pretty_special sgn l c : In sgn [[]; ["+"%char]; ["-"%char]] -> In c (map fst units) ->
  (any_case "inf" l \/ any_case "infinity" l -> reverse_pretty (string_of_list_ascii ((sgn ++ l) ++ [c])) = Raise OverflowError) /\
  (any_case "nan" l -> reverse_pretty (string_of_list_ascii ((sgn ++ l) ++ [c])) = Raise ValueError).
Proof.
  intros S C. rewrite reverse_pretty_snoc. apply in_map_iff in C as ((c', w) & <- & C). cbn [fst]. apply suffix_units in C as (k & -> & _).
  assert (G : forall w, any_case w l -> Forall (fun x => 97 <= Z.of_nat (nat_of_ascii x) <= 122) (list_ascii_of_string w) -> w <> EmptyString ->
    float_times (sgn ++ l) k = match (if String.eqb w "inf" || String.eqb w "infinity" then Some Infinite else if String.eqb w "nan" then Some NotANumber else None) with
      | Some Infinite => Raise OverflowError | Some NotANumber => Raise ValueError | None => decimal_times (sgn ++ l) k end).
  { intros v A F NE. destruct (special_text sgn v l A F S) as [N T]. unfold float_times. rewrite N. unfold inf_or_nan. rewrite T; [reflexivity|].
    intros ->. inversion A as [EQ|]. destruct v; [congruence|discriminate]. }
  split.
  - intros [A|A]; rewrite (G _ A); try discriminate; try reflexivity; repeat constructor; vm_compute; discriminate.
  - intros A; rewrite (G _ A); try discriminate; try reflexivity; repeat constructor; vm_compute; discriminate.
Qed.
