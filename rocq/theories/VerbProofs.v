(** Proofs: what 'blpk --verbose' prints. *)
From Verif Require Import Base PyVal Checksums Headers Pretty Args FileIO Append Files Cli Objects Log ObjectsSpec ReprSpec Report ReportSpec Spec Verbose VerbSpec
  BaseLemmas HeaderProofs IOProofs DamageProofs ObjectsProofs ReportProofs DynPackProofs.
From Coq Require Import ZifyBool ZifyNat.
Local Ltac Zify.zify_post_hook ::= Z.div_mod_to_equations.

(** Logs at the verbosity NORMAL or VERBOSE, and what becomes of messages there. *)
Definition talk (l : logst) : Prop := l_level l = "NORMAL"%string \/ l_level l = "VERBOSE"%string.
Definition emit (l : logst) (ms : list text) : logst :=
  if String.eqb (l_level l) "VERBOSE" then plus l (flat_map (told ": ") ms) else l.
Lemma emit_nil l : emit l [] = l.
Proof. unfold emit. cbn [flat_map]. rewrite plus_nil. destruct (String.eqb _ _); reflexivity. Qed.
Lemma emit_level l ms : l_level (emit l ms) = l_level l.
Proof. unfold emit. destruct (String.eqb _ _); reflexivity. Qed.
Lemma emit_talk l ms : talk l -> talk (emit l ms).
Proof. unfold talk. rewrite emit_level. auto. Qed.
Lemma emit_emit l a b : emit (emit l a) b = emit l (a ++ b).
Proof.
  unfold emit at 1. rewrite emit_level. unfold emit. destruct (String.eqb _ _); [|reflexivity].
  rewrite plus_plus, flat_map_app. reflexivity.
Qed.
Lemma emit_one l m : talk l -> verbose m "VERBOSE" l = (emit l [m], Ok tt).
Proof.
  intros [L|L].
  - rewrite (log_verbose m "VERBOSE" l 1 0 _ eq_refl ltac:(rewrite L; reflexivity) (lines_exist m)).
    change (1 <=? 0) with false. cbv iota. rewrite app_nil_r. unfold emit. rewrite L. destruct l; cbn in L; subst; reflexivity.
  - rewrite (log_verbose m "VERBOSE" l 1 1 _ eq_refl ltac:(rewrite L; reflexivity) (lines_exist m)).
    change (1 <=? 1) with true. cbv iota. unfold emit. rewrite L. cbn [String.eqb Ascii.eqb Bool.eqb]. unfold plus, told. cbn [flat_map].
    rewrite app_nil_r, map_map. rewrite <- L at 1. reflexivity.
Qed.

(** [tells mv m s P]: from s, mv does what m does, and prints messages that P holds of. *)
Definition tells {S A} (mv : SM (S * logst) A) (m : SM S A) (s : S) (P : list text -> S -> res A -> Prop) : Prop :=
  exists ms, P ms (fst (m s)) (snd (m s)) /\ forall l, talk l -> mv (s, l) = ((fst (m s), emit l ms), snd (m s)).
Lemma tells_weaken {S A} mv m (s : S) (P Q : list text -> S -> res A -> Prop) :
  (forall ms, P ms (fst (m s)) (snd (m s)) -> Q ms (fst (m s)) (snd (m s))) -> tells mv m s P -> tells mv m s Q.
Proof. intros H (ms & HP & X). exists ms. auto. Qed.
Lemma tells_onl {S A} (m : SM S A) s (P : list text -> S -> res A -> Prop) : P [] (fst (m s)) (snd (m s)) -> tells (onl m) m s P.
Proof. intros H. exists []. split; [exact H|]. intros l _. rewrite emit_nil. unfold onl. cbn [fst snd]. destruct (m s). reflexivity. Qed.
Lemma tells_pure {S A} (r : res A) (s : S) (P : list text -> S -> res A -> Prop) : P [] s r -> tells (lift r) (lift r) s P.
Proof. intros H. exists []. split; [exact H|]. intros l _. rewrite emit_nil. reflexivity. Qed.
Lemma tells_tell {S A} x kv (k : SM S A) s (P : list text -> S -> res A -> Prop) : tells kv k s (fun ms => P (x :: ms)) -> tells (tell x ;;; kv) k s P.
Proof.
  intros (ms & HP & X). exists (x :: ms). split; [exact HP|]. intros l L. unfold tell.
  rewrite (bind_run _ _ _ (s, emit l [x]) tt) by (apply onr_run, emit_one, L).
  rewrite X by (apply emit_talk, L). rewrite emit_emit. reflexivity.
Qed.
Lemma tells_tell_last {S} x (s : S) (P : list text -> S -> res unit -> Prop) : P [x] s (Ok tt) -> tells (tell x) (ret tt) s P.
Proof. intros H. exists [x]. split; [exact H|]. intros l L. unfold tell. apply onr_run, emit_one, L. Qed.
Lemma tells_bind {S A B} (mv : SM (S * logst) A) (m : SM S A) (kv : A -> SM (S * logst) B) (k : A -> SM S B) (s : S) (Q : list text -> S -> res A -> Prop) (P : list text -> S -> res B -> Prop) :
  tells mv m s Q ->
  (forall ms s' e, m s = (s', Raise e) -> Q ms s' (Raise e) -> P ms s' (Raise e)) ->
  (forall ms s' a, m s = (s', Ok a) -> Q ms s' (Ok a) -> tells (kv a) (k a) s' (fun x => P (ms ++ x))) ->
  tells (bind mv kv) (bind m k) s P.
Proof.
  intros (ms & HQ & X) R N. destruct (m s) as [s' [a|e]] eqn:M; cbn [fst snd] in *.
  - destruct (N ms s' a eq_refl HQ) as (ms' & HP & X'). exists (ms ++ ms'). rewrite (bind_run _ _ _ _ _ M). split; [exact HP|].
    intros l L. rewrite (bind_run _ _ _ _ _ (X l L)), X' by (apply emit_talk, L). rewrite emit_emit. reflexivity.
  - exists ms. rewrite (bind_run_raise _ _ _ _ _ M). split; [apply R; auto|].
    intros l L. rewrite (bind_run_raise _ _ _ _ _ (X l L)). reflexivity.
Qed.
Lemma tells_step {S A B} (m : SM S A) (kv : A -> SM (S * logst) B) (k : A -> SM S B) (s : S) (P : list text -> S -> res B -> Prop) :
  (forall s' e, m s = (s', Raise e) -> P [] s' (Raise e)) ->
  (forall s' a, m s = (s', Ok a) -> tells (kv a) (k a) s' P) ->
  tells (bind (onl m) kv) (bind m k) s P.
Proof.
  intros R N. apply (tells_bind _ _ _ _ _ (fun ms s' r => ms = [] /\ m s = (s', r))).
  - apply tells_onl. split; [reflexivity|destruct (m s); reflexivity].
  - intros ms s' e _ (-> & M). apply R, M.
  - intros ms s' a _ (-> & M). apply N, M.
Qed.
Lemma tells_lift {S A B} (r : res A) (kv : A -> SM (S * logst) B) (k : A -> SM S B) (s : S) (P : list text -> S -> res B -> Prop) :
  (forall e, r = Raise e -> P [] s (Raise e)) ->
  (forall a, r = Ok a -> tells (kv a) (k a) s P) ->
  tells (bind (lift r) kv) (bind (lift r) k) s P.
Proof.
  intros R N. apply (tells_bind _ _ _ _ _ (fun ms s' r' => ms = [] /\ s' = s /\ r = r')).
  - apply tells_pure. auto.
  - intros ms s' e _ (-> & -> & ->). apply R. reflexivity.
  - intros ms s' a _ (-> & -> & ->). apply N. reflexivity.
Qed.
Lemma tells_ret {S A} (a : A) (s : S) (P : list text -> S -> res A -> Prop) : P [] s (Ok a) -> tells (ret a) (ret a) s P.
Proof. intros H. exists []. split; [exact H|]. intros l _. rewrite emit_nil. reflexivity. Qed.
Lemma tells_raise {S A} e (s : S) (P : list text -> S -> res A -> Prop) : P [] s (Raise e) -> tells (raise e) (raise e) s P.
Proof. intros H. exists []. split; [exact H|]. intros l _. rewrite emit_nil. reflexivity. Qed.

Lemma prefix_nil {X} (l : list X) : begins [] l. Proof. exists l. reflexivity. Qed.
Lemma prefix_refl {A} (l : list A) : begins l l. Proof. exists []. rewrite app_nil_r. reflexivity. Qed.
Lemma prefix_app {A} (a p l : list A) : begins p l -> begins (a ++ p) (a ++ l).
Proof. intros (r & ->). exists r. rewrite app_assoc. reflexivity. Qed.
Lemma prefix_cons {A} (x : A) p l : begins p l -> begins (x :: p) (x :: l).
Proof. apply (prefix_app [x]). Qed.
Lemma prefix_left {A} (p a b : list A) : begins p a -> begins p (a ++ b).
Proof. intros (r & ->). exists (r ++ b). rewrite app_assoc. reflexivity. Qed.

(** The messages of a computation: all of the story if it succeeds, else a part. *)
Definition part {S A} (story : list text) : list text -> S -> res A -> Prop :=
  fun ms _ r => match r with Ok _ => ms = story | Raise _ => begins ms story end.

Lemma part_all {S A} story (s : S) (r : res A) : part story story s r.
Proof. destruct r; [reflexivity|apply prefix_refl]. Qed.

(** ** Chunks *)
Definition resolved (cs : csarg) (z : Z) : Prop :=
  match cs with CSInt y => y = z | CSStr t => reverse_pretty t = Ok z | CSOther => False end.
Lemma plan_numbers n c : 0 < c -> c <= n ->
  (if c =? n then (1, n, n) else if n mod c =? 0 then (n / c, c, c) else (n / c + 1, c, n mod c)) =
  ((n + c - 1) / c, c, n - ((n + c - 1) / c - 1) * c).
Proof.
  intros C N. assert (K : forall k r, n = k * c + r -> 0 < r <= c -> (n + c - 1) / c = k + 1).
  { intros k r -> R. symmetry. apply (Z.div_unique _ _ _ (r - 1)); [lia|ring]. }
  pose proof (Z.div_mod n c ltac:(lia)) as D. pose proof (Z.mod_pos_bound n c C) as B.
  set (k := n / c) in *. set (m := n mod c) in *. clearbody k m.
  destruct (c =? n) eqn:E1.
  - assert (n = c) as -> by lia. rewrite (K 0 c) by lia. f_equal; try f_equal; ring.
  - destruct (m =? 0) eqn:E2.
    + rewrite (K (k - 1) c) by lia. f_equal; try f_equal; lia.
    + rewrite (K k m) by lia. f_equal; try f_equal; lia.
Qed.
Lemma calc_tells n cs : 0 <= n -> exists ms,
  (forall l, talk l -> v_calculate_nchunks n cs l = (emit l ms, calculate_nchunks n cs)) /\
  (forall z, resolved cs z -> part (S := unit) (plan_story n z) ms tt (calculate_nchunks n cs)) /\
  ((forall z, ~ resolved cs z) -> ms = [] /\ (n <> 0 -> exists e, calculate_nchunks n cs = Raise e)).
Proof.
  intros N. unfold v_calculate_nchunks, calculate_nchunks, plan_story. replace (n <? 0) with false by lia.
  destruct (n =? 0) eqn:N0.
  { exists []. split; [intros l _; rewrite emit_nil; reflexivity|]. split; [reflexivity|]. split; [reflexivity|lia]. }
  set (r := match cs with CSInt z => Ok z | CSStr s => reverse_pretty s | CSOther => Raise TypeError end).
  assert (RZ : forall z, resolved cs z <-> r = Ok z).
  { intros z. unfold r. destruct cs; cbn [resolved]; split; congruence || tauto. }
  clearbody r. destruct r as [c|e].
  2:{ exists []. split; [intros l _; rewrite emit_nil; reflexivity|]. split; [intros z Z; apply RZ in Z; discriminate|]. split; [reflexivity|]. intros _. eexists. reflexivity. }
  cbn [rbind]. destruct (check_range c 1 BLOSC_MAX_BUFFERSIZE) as [u|e] eqn:CR; cbn [rbind].
  2:{ exists []. split; [intros l _; rewrite emit_nil; unfold bind, lift; rewrite CR; reflexivity|]. split; [intros z Z; apply prefix_nil|]. split; [reflexivity|]. intros _. eexists. reflexivity. }
  apply check_range_Ok in CR as RG.
  set (c' := if n <? c then n else c).
  assert (C' : c' = Z.min c n) by (unfold c'; destruct (n <? c) eqn:?; lia).
  set (sm := if n <? c then [t_ "Input was smaller than the given 'chunk_size': " ++ double_pretty_size c ++ t_ " using: " ++ double_pretty_size n] else []).
  rewrite plan_numbers by lia. set (k := (n + c' - 1) / c'). set (last := n - (k - 1) * c').
  assert (V : forall l, talk l -> forall k2 : Z -> SM logst (Z * Z * Z),
    (cs0 <- lift (@Ok Z c) ;; lift (check_range cs0 1 BLOSC_MAX_BUFFERSIZE) ;;;
     cs1 <- (if n <? cs0 then verbose (t_ "Input was smaller than the given 'chunk_size': " ++ double_pretty_size cs0 ++ t_ " using: " ++ double_pretty_size n) "VERBOSE" ;;; ret n else ret cs0) ;; k2 cs1) l
    = k2 c' (emit l sm)).
  { intros l L k2. unfold c', sm. unfold bind at 1, lift at 1. unfold bind at 1, lift at 1. rewrite CR. destruct (n <? c).
    - assert (X : (verbose (t_ "Input was smaller than the given 'chunk_size': " ++ double_pretty_size c ++ t_ " using: " ++ double_pretty_size n) "VERBOSE" ;;; ret n) l
             = (emit l [t_ "Input was smaller than the given 'chunk_size': " ++ double_pretty_size c ++ t_ " using: " ++ double_pretty_size n], Ok n)).
      { rewrite (bind_run _ _ _ _ _ (emit_one l _ L)). reflexivity. }
      exact (bind_run _ _ _ _ _ X).
    - rewrite emit_nil. reflexivity. }
  destruct (MAX_CHUNKS <? k) eqn:MC.
  - exists sm. split; [|split].
    + intros l L. rewrite V by exact L. cbv zeta. rewrite plan_numbers by lia. fold k. rewrite MC. reflexivity.
    + intros z Z. apply RZ in Z. apply Ok_inj in Z. subst z. cbn [part]. rewrite <- C'. fold k. apply prefix_left, prefix_refl.
    + intros Z. destruct (Z c). apply RZ. reflexivity.
  - exists (sm ++ [t_ "nchunks: " ++ int_text k; t_ "chunk_size: " ++ double_pretty_size c'; t_ "last_chunk_size: " ++ double_pretty_size last]). split; [|split].
    + intros l L. rewrite V by exact L. cbv zeta. rewrite plan_numbers by lia. fold k. fold last. rewrite MC.
      assert (TL : talk (emit l sm)) by (apply emit_talk, L).
      change ((ret tt : SM logst unit)) with (fun s0 : logst => (s0, Ok tt)). unfold bind at 1.
      rewrite (bind_run _ _ _ _ _ (emit_one _ _ TL)). apply emit_talk with (ms := [t_ "nchunks: " ++ int_text k]) in TL.
      rewrite (bind_run _ _ _ _ _ (emit_one _ _ TL)). apply emit_talk with (ms := [t_ "chunk_size: " ++ double_pretty_size c']) in TL.
      rewrite (bind_run _ _ _ _ _ (emit_one _ _ TL)). rewrite !emit_emit, <- ?app_assoc. reflexivity.
    + intros z Z. apply RZ in Z. apply Ok_inj in Z. subst z. cbn [part]. rewrite <- C'. fold k. fold last. reflexivity.
    + intros Z. destruct (Z c). apply RZ. reflexivity.
Qed.
Lemma tells_calc {S A} n cs z (kv : Z * Z * Z -> SM (S * logst) A) (k : Z * Z * Z -> SM S A) (s : S) (P : list text -> S -> res A -> Prop) : 0 <= n -> resolved cs z ->
  (forall ms e, calculate_nchunks n cs = Raise e -> begins ms (plan_story n z) -> P ms s (Raise e)) ->
  (forall x, calculate_nchunks n cs = Ok x -> tells (kv x) (k x) s (fun ms => P (plan_story n z ++ ms))) ->
  tells (bind (onr (v_calculate_nchunks n cs)) kv) (bind (lift (calculate_nchunks n cs)) k) s P.
Proof.
  intros N Z R K. destruct (calc_tells n cs N) as (ms & X & Y & _). specialize (Y z Z).
  apply (tells_bind _ _ _ _ _ (fun ms' s' r => s' = s /\ r = calculate_nchunks n cs /\ ms' = ms)).
  - exists ms. split; [auto|]. intros l L. unfold onr. cbn [fst snd]. rewrite X by exact L. reflexivity.
  - intros ms' s' e _ (-> & Q & ->). rewrite <- Q in Y. apply R; auto.
  - intros ms' s' x _ (-> & Q & ->). rewrite <- Q in Y. cbn [part] in Y. rewrite Y. apply K. auto.
Qed.

Section WithEnv.
Variable E : Env.
Variable T : Texts.

(** ** Metadata *)
Definition meta_line (mh : mheader) : text :=
  t_ "read " ++ (match mh_codec mh with CoNone => t_ "uncompressed" | CoZlib => t_ "compressed" end) ++
  t_ " metadata of size: '" ++ int_text (mh_comp mh) ++ t_ "'".
Definition meta_at (f : fp) : list text :=
  match mheader_decode (sub (fpos f) 32 (fdata f)) with Ok mh => [meta_line mh] | Raise _ => [] end.
Lemma metadata_tells f : tells (v_read_metadata E) (read_metadata E) f (part (meta_at f)).
Proof.
  unfold v_read_metadata, read_metadata. apply tells_step; [discriminate|]. intros f1 raw R1.
  assert (RW : raw = sub (fpos f) 32 (fdata f)).
  { unfold f_read in R1. change (METADATA_HEADER_LENGTH <? 0) with false in R1. change METADATA_HEADER_LENGTH with 32 in R1. cbv zeta iota in R1. rewrite ztake_zdrop_sub in R1. congruence. }
  unfold meta_at. rewrite <- RW. clear R1 RW.
  apply tells_lift; [intros e He; apply prefix_nil|]. intros h Hh. rewrite Hh.
  apply tells_step; [intros; apply prefix_nil|]. intros f2 payload _.
  apply tells_step; [intros; apply prefix_nil|]. intros f3 u _.
  apply (tells_bind _ _ _ _ _ (fun ms _ _ => ms = [])).
  { destruct (cks_eqb (mh_checksum h) CkNone); [apply tells_ret; reflexivity|].
    apply tells_step; [reflexivity|]. intros f4 x _. destruct (bytes_eqb _ x); [apply tells_ret|apply tells_raise]; reflexivity. }
  { intros ms s' e _ ->. apply prefix_nil. }
  intros ms f4 v _ ->. cbn [app].
  apply tells_lift; [intros; apply prefix_nil|]. intros plain _.
  apply tells_tell.
  match goal with |- tells _ _ _ (fun ms => part _ (?x :: ms)) => replace x with (meta_line h) by (unfold meta_line; destruct (mh_codec h); reflexivity) end.
  apply tells_lift; [intros; apply prefix_refl|]. intros u2 _.
  apply tells_lift; [intros; apply prefix_refl|]. intros m _.
  apply tells_ret. reflexivity.
Qed.

Lemma after_header f h g : read_bloscpack_header (fp_of f) = (g, Ok h) -> header_decode (sub 0 32 f) = Ok h /\ fdata g = f /\ fpos g = 32.
Proof.
  unfold read_bloscpack_header. intros R. unfold bind at 1 in R. unfold f_read in R. change (BLOSCPACK_HEADER_LENGTH <? 0) with false in R. cbv zeta iota in R.
  cbn [fpos fdata fp_of flog] in R. change BLOSCPACK_HEADER_LENGTH with 32 in R.
  unfold bind, lift in R. rewrite ztake_zdrop_sub in R.
  destruct (header_decode (sub 0 32 f)) as [h0|e] eqn:HD; [|discriminate].
  destruct (FORMAT_VERSION =? h_version h0); [|discriminate]. unfold ret in R.
  assert (h0 = h) as -> by congruence. split; [reflexivity|]. assert (G : g = mkfp f (0 + zlen (sub 0 32 f)) []) by congruence. subst g. cbn [fdata fpos].
  split; [reflexivity|]. apply header_decode_inv in HD as (_ & HB). rewrite HB. rewrite zlen_header_bytes. reflexivity.
Qed.
Lemma beginning_tells f : tells (v_read_beginning E) (read_beginning E) (fp_of f) (part (metadata_story f)).
Proof.
  unfold v_read_beginning, read_beginning. apply tells_step; [intros; apply prefix_nil|]. intros g h R.
  apply after_header in R as (HD & G1 & G2).
  apply (tells_bind _ _ _ _ _ (part (metadata_story f))).
  { unfold metadata_story. rewrite HD. destruct (h_metadata h).
    - apply (tells_bind _ _ _ _ _ (part (meta_at g))); [apply metadata_tells| |].
      + intros ms s' e _ P. unfold part, meta_at, meta_line in *. rewrite G1, G2 in P. exact P.
      + intros ms s' r _ P. apply tells_ret. unfold part, meta_at, meta_line in *. rewrite G1, G2 in P. rewrite app_nil_r. exact P.
    - apply tells_ret. destruct (mheader_decode _); reflexivity. }
  { auto. }
  intros ms g2 mm _ ->. cbn [part].
  apply tells_step; [intros; rewrite app_nil_r; apply prefix_refl|]. intros g3 o _. apply tells_ret. apply app_nil_r.
Qed.

(** ** Files *)
Lemma getsize_run p s : getsize p s = (s, match s p with Some d => Ok (size d) | None => Raise OSError end).
Proof. unfold getsize. destruct (s p); reflexivity. Qed.
Lemma pack_file_tells i o cs z m a b c s : resolved cs z ->
  tells (v_pack_file E i o cs m a b c) (pack_file_to_file E i o cs m a b c) s
    (fun ms s' r => exists low, begins low ms /\ part ([t_ "input file size: " ++ double_pretty_size (length_of s i)] ++ plan_story (length_of s i) z ++
       [t_ "output file size: " ++ double_pretty_size (length_of s' o); t_ "compression ratio: " ++ ratio_text (length_of s i) (length_of s' o)]) ms s' r /\
       low = match s i with
             | Some _ => [t_ "input file size: " ++ double_pretty_size (length_of s i)] ++
                         match calculate_nchunks (length_of s i) cs with Ok _ => plan_story (length_of s i) z | Raise _ => [] end
             | None => [] end).
Proof.
  intros RS. unfold v_pack_file, pack_file_to_file, pack_file_racing, length_of. apply tells_step; rewrite getsize_run.
  { intros s' e. destruct (s i); [discriminate|]. intros _. eexists. repeat split; apply prefix_nil. }
  intros s' n. destruct (s i) as [d|] eqn:SI; [|discriminate]. intros X. injection X as <- <-.
  apply tells_tell. apply (tells_calc _ _ z); [apply zlen_nonneg|exact RS| |].
  { intros ms e C P. change (zlen d) with (size d) in C. rewrite C. eexists. split; [|split; [|reflexivity]].
    - apply (prefix_cons _ []), prefix_nil.
    - cbn [part app]. apply prefix_cons, prefix_left, P. }
  intros [[k c'] lst] C. change (zlen d) with (size d) in C. rewrite C.
  assert (R0 : forall (s' : fs) (e : exn) more, exists low, begins low ((t_ "input file size: " ++ double_pretty_size (size d)) :: plan_story (size d) z ++ []) /\
     part (S := fs) (A := option margs) ([t_ "input file size: " ++ double_pretty_size (size d)] ++ plan_story (size d) z ++ more)
       ((t_ "input file size: " ++ double_pretty_size (size d)) :: plan_story (size d) z ++ []) s' (Raise e) /\
     low = [t_ "input file size: " ++ double_pretty_size (size d)] ++ plan_story (size d) z).
  { intros s' e more. eexists. split; [|split; [|reflexivity]].
    - rewrite app_nil_r. apply prefix_refl.
    - cbn [part app]. rewrite app_nil_r. apply prefix_cons, prefix_left, prefix_refl. }
  change (zlen d) with (size d) in *.
  assert (MW : forall (s0 : fs) (kv : SM fsl (option margs)) (k0 : SM fs (option margs)) P, tells kv k0 s0 P -> tells kv (meanwhile (fun s1 => s1) ;;; k0) s0 P).
  { intros s0 kv k0 P H. exact H. }
  apply MW. clear MW.
  apply tells_step; [intros; apply R0|]. intros s1 data _.
  apply tells_step; [intros; apply R0|]. intros s2 u2 _.
  apply tells_step; [intros; apply R0|]. intros s3 r _.
  apply tells_step; rewrite getsize_run.
  { intros; apply R0. }
  intros s4 os. destruct (s3 o) as [out|] eqn:SO; [|discriminate]. intros X. injection X as <- <-.
  apply tells_tell. destruct (size out =? 0).
  - apply tells_raise. eexists. rewrite SO. split; [|split; [|reflexivity]].
    + cbn [app]. apply prefix_cons, prefix_left, prefix_refl.
    + cbn [part app]. apply prefix_cons, prefix_app, prefix_cons, prefix_nil.
  - apply tells_tell. apply tells_ret. eexists. rewrite SO. split; [|split; [|reflexivity]].
    + cbn [app]. apply prefix_cons, prefix_left, prefix_refl.
    + reflexivity.
Qed.

Lemma unpack_core_tells b : exists ms,
  (match read_beginning E (fp_of b) with (_, Ok _) => ms = metadata_story b | _ => begins ms (metadata_story b) end) /\
  forall l, talk l -> v_unpack_core E b l = (fst (unpack_core E b), emit l ms, snd (unpack_core E b)).
Proof.
  destruct (beginning_tells b) as (ms & P & X). exists ms. unfold v_unpack_core, unpack_core.
  destruct (read_beginning E (fp_of b)) as [f [bg|e]]; cbn [fst snd part] in *.
  - split; [exact P|]. intros l L. rewrite X by exact L. destruct (unpack_fp E (b_header bg) (f, fp_of [])) as [[? ?] ?]. reflexivity.
  - split; [exact P|]. intros l L. rewrite X by exact L. reflexivity.
Qed.
(** What reading the metadata of an input that is its own output finds: nothing. *)
Lemma unpack_file_tells i o s :
  tells (v_unpack_file E i o) (unpack_file_from_file E i o) s
    (fun ms s' r => begins (match s i with Some _ => [t_ "input file size: " ++ t_ (pretty_size (length_of s i))] | None => [] end) ms /\
       part ([t_ "input file size: " ++ t_ (pretty_size (length_of s i))] ++ (match s i with Some f => metadata_story f | None => [] end) ++
       [t_ "output file size: " ++ t_ (pretty_size (length_of s' o)); t_ "decompression ratio: " ++ ratio_text (length_of s' o) (length_of s i)]) ms s' r).
Proof.
  unfold v_unpack_file, unpack_file_from_file, length_of. apply tells_step; rewrite getsize_run.
  { intros s' e. destruct (s i); [discriminate|]. intros _. split; apply prefix_nil. }
  intros s' n. destruct (s i) as [d|] eqn:SI; [|discriminate]. intros X. injection X as <- <-.
  apply tells_tell. change (zlen d) with (size d) in *.
  assert (R0 : forall (s' : fs) (e : exn) ms more, begins ms (metadata_story d) ->
     begins [t_ "input file size: " ++ t_ (pretty_size (size d))] ((t_ "input file size: " ++ t_ (pretty_size (size d))) :: ms) /\
     part (S := fs) (A := pyval) ([t_ "input file size: " ++ t_ (pretty_size (size d))] ++ metadata_story d ++ more)
       ((t_ "input file size: " ++ t_ (pretty_size (size d))) :: ms) s' (Raise e)).
  { intros s' e ms more B. split; [apply prefix_cons, prefix_nil|]. cbn [part app]. apply prefix_cons, prefix_left, B. }
  apply tells_step; [intros; apply R0, prefix_nil|]. intros s1 data OP.
  assert (data = d /\ s1 = s) as (-> & ->). { unfold open_rb in OP. rewrite SI in OP. split; congruence. } clear OP.
  apply tells_step; [intros; apply R0, prefix_nil|]. intros s2 u2 _.
  set (seen := if String.eqb i o then [] else d).
  apply (tells_bind _ _ _ _ _ (fun ms s' r => match r with Ok _ => ms = metadata_story d | Raise _ => begins ms (metadata_story d) end)).
  { destruct (unpack_core_tells seen) as (ms & P & X). exists ms. split.
    - assert (B : match read_beginning E (fp_of seen) with (_, Ok _) => ms = metadata_story d | _ => begins ms (metadata_story d) end).
      { unfold seen in *. destruct (String.eqb i o); [|exact P].
        assert (R : exists g e, read_beginning E (fp_of []) = (g, Raise e)) by (eexists; eexists; reflexivity).
        destruct R as (g & e & R). rewrite R in *. destruct P as (r & P). change (metadata_story []) with (@nil text) in P.
        symmetry in P. apply app_eq_nil in P as (-> & _). apply prefix_nil. }
      clear X P. unfold unpack_core. destruct (read_beginning E (fp_of seen)) as [f [bg|e]]; cbn [fst snd]; [|exact B].
      destruct (unpack_fp E (b_header bg) (f, fp_of [])) as [[? ?] r]. cbn [fst snd]. destruct r; cbn [rbind]; [exact B|subst; apply prefix_refl].
    - intros l L. cbn [fst snd]. rewrite X by exact L. destruct (unpack_core E seen). reflexivity. }
  { intros ms s' e _ B. apply R0, B. }
  intros ms s3 m _ ->.
  apply tells_step; rewrite getsize_run.
  { intros s' e _. rewrite app_nil_r. apply R0, prefix_refl. }
  intros s4 os. destruct (s3 o) as [out|] eqn:SO; [|discriminate]. intros X. injection X as <- <-.
  apply tells_tell. destruct (size d =? 0).
  - apply tells_raise. rewrite SO. split; [apply prefix_cons, prefix_nil|].
    cbn [part app]. apply prefix_cons, prefix_app, prefix_cons, prefix_nil.
  - apply tells_tell. apply tells_ret. rewrite SO. split; [apply prefix_cons, prefix_nil|]. reflexivity.
Qed.

(** ** Appending *)
Lemma on_orig_tells {A} (mv : SM (fp * logst) A) (m : SM fp A) nf f P :
  tells mv m f (fun ms g r => P ms (nf, g) r) -> tells (on_orig mv) (onr m) (nf, f) P.
Proof.
  intros (ms & H & X). exists ms. unfold onr. cbn [fst snd]. destruct (m f) as [g r] eqn:M. cbn [fst snd] in *. split; [exact H|].
  intros l L. unfold on_orig. cbn [fst snd]. rewrite X by exact L. reflexivity.
Qed.
Definition grow_story (d : bytes) (x : Z) (cr : Z * Z) : list text :=
  metadata_story d ++ if snd cr <? x then plan_story (x - snd cr) (fst cr) else [].
Definition grow_told (d : bytes) (x : Z) (ms : list text) (st : fp * fp) (r : res Z) : Prop :=
  match free_in_last E d with
  | Ok cr => part (grow_story d x cr) ms st r
  | Raise _ => begins ms (metadata_story d) /\ is_ok r = false
  end /\ begins (if is_ok (snd (read_beginning E (fp_of d))) then metadata_story d else []) ms.
Lemma last_is_rev (o0 : Z) os : exists r, rev (o0 :: os) = List.last (o0 :: os) 0 :: r.
Proof.
  destruct (rev (o0 :: os)) as [|p r] eqn:R.
  - apply (f_equal (@List.length Z)) in R. rewrite rev_length in R. discriminate.
  - exists r. f_equal. apply (f_equal (@rev Z)) in R. rewrite rev_involutive in R. rewrite R. cbn [rev]. symmetry. apply last_last.
Qed.
Lemma append_fp_tells x oa nf d : tells (v_append_fp E x oa) (append_fp E x oa) (nf, fp_of d) (grow_told d x).
Proof.
  unfold v_append_fp, append_fp.
  apply (tells_bind _ _ _ _ _ (fun ms st r => part (metadata_story d) ms (snd st) r /\ read_beginning E (fp_of d) = (snd st, r))).
  { apply on_orig_tells. apply (tells_weaken _ _ _ (part (metadata_story d))); [|apply beginning_tells].
    intros ms H. cbn [snd]. split; [exact H|]. destruct (read_beginning E (fp_of d)); reflexivity. }
  { intros ms st e _ (P & R). unfold grow_told, free_in_last. rewrite (bind_run_raise _ _ _ _ _ R), R. cbn [snd is_ok]. split; [split; [exact P|reflexivity]|apply prefix_nil]. }
  intros ms [nf' g] bg _ (P & R). cbn [part snd] in P, R. subst ms. cbv zeta.
  assert (FR : free_in_last E d = snd (match rev (b_offsets bg) with
        | [] => raise RuntimeError
        | p :: _ => f_seek E p ;;;
                    c <- read_compressed_chunk E (h_checksum (b_header bg)) ;;
                    x <- lift (e_decompress E (fst (fst c))) ;;
                    ret (h_chunk_size (b_header bg), h_chunk_size (b_header bg) - size x)
        end g)).
  { unfold free_in_last. rewrite (bind_run _ _ _ _ _ R). reflexivity. }
  assert (LO : is_ok (snd (read_beginning E (fp_of d))) = true) by (rewrite R; reflexivity).
  assert (R0 : forall st e (fe : exn), free_in_last E d = Raise fe -> grow_told d x (metadata_story d ++ []) st (Raise e)).
  { intros st e fe FE. unfold grow_told. rewrite FE, LO, app_nil_r. split; [split; [apply prefix_refl|reflexivity]|apply prefix_refl]. }
  assert (R1 : forall st e, grow_told d x (metadata_story d ++ []) st (Raise e)).
  { intros st e. destruct (free_in_last E d) as [cr|fe] eqn:FE; [|apply (R0 _ _ fe eq_refl)].
    unfold grow_told. rewrite FE, LO, app_nil_r. split; [|apply prefix_refl]. cbn [part]. apply prefix_left, prefix_refl. }
  destruct (b_offsets bg) as [|o0 os]; [apply tells_raise, R1|].
  destruct (last_is_rev o0 os) as (rr & RV). rewrite RV in FR. clear RV.
  apply tells_lift; [intros; apply R1|]. intros ba _.
  apply tells_step; [intros; apply R1|]. intros [nf1 g1] u1 S1.
  apply tells_step; [intros; apply R1|]. intros [nf2 g2] r S2.
  assert (G1 : f_seek E (List.last (o0 :: os) 0) g = (g1, Ok u1)).
  { unfold onr in S1. cbn [fst snd] in S1. destruct (f_seek E (List.last (o0 :: os) 0) g) as [? ?]. congruence. }
  assert (G2 : read_compressed_chunk E (h_checksum (b_header bg)) g1 = (g2, Ok r)).
  { unfold onr in S2. cbn [fst snd] in S2. destruct (read_compressed_chunk E (h_checksum (b_header bg)) g1) as [? ?]. congruence. }
  rewrite (bind_run _ _ _ _ _ G1), (bind_run _ _ _ _ _ G2) in FR.
  apply tells_lift; [intros; apply R1|]. intros dec D. rewrite (bind_lift _ _ _ _ D) in FR. cbn [ret snd] in FR.
  change (zlen dec) with (size dec). set (room := h_chunk_size (b_header bg) - size dec) in *.
  destruct (x <=? room) eqn:XR.
  - apply tells_onl. unfold grow_told. rewrite FR, LO, app_nil_r. split; [|apply prefix_refl].
    unfold grow_story. cbn [fst snd]. replace (room <? x) with false by lia. rewrite app_nil_r.
    apply part_all.
  - apply tells_step; [intros; apply R1|]. intros st3 fill _.
    apply (tells_calc _ _ (h_chunk_size (b_header bg))); [lia|reflexivity| |].
    + intros ms e _ B. unfold grow_told. rewrite FR, LO. split; [|apply prefix_left, prefix_refl].
      unfold grow_story. cbn [part fst snd]. replace (room <? x) with true by lia. apply prefix_app, B.
    + intros [[k c] lst] _. apply tells_onl. unfold grow_told. rewrite FR, LO, app_nil_r. split; [|apply prefix_left, prefix_refl].
      unfold grow_story. cbn [fst snd]. replace (room <? x) with true by lia.
      apply part_all.
Qed.

Definition append_lines (s s' : fs) (orig new : path) (cr : Z * Z) : list text :=
  [t_ "orig file size before append: " ++ double_pretty_size (length_of s orig); t_ "new file size: " ++ double_pretty_size (length_of s new)] ++
  (match s orig with Some d => grow_story d (length_of s new) cr | None => [] end) ++
  [t_ "orig file size after append: " ++ double_pretty_size (length_of s' orig);
   t_ "Approximate compression ratio of appended data: " ++ ratio_text (length_of s' orig - length_of s orig) (length_of s new)].
Definition append_file_told (s : fs) (orig new : path) (ms : list text) (s' : fs) (r : res unit) : Prop :=
  let two := [t_ "orig file size before append: " ++ double_pretty_size (length_of s orig); t_ "new file size: " ++ double_pretty_size (length_of s new)] in
  forall d x, s orig = Some d -> s new = Some x ->
  match free_in_last E d with
  | Ok cr => part (append_lines s s' orig new cr) ms s' r
  | Raise _ => begins ms (two ++ metadata_story d) /\ is_ok r = false
  end /\ begins (two ++ if is_ok (snd (read_beginning E (fp_of d))) then metadata_story d else []) ms.
Lemma append_file_tells orig new oa s : tells (v_append_file E orig new oa) (append_file E orig new oa) s (append_file_told s orig new).
Proof.
  unfold v_append_file, append_file. apply tells_step; rewrite getsize_run.
  { intros s' e H d x D X. rewrite D in H. discriminate. }
  intros s' b. destruct (s orig) as [d|] eqn:SO; [|discriminate]. intros H. injection H as <- <-.
  apply tells_step; rewrite getsize_run.
  { intros s' e H d' x D X. rewrite X in H. discriminate. }
  intros s' xs. destruct (s new) as [x|] eqn:SN; [|discriminate]. intros H. injection H as <- <-.
  apply tells_tell, tells_tell.
  apply tells_step; unfold open_rb at 1; rewrite SO; [discriminate|]. intros s1 d' OP. assert (d' = d /\ s1 = s) as (-> & ->) by (split; congruence). clear OP.
  apply tells_step; unfold open_rb at 1; rewrite SN; [discriminate|]. intros s1 x' OP. assert (x' = x /\ s1 = s) as (-> & ->) by (split; congruence). clear OP.
  change (zlen x) with (size x). change (zlen d) with (size d).
  assert (LA : length_of s orig = size d) by (unfold length_of; rewrite SO; reflexivity).
  assert (LB : length_of s new = size x) by (unfold length_of; rewrite SN; reflexivity).
  set (A := t_ "orig file size before append: " ++ double_pretty_size (size d)). set (B := t_ "new file size: " ++ double_pretty_size (size x)).
  apply (tells_bind _ _ _ _ _ (fun ms s' r => exists st rz, grow_told d (size x) ms st rz /\ r = rz)).
  { destruct (append_fp_tells (size x) oa (fp_of x) d) as (ms & P & X). exists ms. split; [eexists; eexists; split; [exact P|reflexivity]|].
    intros l L. cbn [fst snd]. rewrite X by exact L. reflexivity. }
  { intros ms s' e _ (st & rz & P & <-) d' x' D X'. rewrite SO in D. rewrite SN in X'. injection D as <-. injection X' as <-.
    unfold grow_told in P. destruct P as (P1 & P2). cbv zeta. rewrite LA, LB. fold A B. split; [|apply (prefix_app [A; B]), P2].
    destruct (free_in_last E d) as [cr|fe].
    - cbn [part] in *. unfold append_lines. rewrite LA, LB, SO. fold A B. apply (prefix_app [A; B]), prefix_left, P1.
    - destruct P1 as (P1 & _). split; [|reflexivity]. apply (prefix_app [A; B]), P1. }
  intros ms s2 k _ (st & rz & P & <-). unfold grow_told in P. destruct P as (P1 & P2).
  destruct (free_in_last E d) as [cr|fe] eqn:FR; [|destruct P1; discriminate]. cbn [part] in P1. subst ms.
  assert (G : forall s' (r : res unit) tl, match r with Ok _ => tl = [t_ "orig file size after append: " ++ double_pretty_size (length_of s' orig);
      t_ "Approximate compression ratio of appended data: " ++ ratio_text (length_of s' orig - size d) (size x)]
      | Raise _ => begins tl [t_ "orig file size after append: " ++ double_pretty_size (length_of s' orig);
      t_ "Approximate compression ratio of appended data: " ++ ratio_text (length_of s' orig - size d) (size x)] end ->
      append_file_told s orig new (A :: B :: grow_story d (size x) cr ++ tl) s' r).
  { intros s' r tl H d' x' D X'. rewrite SO in D. rewrite SN in X'. injection D as <-. injection X' as <-. rewrite FR.
    cbv zeta. rewrite LA, LB. fold A B. split.
    - unfold append_lines. rewrite LA, LB, SO. fold A B. cbn [part app]. destruct r; cbn [part].
      + rewrite H. reflexivity.
      + apply prefix_cons, prefix_cons, prefix_app, H.
    - apply (prefix_app [A; B]), prefix_left, P2. }
  apply tells_step; rewrite getsize_run.
  { intros s' e _. apply G, prefix_nil. }
  intros s' os. destruct (s2 orig) as [out|] eqn:S2; [|discriminate]. intros H. injection H as <- <-.
  assert (LO : length_of s2 orig = size out) by (unfold length_of; rewrite S2; reflexivity).
  apply tells_tell. destruct (size x =? 0).
  - apply tells_raise, G. rewrite LO. apply prefix_cons, prefix_nil.
  - apply tells_tell_last, G. rewrite LO. reflexivity.
Qed.

Lemma rewrite_tells m ov d : tells (v_rewrite_metadata E m ov) (rewrite_metadata E m ov) (fp_of d) (part (metadata_story d)).
Proof.
  unfold v_rewrite_metadata, rewrite_metadata. apply tells_step; [intros; apply prefix_nil|]. intros g z SK.
  unfold seek_to_metadata in SK. unfold bind at 1 in SK. destruct (read_bloscpack_header (fp_of d)) as [g0 [h|e]] eqn:RH; [|discriminate].
  apply after_header in RH as (HD & G1 & G2). destruct (h_metadata h) eqn:HM; [|discriminate].
  unfold f_tell in SK. assert (g = g0) as -> by congruence. clear SK.
  assert (MS : meta_at g0 = metadata_story d). { unfold meta_at, metadata_story, meta_line. rewrite G1, G2, HD, HM. reflexivity. }
  rewrite <- MS. unfold rewrite_metadata_fp. apply tells_step; [intros; apply prefix_nil|]. intros g1 pos TL.
  assert (g1 = g0) as -> by (unfold f_tell in TL; congruence).
  apply (tells_bind _ _ _ _ _ (part (meta_at g0))); [apply metadata_tells|auto|].
  intros ms g2 [old oh] _ ->. destruct (pyeq old m); [apply tells_raise; rewrite app_nil_r; apply prefix_refl|].
  assert (R0 : forall (g : fp) e, part (meta_at g0) (meta_at g0 ++ []) g (Raise (A := unit) e)) by (intros; rewrite app_nil_r; apply prefix_refl).
  apply tells_lift; [intros; apply R0|]. intros a _.
  apply tells_step; [intros; apply R0|]. intros g3 u3 _.
  apply tells_step; [intros; apply R0|]. intros g4 u4 _.
  apply tells_ret. apply app_nil_r.
Qed.

(** ** Commands *)
Lemma tell_run x (s : fs) l : talk l -> tell x (s, l) = ((s, emit l [x]), Ok tt).
Proof. intros L. apply onr_run, emit_one, L. Qed.
Lemma tell_then {A} x (k : SM fsl A) s l : talk l -> (tell x ;;; k) (s, l) = k (s, emit l [x]).
Proof. intros L. exact (bind_run _ (fun _ => k) _ _ _ (tell_run x s l L)). Qed.
Lemma threads_run n s l : 1 <= n -> talk l -> v_nthreads n (s, l) = ((s, emit l [threads n]), Ok tt).
Proof.
  intros N L. unfold v_nthreads, threads. rewrite tell_run by exact L. repeat f_equal. destruct (n =? 1) eqn:X.
  - replace (1 <? n) with false by lia. reflexivity.
  - replace (1 <? n) with true by lia. reflexivity.
Qed.
Lemma threads_then {A} n (k : SM fsl A) s l : 1 <= n -> talk l -> (v_nthreads n ;;; k) (s, l) = k (s, emit l [threads n]).
Proof. intros N L. exact (bind_run _ (fun _ => k) _ _ _ (threads_run n s l N L)). Qed.
Lemma check_fine i o force s : files_fine force s i o = true ->
  check_files i o force s = (s, Ok tt) /\
  (forall l, r_check_files i o force (s, l) = ((s, l), Ok tt)) /\
  (forall l, talk l -> v_check_files i o force (s, l) = ((s, emit l (opening s i o)), Ok tt)).
Proof.
  unfold files_fine, check_files, r_check_files, v_check_files, fs_exists, opening. cbn [fst snd].
  destruct (s i) as [di|]; [|discriminate]. destruct (s o) as [do_|]; cbn [negb andb].
  - intros ->. cbn [negb]. split; [reflexivity|]. split; [reflexivity|]. intros l L.
    rewrite tell_then by exact L. rewrite tell_then by (apply emit_talk, L). rewrite tell_run by (do 2 apply emit_talk; exact L).
    rewrite !emit_emit. reflexivity.
  - intros _. split; [reflexivity|]. split; [reflexivity|]. intros l L. change (ret tt) with (fun st : fsl => (st, Ok tt)). unfold bind at 1.
    rewrite tell_then by exact L. rewrite tell_run by (apply emit_talk; exact L). rewrite !emit_emit. reflexivity.
Qed.
Lemma check_bad i o force s : files_fine force s i o = false -> exists m,
  check_files i o force s = (s, Raise (SystemExit 1)) /\
  (forall l, r_check_files i o force (s, l) = fail m (s, l)) /\ (forall l, v_check_files i o force (s, l) = fail m (s, l)).
Proof.
  unfold files_fine, check_files, r_check_files, v_check_files, fs_exists, opening. cbn [fst snd].
  destruct (s i) as [di|]; [|eexists; cbn; eauto]. destruct (s o) as [do_|]; cbn [negb andb]; [|discriminate].
  intros ->. cbn [negb]. eexists. split; [reflexivity|]. split; [reflexivity|]. intros l.
  rewrite (bind_run_raise _ _ _ _ _ (fail_run _ _ _)). symmetry. apply fail_run.
Qed.
Lemma one_meg : reverse_pretty "1M" = Ok (2 ^ 20). Proof. vm_compute. reflexivity. Qed.
Lemma meta_run oo s : process_metadata_args E oo s = (s, snd (process_metadata_args E oo s)).
Proof. destruct oo; reflexivity. Qed.

Lemma compress_rel n o s : 1 <= n -> exists ms,
  (forall l, talk l -> v_compress E T n o (s, l) = r_compress E T o (s, emit l ms)) /\
  compress_told E n o s (fst (cli_compress E o s)) (snd (cli_compress E o s)) ms.
Proof.
  intros N. unfold v_compress, r_compress, cli_compress, compress_told, options_fine.
  destruct (blosc_choices E (co_clevel o) (co_cname o)) as [[]|e]; cbn [is_ok andb].
  2:{ exists []. split; [|reflexivity]. intros l _. rewrite emit_nil. reflexivity. }
  set (vk := fun cs : csarg => _ : SM fsl unit) at 1. set (rk := fun cs : csarg => _ : SM fsl unit). set (ck := fun cs : csarg => _ : SM fs unit).
  assert (K : forall cs z, resolved cs z -> chosen o z -> (forall n, calculate_nchunks n cs = calculate_nchunks n (CSInt z)) -> exists ms,
    (forall l, talk l -> vk cs (s, l) = rk cs (s, emit l ms)) /\
    if is_ok (check_valid_checksum (co_checksum o)) then between (compress_low E n o z s) (compress_story n o z s (fst (ck cs s))) ms (snd (ck cs s)) else ms = []).
  { intros cs z RS CH CQ. unfold vk, rk, ck. clear vk rk ck.
    destruct (check_valid_checksum (co_checksum o)) as [k|e]; cbn [is_ok].
    2:{ exists []. split; [|reflexivity]. intros l _. rewrite emit_nil. reflexivity. }
    set (two := [threads n; t_ "getting ready for compression"]).
    assert (L2 : forall l, talk l -> talk (emit l two)) by (intros; apply emit_talk; assumption).
    match goal with |- exists ms, (forall l, talk l -> (_ ;;; (_ ;;; (_ ;;; ?v))) (s, l) = (_ ;;; ?r) (s, emit l ms)) /\ between ?low (compress_story n o z s (fst ((_ ;;; ?c) s))) ms _ => set (vb := v); set (rb := r); set (cb := c); set (lw := low) end.
    assert (V : forall l, talk l -> (lift (Ok tt) ;;; (v_nthreads n ;;; (tell (t_ "getting ready for compression") ;;; vb))) (s, l) = vb (s, emit l two)).
    { intros l L. rewrite (bind_lift _ _ _ _ eq_refl). rewrite threads_then by assumption. rewrite tell_then by (apply emit_talk, L). rewrite emit_emit. reflexivity. }
    change (fst ((lift (Ok tt) ;;; cb) s)) with (fst (cb s)). change (snd ((lift (Ok tt) ;;; cb) s)) with (snd (cb s)).
    change (exists ms, (forall l, talk l -> (lift (Ok tt) ;;; (v_nthreads n ;;; (tell (t_ "getting ready for compression") ;;; vb))) (s, l) = rb (s, emit l ms)) /\
      between lw (compress_story n o z s (fst (cb s))) ms (snd (cb s))).
    subst lw. unfold compress_low. fold two.
    destruct (files_fine (co_force o) s (co_in o) (compress_out o)) eqn:FF.
    2:{ exists two. destruct (check_bad _ _ _ _ FF) as (m & C1 & C2 & C3). split.
        - intros l L. rewrite V by exact L. unfold vb, rb. rewrite (bind_run_raise _ _ _ _ _ (eq_trans (C3 _) (fail_run _ _ _))).
          rewrite (bind_run_raise _ _ _ _ _ (eq_trans (C2 _) (fail_run _ _ _))). reflexivity.
        - unfold cb. rewrite (bind_run_raise _ _ _ _ _ C1). cbn [between snd fst]. rewrite app_nil_r. split; [apply prefix_refl|].
          unfold compress_story. fold two. apply prefix_left, prefix_refl. }
    destruct (check_fine _ _ _ _ FF) as (C1 & C2 & C3). set (op := opening s (co_in o) (compress_out o)) in *.
    match goal with vb := (_ ;;; ?v), rb := (_ ;;; ?r), cb := (_ ;;; ?c) |- _ => set (vm := v) in *; set (rm := r) in *; set (cm := c) in * end.
    assert (V2 : forall l, talk l -> vb (s, emit l two) = vm (s, emit l (two ++ op))).
    { intros l L. unfold vb. rewrite (bind_run _ _ _ _ _ (C3 _ (L2 l L))), emit_emit. reflexivity. }
    assert (R2 : forall l, rb (s, l) = rm (s, l)) by (intros l; unfold rb; rewrite (bind_run _ _ _ _ _ (C2 l)); reflexivity).
    assert (CC : cb s = cm s) by (unfold cb; rewrite (bind_run _ _ _ _ _ C1); reflexivity). rewrite CC.
    assert (PR := meta_run (co_meta o) s). destruct (snd (process_metadata_args E (co_meta o) s)) as [m|e] eqn:PM; cbn [is_ok].
    2:{ exists (two ++ op). split.
        - intros l L. rewrite V, V2, R2 by exact L. unfold vm, rm. rewrite !(bind_run_raise _ _ _ _ _ (eq_trans (on_fs_run _ _ _) (f_equal (fun x => ((fst x, _), snd x)) PR))). reflexivity.
        - unfold cm. rewrite (bind_run_raise _ _ _ _ _ PR). cbn [between snd fst]. rewrite app_nil_r. split; [apply prefix_refl|].
          unfold compress_story. fold two op. apply prefix_app, prefix_left, prefix_refl. }
    destruct (pack_file_tells (co_in o) (compress_out o) cs z m (Some (mkBA (co_typesize o) (co_clevel o) (co_shuffle o) (co_cname o)))
                    (Some (mk_bpargs (co_offsets o) (Some (co_checksum o)) (bp_max_app default_bpargs)))
                    (Some default_margs) s RS) as (ms & (low & P1 & P2 & P3) & X).
    exists (two ++ op ++ ms).
    assert (PV : forall l, vm (s, l) = (fun st => match v_pack_file E (co_in o) (compress_out o) cs m (Some (mkBA (co_typesize o) (co_clevel o) (co_shuffle o) (co_cname o)))
                    (Some (mk_bpargs (co_offsets o) (Some (co_checksum o)) (bp_max_app default_bpargs)))
                    (Some default_margs) st with
             | (st', Raise ChunkingException) => fail (t_str T ChunkingException) st'
             | (st', Raise e) => (st', Raise e)
             | (st', Ok _) => (st', Ok tt)
             end) (s, l)).
    { intros l. unfold vm. exact (bind_run _ _ _ _ _ (eq_trans (on_fs_run _ _ _) (f_equal (fun x => ((fst x, _), snd x)) PR))). }
    assert (RV : forall l, rm (s, l) = (fun st => match on_fs (pack_file_to_file E (co_in o) (compress_out o) cs m (Some (mkBA (co_typesize o) (co_clevel o) (co_shuffle o) (co_cname o)))
                    (Some (mk_bpargs (co_offsets o) (Some (co_checksum o)) (bp_max_app default_bpargs)))
                    (Some default_margs)) st with
             | (st', Raise ChunkingException) => fail (t_str T ChunkingException) st'
             | (st', Raise e) => (st', Raise e)
             | (st', Ok _) => (st', Ok tt)
             end) (s, l)).
    { intros l. unfold rm. exact (bind_run _ _ _ _ _ (eq_trans (on_fs_run _ _ _) (f_equal (fun x => ((fst x, _), snd x)) PR))). }
    split.
    - intros l L. rewrite V, V2, R2 by exact L. rewrite PV, RV. cbv beta. rewrite X by (apply emit_talk, L). rewrite on_fs_run, emit_emit, app_assoc. reflexivity.
    - unfold cm. rewrite (bind_run _ _ _ _ _ PR). clear X PV RV.
      assert (IE : exists d, s (co_in o) = Some d). { unfold files_fine in FF. destruct (s (co_in o)); [eauto|discriminate]. }
      destruct IE as (d & IE). rewrite IE in P3.
      match goal with |- context [pack_file_to_file E ?a ?b ?c ?d ?e ?f ?g s] => destruct (pack_file_to_file E a b c d e f g s) as [s' [mm|e0]] end; cbn [fst snd part] in *.
      + cbn [between]. rewrite P2. unfold compress_story. fold two op. cbn [app]. reflexivity.
      + assert (G : begins (two ++ op ++ [t_ "input file size: " ++ double_pretty_size (length_of s (co_in o))] ++
               (if is_ok (calculate_nchunks (length_of s (co_in o)) (CSInt z)) then plan_story (length_of s (co_in o)) z else [])) (two ++ op ++ ms) /\
               begins (two ++ op ++ ms) (compress_story n o z s s')).
        { split.
          - apply prefix_app, prefix_app. rewrite <- CQ. destruct (calculate_nchunks (length_of s (co_in o)) cs); cbn [is_ok]; rewrite <- P3; exact P1.
          - unfold compress_story. fold two op. apply prefix_app, prefix_app. exact P2. }
        destruct e0; exact G. }
  assert (KC : forall cs (cli : res csarg) (vc rc : SM fsl csarg), cli = Ok cs -> vc = ret cs -> rc = ret cs -> forall z, resolved cs z -> chosen o z ->
     (forall n, calculate_nchunks n cs = calculate_nchunks n (CSInt z)) -> exists ms,
    (forall l, talk l -> (lift (Ok tt) ;;; bind vc vk) (s, l) = (lift (Ok tt) ;;; bind rc rk) (s, emit l ms)) /\
    if is_ok (check_valid_checksum (co_checksum o)) && true then exists cs0, chosen o cs0 /\ between (compress_low E n o cs0 s) (compress_story n o cs0 s (fst ((lift (Ok tt) ;;; bind (lift cli) ck) s))) ms (snd ((lift (Ok tt) ;;; bind (lift cli) ck) s)) else ms = []).
  { intros cs cli vc rc -> -> -> z RS CH CQ. destruct (K cs z RS CH CQ) as (ms & X & P). exists ms. split; [exact X|]. rewrite andb_true_r. destruct (is_ok _); [|exact P]. exists z. split; [exact CH|exact P]. }
  destruct (co_chunk o) as [t|] eqn:CO.
  - destruct (chunk_size_option t) as [z|e] eqn:CZ; cbn [is_ok].
    + apply (KC (CSInt z) _ _ _ eq_refl eq_refl eq_refl z); [reflexivity|unfold chosen; rewrite CO; exact CZ|reflexivity].
    + rewrite andb_false_r. exists []. split; [|reflexivity]. intros l _. rewrite emit_nil. rewrite !(bind_lift _ _ _ _ eq_refl).
      destruct e; try reflexivity. rewrite !(bind_run_raise _ _ _ _ _ (fail_run _ _ _)). reflexivity.
  - apply (KC (CSStr "1M") _ _ _ eq_refl eq_refl eq_refl (2 ^ 20)); [exact one_meg|unfold chosen; rewrite CO; reflexivity|].
    intros k. unfold calculate_nchunks. rewrite one_meg. reflexivity.
Qed.

Lemma out_run o s : match decompress_out o with
  | Ok out => forall l, r_decompress_out o (s, l) = ((s, l), Ok out)
  | Raise _ => exists m, forall l, r_decompress_out o (s, l) = fail m (s, l)
  end.
Proof.
  unfold decompress_out, r_decompress_out. destruct (do_no_check o); [destruct (do_out o)|destruct (ends_with_ext (do_in o))];
    try (intros; reflexivity); eexists; intros; reflexivity.
Qed.
Lemma decompress_rel n o s : 1 <= n -> exists ms,
  (forall l, talk l -> v_decompress E T n o (s, l) = r_decompress E T o (s, emit l ms)) /\
  decompress_told n o s (fst (cli_decompress E o s)) (rbind (snd (cli_decompress E o s)) (fun _ => Ok tt)) ms.
Proof.
  intros N. unfold v_decompress, r_decompress, cli_decompress, decompress_told.
  set (two := [threads n; t_ "getting ready for decompression"]).
  assert (V : forall (vb : SM fsl unit) l, talk l -> (v_nthreads n ;;; (tell (t_ "getting ready for decompression") ;;; vb)) (s, l) = vb (s, emit l two)).
  { intros vb l L. rewrite threads_then by assumption. rewrite tell_then by (apply emit_talk, L). rewrite emit_emit. reflexivity. }
  pose proof (out_run o s) as OR. destruct (decompress_out o) as [out|e].
  2:{ destruct OR as (m & OR). exists two. split; [|reflexivity]. intros l L. rewrite V by exact L.
      rewrite !(bind_run_raise _ _ _ _ _ (eq_trans (OR _) (fail_run _ _ _))). reflexivity. }
  match goal with |- context [bind (lift (Ok out)) ?k] => set (ck := k) end. change (bind (lift (Ok out)) ck s) with (ck out s). subst ck. cbv beta.
  unfold decompress_low. fold two.
  destruct (files_fine (do_force o) s (do_in o) out) eqn:FF.
  2:{ exists two. destruct (check_bad _ _ _ _ FF) as (m & C1 & C2 & C3). split.
      - intros l L. rewrite V by exact L. rewrite !(bind_run _ _ _ _ _ (OR _)). rewrite (bind_run_raise _ _ _ _ _ (eq_trans (C3 _) (fail_run _ _ _))).
        rewrite (bind_run_raise _ _ _ _ _ (eq_trans (C2 _) (fail_run _ _ _))). reflexivity.
      - rewrite (bind_run_raise _ _ _ _ _ C1). cbn [between snd fst rbind]. rewrite app_nil_r. split; [apply prefix_refl|].
        unfold decompress_story. fold two. apply prefix_left, prefix_refl. }
  destruct (check_fine _ _ _ _ FF) as (C1 & C2 & C3). set (op := opening s (do_in o) out) in *.
  destruct (unpack_file_tells (do_in o) out s) as (ms & (P1 & P2) & X).
  exists (two ++ op ++ ms). split.
  - intros l L. rewrite V by exact L. rewrite !(bind_run _ _ _ _ _ (OR _)).
    rewrite (bind_run _ _ _ _ _ (C3 _ (emit_talk _ _ L))), (bind_run _ _ _ _ _ (C2 _)). rewrite emit_emit.
    unfold bind at 1 2. rewrite X by (apply emit_talk, L). rewrite on_fs_run, emit_emit, app_assoc. reflexivity.
  - rewrite (bind_run _ _ _ _ _ C1). clear X.
    assert (IE : exists d, s (do_in o) = Some d). { unfold files_fine in FF. destruct (s (do_in o)); [eauto|discriminate]. }
    destruct IE as (d & IE).
    destruct (unpack_file_from_file E (do_in o) out s) as [s' [m|e0]]; cbn [fst snd part] in *.
    + cbn [between rbind]. rewrite P2. unfold decompress_story. fold two op. reflexivity.
    + assert (G : begins (two ++ op ++ [t_ "input file size: " ++ t_ (pretty_size (length_of s (do_in o)))]) (two ++ op ++ ms) /\
               begins (two ++ op ++ ms) (decompress_story n o out s s')).
      { split; [rewrite IE in P1; apply prefix_app, prefix_app, P1|]. unfold decompress_story. fold two op. apply prefix_app, prefix_app. exact P2. }
      destruct e0; exact G.
Qed.

Lemma ret_then {S A} (k : SM S A) st : (ret tt ;;; k) st = k st.
Proof. reflexivity. Qed.
Lemma begins_same {X} (a b : list X) : begins a b -> begins b a -> a = b.
Proof.
  intros (r & ->) (r' & H). rewrite <- app_assoc in H. rewrite <- (app_nil_r a) in H at 1. apply app_inv_head in H. symmetry in H.
  apply app_eq_nil in H as (-> & _). rewrite app_nil_r. reflexivity.
Qed.
Lemma append_rel n o s : 1 <= n -> exists ms,
  (forall l, talk l -> v_append E n o (s, l) = r_append E o (s, emit l ms)) /\
  append_told E n o s (snd (cli_append E o s)) ms.
Proof.
  intros N. unfold v_append, r_append, cli_append, append_told.
  destruct (blosc_choices E (ao_clevel o) (ao_cname o)) as [[]|e]; cbn [is_ok].
  2:{ exists []. split; [|reflexivity]. intros l _. rewrite emit_nil. reflexivity. }
  set (two := [threads n; t_ "getting ready for append"]).
  assert (V : forall (vb : SM fsl unit) l, talk l -> (lift (Ok tt) ;;; (v_nthreads n ;;; (tell (t_ "getting ready for append") ;;; vb))) (s, l) = vb (s, emit l two)).
  { intros vb l L. rewrite (bind_lift _ _ _ _ eq_refl), threads_then by assumption. rewrite tell_then by (apply emit_talk, L). rewrite emit_emit. reflexivity. }
  unfold append_low. fold two.
  set (guard := (ao_no_check o || ends_with_ext (ao_orig o)) && fs_exists s (ao_orig o) && fs_exists s (ao_new o)).
  set (mid := fst (append_file E (ao_orig o) (ao_new o) (obargs_of (mkBA (ao_typesize o) (ao_clevel o) (ao_shuffle o) (ao_cname o))) s)).
  change (snd (bind (lift (Ok tt)) ?k s)) with (snd (k tt s)).
  destruct (negb (ao_no_check o) && negb (ends_with_ext (ao_orig o))) eqn:EX.
  { exists two. split; [|].
    - intros l L. rewrite V by exact L. rewrite (bind_lift _ _ _ _ eq_refl). rewrite !(bind_run_raise _ _ _ _ _ (fail_run _ _ _)). reflexivity.
    - assert (G : guard = false) by (unfold guard; destruct (ao_no_check o), (ends_with_ext (ao_orig o)); try discriminate; reflexivity).
      rewrite G, app_nil_r. split; [apply prefix_refl|]. destruct (s (ao_orig o)); [|reflexivity].
      destruct (free_in_last E b) as [[cs room]|e]; [|left; reflexivity]. split; [apply prefix_refl|]. unfold append_story. apply (prefix_app two), prefix_nil. }
  assert (EX' : ao_no_check o || ends_with_ext (ao_orig o) = true) by (destruct (ao_no_check o), (ends_with_ext (ao_orig o)); try discriminate; reflexivity).
  unfold guard. rewrite EX'. cbn [andb]. clear guard.
  set (four := [t_ "original file is: " ++ q (ao_orig o); t_ "new file is: " ++ q (ao_new o)]).
  destruct (fs_exists s (ao_orig o)) eqn:X1; cbn [andb].
  2:{ exists two. split.
      - intros l L. rewrite V by exact L. rewrite !(bind_lift _ _ _ _ eq_refl), !ret_then. unfold bind at 1. cbn [fst]. rewrite X1. cbn [negb]. rewrite fail_run. unfold bind at 1. cbn [fst]. rewrite X1. cbn [negb]. rewrite fail_run. reflexivity.
      - rewrite app_nil_r. split; [apply prefix_refl|]. unfold fs_exists in X1. destruct (s (ao_orig o)); [discriminate|reflexivity]. }
  assert (SO : exists d, s (ao_orig o) = Some d) by (unfold fs_exists in X1; destruct (s (ao_orig o)); [eauto|discriminate]). destruct SO as (d & SO).
  destruct (fs_exists s (ao_new o)) eqn:X2; cbn [andb].
  2:{ exists two. split.
      - intros l L. rewrite V by exact L. rewrite !(bind_lift _ _ _ _ eq_refl), !ret_then. unfold bind at 1. cbn [fst]. rewrite X1, X2. cbn [negb]. rewrite fail_run. unfold bind at 1. cbn [fst]. rewrite X1, X2. cbn [negb]. rewrite fail_run. reflexivity.
      - rewrite app_nil_r. split; [apply prefix_refl|]. rewrite SO. destruct (free_in_last E d) as [[cs room]|e]; [|left; reflexivity].
        unfold bind, lift. rewrite X1, X2. cbn [negb fst snd between]. split; [apply prefix_refl|]. unfold append_story. apply (prefix_app two), prefix_nil. }
  assert (SN : exists x, s (ao_new o) = Some x) by (unfold fs_exists in X2; destruct (s (ao_new o)); [eauto|discriminate]). destruct SN as (x & SN).
  rewrite SO.
  match goal with |- exists ms, (forall l, talk l -> (_ ;;; (_ ;;; (_ ;;; (_ ;;; (_ ;;; (_ ;;; (_ ;;; ?v))))))) (s, l) = (_ ;;; (_ ;;; (_ ;;; ?r))) (s, emit l ms)) /\ _ => set (vb := v); set (rb := r) end.
  match goal with |- context [snd ((_ ;;; (_ ;;; ?c)) s)] => set (cb := c) end.
  assert (V2 : forall l, talk l -> (lift (Ok tt) ;;; (v_nthreads n ;;; (tell (t_ "getting ready for append") ;;; (ret tt ;;; ((fun st => if negb (fs_exists (fst st) (ao_orig o)) then fail (t_ "original file " ++ quoted (ao_orig o) ++ t_ " does not exist!") st
             else if negb (fs_exists (fst st) (ao_new o)) then fail (t_ "new file " ++ quoted (ao_new o) ++ t_ " does not exist!") st
             else (st, Ok tt)) ;;;
     (tell (t_ "original file is: " ++ quoted (ao_orig o)) ;;; (tell (t_ "new file is: " ++ quoted (ao_new o)) ;;; vb))))))) (s, l) = vb (s, emit l (two ++ four))).
  { intros l L. rewrite V by exact L. unfold bind at 1. cbn [ret]. unfold bind at 1. cbn [fst]. rewrite X1, X2. cbn [negb].
    rewrite tell_then by (apply emit_talk, L). rewrite tell_then by (do 2 apply emit_talk; exact L). rewrite !emit_emit. reflexivity. }
  assert (R2 : forall l, (lift (Ok tt) ;;; (ret tt ;;; ((fun st => if negb (fs_exists (fst st) (ao_orig o)) then fail (t_ "original file " ++ quoted (ao_orig o) ++ t_ " does not exist!") st
             else if negb (fs_exists (fst st) (ao_new o)) then fail (t_ "new file " ++ quoted (ao_new o) ++ t_ " does not exist!") st
             else (st, Ok tt)) ;;; rb))) (s, l) = rb (s, l)).
  { intros l. rewrite (bind_lift _ _ _ _ eq_refl). unfold bind at 1. cbn [ret]. unfold bind at 1. cbn [fst]. rewrite X1, X2. reflexivity. }
  assert (C2 : (lift (Ok tt) ;;; ((fun s => (s, if negb (fs_exists s (ao_orig o)) then Raise (SystemExit 1)
                else if negb (fs_exists s (ao_new o)) then Raise (SystemExit 1) else Ok tt)) ;;; cb)) s = cb s).
  { rewrite (bind_lift _ _ _ _ eq_refl). unfold bind at 1. rewrite X1, X2. reflexivity. }
  rewrite C2. clear C2 V.
  assert (PR := meta_run (ao_meta o) s). unfold rewrites. destruct (snd (process_metadata_args E (ao_meta o) s)) as [m|e] eqn:PM; cbn [is_ok].
  2:{ exists (two ++ four). split.
      - intros l L. rewrite V2, R2 by exact L. unfold vb, rb. rewrite !(bind_run_raise _ _ _ _ _ (eq_trans (on_fs_run _ _ _) (f_equal (fun x => ((fst x, _), snd x)) PR))). reflexivity.
      - rewrite app_nil_r. split; [apply prefix_refl|]. destruct (free_in_last E d) as [[cs room]|e1]; [|left; reflexivity].
        unfold cb. rewrite (bind_run_raise _ _ _ _ _ PR). cbn [between snd]. split; [apply prefix_refl|].
        unfold append_story. apply (prefix_app (two ++ four)), prefix_nil. }
  destruct (append_file_tells (ao_orig o) (ao_new o) (obargs_of (mkBA (ao_typesize o) (ao_clevel o) (ao_shuffle o) (ao_cname o))) s) as (ms & P & X).
  fold mid in P, X. specialize (P d x SO SN). cbv zeta in P. destruct P as (P1 & P2).
  set (low := two ++ four ++ [t_ "orig file size before append: " ++ double_pretty_size (length_of s (ao_orig o)); t_ "new file size: " ++ double_pretty_size (length_of s (ao_new o))] ++
     if is_ok (snd (read_beginning E (fp_of d))) then metadata_story d else []).
  assert (LW : begins low ((two ++ four) ++ ms)). { unfold low. rewrite app_assoc. apply prefix_app, P2. }
  assert (ST : forall cs room tl, begins (append_lines s mid (ao_orig o) (ao_new o) (cs, room) ++ (if tl : bool then match mid (ao_orig o) with Some f => metadata_story f | None => [] end else []))
      (append_lines s mid (ao_orig o) (ao_new o) (cs, room) ++ (if tl then match mid (ao_orig o) with Some f => metadata_story f | None => [] end else [])) /\
     append_story n o tl cs room s mid = (two ++ four) ++ append_lines s mid (ao_orig o) (ao_new o) (cs, room) ++ (if tl then match mid (ao_orig o) with Some f => metadata_story f | None => [] end else [])).
  { intros cs room tl. split; [apply prefix_refl|]. unfold append_story, append_lines, grow_story. rewrite SO. cbn [fst snd]. fold two four. rewrite <- !app_assoc. reflexivity. }
  set (oa := obargs_of (mkBA (ao_typesize o) (ao_clevel o) (ao_shuffle o) (ao_cname o))) in *.
  assert (VB : forall l, vb (s, l) = (v_append_file E (ao_orig o) (ao_new o) oa ;;;
     if is_none m then ret tt
     else d <- on_fs (open_rb (ao_orig o)) ;;
       (fun st => let r := v_rewrite_metadata E m default_overrides (fp_of d, snd st) in
               ((fs_set (fst st) (ao_orig o) (fdata (fst (fst r))), snd (fst r)), snd r))) (s, l)).
  { intros l. unfold vb. exact (bind_run _ _ _ _ _ (eq_trans (on_fs_run _ _ _) (f_equal (fun x => ((fst x, _), snd x)) PR))). }
  assert (RB : forall l, rb (s, l) = (on_fs (append_file E (ao_orig o) (ao_new o) oa) ;;;
     if is_none m then ret tt
     else on_fs (d <- open_rb (ao_orig o) ;;
     (fun s => let r := rewrite_metadata E m default_overrides (fp_of d) in
               (fs_set s (ao_orig o) (fdata (fst r)), snd r)))) (s, l)).
  { intros l. unfold rb. exact (bind_run _ _ _ _ _ (eq_trans (on_fs_run _ _ _) (f_equal (fun x => ((fst x, _), snd x)) PR))). }
  assert (CB : cb s = (append_file E (ao_orig o) (ao_new o) oa ;;;
     if is_none m then ret tt
     else d <- open_rb (ao_orig o) ;;
     (fun s => let r := rewrite_metadata E m default_overrides (fp_of d) in
               (fs_set s (ao_orig o) (fdata (fst r)), snd r))) s).
  { unfold cb. exact (bind_run _ _ _ _ _ PR). }
  clearbody vb rb cb. rewrite CB. clear CB.
  destruct (append_file E (ao_orig o) (ao_new o) oa s) as [s1 [u1|e1]] eqn:AF; cbn [fst snd] in *; subst mid.
  2:{ exists ((two ++ four) ++ ms). split; [|].
      - intros l L. rewrite V2, R2, VB, RB by exact L. rewrite (bind_run_raise _ _ _ _ _ (X _ (emit_talk _ _ L))).
        rewrite (bind_run_raise _ _ _ _ _ (eq_trans (on_fs_run _ _ _) (f_equal (fun x => ((fst x, _), snd x)) AF))). rewrite emit_emit. reflexivity.
      - split; [exact LW|]. rewrite (bind_run_raise _ _ _ _ _ AF). cbn [snd]. destruct (free_in_last E d) as [[cs room]|fe].
        + cbn [between part] in *. split; [exact LW|]. destruct (ST cs room (negb (is_none m))) as (_ & ->). apply prefix_app, prefix_left, P1.
        + destruct P1 as (P1 & _). destruct (is_ok (snd (read_beginning E (fp_of d)))) eqn:RO.
          * left. unfold low in *. rewrite (begins_same _ _ P1 P2). rewrite <- app_assoc. reflexivity.
          * right. split; [reflexivity|]. unfold low. rewrite app_nil_r, <- !app_assoc. apply prefix_app, prefix_app, P1. }
  destruct (free_in_last E d) as [[cs room]|fe] eqn:FR; [|destruct P1; discriminate].
  cbn [part] in P1. subst ms.
  destruct (is_none m) eqn:IN.
  { exists ((two ++ four) ++ append_lines s s1 (ao_orig o) (ao_new o) (cs, room)). split.
    - intros l L. rewrite V2, R2, VB, RB by exact L. rewrite (bind_run _ _ _ _ _ (X _ (emit_talk _ _ L))).
      rewrite (bind_run _ _ _ _ _ (eq_trans (on_fs_run _ _ _) (f_equal (fun x => ((fst x, _), snd x)) AF))). rewrite emit_emit. reflexivity.
    - split; [exact LW|]. rewrite (bind_run _ _ _ _ _ AF). cbn [ret snd between negb]. destruct (ST cs room false) as (_ & ->). rewrite app_nil_r. reflexivity. }
  assert (OP : open_rb (ao_orig o) s1 = (s1, match s1 (ao_orig o) with Some d1 => Ok d1 | None => Raise OSError end)) by (unfold open_rb; destruct (s1 (ao_orig o)); reflexivity).
  destruct (s1 (ao_orig o)) as [d1|] eqn:S1.
  2:{ exists ((two ++ four) ++ append_lines s s1 (ao_orig o) (ao_new o) (cs, room)). split.
    - intros l L. rewrite V2, R2, VB, RB by exact L. rewrite (bind_run _ _ _ _ _ (X _ (emit_talk _ _ L))).
      rewrite (bind_run _ _ _ _ _ (eq_trans (on_fs_run _ _ _) (f_equal (fun x => ((fst x, _), snd x)) AF))). rewrite emit_emit. cbn [fst snd].
      rewrite (bind_run_raise _ _ _ _ _ (eq_trans (on_fs_run _ _ _) (f_equal (fun x => ((fst x, _), snd x)) OP))).
      rewrite on_fs_run. rewrite (bind_run_raise _ _ _ _ _ OP). reflexivity.
    - split; [exact LW|]. rewrite (bind_run _ _ _ _ _ AF), (bind_run_raise _ _ _ _ _ OP). cbn [snd between negb]. split; [exact LW|].
      destruct (ST cs room true) as (_ & ->). rewrite app_nil_r. apply prefix_refl. }
  destruct (rewrite_tells m default_overrides d1) as (ms2 & Q & X3).
  exists ((two ++ four) ++ append_lines s s1 (ao_orig o) (ao_new o) (cs, room) ++ ms2). split.
  - intros l L. rewrite V2, R2, VB, RB by exact L. rewrite (bind_run _ _ _ _ _ (X _ (emit_talk _ _ L))).
    rewrite (bind_run _ _ _ _ _ (eq_trans (on_fs_run _ _ _) (f_equal (fun x => ((fst x, _), snd x)) AF))). rewrite emit_emit. cbn [fst snd].
    rewrite (bind_run _ _ _ _ _ (eq_trans (on_fs_run _ _ _) (f_equal (fun x => ((fst x, _), snd x)) OP))).
    rewrite on_fs_run. rewrite (bind_run _ _ _ _ _ OP). cbn [fst snd]. rewrite X3 by (apply emit_talk, L). cbn [fst snd]. rewrite emit_emit, <- !app_assoc. reflexivity.
  - split; [rewrite app_assoc; apply prefix_left, LW|]. rewrite (bind_run _ _ _ _ _ AF), (bind_run _ _ _ _ _ OP). cbn [snd negb].
    destruct (ST cs room true) as (_ & ->). destruct (snd (rewrite_metadata E m default_overrides (fp_of d1))); cbn [part between] in *.
    + subst ms2. reflexivity.
    + split; [rewrite app_assoc; apply prefix_left, LW|]. apply prefix_app, prefix_app, Q.
Qed.

Lemma info_rel n p s : 1 <= n -> exists ms,
  (forall l, talk l -> v_info E T n p (s, l) = r_info E T p (s, emit l ms)) /\
  info_told E n p s (rbind (snd (cli_info E p s)) (fun _ => Ok tt)) ms.
Proof.
  intros N. unfold v_info, r_info, cli_info, info_told. destruct (s p) as [d|] eqn:SP.
  2:{ exists [threads n]. split; [|reflexivity]. intros l L. rewrite threads_then by assumption.
      unfold bind at 1. cbn [fst]. rewrite SP, fail_run. unfold bind at 1. cbn [fst]. rewrite SP, fail_run. reflexivity. }
  set (rd := bg <- read_beginning E ;; r <- read_compressed_chunk E (h_checksum (b_header bg)) ;; ret (bg, snd (fst r))).
  set (rv := bg <- v_read_beginning E ;; r <- onl (read_compressed_chunk E (h_checksum (b_header bg))) ;; ret (bg, snd (fst r))).
  assert (TL : tells rv rd (fp_of d) (fun ms _ r => part (metadata_story d) ms tt r /\ begins (if is_ok (snd (read_beginning E (fp_of d))) then metadata_story d else []) ms)).
  { unfold rv, rd. apply (tells_bind _ _ _ _ _ (part (metadata_story d))); [apply beginning_tells| |].
    - intros ms g e R P. split; [exact P|]. rewrite R. apply prefix_nil.
    - intros ms g bg R P. cbn [part] in P. subst ms. rewrite R. cbn [snd is_ok]. apply tells_step.
      + intros; split; [cbn [part]; rewrite app_nil_r|rewrite app_nil_r]; apply prefix_refl.
      + intros g2 r _. apply tells_ret. rewrite app_nil_r. split; [reflexivity|apply prefix_refl]. }
  destruct TL as (ms & (P1 & P2) & X). exists (threads n :: ms). split.
  - intros l L. rewrite threads_then by assumption.
    match goal with |- bind ?f ?k ?st = bind ?g ?k' ?st' => transitivity (match f st with (s', Ok a) => k a s' | (s', Raise e) => (s', Raise e) end); [reflexivity|];
      transitivity (match g st' with (s', Ok a) => k' a s' | (s', Raise e) => (s', Raise e) end); [|reflexivity] end.
    cbn [fst snd]. rewrite SP. fold rv rd. rewrite X by (apply emit_talk, L).
    rewrite emit_emit. cbn [app].
    destruct (rd (fp_of d)) as [g [[bg bh]|e]]; cbn [fst snd]; [reflexivity|]. destruct (is_ValueError e); [|reflexivity]. rewrite !fail_run. reflexivity.
  - cbn [snd]. destruct (rd (fp_of d)) as [g [[bg bh]|e]]; cbn [fst snd part] in *.
    + subst ms. destruct (decode_blosc_flags (bh_flags bh)); cbn [rbind between]; [reflexivity|]. split; [apply prefix_cons, P2|apply prefix_refl].
    + destruct (is_ValueError e); cbn [rbind between]; (split; [apply prefix_cons, P2|apply prefix_cons, P1]).
Qed.
Lemma command_rel n c s : 1 <= n -> exists ms,
  (forall l, talk l -> v_main E T n c (s, l) = (r_main E T c ;;; tell (t_ "done")) (s, emit l ms)) /\
  command_told E n c s (fst (main E c s)) (snd (main E c s)) ms.
Proof.
  intros N. assert (K : forall (v r : SM fsl unit) ms, (forall l, talk l -> v (s, l) = r (s, emit l ms)) ->
    forall l, talk l -> (v ;;; tell (t_ "done")) (s, l) = (r ;;; tell (t_ "done")) (s, emit l ms)).
  { intros v r ms H l L. unfold bind. rewrite H by exact L. reflexivity. }
  assert (BO : forall X (m : SM fs X), (m ;;; ret tt) s = (fst (m s), rbind (snd (m s)) (fun _ => Ok tt))).
  { intros X m. unfold bind. destruct (m s) as [s' [a|e]]; reflexivity. }
  unfold v_main, r_main, main, command_told. destruct c as [o|o|o|p|].
  - destruct (compress_rel n o s N) as (ms & X & P). exists ms. split; [apply K, X|exact P].
  - destruct (decompress_rel n o s N) as (ms & X & P). exists ms. split; [apply K, X|]. rewrite BO. exact P.
  - destruct (append_rel n o s N) as (ms & X & P). exists ms. split; [apply K, X|exact P].
  - destruct (info_rel n p s N) as (ms & X & P). exists ms. split; [apply K, X|]. rewrite BO. exact P.
  - exists [threads n]. split; [|reflexivity]. intros l L. apply K; [|exact L]. intros l' L'. rewrite threads_then by assumption. reflexivity.
Qed.

(** ** The lines printed at every verbosity do not depend on the log *)
Definition steady {A} (m : SM fsl A) (s : fs) : Prop := exists s' r out, forall l, rank (l_level l) <> None -> m (s, l) = ((s', plus l out), r).
Lemma steady_bind {A B} (m : SM fsl A) (k : A -> SM fsl B) s : steady m s -> (forall a s', steady (k a) s') -> steady (bind m k) s.
Proof.
  intros (s' & r & out & H) K. destruct r as [a|e].
  - destruct (K a s') as (s2 & r2 & out2 & H2). exists s2, r2, (out ++ out2). intros l R. rewrite (bind_run _ _ _ _ _ (H l R)).
    rewrite H2 by exact R. rewrite plus_plus. reflexivity.
  - exists s', (Raise e), out. intros l R. exact (bind_run_raise _ _ _ _ _ (H l R)).
Qed.
Lemma steady_lift {A} (r : res A) s : steady (lift r) s.
Proof. exists s, r, []. intros l _. rewrite plus_nil. reflexivity. Qed.
Lemma steady_ret {A} (a : A) s : steady (ret a) s. Proof. exact (steady_lift (Ok a) s). Qed.
Lemma steady_raise {A} e s : steady (@raise _ A e) s. Proof. exact (steady_lift (Raise e) s). Qed.
Lemma steady_fs {A} (m : SM fs A) s : steady (on_fs m) s.
Proof. exists (fst (m s)), (snd (m s)), []. intros l _. rewrite plus_nil. apply on_fs_run. Qed.
Lemma steady_say m s : steady (say m) s. Proof. eexists _, _, _. intros l R. apply say_run, R. Qed.
Lemma steady_error {A} m code s : steady (onr (@error A m code)) s. Proof. eexists _, _, _. intros l R. apply error_run. Qed.
Lemma steady_fail {A} m s : steady (@fail A m) s. Proof. apply steady_error. Qed.
Lemma steady_then {A} (m m' : SM fsl A) s : steady m' s -> (forall l, m (s, l) = m' (s, l)) -> steady m s.
Proof. intros (s' & r & out & H) X. exists s', r, out. intros l R. rewrite X. apply H, R. Qed.
Lemma steady_main c s : steady (r_main E T c) s.
Proof.
  assert (CF : forall i o f s, steady (r_check_files i o f) s).
  { intros i o f s0. unfold r_check_files. destruct (negb (fs_exists s0 i)) eqn:X.
    - apply (steady_then _ _ _ (steady_fail (t_ "input file " ++ quoted i ++ t_ " does not exist!") s0)). intros l. cbn [fst]. rewrite X. reflexivity.
    - destruct (fs_exists s0 o && negb f) eqn:Y.
      + apply (steady_then _ _ _ (steady_fail (t_ "output file " ++ quoted o ++ t_ " exists!") s0)). intros l. cbn [fst]. rewrite X, Y. reflexivity.
      + apply (steady_then _ _ _ (steady_ret tt s0)). intros l. cbn [fst]. rewrite X, Y. reflexivity. }
  assert (LM : forall m s, steady (log_metadata T m) s) by (intros; apply steady_bind; [apply steady_say|intros; apply steady_say]).
  unfold r_main. destruct c as [o|o|o|p|].
  - unfold r_compress. apply steady_bind; [apply steady_lift|]. intros _ s1. apply steady_bind.
    { destruct (co_chunk o); [|apply steady_ret]. destruct (chunk_size_option s0) as [z|[]]; try apply steady_ret; try apply steady_raise; apply steady_fail. }
    intros cs s2. apply steady_bind; [apply steady_lift|]. intros _ s3. apply steady_bind; [apply CF|]. intros _ s4.
    apply steady_bind; [apply steady_fs|]. intros m s5.
    match goal with |- steady (fun st => match on_fs ?f st with _ => _ end) _ => destruct (f s5) as [s' [a|e]] eqn:F end.
    + exists s', (Ok tt), []. intros l _. rewrite on_fs_run, F, plus_nil. reflexivity.
    + destruct e; try (eexists s', (Raise _), []; intros l _; rewrite on_fs_run, F, plus_nil; reflexivity).
      eexists s', _, _. intros l _. rewrite on_fs_run, F. cbn [fst snd]. apply fail_run.
  - unfold r_decompress. apply steady_bind.
    { unfold r_decompress_out. destruct (do_no_check o); [destruct (do_out o)|destruct (ends_with_ext (do_in o))]; try apply steady_ret; apply steady_fail. }
    intros out s1. apply steady_bind; [apply CF|]. intros _ s2. apply steady_bind.
    { match goal with |- steady (fun st => match on_fs ?f st with _ => _ end) _ => destruct (f s2) as [s' [a|e]] eqn:F end.
      + exists s', (Ok a), []. intros l _. rewrite on_fs_run, F, plus_nil. reflexivity.
      + destruct e; eexists s', (Raise _), []; intros l _; rewrite on_fs_run, F, plus_nil; reflexivity. }
    intros m s3. destruct (py_true m); [apply LM|apply steady_ret].
  - unfold r_append. apply steady_bind; [apply steady_lift|]. intros _ s1. apply steady_bind.
    { destruct (_ && _); [apply steady_fail|apply steady_ret]. }
    intros _ s2. apply steady_bind.
    { destruct (negb (fs_exists s2 (ao_orig o))) eqn:X.
      - apply (steady_then _ _ _ (steady_fail (t_ "original file " ++ quoted (ao_orig o) ++ t_ " does not exist!") s2)). intros l. cbn [fst]. rewrite X. reflexivity.
      - destruct (negb (fs_exists s2 (ao_new o))) eqn:Y.
        + apply (steady_then _ _ _ (steady_fail (t_ "new file " ++ quoted (ao_new o) ++ t_ " does not exist!") s2)). intros l. cbn [fst]. rewrite X, Y. reflexivity.
        + apply (steady_then _ _ _ (steady_ret tt s2)). intros l. cbn [fst]. rewrite X, Y. reflexivity. }
    intros _ s3. apply steady_bind; [apply steady_fs|]. intros m s4. apply steady_bind; [apply steady_fs|]. intros _ s5.
    destruct (is_none m); [apply steady_ret|apply steady_fs].
  - unfold r_info. apply steady_bind.
    { destruct (s p) as [d|] eqn:SP.
      - match goal with |- steady (fun st => match fst st p with Some d => match ?f (fp_of d) with _ => _ end | None => _ end) _ => destruct (f (fp_of d)) as [g [x|e]] eqn:F end.
        + apply (steady_then _ _ _ (steady_ret x s)). intros l. cbn [fst]. rewrite SP, F. reflexivity.
        + destruct (is_ValueError e) eqn:VE.
          * apply (steady_then _ _ _ (steady_fail (t_str T e ++ [nl] ++ t_ "This might not be a bloscpack compressed file.") s)). intros l. cbn [fst]. rewrite SP, F, VE. reflexivity.
          * apply (steady_then _ _ _ (steady_raise e s)). intros l. cbn [fst]. rewrite SP, F, VE. reflexivity.
      - apply (steady_then _ _ _ (steady_fail (t_ "file " ++ quoted p ++ t_ " does not exist!") s)). intros l. cbn [fst]. rewrite SP. reflexivity. }
    intros bb s1. cbv zeta. apply steady_bind; [apply steady_say|]. intros _ s2. apply steady_bind.
    { destruct (b_offsets (fst bb)); [apply steady_ret|]. apply steady_bind; [apply steady_say|intros; apply steady_say]. }
    intros _ s3. apply steady_bind.
    { destruct (is_none (b_meta (fst bb))); [apply steady_ret|]. apply steady_bind; [apply LM|]. intros. destruct (b_mheader (fst bb)); [apply steady_say|apply steady_raise]. }
    intros _ s4. apply steady_bind; [apply steady_say|]. intros _ s5. apply steady_bind; [apply steady_say|]. intros _ s6. apply steady_bind; [apply steady_say|].
    intros _ s7. apply steady_bind; [apply steady_lift|]. intros fl s8. apply steady_say.
  - apply steady_error.
Qed.

(** ** The theorems *)
Lemma talk_rank l : talk l -> rank (l_level l) <> None.
Proof. intros [L|L]; rewrite L; discriminate. Qed.
Lemma main_run c s : NoExit E -> exists out, forall l, talk l -> r_main E T c (s, l) = ((fst (main E c s), plus l out), snd (main E c s)).
Proof.
  intros NX. destruct (steady_main c s) as (s' & r & out & H). exists out. intros l L. pose proof (talk_rank l L) as R. rewrite H by exact R.
  destruct (report_outcome E T NX c s l R) as (l' & o & X & _). rewrite H in X by exact R. congruence.
Qed.
Lemma plus_talk l out : talk l -> talk (plus l out). Proof. auto. Qed.
Lemma told_all ms : all_lines ms (flat_map (told ": ") ms).
Proof.
  exists (map (told ": ") ms). rewrite flat_map_concat_map. split; [|reflexivity].
  induction ms; cbn [map]; constructor; [apply told_lines|assumption].
Qed.
Theorem verbose_normal n c s l : NoExit E -> 1 <= n -> l_level l = "NORMAL"%string -> v_main E T n c (s, l) = r_main E T c (s, l).
Proof.
  intros NX N LV. destruct (command_rel n c s N) as (ms & X & _). assert (TK : talk l) by (left; exact LV).
  assert (EM : forall l0 ms0, l_level l0 = "NORMAL"%string -> emit l0 ms0 = l0) by (intros l0 ms0 H; unfold emit; rewrite H; reflexivity).
  rewrite X, EM by assumption. destruct (main_run c s NX) as (out & H). rewrite (H l TK).
  destruct (snd (main E c s)) as [[]|e] eqn:R.
  - rewrite (bind_run _ _ _ _ _ (H l TK)). rewrite tell_run by (apply plus_talk, TK). rewrite EM by exact LV. reflexivity.
  - exact (bind_run_raise _ _ _ _ _ (H l TK)).
Qed.
Theorem verbose_output n c s l : NoExit E -> 1 <= n -> l_level l = "VERBOSE"%string -> exists l' ms told out,
  v_main E T n c (s, l) = ((fst (main E c s), l'), snd (main E c s)) /\
  command_told E n c s (fst (main E c s)) (snd (main E c s)) ms /\ all_lines ms told /\
  (forall l0, l_level l0 = "NORMAL"%string -> adds l0 (snd (fst (r_main E T c (s, l0)))) out) /\
  adds l l' (told ++ out ++ match snd (main E c s) with Ok _ => [t_ ": done"] | Raise _ => [] end).
Proof.
  intros NX N LV. destruct (command_rel n c s N) as (ms & X & P). assert (TK : talk l) by (right; exact LV).
  assert (EM : forall l0 ms0, l_level l0 = "VERBOSE"%string -> emit l0 ms0 = plus l0 (flat_map (told ": ") ms0)) by (intros l0 ms0 H; unfold emit; rewrite H; reflexivity).
  destruct (main_run c s NX) as (out & H).
  exists (plus l (flat_map (told ": ") ms ++ out ++ match snd (main E c s) with Ok _ => [t_ ": done"] | Raise _ => [] end)), ms, (flat_map (told ": ") ms), out.
  split; [|split; [exact P|split; [apply told_all|split; [|apply plus_adds]]]].
  - rewrite X by exact TK. pose proof (H (emit l ms) (emit_talk _ _ TK)) as HR. destruct (snd (main E c s)) as [[]|e].
    + rewrite (bind_run _ _ _ _ _ HR). rewrite tell_run by (apply plus_talk, emit_talk, TK).
      rewrite EM by (rewrite plus_level, emit_level; exact LV). rewrite EM by exact LV. rewrite !plus_plus. rewrite <- ?app_assoc. reflexivity.
    + rewrite (bind_run_raise _ _ _ _ _ HR). rewrite EM by exact LV. rewrite plus_plus, app_nil_r. reflexivity.
  - intros l0 L0. rewrite (H l0 (or_introl L0)). apply plus_adds.
Qed.
End WithEnv.
