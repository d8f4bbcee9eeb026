(** White space in the -m file, refused -l and -c, and seeking back in memory. *)
From Verif Require Import Base PyVal Checksums Headers Args FileIO Append Files Cli Spec BaseLemmas.
From Coq Require Import ZifyBool ZifyNat.

Definition blank (b : byte) : Prop := In (Zb b) [9; 10; 11; 12; 13; 28; 29; 30; 31; 32].
Lemma blank_iff b : blank b <-> is_space b = true.
Proof. unfold blank, is_space. cbn [In]. lia. Qed.
Lemma lstrip_blank w d : Forall blank w -> lstrip_ws (w ++ d) = lstrip_ws d.
Proof.
  induction 1 as [|b w Hb _ IH]; [reflexivity|]. cbn [app lstrip_ws]. apply blank_iff in Hb. rewrite Hb. exact IH.
Qed.
Lemma lstrip_keep x d : ~ blank x -> lstrip_ws (x :: d) = x :: d.
Proof. rewrite blank_iff. cbn [lstrip_ws]. destruct (is_space x); [tauto|reflexivity]. Qed.
Lemma strip_blank w w' x d y : Forall blank w -> Forall blank w' -> ~ blank x -> ~ blank y ->
  (d = [x] /\ y = x \/ exists q, d = x :: q ++ [y]) -> strip_ws (w ++ d ++ w') = d.
Proof.
  intros Hw Hw' Hx Hy Hd. unfold strip_ws. rewrite lstrip_blank by exact Hw.
  assert (X : lstrip_ws (d ++ w') = d ++ w') by (destruct Hd as [[-> _]|[q ->]]; cbn [app]; apply lstrip_keep; exact Hx).
  rewrite X, rev_app_distr, lstrip_blank by (apply Forall_rev; exact Hw').
  assert (Y : lstrip_ws (rev d) = rev d).
  { destruct Hd as [[-> ->]|[q ->]]; [apply lstrip_keep; exact Hx|].
    change (x :: q ++ [y]) with ((x :: q) ++ [y]). rewrite rev_app_distr. cbn [rev app]. apply lstrip_keep. exact Hy. }
  rewrite Y. apply rev_involutive.
Qed.

Section WithEnv.
Variable E : Env.
Theorem meta_blank s p w w' x y d : Forall blank w -> Forall blank w' -> ~ blank x -> ~ blank y ->
  (d = [x] /\ y = x \/ exists q, d = x :: q ++ [y]) -> s p = Some (w ++ d ++ w') ->
  process_metadata_args E (Some p) s = (s, e_loads E d).
Proof. intros H1 H2 H3 H4 H5 H. unfold process_metadata_args. rewrite H, (strip_blank w w' x d y); auto. Qed.
Theorem meta_all_blank s p w : Forall blank w -> s p = Some w -> process_metadata_args E (Some p) s = (s, e_loads E []).
Proof.
  intros H1 H. unfold process_metadata_args. rewrite H. unfold strip_ws. rewrite <- (app_nil_r w), lstrip_blank by exact H1. reflexivity.
Qed.
Theorem bad_choice_compress o s : ~ (0 <= co_clevel o <= 9) \/ e_cname_ok E (co_cname o) = false ->
  cli_compress E o s = (s, Raise (SystemExit 2)).
Proof.
  intros H. unfold cli_compress, blosc_choices, MIN_CLEVEL, MAX_CLEVEL. replace (_ && _) with false by (destruct (e_cname_ok E (co_cname o)); [|lia]; destruct H; [lia|discriminate]).
  reflexivity.
Qed.
Theorem bad_choice_append o s : ~ (0 <= ao_clevel o <= 9) \/ e_cname_ok E (ao_cname o) = false ->
  cli_append E o s = (s, Raise (SystemExit 2)).
Proof.
  intros H. unfold cli_append, blosc_choices, MIN_CLEVEL, MAX_CLEVEL. replace (_ && _) with false by (destruct (e_cname_ok E (ao_cname o)); [|lia]; destruct H; [lia|discriminate]).
  reflexivity.
Qed.
Lemma existing s p : fs_exists s p = match s p with Some _ => true | None => false end.
Proof. reflexivity. Qed.
Lemma choices_ok l c : 0 <= l <= 9 -> e_cname_ok E c = true -> blosc_choices E l c = Ok tt.
Proof. intros H1 H2. unfold blosc_choices, MIN_CLEVEL, MAX_CLEVEL. rewrite H2. replace (_ && _) with true by lia. reflexivity. Qed.
Theorem refused_compress o s : 0 <= co_clevel o <= 9 -> e_cname_ok E (co_cname o) = true ->
  (forall t, co_chunk o = Some t -> exists z, chunk_size_option t = Ok z) -> In (co_checksum o) checksum_names ->
  s (co_in o) = None \/ co_force o = false /\ s (compress_out o) <> None ->
  cli_compress E o s = (s, Raise (SystemExit 1)).
Proof.
  intros H1 H2 H3 H4 H5. unfold cli_compress. rewrite (bind_lift _ _ _ _ (choices_ok _ _ H1 H2)).
  assert (X : exists cs, match co_chunk o with None => Ok (CSStr "1M") | Some t => z <~ chunk_size_option t ;; Ok (CSInt z) end = Ok cs).
  { destruct (co_chunk o) as [t|]; [|eauto]. destruct (H3 t eq_refl) as (z & ->). cbn. eauto. }
  destruct X as (cs & X). rewrite (bind_lift _ _ _ _ X).
  assert (Y : match check_valid_checksum (co_checksum o) with Ok _ => Ok tt | Raise _ => Raise (SystemExit 2) end = Ok tt).
  { cbn in H4. repeat (destruct H4 as [<-|H4]; [reflexivity|]). destruct H4. }
  rewrite (bind_lift _ _ _ _ Y). apply bind_run_raise. unfold check_files. rewrite !existing.
  destruct H5 as [->|[-> H5]]; [reflexivity|]. destruct (s (co_in o)); [|reflexivity]. destruct (s (compress_out o)); [reflexivity|contradiction].
Qed.
Theorem refused_decompress o s : (forall p, decompress_out o = Ok p -> s (do_in o) = None \/ do_force o = false /\ s p <> None) ->
  cli_decompress E o s = (s, Raise (SystemExit 1)).
Proof.
  intros H. unfold cli_decompress. destruct (decompress_out o) as [p|e] eqn:D.
  - rewrite (bind_lift _ _ _ _ eq_refl). apply bind_run_raise. unfold check_files. rewrite !existing.
    destruct (H p eq_refl) as [->|[-> H5]]; [reflexivity|]. destruct (s (do_in o)); [|reflexivity]. destruct (s p); [reflexivity|contradiction].
  - rewrite (bind_lift_raise _ _ _ _ eq_refl). unfold decompress_out in D. destruct (do_no_check o); [destruct (do_out o); [discriminate|injection D as <-; reflexivity]|].
    destruct (ends_with_ext (do_in o)); [discriminate|injection D as <-; reflexivity].
Qed.
Theorem refused_append o s : 0 <= ao_clevel o <= 9 -> e_cname_ok E (ao_cname o) = true ->
  (ao_no_check o = false /\ ends_with_ext (ao_orig o) = false) \/ s (ao_orig o) = None \/ s (ao_new o) = None ->
  cli_append E o s = (s, Raise (SystemExit 1)).
Proof.
  intros H1 H2 H. unfold cli_append. rewrite (bind_lift _ _ _ _ (choices_ok _ _ H1 H2)).
  destruct (negb (ao_no_check o) && negb (ends_with_ext (ao_orig o))) eqn:X; [rewrite (bind_lift_raise _ _ _ _ eq_refl); reflexivity|].
  rewrite (bind_lift _ _ _ _ eq_refl). apply bind_run_raise. rewrite !existing.
  destruct H as [[H H']|H]; [rewrite H, H' in X; discriminate|]. destruct (s (ao_orig o)); [|reflexivity]. destruct (s (ao_new o)); [destruct H; discriminate|reflexivity].
Qed.
Theorem memory_seek d f : e_mem E = true -> f_seek_rel E d f = (mkfp (fdata f) (Z.max 0 (fpos f + d)) (flog f), Ok tt).
Proof.
  intros H. unfold f_seek_rel. rewrite H. destruct (_ <? 0) eqn:X; [rewrite Z.max_l by lia|rewrite Z.max_r by lia]; reflexivity.
Qed.
Theorem file_seek d f : e_mem E = false ->
  f_seek_rel E d f = if fpos f + d <? 0 then (f, Raise OSError) else (mkfp (fdata f) (fpos f + d) (flog f), Ok tt).
Proof. intros H. unfold f_seek_rel. rewrite H. destruct (_ <? 0); reflexivity. Qed.
End WithEnv.

From Verif Require Import Archive SmallProofs IOProofs PackProofs MetaProofs BytesProofs WfProofs ArchiveProofs.
Lemma checksum_none E : EnvOK E -> forall b csa m oba off mac oma,
  let r := pack_bytes_to_bytes E b csa m oba (Some (mk_bpargs off None mac)) oma in
  r = pack_bytes_to_bytes E b csa m oba (Some (mkBPA off "None" mac)) oma /\
  forall f, r = Ok f -> F_digest f = 0.
Proof.
  intros HE b csa m oba off mac oma r. split; [reflexivity|]. unfold r. intros f H. apply (pack_bytes_inv E HE) in H as (n & c & l & h & o & cs & CN & P & -> & _).
  pose proof (packed_header E _ _ _ _ _ _ _ _ _ _ _ P) as (_ & _ & _ & _ & K & _). cbn in K.
  pose proof (calculate_partition _ _ _ _ _ (zlen_nonneg b) CN) as CP.
  assert (A : 1 <= n) by lia. assert (B : 0 <= c) by lia. assert (C : 0 <= l) by lia.
  destruct (packed_wf E HE _ _ _ _ _ _ _ _ _ _ _ A B C P) as [W _]. rewrite (fi_digest _ _ _ _ (wf_fields E HE _ _ _ _ _ W)).
  destruct (h_checksum h); try discriminate K; reflexivity.
Qed.
