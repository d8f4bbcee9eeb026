(** Which metadata a rewrite refuses as unchanged. *)
From Verif Require Import Base PyVal Checksums Headers Args FileIO Append Spec Archive ExcSpec EqSpec EqProofs BaseLemmas HeaderProofs IOProofs WfProofs PackProofs SmallProofs BytesProofs MetaProofs AppendProofs ArchiveProofs ExcPack.

Section WithEnv.
Variable E : Env.
Hypothesis HE : EnvOK E.

Lemma rewrite_front f b m m' ov : archive E f b m -> has_meta f = true ->
  exists s q, rewrite_metadata E m' ov (fp_of f) =
   if pyeq m m' then (mkfp f q [], Raise NoChangeInMetadata)
   else match recreate_metadata (ms_h s) ov with
        | Raise e => (mkfp f q [], Raise e)
        | Ok a => match plan_metadata E m' a with
                  | Raise e => (mkfp f 32 [], Raise e)
                  | Ok (mh, p, _) => (put_at (msect_bytes E (sect_of mh p m')) (mkfp f 32 []), Ok tt)
                  end
        end.
Proof.
  intros HA HM. destruct (archive_arch E HE _ _ _ HA) as (h & o & cs & tail & A).
  pose proof (ar_wf _ _ _ _ _ _ _ _ A) as W. pose proof (wf_fields E HE _ _ _ _ _ W) as F.
  rewrite (fi_meta _ _ _ _ F), (wf_flag _ _ _ _ _ _ W) in HM. destruct o as [s|]; [clear HM|discriminate].
  destruct (rewrite_some E HE _ _ _ _ _ _ _ m' ov A) as [q H]. exists s, q. exact H.
Qed.
Theorem alike_refused f b m m' ov : archive E f b m -> has_meta f = true -> alike m m' -> rewrite_bytes E f m' ov = (f, Raise NoChangeInMetadata).
Proof.
  intros HA HM A. destruct (rewrite_front f b m m' ov HA HM) as (s & q & H). unfold rewrite_bytes. rewrite H.
  apply pyeq_alike in A. rewrite A. reflexivity.
Qed.
Theorem unlike_not_refused f b m m' ov : archive E f b m -> has_meta f = true -> ~ alike m m' ->
  snd (rewrite_bytes E f m' ov) = Raise NoChangeInMetadata -> foreign_meta E NoChangeInMetadata.
Proof.
  intros HA HM A. destruct (rewrite_front f b m m' ov HA HM) as (s & q & H). unfold rewrite_bytes. rewrite H. clear H.
  destruct (pyeq m m') eqn:P; [exfalso; apply A, pyeq_alike, P|].
  destruct (recreate_metadata (ms_h s) ov) as [a|e] eqn:R; cbn [fst snd].
  - assert (MX : exists z, ma_max a = MMInt z).
    { unfold recreate_metadata in R. repeat match type of R with rbind ?r _ = _ => destruct r; cbn [rbind] in R; [|discriminate] end. injection R as <-. eexists. reflexivity. }
    destruct MX as [z MX]. destruct (plan_metadata E m' a) as [[[mh p] a']|e] eqn:PL; cbn [snd]; [discriminate|].
    intros H. injection H as ->. apply plan_outcome in PL. unfold meta_error in PL. rewrite MX in PL.
    destruct PL as [X|[[X _]|[[X _]|[X|[[X _]|[(g & n & X & _)|X]]]]]]; try discriminate. exact X.
  - intros H. injection H as ->. exfalso. revert R. unfold recreate_metadata, check_valid_serializer, check_valid_checksum, check_valid_codec, check_range.
    repeat match goal with |- context [match ?x with _ => _ end] => lazymatch x with context [match _ with _ => _ end] => fail | _ => destruct x end; cbn [rbind] end; discriminate.
Qed.
Theorem read_back_refused f b m ov : archive E f b m -> has_meta f = true -> proper m -> nan_free m -> rewrite_bytes E f m ov = (f, Raise NoChangeInMetadata).
Proof. intros HA HM P F. apply (alike_refused f b m); auto. apply alike_refl; auto. Qed.
End WithEnv.
