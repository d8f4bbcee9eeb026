(** Proofs: the space that is free in the last chunk of an archive. *)
From Verif Require Import Base PyVal Checksums Headers Pretty Args FileIO Append Files Cli Objects Log Report Spec Archive Verbose VerbSpec
  BaseLemmas HeaderProofs IOProofs WfProofs PackProofs SmallProofs BytesProofs MetaProofs AppendProofs ArchiveProofs.
Section WithEnv.
Variable E : Env.
Hypothesis HE : EnvOK E.
Theorem free_archive f b m : archive E f b m -> has_offsets f = true -> free_in_last E f = Ok (F_chunk f, F_chunk f - F_last f).
Proof.
  intros HA HO. destruct (archive_arch E HE _ _ _ HA) as (h & o & cs & tail & A).
  pose proof (wf_fields E HE _ _ _ _ _ (ar_wf _ _ _ _ _ _ _ _ A)) as FI. rewrite (fi_chunk _ _ _ _ FI), (fi_last _ _ _ _ FI). rewrite (fi_offsets _ _ _ _ FI) in HO. clear FI.
  destruct (arch_split E _ _ _ _ _ _ _ A) as (cs0 & cl & xl & -> & _ & _ & LX & CO & _).
  pose proof (ar_wf _ _ _ _ _ _ _ _ A) as W.
  destruct (read_beginning_wf E HE _ _ _ _ _ W) as [RB _]. rewrite HO, (ar_meta _ _ _ _ _ _ _ _ A) in RB.
  destruct (wf_split E _ _ _ _ _ _ _ W) as [WS ZF].
  pose proof (body_pos_nonneg E _ _ _ _ _ W) as BP. pose proof (zlen_nonneg (body E (h_checksum h) cs0)) as NB.
  set (lo := body_pos E h o + zlen (body E (h_checksum h) cs0)) in *.
  unfold free_in_last. rewrite (bind_run _ _ _ _ _ RB). cbn [b_offsets b_header].
  rewrite positions_snoc. fold lo. rewrite rev_app_distr. cbn [rev app].
  rewrite (bind_run _ _ _ _ _ (f_seek_at lo _ ltac:(lia))).
  destruct (chunk_ok_len E HE _ _ CO) as [L16 U12].
  set (f1 := at_pos lo (adv (body_pos E h o) (fp_of f))).
  assert (R1 : rest f1 = stored E (h_checksum h) cl ++ tail).
  { unfold rest, f1, at_pos. cbn [fpos fdata adv fp_of]. rewrite WS at 1. apply zdrop_app_exact. lia. }
  destruct (chunk_here_ok E HE (h_checksum h) cl tail L16 U12) as (CH & _ & _).
  destruct (read_chunk_spec E (h_checksum h) f1) as (bh & n & RC & _).
  { unfold f1, at_pos; cbn. lia. }
  { rewrite R1, zlen_app, (zlen_stored E HE). pose proof (zlen_nonneg tail). pose proof (cks_size_nonneg (h_checksum h)). lia. }
  rewrite (bind_run _ _ _ _ _ RC). cbn [fst snd]. rewrite R1, CH. rewrite (bind_lift _ _ _ _ CO). cbn [ret snd]. unfold size. change (Z.of_nat (List.length xl)) with (zlen xl). rewrite LX. reflexivity.
Qed.
End WithEnv.
