(** How much a file can make unpacking do: corollaries of [unpack_emits]. *)
From Verif Require Import Base PyVal Checksums Headers Args FileIO Spec BaseLemmas HeaderProofs IOProofs Archive Damage DamageProofs.
From Coq Require Import ZifyBool ZifyNat.
Ltac Zify.zify_post_hook ::= Z.div_mod_to_equations.

Section WithEnv.
Variable E : Env.
Hypothesis OK : EnvOK E.
Lemma emitted_bound ck f p xs : emitted E ck f p xs ->
  (xs <> [] -> 0 <= p /\ (16 + cks_size ck) * zlen xs <= size f - p + cks_size ck) /\ size (concat xs) <= zlen xs * (2 ^ 32 - 1).
Proof.
  assert (CK : 0 <= cks_size ck) by (destruct ck; cbn; lia).
  intros H. induction H as [p|p x xs n c d Hp Hn Hs Hd _ Hx [IH1 IH2]].
  - split; [congruence|]. change (size (concat [])) with 0. change (zlen (@nil bytes)) with 0. lia.
  - destruct (ok_decompress_len E OK c x Hd) as (_ & _ & L).
    assert (SX : size x < 2 ^ 32). { rewrite <- L. apply (u32_range 4 c). }
    rewrite zlen_cons. cbn [concat]. assert (SA : size (x ++ concat xs) = size x + size (concat xs)) by (rewrite !size_zlen; apply zlen_app). rewrite SA. split; [intros _|lia].
    split; [exact Hp|]. destruct xs as [|y ys]; [change (zlen (@nil bytes)) with 0; lia|]. destruct IH1 as [_ IH1]; [discriminate|]. lia.
Qed.
Theorem unpack_bound f : 16 * size (fst (unpack_core E f)) <= size f * (2 ^ 32 - 1).
Proof.
  destruct (unpack_emits E OK f) as (ck & p & xs & -> & EM & _). destruct (emitted_bound _ _ _ _ EM) as [H1 H2].
  assert (CK : 0 <= cks_size ck) by (destruct ck; cbn; lia). pose proof (zlen_nonneg xs). pose proof (zlen_nonneg f).
  destruct xs as [|x xs]; [change (size (concat [])) with 0; rewrite size_zlen; lia|]. destruct H1 as [H1 H3]; [discriminate|]. rewrite zlen_cons in *. pose proof (zlen_nonneg xs) as H4.
  assert (exists k, k = zlen xs) as [k K] by eauto. change (@zlen (list byte) xs) with (@zlen bytes xs) in *. rewrite <- K in *. assert (16 * (1 + k) <= size f) by (clear - H1 H3 CK H4; destruct ck; cbn [cks_size] in *; lia).
  lia.
Qed.
Theorem unpack_chunks f m : snd (unpack_core E f) = Ok m -> 0 < F_n f ->
  exists ck, nth_error checksum_names (Z.to_nat (u8 6 f)) = Some (cks_name ck) /\ (16 + cks_size ck) * F_n f <= size f + cks_size ck.
Proof.
  intros H N. destruct (unpack_emits E OK f) as (ck & p & xs & _ & EM & _ & CK & _ & EQ). specialize (EQ m H).
  assert (X : xs <> []) by (intros ->; change (@zlen (list byte) []) with 0 in EQ; lia).
  exists ck. split; [exact (CK X)|]. destruct (emitted_bound _ _ _ _ EM) as [H1 _]. destruct (H1 X) as [H2 H3].
  change (@zlen (list byte) xs) with (@zlen bytes xs) in *. rewrite EQ, Z.max_r in H3 by lia. lia.
Qed.
End WithEnv.
