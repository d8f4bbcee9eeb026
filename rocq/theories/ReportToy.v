(** The toy environment and toy texts meet the contracts of the theorems about what
    'blpk' prints. *)
From Verif Require Import Base PyVal Checksums Headers Pretty Args FileIO Append Files Cli Objects Log ObjectsSpec ReprSpec Report ReportSpec Spec
  ObjectsProofs ReprProofs ReportProofs Json Toy.

Lemma outside_ok {A} (x : A) : outside (Ok x).
Proof. split; intros; discriminate. Qed.
Lemma outside_bind {A B} (r : res A) (k : A -> res B) : outside r -> (forall x, outside (k x)) -> outside (x <~ r ;; k x).
Proof. intros [H1 H2] K. destruct r as [x|e]; [apply K|]. split; [intros n C|intros C]; cbn in C; injection C as ->; [apply (H1 n)|apply H2]; reflexivity. Qed.
Ltac out := split; intros; discriminate.
Lemma outside_dumps v : outside (dumps v).
Proof.
  assert (G : forall l, Forall (fun v => outside (dumps v)) l ->
    outside ((fix go (l : list pyval) : res (list bytes) := match l with [] => Ok [] | x :: r => b <~ dumps x ;; bs <~ go r ;; Ok (b :: bs) end) l)).
  { induction l as [|x l IH]; intros F; [out|]. inversion F; subst. apply outside_bind; [assumption|]. intros b. apply outside_bind; [auto|]. intros; out. }
  induction v as [|b|z|r0|s|l H|l H|l H] using pyval_ind'; cbn [dumps]; try out.
  - destruct b; out.
  - destruct (float_ok r0); out.
  - destruct (forallb char_ok s); out.
  - apply outside_bind; [apply G; exact H|intros; out].
  - apply outside_bind; [apply G; exact H|intros; out].
  - apply outside_bind; [|intros; out]. clear G. induction l as [|[k x] l IH]; [out|]. inversion H; subst. destruct (forallb char_ok k); [|out].
    apply outside_bind; [assumption|]. intros b. apply outside_bind; [auto|]. intros; out.
Qed.
Theorem toy_no_exit : NoExit toy_env.
Proof.
  constructor; cbn [e_compress e_decompress e_zcompress e_zdecompress e_dumps e_loads toy_env]; intros.
  - unfold toy_compress. destruct (_ && _); out.
  - unfold toy_decompress. destruct (_ && _); out.
  - unfold toy_zcompress. destruct (_ && _); [destruct (bytes_eqb _ _)|]; out.
  - unfold toy_zdecompress. destruct x as [|b r]; [out|]. destruct (Byte.eqb b x01); [out|]. destruct (Byte.eqb b x00); out.
  - apply outside_dumps.
  - unfold loads. destruct (pvalue _ _) as [[v [|c r]]|]; out.
Qed.
(** Metadata is printed as JSON; all exceptions alike. *)
Definition toy_texts : Texts :=
  mkTexts (fun v => match dumps v with Ok b => map ascii_of_byte b | Raise _ => [] end)
          (fun _ => t_ "something went wrong") (fun s => t_ "the argument is not good: " ++ t_ s).
Theorem toy_texts_ok : TextsOK toy_texts.
Proof.
  constructor.
  - intros e ls L. rewrite (lines_unique _ _ L). apply split_nl_some. exists "s"%char. split; [left; reflexivity|discriminate].
  - intros t ls L. rewrite (lines_unique _ _ L). apply split_nl_some. exists "t"%char. split; [left; reflexivity|discriminate].
Qed.
