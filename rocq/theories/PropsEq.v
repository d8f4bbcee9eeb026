(** C85: when metadata counts as changed. *)
From Verif Require Import Base PyVal Checksums Headers Args FileIO Append Spec Archive ExcSpec EqSpec RoundProofs FloatProofs EqProofs EqMain Json Pretty Toy PropsPack.

(** Python's == on metadata values. *)
Theorem C85_equality : forall a b, pyeq a b = true <-> alike a b.
Proof. exact pyeq_alike. Qed.
Print Assumptions C85_equality.
Example C85_case_equality :
  let d1 := PDict [(u "a", PInt 1); (u "b", PList [PFloat (u "0.0"); PStr (u "x")])] in
  let d2 := PDict [(u "b", PList [PFloat (u "-0.0"); PStr (u "x")]); (u "a", PBool true)] in
  alike d1 d2 /\ alike (PFloat (u "1e+22")) (PInt (10 ^ 22)) /\ ~ alike (PFloat (u "1e+23")) (PInt (10 ^ 23)) /\
  ~ alike d1 (PDict [(u "a", PInt 1)]) /\ ~ alike (PDict [(u "a", PInt 1)]) d1 /\
  ~ alike (PList [PInt 1; PInt 2]) (PTuple [PInt 1; PInt 2]) /\ ~ alike (PFloat (u "0.1")) (PFloat (u "0.2")) /\ ~ alike (PStr (u "1")) (PInt 1) /\ ~ alike PNone (PBool false).
Proof. repeat split; first [apply pyeq_alike; vm_compute; reflexivity|intros H; apply pyeq_alike in H; vm_compute in H; discriminate]. Qed.

(** On values without NaN it is an equivalence. *)
Theorem C85_reflexive : forall v, proper v -> nan_free v -> alike v v.
Proof. exact alike_refl. Qed.
Print Assumptions C85_reflexive.
Theorem C85_symmetric : forall v w, proper v -> proper w -> alike v w -> alike w v.
Proof. exact alike_sym. Qed.
Print Assumptions C85_symmetric.
Theorem C85_transitive : forall v w x, alike v w -> alike w x -> alike v x.
Proof. exact alike_trans. Qed.
Print Assumptions C85_transitive.
(** (Not without the hypothesis: of two lists of members one may have a key twice.) *)
Example C85_case_improper : alike (PDict [(u "a", PInt 1); (u "a", PInt 1)]) (PDict [(u "a", PInt 1); (u "b", PInt 2)]) /\
  ~ alike (PDict [(u "a", PInt 1); (u "b", PInt 2)]) (PDict [(u "a", PInt 1); (u "a", PInt 1)]).
Proof. split; [apply pyeq_alike; vm_compute; reflexivity|intros H; apply pyeq_alike in H; vm_compute in H; discriminate]. Qed.

(** A float written with '.0' is that integer (below 2**53). *)
Theorem C85_integral : forall n (neg : bool) (ds : list Z), ds <> [] -> forallb dec_digit ds = true -> dec_val ds < 2 ^ 53 ->
  (alike (PInt n) (PFloat ((if neg then [45] else []) ++ ds ++ [46; 48])) <-> n = if neg then - dec_val ds else dec_val ds).
Proof. exact integral_equal. Qed.
Print Assumptions C85_integral.
Example C85_case_integral : alike (PInt (-120)) (PFloat (u "-120.0")) /\ u "-120.0" = [45] ++ [49; 50; 48] ++ [46; 48] /\ dec_val [49; 50; 48] = 120.
Proof. split; [apply pyeq_alike; vm_compute; reflexivity|]. split; reflexivity. Qed.
(** A NaN is like nothing, not even itself. *)
Theorem C85_nan : forall v, ~ alike (PFloat (u "nan")) v /\ ~ alike v (PFloat (u "nan")).
Proof. exact nan_unlike. Qed.
Print Assumptions C85_nan.

(** The quotients of pretty.py, of the ratios and of the literals are rounded to the
    nearest double, and there is only one. *)
Theorem C85_rounding : forall n d m e, 0 <= n -> 0 < d -> b64_of n d = (m, e) -> 0 <= m /\ rounds n d m e.
Proof. exact b64_rounds. Qed.
Print Assumptions C85_rounding.
Theorem C85_rounding_unique : forall n d m1 e1 m2 e2, 0 < d -> rounds n d m1 e1 -> rounds n d m2 e2 -> m1 * 2 ^ (e1 + 1074) = m2 * 2 ^ (e2 + 1074).
Proof. exact rounds_unique. Qed.
Print Assumptions C85_rounding_unique.
(** 0.1, a tie to the even neighbour (2^53 + 1), the least positive double from 3e-324. *)
Example C85_case_rounding : b64_of 1 10 = (7205759403792794, -56) /\ b64_of (2 ^ 53 + 1) 1 = (2 ^ 52, 1) /\ b64_of (2 ^ 53 + 3) 1 = (2 ^ 52 + 2, 1) /\
  b64_of 3 (10 ^ 324) = (1, -1074) /\ b64_of 2 (10 ^ 324) = (0, -1074).
Proof. vm_compute. repeat split. Qed.
(** The texts that are decimal literals, and what they are worth. *)
Theorem C85_literal : forall r neg a x, literal r neg a x <-> forallb low r = true /\ parse_decimal (asc r) = Some (neg, a, x).
Proof. exact literal_iff. Qed.
Print Assumptions C85_literal.
Example C85_case_literal : literal (u "-12.50e+3") true 1250 1 /\ literal (u ".5") false 5 (-1).
Proof. split; apply C85_literal; vm_compute; split; reflexivity. Qed.

(** A rewrite is refused as no change exactly for metadata like what is there,
    whatever the overrides. *)
Theorem C85_alike_refused : forall E, EnvOK E -> forall f b m m' ov,
  archive E f b m -> has_meta f = true -> alike m m' -> rewrite_bytes E f m' ov = (f, Raise NoChangeInMetadata).
Proof. exact alike_refused. Qed.
Print Assumptions C85_alike_refused.
Theorem C85_unlike : forall E, EnvOK E -> forall f b m m' ov,
  archive E f b m -> has_meta f = true -> ~ alike m m' ->
  snd (rewrite_bytes E f m' ov) = Raise NoChangeInMetadata -> foreign_meta E NoChangeInMetadata.
Proof. exact unlike_not_refused. Qed.
Print Assumptions C85_unlike.
(** Writing back what unpacking returned is always refused. *)
Theorem C85_read_back : forall E, EnvOK E -> forall f b m ov,
  archive E f b m -> has_meta f = true -> proper m -> nan_free m -> rewrite_bytes E f m ov = (f, Raise NoChangeInMetadata).
Proof. exact read_back_refused. Qed.
Print Assumptions C85_read_back.
(** So True cannot be changed into 1 or 1.0; a tuple is a change, though the same bytes are written. *)
Definition ex_note (v : pyval) : pyval :=
  PDict [(u "note", PList [PNone; v]); (u "dtype", PStr (u "<f8")); (u "shape", PList [PInt 3; PFloat (u "-4.0")])].
Example C85_case_rewrite : has_meta ex_file = true /\ proper (norm ex_meta) /\ nan_free (norm ex_meta) /\ nan_free (PFloat (u "-4.0")) /\
  map (fun m => snd (rewrite_bytes toy_env ex_file m default_overrides)) [norm ex_meta; ex_note (PBool true); ex_note (PInt 1); ex_note (PFloat (u "1.0"))] =
    repeat (Raise NoChangeInMetadata) 4 /\
  snd (rewrite_bytes toy_env ex_file (ex_note (PInt 2)) default_overrides) = Ok tt /\
  rewrite_bytes toy_env ex_file ex_meta default_overrides = (ex_file, Ok tt).
Proof.
  split; [vm_compute; reflexivity|]. split.
  { cbn. repeat (constructor; cbn; try (intros H; repeat destruct H as [H|H]; discriminate)). all: intuition discriminate. }
  split.
  { cbn. repeat (constructor; cbn). }
  split.
  { apply (nf_float _ (-4 * 2 ^ (0 + 1074)) (2 ^ 1074)). apply integral_worth with (neg := true) (ds := [52]); [discriminate|reflexivity|reflexivity]. }
  vm_compute. repeat split.
Qed.
