(** C87: the comparison of testutil.py, cmp_fp and cmp_file. *)
From Verif Require Import Base PyVal Checksums Headers Pretty Args FileIO Files Spec Toy PropsPack PropsAppend Compare CompareProofs.

(** Two open files: what is left of them is compared, in finitely many rounds, and
    nothing is written. *)
Theorem C87_positions : forall f g, 0 <= fpos f -> 0 <= fpos g ->
  let left x := skipn (Z.to_nat (fpos x)) (fdata x) in
  exists f' g', fdata f' = fdata f /\ fdata g' = fdata g /\ flog f' = flog f /\ flog g' = flog g /\
    (left f = left g -> cmp_fp (f, g) = ((f', g'), Ok Same) /\ left f' = [] /\ left g' = []) /\
    (left f <> left g -> cmp_fp (f, g) = ((f', g'), Ok Differs)) /\
    (forall n, (List.length (fdata f) + 2 <= n)%nat -> cmp_fp_rounds f_read f_read n (f, g) = cmp_fp (f, g)).
Proof. exact fp_compared_all. Qed.
Print Assumptions C87_positions.

(** Two files on disk. *)
Theorem C87_files : forall p q s a b, s p = Some a -> s q = Some b ->
  (a = b -> cmp_file p q s = (s, Ok Same)) /\ (a <> b -> cmp_file p q s = (s, Ok Differs)).
Proof. exact files_compared. Qed.
Print Assumptions C87_files.
Theorem C87_missing : forall p q s, s p = None \/ s q = None -> cmp_file p q s = (s, Raise OSError).
Proof. exact file_missing. Qed.
Print Assumptions C87_missing.

(** The trap: file objects that have just been written are at their ends, and then
    they compare equal whatever they hold (as in pack_unpack_fp, test_file_io.py:227). *)
Theorem C87_at_end : forall f g, zlen (fdata f) <= fpos f -> zlen (fdata g) <= fpos g ->
  exists f' g', cmp_fp (f, g) = ((f', g'), Ok Same).
Proof. exact at_end. Qed.
Print Assumptions C87_at_end.

(** Other readers (sockets, pipes, raw files) may deliver less than asked for.  True is
    returned exactly when both deliver the same pieces and end together ... *)
Theorem C87_streams : forall v w, (exists n st, cmp_fp_rounds (delivers v) (delivers w) n (O, O) = (st, Ok Same)) <->
  exists k, v k = Ok [] /\ w k = Ok [] /\ forall j, (j < k)%nat -> exists x, x <> [] /\ v j = Ok x /\ w j = Ok x.
Proof. exact streams_compared. Qed.
Print Assumptions C87_streams.
(** ... so that equal contents in other pieces are reported as different. *)
Theorem C87_pieces_refuted : exists v w : nat -> res bytes,
  let text r n := concat (map (fun i => match r i with Ok x => x | Raise _ => [] end) (seq 0 n)) in
  (forall n, (3 <= n)%nat -> text v n = text w n /\ v n = Ok [] /\ w n = Ok []) /\
  exists st, cmp_fp_rounds (delivers v) (delivers w) 9 (O, O) = (st, Ok Differs).
Proof.
  exists (fun i => match i with 0%nat => Ok (b_of_string "ab") | 1%nat => Ok (b_of_string "c") | _ => Ok [] end),
         (fun i => match i with 0%nat => Ok (b_of_string "a") | 1%nat => Ok (b_of_string "bc") | _ => Ok [] end).
  split.
  - intros n N. destruct n as [|[|[|n]]]; try lia. split; [|split; reflexivity].
    cbn [seq map concat]. rewrite !app_nil_l, !app_assoc. f_equal.
    f_equal. apply map_ext_in. intros i I. apply in_seq in I. destruct i as [|[|i]]; try lia. reflexivity.
  - eexists. vm_compute. reflexivity.
Qed.
Print Assumptions C87_pieces_refuted.

(** Cases: an archive with itself, from different positions, and with an older one. *)
Example C87_case : snd (cmp_fp (fp_of ex_f1, fp_of ex_f1)) = Ok Same /\ snd (cmp_fp (fp_of ex_f1, fp_of ex_file)) = Ok Differs /\
  snd (cmp_fp (mkfp (x00 :: ex_f1) 1 [], fp_of ex_f1)) = Ok Same /\ snd (cmp_fp (mkfp ex_f1 9999 [], mkfp ex_file 9999 [])) = Ok Same /\
  snd (cmp_file "a" "b" (fun p => if String.eqb p "a" then Some ex_f1 else if String.eqb p "b" then Some ex_file else None)) = Ok Differs.
Proof. vm_compute. repeat split. Qed.
Example C87_case_streams : exists v w : nat -> res bytes, exists k,
  v k = Ok [] /\ w k = Ok [] /\ (forall j, (j < k)%nat -> exists x, x <> [] /\ v j = Ok x /\ w j = Ok x) /\ k = 2%nat.
Proof.
  exists (fun i => if Nat.leb i 1 then Ok [x00] else Ok []), (fun i => if Nat.leb i 1 then Ok [x00] else Ok []), 2%nat.
  repeat split. intros j J. exists [x00]. destruct j as [|[|j]]; [..|lia]; repeat split; discriminate.
Qed.
