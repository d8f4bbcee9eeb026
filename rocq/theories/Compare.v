(** testutil.py: the comparison the project's tests and a user of testutil rely on. *)
From Verif Require Import Base PyVal Checksums Headers Pretty Args FileIO Files.

(** How a round of the loop ends: it goes on, it returns True, or the assert fails
    (an AssertionError; under 'python -O' there is no assert, which is not modelled). *)
Inductive outcome := Running | Same | Differs.

(** One round of cmp_fp (testutil.py:76-84); [rd1], [rd2] are the read methods.  An
    exception of a read escapes. *)
Definition cmp_round {S T} (rd1 : Z -> SM S bytes) (rd2 : Z -> SM T bytes) (chunk_size : Z) : SM (S * T) outcome :=
  a <- onl (rd1 chunk_size) ;;
  b <- onr (rd2 chunk_size) ;;
  ret (match a, b with
       | [], [] => Same
       | _, _ => if bytes_eqb a b then Running else Differs
       end).
(** The loop, for at most [n] rounds: Running when it has not ended by then. *)
Fixpoint cmp_loop {S T} (rd1 : Z -> SM S bytes) (rd2 : Z -> SM T bytes) (chunk_size : Z) (n : nat) : SM (S * T) outcome :=
  match n with
  | O => ret Running
  | Datatypes.S n' =>
      r <- cmp_round rd1 rd2 chunk_size ;;
      match r with Running => cmp_loop rd1 rd2 chunk_size n' | _ => ret r end
  end.
(** cmp_fp (testutil.py:75-84) with a bound on the rounds *)
Definition cmp_fp_rounds {S T} (rd1 : Z -> SM S bytes) (rd2 : Z -> SM T bytes) (n : nat) : SM (S * T) outcome :=
  chunk_size <- lift (reverse_pretty "1M") ;;
  cmp_loop rd1 rd2 chunk_size n.
(** ... for two different open files: as many rounds as the first has bytes left,
    and two; C87_positions shows that it has then ended. *)
Definition cmp_fp : SM (fp * fp) outcome :=
  fun st => cmp_fp_rounds f_read f_read (List.length (fdata (fst st)) + 2) st.
(** cmp_file (testutil.py:69-72); both files are open at once, for reading, and the
    returned True is dropped. *)
Definition cmp_file (p q : path) : SM fs outcome :=
  a <- open_rb p ;;
  b <- open_rb q ;;
  lift (snd (cmp_fp (fp_of a, fp_of b))).

(** A read method that delivers what it likes: read number i gives, or raises, [w i]. *)
Definition delivers (w : nat -> res bytes) (n : Z) : SM nat bytes := fun i => (Datatypes.S i, w i).
