(** Model of bloscpack/log.py. *)
From Verif Require Import Base Objects.

(** The module's variables and what has been printed, line by line. *)
Record logst := mkLog { l_level : string; l_prefix : text; l_out : list text }.

(** VERBOSITY_LEVELS (log.py:9-12) *)
Definition verbosity_levels : list string := ["NORMAL"; "VERBOSE"; "DEBUG"]%string.
Fixpoint lv_index (s : string) (l : list string) : res Z :=
  match l with
  | [] => Raise ValueError
  | x :: r => if String.eqb s x then Ok 0 else i <~ lv_index s r ;; Ok (i + 1)
  end.

(** set_prefix (log.py:18-20) *)
Definition set_prefix (p : text) : SM logst unit := fun s => (mkLog (l_level s) p (l_out s), Ok tt).
(** set_level (log.py:23-26): it looks at the argument, and does nothing else. *)
Definition set_level (level : string) : SM logst unit :=
  if negb (mem level verbosity_levels) then raise ValueError else ret tt.
(** log.LEVEL = level, as in cli.py:434-437 *)
Definition assign_level (level : string) : SM logst unit := fun s => (mkLog level (l_prefix s) (l_out s), Ok tt).

(** message.split('\n') *)
Fixpoint split_nl (m : text) : list text :=
  match m with
  | [] => [[]]
  | c :: r => if Ascii.eqb c nl then [] :: split_nl r
              else match split_nl r with [] => [[c]] | x :: l => (c :: x) :: l end
  end.
Definition nonempty (x : text) : bool := match x with [] => false | _ => true end.
(** print one line *)
Definition print (x : text) : SM logst unit := fun s => (mkLog (l_level s) (l_prefix s) (l_out s ++ [x]), Ok tt).
Fixpoint print_all (pre : text) (l : list text) : SM logst unit :=
  match l with [] => ret tt | x :: r => print (pre ++ x) ;;; print_all pre r end.

(** verbose (log.py:29-36) *)
Definition verbose (m : text) (level : string) : SM logst unit :=
  if negb (mem level verbosity_levels) then raise TypeError
  else fun s =>
    (i <- lift (lv_index level verbosity_levels) ;;
     j <- lift (lv_index (l_level s) verbosity_levels) ;;
     if i <=? j then print_all (l_prefix s ++ t_ ": ") (filter nonempty (split_nl m)) else ret tt) s.
(** debug, normal (log.py:39-46) *)
Definition debug (m : text) : SM logst unit := verbose m "DEBUG".
Definition normal (m : text) : SM logst unit := verbose m "NORMAL".
(** error (log.py:49-53) *)
Definition error {A} (m : text) (code : Z) : SM logst A :=
  fun s => (print_all (l_prefix s ++ t_ ": error: ") (filter nonempty (split_nl m)) ;;; raise (SystemExit code)) s.
