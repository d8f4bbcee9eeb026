(** A concrete repr, literal_eval and numpy.dtype meeting what the theorems assume
    of them ([NpOK], [OldOK]), for the Examples. *)
From Verif Require Import Base PyVal Args FileIO NumpyIO NumpySpec Json PyLit.

(** Sizes of formats: the number at the end of the string, the sum of the fields. *)
Definition is_digit (c : Z) : bool := (48 <=? c) && (c <=? 57).
Definition fmt_size (s : pystr) : Z :=
  fold_left (fun acc c => if is_digit c then 10 * acc + (c - 48) else 0) s 0.
Definition shape_size (v : pyval) : Z :=
  match v with
  | PInt z => z
  | PTuple l => fold_right (fun x acc => match x with PInt z => z * acc | _ => acc end) 1 l
  | _ => 1
  end.
Fixpoint desc_size (v : pyval) : Z :=
  match v with
  | PStr s => fmt_size s
  | PList l => fold_right (fun f acc => match f with
                                        | PTuple [_; g] => desc_size g + acc
                                        | PTuple [_; g; sh] => desc_size g * shape_size sh + acc
                                        | _ => acc
                                        end) 0 l
  | _ => 0
  end.
Fixpoint desc_object (v : pyval) : bool :=
  match v with
  | PStr s => existsb (Z.eqb 79) s
  | PList l => existsb (fun f => match f with PTuple (_ :: g :: _) => desc_object g | _ => false end) l
  | _ => false
  end.
Definition toy_dtype (v : pyval) : dtype := mkDT v (desc_size v) (desc_object v).
Definition toy_np (base : Z) (junk : mem) : NpEnv :=
  mkNpEnv lit_repr lit_eval (fun v => Ok (toy_dtype v)) base junk.

Lemma toy_np_ok b j b' j' v : literal v = true -> NpOK (toy_np b j) (toy_np b' j') (toy_dtype v).
Proof. intros H. constructor; [apply lit_eval_repr; exact H|reflexivity]. Qed.
