(** Python values that can appear as metadata. *)
From Verif Require Import Base Pretty.

(** A Python [str]: a sequence of code points. *)
Definition pystr := list Z.
Definition u (s : string) : pystr := map Zb (b_of_string s).

Fixpoint zs_eqb (a b : list Z) : bool :=
  match a, b with
  | [], [] => true
  | x :: a', y :: b' => (x =? y) && zs_eqb a' b'
  | _, _ => false
  end.

(** The Python values the model distinguishes.  [PFloat] carries the [repr] of
    the float; dictionaries are association lists in insertion order.
    [PNone] is both Python's None ("no metadata") and JSON's null. *)
Inductive pyval :=
| PNone
| PBool (b : bool)
| PInt (z : Z)
| PFloat (repr : pystr)
| PStr (s : pystr)
| PList (l : list pyval)
| PTuple (l : list pyval)
| PDict (l : list (pystr * pyval)).

(** The image of a value under JSON: tuples come back as lists. *)
Fixpoint norm (v : pyval) : pyval :=
  match v with
  | PList l | PTuple l => PList (map norm l)
  | PDict l => PDict (map (fun kv => (fst kv, norm (snd kv))) l)
  | _ => v
  end.

Definition is_none (v : pyval) : bool := match v with PNone => true | _ => false end.

Fixpoint dget (k : pystr) (l : list (pystr * pyval)) : option pyval :=
  match l with
  | [] => None
  | (k', v) :: r => if zs_eqb k k' then Some v else dget k r
  end.

(** The value of a number: m * 2^e, an infinity, or not a number. *)
Inductive numval := Num (m e : Z) | Inf (neg : bool) | Nan.
(** ... of a float, given its [repr] (a text no float has is taken as NaN). *)
Definition float_value (r : pystr) : numval :=
  if zs_eqb r (u "inf") then Inf false else if zs_eqb r (u "-inf") then Inf true
  else if negb (forallb (fun z => (0 <=? z) && (z <? 128)) r) then Nan else
  match parse_decimal (map (fun z => ascii_of_N (Z.to_N z)) r) with
  | Some (neg, m, ex) =>
      let '(mm, ee) := if 0 <=? ex then b64_of (m * 10 ^ ex) 1 else b64_of m (10 ^ (- ex)) in
      if (0 <=? ee) && (2 ^ 1024 <=? mm * 2 ^ ee) then Inf neg else Num (if neg then - mm else mm) ee
  | None => Nan
  end.
(** Comparison of numbers is exact (CPython float_richcompare, long_richcompare). *)
Definition num_eq (x y : numval) : bool :=
  match x, y with
  | Num m e, Num m' e' => let k := Z.min e e' in m * 2 ^ (e - k) =? m' * 2 ^ (e' - k)
  | Inf a, Inf b => Bool.eqb a b
  | _, _ => false
  end.

(** Python's [==] on these values: dictionaries compare without regard to
    order, lists and tuples are different, numbers compare by value: True == 1 == 1.0,
    0.0 == -0.0, a NaN equals nothing.  (Simplification: inside lists and dictionaries
    Python takes identical objects as equal, also a NaN; here no two values are identical.) *)
Fixpoint pyeq (a b : pyval) {struct a} : bool :=
  match a, b with
  | PNone, PNone => true
  | PBool x, PBool y => Bool.eqb x y
  | PBool x, PInt y => (if x then 1 else 0) =? y
  | PInt x, PBool y => x =? (if y then 1 else 0)
  | PInt x, PInt y => x =? y
  | PFloat x, PFloat y => num_eq (float_value x) (float_value y)
  | PFloat x, PInt y => num_eq (float_value x) (Num y 0)
  | PInt x, PFloat y => num_eq (Num x 0) (float_value y)
  | PFloat x, PBool y => num_eq (float_value x) (Num (if y then 1 else 0) 0)
  | PBool x, PFloat y => num_eq (Num (if x then 1 else 0) 0) (float_value y)
  | PStr x, PStr y => zs_eqb x y
  | PList x, PList y | PTuple x, PTuple y =>
      (fix go (x y : list pyval) {struct x} : bool :=
         match x, y with
         | [], [] => true
         | p :: x', q :: y' => pyeq p q && go x' y'
         | _, _ => false
         end) x y
  | PDict x, PDict y =>
      (List.length x =? List.length y)%nat &&
      (fix go (x : list (pystr * pyval)) {struct x} : bool :=
         match x with
         | [] => true
         | (k, p) :: x' =>
             match dget k y with Some q => pyeq p q | None => false end && go x'
         end) x
  | _, _ => false
  end.

Lemma zs_eqb_eq a b : zs_eqb a b = true <-> a = b.
Proof.
  revert b; induction a as [|x a IH]; intros [|y b]; cbn; split; intros H; try congruence; auto.
  - apply andb_true_iff in H as [H1 H2]. apply Z.eqb_eq in H1. apply IH in H2. congruence.
  - inversion H; subst. apply andb_true_iff; split; [apply Z.eqb_refl | apply IH; auto].
Qed.
