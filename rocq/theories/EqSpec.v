(** Specification vocabulary: when two metadata values are the same for Python. *)
From Verif Require Import Base PyVal.

(** ** Floats *)
(** A double is m * 2^e (those from 2^1024 on are not there; see [worth], [infinite]). *)
Definition double (m e : Z) : Prop := Z.abs m <= 2 ^ 53 /\ -1074 <= e.
(** How far it is from n / d, times d * 2^1074. *)
Definition apart (n d m e : Z) : Z := Z.abs (n * 2 ^ 1074 - d * (m * 2 ^ (e + 1074))).
(** n / d is rounded to m * 2^e: no double is nearer; of two as near the even one is taken. *)
Definition rounds (n d m e : Z) : Prop :=
  double m e /\ (forall m' e', double m' e' -> apart n d m e <= apart n d m' e') /\
  (forall m' e', double m' e' -> apart n d m' e' = apart n d m e -> m' * 2 ^ (e' + 1074) <> m * 2 ^ (e + 1074) -> Z.even m = true).

(** A run of decimal digits (as code points) and its value. *)
Definition dec_val (ds : list Z) : Z := fold_left (fun a c => 10 * a + (c - 48)) ds 0.
Definition dec_digit (c : Z) : bool := (48 <=? c) && (c <=? 57).
Inductive signed : pystr -> bool -> Prop := sg_none : signed [] false | sg_plus : signed [43] false | sg_minus : signed [45] true.
Inductive exponent : pystr -> Z -> Prop :=
| ex_none : exponent [] 0
| ex_some c sg neg ds : c = 101 \/ c = 69 -> signed sg neg -> ds <> [] -> forallb dec_digit ds = true ->
    exponent (c :: sg ++ ds) (if neg : bool then - dec_val ds else dec_val ds).
Inductive fraction : pystr -> pystr -> Prop := fr_none : fraction [] [] | fr_some fp : fraction (46 :: fp) fp.
(** A decimal literal: its sign, and a, x such that it is a * 10^x. *)
Inductive literal : pystr -> bool -> Z -> Z -> Prop :=
| lit sg neg ip fr fp ex x : signed sg neg -> fraction fr fp -> exponent ex x ->
    ip ++ fp <> [] -> forallb dec_digit (ip ++ fp) = true ->
    literal (sg ++ ip ++ fr ++ ex) neg (dec_val (ip ++ fp)) (x - zlen fp).
(** ... rounded (a * 10^x as a fraction of integers). *)
Definition literal_rounds (r : pystr) (neg : bool) (m e : Z) : Prop :=
  exists a x, literal r neg a x /\ rounds (a * 10 ^ Z.max x 0) (10 ^ Z.max (- x) 0) m e.
Inductive infinite : pystr -> bool -> Prop :=
| inf_plus : infinite (u "inf") false
| inf_minus : infinite (u "-inf") true
| inf_large r neg m e : literal_rounds r neg m e -> 2 ^ (1024 + 1074) <= m * 2 ^ (e + 1074) -> infinite r neg.

(** [worth v m d]: the number [v] is m / d. *)
Inductive worth : pyval -> Z -> Z -> Prop :=
| w_true : worth (PBool true) 1 1
| w_false : worth (PBool false) 0 1
| w_int z : worth (PInt z) z 1
| w_float r neg m e : literal_rounds r neg m e -> m * 2 ^ (e + 1074) < 2 ^ (1024 + 1074) ->
    worth (PFloat r) ((if neg : bool then - m else m) * 2 ^ (e + 1074)) (2 ^ 1074).

(** ** Values *)
(** The entry of a dictionary under the key k. *)
Definition entry (k : pystr) (v : pyval) (l : list (pystr * pyval)) : Prop :=
  exists a b, l = a ++ (k, v) :: b /\ ~ In k (map fst a).

Inductive alike : pyval -> pyval -> Prop :=
| al_none : alike PNone PNone
| al_number v w m d m' d' : worth v m d -> worth w m' d' -> m * d' = m' * d -> alike v w
| al_infinite r s neg : infinite r neg -> infinite s neg -> alike (PFloat r) (PFloat s)
| al_str s : alike (PStr s) (PStr s)
| al_list l l' : Forall2 alike l l' -> alike (PList l) (PList l')
| al_tuple l l' : Forall2 alike l l' -> alike (PTuple l) (PTuple l')
| al_dict l l' : List.length l = List.length l' ->
    (forall k v, In (k, v) l -> exists v', entry k v' l' /\ alike v v') -> alike (PDict l) (PDict l').

(** A value as Python has it: the keys of every dictionary differ. *)
Inductive proper : pyval -> Prop :=
| pr_none : proper PNone | pr_bool b : proper (PBool b) | pr_int z : proper (PInt z)
| pr_float r : proper (PFloat r) | pr_str s : proper (PStr s)
| pr_list l : Forall proper l -> proper (PList l)
| pr_tuple l : Forall proper l -> proper (PTuple l)
| pr_dict l : NoDup (map fst l) -> Forall (fun kv => proper (snd kv)) l -> proper (PDict l).
(** Every float in it is a number or an infinity. *)
Inductive nan_free : pyval -> Prop :=
| nf_none : nan_free PNone | nf_bool b : nan_free (PBool b) | nf_int z : nan_free (PInt z) | nf_str s : nan_free (PStr s)
| nf_float r m d : worth (PFloat r) m d -> nan_free (PFloat r) | nf_infinite r neg : infinite r neg -> nan_free (PFloat r)
| nf_list l : Forall nan_free l -> nan_free (PList l)
| nf_tuple l : Forall nan_free l -> nan_free (PTuple l)
| nf_dict l : Forall (fun kv => nan_free (snd kv)) l -> nan_free (PDict l).
