(** Model of bloscpack/pretty.py, with IEEE binary64 arithmetic spelled out on
    integers (CPython: float(), int/int true division, round(x, 2), str()). *)
From Verif Require Import Base.

(** Nearest integer to a/b (b > 0), ties to even. *)
Definition rhe (a b : Z) : Z :=
  let q := a / b in let r := a mod b in
  if 2 * r <? b then q else if b <? 2 * r then q + 1 else if Z.even q then q else q + 1.

(** a * 2^e as a fraction. *)
Definition shl_num (a e : Z) : Z := if 0 <=? e then a * 2 ^ e else a.
Definition shl_den (b e : Z) : Z := if 0 <=? e then b else b * 2 ^ (- e).

(** Exponent of the binary64 nearest to n/d (n, d > 0). *)
Definition b64_exp (n d : Z) : Z :=
  let l := Z.log2 n - Z.log2 d in
  let e := if shl_num d l <=? shl_den n l then l - 52 else l - 53 in
  Z.max e (-1074).

(** The binary64 nearest to n/d for n >= 0, d > 0, as (mantissa, exponent):
    the value is m * 2^e.  (Overflow to infinity is decided by the callers.) *)
Definition b64_of (n d : Z) : Z * Z :=
  if n =? 0 then (0, 0)
  else let e := b64_exp n d in (rhe (shl_num n (- e)) (shl_den d (- e)), e).

(** SUFFIXES (constants.py:31-36). *)
Definition suffix_bits (c : ascii) : option Z :=
  if Ascii.eqb c "B" then Some 0 else if Ascii.eqb c "K" then Some 10
  else if Ascii.eqb c "M" then Some 20 else if Ascii.eqb c "G" then Some 30
  else if Ascii.eqb c "T" then Some 40 else None.

(** Decimal literals accepted by Python's float(): [sign] digits [. digits]
    [e [sign] digits] with at least one digit in the mantissa. *)
Definition digit_val (c : ascii) : option Z :=
  let n := Z.of_nat (nat_of_ascii c) in
  if (48 <=? n) && (n <=? 57) then Some (n - 48) else None.

Fixpoint take_digits (acc cnt : Z) (l : list ascii) : Z * Z * list ascii :=
  match l with
  | c :: r => match digit_val c with
              | Some v => take_digits (10 * acc + v) (cnt + 1) r
              | None => (acc, cnt, l)
              end
  | [] => (acc, cnt, [])
  end.

Definition take_sign (l : list ascii) : bool * list ascii :=
  match l with
  | c :: r => if Ascii.eqb c "-" then (true, r) else if Ascii.eqb c "+" then (false, r) else (false, l)
  | [] => (false, [])
  end.

(** (negative, digits as integer, decimal exponent) *)
Definition parse_decimal (l : list ascii) : option (bool * Z * Z) :=
  let '(neg, l1) := take_sign l in
  let '(ip, ni, l2) := take_digits 0 0 l1 in
  let '(m, nf, l3) := match l2 with
                      | c :: r => if Ascii.eqb c "." then
                                    let '(m, nn, r') := take_digits ip 0 r in (m, nn, r')
                                  else (ip, 0, l2)
                      | [] => (ip, 0, [])
                      end in
  if ni + nf =? 0 then None else
  match l3 with
  | [] => Some (neg, m, - nf)
  | c :: r => if Ascii.eqb c "e" || Ascii.eqb c "E" then
                let '(eneg, l4) := take_sign r in
                let '(ev, ne, l5) := take_digits 0 0 l4 in
                match l5 with
                | [] => if ne =? 0 then None else Some (neg, m, (if eneg then - ev else ev) - nf)
                | _ => None
                end
              else None
  end.

(** int(float(s) * 2^k): truncation toward zero; OverflowError for infinity. *)
Definition int_of_scaled (neg : bool) (m e k : Z) : res Z :=
  let x := e + k in
  if (0 <=? x) && (2 ^ 1024 <=? m * 2 ^ x) then Raise OverflowError
  else
    let t := if 0 <=? x then m * 2 ^ x else m / 2 ^ (- x) in
    Ok (if neg then - t else t).

(** White space around a number (CPython PyFloat_FromString, PyLong_FromString:
    Py_ISSPACE; text is ASCII here). *)
Definition is_ws (c : ascii) : bool :=
  let n := Z.of_nat (nat_of_ascii c) in ((9 <=? n) && (n <=? 13)) || (n =? 32).
Fixpoint lstrip_text (l : list ascii) : list ascii :=
  match l with c :: r => if is_ws c then lstrip_text r else l | [] => [] end.
Definition strip_text (l : list ascii) : list ascii := rev (lstrip_text (rev (lstrip_text l))).
(** Underscores are dropped, but allowed between digits only
    (_Py_string_to_number_with_underscores); [prev] is the character before. *)
Fixpoint no_underscores (prev : ascii) (l : list ascii) : option (list ascii) :=
  let is_digit c := match digit_val c with Some _ => true | None => false end in
  match l with
  | [] => if Ascii.eqb prev "_" then None else Some []
  | c :: r =>
      if Ascii.eqb c "_" then if is_digit prev then no_underscores c r else None
      else if Ascii.eqb prev "_" && negb (is_digit c) then None
      else option_map (cons c) (no_underscores c r)
  end.
(** What int() and float() look at. *)
Definition number_text (l : list ascii) : option (list ascii) := no_underscores zero (strip_text l).

(** inf, infinity, nan in any case, after a sign (_Py_parse_inf_or_nan). *)
Definition lower (c : ascii) : ascii :=
  let n := Z.of_nat (nat_of_ascii c) in
  if (65 <=? n) && (n <=? 90) then ascii_of_nat (Z.to_nat (n + 32)) else c.
Inductive special := Infinite | NotANumber.
Definition inf_or_nan (l : list ascii) : option special :=
  let w := string_of_list_ascii (map lower (snd (take_sign l))) in
  if String.eqb w "inf" || String.eqb w "infinity" then Some Infinite
  else if String.eqb w "nan" then Some NotANumber else None.

(** int(float(l) * 2^k): int() of an infinity is an OverflowError, of a NaN a
    ValueError. *)
Definition decimal_times (l : list ascii) (k : Z) : res Z :=
  match parse_decimal l with
  | None => Raise ValueError
  | Some (neg, m, ex) =>
      let '(mm, ee) := if 0 <=? ex then b64_of (m * 10 ^ ex) 1 else b64_of m (10 ^ (- ex)) in
      int_of_scaled neg mm ee k
  end.
Definition float_times (l : list ascii) (k : Z) : res Z :=
  match number_text l with
  | None => Raise ValueError
  | Some t => match inf_or_nan t with
              | Some Infinite => Raise OverflowError
              | Some NotANumber => Raise ValueError
              | None => decimal_times t k
              end
  end.

(** reverse_pretty (pretty.py:27-36). *)
Definition reverse_pretty (s : string) : res Z :=
  match rev (list_ascii_of_string s) with
  | [] => Raise IndexError
  | c :: r => match suffix_bits c with
              | None => Raise ValueError
              | Some k => float_times (rev r) k
              end
  end.

(** Decimal text of a non-negative integer (str(int)). *)
Fixpoint dec_digits (fuel : nat) (z : Z) (acc : list ascii) : list ascii :=
  match fuel with
  | O => acc
  | S f => let acc' := ascii_of_nat (Z.to_nat (48 + z mod 10)) :: acc in
           if z <? 10 then acc' else dec_digits f (z / 10) acc'
  end.
Definition dec_of (z : Z) : list ascii := dec_digits (S (Z.to_nat (Z.log2 z))) z [].

(** str(round(x, 2)) for a binary64 x = m*2^e below 10^13: x is rounded to
    hundredths (ties to even on the exact binary value, as CPython's correctly
    rounded dtoa does), and the shortest repr of the double nearest to h/100 is
    h/100 itself with trailing zeros removed but one. *)
Definition hundredths (m e : Z) : Z := rhe (shl_num (100 * m) e) (shl_den 1 e).
Definition str_hundredths (h : Z) : list ascii :=
  let f := h mod 100 in
  dec_of (h / 100) ++ ["."%char] ++
  (if f mod 10 =? 0 then dec_of (f / 10) else dec_of (f / 10) ++ dec_of (f mod 10)).

(** pretty_size (pretty.py:11-19) for 0 <= size; a negative size makes the loop
    fall through and return None (modelled by TypeError being impossible: the
    callers only pass sizes).  Returns the text. *)
Definition pretty_unit (n : Z) : Z * ascii :=
  if 2 ^ 40 <=? n then (40, "T"%char) else if 2 ^ 30 <=? n then (30, "G"%char)
  else if 2 ^ 20 <=? n then (20, "M"%char) else if 2 ^ 10 <=? n then (10, "K"%char)
  else (0, "B"%char).
Definition pretty_size (n : Z) : string :=
  if n =? 0 then "0B"%string
  else let '(k, c) := pretty_unit n in
       let '(m, e) := b64_of n (2 ^ k) in
       string_of_list_ascii (str_hundredths (hundredths m e) ++ [c]).

Example pretty_kat1 : pretty_size 1572864 = "1.5M"%string.
Proof. vm_compute. reflexivity. Qed.
Example pretty_kat2 : pretty_size 1000000 = "976.56K"%string.
Proof. vm_compute. reflexivity. Qed.
Example pretty_kat3 : pretty_size 1024 = "1.0K"%string.
Proof. vm_compute. reflexivity. Qed.
Example reverse_kat1 : reverse_pretty "1.5M" = Ok 1572864.
Proof. vm_compute. reflexivity. Qed.
Example reverse_kat2 : reverse_pretty "1M" = Ok 1048576.
Proof. vm_compute. reflexivity. Qed.
Example reverse_kat3 : reverse_pretty "976.56K" = Ok 999997.
Proof. vm_compute. reflexivity. Qed.
Example reverse_kat4 : reverse_pretty "1e400T" = Raise OverflowError.
Proof. vm_compute. reflexivity. Qed.
