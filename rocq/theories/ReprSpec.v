(** Specification: reading the literals that Python prints back as values. *)
From Verif Require Import Base Objects.

(** A digit of the given base (0-9a-f). *)
Definition digit_of (base : Z) (c : ascii) : option Z :=
  let n := Z.of_nat (nat_of_ascii c) in
  let v := if (48 <=? n) && (n <=? 57) then n - 48 else if (97 <=? n) && (n <=? 102) then n - 87 else base in
  if v <? base then Some v else None.
Fixpoint read_digits (acc : Z) (l : text) : option Z :=
  match l with
  | [] => Some acc
  | c :: r => match digit_of 10 c with Some v => read_digits (10 * acc + v) r | None => None end
  end.
(** A decimal integer, with a minus sign or none. *)
Definition read_int (l : text) : option Z :=
  match l with
  | [] => None
  | c :: r => if Ascii.eqb c "-" then match r with [] => None | _ => option_map Z.opp (read_digits 0 r) end
              else read_digits 0 l
  end.
(** The rest of a literal after the opening quote [q]: the closing quote ends it. *)
Fixpoint read_rest (q : ascii) (l : text) : option text :=
  match l with
  | [] => None
  | c :: r =>
      if Ascii.eqb c q then match r with [] => Some [] | _ => None end
      else if Ascii.eqb c "\" then
        match r with
        | "t"%char :: r' => option_map (cons (ascii_of_nat 9)) (read_rest q r')
        | "n"%char :: r' => option_map (cons (ascii_of_nat 10)) (read_rest q r')
        | "r"%char :: r' => option_map (cons (ascii_of_nat 13)) (read_rest q r')
        | "x"%char :: a :: b :: r' =>
            match digit_of 16 a, digit_of 16 b with
            | Some x, Some y => option_map (cons (ascii_of_nat (Z.to_nat (16 * x + y)))) (read_rest q r')
            | _, _ => None
            end
        | e :: r' => if Ascii.eqb e "\" || Ascii.eqb e squote || Ascii.eqb e dquote then option_map (cons e) (read_rest q r') else None
        | [] => None
        end
      else option_map (cons c) (read_rest q r)
  end.
Definition read_quoted (l : text) : option text :=
  match l with
  | c :: r => if Ascii.eqb c squote || Ascii.eqb c dquote then read_rest c r else None
  | [] => None
  end.
Definition byte_of (c : ascii) : byte := match Byte.of_N (N_of_ascii c) with Some b => b | None => x00 end.
(** A value: None, True, False, a number, text, bytes. *)
Definition read_value (l : text) : option oval :=
  if list_eq_dec ascii_dec l (t_ "None") then Some ONone
  else if list_eq_dec ascii_dec l (t_ "True") then Some (OBool true)
  else if list_eq_dec ascii_dec l (t_ "False") then Some (OBool false)
  else match l with
       | [] => None
       | c :: r => if Ascii.eqb c "b" then option_map (fun s => OBytes (map byte_of s)) (read_quoted r)
                   else if Ascii.eqb c squote || Ascii.eqb c dquote then option_map OStr (read_quoted l)
                   else option_map OInt (read_int l)
       end.
(** [shown v t]: the text is a literal of the value, or ends with the number of
    bytes, in brackets. *)
Definition shown (v : oval) (t : text) : Prop :=
  read_value t = Some v \/ exists z p d, v = OInt z /\ t = p ++ t_ " (" ++ d ++ t_ "B)" /\ read_int d = Some z.
(** [shown_line n kv x]: a line of [n] spaces, the name, a colon and the value. *)
Definition shown_line (n : nat) (kv : string * oval) (x : text) : Prop :=
  exists t, x = repeat " "%char n ++ t_ (fst kv) ++ t_ ": " ++ t /\ shown (snd kv) t.
(** A printable character of ASCII. *)
Definition printable (c : ascii) : Prop := (32 <= nat_of_ascii c <= 126)%nat.
