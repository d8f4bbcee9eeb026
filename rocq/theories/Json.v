(** A concrete JSON writer and reader on [pyval].  The json module is not part
    of /repo; it is an oracle of the model (FileIO.v, [Env]).  This file shows
    that the contract assumed of it is met by an actual implementation: compact
    json.dumps (separators ',' and ':', ASCII only) and the matching reader
    (without white space and raw UTF-8, which json.dumps never emits). *)
From Verif Require Import Base PyVal.
From Coq Require Import DecimalZ DecimalPos DecimalFacts.
From Coq Require Import ZifyBool ZifyNat.
Ltac Zify.zify_post_hook ::= Z.div_mod_to_equations.

(** ** Numbers *)
Fixpoint uint_bytes (u : Decimal.uint) : bytes :=
  match u with
  | Decimal.Nil => []
  | Decimal.D0 u => x30 :: uint_bytes u | Decimal.D1 u => x31 :: uint_bytes u
  | Decimal.D2 u => x32 :: uint_bytes u | Decimal.D3 u => x33 :: uint_bytes u
  | Decimal.D4 u => x34 :: uint_bytes u | Decimal.D5 u => x35 :: uint_bytes u
  | Decimal.D6 u => x36 :: uint_bytes u | Decimal.D7 u => x37 :: uint_bytes u
  | Decimal.D8 u => x38 :: uint_bytes u | Decimal.D9 u => x39 :: uint_bytes u
  end.
Definition int_bytes (z : Z) : bytes :=
  match Z.to_int z with
  | Decimal.Pos u => uint_bytes u
  | Decimal.Neg u => x2d :: uint_bytes u
  end.
Definition add_digit (d : Z) (u : Decimal.uint) : option Decimal.uint :=
  if d =? 48 then Some (Decimal.D0 u) else if d =? 49 then Some (Decimal.D1 u)
  else if d =? 50 then Some (Decimal.D2 u) else if d =? 51 then Some (Decimal.D3 u)
  else if d =? 52 then Some (Decimal.D4 u) else if d =? 53 then Some (Decimal.D5 u)
  else if d =? 54 then Some (Decimal.D6 u) else if d =? 55 then Some (Decimal.D7 u)
  else if d =? 56 then Some (Decimal.D8 u) else if d =? 57 then Some (Decimal.D9 u)
  else None.
Fixpoint parse_uint (b : bytes) : option Decimal.uint :=
  match b with
  | [] => Some Decimal.Nil
  | c :: r => match parse_uint r with Some u => add_digit (Zb c) u | None => None end
  end.
Definition parse_int (b : bytes) : option Z :=
  match b with
  | [] => None
  | c :: r => if Zb c =? 45 then
                match parse_uint r with Some u => Some (Z.of_int (Decimal.Neg u)) | None => None end
              else match parse_uint b with Some u => Some (Z.of_int (Decimal.Pos u)) | None => None end
  end.

(** Characters of number tokens: digits + - . e E; those that make a float. *)
Definition floatchar (c : Z) : bool := (c =? 46) || (c =? 101) || (c =? 69).
Definition numchar (c : Z) : bool :=
  ((48 <=? c) && (c <=? 57)) || (c =? 43) || (c =? 45) || floatchar c.
Fixpoint span (s : bytes) : bytes * bytes :=
  match s with
  | c :: r => if numchar (Zb c) then let '(a, b) := span r in (c :: a, b) else ([], s)
  | [] => ([], [])
  end.
Definition parse_number (s : bytes) : option (pyval * bytes) :=
  let '(tok, r) := span s in
  match tok with
  | [] => None
  | _ => if existsb (fun c => floatchar (Zb c)) tok then Some (PFloat (map Zb tok), r)
         else match parse_int tok with Some z => Some (PInt z, r) | None => None end
  end.
Definition float_ok (repr : pystr) : bool :=
  forallb numchar repr && existsb floatchar repr.

(** ** Strings *)
Definition hexd (d : Z) : byte := bZ (if d <? 10 then 48 + d else 87 + d).
Definition unhexd (b : byte) : option Z :=
  let c := Zb b in
  if (48 <=? c) && (c <=? 57) then Some (c - 48)
  else if (97 <=? c) && (c <=? 102) then Some (c - 87)
  else None.
Definition hex4 (z : Z) : bytes :=
  [hexd (z / 4096 mod 16); hexd (z / 256 mod 16); hexd (z / 16 mod 16); hexd (z mod 16)].
Definition unhex4 (a b c d : byte) : option Z :=
  match unhexd a, unhexd b, unhexd c, unhexd d with
  | Some a, Some b, Some c, Some d => Some (((a * 16 + b) * 16 + c) * 16 + d)
  | _, _, _, _ => None
  end.

Definition esc (c : Z) : bytes :=
  if c =? 34 then [x5c; x22] else if c =? 92 then [x5c; x5c]
  else if c =? 8 then [x5c; x62] else if c =? 12 then [x5c; x66] else if c =? 10 then [x5c; x6e]
  else if c =? 13 then [x5c; x72] else if c =? 9 then [x5c; x74]
  else if (32 <=? c) && (c <=? 126) then [bZ c]
  else if c <? 65536 then x5c :: x75 :: hex4 c
  else (x5c :: x75 :: hex4 (55296 + (c - 65536) / 1024)) ++
       (x5c :: x75 :: hex4 (56320 + (c - 65536) mod 1024)).
Definition char_ok (c : Z) : bool :=
  (0 <=? c) && (c <? 1114112) && negb ((55296 <=? c) && (c <? 57344)).
Definition str_bytes (s : pystr) : bytes := x22 :: concat (map esc s) ++ [x22].

(** The string after its opening quote. *)
Fixpoint parse_str (s : bytes) : option (pystr * bytes) :=
  let cont (c : Z) (t : option (pystr * bytes)) :=
    match t with Some (x, r) => Some (c :: x, r) | None => None end in
  match s with
  | [] => None
  | c :: r =>
      if Zb c =? 34 then Some ([], r)
      else if Zb c =? 92 then
        match r with
        | [] => None
        | e :: r1 =>
            let k := Zb e in
            if k =? 34 then cont 34 (parse_str r1) else if k =? 92 then cont 92 (parse_str r1)
            else if k =? 47 then cont 47 (parse_str r1)
            else if k =? 98 then cont 8 (parse_str r1) else if k =? 102 then cont 12 (parse_str r1)
            else if k =? 110 then cont 10 (parse_str r1) else if k =? 114 then cont 13 (parse_str r1)
            else if k =? 116 then cont 9 (parse_str r1)
            else if k =? 117 then
              match r1 with
              | a :: b :: c :: d :: r2 =>
                  match unhex4 a b c d with
                  | None => None
                  | Some z =>
                      if (55296 <=? z) && (z <? 56320) then
                        match r2 with
                        | bs :: u' :: e1 :: e2 :: e3 :: e4 :: r3 =>
                            if (Zb bs =? 92) && (Zb u' =? 117) then
                              match unhex4 e1 e2 e3 e4 with
                              | Some w => if (56320 <=? w) && (w <? 57344)
                                          then cont (65536 + (z - 55296) * 1024 + (w - 56320)) (parse_str r3)
                                          else None
                              | None => None
                              end
                            else None
                        | _ => None
                        end
                      else cont z (parse_str r2)
                  end
              | _ => None
              end
            else None
        end
      else if (32 <=? Zb c) && (Zb c <=? 126) then cont (Zb c) (parse_str r)
      else None
  end.

(** ** Values *)
Definition commas (l : list bytes) : bytes :=
  match l with [] => [] | x :: r => x ++ concat (map (cons x2c) r) end.

Fixpoint dumps (v : pyval) : res bytes :=
  match v with
  | PNone => Ok (b_of_string "null")
  | PBool true => Ok (b_of_string "true")
  | PBool false => Ok (b_of_string "false")
  | PInt z => Ok (int_bytes z)
  | PFloat r => if float_ok r then Ok (map bZ r) else Raise ValueError
  | PStr s => if forallb char_ok s then Ok (str_bytes s) else Raise ValueError
  | PList l | PTuple l =>
      items <~ (fix go (l : list pyval) : res (list bytes) :=
                  match l with
                  | [] => Ok []
                  | x :: r => b <~ dumps x ;; bs <~ go r ;; Ok (b :: bs)
                  end) l ;;
      Ok (x5b :: commas items ++ [x5d])
  | PDict l =>
      items <~ (fix go (l : list (pystr * pyval)) : res (list bytes) :=
                  match l with
                  | [] => Ok []
                  | (k, x) :: r =>
                      if forallb char_ok k then
                        b <~ dumps x ;; bs <~ go r ;; Ok ((str_bytes k ++ x3a :: b) :: bs)
                      else Raise ValueError
                  end) l ;;
      Ok (x7b :: commas items ++ [x7d])
  end.

Fixpoint starts (p s : bytes) : option bytes :=
  match p, s with
  | [], _ => Some s
  | x :: p', y :: s' => if Byte.eqb x y then starts p' s' else None
  | _, [] => None
  end.

Fixpoint pvalue (n : nat) (s : bytes) : option (pyval * bytes) :=
  match n with
  | O => None
  | S n =>
    match s with
    | [] => None
    | c :: r =>
        if Zb c =? 110 then match starts (b_of_string "null") s with Some r => Some (PNone, r) | None => None end
        else if Zb c =? 116 then match starts (b_of_string "true") s with Some r => Some (PBool true, r) | None => None end
        else if Zb c =? 102 then match starts (b_of_string "false") s with Some r => Some (PBool false, r) | None => None end
        else if Zb c =? 34 then match parse_str r with Some (x, r) => Some (PStr x, r) | None => None end
        else if Zb c =? 91 then
          match starts [x5d] r with
          | Some r' => Some (PList [], r')
          | None => match pelems n r with Some (l, r) => Some (PList l, r) | None => None end
          end
        else if Zb c =? 123 then
          match starts [x7d] r with
          | Some r' => Some (PDict [], r')
          | None => match pmembers n r with Some (l, r) => Some (PDict l, r) | None => None end
          end
        else parse_number s
    end
  end
with pelems (n : nat) (s : bytes) : option (list pyval * bytes) :=
  match n with
  | O => None
  | S n =>
    match pvalue n s with
    | None => None
    | Some (v, r) =>
        match r with
        | [] => None
        | c :: r => if Zb c =? 93 then Some ([v], r)
                    else if Zb c =? 44 then
                      match pelems n r with Some (l, r) => Some (v :: l, r) | None => None end
                    else None
        end
    end
  end
with pmembers (n : nat) (s : bytes) : option (list (pystr * pyval) * bytes) :=
  match n with
  | O => None
  | S n =>
    match s with
    | [] => None
    | q :: s1 =>
      if Zb q =? 34 then
        match parse_str s1 with
        | None => None
        | Some (k, s2) =>
          match starts [x3a] s2 with
          | None => None
          | Some s3 =>
            match pvalue n s3 with
            | None => None
            | Some (v, r) =>
              match r with
              | [] => None
              | c :: r => if Zb c =? 125 then Some ([(k, v)], r)
                          else if Zb c =? 44 then
                            match pmembers n r with Some (l, r) => Some ((k, v) :: l, r) | None => None end
                          else None
              end
            end
          end
        end
      else None
    end
  end.

Definition loads (s : bytes) : res pyval :=
  match pvalue (S (List.length s)) s with
  | Some (v, []) => Ok v
  | _ => Raise JSONError
  end.

(* ------------------------------------------------------------------ *)
(** * Round trip *)

Lemma uint_bytes_ok u : forall c, In c (uint_bytes u) -> 48 <= Zb c <= 57.
Proof. induction u; cbn [uint_bytes In]; intros c H; try tauto; destruct H as [<-|H]; auto; vm_compute; split; discriminate. Qed.
Lemma parse_uint_bytes u : parse_uint (uint_bytes u) = Some u.
Proof. induction u; cbn [uint_bytes parse_uint]; [reflexivity|..]; rewrite IHu; reflexivity. Qed.

Lemma int_bytes_head z : exists c r, int_bytes z = c :: r /\ (Zb c = 45 \/ 48 <= Zb c <= 57).
Proof.
  unfold int_bytes, Z.to_int. destruct z as [|p|p].
  - exists x30, []. split; [reflexivity|right; vm_compute; split; discriminate].
  - pose proof (DecimalPos.Unsigned.to_uint_nonnil p) as H.
    destruct (uint_bytes (Pos.to_uint p)) as [|c r] eqn:E.
    + destruct (Pos.to_uint p); try discriminate. contradiction.
    + exists c, r. split; auto. right. apply (uint_bytes_ok (Pos.to_uint p)). rewrite E. left; auto.
  - exists x2d, (uint_bytes (Pos.to_uint p)). split; auto.
Qed.
Lemma int_bytes_chars z c : In c (int_bytes z) -> Zb c = 45 \/ 48 <= Zb c <= 57.
Proof.
  unfold int_bytes. destruct (Z.to_int z) as [u|u].
  - intros H. right. eapply uint_bytes_ok; eauto.
  - intros [<-|H]; [left; reflexivity|]. right. eapply uint_bytes_ok; eauto.
Qed.
Lemma parse_int_bytes z : parse_int (int_bytes z) = Some z.
Proof.
  destruct (int_bytes_head z) as (c & r & E & Hc). rewrite E. unfold parse_int.
  pose proof (DecimalZ.of_to z) as OT. unfold int_bytes in E.
  destruct (Z.to_int z) as [u|u] eqn:U.
  - assert (Zb c =? 45 = false) as ->.
    { assert (48 <= Zb c <= 57) by (apply (uint_bytes_ok u); rewrite E; left; auto). lia. }
    rewrite <- E, parse_uint_bytes, OT. reflexivity.
  - injection E as <- <-. change (Zb x2d =? 45) with true. cbn iota. rewrite parse_uint_bytes, OT. reflexivity.
Qed.

(** What may follow a value: not a character of a number. *)
Definition stop (r : bytes) : Prop := match r with [] => True | c :: _ => numchar (Zb c) = false end.
Lemma span_tok tok r : forallb (fun c => numchar (Zb c)) tok = true -> stop r -> span (tok ++ r) = (tok, r).
Proof.
  intros H Hr. induction tok as [|c tok IH]; cbn [app span].
  - destruct r; [reflexivity|]. cbn [span]. cbn in Hr. rewrite Hr. reflexivity.
  - cbn in H. apply andb_true_iff in H as [H1 H2]. rewrite H1, IH by auto. reflexivity.
Qed.
Lemma parse_number_int z r : stop r -> parse_number (int_bytes z ++ r) = Some (PInt z, r).
Proof.
  intros Hr. unfold parse_number. rewrite span_tok; auto.
  - pose proof (int_bytes_chars z) as HC.
    assert (existsb (fun c => floatchar (Zb c)) (int_bytes z) = false) as ->.
    { destruct (existsb _ _) eqn:X; [|reflexivity]. apply existsb_exists in X as (c & Hin & Hc).
      specialize (HC c Hin). unfold floatchar in Hc. lia. }
    rewrite parse_int_bytes. destruct (int_bytes_head z) as (c & r' & -> & _). reflexivity.
  - apply forallb_forall. intros c Hin. pose proof (int_bytes_chars z c Hin). unfold numchar. lia.
Qed.
Lemma numchar_byte c : numchar c = true -> Zb (bZ c) = c.
Proof. intros H. rewrite Zb_bZ. apply Z.mod_small. unfold numchar, floatchar in H. lia. Qed.
Lemma parse_number_float f r : float_ok f = true -> stop r -> parse_number (map bZ f ++ r) = Some (PFloat f, r).
Proof.
  unfold float_ok. intros H Hr. apply andb_true_iff in H as [H1 H2].
  assert (M : map Zb (map bZ f) = f).
  { rewrite map_map. clear -H1. induction f as [|c f IH]; [reflexivity|]. cbn in *. apply andb_true_iff in H1 as [A B].
    rewrite numchar_byte, IH; auto. }
  unfold parse_number. rewrite span_tok; auto.
  - assert (existsb (fun c => floatchar (Zb c)) (map bZ f) = true) as ->.
    { apply existsb_exists in H2 as (c & Hin & Hc). apply existsb_exists. exists (bZ c). split; [apply in_map; auto|].
      rewrite forallb_forall in H1. rewrite numchar_byte; auto. }
    rewrite M. destruct f; [discriminate|]. reflexivity.
  - rewrite forallb_forall in *. intros c Hin. apply in_map_iff in Hin as (x & <- & Hx). rewrite numchar_byte; auto.
Qed.

Lemma unhexd_hexd d : 0 <= d < 16 -> unhexd (hexd d) = Some d.
Proof.
  intros H. assert (d = 0 \/ d = 1 \/ d = 2 \/ d = 3 \/ d = 4 \/ d = 5 \/ d = 6 \/ d = 7 \/ d = 8 \/ d = 9 \/ d = 10
     \/ d = 11 \/ d = 12 \/ d = 13 \/ d = 14 \/ d = 15) as HH by lia.
  repeat (destruct HH as [->|HH]; [vm_compute; reflexivity|]). subst; vm_compute; reflexivity.
Qed.
Lemma unhex4_hex4 z : 0 <= z < 65536 ->
  unhex4 (hexd (z / 4096 mod 16)) (hexd (z / 256 mod 16)) (hexd (z / 16 mod 16)) (hexd (z mod 16)) = Some z.
Proof.
  intros H. unfold unhex4.
  rewrite !unhexd_hexd by (apply Z.mod_pos_bound; lia). f_equal.
  rewrite !Z.mod_eq by lia.
  replace (z / 4096) with (z / 256 / 16) by (rewrite Z.div_div by lia; reflexivity).
  replace (z / 256) with (z / 16 / 16) by (rewrite Z.div_div by lia; reflexivity).
  lia.
Qed.

Lemma Zb_bZ_small c : 0 <= c < 256 -> Zb (bZ c) = c.
Proof. intros. rewrite Zb_bZ. apply Z.mod_small; auto. Qed.

Definition cont (c : Z) (t : option (pystr * bytes)) :=
  match t with Some (x, r) => Some (c :: x, r) | None => None end.
Lemma parse_str_eq_u a b c d r2 : parse_str (x5c :: x75 :: a :: b :: c :: d :: r2) =
  match unhex4 a b c d with
  | None => None
  | Some z =>
      if (55296 <=? z) && (z <? 56320) then
        match r2 with
        | bs :: u' :: e1 :: e2 :: e3 :: e4 :: r3 =>
            if (Zb bs =? 92) && (Zb u' =? 117) then
              match unhex4 e1 e2 e3 e4 with
              | Some w => if (56320 <=? w) && (w <? 57344)
                          then cont (65536 + (z - 55296) * 1024 + (w - 56320)) (parse_str r3)
                          else None
              | None => None
              end
            else None
        | _ => None
        end
      else cont z (parse_str r2)
  end.
Proof. reflexivity. Qed.
Lemma parse_str_u z r x q : 0 <= z < 65536 -> ~ (55296 <= z < 56320) -> parse_str r = Some (x, q) ->
  parse_str (x5c :: x75 :: hex4 z ++ r) = Some (z :: x, q).
Proof.
  intros H1 H2 H3. unfold hex4. cbn [app]. rewrite parse_str_eq_u.
  rewrite unhex4_hex4 by auto. replace ((55296 <=? z) && (z <? 56320)) with false by lia. rewrite H3. reflexivity.
Qed.
Lemma parse_str_uu z w r x q : 55296 <= z < 56320 -> 56320 <= w < 57344 -> parse_str r = Some (x, q) ->
  parse_str (x5c :: x75 :: hex4 z ++ x5c :: x75 :: hex4 w ++ r) = Some (65536 + (z - 55296) * 1024 + (w - 56320) :: x, q).
Proof.
  intros H1 H2 H3. unfold hex4. cbn [app]. rewrite parse_str_eq_u.
  rewrite !unhex4_hex4 by lia. replace ((55296 <=? z) && (z <? 56320)) with true by lia.
  replace ((56320 <=? w) && (w <? 57344)) with true by lia. rewrite H3. reflexivity.
Qed.

Lemma parse_str_esc c r x q : char_ok c = true -> parse_str r = Some (x, q) ->
  parse_str (esc c ++ r) = Some (c :: x, q).
Proof.
  intros Hc Hr. unfold char_ok in Hc. unfold esc.
  destruct (c =? 34) eqn:E1; [replace c with 34 by lia; cbn [app parse_str]; rewrite Hr; reflexivity|].
  destruct (c =? 92) eqn:E2; [replace c with 92 by lia; cbn [app parse_str]; rewrite Hr; reflexivity|].
  destruct (c =? 8) eqn:E3; [replace c with 8 by lia; cbn [app parse_str]; rewrite Hr; reflexivity|].
  destruct (c =? 12) eqn:E4; [replace c with 12 by lia; cbn [app parse_str]; rewrite Hr; reflexivity|].
  destruct (c =? 10) eqn:E5; [replace c with 10 by lia; cbn [app parse_str]; rewrite Hr; reflexivity|].
  destruct (c =? 13) eqn:E6; [replace c with 13 by lia; cbn [app parse_str]; rewrite Hr; reflexivity|].
  destruct (c =? 9) eqn:E7; [replace c with 9 by lia; cbn [app parse_str]; rewrite Hr; reflexivity|].
  destruct ((32 <=? c) && (c <=? 126)) eqn:E8.
  { cbn [app parse_str]. rewrite !Zb_bZ_small by lia. rewrite E1, E2, E8, Hr. reflexivity. }
  destruct (c <? 65536) eqn:E9.
  - cbn [app]. apply parse_str_u; auto; lia.
  - rewrite <- List.app_assoc. cbn [app].
    rewrite (parse_str_uu (55296 + (c - 65536) / 1024) (56320 + (c - 65536) mod 1024) r x q); auto; try lia.
    do 3 f_equal. lia.
Qed.
Lemma parse_str_bytes s r : forallb char_ok s = true -> parse_str (concat (map esc s) ++ x22 :: r) = Some (s, r).
Proof.
  induction s as [|c s IH]; intros H; [reflexivity|]. cbn [map concat forallb] in *. apply andb_true_iff in H as [H1 H2].
  rewrite <- List.app_assoc. apply parse_str_esc; auto.
Qed.

(** Induction over nested values. *)
Lemma pyval_ind' (P : pyval -> Prop) :
  P PNone -> (forall b, P (PBool b)) -> (forall z, P (PInt z)) -> (forall r, P (PFloat r)) -> (forall s, P (PStr s)) ->
  (forall l, Forall P l -> P (PList l)) -> (forall l, Forall P l -> P (PTuple l)) ->
  (forall l, Forall (fun kv => P (snd kv)) l -> P (PDict l)) -> forall v, P v.
Proof.
  intros H1 H2 H3 H4 H5 H6 H7 H8. fix IH 1. intros [ |b|z|f|s|l|l|l];
    [exact H1|exact (H2 b)|exact (H3 z)|exact (H4 f)|exact (H5 s)|..].
  - apply H6. induction l; constructor; [apply IH|assumption].
  - apply H7. induction l; constructor; [apply IH|assumption].
  - apply H8. induction l as [|[k x] l]; constructor; [cbn; apply IH|assumption].
Qed.

Definition parses (v : pyval) : Prop := forall b r n, dumps v = Ok b -> stop r -> (List.length b < n)%nat ->
  pvalue n (b ++ r) = Some (norm v, r).

Fixpoint dump_list (l : list pyval) : res (list bytes) :=
  match l with [] => Ok [] | x :: r => b <~ dumps x ;; bs <~ dump_list r ;; Ok (b :: bs) end.
Fixpoint dump_members (l : list (pystr * pyval)) : res (list bytes) :=
  match l with
  | [] => Ok []
  | (k, x) :: r => if forallb char_ok k then
                     b <~ dumps x ;; bs <~ dump_members r ;; Ok ((str_bytes k ++ x3a :: b) :: bs)
                   else Raise ValueError
  end.
Lemma dumps_list l : dumps (PList l) = (items <~ dump_list l ;; Ok (x5b :: commas items ++ [x5d])).
Proof. reflexivity. Qed.
Lemma dumps_tuple l : dumps (PTuple l) = (items <~ dump_list l ;; Ok (x5b :: commas items ++ [x5d])).
Proof. reflexivity. Qed.
Lemma dumps_dict l : dumps (PDict l) = (items <~ dump_members l ;; Ok (x7b :: commas items ++ [x7d])).
Proof. reflexivity. Qed.

(** The text of a value starts with a character that is neither ']' nor '}',
    and determines the branch of the reader. *)
Lemma dumps_head v b : dumps v = Ok b -> exists c r, b = c :: r /\ Zb c <> 93 /\ Zb c <> 125.
Proof.
  destruct v; cbn -[b_of_string Zb]; intros H.
  - injection H as <-. eexists _, _. split; [reflexivity|]. vm_compute. split; discriminate.
  - destruct b0; injection H as <-; (eexists _, _; split; [reflexivity|]; vm_compute; split; discriminate).
  - injection H as <-. destruct (int_bytes_head z) as (c & r & -> & Hc). exists c, r. repeat split; lia.
  - destruct (float_ok repr) eqn:F; [|discriminate]. injection H as <-. destruct repr as [|c f]; [discriminate|].
    exists (bZ c), (map bZ f). split; [reflexivity|]. unfold float_ok in F. cbn in F. apply andb_true_iff in F as [F _].
    apply andb_true_iff in F as [F _]. rewrite numchar_byte by auto. unfold numchar, floatchar in F. split; lia.
  - destruct (forallb char_ok s); [|discriminate]. injection H as <-. eexists _, _. split; [reflexivity|]. vm_compute. split; discriminate.
  - apply rbind_Ok in H as (i & _ & H). injection H as <-. eexists _, _. split; [reflexivity|]. vm_compute. split; discriminate.
  - apply rbind_Ok in H as (i & _ & H). injection H as <-. eexists _, _. split; [reflexivity|]. vm_compute. split; discriminate.
  - apply rbind_Ok in H as (i & _ & H). injection H as <-. eexists _, _. split; [reflexivity|]. vm_compute. split; discriminate.
Qed.

Lemma commas_cons x r : commas (x :: r) = x ++ concat (map (cons x2c) r).
Proof. reflexivity. Qed.
Lemma commas_1 x : commas [x] = x.
Proof. apply List.app_nil_r. Qed.
Lemma commas_cons2 x y r : commas (x :: y :: r) = x ++ x2c :: commas (y :: r).
Proof. reflexivity. Qed.

Lemma pelems_ok l : Forall parses l -> forall bs r n, dump_list l = Ok bs -> l <> [] ->
  (List.length (commas bs) + 1 < n)%nat -> pelems n (commas bs ++ x5d :: r) = Some (map norm l, r).
Proof.
  induction 1 as [|v l Hv Hl IH]; intros bs r n Hd Hne Hn; [congruence|].
  cbn [dump_list] in Hd. apply rbind_Ok in Hd as (b & Hb & Hd). apply rbind_Ok in Hd as (bs' & Hbs & Hd). injection Hd as <-.
  destruct n as [|n]; [lia|]. cbn [pelems].
  destruct l as [|v2 l].
  - cbn in Hbs. injection Hbs as <-. rewrite commas_1 in *.
    rewrite (Hv b (x5d :: r) n Hb); [reflexivity|reflexivity|lia].
  - cbn [dump_list] in Hbs. apply rbind_Ok in Hbs as (b2 & Hb2 & Hbs). apply rbind_Ok in Hbs as (bs2 & Hbs2 & Hbs). injection Hbs as <-.
    rewrite commas_cons2 in *. rewrite <- List.app_assoc. cbn [app]. rewrite List.app_length in Hn. cbn [List.length] in Hn.
    rewrite (Hv b _ n Hb); [|reflexivity|lia].
    change (Zb x2c =? 93) with false. change (Zb x2c =? 44) with true. cbn iota.
    rewrite (IH (b2 :: bs2) r n); [reflexivity| |discriminate|].
    + cbn [dump_list]. rewrite Hb2. cbn [rbind]. rewrite Hbs2. reflexivity.
    + pose proof (dumps_head _ _ Hb) as (c & q & -> & _). cbn [List.length] in Hn. lia.
Qed.

Lemma pmembers_ok l : Forall (fun kv => parses (snd kv)) l -> forall bs r n, dump_members l = Ok bs -> l <> [] ->
  (List.length (commas bs) + 1 < n)%nat ->
  pmembers n (commas bs ++ x7d :: r) = Some (map (fun kv => (fst kv, norm (snd kv))) l, r).
Proof.
  induction 1 as [|[k v] l Hv Hl IH]; intros bs r n Hd Hne Hn; [congruence|]. cbn [snd] in Hv.
  cbn [dump_members] in Hd. destruct (forallb char_ok k) eqn:Hk; [|discriminate].
  apply rbind_Ok in Hd as (b & Hb & Hd). apply rbind_Ok in Hd as (bs' & Hbs & Hd). injection Hd as <-.
  destruct n as [|n]; [lia|].
  assert (ST : forall q, pmembers (S n) ((str_bytes k ++ x3a :: b) ++ q) =
     match pvalue n (b ++ q) with
     | None => None
     | Some (v0, r0) => match r0 with
              | [] => None
              | c :: r1 => if Zb c =? 125 then Some ([(k, v0)], r1)
                          else if Zb c =? 44 then
                            match pmembers n r1 with Some (l0, r2) => Some ((k, v0) :: l0, r2) | None => None end
                          else None
              end
     end).
  { intros q. unfold str_bytes. cbn [app pmembers]. change (Zb x22 =? 34) with true. cbn iota.
    rewrite <- !app_assoc. cbn [app]. rewrite parse_str_bytes by auto.
    cbn [starts]. change (Byte.eqb x3a x3a) with true. cbn iota. reflexivity. }
  destruct l as [|[k2 v2] l].
  - cbn in Hbs. injection Hbs as <-. rewrite commas_1 in *. rewrite ST.
    unfold str_bytes in Hn. cbn [app List.length] in Hn. rewrite !List.app_length in Hn. cbn [List.length] in Hn.
    rewrite (Hv b (x7d :: r) n Hb); [reflexivity|reflexivity|lia].
  - cbn [dump_members] in Hbs. destruct (forallb char_ok k2) eqn:Hk2; [|discriminate].
    apply rbind_Ok in Hbs as (b2 & Hb2 & Hbs). apply rbind_Ok in Hbs as (bs2 & Hbs2 & Hbs). injection Hbs as <-.
    rewrite commas_cons2 in *. rewrite <- List.app_assoc, ST. cbn [app]. rewrite !List.app_length in Hn. cbn [List.length] in Hn. rewrite ?List.app_length in Hn. cbn [List.length] in Hn.
    rewrite (Hv b _ n Hb); [|reflexivity|lia].
    change (Zb x2c =? 125) with false. change (Zb x2c =? 44) with true. cbn iota.
    match goal with |- match ?t with _ => _ end = _ =>
      replace t with (Some (map (fun kv => (fst kv, norm (snd kv))) ((k2, v2) :: l), r)) end; [reflexivity|].
    symmetry. apply (IH ((str_bytes k2 ++ x3a :: b2) :: bs2) r n); [|discriminate|].
    2:{ match type of Hn with context [S (List.length ?t)] => change t with (commas ((str_bytes k2 ++ x3a :: b2) :: bs2)) in Hn end. lia. }
    cbn [dump_members]. rewrite Hk2, Hb2. cbn [rbind]. rewrite Hbs2. reflexivity.
Qed.

Lemma starts_not p b q : match b with [] => False | c :: _ => Byte.eqb p c = false end -> starts [p] (b ++ q) = None.
Proof. destruct b as [|c b]; [tauto|]. intros H. cbn [app starts]. rewrite H. reflexivity. Qed.
Lemma Zb_eqb a b : Zb a <> Zb b -> Byte.eqb a b = false.
Proof. intros H. destruct (Byte.eqb a b) eqn:E; auto. apply byte_eqb_eq in E. congruence. Qed.

Lemma pvalue_number n s c r v q : s = c :: r -> (Zb c = 45 \/ Zb c = 43 \/ 48 <= Zb c <= 57 \/ Zb c = 46 \/ Zb c = 101 \/ Zb c = 69) ->
  parse_number s = Some (v, q) -> pvalue (S n) s = Some (v, q).
Proof.
  intros -> Hc H. cbn [pvalue].
  replace (Zb c =? 110) with false by lia. replace (Zb c =? 116) with false by lia. replace (Zb c =? 102) with false by lia.
  replace (Zb c =? 34) with false by lia. replace (Zb c =? 91) with false by lia. replace (Zb c =? 123) with false by lia.
  exact H.
Qed.

Lemma parses_all v : parses v.
Proof.
  induction v as [|b|z|r0|s|l H|l H|l H] using pyval_ind'; intros t r n Hd Hs Hn.
  - injection Hd as <-. destruct n; [cbn in Hn; lia|]. reflexivity.
  - destruct n; [lia|]. destruct b; injection Hd as <-; reflexivity.
  - cbn in Hd. injection Hd as <-. destruct n; [lia|]. destruct (int_bytes_head z) as (c & q & E & Hc).
    apply (pvalue_number n _ c (q ++ r)); [rewrite E; reflexivity|lia|]. apply parse_number_int; auto.
  - cbn in Hd. destruct (float_ok r0) eqn:F; [|discriminate]. injection Hd as <-. destruct n; [lia|].
    destruct r0 as [|c f]; [discriminate|].
    apply (pvalue_number n _ (bZ c) (map bZ f ++ r)); [reflexivity| |apply parse_number_float; auto].
    unfold float_ok in F. cbn in F. apply andb_true_iff in F as [F _].
    apply andb_true_iff in F as [F _]. rewrite numchar_byte by auto. unfold numchar, floatchar in F. lia.
  - cbn in Hd. destruct (forallb char_ok s) eqn:F; [|discriminate]. injection Hd as <-. destruct n; [lia|].
    unfold str_bytes. cbn [app pvalue]. rewrite <- List.app_assoc. cbn [app]. rewrite parse_str_bytes by auto. reflexivity.
  - rewrite dumps_list in Hd. apply rbind_Ok in Hd as (bs & Hb & Hd). injection Hd as <-. destruct n; [lia|].
    cbn [app pvalue]. change (Zb x5b) with 91. cbn [Z.eqb Pos.eqb]. cbn iota. rewrite <- List.app_assoc. cbn [app].
    destruct l as [|v l]; [cbn in Hb; injection Hb as <-; reflexivity|].
    rewrite starts_not.
    + rewrite (pelems_ok (v :: l)) with (bs := bs); auto; [discriminate|].
      cbn [List.length] in Hn. rewrite List.app_length in Hn. cbn [List.length] in Hn. lia.
    + cbn [dump_list] in Hb. apply rbind_Ok in Hb as (b & Hb & Hd). apply rbind_Ok in Hd as (bs' & Hbs & Hd). injection Hd as <-.
      destruct (dumps_head _ _ Hb) as (c & q & -> & H1 & H2). cbn [commas app]. apply Zb_eqb. change (Zb x5d) with 93. congruence.
  - rewrite dumps_tuple in Hd. apply rbind_Ok in Hd as (bs & Hb & Hd). injection Hd as <-. destruct n; [lia|].
    cbn [app pvalue]. change (Zb x5b) with 91. cbn [Z.eqb Pos.eqb]. cbn iota. rewrite <- List.app_assoc. cbn [app].
    destruct l as [|v l]; [cbn in Hb; injection Hb as <-; reflexivity|].
    rewrite starts_not.
    + rewrite (pelems_ok (v :: l)) with (bs := bs); auto; [discriminate|].
      cbn [List.length] in Hn. rewrite List.app_length in Hn. cbn [List.length] in Hn. lia.
    + cbn [dump_list] in Hb. apply rbind_Ok in Hb as (b & Hb & Hd). apply rbind_Ok in Hd as (bs' & Hbs & Hd). injection Hd as <-.
      destruct (dumps_head _ _ Hb) as (c & q & -> & H1 & H2). cbn [commas app]. apply Zb_eqb. change (Zb x5d) with 93. congruence.
  - rewrite dumps_dict in Hd. apply rbind_Ok in Hd as (bs & Hb & Hd). injection Hd as <-. destruct n; [lia|].
    cbn [app pvalue]. change (Zb x7b) with 123. cbn [Z.eqb Pos.eqb]. cbn iota. rewrite <- List.app_assoc. cbn [app].
    destruct l as [|[k v] l]; [cbn in Hb; injection Hb as <-; reflexivity|].
    rewrite starts_not.
    + rewrite (pmembers_ok ((k, v) :: l)) with (bs := bs); auto; [discriminate|].
      cbn [List.length] in Hn. rewrite List.app_length in Hn. cbn [List.length] in Hn. lia.
    + cbn [dump_members] in Hb. destruct (forallb char_ok k); [|discriminate].
      apply rbind_Ok in Hb as (b & Hb & Hd). apply rbind_Ok in Hd as (bs' & Hbs & Hd). injection Hd as <-. reflexivity.
Qed.

Theorem loads_dumps v b : dumps v = Ok b -> loads b = Ok (norm v).
Proof.
  intros H. unfold loads. rewrite <- (List.app_nil_r b) at 2.
  rewrite (parses_all v b [] (S (List.length b)) H); [reflexivity|exact I|lia].
Qed.

Example dumps_case :
  dumps (PDict [(u "dtype", PStr (u """<f8""")); (u "shape", PTuple [PInt 3; PInt (-20)]); (u "x", PFloat (u "1.5e-07"));
                ([233; 128512], PList [PBool true; PNone])])
  = Ok (b_of_string "{""dtype"":""\""<f8\"""",""shape"":[3,-20],""x"":1.5e-07,""\u00e9\ud83d\ude00"":[true,null]}").
Proof. vm_compute. reflexivity. Qed.
