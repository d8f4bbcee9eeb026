(** A writer and reader of Python literals (strings, integers, lists and tuples).
    repr and ast.literal_eval are not part of /repo; they are oracles of the model
    (NumpyIO.v, [NpEnv]).  This file shows that what is assumed of them is met by
    an actual pair of functions.  (The writer uses double quotes and a comma after
    every item, which Python's repr does not.) *)
From Verif Require Import Base PyVal Json.
From Coq Require Import ZifyBool ZifyNat.
Ltac Zify.zify_post_hook ::= Z.div_mod_to_equations.

Fixpoint rep (v : pyval) : bytes :=
  match v with
  | PStr s => str_bytes s
  | PInt z => int_bytes z
  | PList l => x5b :: concat (map (fun x => rep x ++ [x2c]) l) ++ [x5d]
  | PTuple l => x28 :: concat (map (fun x => rep x ++ [x2c]) l) ++ [x29]
  | _ => []
  end.

Fixpoint plit (n : nat) (s : bytes) : option (pyval * bytes) :=
  match n with
  | O => None
  | S n =>
    match s with
    | [] => None
    | c :: r =>
        if Zb c =? 34 then match parse_str r with Some (x, r) => Some (PStr x, r) | None => None end
        else if Zb c =? 91 then match pitems 93 n r with Some (l, r) => Some (PList l, r) | None => None end
        else if Zb c =? 40 then match pitems 41 n r with Some (l, r) => Some (PTuple l, r) | None => None end
        else match parse_number s with Some (PInt z, r) => Some (PInt z, r) | _ => None end
    end
  end
with pitems (close : Z) (n : nat) (s : bytes) : option (list pyval * bytes) :=
  match n with
  | O => None
  | S n =>
    match s with
    | [] => None
    | c :: r =>
        if Zb c =? close then Some ([], r)
        else match plit n s with
             | Some (v, c :: r) =>
                 if Zb c =? 44 then
                   match pitems close n r with Some (l, r) => Some (v :: l, r) | None => None end
                 else None
             | _ => None
             end
    end
  end.

Definition lit_repr (v : pyval) : pystr := map Zb (rep v).
(** [None]: ValueError or SyntaxError. *)
Definition lit_eval (v : pyval) : res (option pyval) :=
  match v with
  | PStr s =>
      if forallb (fun c => (0 <=? c) && (c <? 256)) s then
        match plit (S (List.length s)) (map bZ s) with
        | Some (v, []) => Ok (Some v)
        | _ => Ok None
        end
      else Ok None
  | _ => Ok None
  end.

(** ** Round trip *)
Fixpoint literal (v : pyval) : bool :=
  match v with
  | PStr s => forallb char_ok s
  | PInt _ => true
  | PList l | PTuple l => forallb literal l
  | _ => false
  end.

Lemma rep_head v : literal v = true -> exists c r, rep v = c :: r /\ Zb c <> 93 /\ Zb c <> 41.
Proof.
  destruct v; cbn -[Zb]; intros H; try discriminate.
  - destruct (int_bytes_head z) as (c & r & -> & Hc). exists c, r. repeat split; lia.
  - eexists _, _. split; [reflexivity|]. vm_compute. split; discriminate.
  - eexists _, _. split; [reflexivity|]. vm_compute. split; discriminate.
  - eexists _, _. split; [reflexivity|]. vm_compute. split; discriminate.
Qed.

Definition reads (v : pyval) : Prop := literal v = true -> forall r n, stop r -> (List.length (rep v) < n)%nat ->
  plit n (rep v ++ r) = Some (v, r).

Lemma pitems_ok close cb l : (close = 93 /\ cb = x5d) \/ (close = 41 /\ cb = x29) -> Forall reads l -> forallb literal l = true -> forall r n,
  (List.length (concat (map (fun x => rep x ++ [x2c]) l)) + 1 < n)%nat ->
  pitems close n (concat (map (fun x => rep x ++ [x2c]) l) ++ cb :: r) = Some (l, r).
Proof.
  intros Hc. induction 1 as [|v l Hv Hl IH]; intros HL r n Hn; (destruct n as [|n]; [lia|]).
  - cbn [map concat app pitems]. destruct Hc as [[-> ->]|[-> ->]]; reflexivity.
  - cbn [map concat forallb] in *. apply andb_true_iff in HL as [L1 L2].
    destruct (rep_head v L1) as (c & q & Hr & H1 & H2). cbn [pitems].
    rewrite !List.app_length in Hn. cbn [List.length] in Hn.
    rewrite <- !List.app_assoc. cbn [app].
    assert (PV : plit n (rep v ++ x2c :: concat (map (fun x => rep x ++ [x2c]) l) ++ cb :: r) =
                 Some (v, x2c :: concat (map (fun x => rep x ++ [x2c]) l) ++ cb :: r)).
    { apply Hv; [exact L1|reflexivity|lia]. }
    assert (PI : pitems close n (concat (map (fun x => rep x ++ [x2c]) l) ++ cb :: r) = Some (l, r)).
    { apply IH; [exact L2|]. rewrite Hr in Hn. cbn [List.length] in Hn. lia. }
    rewrite PV. rewrite Hr at 1. cbn [app].
    replace (Zb c =? close) with false by (destruct Hc as [[-> _]|[-> _]]; lia).
    change (Zb x2c =? 44) with true. cbn iota. rewrite PI. reflexivity.
Qed.

Lemma reads_all v : reads v.
Proof.
  induction v as [|b|z|r0|s|l H|l H|l H] using pyval_ind'; intros HL r n Hs Hn; try discriminate HL;
    (destruct n as [|n]; [lia|]).
  - cbn [rep]. pose proof (parse_number_int z r Hs) as P. destruct (int_bytes_head z) as (c & q & E & Hc).
    cbn [plit]. rewrite P. rewrite E. cbn [app].
    replace (Zb c =? 34) with false by lia. replace (Zb c =? 91) with false by lia. replace (Zb c =? 40) with false by lia.
    reflexivity.
  - cbn [rep literal] in *. unfold str_bytes. cbn [app plit]. rewrite <- List.app_assoc. cbn [app].
    change (Zb x22 =? 34) with true. cbn iota. rewrite parse_str_bytes by auto. reflexivity.
  - cbn [rep literal] in *. cbn [app plit]. change (Zb x5b) with 91. cbn [Z.eqb Pos.eqb]. cbn iota. rewrite <- List.app_assoc. cbn [app].
    cbn [List.length] in Hn. rewrite List.app_length in Hn. cbn [List.length] in Hn.
    rewrite (pitems_ok 93 x5d l); auto. lia.
  - cbn [rep literal] in *. cbn [app plit]. change (Zb x28) with 40. cbn [Z.eqb Pos.eqb]. cbn iota. rewrite <- List.app_assoc. cbn [app].
    cbn [List.length] in Hn. rewrite List.app_length in Hn. cbn [List.length] in Hn.
    rewrite (pitems_ok 41 x29 l); auto. lia.
Qed.

Lemma bZ_Zb b : bZ (Zb b) = b.
Proof. destruct b; reflexivity. Qed.

Theorem lit_eval_repr v : literal v = true -> lit_eval (PStr (lit_repr v)) = Ok (Some v).
Proof.
  intros H. unfold lit_eval, lit_repr.
  assert (forallb (fun c => (0 <=? c) && (c <? 256)) (map Zb (rep v)) = true) as ->.
  { apply forallb_forall. intros c Hc. apply in_map_iff in Hc as (b & <- & _). destruct b; reflexivity. }
  rewrite map_length, map_map, (map_ext _ (fun x => x) bZ_Zb), map_id.
  rewrite <- (List.app_nil_r (rep v)) at 2. rewrite (reads_all v H [] _ I) by lia. reflexivity.
Qed.

Example lit_case : lit_eval (PStr (u "[(""a"",""<f8"",),(""b"",[(""c"",""<i4"",(2,3,),),],),]"))
  = Ok (Some (PList [PTuple [PStr (u "a"); PStr (u "<f8")];
                     PTuple [PStr (u "b"); PList [PTuple [PStr (u "c"); PStr (u "<i4"); PTuple [PInt 2; PInt 3]]]]])).
Proof. vm_compute. reflexivity. Qed.
Example lit_case_plain : lit_eval (PStr (u "<f8")) = Ok None.
Proof. vm_compute. reflexivity. Qed.
