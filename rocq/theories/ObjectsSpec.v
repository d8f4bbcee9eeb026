(** Specification vocabulary for printed text and for objects used as dictionaries. *)
From Verif Require Import Base Objects.

(** The character does not occur. *)
Definition lacks (c : ascii) (x : text) : Prop := ~ In c x.
(** [lines m ls]: the message is made of these lines. *)
Definition lines (m : text) (ls : list text) : Prop :=
  ls <> [] /\ Forall (lacks nl) ls /\ m = join_text [nl] ls.
(** A line with something in it. *)
Definition has_text (x : text) : bool := match x with [] => false | _ => true end.
(** How much is printed: 0 only what is normal, 1 verbose, 2 debugging as well. *)
Definition rank (level : string) : option Z :=
  if String.eqb level "NORMAL" then Some 0 else if String.eqb level "VERBOSE" then Some 1
  else if String.eqb level "DEBUG" then Some 2 else None.

(** What can be done to an object through the dictionary interface. *)
Inductive op :=
| Get (k : string) | GetDefault (k : string) (d : oval) | Contains (k : string) | Items
| Set_ (k : string) (v : oval) | Del (k : string) | Pop (k : string) (d : option oval) | Popitem | Clear
| Update (l : list (string * oval)) | Setdefault (k : string) (d : oval).
Definition run_op (p : op) (o : obj) : obj :=
  match p with
  | Get k => fst (o_getitem k o) | GetDefault k d => fst (o_get k d o) | Contains k => fst (o_contains k o)
  | Items => fst (o_items o) | Set_ k v => fst (o_setitem k v o) | Del k => fst (o_delitem k o)
  | Pop k d => fst (o_pop k d o) | Popitem => fst (o_popitem o) | Clear => fst (o_clear o)
  | Update l => fst (o_update l o) | Setdefault k d => fst (o_setdefault k d o)
  end.
Definition run_ops (l : list op) (o : obj) : obj := fold_left (fun o p => run_op p o) l o.

(** The assignments an operation makes: an update stops at the first unknown key. *)
Fixpoint known_part (attrs : list string) (l : list (string * oval)) : list (string * oval) :=
  match l with
  | [] => []
  | kv :: r => if in_dec String.string_dec (fst kv) attrs then kv :: known_part attrs r else []
  end.
Definition assignments (attrs : list string) (p : op) : list (string * oval) :=
  match p with Set_ k v => known_part attrs [(k, v)] | Update l => known_part attrs l | _ => [] end.
(** The last value given to [k], or else [d]. *)
Definition last_value (k : string) (l : list (string * oval)) (d : oval) : oval :=
  fold_left (fun d kv => if String.string_dec (fst kv) k then snd kv else d) l d.
(** [d] is the object as a dictionary: exactly the attributes, with these values. *)
Definition views (o : obj) (d : string -> oval) : Prop :=
  forall k, In k (o_attrs o) -> getattr k (o_vars o) = Ok (d k).
