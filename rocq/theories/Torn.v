(** Files caught in the middle of a metadata rewrite. *)
From Verif Require Import Base Spec.

(** [mixture f f' g]: every byte of g is the byte of f or the byte of f' at its
    position.  This is what may be on disk while f is being overwritten by f', in
    whatever order the bytes arrive. *)
Definition mixture (f f' g : bytes) : Prop :=
  size g = size f /\ forall i, nth_error g i = nth_error f i \/ nth_error g i = nth_error f' i.
