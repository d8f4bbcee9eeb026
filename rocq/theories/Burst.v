(** Specification vocabulary for damage to several bytes or bits (C82). *)
From Verif Require Import Base Spec.

(** Bit k of a byte string: the bits of each byte are counted from the least
    significant one, which is the order in which crc32 takes them in. *)
Definition bit (k : Z) (f : bytes) : bool := Z.testbit (u8 (k / 8) f) (k mod 8).

(** The bits in which f and g differ all lie in some 32 consecutive bits. *)
Definition close_bits (f g : bytes) : Prop :=
  forall j k, 0 <= j -> 0 <= k -> bit j f <> bit j g -> bit k f <> bit k g -> k < j + 32.
