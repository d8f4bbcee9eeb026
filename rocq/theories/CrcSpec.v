(** The CRC-32 of ISO 3309 / ITU-T V.42 as the remainder of a division of
    polynomials over GF(2).  A polynomial is a non-negative integer whose bit i is
    the coefficient of x^i; addition is exclusive or. *)
From Verif Require Import Base Spec.

(** The bits of a message in the order of transmission: bytes in order, each
    least significant bit first.  The first bit is the highest coefficient. *)
Definition byte_bits (x : byte) : list bool := map (fun i => Z.odd (u8b x / 2 ^ i)) [0; 1; 2; 3; 4; 5; 6; 7].
Definition bits_of (d : bytes) : list bool := flat_map byte_bits d.
Definition poly_of (l : list bool) : Z := fold_left (fun p b => 2 * p + (if b : bool then 1 else 0)) l 0.
(** q(x) * g(x), the coefficients of q being given highest first. *)
Definition poly_times (q : list bool) (g : Z) : Z := fold_left (fun p b => Z.lxor (2 * p) (if b : bool then g else 0)) q 0.
(** x^32 + x^26 + x^23 + x^22 + x^16 + x^12 + x^11 + x^10 + x^8 + x^7 + x^5 + x^4 + x^2 + x + 1 *)
Definition crc_generator : Z := fold_right (fun e acc => 2 ^ e + acc) 0 [32; 26; 23; 22; 16; 12; 11; 10; 8; 7; 5; 4; 2; 1; 0].
(** r is the remainder of m divided by the generator. *)
Definition crc_remainder (m r : Z) : Prop := 0 <= r < 2 ^ 32 /\ exists q, m = Z.lxor (poly_times q crc_generator) r.
(** The polynomial divided: the message times x^32, the 32 highest coefficients
    (those of the first 32 bits) complemented. *)
Definition crc_dividend (d : bytes) : Z :=
  Z.lxor (poly_of (bits_of d) * 2 ^ 32) ((2 ^ 32 - 1) * 2 ^ Z.of_nat (List.length (bits_of d))).
