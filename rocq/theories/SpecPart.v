(** Specifications for what remains true of some refuted properties. *)
From Coq Require Import List NArith.
From Verif Require Import Base Crypto.

(** RFC 7518 section 6.2.1.2: the octets of a coordinate *)
Definition coord_octets (c : curve) : nat := match c with P256 => 32 | P384 => 48 | P521 => 66 end.
