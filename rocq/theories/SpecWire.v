(** * Specification: TLS presentation language (RFC 8446 section 3)

    Written from the RFC, independently of the model's own encoders. *)
From Coq Require Import List NArith Arith.
From Coq.Strings Require Import Byte.
Import ListNotations.

(** The byte with a given value (0 when the value is not a byte). *)
Definition byte_of (n : N) : Init.Byte.byte :=
  match Byte.of_N n with Some b => b | None => x00 end.

(** [uint k n]: the unsigned integer [n] in [k] bytes, network byte order (section 3.3). *)
Fixpoint uint (k : nat) (n : N) : list Init.Byte.byte :=
  match k with
  | O => []
  | S k' => uint k' (n / 256)%N ++ [byte_of (n mod 256)%N]
  end.

(** [vec k body]: a variable-length vector with a [k]-byte length (section 3.4). *)
Definition vec (k : nat) (body : list Init.Byte.byte) : list Init.Byte.byte :=
  uint k (N.of_nat (length body)) ++ body.

(** A byte string that may be the body of a vector with a [k]-byte length. *)
Definition fits (k : nat) (body : list Init.Byte.byte) : Prop :=
  (N.of_nat (length body) < 256 ^ N.of_nat k)%N.
