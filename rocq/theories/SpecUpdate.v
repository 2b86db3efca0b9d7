(** * Specification vocabulary: key updates (RFC 8446 sections 4.6.3, 7.2) *)
From Coq Require Import String List NArith Arith Bool.
From Coq.Strings Require Import Byte.
From Verif Require Import Base Crypto SpecWire SpecKeys.
Import ListNotations.
Local Open Scope list_scope.

(** The message KeyUpdate: type 24, one byte that says whether the receiver shall change its keys too. *)
Definition key_update (requested : bool) : bytes := uint 1 24 ++ vec 3 [if requested then x01 else x00].

(** The traffic secret after an update. *)
Definition rfc_next_secret (C : crypto) (secret : bytes) : option bytes := rfc_expand_label C secret "traffic upd" [] (hash_len C).

(** The key and the IV that go with it. *)
Definition rfc_next_keys (C : crypto) (secret key iv : bytes) : Prop :=
  exists next, rfc_next_secret C secret = Some next /\ rfc_key C next = Some key /\ rfc_iv C next = Some iv.
