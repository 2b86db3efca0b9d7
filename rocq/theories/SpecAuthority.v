(** * Specification vocabulary: who may vouch for a certificate (RFC 5280, 4.2.1.9 and 6.1.4) *)
From Coq Require Import List NArith Arith Bool.
From Coq.Strings Require Import Byte.
From Verif Require Import Base Pki SpecPki.
Import ListNotations.

(** The extension basicConstraints, 2.5.29.19; its value is a SEQUENCE that begins with the
    BOOLEAN cA, left out when FALSE. *)
Definition oid_basic_constraints : bytes := [x55; x1d; x13].
Definition says_ca (value : bytes) : Prop := exists n r, value = x30 :: n :: x01 :: x01 :: xff :: r.

(** The certificate is one of an authority: it says cA TRUE. *)
Definition authority (c : dcert) : Prop :=
  exists exts v, dc_extensions c = Some exts /\ In (oid_basic_constraints, (x04, v)) exts /\ says_ca v.

(** The certificate says cA FALSE (an empty SEQUENCE), and nothing else about it. *)
Definition end_entity (c : dcert) : Prop :=
  exists exts, dc_extensions c = Some exts /\ In (oid_basic_constraints, (x04, [x30; x00])) exts /\
    forall v, In (oid_basic_constraints, (x04, v)) exts -> v = [x30; x00].

(** Every certificate of the list but the first, for which the others vouch, is one of an authority. *)
Definition only_authorities (L : pki_lib) (certs : list bytes) : Prop :=
  forall i der, nth_error certs (S i) = Some der -> exists c, k_cert L der = Some c /\ authority c.

(** The certificate names the host, and all its names are well-formed. *)
Definition names_host (L : pki_lib) (der host : bytes) : Prop :=
  exists c cn all, k_cert L der = Some c /\ is_common_name c cn /\ good_sans L c all /\
    named cn (firstn 3 all) host.
