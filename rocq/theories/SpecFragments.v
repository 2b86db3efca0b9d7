(** * Specification: the maximum fragment length (RFC 6066 section 4, config.rs:374-395) *)
From Coq Require Import List NArith Arith.
From Coq.Strings Require Import Byte.
From Verif Require Import Base Codes Config Crypto SpecWire SpecMessages SpecRecord SpecRead SpecHandshake SpecComplete.
Import ListNotations.

(** 512, 1024, 2048 or 4096 bytes. *)
Definition fragment_length (m : max_frag) : nat :=
  match m with MFL_Bits9 => 2 ^ 9 | MFL_Bits10 => 2 ^ 10 | MFL_Bits11 => 2 ^ 11 | MFL_Bits12 => 2 ^ 12 end.

(** Data, or session tickets, from a server that keeps to it: at most this many bytes in a record, with - this is what
    the text quoted in the documentation reckons with - at most 256 bytes of padding. *)
Definition short_record (m : max_frag) (r : sent_record) : Prop :=
  let '((t, c), pad) := r in
  (t = ty_data \/ t = ty_handshake /\ exists ms, c = concat ms /\ Forall is_nst ms) /\
  length c <= fragment_length m /\ pad <= 256.

(** "... the record-layer output can be at most 805 bytes: 5 bytes of headers, 512 bytes of application data, 256 bytes of
    padding, and 32 bytes of MAC": without the header that many bytes, and for the other lengths accordingly. *)
Definition quoted_size (m : max_frag) : nat := fragment_length m + 256 + 32.

(** A flight of a server that keeps to it. *)
Definition short_flight (m : max_frag) (x : exchange) (l : list part) : Prop :=
  length (x_shello x) <= fragment_length m /\
  Forall (fun q => match q with P_ccs => True | P_messages ms pad => length (raw ms) <= fragment_length m /\ pad <= 256 end) l.

(** The record with header [h] and fragment [f] brings the content [b], in the clear or protected. *)
Definition brings (C : crypto) (key iv h f b : bytes) : Prop :=
  hd_error h = Some ty_handshake /\ b = f \/
  hd_error h = Some ty_data /\ exists n inner t, rfc_open C key iv n h f = Some inner /\ rfc_unpad inner = Some (t, b).

(** The server keeps to the length in these records. *)
Definition keeps_length (C : crypto) (key iv : bytes) (m : max_frag) (rs : list (bytes * bytes)) : Prop :=
  forall h f b, In (h, f) rs -> brings C key iv h f b -> length b <= fragment_length m.
