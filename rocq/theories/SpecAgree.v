(** * Specification: the two sides of a handshake have the same view of it *)
From Coq Require Import String List NArith Arith Bool.
From Coq.Strings Require Import Byte.
From Verif Require Import Base Crypto Config Transport RecordReader Connection Api SpecWire SpecKeys SpecRead SpecSend SpecHandshake SpecComplete SpecServer.
Import ListNotations.
Local Open Scope list_scope.
Local Open Scope server_scope.

(** The handshake as the client [c] saw it: [x] is what it sent and what it took from the bytes [w]
    that arrived, with the secrets that come of it; every Finished in it is right; the keys of the
    connection are those of [x].  [log0]: what was in the log of the transport before. *)
Definition client_view (C : crypto) (psk : option bytes) (secret : bytes) (room : nat) (w : bytes) (log0 : list tx_event) (c : conn)
  (x : exchange) : Prop :=
  whole_flight C room w x (incoming c) /\
  (exists evs, sent_log c = log0 ++ goes_out (hello_record (x_hello x)) ++ evs) /\
  secrets_ok C psk secret x /\ finishes C x /\
  session_keys C psk x "c ap traffic" (write_key c) (write_iv c) /\
  session_keys C psk x "s ap traffic" (read_key c) (read_iv c).

(** The messages a server's Finished confirms (RFC 8446, 4.4.4): everything before it. *)
Definition confirmed (x : exchange) : bytes := x_hellos x ++ raw (x_before x).

(** The key of the server's Finished (4.4.4, 7.1). *)
Definition finished_key (C : crypto) (psk : option bytes) (dhe hellos : bytes) : option bytes :=
  hs <! rfc_handshake C psk dhe;
  s <! rfc_derive_secret C hs "s hs traffic" hellos;
  rfc_expand_label C s "finished" [] (hash_len C).

(** Coincidences that break the cryptography, each given by values of the two exchanges [x] (with the
    pre-shared key [psk]) and [y] (with [psk']): two different transcripts with the same hash; *)
Definition same_hash (C : crypto) (x y : exchange) : Prop :=
  confirmed x <> confirmed y /\ c_hash C (confirmed x) = c_hash C (confirmed y).
(** two different pairs of a key and a hash with the same HMAC; *)
Definition same_hmac (C : crypto) (psk psk' : option bytes) (x y : exchange) : Prop :=
  exists k k', finished_key C psk (x_dhe x) (x_hellos x) = Some k /\ finished_key C psk' (x_dhe y) (x_hellos y) = Some k' /\
    (k, c_hash C (confirmed x)) <> (k', c_hash C (confirmed y)) /\
    c_hmac C k (c_hash C (confirmed x)) = c_hmac C k' (c_hash C (confirmed y)).
(** two different pre-shared keys that give the same Finished key for the same handshake. *)
Definition same_derived (C : crypto) (psk psk' : option bytes) (x : exchange) : Prop :=
  psk <> psk' /\ finished_key C psk (x_dhe x) (x_hellos x) = finished_key C psk' (x_dhe x) (x_hellos x).
