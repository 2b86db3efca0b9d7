(** * Specification: a connection object on which [open] is called more than once *)
From Coq Require Import String List NArith Arith Bool.
From Coq.Strings Require Import Byte.
From Verif Require Import Base Crypto KeySchedule Config WriteBuffer Transport RecordReader Connection Api SpecKeys SpecRead SpecSend SpecHandshake SpecComplete SpecAgree.
Import ListNotations.
Local Open Scope list_scope.

(** [used C c]: [c] is the connection object after some sequence of calls of any kind with any
    results, the first being an [open] that sent something (and then succeeded or not). *)
Inductive used (C : crypto) : conn -> Prop :=
| us_first V (p : provider V) cfg v rbuf wbuf rx tx c0 o c : cn_new C rbuf wbuf rx tx = Ok c0 ->
    cn_open C p cfg v c0 = (o, c) -> sent_log c <> tx_log tx -> used C c
| us_open V (p : provider V) cfg v c o c' : used C c -> cn_open C p cfg v c = (o, c') -> used C c'
| us_call o c r c' : used C c -> step C o c = (r, c') -> used C c'.

(** No record is half written or half read. *)
Definition at_rest (c : conn) : Prop :=
  wb_pos (wh_wb (cn_wh c)) = 0 /\ wb_hdr (wh_wb (cn_wh c)) = None /\ rd_pending (cn_rd c) = 0.

(** The handshake as the client saw it when [open] took it from [c] to [c']: [x] is the ClientHello it
    sent and the flight it took from the bytes that arrived. *)
Definition reopened (C : crypto) (c c' : conn) (x : exchange) : Prop :=
  whole_flight C (length (rd_buf (cn_rd c))) (incoming c) x (incoming c') /\
  exists evs, sent_log c' = sent_log c ++ goes_out (hello_record (x_hello x)) ++ evs.

(** [y] is the same handshake for its server: the same messages up to and with the Finished. *)
Definition same_messages (x y : exchange) : Prop :=
  x_hello y = x_hello x /\ x_shello y = x_shello x /\ x_before y = x_before x /\ x_verify y = x_verify x.

(** The handshake messages already in the transcript of [c] (connection.rs hashes them one by one; the
    model keeps them). *)
Definition left_over (c : conn) : bytes := r_transcript (rd_ks (cn_rd c)).

(** Coincidences that break the cryptography, each given by values of the connection and the two
    exchanges: the transcript of the server [y] and a longer one, which ends with it, have the same hash; *)
Definition same_hash_after (C : crypto) (old : bytes) (y : exchange) : Prop :=
  old <> [] /\ c_hash C (old ++ confirmed y) = c_hash C (confirmed y).
(** two different pairs of a key and a hash have the same HMAC. *)
Definition same_hmac_after (C : crypto) (old : bytes) (x y : exchange) : Prop :=
  exists k k', rfc_expand_label C (x_server x) "finished" [] (hash_len C) = Some k /\
    rfc_expand_label C (x_server y) "finished" [] (hash_len C) = Some k' /\
    (k, c_hash C (old ++ confirmed y)) <> (k', c_hash C (confirmed y)) /\
    c_hmac C k (c_hash C (old ++ confirmed y)) = c_hmac C k' (c_hash C (confirmed y)).
