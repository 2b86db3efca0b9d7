(** * Specification vocabulary: sessions, seen from the calls and their results alone *)
From Coq Require Import List NArith Arith Bool.
From Verif Require Import Base Crypto Config WriteBuffer Transport Connection Api.
Import ListNotations.

(** [session C c up]: [c] is the connection object after some sequence of calls of any
    kind, in any order and with any results; [up] says whether the application has a session:
    the last [open] that returned [Ok] came after the last call that reported
    [ConnectionClosed]. *)
Inductive session (C : crypto) : conn -> bool -> Prop :=
| se_new rbuf wbuf rx tx c : cn_new C rbuf wbuf rx tx = Ok c -> session C c false
| se_open V (p : provider V) cfg v c up o c' : session C c up -> cn_open C p cfg v c = (o, c') ->
    session C c' (match o with Ok _ => true | _ => up end)
| se_call o c up r c' : session C c up -> step C o c = (r, c') ->
    session C c' (match r with Err ConnectionClosed => false | _ => up end).

(** No call reported that the peer closed. *)
Definition not_closed (rs : list (op * outcome tls_error value)) : Prop :=
  Forall (fun p => snd p <> Err ConnectionClosed) rs.
