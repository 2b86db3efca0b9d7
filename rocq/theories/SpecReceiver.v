(** * Specification: the receiving side of an open connection as a machine over bytes *)
From Coq Require Import String List NArith Arith Bool.
From Coq.Strings Require Import Byte.
From Verif Require Import Base ParseBuffer Codes Crypto KeySchedule Config Handshake Record Connection Transport Api SpecWire SpecCodes SpecMessages SpecKeys SpecRecord
  SpecSend SpecRead SpecHandshake SpecComplete SpecDefect SpecFailure.
Import ListNotations.
Local Open Scope list_scope.

(** ** One record *)

(** What a record comes to. *)
Inductive verdict :=
| V_data (d : bytes)        (** its content is for the application *)
| V_nothing                 (** nothing; the next record is looked at *)
| V_error (e : tls_error)   (** the call ends with the error, the session stays open *)
| V_closed                  (** the call ends with [ConnectionClosed], the session is over *)
| V_panic (x : panic_site). (** the client panics *)

Section Record.
Context (C : crypto).

Definition ticket (b : bytes) : Prop := understood C b M_NewSessionTicket.

(** The content of a protected record, of inner type [t]. *)
Inductive content_is : byte -> bytes -> verdict -> Prop :=
| ci_data d : content_is ty_data d (V_data d)
| ci_tickets ms : Forall ticket ms -> content_is ty_handshake (concat ms) V_nothing
| ci_message ms b m junk : Forall ticket ms -> understood C b m -> m <> M_NewSessionTicket ->
    content_is ty_handshake (concat ms ++ b ++ junk) (V_panic PUnimplemented)
| ci_garbled ms junk e : Forall ticket ms -> junk <> [] -> faulty C junk e ->
    content_is ty_handshake (concat ms ++ junk) (V_error e)
| ci_close b l : is_alert b l AD_CloseNotify -> content_is ty_alert b V_closed
| ci_alert b l d : is_alert b l d -> d <> AD_CloseNotify -> content_is ty_alert b (V_error InternalError)
| ci_bad_alert b e : bad_alert b e -> content_is ty_alert b (V_error e)
| ci_ccs b : content_is ty_ccs b (V_error Unimplemented)
| ci_type t b : ~ In (Byte.to_N t) [20; 21; 22; 23]%N -> content_is t b (V_error InvalidRecord).

(** Such a record is counted if it was taken. *)
Definition counted (v : verdict) : bool := match v with V_data _ | V_nothing => true | _ => false end.

(** The record with the header [h] and the fragment [f], when the number [n] is expected: what it comes
    to, and the number expected next.  Records in the clear (RFC 8446 section 5 wants them to be rejected)
    are looked at too. *)
Inductive record_is (key iv : bytes) (n : N) (h f : bytes) : verdict -> N -> Prop :=
| ri_invalid : hd_error h = Some x00 -> record_is key iv n h f (V_error Unimplemented) n
| ri_ccs : hd_error h = Some ty_ccs -> record_is key iv n h f (V_error InternalError) n
| ri_close l : hd_error h = Some ty_alert -> is_alert f l AD_CloseNotify -> record_is key iv n h f V_closed n
| ri_alert l d : hd_error h = Some ty_alert -> is_alert f l d -> d <> AD_CloseNotify ->
    record_is key iv n h f (V_error InternalError) n
| ri_bad_alert e : hd_error h = Some ty_alert -> bad_alert f e -> record_is key iv n h f (V_error e) n
| ri_ticket b junk : hd_error h = Some ty_handshake -> f = b ++ junk -> ticket b -> record_is key iv n h f V_nothing n
| ri_message b m junk : hd_error h = Some ty_handshake -> f = b ++ junk -> understood C b m -> m <> M_NewSessionTicket ->
    record_is key iv n h f (V_panic PUnimplemented) n
| ri_garbled e : hd_error h = Some ty_handshake -> faulty C f e -> record_is key iv n h f (V_error e) n
| ri_forged : hd_error h = Some ty_data -> rfc_open C key iv n h f = None -> record_is key iv n h f (V_error CryptoError) n
| ri_empty : hd_error h = Some ty_data -> rfc_open C key iv n h f = Some [] -> record_is key iv n h f (V_panic PUnwrap) n
| ri_zeros k : hd_error h = Some ty_data -> rfc_open C key iv n h f = Some (repeat x00 (S k)) ->
    record_is key iv n h f (V_error Unimplemented) n
| ri_taken inner t b v : hd_error h = Some ty_data -> rfc_open C key iv n h f = Some inner -> rfc_unpad inner = Some (t, b) ->
    content_is t b v -> counted v = true -> (n < u64_max)%N -> record_is key iv n h f v (n + 1)
| ri_exhausted inner t b v : hd_error h = Some ty_data -> rfc_open C key iv n h f = Some inner -> rfc_unpad inner = Some (t, b) ->
    content_is t b v -> counted v = true -> (u64_max <= n)%N -> record_is key iv n h f (V_panic PUnwrap) n
| ri_other inner t b v : hd_error h = Some ty_data -> rfc_open C key iv n h f = Some inner -> rfc_unpad inner = Some (t, b) ->
    content_is t b v -> counted v = false -> record_is key iv n h f v n.

(** ** The bytes of the transport *)

(** The client passes over the record. *)
Definition passed (v : verdict) : bool := match v with V_data [] | V_nothing => true | _ => false end.

(** [hears n w v n' w']: with [w] still to come on the transport and the record number [n] expected, the
    next thing that counts is [v]; afterwards [w'] is to come and [n'] expected.  [room] is the size of the read buffer.
    The transport ends with [w]: a record that is cut off is an error, and the rest of it is lost.  After a header that
    does not do, the client goes on with the bytes that follow the header. *)
Inductive hears (key iv : bytes) (room : nat) : N -> bytes -> verdict -> N -> bytes -> Prop :=
| he_next n h f rest v n1 v' n' w' : readable room (h, f) -> record_is key iv n h f v n1 -> passed v = true ->
    hears key iv room n1 rest v' n' w' -> hears key iv room n (h ++ f ++ rest) v' n' w'
| he_record n h f rest v n1 : readable room (h, f) -> record_is key iv n h f v n1 -> passed v = false ->
    hears key iv room n (h ++ f ++ rest) v n1 rest
| he_header n w : length w < 5 -> hears key iv room n w (V_error IoError) n []
| he_type n h w : length h = 5 -> ~ type_known h -> hears key iv room n (h ++ w) (V_error InvalidRecord) n w
| he_long n h k w : length h = 5 -> type_known h -> be_val (skipn 3 h) = N.of_nat k -> room < k ->
    hears key iv room n (h ++ w) (V_error InsufficientSpace) n w
| he_cut n h k w : length h = 5 -> type_known h -> be_val (skipn 3 h) = N.of_nat k -> k <= room -> length w < k ->
    hears key iv room n (h ++ w) (V_error IoError) n [].

(** ** Calls *)

(** The session is open; bytes decrypted and not yet taken; the number of the next record; bytes to come. *)
Record receiver := mk_receiver { q_open : bool; q_data : bytes; q_next : N; q_wire : bytes }.

Definition succeeds (r : outcome tls_error value) : Prop := exists v, r = Ok v.

(** A receiving call: its result, and the receiver afterwards.  [take] (SpecRead.v) says what a call
    returns and removes with bytes in front of it. *)
Inductive receive (key iv : bytes) (room : nat) : receiver -> op -> outcome tls_error value -> receiver -> Prop :=
(* there is data, or none is needed *)
| rc_here s o r got q' : (q_open s = true /\ q_data s <> []) \/ waits o = false -> succeeds r -> take o r (q_data s) got q' ->
    receive key iv room s o r (mk_receiver (q_open s) q' (q_next s) (q_wire s))
(* the session is over *)
| rc_over s o : q_open s = false -> waits o = true -> receive key iv room s o (Err MissingHandshake) s
(* nothing there: wait for a record *)
| rc_data n w o r d n' w' got q' : waits o = true -> hears key iv room n w (V_data d) n' w' -> succeeds r -> take o r d got q' ->
    receive key iv room (mk_receiver true [] n w) o r (mk_receiver true q' n' w')
| rc_error n w o e n' w' : waits o = true -> hears key iv room n w (V_error e) n' w' ->
    receive key iv room (mk_receiver true [] n w) o (Err e) (mk_receiver true [] n' w')
| rc_closed n w o n' w' : waits o = true -> hears key iv room n w V_closed n' w' ->
    receive key iv room (mk_receiver true [] n w) o (Err ConnectionClosed) (mk_receiver false [] n' w')
| rc_panic n w o x n' w' s' : waits o = true -> hears key iv room n w (V_panic x) n' w' ->
    receive key iv room (mk_receiver true [] n w) o (Panic x) s'.

(** A history of calls, with their results: the receiving calls are those of the machine, the others do not
    concern it; after a panic there are no more calls. *)
Inductive listens (key iv : bytes) (room : nat) : receiver -> list (op * outcome tls_error value) -> receiver -> Prop :=
| ls_nil s : listens key iv room s [] s
| ls_receive s o r s1 rs s2 : receives o = true -> receive key iv room s o r s1 -> (forall x, r = Panic x -> rs = []) ->
    listens key iv room s1 rs s2 -> listens key iv room s ((o, r) :: rs) s2
| ls_other s o r rs s2 : receives o = false -> listens key iv room s rs s2 -> listens key iv room s ((o, r) :: rs) s2.

End Record.

(** ** The connection *)

Definition receiver_of (c : conn) : receiver := mk_receiver (cn_opened c) (unread c) (next_seq c) (incoming c).

(** The same calls; the receiving ones with the same results. *)
Definition same_answers : list (op * outcome tls_error value) -> list (op * outcome tls_error value) -> Prop :=
  Forall2 (fun a b => fst a = fst b /\ (receives (fst a) = true -> snd a = snd b)).
