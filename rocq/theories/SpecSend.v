(** * Specification vocabulary for the sending side: what the transport was handed *)
From Coq Require Import List NArith Arith Bool.
From Coq.Strings Require Import Byte.
From Verif Require Import Base Crypto KeySchedule Config WriteBuffer Transport Connection Api
  SpecWire SpecKeys SpecRecord.
Import ListNotations.

(** One event at the transport, described from the outside: the protected record with
    sequence number [seq], of which [sent] bytes went out; bytes in the clear; a flush. *)
Inductive handed :=
| H_rec (seq : N) (ty : byte) (c : bytes) (sent : nat)
| H_plain (b : bytes) (sent : nat)
| H_flush.

Definition ev (C : crypto) (key iv : bytes) (h : handed) : tx_event :=
  match h with
  | H_rec n ty c k => TxWrite (rfc_record C key iv n ty c 0) k
  | H_plain b k => TxWrite b k
  | H_flush => TxFlush
  end.

(** The sequence numbers under which something was protected, in order. *)
Definition seqs (l : list handed) : list N :=
  concat (map (fun h => match h with H_rec n _ _ _ => [n] | _ => [] end) l).

(** The typed contents of the protected records, in order. *)
Definition contents (l : list handed) : list (byte * bytes) :=
  concat (map (fun h => match h with H_rec _ ty c _ => [(ty, c)] | _ => [] end) l).

(** The bytes that the application's [write] calls reported as accepted. *)
Definition accepted1 (o : op) (r : outcome tls_error value) : bytes :=
  match o, r with
  | OpWrite b, Ok (VCount n) => firstn n b
  | _, _ => []
  end.
Definition accepted (rs : list (op * outcome tls_error value)) : bytes :=
  concat (map (fun p => accepted1 (fst p) (snd p)) rs).

(** The same, counting everything passed to a [write] that failed at the transport. *)
Definition submitted1 (o : op) (r : outcome tls_error value) : bytes :=
  match o, r with
  | OpWrite b, Ok (VCount n) => firstn n b
  | OpWrite b, (Err (Io _) | Cancelled | Panic _) => b
  | _, _ => []
  end.
Definition submitted (rs : list (op * outcome tls_error value)) : bytes :=
  concat (map (fun p => submitted1 (fst p) (snd p)) rs).

(** A transport failure seen by the caller: an I/O error, or the call was cancelled. *)
Definition io_fault {A} (o : outcome tls_error A) : Prop := (exists k, o = Err (Io k)) \/ o = Cancelled.

(** A sending call that reported a transport failure. *)
Definition is_send (o : op) : bool :=
  match o with OpWrite _ | OpFlush | OpClose => true | _ => false end.
Definition send_fault (p : op * outcome tls_error value) : Prop :=
  is_send (fst p) = true /\ io_fault (snd p).

Definition is_close (o : op) : bool := match o with OpClose => true | _ => false end.

Definition prefix {A} (a b : list A) : Prop := exists c, b = a ++ c.

(** ** Connections *)

(** Everything the transport was handed so far. *)
Definition sent_log (c : conn) : list tx_event := tx_log (wh_tx (cn_wh c)).

(** The current write key and IV (their values: C08). *)
Definition write_key (c : conn) : bytes := k_key (w_state (wh_ks (cn_wh c))).
Definition write_iv (c : conn) : bytes := k_iv (w_state (wh_ks (cn_wh c))).

(** From here on the transport's [write_all] / also its [flush] always succeed. *)
Definition writes_succeed (c : conn) : Prop := Forall (eq WrOk) (tx_wr (wh_tx (cn_wh c))).
Definition transport_succeeds (c : conn) : Prop :=
  writes_succeed c /\ Forall (eq FlOk) (tx_fl (wh_tx (cn_wh c))).

(** [c] is a connection with a write buffer of [L] bytes on which [open] just succeeded. *)
Definition established (C : crypto) (L : nat) (c : conn) : Prop :=
  exists (V : Type) (p : provider V) cfg v rbuf wbuf rx tx c0,
    length (p_random p) = 32 /\
    cn_new C rbuf wbuf rx tx = Ok c0 /\ length wbuf = L /\ cn_open C p cfg v c0 = (Ok tt, c).

(** A connection on which the application has made the calls [ops] since [open]. *)
Definition used (C : crypto) (L : nat) (c : conn) : Prop :=
  exists c0 ops, established C L c0 /\ forallb (fun o => negb (is_close o)) ops = true /\
    c = snd (run C ops c0).

(** ** The buffered record, from the calls alone

    [cap] is how many bytes one record may carry ([L - 133]).  [None]: no record has been
    started; [Some n]: one with [n] bytes of content waits in the buffer. *)
Definition started1 (cap : nat) (s : option nat) (p : op * outcome tls_error value) : option nat :=
  let f := match s with Some n => n | None => 0 end in
  match p with
  | (OpWrite _, Ok (VCount n)) => if f + n =? cap then None else Some (f + n)
  | (OpWrite _, Err MissingHandshake) => s
  | (OpWrite _, _) | (OpFlush, _) => None
  | _ => s
  end.
Definition started (cap : nat) (rs : list (op * outcome tls_error value)) : option nat :=
  fold_left (started1 cap) rs None.
Definition fill (s : option nat) : nat := match s with Some n => n | None => 0 end.

(** The flush policy in force. *)
Definition policy1 (q : flush_policy) (p : op * outcome tls_error value) : flush_policy :=
  match fst p with OpSetPolicy q' => q' | _ => q end.
Definition policy_of (rs : list (op * outcome tls_error value)) : flush_policy := fold_left policy1 rs Strict.
