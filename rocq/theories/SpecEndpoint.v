(** * Specification: an open connection as two machines that share one flag *)
From Coq Require Import String List NArith Arith Bool.
From Coq.Strings Require Import Byte.
From Verif Require Import Base Crypto KeySchedule Config WriteBuffer Transport Connection Api SpecWire SpecKeys SpecRecord
  SpecSend SpecRead SpecReceiver.
Import ListNotations.
Local Open Scope list_scope.

(** ** Sending *)

(** The content of the record that is being collected, if one was started; the number of the next record; the flush
    policy; the transport with what it was handed so far and how it will answer. *)
Record sender := mk_sender { t_data : option bytes; t_next : N; t_policy : flush_policy; t_tx : txst }.

(** An error of the transport, as the caller sees it. *)
Definition io_error {A} (o : outcome io_kind unit) (ok : outcome tls_error A) : outcome tls_error A :=
  match o with
  | Ok _ => ok
  | Err k => Err (Io k)
  | Panic x => Panic x
  | Diverge => Diverge
  | Cancelled => Cancelled
  end.

(** The record [rec] goes to the transport; it is counted if the transport took it - the count is for the records that follow; and the
    transport is flushed if [strict].  A record that the transport did not take is lost. *)
Definition emit (rec : bytes) (strict : bool) (s : sender) : outcome tls_error unit * sender :=
  let '(o, tx1) := tx_write_all rec (t_tx s) in
  match o with
  | Ok _ =>
      if (t_next s <? u64_max)%N then
        if strict then
          let '(o2, tx2) := tx_flush tx1 in (io_error o2 (Ok tt), mk_sender None (t_next s + 1) (t_policy s) tx2)
        else (Ok tt, mk_sender None (t_next s + 1) (t_policy s) tx1)
      else (Panic PUnwrap, mk_sender None (t_next s) (t_policy s) tx1)
  | _ => (io_error o (Ok tt), mk_sender None (t_next s) (t_policy s) tx1)
  end.

Definition strictly (p : flush_policy) : bool := match p with Strict => true | Relaxed => false end.

Section Machine.
Context (C : crypto).

(** The record that was collected so far is sent. *)
Definition emit_data (key iv : bytes) (s : sender) : outcome tls_error unit * sender :=
  match t_data s with
  | None => (Ok tt, s)
  | Some x => emit (rfc_record C key iv (t_next s) ty_data x 0) (strictly (t_policy s)) s
  end.

(** The last record: protected as long as the session is open.  Without protection its content type is 20 and not 21
    (record.rs:49). *)
Definition farewell (key iv : bytes) (opened : bool) (n : N) : bytes :=
  if opened then rfc_record C key iv n ty_alert [x01; x00] 0
  else [x14; x03; x01; x00; x02; x01; x00].

Definition result_of {A} (o : outcome tls_error A) (v : value) : outcome tls_error value :=
  match o with Ok _ => Ok v | Err e => Err e | Panic x => Panic x | Diverge => Diverge | Cancelled => Cancelled end.

(** A call that does not receive; [cap] is the most that one record carries, [opened] says whether the session is open. *)
Definition transmit (key iv : bytes) (cap : nat) (opened : bool) (o : op) (s : sender) : outcome tls_error value * sender :=
  match o with
  | OpWrite b =>
      if opened then
        let x := match t_data s with Some x => x | None => [] end in
        let n := Nat.min (length b) (cap - length x) in
        let s1 := mk_sender (Some (x ++ firstn n b)) (t_next s) (t_policy s) (t_tx s) in
        if length x + n =? cap then let '(r, s2) := emit_data key iv s1 in (result_of r (VCount n), s2)
        else (Ok (VCount n), s1)
      else (Err MissingHandshake, s)
  | OpFlush => let '(r, s1) := emit_data key iv s in (result_of r VUnit, s1)
  | OpSetPolicy p => (Ok VUnit, mk_sender (t_data s) (t_next s) p (t_tx s))
  | OpClose =>
      let '(r, s1) := emit_data key iv s in
      match r with
      | Ok _ => let '(r2, s2) := emit (farewell key iv opened (t_next s1)) true s1 in (result_of r2 VUnit, s2)
      | _ => (result_of r VUnit, s1)
      end
  | _ => (Ok VUnit, s)
  end.

(** ** Both directions *)

Record endpoint := mk_endpoint { e_recv : receiver; e_send : sender }.

(** Read key and IV, size of the read buffer; write key and IV, most bytes in a record. *)
Record session := mk_session { n_rkey : bytes; n_riv : bytes; n_room : nat; n_wkey : bytes; n_wiv : bytes; n_cap : nat }.

(** One call: the receiving machine acts, or the sending one.  The sending machine looks at the flag of the receiving
    machine; nothing else is shared. *)
Inductive act (k : session) : endpoint -> op -> outcome tls_error value -> endpoint -> Prop :=
| ac_receive s t o r s' : receives o = true -> receive C (n_rkey k) (n_riv k) (n_room k) s o r s' ->
    act k (mk_endpoint s t) o r (mk_endpoint s' t)
| ac_send s t o r t' : receives o = false -> transmit (n_wkey k) (n_wiv k) (n_cap k) (q_open s) o t = (r, t') ->
    act k (mk_endpoint s t) o r (mk_endpoint s t').

(** The connection is gone: it was closed, or the client panicked. *)
Definition final (o : op) (r : outcome tls_error value) : Prop := is_close o = true \/ exists x, r = Panic x.

(** A life: the calls and their results. *)
Inductive acts (k : session) : endpoint -> list (op * outcome tls_error value) -> endpoint -> Prop :=
| as_nil s : acts k s [] s
| as_call s o r s1 rs s2 : act k s o r s1 -> (final o r -> rs = []) -> acts k s1 rs s2 -> acts k s ((o, r) :: rs) s2.

End Machine.

(** ** The connection *)

(** The record in the write buffer, behind its header of 5 bytes. *)
Definition sender_of (c : conn) : sender :=
  let w := cn_wh c in
  mk_sender (match wb_hdr (wh_wb w) with Some _ => Some (sub (wb_buf (wh_wb w)) 5 (wb_pos (wh_wb w) - 5)) | None => None end)
    (k_counter (w_state (wh_ks w))) (wh_policy w) (wh_tx w).

Definition endpoint_of (c : conn) : endpoint := mk_endpoint (receiver_of c) (sender_of c).

Definition session_of (L : nat) (c : conn) : session :=
  mk_session (read_key c) (read_iv c) (room c) (write_key c) (write_iv c) (L - 133).
