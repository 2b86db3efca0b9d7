(** * Specification vocabulary for the receiving side *)
From Coq Require Import List NArith Arith Bool.
From Coq.Strings Require Import Byte.
From Verif Require Import Base Crypto Record ReadBuffer Transport RecordReader KeySchedule Connection Api
  SpecWire SpecCodes SpecMessages SpecKeys SpecRecord SpecSend.
Import ListNotations.

(** ** The byte stream *)

(** The bytes a transport delivers, however they are cut into reads. *)
Definition stream (rx : list rx_event) : bytes :=
  concat (map (fun e => match e with RxData b => b | _ => [] end) rx).

(** A transport that delivers its bytes in non-empty pieces, then end-of-file. *)
Definition chunked (rx : list rx_event) : Prop := Forall (fun e => exists b, e = RxData b /\ b <> []) rx.

(** A record as framed on the wire (RFC 8446 section 5.1): five header bytes, the last two
    being the length of the fragment that follows. *)
Definition framed (h frag : bytes) : Prop :=
  length h = 5 /\ be_val (skipn 3 h) = N.of_nat (length frag).

(** The records of a byte stream, one after the other. *)
Definition wire_of (fs : list (bytes * bytes)) : bytes := concat (map (fun hf => fst hf ++ snd hf) fs).

(** The record type byte is one TLS knows (0 invalid, 20..23). *)
Definition type_known (h : bytes) : Prop :=
  match h with
  | t :: _ => In (Byte.to_N t) [0; 20; 21; 22; 23]%N
  | [] => False
  end.

(** A record can be read into a buffer of [n] bytes. *)
Definition readable (n : nat) (hf : bytes * bytes) : Prop :=
  framed (fst hf) (snd hf) /\ type_known (fst hf) /\ length (snd hf) <= n.

(** [n] successive reads of a record, whatever each returns. *)
Fixpoint reads (C : crypto) (n : nat) (s : rdst) : list (outcome tls_error server_record) * rdst :=
  match n with
  | O => ([], s)
  | S n' => let '(o, s1) := rd_read C s in let '(os, s2) := reads C n' s1 in (o :: os, s2)
  end.

(** What records mean, one after the other: each header and fragment decoded in turn, the
    handshake transcript growing as handshake messages pass. *)
Fixpoint meaning (C : crypto) (tr : bytes) (fs : list (bytes * bytes)) : list (outcome tls_error server_record) :=
  match fs with
  | [] => []
  | (h, f) :: r =>
      match sr_decode C h 0 f tr with
      | Ok (rec, tr') => Ok rec :: meaning C tr' r
      | o => omap fst o :: meaning C tr r
      end
  end.

(** Forget where in the read buffer an application data record lies. *)
Definition anywhere (r : server_record) : server_record :=
  match r with SR_AppData h _ d => SR_AppData h 0 d | _ => r end.

(** ** Authentic records *)

(** [a] is [b] with some elements left out. *)
Inductive subseq {A} : list A -> list A -> Prop :=
| ss_nil b : subseq [] b
| ss_skip x a b : subseq a b -> subseq a (x :: b)
| ss_keep x a b : subseq a b -> subseq (x :: a) (x :: b).

(** A record that arrived in the byte stream [w]: the header, then a fragment that ends with
    the bytes following the header; bytes left over from an earlier read that was interrupted
    may have been put in front of those. *)
Definition received_in (w h f : bytes) : Prop :=
  exists pre x post old, w = pre ++ h ++ x ++ post /\ f = old ++ x /\ subseq old pre.

(** Records received in [w] with the contents [l] (inner type and content, RFC 8446 section
    5.2) open under a key and an IV with the sequence numbers [n], [n+1], ... *)
Inductive opens (C : crypto) (w key iv : bytes) : N -> list (byte * bytes) -> Prop :=
| op_nil n : opens C w key iv n []
| op_cons n h f inner t c l : framed h f -> received_in w h f ->
    rfc_open C key iv n h f = Some inner -> rfc_unpad inner = Some (t, c) ->
    opens C w key iv (n + 1) l -> opens C w key iv n ((t, c) :: l).

(** The application data among them. *)
Definition data_of (l : list (byte * bytes)) : list bytes :=
  map snd (filter (fun tc => byte_eqb (fst tc) ty_data) l).

(** ** The application's view: a queue of bytes *)

(** A handle ([ReadBuffer]) on the bytes [q]: what each call returns, and what is left. *)
Fixpoint handle (ops : list rb_op) (q : bytes) : list bytes * bytes :=
  match ops with
  | [] => ([], q)
  | o :: ops' =>
      let '(shown, q1) :=
        match o with
        | RbPeek n => (firstn n q, q)
        | RbPeekAll => (q, q)
        | RbPop n => (firstn n q, skipn n q)
        | RbPopAll => (q, [])
        | RbPopInto n => (firstn n q, skipn n q)
        end in
      let '(vs, q2) := handle ops' q1 in (shown :: vs, q2)
  end.

(** What a handle on [q] leaves in the queue: [revert] everything; dropping it unused
    nothing; dropping it after use what was not popped. *)
Definition handle_left (ops : list rb_op) (fin : rb_end) (q : bytes) : bytes :=
  match fin, ops with
  | RbRevert, _ => q
  | RbDrop, [] => []
  | RbDrop, _ => snd (handle ops q)
  end.

(** The receiving calls. *)
Definition receives (o : op) : bool :=
  match o with OpRead _ | OpFillBuf | OpConsume _ | OpReadBuffered _ _ => true | _ => false end.

(** [take o r q got q']: the call [o] with the queue [q] in front of it returns [r], removes
    [got] and leaves [q'].  A call that fails, or is not a receiving call, takes nothing. *)
Inductive take : op -> outcome tls_error value -> bytes -> bytes -> bytes -> Prop :=
| tk_nothing q : take (OpRead []) (Ok (VRead 0 [])) q [] q
| tk_read dst q n : dst <> [] -> q <> [] -> n = Nat.min (length dst) (length q) ->
    take (OpRead dst) (Ok (VRead n (firstn n q ++ skipn n dst))) q (firstn n q) (skipn n q)
| tk_fill q : q <> [] -> take OpFillBuf (Ok (VBytes q)) q [] q
| tk_consume n q : take (OpConsume n) (Ok VUnit) q (firstn n q) (skipn n q)
| tk_handle ops fin q got : q <> [] -> q = got ++ handle_left ops fin q ->
    take (OpReadBuffered ops fin) (Ok (VSlices (fst (handle ops q)))) q got (handle_left ops fin q)
| tk_failed o r q : (forall v, r <> Ok v) -> take o r q [] q
| tk_other o r q : receives o = false -> take o r q [] q.

(** A history [rs] of calls and results on a queue [q], to which the contents [cs] of records
    are added, in order and only while it is empty; [got] is everything taken. *)
Inductive fifo : bytes -> list (op * outcome tls_error value) -> list bytes -> bytes -> bytes -> Prop :=
| ff_nil q : fifo q [] [] [] q
| ff_call q o r rs cs1 cs got1 q1 got q2 :
    (q <> [] -> cs1 = []) -> take o r (q ++ concat cs1) got1 q1 -> fifo q1 rs cs got q2 ->
    fifo q ((o, r) :: rs) (cs1 ++ cs) (got1 ++ got) q2.

(** The bytes that [read] calls returned (the other calls return slices, see [take]). *)
Definition read_bytes (rs : list (op * outcome tls_error value)) : bytes :=
  concat (map (fun p => match p with (OpRead _, Ok (VRead n b)) => firstn n b | _ => [] end) rs).

Definition only_reads (ops : list op) : Prop :=
  Forall (fun o => receives o = true -> exists dst, o = OpRead dst) ops.

(** ** A server that keeps to the protocol *)

(** The current read key and IV (their values: C08). *)
Definition read_key (c : conn) : bytes := k_key (r_state (rd_ks (cn_rd c))).
Definition read_iv (c : conn) : bytes := k_iv (r_state (rd_ks (cn_rd c))).

(** A record the server sends: inner type, content, amount of padding. *)
Definition sent_record : Type := (byte * bytes) * nat.

(** These on the wire, protected with the sequence numbers [n], [n+1], ... *)
Fixpoint server_wire (C : crypto) (key iv : bytes) (n : N) (srv : list sent_record) : bytes :=
  match srv with
  | [] => []
  | ((t, c), pad) :: r => rfc_record C key iv n t c pad ++ server_wire C key iv (n + 1) r
  end.

(** A NewSessionTicket message (RFC 8446 section 4.6.1): extensions the client does not know,
    and at most one early_data (42). *)
Definition is_nst (m : bytes) : Prop :=
  exists lifetime age_add nonce ticket items,
    m = message (F_NewSessionTicket lifetime age_add nonce ticket) items /\
    frame_ok (F_NewSessionTicket lifetime age_add nonce ticket) /\ block_ok items /\
    Forall (fun i => recognised (fst i) -> fst i = 42%N) items /\
    length (filter (fun i => N.eqb (fst i) 42) items) <= 1.

(** ** What ends a session, and what crashes the client *)

(** An alert saying close_notify (RFC 8446 section 6: level 1 or 2, description 0). *)
Definition is_close_notify (c : bytes) : Prop :=
  exists lvl rest, c = lvl :: x00 :: rest /\ (lvl = x01 \/ lvl = x02).

(** The record [h], [f] is a close_notify that opens under the key with number [n]. *)
Definition authentic_close (C : crypto) (key iv : bytes) (n : N) (h f : bytes) : Prop :=
  exists inner c, rfc_open C key iv n h f = Some inner /\ rfc_unpad inner = Some (ty_alert, c) /\ is_close_notify c.

(** It is a close_notify in the clear. *)
Definition plain_close (h f : bytes) : Prop := hd_error h = Some ty_alert /\ is_close_notify f.

(** The record [h], [f], coming when the record number [n] is expected, makes the client panic at
    a call of [unwrap] or of [unimplemented]. *)
Definition crashes (C : crypto) (key iv : bytes) (n : N) (h f : bytes) (x : panic_site) : Prop :=
  (* in the clear: a handshake message, not NewSessionTicket *)
  (hd_error h = Some ty_handshake /\ ~ is_nst f /\ x = PUnimplemented) \/
  exists inner, rfc_open C key iv n h f = Some inner /\
    ((* nothing inside, not even a type *) inner = [] /\ x = PUnwrap \/
     (* the sequence numbers are exhausted *) (u64_max <= n)%N /\ x = PUnwrap \/
     (* handshake messages, not all of them NewSessionTicket *)
     (exists c, rfc_unpad inner = Some (ty_handshake, c) /\ ~ (exists ms, c = concat ms /\ Forall is_nst ms)) /\ x = PUnimplemented).

(** What the server sends after the handshake: application data, or a record of
    NewSessionTicket messages; any padding, as long as the encrypted record fits a read
    buffer of [lim] bytes and its 16-bit length field. *)
Definition served (C : crypto) (lim : nat) (r : sent_record) : Prop :=
  let '((t, c), pad) := r in
  (t = ty_data \/ t = ty_handshake /\ exists ms, c = concat ms /\ Forall is_nst ms) /\
  length c + 1 + pad + tag_len C <= lim /\ (N.of_nat (length c + 1 + pad + tag_len C) < 65536)%N.

(** ** Connections *)

(** The bytes still to come, the size of the read buffer, the number of the next record. *)
Definition incoming (c : conn) : bytes := stream (rd_rx (cn_rd c)).
Definition room (c : conn) : nat := length (rd_buf (cn_rd c)).
Definition next_seq (c : conn) : N := k_counter (r_state (rd_ks (cn_rd c))).

(** From here on the transport only delivers bytes, then end-of-file. *)
Definition steady (c : conn) : Prop := chunked (rd_rx (cn_rd c)).

(** No part of a record was taken off the transport by a read that failed. *)
Definition at_boundary (c : conn) : Prop := rd_pending (cn_rd c) = 0.

(** The decrypted bytes of the current record that no call has taken yet. *)
Definition unread_of (s : rdst) (d : dec_info) : bytes :=
  sub (rd_buf s) (d_offset d + d_consumed d) (d_len d - d_consumed d).
Definition unread (c : conn) : bytes := unread_of (cn_rd c) (cn_dec c).

(** The calls that wait for data when there is none. *)
Definition waits (o : op) : bool :=
  match o with OpRead (_ :: _) | OpFillBuf | OpReadBuffered _ _ => true | _ => false end.

(** The call returned (with a value, an error, or because it was cancelled). *)
Definition returned (p : op * outcome tls_error value) : Prop :=
  match snd p with Panic _ | Diverge => False | _ => True end.

(** The connection after the calls [ops] on an established connection, all of which
    returned; the calls do not include [close], which consumes the connection. *)
Definition in_use (C : crypto) (L : nat) (c : conn) : Prop :=
  exists c0 ops, established C L c0 /\ forallb (fun o => negb (is_close o)) ops = true /\
    Forall returned (fst (run C ops c0)) /\ c = snd (run C ops c0).

(** ... with the session still open, in front of the next record. *)
Definition waiting (C : crypto) (L : nat) (c : conn) : Prop :=
  in_use C L c /\ cn_opened c = true /\ unread c = [] /\ at_boundary c /\ steady c.

(** The record with any inner plaintext at all, even none. *)
Definition sealed_record (C : crypto) (key iv : bytes) (n : N) (inner : bytes) : bytes :=
  let h := rfc_header (length inner + tag_len C) in
  let '(ct, tag) := c_seal C key (rfc_nonce iv n) h inner in
  h ++ ct ++ tag.

(** The record number [n] of the server. *)
Definition server_record_no (C : crypto) (key iv : bytes) (srv : list sent_record) (n : N) : option bytes :=
  match nth_error srv (N.to_nat n) with
  | Some ((t, c), pad) => Some (rfc_record C key iv n t c pad)
  | None => None
  end.
