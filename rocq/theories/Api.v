(** * Model of src/blocking.rs / src/asynch.rs: the connection API

    blocking.rs and asynch.rs are the same code modulo [await]; lines cite blocking.rs. *)
From Coq Require Import List NArith Arith Bool.
From Coq.Strings Require Import Byte.
From Verif Require Import Base ParseBuffer Buffer Codes Extensions Crypto KeySchedule Config
  Handshake Record WriteBuffer Transport RecordReader ReadBuffer Connection.
Import ListNotations.

(** blocking.rs:57-71 [TlsConnection::new]. *)
Definition cn_new (C : crypto) (rbuf wbuf : bytes) (rx : list rx_event) (tx : txst)
  : outcome tls_error conn :=
  w <-- wb_new wbuf ;;
  let k := ks_new C in
  Ok (mk_conn (rd_new rbuf rx (ks_r k)) dec_default
        (mk_whalf w (ks_w k) tx policy_default) (ks_shared k) false).

(** blocking.rs:87-89 [set_flush_policy]. *)
Definition cn_set_policy (p : flush_policy) : M conn tls_error unit :=
  on_wh (modify (fun w => mk_whalf (wh_wb w) (wh_ks w) (wh_tx w) p)).

(** ** Sending *)

(** blocking.rs:160-177 [flush] (and 508-524 for [TlsWriter]). *)
Definition wh_flush (C : crypto) : M whalf tls_error unit :=
  w <- get ;;
  if wb_is_empty (wh_wb w) then ret tt
  else
    s <- on_wb (wb_close_record C (w_state (wh_ks w))) ;;
    on_tx (tx_write_all s) ;;;
    wh_increment ;;;
    if policy_flush_transport (wh_policy w) then on_tx tx_flush else ret tt.

(** blocking.rs:135-156 [write] (and 485-506 for [TlsWriter]); [opened] is the flag as
    read at the start. *)
Definition wh_write (C : crypto) (opened : bool) (buf : bytes) : M whalf tls_error nat :=
  if opened then
    w <- get ;;
    (if wb_contains (wh_wb w) RH_AppData then ret tt
     else wh_flush C ;;; on_wb (wb_start_record RH_AppData)) ;;;
    w1 <- get ;;
    nb <- lift (wb_append (wh_wb w1) buf) ;;
    on_wb (put (snd nb)) ;;;
    full <- lift (wb_is_full (snd nb)) ;;
    (if full then wh_flush C else ret tt) ;;;
    ret (fst nb)
  else fail MissingHandshake.

Definition cn_flush (C : crypto) : M conn tls_error unit := on_wh (wh_flush C).
Definition cn_write (C : crypto) (buf : bytes) : M conn tls_error nat :=
  c <- get ;; on_wh (wh_write C (cn_opened c) buf).

(** blocking.rs:233-253 [close_internal]; 256-261 [close] returns the socket and the
    error. *)
Definition cn_close (C : crypto) : M conn tls_error unit :=
  cn_flush C ;;;
  c <- get ;;
  s <- cn_write_record C (cr_close_notify (cn_opened c)) ;;
  on_wh (on_tx (tx_write_all s)) ;;;
  on_wh wh_increment ;;;
  on_wh (on_tx tx_flush).

(** ** Receiving *)

(** common/decrypted_read_handler.rs:15-63 [handle].  The pointers are positions in the
    read buffer, of length [n]; the state is the buffer info and the [is_open] flag. *)
Definition read_handler (n : nat) (k : rks) (rec : server_record)
  : M (dec_info * bool) tls_error unit :=
  match rec with
  | SR_AppData _ off data =>
      s <- lift (cb_as_slice data) ;;
      let start := off + cb_off data in
      let stop := start + length s in
      if (start <? n) && (stop <? n) then
        modify (fun st => (mk_dec start (length s) 0, snd st))
      else panic PAssert
  | SR_Alert _ d =>
      match d with
      | AD_CloseNotify => modify (fun st => (fst st, false)) ;;; fail ConnectionClosed
      | _ => fail InternalError
      end
  | SR_ChangeCipherSpec => fail InternalError
  | SR_Handshake SH_NewSessionTicket => ret tt
  | SR_Handshake _ => panic PUnimplemented
  end.

(** The receiving side: the record reader, the buffer info and the [opened] flag. *)
Definition rhalf : Type := rdst * (dec_info * bool).

(** blocking.rs:214-231 [read_application_data] (and 381-401 for [TlsReader], which
    works on a local copy of the flag and stores it back if it became false). *)
Definition read_application_data (C : crypto) : M rhalf tls_error unit :=
  rec <- on_fst (rd_read C) ;;
  st <- get ;;
  decrypt_record C (read_handler (length (rd_buf (fst st)))) rec.

(** blocking.rs:204-206, the loop of [read_buffered]. *)
Fixpoint fill_loop (C : crypto) (fuel : nat) : M rhalf tls_error unit :=
  st <- get ;;
  e <- lift (dec_is_empty (fst (snd st))) ;;
  if negb e then ret tt
  else
    match fuel with
    | O => lift Diverge
    | S f => read_application_data C ;;; fill_loop C f
    end.

(** blocking.rs:202-212 [read_buffered] (and 369-379); the [ReadBuffer] it returns. *)
Definition rh_read_buffered (C : crypto) : M rhalf tls_error rbuf :=
  st <- get ;;
  let '(_, (_, opened)) := (st : rhalf) in
  if (opened : bool) then
    fill_loop C (S (rx_size (rd_rx (fst st)))) ;;;
    st' <- get ;;
    lift (create_read_buffer (fst (snd st')) (rd_buf (fst st')))
  else fail MissingHandshake.

Definition rh_set_dec (d : dec_info) : M rhalf tls_error unit :=
  modify (fun st => (fst st, (d, snd (snd st)))).

(** The [ReadBuffer] goes out of scope. *)
Definition rh_drop (r : rbuf) : M rhalf tls_error unit :=
  st <- get ;; rh_set_dec (rb_drop r (fst (snd st))).

(** blocking.rs:189-199 [read] (and 453-463) into a destination [buf]; returns the
    count and the new contents of the destination. *)
Definition rh_read (C : crypto) (buf : bytes) : M rhalf tls_error (nat * bytes) :=
  if length buf =? 0 then ret (0, buf)
  else
    r <- rh_read_buffered C ;;
    bnr <- lift (rb_pop_into buf r) ;;
    rh_drop (snd bnr) ;;;
    ret (snd (fst bnr), fst (fst bnr)).

(** blocking.rs:316-318 [fill_buf] (and 471-473): [read_buffered().map(|mut b| b.peek_all())]. *)
Definition rh_fill_buf (C : crypto) : M rhalf tls_error bytes :=
  r <- rh_read_buffered C ;;
  sr <- lift (rb_peek_all r) ;;
  rh_drop (snd sr) ;;;
  ret (fst sr).

(** blocking.rs:320-322 [consume] (and 475-477): [create_read_buffer().pop(amt)]. *)
Definition rh_consume (amt : nat) : M rhalf tls_error unit :=
  st <- get ;;
  r <- lift (create_read_buffer (fst (snd st)) (rd_buf (fst st))) ;;
  sr <- lift (rb_pop amt r) ;;
  rh_drop (snd sr).

(** User code holding a [ReadBuffer]: a list of calls and how it ends. *)
Inductive rb_op := RbPeek (n : nat) | RbPeekAll | RbPop (n : nat) | RbPopAll | RbPopInto (n : nat).
Inductive rb_end := RbDrop | RbRevert.

Definition rb_step (o : rb_op) (r : rbuf) : outcome tls_error (bytes * rbuf) :=
  match o with
  | RbPeek n => rb_peek n r
  | RbPeekAll => rb_peek_all r
  | RbPop n => rb_pop n r
  | RbPopAll => rb_pop_all r
  | RbPopInto n =>
      bnr <-- rb_pop_into (zeros n) r ;;
      let '(b, m, r') := bnr in Ok (firstn m b, r')
  end.

Fixpoint rb_run (ops : list rb_op) (r : rbuf) : outcome tls_error (list bytes * rbuf) :=
  match ops with
  | [] => Ok ([], r)
  | o :: ops' =>
      p <-- rb_step o r ;;
      q <-- rb_run ops' (snd p) ;;
      Ok (fst p :: fst q, snd q)
  end.

Definition rh_with_buffer (C : crypto) (ops : list rb_op) (fin : rb_end)
  : M rhalf tls_error (list bytes) :=
  r <- rh_read_buffered C ;;
  p <- lift (rb_run ops r) ;;
  match fin with
  | RbDrop => rh_drop (snd p)
  | RbRevert => st <- get ;; rh_set_dec (rb_revert (snd p) (fst (snd st)))
  end ;;;
  ret (fst p).

(** Run a receiving operation on the whole connection. *)
Definition on_rh {A} (m : M rhalf tls_error A) : M conn tls_error A :=
  fun c =>
    let '(o, (r, (d, op))) := m (cn_rd c, (cn_dec c, cn_opened c)) in
    (o, mk_conn r d (cn_wh c) (cn_shared c) op).

(** ** Histories *)

(** The public operations of an established connection. *)
Inductive op :=
| OpWrite (b : bytes) | OpFlush | OpSetPolicy (p : flush_policy)
| OpRead (dst : bytes) | OpFillBuf | OpConsume (n : nat)
| OpReadBuffered (ops : list rb_op) (fin : rb_end)
| OpClose.

(** What the caller gets back. *)
Inductive value :=
| VUnit | VCount (n : nat) | VRead (n : nat) (dst : bytes) | VBytes (b : bytes) | VSlices (l : list bytes).

Definition step (C : crypto) (o : op) : M conn tls_error value :=
  match o with
  | OpWrite b => n <- cn_write C b ;; ret (VCount n)
  | OpFlush => cn_flush C ;;; ret VUnit
  | OpSetPolicy p => cn_set_policy p ;;; ret VUnit
  | OpRead dst => nb <- on_rh (rh_read C dst) ;; ret (VRead (fst nb) (snd nb))
  | OpFillBuf => b <- on_rh (rh_fill_buf C) ;; ret (VBytes b)
  | OpConsume n => on_rh (rh_consume n) ;;; ret VUnit
  | OpReadBuffered ops fin => l <- on_rh (rh_with_buffer C ops fin) ;; ret (VSlices l)
  | OpClose => cn_close C ;;; ret VUnit
  end.

(** A history: the calls are made one after the other, whatever they return, until one
    panics (or its fuel runs out); [close] consumes the connection. *)
Fixpoint run (C : crypto) (ops : list op) (c : conn) : list (op * outcome tls_error value) * conn :=
  match ops with
  | [] => ([], c)
  | o :: ops' =>
      let '(r, c') := step C o c in
      match o, r with
      | OpClose, _ | _, Panic _ | _, Diverge => ([(o, r)], c')
      | _, _ => let '(rs, c'') := run C ops' c' in ((o, r) :: rs, c'')
      end
  end.
