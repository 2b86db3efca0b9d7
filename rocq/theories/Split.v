(** * Model of [split]: the two halves of a connection, used by two threads

    blocking.rs:263-289, 335-525 (asynch.rs the same modulo [await]).  The halves borrow
    disjoint fields of the connection, except for the flag [opened], an [AtomicBool].  A call is
    a sequence of accesses to the flag with local work between them.  Simplified: accesses are
    sequentially consistent (there is one shared variable); the clones of the socket are its
    two directions. *)
From Coq Require Import List NArith Arith Bool.
From Verif Require Import Base ParseBuffer Buffer Codes Extensions Crypto KeySchedule Config
  Handshake Record WriteBuffer Transport RecordReader ReadBuffer Connection Api.
Import ListNotations.

(** ** Accesses to the flag *)

Inductive proc (A : Type) :=
| Ret (a : A)
| Load (k : bool -> proc A)            (* self.opened.load(Ordering::Acquire) *)
| Store (b : bool) (k : proc A).       (* self.opened.store(b, Ordering::Release) *)
Arguments Ret {A}. Arguments Load {A}. Arguments Store {A}.

Fixpoint pbind {A B} (m : proc A) (f : A -> proc B) : proc B :=
  match m with
  | Ret a => f a
  | Load k => Load (fun b => pbind (k b) f)
  | Store b k => Store b (pbind k f)
  end.

Section Split.
Context (C : crypto).

(** ** The reader *)

(** blocking.rs:335-344 [TlsReader]: its own fields. *)
Definition rlocal : Type := rdst * dec_info.

(** blocking.rs:371-373, the loop of [read_buffered], with 381-401 [read_application_data]:
    a local copy of the flag is handed to the handler and stored if it became false. *)
Fixpoint sp_fill (fuel : nat) (l : rlocal) : proc (outcome tls_error unit * rlocal) :=
  match dec_is_empty (snd l) with
  | Ok false => Ret (Ok tt, l)
  | Ok true =>
      match fuel with
      | O => Ret (Diverge, l)
      | S f =>
          let '(o, r) := rd_read C (fst l) in
          match o with
          | Ok rec =>
              Load (fun opened =>
                let '(res, (r', (d', opened'))) :=
                  decrypt_record C (read_handler (length (rd_buf r))) rec (r, (snd l, opened)) in
                match res with
                | Panic x => Ret (Panic x, (r', d'))
                | _ =>
                    let next := match res with
                                | Ok _ => sp_fill f (r', d')
                                | e => Ret (e, (r', d'))
                                end in
                    if opened' then next else Store false next
                end)
          | Err e => Ret (Err e, (r, snd l))
          | Panic x => Ret (Panic x, (r, snd l))
          | Diverge => Ret (Diverge, (r, snd l))
          | Cancelled => Ret (Cancelled, (r, snd l))
          end
      end
  | Err e => Ret (Err e, l)
  | Panic x => Ret (Panic x, l)
  | Diverge => Ret (Diverge, l)
  | Cancelled => Ret (Cancelled, l)
  end.

(** blocking.rs:369-379 [read_buffered]. *)
Definition sp_buffered (l : rlocal) : proc (outcome tls_error rbuf * rlocal) :=
  Load (fun opened =>
    if opened then
      pbind (sp_fill (S (rx_size (rd_rx (fst l)))) l) (fun ol =>
        Ret (_ <-- fst ol ;; create_read_buffer (snd (snd ol)) (rd_buf (fst (snd ol))), snd ol))
    else Ret (Err MissingHandshake, l)).

(** The calls on a [TlsReader]. *)
Inductive rcall :=
| RRead (dst : bytes) | RFill | RConsume (n : nat) | RWith (ops : list rb_op) (fin : rb_end).

(** What follows [read_buffered] in them; the flag is not touched. *)
Definition rc_after (q : rcall) (r : rbuf) : M rhalf tls_error value :=
  match q with
  | RRead dst =>
      bnr <- lift (rb_pop_into dst r) ;;
      rh_drop (snd bnr) ;;;
      ret (VRead (snd (fst bnr)) (fst (fst bnr)))
  | RFill => sr <- lift (rb_peek_all r) ;; rh_drop (snd sr) ;;; ret (VBytes (fst sr))
  | RConsume n => sr <- lift (rb_pop n r) ;; rh_drop (snd sr) ;;; ret VUnit
  | RWith ops fin =>
      p <- lift (rb_run ops r) ;;
      match fin with
      | RbDrop => rh_drop (snd p)
      | RbRevert => st <- get ;; rh_set_dec (rb_revert (snd p) (fst (snd st)))
      end ;;;
      ret (VSlices (fst p))
  end.
Definition rc_finish (q : rcall) (o : outcome tls_error rbuf) (l : rlocal) : outcome tls_error value * rlocal :=
  let '(v, (r, (d, _))) := bind (lift o) (rc_after q) (fst l, (snd l, true)) in (v, (r, d)).

(** blocking.rs:453-463 [read], 471-473 [fill_buf], 475-477 [consume], 369-379 [read_buffered]. *)
Definition rc_proc (q : rcall) (l : rlocal) : proc (outcome tls_error value * rlocal) :=
  let wait := pbind (sp_buffered l) (fun ol => Ret (rc_finish q (fst ol) (snd ol))) in
  match q with
  | RRead dst => if length dst =? 0 then Ret (Ok (VRead 0 dst), l) else wait
  | RFill | RWith _ _ => wait
  | RConsume n => Ret (rc_finish q (create_read_buffer (snd l) (rd_buf (fst l))) l)
  end.

(** ** The writer *)

(** The calls on a [TlsWriter]: blocking.rs:485-506 [write], 508-524 [flush]. *)
Inductive wcall := WWrite (b : bytes) | WFlush.

Definition wc_proc (q : wcall) (w : whalf) : proc (outcome tls_error value * whalf) :=
  match q with
  | WWrite b => Load (fun opened => Ret ((n <- wh_write C opened b ;; ret (VCount n)) w))
  | WFlush => Ret ((wh_flush C ;;; ret VUnit) w)
  end.

(** ** Two threads *)

(** A thread: its half, the calls it will still make, the call it is in, and the results so far. *)
Record thread (Q L : Type) := mk_thread {
  t_local : L;
  t_calls : list Q;
  t_now : option (Q * proc (outcome tls_error value * L));
  t_log : list (Q * outcome tls_error value) }.
Arguments mk_thread {Q L}. Arguments t_local {Q L}. Arguments t_calls {Q L}. Arguments t_now {Q L}. Arguments t_log {Q L}.

(** The call [q] has come to [p].  A thread ends with a panic. *)
Definition settle {Q L} (t : thread Q L) (calls : list Q) (q : Q) (p : proc (outcome tls_error value * L)) : thread Q L :=
  match p with
  | Ret (o, l) => mk_thread l (match o with Panic _ | Diverge => [] | _ => calls end) None (t_log t ++ [(q, o)])
  | _ => mk_thread (t_local t) calls (Some (q, p)) (t_log t)
  end.

(** One step of a thread: up to the next access to the flag. *)
Definition advance_thread {Q L} (body : Q -> L -> proc (outcome tls_error value * L)) (t : thread Q L) (flag : bool)
  : thread Q L * bool :=
  match t_now t with
  | None =>
      match t_calls t with
      | [] => (t, flag)
      | q :: qs => (settle t qs q (body q (t_local t)), flag)
      end
  | Some (q, Ret a) => (settle t (t_calls t) q (Ret a), flag)
  | Some (q, Load k) => (settle t (t_calls t) q (k flag), flag)
  | Some (q, Store b k) => (settle t (t_calls t) q k, b)
  end.

Record machine := mk_machine {
  m_flag : bool; m_reader : thread rcall rlocal; m_writer : thread wcall whalf }.

(** blocking.rs:263-289 [split], and what the two threads will call. *)
Definition split (c : conn) (rs : list rcall) (ws : list wcall) : machine :=
  mk_machine (cn_opened c)
    (mk_thread (cn_rd c, cn_dec c) rs None []) (mk_thread (cn_wh c) ws None []).

(** A schedule says who moves. *)
Inductive who := Reader | Writer.
Definition move (m : machine) (x : who) : machine :=
  match x with
  | Reader => let '(t, f) := advance_thread rc_proc (m_reader m) (m_flag m) in mk_machine f t (m_writer m)
  | Writer => let '(t, f) := advance_thread wc_proc (m_writer m) (m_flag m) in mk_machine f (m_reader m) t
  end.
Definition schedule (xs : list who) (m : machine) : machine := fold_left move xs m.
End Split.
Arguments mk_thread {Q L}. Arguments t_local {Q L}. Arguments t_calls {Q L}. Arguments t_now {Q L}. Arguments t_log {Q L}.
