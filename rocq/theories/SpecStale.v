(** * Specification: what was in the buffers before is not observable *)
From Coq Require Import List NArith Arith Bool.
From Coq.Strings Require Import Byte.
From Verif Require Import Base Crypto KeySchedule Config WriteBuffer Transport RecordReader ReadBuffer Connection Api SpecSend SpecOpen SpecChunk.
Import ListNotations.

(** All that the application, the peer and the transport see of a session: what each call returned, what the transport was
    given to send, and what is left of what it delivers. *)
Definition seen_outside (C : crypto) {V} (l : list (call V)) (c : conn) : list answer * list tx_event * list rx_event :=
  let '(rs, c') := session C l c in (rs, sent_log c', rd_rx (cn_rd c')).

(** The same connection with other bytes in its two buffers. *)
Definition with_buffers (rb wb : bytes) (c : conn) : conn :=
  mk_conn (mk_rdst rb (rd_decoded (cn_rd c)) (rd_pending (cn_rd c)) (rd_rx (cn_rd c)) (rd_ks (cn_rd c))) (cn_dec c)
    (mk_whalf (mk_wbuf wb (wb_pos (wh_wb (cn_wh c))) (wb_hdr (wh_wb (cn_wh c)))) (wh_ks (cn_wh c)) (wh_tx (cn_wh c)) (wh_policy (cn_wh c)))
    (cn_shared c) (cn_opened c).

(** The positions still needed: of the read buffer the plaintext the application has not taken yet and what has arrived of the
    next record; of the write buffer what has been written and not sent yet. *)
Definition read_live (c : conn) (p : nat) : Prop :=
  d_offset (cn_dec c) + d_consumed (cn_dec c) <= p < d_offset (cn_dec c) + d_len (cn_dec c) \/
  rd_decoded (cn_rd c) <= p < rd_decoded (cn_rd c) + rd_pending (cn_rd c).
Definition write_live (c : conn) (p : nat) : Prop := p < wb_pos (wh_wb (cn_wh c)).

(** Another buffer of the same length, with the same bytes at the positions in [P]. *)
Definition same_on (P : nat -> Prop) (b1 b2 : bytes) : Prop :=
  length b1 = length b2 /\ forall p, P p -> nth_error b1 p = nth_error b2 p.
