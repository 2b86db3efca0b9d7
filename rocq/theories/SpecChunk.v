(** * Specification: how the transport cuts the incoming bytes is not observable *)
From Coq Require Import List NArith Arith Bool.
From Coq.Strings Require Import Byte.
From Verif Require Import Base Crypto KeySchedule Config Transport RecordReader Connection Api SpecOpen.
Import ListNotations.

(** What a caller sees of one call. *)
Inductive answer := A_open (r : outcome tls_error unit) | A_op (r : outcome tls_error value).

(** A whole session: [open] and the other calls in any order, whatever they return, up to [close] or a panic. *)
Fixpoint session (C : crypto) {V} (l : list (call V)) (c : conn) : list answer * conn :=
  match l with
  | [] => ([], c)
  | COpen p cfg v :: l' =>
      let '(r, c1) := cn_open C p cfg v c in
      match r with
      | Panic _ | Diverge => ([A_open r], c1)
      | _ => let '(rs, c2) := session C l' c1 in (A_open r :: rs, c2)
      end
  | COp o :: l' =>
      let '(r, c1) := step C o c in
      match o, r with
      | OpClose, _ | _, Panic _ | _, Diverge => ([A_op r], c1)
      | _, _ => let '(rs, c2) := session C l' c1 in (A_op r :: rs, c2)
      end
  end.

(** The connection with other bytes to come. *)
Definition with_rx (rx : list rx_event) (c : conn) : conn :=
  mk_conn (mk_rdst (rd_buf (cn_rd c)) (rd_decoded (cn_rd c)) (rd_pending (cn_rd c)) rx (rd_ks (cn_rd c)))
    (cn_dec c) (cn_wh c) (cn_shared c) (cn_opened c).

(** One byte at a time. *)
Definition bytewise (w : bytes) : list rx_event := map (fun b => RxData [b]) w.
