(** * What a transport can do wrong, and what a call must say about it *)
From Coq Require Import List NArith.
From Verif Require Import Base Transport RecordReader Connection Api.
Import ListNotations.

(** A call of the transport can fail with a kind, be dropped while pending (async), or,
    for a read, report the end of the stream. *)
Inductive fault := F_Err (k : io_kind) | F_Cancel | F_End.

Definition rx_fault (e : rx_event) : list fault :=
  match e with RxData [] => [F_End] | RxData (_ :: _) => [] | RxErr k => [F_Err k] | RxCancel => [F_Cancel] end.
Definition wr_fault (a : wr_answer) : list fault :=
  match a with WrOk => [] | WrErr _ k => [F_Err k] | WrCancel _ => [F_Cancel] end.
Definition fl_fault (a : fl_answer) : list fault :=
  match a with FlOk => [] | FlErr k => [F_Err k] | FlCancel => [F_Cancel] end.

(** The faults still ahead of a connection: of its reads, its writes, its flushes. *)
Record ahead := mk_ahead { a_rx : list fault; a_wr : list fault; a_fl : list fault }.
Definition faults_of (rx : list rx_event) (wr : list wr_answer) (fl : list fl_answer) : ahead :=
  mk_ahead (flat_map rx_fault rx) (flat_map wr_fault wr) (flat_map fl_fault fl).
Definition faults (c : conn) : ahead :=
  faults_of (rd_rx (cn_rd c)) (tx_wr (wh_tx (cn_wh c))) (tx_fl (wh_tx (cn_wh c))).

(** Between [a] and [b] exactly the fault [f] happened. *)
Definition met (f : fault) (a b : ahead) : Prop :=
  a = mk_ahead (f :: a_rx b) (a_wr b) (a_fl b) \/
  a = mk_ahead (a_rx b) (f :: a_wr b) (a_fl b) \/
  a = mk_ahead (a_rx b) (a_wr b) (f :: a_fl b).

(** What the result of a call says about the transport's behaviour during the call;
    [rx] is what is still to be read after it. *)
Definition truthful {A} (r : outcome tls_error A) (a b : ahead) (rx : list rx_event) : Prop :=
  match r with
  | Err (Io k) => met (F_Err k) a b
  | Err IoError => met F_End a b \/ (a = b /\ rx = [])
  | Cancelled => met F_Cancel a b
  | _ => a = b
  end.

Definition reports_truly {A} (r : outcome tls_error A) (c c' : conn) : Prop :=
  truthful r (faults c) (faults c') (rd_rx (cn_rd c')).

(** The user's functions report no transport errors of their own. *)
Definition no_io {A} (r : outcome tls_error A) : Prop :=
  match r with Err (Io _) | Err IoError | Cancelled => False | _ => True end.
Definition provider_no_io {V} (p : provider V) : Prop :=
  (forall n v, no_io (fst (p_set_hostname p n v))) /\
  (forall tr cert v, no_io (fst (p_verify_cert p tr cert v))) /\
  (forall s v, no_io (fst (p_verify_sig p s v))) /\
  no_io (p_signer p).

(** The errors of a transport, in a history of results and in what is ahead; the end of
    the stream is not an error of the transport. *)
Definition is_error (f : fault) : bool := match f with F_End => false | _ => true end.
Definition errors (a : ahead) : list fault := filter is_error (a_rx a ++ a_wr a ++ a_fl a).
Definition told {A} (r : outcome tls_error A) : list fault :=
  match r with Err (Io k) => [F_Err k] | Cancelled => [F_Cancel] | _ => [] end.
