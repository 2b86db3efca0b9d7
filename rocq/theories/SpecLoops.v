(** * Specification vocabulary: programs that use [write_all], [flush] and [read_exact] *)
From Coq Require Import List NArith Arith Bool.
From Coq.Strings Require Import Byte.
From Verif Require Import Base Api Loops.
Import ListNotations.

(** Everything the program wants to write; how much it wants to read; how much that is in all. *)
Definition written (l : list io_call) : bytes :=
  concat (map (fun k => match k with WriteAll b => b | _ => [] end) l).
Definition wanted (l : list io_call) : nat :=
  list_sum (map (fun k => match k with ReadExact dst => length dst | _ => 0 end) l).
Definition effort (l : list io_call) : nat :=
  list_sum (map (fun k => match k with WriteAll b => length b | ReadExact dst => length dst | Flush => 1 end) l).

(** The bytes it was given. *)
Definition returned (os : list (outcome call_error bytes)) : bytes :=
  concat (map (fun o => match o with Ok b => b | _ => [] end) os).

(** A call that succeeded did all that was asked for: [read_exact] filled the buffer. *)
Definition filled (k : io_call) (o : outcome call_error bytes) : Prop :=
  exists b, o = Ok b /\ match k with ReadExact dst => length b = length dst | _ => b = [] end.

(** How the caller of [write_all] or [read_exact] gets to see the failure of a [write], [flush] or [read]. *)
Definition passed_on (r : outcome tls_error value) (o : outcome call_error bytes) : Prop :=
  match r with
  | Ok _ => False
  | Err e => o = Err (Other e)
  | Panic p => o = Panic p
  | Diverge => False
  | Cancelled => o = Cancelled
  end.

(** The only calls that the loops make. *)
Definition plain_io (o : op) : Prop :=
  o = OpFlush \/ (exists b, o = OpWrite b /\ b <> []) \/ (exists dst, o = OpRead dst /\ dst <> []).
