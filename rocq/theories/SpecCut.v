(** * Specification vocabulary: cutting what the application writes, into calls and into records *)
From Coq Require Import List NArith Arith Bool.
From Coq.Strings Require Import Byte.
From Verif Require Import Base Crypto Transport Connection Api Loops SpecWire SpecKeys SpecRecord SpecSend SpecLoops.
Import ListNotations.

(** What a program does with the cuts between its [write_all] calls removed: calls that follow one another are one call
    with all of their bytes, and nothing is left of a call without bytes. *)
Definition before (b : bytes) (l : list io_call) : list io_call :=
  match b, l with
  | [], _ => l
  | _, WriteAll b' :: l' => WriteAll (b ++ b') :: l'
  | _, _ => WriteAll b :: l
  end.
Fixpoint joined (l : list io_call) : list io_call :=
  match l with
  | [] => []
  | WriteAll b :: l' => before b (joined l')
  | k :: l' => k :: joined l'
  end.

(** The failure that ended a program, if one did. *)
Definition failure (os : list (outcome call_error bytes)) : option (outcome call_error bytes) :=
  find (fun o => match o with Ok _ => false | _ => true end) os.

(** [d] in pieces of [cap] bytes, the last one with what is left. *)
Definition pieces (cap : nat) (d : bytes) (ps : list bytes) : Prop :=
  concat ps = d /\ Forall (fun p => 0 < length p <= cap) ps /\ forall ps1 p, ps = ps1 ++ [p] -> Forall (fun q => length q = cap) ps1.

(** A program that writes [ds] one after the other and flushes after each. *)
Definition write_and_flush (ds : list bytes) : list io_call := concat (map (fun d => [WriteAll d; Flush]) ds).

(** The records with contents [ps], numbered from [n] on, each handed to the transport whole and followed by a flush. *)
Fixpoint flushed_records (C : crypto) (key iv : bytes) (n : N) (ps : list bytes) : list tx_event :=
  match ps with
  | [] => []
  | p :: ps' =>
      let r := rfc_record C key iv n ty_data p 0 in
      TxWrite r (length r) :: TxFlush :: flushed_records C key iv (n + 1) ps'
  end.
