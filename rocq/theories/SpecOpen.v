(** * What it means that a call ends

    The loops of [open] and [read_buffered], as the code has them, without any bound on the
    number of rounds: a run of the loop is a finite derivation. *)
From Coq Require Import List NArith Arith Bool.
From Verif Require Import Base Crypto Config Transport RecordReader ReadBuffer Connection Api.
Import ListNotations.

(** [while state != ApplicationData { state = state.process(..)?; }] (blocking.rs:109-121)
    run from state [s] leaves after [n] rounds with outcome [o]. *)
Inductive handshake_run (C : crypto) {V} (p : provider V) (cfg : tls_config) :
  nat -> hs_state -> conn * @hs_data V -> outcome tls_error unit -> conn * @hs_data V -> Prop :=
| hr_done st : handshake_run C p cfg 0 St_ApplicationData st (Ok tt) st
| hr_round s st s1 st1 n o st2 : s <> St_ApplicationData -> process C p cfg s st = (Ok s1, st1) ->
    handshake_run C p cfg n s1 st1 o st2 -> handshake_run C p cfg (S n) s st o st2
| hr_error s st e st1 : s <> St_ApplicationData -> process C p cfg s st = (Err e, st1) ->
    handshake_run C p cfg 1 s st (Err e) st1
| hr_panic s st x st1 : s <> St_ApplicationData -> process C p cfg s st = (Panic x, st1) ->
    handshake_run C p cfg 1 s st (Panic x) st1
| hr_cancelled s st st1 : s <> St_ApplicationData -> process C p cfg s st = (Cancelled, st1) ->
    handshake_run C p cfg 1 s st Cancelled st1.

(** [while self.decrypted.is_empty() { self.read_application_data()?; }] (blocking.rs:204-206). *)
Inductive fill_run (C : crypto) : nat -> rhalf -> outcome tls_error unit -> rhalf -> Prop :=
| fr_done st : dec_is_empty (fst (snd st)) = Ok false -> fill_run C 0 st (Ok tt) st
| fr_round st st1 n o st2 : dec_is_empty (fst (snd st)) = Ok true ->
    read_application_data C st = (Ok tt, st1) -> fill_run C n st1 o st2 -> fill_run C (S n) st o st2
| fr_corrupt st x : dec_is_empty (fst (snd st)) = Panic x -> fill_run C 0 st (Panic x) st
| fr_error st e st1 : dec_is_empty (fst (snd st)) = Ok true ->
    read_application_data C st = (Err e, st1) -> fill_run C 1 st (Err e) st1
| fr_panic st x st1 : dec_is_empty (fst (snd st)) = Ok true ->
    read_application_data C st = (Panic x, st1) -> fill_run C 1 st (Panic x) st1
| fr_cancelled st st1 : dec_is_empty (fst (snd st)) = Ok true ->
    read_application_data C st = (Cancelled, st1) -> fill_run C 1 st Cancelled st1.

(** The functions the user supplies return. *)
Definition provider_returns {V} (p : provider V) : Prop :=
  (forall n v, fst (p_set_hostname p n v) <> Diverge) /\ (forall tr ce v, fst (p_verify_cert p tr ce v) <> Diverge) /\
  (forall cv v, fst (p_verify_sig p cv v) <> Diverge) /\ p_signer p <> Diverge.

(** A whole life of a connection: [open], calls, [open] again, in any order and whatever each
    of them returns, up to a panic. *)
Inductive call {V} := COpen (p : provider V) (cfg : tls_config) (v : V) | COp (o : op).
Arguments call : clear implicits.
Definition call_step (C : crypto) {V} (x : call V) (c : conn) : outcome tls_error unit * conn :=
  match x with
  | COpen p cfg v => cn_open C p cfg v c
  | COp o => let '(r, c') := step C o c in (omap (fun _ => tt) r, c')
  end.
Fixpoint life (C : crypto) {V} (l : list (call V)) (c : conn) : list (outcome tls_error unit) :=
  match l with
  | [] => []
  | x :: l' =>
      let '(r, c') := call_step C x c in
      match r with Panic _ | Diverge => [r] | _ => r :: life C l' c' end
  end.
