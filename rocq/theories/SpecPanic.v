(** * Specification vocabulary: the ways in which [open] can panic *)
From Coq Require Import String List NArith Arith Bool.
From Coq.Strings Require Import Byte.
From Verif Require Import Base Codes Crypto KeySchedule Config Handshake Record Connection SpecWire SpecRecord SpecRead SpecMessages SpecHandshake.
Import ListNotations.
Local Open Scope list_scope.

(** A function that the user supplies panics. *)
Definition provider_panics {V} (p : provider V) (x : panic_site) : Prop :=
  (exists n v, fst (p_set_hostname p n v) = Panic x) \/
  (exists tr cert v, fst (p_verify_cert p tr cert v) = Panic x) \/
  (exists cv v, fst (p_verify_sig p cv v) = Panic x) \/
  p_signer p = Panic x.

(** The number of protected records among [rs]. *)
Definition protected_count (rs : list (bytes * bytes)) : N :=
  N.of_nat (length (filter (fun r => match hd_error (fst r) with Some t => Byte.eqb t ty_data | None => false end) rs)).

(** In the byte stream [w] there is, after a ServerHello and records [rs] that are in order, a
    record that opens under the server's handshake key with its sequence number and is empty
    inside: there is not even a content type. *)
Definition empty_record (C : crypto) {V} (p : provider V) (cfg : tls_config) (w : bytes) : Prop :=
  exists x h0 junk rs ms h f rest,
    secrets_ok C (option_map fst (cfg_psk cfg)) (p_secret p) x /\
    reads_as C (x_shello x) (M_ServerHello (x_suite x) (x_items x)) /\
    share_of (x_items x) (x_group x) (x_share x) /\
    w = wire_of ((h0, x_shello x ++ junk) :: rs) ++ h ++ f ++ rest /\
    framed h0 (x_shello x ++ junk) /\ hd_error h0 = Some ty_handshake /\
    carried C (x_skey x) (x_siv x) 0 rs ms /\
    framed h f /\ hd_error h = Some ty_data /\
    rfc_open C (x_skey x) (x_siv x) (protected_count rs) h f = Some [].

(** What makes [open] panic, [w] being what the server sends. *)
Inductive open_panics (C : crypto) {V} (p : provider V) (cfg : tls_config) (w : bytes) : panic_site -> Prop :=
| opp_provider x : provider_panics p x -> open_panics C p cfg w x
| opp_raw_key key : p_client_cert p = Some (CE_RawPublicKey key) -> open_panics C p cfg w PUnimplemented
| opp_signature sign scheme m : p_signer p = Ok (sign, scheme) -> (forall sg, sign m = Some sg -> p_sig_cap p < length sg) -> open_panics C p cfg w PUnwrap
| opp_empty : empty_record C p cfg w -> open_panics C p cfg w PUnwrap
| opp_counter : (2 ^ 64 <= N.of_nat (length w))%N -> open_panics C p cfg w PUnwrap.
