(** * Specification vocabulary: the providers that come with the crate *)
From Coq Require Import String List NArith Arith Bool.
From Coq.Strings Require Import Byte.
From Verif Require Import Base Codes Crypto Config Handshake Connection Providers SpecWire SpecKeys SpecRecord SpecRead SpecMessages SpecHandshake.
Import ListNotations.
Local Open Scope list_scope.

(** The builder calls of [UnsecureProvider]. *)
Inductive provider_call := WithPrivKey (key : bytes) | WithCert (cert : cert_entry).
Definition call1 (u : unsecure) (b : provider_call) : unsecure :=
  match b with WithPrivKey k => up_with_key u k | WithCert c => up_with_cert u c end.
Definition unsecure_provider (ec : ec_lib) (rsa : bool) (random secret : bytes) (bs : list provider_call) : provider unit :=
  up_provider ec rsa (fold_left call1 bs (up_new random secret)).

(** The argument of the last call of each kind. *)
Definition last_key (bs : list provider_call) : option bytes :=
  last (map Some (concat (map (fun b => match b with WithPrivKey k => [k] | _ => [] end) bs))) None.
Definition last_cert (bs : list provider_call) : option cert_entry :=
  last (map Some (concat (map (fun b => match b with WithCert c => [c] | _ => [] end) bs))) None.

(** The messages [ms] are the answer of such a client, the transcript so far being [tr] and [req]
    the context of the server's certificate request, if there was one: an empty Certificate if it
    has none; else its X.509 certificate and a signature with its key, ecdsa_secp256r1_sha256. *)
Definition unsecure_answer (C : crypto) (ec : ec_lib) (rsa : bool) (bs : list provider_call) (client tr : bytes) (req : option bytes) (ms : list bytes) : Prop :=
  match req with
  | None => exists v, rfc_verify_data C client tr = Some v /\ ms = [fin_message v]
  | Some ctx =>
      match last_cert bs with
      | None => exists v, rfc_verify_data C client (tr ++ cert_message ctx []) = Some v /\ ms = [cert_message ctx []; fin_message v]
      | Some (CE_X509 d) => exists der key signature v,
          let cert := cert_message ctx [d] in
          let cv := cv_message 0x0403 signature in
          last_key bs = Some der /\ ec_from_sec1 ec der = Some key /\ ec_sign ec key (client_signs C (tr ++ cert)) = Some signature /\
          length signature <= (if rsa then 512 else 104) /\ hash_len C <= 48 /\
          rfc_verify_data C client (tr ++ cert ++ cv) = Some v /\ ms = [cert; cv; fin_message v]
      | Some (CE_RawPublicKey _) => False
      end
  end.

(** A provider that lets every server in: it has no verifier, or one that always says yes. *)
Definition lenient {V} (p : provider V) : Prop :=
  p_has_verifier p = true ->
  (forall n v, fst (p_set_hostname p n v) = Ok tt) /\
  (forall tr cert v, fst (p_verify_cert p tr cert v) = Ok tt) /\
  (forall cv v, fst (p_verify_sig p cv v) = Ok tt).

(** Two providers that are the same client: same random numbers, same certificate, and, if there is
    a certificate, the same key for it. *)
Definition same_client {V W} (p : provider V) (q : provider W) : Prop :=
  p_random p = p_random q /\ p_secret p = p_secret q /\ p_client_cert p = p_client_cert q /\
  (p_client_cert p <> None -> p_signer p = p_signer q /\ p_sig_cap p = p_sig_cap q).
