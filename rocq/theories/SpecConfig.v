(** * Specification vocabulary for configurations: sequences of builder calls *)
From Coq Require Import List NArith Arith Bool.
From Verif Require Import Base Codes Config.
Import ListNotations.

(** The builder calls of [TlsConfig]. *)
Inductive builder :=
| WithServerName (n : bytes) | WithAlpn (p : list bytes) | WithMaxFragmentLength (m : max_frag)
| ResetMaxFragmentLength | WithPsk (key : bytes) (ids : list bytes) | EnableRsaSignatures.

Definition build1 (c : tls_config) (b : builder) : outcome tls_error tls_config :=
  match b with
  | WithServerName n => Ok (cfg_with_server_name c n)
  | WithAlpn p => Ok (cfg_with_alpn c p)
  | WithMaxFragmentLength m => Ok (cfg_with_max_frag c (Some m))
  | ResetMaxFragmentLength => Ok (cfg_with_max_frag c None)
  | WithPsk k ids => cfg_with_psk c k ids
  | EnableRsaSignatures => cfg_enable_rsa c
  end.
Fixpoint build (bs : list builder) (c : tls_config) : outcome tls_error tls_config :=
  match bs with [] => Ok c | b :: bs' => c' <-- build1 c b ;; build bs' c' end.

(** [TlsConfig::new()] and then the calls. *)
Definition configure (alloc : bool) (bs : list builder) : outcome tls_error tls_config :=
  c <-- cfg_new alloc ;; build bs c.

(** What the last call of a kind said, if there was one. *)
Fixpoint latest {A} (f : builder -> option A) (bs : list builder) (before : A) : A :=
  match bs with [] => before | b :: bs' => latest f bs' (match f b with Some a => a | None => before end) end.
Definition says_name (b : builder) := match b with WithServerName n => Some (Some n) | _ => None end.
Definition says_alpn (b : builder) := match b with WithAlpn p => Some (Some p) | _ => None end.
Definition says_psk (b : builder) := match b with WithPsk k ids => Some (Some (k, ids)) | _ => None end.
Definition says_frag (b : builder) :=
  match b with WithMaxFragmentLength m => Some (Some m) | ResetMaxFragmentLength => Some None | _ => None end.

(** The code points of the signature schemes (RFC 8446, 4.2.3): RSASSA-PKCS1-v1_5 and RSASSA-PSS with
    SHA-256, SHA-384 and SHA-512; then ECDSA with P-256 and P-384, and Ed25519. *)
Definition rsa_codes : list N := [0x0401; 0x0501; 0x0601; 0x0804; 0x0805; 0x0806]%N.
Definition ecc_codes : list N := [0x0403; 0x0503; 0x0807]%N.
Fixpoint times {A} (n : nat) (l : list A) : list A := match n with O => [] | S n' => l ++ times n' l end.
Definition rsa_calls (bs : list builder) : nat :=
  length (filter (fun b => match b with EnableRsaSignatures => true | _ => false end) bs).

(** The calls fit: at most four identities each time, at most 25 schemes in all. *)
Definition fits (alloc : bool) (bs : list builder) : Prop :=
  (forall k ids, In (WithPsk k ids) bs -> length ids <= 4) /\ (if alloc then 9 else 3) + 6 * rsa_calls bs <= 25.
