(** * Model of src/config.rs: configuration *)
From Coq Require Import List NArith Arith Bool.
From Verif Require Import Base Codes.
Import ListNotations.

(** config.rs:119-126 [TlsConfig]. *)
Record tls_config := mk_config {
  cfg_server_name : option bytes;
  cfg_alpn : option (list bytes);
  cfg_psk : option (bytes * list bytes);      (* key, identities (Vec<_, 4>) *)
  cfg_schemes : list sig_scheme;              (* Vec<_, 25> *)
  cfg_groups : list named_group;              (* Vec<_, 13> *)
  cfg_max_frag : option max_frag
}.

(** [unwrap!(vec.push(x).ok())] on a [heapless::Vec] of capacity [cap]. *)
Definition vec_push {A} (cap : nat) (v : list A) (x : A) : outcome tls_error (list A) :=
  if length v <? cap then Ok (v ++ [x]) else Panic PUnwrap.

Fixpoint vec_push_all {A} (cap : nat) (v : list A) (xs : list A) : outcome tls_error (list A) :=
  match xs with
  | [] => Ok v
  | x :: r => v' <-- vec_push cap v x ;; vec_push_all cap v' r
  end.

Definition cfg_with_schemes (c : tls_config) (l : list sig_scheme) : tls_config :=
  mk_config (cfg_server_name c) (cfg_alpn c) (cfg_psk c) l (cfg_groups c) (cfg_max_frag c).

(** config.rs:325-357 [enable_rsa_signatures]. *)
Definition cfg_enable_rsa (c : tls_config) : outcome tls_error tls_config :=
  l <-- vec_push_all 25 (cfg_schemes c)
         [SS_RsaPkcs1Sha256; SS_RsaPkcs1Sha384; SS_RsaPkcs1Sha512;
          SS_RsaPssRsaeSha256; SS_RsaPssRsaeSha384; SS_RsaPssRsaeSha512] ;;
  Ok (cfg_with_schemes c l).

(** config.rs:291-322 [TlsConfig::new]; [alloc] is [cfg!(feature = "alloc")]. *)
Definition cfg_new (alloc : bool) : outcome tls_error tls_config :=
  let c0 := mk_config None None None [] [] None in
  c1 <-- (if alloc then cfg_enable_rsa c0 else Ok c0) ;;
  l <-- vec_push_all 25 (cfg_schemes c1)
         [SS_EcdsaSecp256r1Sha256; SS_EcdsaSecp384r1Sha384; SS_Ed25519] ;;
  g <-- vec_push 13 (cfg_groups c1) NG_Secp256r1 ;;
  Ok (mk_config (cfg_server_name c1) (cfg_alpn c1) (cfg_psk c1) l g (cfg_max_frag c1)).

(** config.rs:359-362 [with_server_name]. *)
Definition cfg_with_server_name (c : tls_config) (n : bytes) : tls_config :=
  mk_config (Some n) (cfg_alpn c) (cfg_psk c) (cfg_schemes c) (cfg_groups c) (cfg_max_frag c).

(** config.rs:369-372 [with_alpn]. *)
Definition cfg_with_alpn (c : tls_config) (p : list bytes) : tls_config :=
  mk_config (cfg_server_name c) (Some p) (cfg_psk c) (cfg_schemes c) (cfg_groups c) (cfg_max_frag c).

(** config.rs:392-395 [with_max_fragment_length], 398-401 [reset_max_fragment_length]. *)
Definition cfg_with_max_frag (c : tls_config) (m : option max_frag) : tls_config :=
  mk_config (cfg_server_name c) (cfg_alpn c) (cfg_psk c) (cfg_schemes c) (cfg_groups c) m.

(** config.rs:403-407 [with_psk]: [unwrap!(Vec::from_slice(identities).ok())]. *)
Definition cfg_with_psk (c : tls_config) (psk : bytes) (ids : list bytes)
  : outcome tls_error tls_config :=
  if length ids <=? 4
  then Ok (mk_config (cfg_server_name c) (cfg_alpn c) (Some (psk, ids)) (cfg_schemes c)
             (cfg_groups c) (cfg_max_frag c))
  else Panic PUnwrap.

(** config.rs:12 [TLS_RECORD_OVERHEAD]. *)
Definition TLS_RECORD_OVERHEAD : nat := 128.
