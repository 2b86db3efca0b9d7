(** * Model of src/key_schedule.rs *)
From Coq Require Import List NArith Arith Bool String.
From Coq.Strings Require Import Byte.
From Verif Require Import Base Crypto.
Import ListNotations.
Local Open Scope list_scope.

(** Byte-string literals [b"..."]. *)
Definition lit (s : string) : bytes := list_byte_of_string s.

Section KeySchedule.
Context (C : crypto).

(** key_schedule.rs:23-29 [Secret]: [None] = Uninitialized, [Some prk] = an HKDF
    instance over [prk]. *)
Definition secret := option bytes.

(** key_schedule.rs:196-202 [ContextType]. *)
Inductive context_type := CtxNone | CtxHash (h : bytes).

(** key_schedule.rs:208-218 [transcript_hash], [empty_hash].  A running hash
    ([CipherSuite::Hash]) is the byte string fed to it so far. *)
Definition ctx_transcript (tr : bytes) : context_type := CtxHash (c_hash C tr).
Definition ctx_empty : context_type := CtxHash (c_hash C []).

(** [heapless_typenum::Vec::extend_from_slice] with capacity [cap]. *)
Definition hv_extend (cap : nat) (v bs : bytes) : outcome tls_error bytes :=
  if List.length v + List.length bs <=? cap then Ok (v ++ bs) else Err InternalError.

(** key_schedule.rs:46-90 [make_expanded_hkdf_label::<n>]. *)
Definition make_label (s : secret) (n : nat) (label : bytes) (ctx : context_type)
  : outcome tls_error bytes :=
  let cap := label_cap C in
  v <-- hv_extend cap [] (be16 (N.of_nat n)) ;;
  v <-- hv_extend cap v [b8 (6 + N.of_nat (List.length label))] ;;
  v <-- hv_extend cap v (lit "tls13 ") ;;
  v <-- hv_extend cap v label ;;
  v <-- match ctx with
        | CtxNone => hv_extend cap v [x00]
        | CtxHash h =>
            v <-- hv_extend cap v [b8 (N.of_nat (List.length h))] ;;
            hv_extend cap v h
        end ;;
  match s with
  | None => Err InternalError
  | Some prk => ok_or CryptoError (c_expand C prk v n)
  end.

(** [Hkdf::from_prk]: fails when the key is shorter than the hash output. *)
Definition from_prk (prk : bytes) : outcome tls_error bytes :=
  if List.length prk <? hash_len C then Err InternalError else Ok prk.

(** key_schedule.rs:132-140 [KeyScheduleState]. *)
Record kstate := mk_kstate {
  k_traffic : secret; k_counter : N; k_key : bytes; k_iv : bytes }.

(** key_schedule.rs:400-406 [WriteKeySchedule]; 442-448 [ReadKeySchedule]. *)
Record wks := mk_wks { w_state : kstate; w_binder : secret }.
Record rks := mk_rks { r_state : kstate; r_transcript : bytes }.

(** key_schedule.rs:92-98 [SharedState]; 221-228 [KeySchedule]. *)
Record shared := mk_shared { sh_secret : bytes; sh_hkdf : secret }.
Record keysched := mk_keysched { ks_shared : shared; ks_w : wks; ks_r : rks }.

(** key_schedule.rs:146-153 [KeyScheduleState::new]. *)
Definition kstate_new : kstate :=
  mk_kstate None 0 (zeros (key_len C)) (zeros (iv_len C)).

(** key_schedule.rs:234-246 [KeySchedule::new] with 104-109 [SharedState::new]. *)
Definition ks_new : keysched :=
  mk_keysched (mk_shared (zeros (hash_len C)) None)
              (mk_wks kstate_new None) (mk_rks kstate_new []).

(** key_schedule.rs:111-115 [SharedState::initialize]. *)
Definition shared_initialize (s : shared) (ikm : bytes) : shared :=
  let prk := c_extract C (sh_secret s) ikm in mk_shared prk (Some prk).

(** key_schedule.rs:117-124 [derive_secret]. *)
Definition derive_secret (s : shared) (label : bytes) (ctx : context_type)
  : outcome tls_error bytes :=
  make_label (sh_hkdf s) (hash_len C) label ctx.

(** key_schedule.rs:126-129 [derived]. *)
Definition shared_derived (s : shared) : outcome tls_error shared :=
  d <-- derive_secret s (lit "derived") ctx_empty ;;
  Ok (mk_shared d (sh_hkdf s)).

(** key_schedule.rs:318-331 [pad], loop over the reversed input. *)
Fixpoint pad_loop (n idx : nat) (rev_input padded : bytes) : outcome tls_error bytes :=
  match rev_input with
  | [] => Ok padded
  | b :: r =>
      i <-- usize_sub n idx ;;
      j <-- usize_sub i 1 ;;
      p <-- set_index padded j b ;;
      pad_loop n (S idx) r p
  end.
Definition pad (n : nat) (input : bytes) : outcome tls_error bytes :=
  pad_loop n 0 (rev input) (zeros n).

(** [l ^ r] on bytes. *)
Definition xor_byte (a b : byte) : byte := b8 (N.lxor (Byte.to_N a) (Byte.to_N b)).

(** key_schedule.rs:296-316 [get_nonce]; both arrays have [iv_len] elements. *)
Definition ks_get_nonce (counter : N) (iv : bytes) : outcome tls_error bytes :=
  c <-- pad (iv_len C) (be64 counter) ;;
  Ok (map (fun p => xor_byte (fst p) (snd p)) (combine iv c)).

(** key_schedule.rs:165-168 [KeyScheduleState::get_nonce]. *)
Definition kstate_nonce (k : kstate) : outcome tls_error bytes :=
  ks_get_nonce (k_counter k) (k_iv k).

(** key_schedule.rs:191-193 [increment_counter]: checked_add(1).unwrap(). *)
Definition u64_max : N := 18446744073709551615.
Definition increment_counter (k : kstate) : outcome tls_error kstate :=
  if (k_counter k <? u64_max)%N
  then Ok (mk_kstate (k_traffic k) (k_counter k + 1) (k_key k) (k_iv k))
  else Panic PUnwrap.

(** key_schedule.rs:170-189 [calculate_traffic_secret]. *)
Definition calculate_traffic_secret (sh : shared) (label tr : bytes)
  : outcome tls_error kstate :=
  s <-- derive_secret sh label (ctx_transcript tr) ;;
  t <-- from_prk s ;;
  key <-- make_label (Some t) (key_len C) (lit "key") CtxNone ;;
  iv <-- make_label (Some t) (iv_len C) (lit "iv") CtxNone ;;
  Ok (mk_kstate (Some t) 0 key iv).
(* Simplified: on an error after the secret was replaced (lines 181-186) the Rust
   state keeps the new secret; every caller aborts the handshake in that case. *)

(** key_schedule.rs:370-388 [calculate_traffic_secrets]. *)
Definition calculate_traffic_secrets (k : keysched) (cl sl : bytes)
  : outcome tls_error keysched :=
  let tr := r_transcript (ks_r k) in
  wst <-- calculate_traffic_secret (ks_shared k) cl tr ;;
  rst <-- calculate_traffic_secret (ks_shared k) sl tr ;;
  Ok (mk_keysched (ks_shared k) (mk_wks wst (w_binder (ks_w k))) (mk_rks rst tr)).

(** key_schedule.rs:338-351 [initialize_early_secret]. *)
Definition initialize_early_secret (k : keysched) (psk : option bytes)
  : outcome tls_error keysched :=
  let sh := shared_initialize (ks_shared k)
              (match psk with Some p => p | None => zeros (hash_len C) end) in
  bk <-- derive_secret sh (lit "ext binder") ctx_empty ;;
  b <-- from_prk bk ;;
  sh' <-- shared_derived sh ;;
  Ok (mk_keysched sh' (mk_wks (w_state (ks_w k)) (Some b)) (ks_r k)).

(** key_schedule.rs:353-358 [initialize_handshake_secret]. *)
Definition initialize_handshake_secret (k : keysched) (ikm : bytes)
  : outcome tls_error keysched :=
  let k1 := mk_keysched (shared_initialize (ks_shared k) ikm) (ks_w k) (ks_r k) in
  k2 <-- calculate_traffic_secrets k1 (lit "c hs traffic") (lit "s hs traffic") ;;
  sh <-- shared_derived (ks_shared k2) ;;
  Ok (mk_keysched sh (ks_w k2) (ks_r k2)).

(** key_schedule.rs:360-368 [initialize_master_secret]. *)
Definition initialize_master_secret (k : keysched) : outcome tls_error keysched :=
  let k1 := mk_keysched (shared_initialize (ks_shared k) (zeros (hash_len C)))
              (ks_w k) (ks_r k) in
  k2 <-- calculate_traffic_secrets k1 (lit "c ap traffic") (lit "s ap traffic") ;;
  sh <-- shared_derived (ks_shared k2) ;;
  Ok (mk_keysched sh (ks_w k2) (ks_r k2)).

(** key_schedule.rs:273-294 [create_client_finished]: the verify_data.
    [SimpleHmac::new_from_slice] accepts keys of any length. *)
Definition create_client_finished (k : keysched) : outcome tls_error bytes :=
  key <-- make_label (k_traffic (w_state (ks_w k))) (hash_len C) (lit "finished") CtxNone ;;
  Ok (c_hmac C key (c_hash C (r_transcript (ks_r k)))).

(** key_schedule.rs:423-439 [create_psk_binder]. *)
Definition create_psk_binder (w : wks) (tr : bytes) : outcome tls_error bytes :=
  key <-- make_label (w_binder w) (hash_len C) (lit "finished") CtxNone ;;
  Ok (c_hmac C key (c_hash C tr)).

(** key_schedule.rs:470-498 [verify_server_finished]; [hash] is [Finished::hash]. *)
Definition verify_server_finished (r : rks) (verify : bytes) (hash : option bytes)
  : outcome tls_error bool :=
  key <-- make_label (k_traffic (r_state r)) (hash_len C) (lit "finished") CtxNone ;;
  match hash with
  | None => Err InternalError
  | Some h => Ok (bytes_eqb (c_hmac C key h) verify)
  end.

End KeySchedule.

(** Record updates used by the connection code. *)
Definition r_with_transcript (r : rks) (tr : bytes) : rks := mk_rks (r_state r) tr.
Definition r_with_state (r : rks) (s : kstate) : rks := mk_rks s (r_transcript r).
Definition w_with_state (w : wks) (s : kstate) : wks := mk_wks s (w_binder w).
Definition ks_with_w (k : keysched) (w : wks) : keysched := mk_keysched (ks_shared k) w (ks_r k).
Definition ks_with_r (k : keysched) (r : rks) : keysched := mk_keysched (ks_shared k) (ks_w k) r.
