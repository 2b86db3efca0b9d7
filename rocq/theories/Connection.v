(** * Model of src/connection.rs *)
From Coq Require Import String List NArith Arith Bool.
From Coq.Strings Require Import Byte.
From Verif Require Import Base ParseBuffer Buffer Codes Extensions Crypto KeySchedule Config
  Handshake Record WriteBuffer Transport RecordReader ReadBuffer.
Import ListNotations.
Local Open Scope list_scope.

(** ** Decryption of a record (connection.rs:28-94) *)

(** [AeadInPlace::decrypt_in_place] (crate aead) on a [CryptoBuffer]: splits off the tag,
    decrypts the rest in place (untouched on failure), truncates. *)
Definition decrypt_in_place (C : crypto) (key nonce ad : bytes) : W unit :=
  c <- get ;;
  s <- lift (cb_as_slice c) ;;
  if length s <? tag_len C then fail CryptoError
  else
    let tp := length s - tag_len C in
    match c_open C key nonce ad (firstn tp s) (skipn tp s) with
    | None => fail CryptoError
    | Some m =>
        b <- lift (set_rng (cb_buf c) (cb_off c) m) ;;
        put (mk_cbuf b (cb_off c) (cb_len c)) ;;;
        cb_truncate tp
    end.

(** connection.rs:52-56: [iter().enumerate().rfind(|b| b != 0)], the index. *)
Fixpoint rfind_nonzero (l : bytes) : option nat :=
  match l with
  | [] => None
  | b :: r =>
      match rfind_nonzero r with
      | Some i => Some (S i)
      | None => if byte_eqb b x00 then None else Some 0
      end
  end.

(** connection.rs:52-67: strip the padding, take the content type off the end. *)
Definition strip_content_type : W content_type :=
  c <- get ;;
  s <- lift (cb_as_slice c) ;;
  match rfind_nonzero s with
  | Some i => cb_truncate (i + 1)
  | None => ret tt
  end ;;;
  c1 <- get ;;
  s1 <- lift (cb_as_slice c1) ;;
  b <- lift (unwrap (nth_error (rev s1) 0)) ;;
  t <- lift (ok_or InvalidRecord (content_type_of (Byte.to_N b))) ;;
  n <- lift (usize_sub (cb_len c1) 1) ;;
  cb_truncate n ;;;
  ret t.

Section Decrypt.
Context {S : Type} (C : crypto).
(** The callback of [decrypt_record]; it sees the read key schedule (no closure in the
    crate modifies it) and owns a state [S]. *)
Context (cb : rks -> server_record -> M S tls_error unit).

Definition call_cb (r : server_record) : M (rdst * S) tls_error unit :=
  fun st => let '(o, s') := cb (rd_ks (fst st)) r (snd st) in (o, (fst st, s')).

Definition on_fst {T E A} (m : M T E A) : M (T * S) E A :=
  fun st => let '(o, t) := m (fst st) in (o, (t, snd st)).

Definition set_transcript (tr : bytes) : M rdst tls_error unit :=
  modify (fun t => mk_rdst (rd_buf t) (rd_decoded t) (rd_pending t) (rd_rx t)
                     (r_with_transcript (rd_ks t) tr)).

(** connection.rs:71-77: the coalesced handshake messages. *)
Fixpoint handshake_loop (fuel : nat) (p : pbuf) : M (rdst * S) tls_error unit :=
  r <- lift (pb_remaining p) ;;
  if r =? 0 then ret tt
  else
    match fuel with
    | O => lift Diverge
    | Datatypes.S f =>
        st <- get ;;
        let '(o, p') := read_server_handshake C (r_transcript (rd_ks (fst st))) p in
        ht <- lift o ;;
        on_fst (set_transcript (snd ht)) ;;;
        call_cb (SR_Handshake (fst ht)) ;;;
        handshake_loop f p'
    end.

(** key_schedule.rs:454-456 [ReadKeySchedule::increment_counter]. *)
Definition rd_increment : M rdst tls_error unit :=
  s <- get ;;
  k <- lift (increment_counter (r_state (rd_ks s))) ;;
  put (mk_rdst (rd_buf s) (rd_decoded s) (rd_pending s) (rd_rx s) (r_with_state (rd_ks s) k)).

(** connection.rs:28-94 [decrypt_record].  The record's data is a window of the read
    buffer, so its new contents are written back at [off]. *)
Definition decrypt_record (rec : server_record) : M (rdst * S) tls_error unit :=
  match rec with
  | SR_AppData h off data =>
      st <- get ;;
      let k := r_state (rd_ks (fst st)) in
      nonce <- lift (kstate_nonce C k) ;;
      let '(o, data1) := decrypt_in_place C (k_key k) nonce h data in
      lift o ;;;
      on_fst (s <- get ;;
              b <- lift (set_rng (rd_buf s) off (cb_buf data1)) ;;
              put (mk_rdst b (rd_decoded s) (rd_pending s) (rd_rx s) (rd_ks s))) ;;;
      let '(o2, data2) := strip_content_type data1 in
      t <- lift o2 ;;
      inner <- lift (cb_as_slice data2) ;;
      match t with
      | CT_Handshake => handshake_loop (Datatypes.S (length inner)) (pb_new inner)
      | CT_ApplicationData => call_cb (SR_AppData h off data2)
      | CT_Alert =>
          ld <- lift (fst (parse_alert (pb_new inner))) ;;
          call_cb (SR_Alert (fst ld) (snd ld))
      | _ => fail Unimplemented
      end ;;;
      on_fst rd_increment
  | _ => call_cb rec
  end.
End Decrypt.

(** ** The connection object *)

(** flush_policy.rs:13-21 [FlushPolicy]; 27-29 [flush_transport]; 32-37 [default]. *)
Inductive flush_policy := Relaxed | Strict.
Definition policy_flush_transport (p : flush_policy) : bool :=
  match p with Strict => true | Relaxed => false end.
Definition policy_default : flush_policy := Strict.

(** The sending side: write buffer, write key schedule, transport, policy (fields of
    blocking.rs:23-35 [TlsConnection] / 404-413 [TlsWriter]). *)
Record whalf := mk_whalf {
  wh_wb : wbuf; wh_ks : wks; wh_tx : txst; wh_policy : flush_policy }.

Definition on_wb {A} (m : M wbuf tls_error A) : M whalf tls_error A :=
  fun w => let '(o, b) := m (wh_wb w) in (o, mk_whalf b (wh_ks w) (wh_tx w) (wh_policy w)).
Definition on_tx {A} (m : M txst io_kind A) : M whalf tls_error A :=
  fun w =>
    let '(o, t) := m (wh_tx w) in
    (omap_err Io o, mk_whalf (wh_wb w) (wh_ks w) t (wh_policy w)).

(** key_schedule.rs:411-413 [WriteKeySchedule::increment_counter]. *)
Definition wh_increment : M whalf tls_error unit :=
  w <- get ;;
  k <- lift (increment_counter (w_state (wh_ks w))) ;;
  put (mk_whalf (wh_wb w) (w_with_state (wh_ks w) k) (wh_tx w) (wh_policy w)).

(** connection.rs:322-339 / 364-385 [respond(_blocking)]. *)
Definition respond (tx : bytes) : M whalf tls_error unit :=
  on_tx (tx_write_all tx) ;;;
  wh_increment ;;;
  on_tx tx_flush.

(** blocking.rs:23-35 [TlsConnection].  [cn_rd] holds the record reader, the read key
    schedule and the transport's receive side; [cn_shared] is the rest of the key
    schedule. *)
Record conn := mk_conn {
  cn_rd : rdst; cn_dec : dec_info; cn_wh : whalf; cn_shared : shared; cn_opened : bool }.

Definition cn_keysched (c : conn) : keysched :=
  mk_keysched (cn_shared c) (wh_ks (cn_wh c)) (rd_ks (cn_rd c)).

Definition rd_with_ks (r : rdst) (k : rks) : rdst :=
  mk_rdst (rd_buf r) (rd_decoded r) (rd_pending r) (rd_rx r) k.
Definition wh_with_ks (w : whalf) (k : wks) : whalf :=
  mk_whalf (wh_wb w) k (wh_tx w) (wh_policy w).
Definition cn_with_keysched (c : conn) (k : keysched) : conn :=
  mk_conn (rd_with_ks (cn_rd c) (ks_r k)) (cn_dec c) (wh_with_ks (cn_wh c) (ks_w k))
    (ks_shared k) (cn_opened c).

Definition on_wh {A} (m : M whalf tls_error A) : M conn tls_error A :=
  fun c =>
    let '(o, w) := m (cn_wh c) in
    (o, mk_conn (cn_rd c) (cn_dec c) w (cn_shared c) (cn_opened c)).
Definition on_rd {A} (m : M rdst tls_error A) : M conn tls_error A :=
  fun c =>
    let '(o, r) := m (cn_rd c) in
    (o, mk_conn r (cn_dec c) (cn_wh c) (cn_shared c) (cn_opened c)).

(** Replace the whole key schedule by [f] of it (unchanged if [f] fails; every such
    failure ends the handshake). *)
Definition on_ks (f : keysched -> outcome tls_error keysched) : M conn tls_error unit :=
  fun c =>
    match f (cn_keysched c) with
    | Ok k => (Ok tt, cn_with_keysched c k)
    | Err e => (Err e, c)
    | Panic p => (Panic p, c)
    | Diverge => (Diverge, c)
    | Cancelled => (Cancelled, c)
    end.

(** [tx_buf.write_record(&record, wks, Some(rks))] on the connection. *)
Definition cn_write_record (C : crypto) (r : client_record) : M conn tls_error bytes :=
  c <- get ;;
  st <- on_wh (on_wb (wb_write_record C r (wh_ks (cn_wh c)) (r_transcript (rd_ks (cn_rd c))))) ;;
  on_rd (set_transcript (snd st)) ;;;
  ret (fst st).

(** ** The handshake *)

(** config.rs:141-171 [CryptoProvider], config.rs:75-98 [TlsVerifier].  [V] is the
    verifier's own state.  Simplified: within one [open] the provider gives the same
    answer each time it is asked for a verifier, signer or certificate. *)
Record provider (V : Type) := mk_provider {
  p_random : bytes;                         (* 32 bytes drawn by ClientHello::new *)
  p_secret : bytes;                         (* EphemeralSecret::random *)
  p_has_verifier : bool;                    (* verifier() is Ok *)
  p_set_hostname : bytes -> M V tls_error unit;
  p_verify_cert : bytes -> cert_ref -> M V tls_error unit;   (* transcript, certificate *)
  p_verify_sig : cert_verify -> M V tls_error unit;
  p_client_cert : option cert_entry;
  p_signer : outcome tls_error ((bytes -> option bytes) * sig_scheme);   (* [None]: [try_sign] fails *)
  p_sig_cap : nat                           (* certificate_verify.rs:38-43 SIGNATURE_SIZE *)
}.
Arguments p_random {V} _.
Arguments p_secret {V} _.
Arguments p_has_verifier {V} _.
Arguments p_set_hostname {V} _ _.
Arguments p_verify_cert {V} _ _ _.
Arguments p_verify_sig {V} _ _.
Arguments p_client_cert {V} _.
Arguments p_signer {V} _.
Arguments p_sig_cap {V} _.
Arguments mk_provider {V} _ _ _ _ _ _ _ _ _.

(** connection.rs:155-163 [State]. *)
Inductive hs_state :=
| St_ClientHello | St_ServerHello | St_ServerVerify | St_ClientCert | St_ClientCertVerify
| St_ClientFinished | St_ApplicationData.

Section Handshake.
Context {V : Type} (C : crypto) (p : provider V) (cfg : tls_config).

(** connection.rs:131-138 [Handshake] plus the provider's verifier state. *)
Record hs_data := mk_hs {
  hs_traffic : option bytes; hs_secret : option bytes; hs_certreq : option bytes; hs_v : V }.

(** connection.rs:144-150 [Handshake::new]. *)
Definition hs_new (v : V) : hs_data := mk_hs None None None v.

Notation H A := (M (conn * hs_data) tls_error A).

Definition on_conn {A} (m : M conn tls_error A) : H A :=
  fun st => let '(o, c) := m (fst st) in (o, (c, snd st)).
Definition mod_hs (f : hs_data -> hs_data) : H unit := modify (fun st => (fst st, f (snd st))).
Definition hs_set_traffic (t : option bytes) (h : hs_data) : hs_data :=
  mk_hs t (hs_secret h) (hs_certreq h) (hs_v h).
Definition hs_set_secret (t : option bytes) (h : hs_data) : hs_data :=
  mk_hs (hs_traffic h) t (hs_certreq h) (hs_v h).
Definition hs_set_certreq (t : option bytes) (h : hs_data) : hs_data :=
  mk_hs (hs_traffic h) (hs_secret h) t (hs_v h).

(** connection.rs:387-408 [client_hello] with client_hello.rs:42-54 [ClientHello::new]. *)
Definition do_client_hello : H bytes :=
  on_conn (on_ks (fun k => initialize_early_secret C k (option_map fst (cfg_psk cfg)))) ;;;
  let ch := mk_ch cfg (p_random p) (p_secret p) in
  tx <- on_conn (cn_write_record C (CR_Handshake (CH_Hello ch) false)) ;;
  mod_hs (hs_set_secret (Some (p_secret p))) ;;;
  ret tx.

(** connection.rs:410-436 [process_server_hello]. *)
Definition process_server_hello (rec : server_record) : H hs_state :=
  match rec with
  | SR_Handshake (SH_ServerHello exts) =>
      st <- get ;;
      mod_hs (hs_set_secret None) ;;;
      secret <- lift (ok_or InvalidHandshake (hs_secret (snd st))) ;;
      shared <- lift (ok_or InvalidKeyShare (sh_shared_secret C exts secret)) ;;
      on_conn (on_ks (fun k => initialize_handshake_secret C k shared)) ;;;
      ret St_ServerVerify
  | SR_Handshake _ => fail InvalidHandshake
  | SR_Alert l d => fail (HandshakeAborted l d)
  | _ => fail InvalidRecord
  end.

(** Run a verifier method on the verifier state. *)
Definition on_v {A} (m : M V tls_error A) : M (hs_state * hs_data) tls_error A :=
  fun st =>
    let '(o, v) := m (hs_v (snd st)) in
    (o, (fst st, mk_hs (hs_traffic (snd st)) (hs_secret (snd st)) (hs_certreq (snd st)) v)).

Definition mod_sv (f : hs_data -> hs_data) : M (hs_state * hs_data) tls_error unit :=
  modify (fun st => (fst st, f (snd st))).
Definition set_sv (s : hs_state) : M (hs_state * hs_data) tls_error unit :=
  modify (fun st => (s, snd st)).

(** connection.rs:448-497, the closure of [process_server_verify]; the state is the
    captured local [state] and the handshake data. *)
Definition server_verify_cb (k : rks) (rec : server_record)
  : M (hs_state * hs_data) tls_error unit :=
  match rec with
  | SR_Handshake SH_EncryptedExtensions => ret tt
  | SR_Handshake (SH_Certificate cert) =>
      if p_has_verifier p then on_v (p_verify_cert p (r_transcript k) cert) else ret tt
  | SR_Handshake (SH_CertificateVerify v) =>
      if p_has_verifier p then on_v (p_verify_sig p v) else ret tt
  | SR_Handshake (SH_CertificateRequest ctx) =>
      r <- lift (cert_request_try_from ctx) ;;
      mod_sv (hs_set_certreq (Some r))
  | SR_Handshake (SH_Finished f) =>
      ok <- lift (verify_server_finished C k (f_verify f) (f_hash f)) ;;
      if negb ok then fail InvalidSignature
      else
        st <- get ;;
        match hs_certreq (snd st) with
        | Some _ => set_sv St_ClientCert
        | None =>
            mod_sv (hs_set_traffic (Some (r_transcript k))) ;;;
            set_sv St_ClientFinished
        end
  | SR_Handshake _ => fail InvalidHandshake
  | SR_ChangeCipherSpec => ret tt
  | _ => fail InvalidRecord
  end.

(** connection.rs:438-499 [process_server_verify]. *)
Definition process_server_verify (rec : server_record) : H hs_state :=
  fun st =>
    let '(c, h) := st in
    let '(o, (r, (s, h'))) :=
      decrypt_record C server_verify_cb rec (cn_rd c, (St_ServerVerify, h)) in
    (omap (fun _ => s) o,
     (mk_conn r (cn_dec c) (cn_wh c) (cn_shared c) (cn_opened c), h')).

(** connection.rs:501-538 [client_cert] with certificate.rs:17-30. *)
Definition do_client_cert : H (hs_state * bytes) :=
  st <- get ;;
  mod_hs (hs_set_traffic (Some (r_transcript (rd_ks (cn_rd (fst st)))))) ;;;
  ctx <- lift (ok_or InvalidHandshake (hs_certreq (snd st))) ;;
  let '(entries, next) :=
    match p_client_cert p with
    | Some e => ([e], St_ClientCertVerify)
    | None => ([], St_ClientFinished)
    end in
  tx <- on_conn (cn_write_record C (CR_Handshake (CH_Cert (mk_cert [] ctx entries)) true)) ;;
  ret (next, tx).

(** connection.rs:550-558: the message to be signed (heapless::Vec of 146 bytes). *)
Definition cv_client_message (tr : bytes) : outcome tls_error bytes :=
  let h := c_hash C tr in
  let m := repeat x20 64 ++ lit "TLS 1.3, client CertificateVerify" ++ [x00] in
  if 146 <? length m + length h then Err EncodeError else Ok (m ++ h).

(** connection.rs:540-598 [client_cert_verify]: the state to continue with (or the error
    to return after responding) and the bytes to send. *)
Definition do_client_cert_verify : H ((hs_state + tls_error) * bytes) :=
  st <- get ;;
  match p_signer p with
  | Ok (sign, scheme) =>
      msg <- lift (cv_client_message (r_transcript (rd_ks (cn_rd (fst st))))) ;;
      match sign msg with
      | None => panic PUnwrap                 (* Signer::sign: try_sign().expect() *)
      | Some sig =>
          if p_sig_cap p <? length sig then panic PUnwrap
          else
            tx <- on_conn (cn_write_record C
                    (CR_Handshake (CH_CertVerify (mk_cv scheme sig)) true)) ;;
            ret (inl St_ClientFinished, tx)
      end
  | Err e =>
      tx <- on_conn (cn_write_record C (CR_Alert AL_Warning AD_CloseNotify true)) ;;
      ret (inr e, tx)
  | Panic x => panic x
  | Diverge => lift Diverge
  | Cancelled => lift Cancelled
  end.

(** connection.rs:600-618 [client_finished]. *)
Definition do_client_finished : H bytes :=
  st <- get ;;
  v <- lift (omap_err (fun _ => InvalidHandshake)
               (create_client_finished C (cn_keysched (fst st)))) ;;
  on_conn (cn_write_record C (CR_Handshake (CH_Finished (mk_fin v None)) true)).

(** connection.rs:620-636 [client_finished_finalize]. *)
Definition client_finished_finalize : H hs_state :=
  st <- get ;;
  mod_hs (hs_set_traffic None) ;;;
  tr <- lift (ok_or InvalidHandshake (hs_traffic (snd st))) ;;
  on_conn (on_rd (set_transcript tr)) ;;;
  on_conn (on_ks (initialize_master_secret C)) ;;;
  ret St_ApplicationData.

(** connection.rs:299-320 / 341-362 [handle_processing_error(_blocking)]. *)
Definition handle_processing_error (m : H hs_state) : H hs_state :=
  r <- attempt m ;;
  match r with
  | inl s => ret s
  | inr (AbortHandshake l d) =>
      tx <- on_conn (cn_write_record C (CR_Alert l d false)) ;;
      on_conn (on_wh (respond tx)) ;;;
      fail (AbortHandshake l d)
  | inr e => fail e
  end.

(** connection.rs:167-232 / 235-296 [State::process(_blocking)]. *)
Definition process (s : hs_state) : H hs_state :=
  match s with
  | St_ClientHello =>
      tx <- do_client_hello ;;
      on_conn (on_wh (respond tx)) ;;;
      ret St_ServerHello
  | St_ServerHello =>
      rec <- on_conn (on_rd (rd_read C)) ;;
      handle_processing_error (process_server_hello rec)
  | St_ServerVerify =>
      rec <- on_conn (on_rd (rd_read C)) ;;
      handle_processing_error (process_server_verify rec)
  | St_ClientCert =>
      nt <- do_client_cert ;;
      on_conn (on_wh (respond (snd nt))) ;;;
      ret (fst nt)
  | St_ClientCertVerify =>
      rt <- do_client_cert_verify ;;
      on_conn (on_wh (respond (snd rt))) ;;;
      match fst rt with inl s' => ret s' | inr e => fail e end
  | St_ClientFinished =>
      tx <- do_client_finished ;;
      on_conn (on_wh (respond tx)) ;;;
      client_finished_finalize
  | St_ApplicationData => ret St_ApplicationData
  end.

(** blocking.rs:109-121: the loop of [open]. *)
Fixpoint open_loop (fuel : nat) (s : hs_state) : H unit :=
  match s with
  | St_ApplicationData => ret tt
  | _ =>
      match fuel with
      | O => lift Diverge
      | S f => s' <- process s ;; open_loop f s'
      end
  end.

(** Upper bound on the number of successful transport reads left. *)
Definition rx_event_size (e : rx_event) : nat :=
  match e with RxData b => S (List.length b) | _ => 1 end.
Definition rx_size (rx : list rx_event) : nat := list_sum (map rx_event_size rx).

(** blocking.rs:96-125 [TlsConnection::open]. *)
Definition cn_open (v : V) : M conn tls_error unit :=
  fun c =>
    let '(o0, v') :=
      match p_has_verifier p, cfg_server_name cfg with
      | true, Some n => p_set_hostname p n v
      | _, _ => (Ok tt, v)
      end in
    let '(o, (c', _)) :=
      (lift o0 ;;;
       open_loop (8 + rx_size (rd_rx (cn_rd c))) St_ClientHello) (c, hs_new v') in
    match o with
    | Ok _ => (Ok tt, mk_conn (cn_rd c') (cn_dec c') (cn_wh c') (cn_shared c') true)
    | Err e => (Err e, c')
    | Panic x => (Panic x, c')
    | Diverge => (Diverge, c')
    | Cancelled => (Cancelled, c')
    end.
End Handshake.
