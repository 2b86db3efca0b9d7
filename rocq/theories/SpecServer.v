(** * Specification: a server that follows RFC 8446

    A function of the bytes the client sends, written from the RFC over the abstract primitives
    and the grammar of SpecHello.v: it reads the ClientHello, checks the binder, agrees on the
    keys, builds its flight, reads the client's answer, checks the signature and the Finished, and
    opens the records that follow.  Nothing of the client's model is used (except for its
    configuration in the last section, which says what the two must have in common). *)
From Coq Require Import String List NArith Arith Bool.
From Coq.Strings Require Import Byte.
From Verif Require Import Base Codes Crypto Config Handshake Connection SpecWire SpecCodes SpecMessages SpecKeys SpecRecord SpecHello SpecHandshake SpecComplete.
Import ListNotations.
Local Open Scope list_scope.

Definition opt_bind {A B} (o : option A) (f : A -> option B) : option B :=
  match o with Some a => f a | None => None end.
Declare Scope server_scope.
Notation "x <! o ; k" := (opt_bind o (fun x => k)) (at level 61, o at next level, right associativity) : server_scope.
Notation "'require' b ; k" := (if b then k else None) (at level 61, b at next level, right associativity) : server_scope.
Local Open Scope server_scope.

(** What a server brings: its random bytes and its ephemeral secret; the pre-shared keys it knows,
    by identity; the messages between its ServerHello and its Finished, which depend on the hellos
    (certificates, signatures, a request for the client's certificate: its own business); how it
    puts messages into records; whether a signature is that of the holder of the certificates. *)
Record server := mk_server {
  s_random : bytes;
  s_secret : bytes;
  s_keys : bytes -> option bytes;
  s_messages : bytes -> list (bytes * smsg);
  s_parts : list (bytes * smsg) -> list part;
  s_check : list bytes -> N -> bytes -> bytes -> bool   (* certificates, scheme, content, signature *) }.

(** ** Reading the ClientHello *)

Fixpoint first_some {A B} (f : A -> option B) (l : list A) : option B :=
  match l with
  | [] => None
  | x :: l => match f x with Some b => Some b | None => first_some f l end
  end.

(** TLS 1.3 is offered (4.2.1), with the server's suite (4.1.1) and (EC)DHE key establishment (4.2.9). *)
Definition offers_tls13 (es : list hello_ext) : bool :=
  existsb (fun e => match e with H_supported_versions l => existsb (N.eqb 0x0304) l | _ => false end) es.
Definition offers_suite (C : crypto) (h : hello) : bool := existsb (N.eqb (code_point C)) (h_suites h).
Definition offers_psk_dhe (es : list hello_ext) : bool :=
  existsb (fun e => match e with
    | H_psk_modes l => existsb (fun m => match m with PM_PskDheKe => true | _ => false end) l
    | _ => false end) es.

(** The client's share for secp256r1 (4.2.8). *)
Definition p256_share (es : list hello_ext) : option bytes :=
  first_some (fun e => match e with
    | H_key_share l => first_some (fun gk => match fst gk with NG_Secp256r1 => Some (snd gk) | _ => None end) l
    | _ => None end) es.

(** The pre-shared keys offered, each with its binder (4.2.11). *)
Definition psk_offer (es : list hello_ext) : option (list bytes * list bytes) :=
  first_some (fun e => match e with H_pre_shared_key ids bs => Some (map fst ids, bs) | _ => None end) es.

(** The first of them the server knows: its index, the key, the binder. *)
Fixpoint choose (keys : bytes -> option bytes) (n : N) (ids bs : list bytes) : option (N * bytes * bytes) :=
  match ids, bs with
  | i :: ids, b :: bs => match keys i with Some k => Some (n, k, b) | None => choose keys (n + 1) ids bs end
  | _, _ => None
  end.

(** The ClientHello up to the list of binders, which is at its end (4.2.11.2). *)
Definition truncated (hello : bytes) (bs : list bytes) : bytes :=
  firstn (List.length hello - List.length (vec 2 (concat (map (vec 1) bs)))) hello.

(** The pre-shared key to use, if any; [None] if the binder is wrong. *)
Definition pick_psk (C : crypto) (s : server) (hello : bytes) (es : list hello_ext) : option (option (N * bytes)) :=
  match psk_offer es with
  | None => Some None
  | Some (ids, bs) =>
      match choose (s_keys s) 0 ids bs with
      | None => Some None
      | Some (n, k, b) =>
          require offers_psk_dhe es;
          bk <! rfc_binder_key C (Some k);
          v <! rfc_verify_data C bk (truncated hello bs);
          require bytes_eqb v b; Some (Some (n, k))
      end
  end.

(** ** The server's flight *)

(** The extensions of the ServerHello (4.1.3). *)
Definition hello_items (C : crypto) (s : server) (psk : option (N * bytes)) : list ext_item :=
  [(43%N, uint 2 0x0304); (51%N, uint 2 0x0017 ++ vec 2 (c_pub C (s_secret s)))] ++
  match psk with Some (n, _) => [(41%N, uint 2 n)] | None => [] end.

Definition server_hello (C : crypto) (s : server) (h : hello) (psk : option (N * bytes)) : bytes :=
  message (F_ServerHello 0x0303 (s_random s) (h_session h) (code_point C) 0) (hello_items C s psk).

(** The record with the ClientHello leads to this exchange, and to this pre-shared key. *)
Definition server_exchange (C : crypto) (s : server) (record : bytes) : option (option bytes * exchange) :=
  h <! g_whole g_record record;
  let hello := skipn 5 record in
  require offers_tls13 (h_exts h) && offers_suite C h;
  share <! p256_share (h_exts h);
  psk <! pick_psk C s hello (h_exts h);
  let key := option_map snd psk in
  let shello := server_hello C s h psk in
  let hellos := hello ++ shello in
  dhe <! c_dh C (s_secret s) share;
  hs <! rfc_handshake C key dhe;
  client <! rfc_derive_secret C hs "c hs traffic" hellos;
  server <! rfc_derive_secret C hs "s hs traffic" hellos;
  ckey <! rfc_key C client; civ <! rfc_iv C client;
  skey <! rfc_key C server; siv <! rfc_iv C server;
  let before := s_messages s hellos in
  v <! rfc_verify_data C server (hellos ++ raw before);
  Some (key, mk_exchange hello shello (code_point C) (hello_items C s psk) 0x0017 (c_pub C (s_secret s))
               before (fin_message v) v [] dhe client server ckey civ skey siv).

(** What the server then sends. *)
Definition server_flight (C : crypto) (s : server) (x : exchange) : bytes :=
  flight_wire C x (s_parts s (x_msgs x)).

(** The application traffic keys (7.1, 7.3): from the master secret and all messages through the
    server's Finished. *)
Definition app_keys (C : crypto) (psk : option bytes) (x : exchange) (label : string) : option (bytes * bytes) :=
  m <! rfc_master C psk (x_dhe x);
  s <! rfc_derive_secret C m label (x_hellos x ++ raw (x_msgs x));
  key <! rfc_key C s; iv <! rfc_iv C s; Some (key, iv).

(** ** Reading what the client sends *)

(** The first record of the stream, in the clear; what follows it. *)
Definition first_record (w : bytes) : bytes * bytes :=
  let n := 5 + N.to_nat (be_val (firstn 2 (skipn 3 w))) in (firstn n w, skipn n w).

(** One protected record, with number [n]; what follows it. *)
Definition next_record (C : crypto) (lim : nat) (key iv : bytes) (n : N) (w : bytes) : option (byte * bytes * bytes) :=
  require negb (List.length w <? 5);
  let h := firstn 5 w in
  let size := N.to_nat (be_val (skipn 3 h)) in
  require bytes_eqb (firstn 3 h) (uint 1 23 ++ uint 2 0x0303);
  require negb (List.length w <? 5 + size);
  inner <! rfc_open C key iv n h (firstn size (skipn 5 w));
  tc <! rfc_unpad inner;
  require negb (lim <? List.length (snd tc));
  Some (fst tc, snd tc, skipn (5 + size) w).

(** The messages of the client's answer, one to a record, up to its Finished (type 20). *)
Fixpoint answer_records (C : crypto) (lim : nat) (key iv : bytes) (fuel : nat) (n : N) (w : bytes) : option (list bytes * bytes) :=
  match fuel with
  | O => None
  | S fuel =>
      r <! next_record C lim key iv n w;
      let '(t, m, rest) := r in
      require byte_eqb t ty_handshake;
      match m with
      | t :: _ =>
          if byte_eqb t (byte_of 20) then Some ([m], rest)
          else ms <! answer_records C lim key iv fuel (n + 1) rest; Some (m :: fst ms, snd ms)
      | [] => None
      end
  end.

(** Certificate (4.4.2) and CertificateVerify (4.4.3). *)
Section Grammars.
Local Open Scope grammar_scope.
Definition g_certificate : grammar (bytes * list bytes) :=
  t <~ g_uint 1; _ <~ g_check (t =? 11)%N; b <~ g_opaque 3 0 16777215;
  g_some (g_whole (ctx <~ g_opaque 1 0 255;
                   l <~ g_vector 3 0 16777215 (d <~ g_opaque 3 1 16777215; _ <~ g_opaque 2 0 65535; g_ret d);
                   g_ret (ctx, l)) b).
Definition g_certificate_verify : grammar (N * bytes) :=
  t <~ g_uint 1; _ <~ g_check (t =? 15)%N; b <~ g_opaque 3 0 16777215;
  g_some (g_whole (a <~ g_uint 2; sg <~ g_opaque 2 0 65535; g_ret (a, sg)) b).
End Grammars.

(** The message is the client's Finished (4.4.4) after the messages [tr]. *)
Definition finished_ok (C : crypto) (x : exchange) (tr m : bytes) : bool :=
  match rfc_verify_data C (x_client x) tr with Some v => bytes_eqb m (fin_message v) | None => false end.

(** The client's answer is in order: the certificates it brings, if it was asked for them. *)
Definition answer_ok (C : crypto) (s : server) (x : exchange) (ms : list bytes) : option (option (list bytes)) :=
  let tr := x_hellos x ++ raw (x_msgs x) in
  match requests (x_before x), ms with
  | [], [f] => require finished_ok C x tr f; Some None
  | ctx :: _, [c; f] =>
      cl <! g_whole g_certificate c;
      require bytes_eqb (fst cl) ctx && (List.length (snd cl) =? 0);
      require finished_ok C x (tr ++ c) f; Some (Some [])
  | ctx :: _, [c; v; f] =>
      cl <! g_whole g_certificate c;
      require bytes_eqb (fst cl) ctx && negb (List.length (snd cl) =? 0);
      sg <! g_whole g_certificate_verify v;
      require s_check s (snd cl) (fst sg) (client_signs C (tr ++ c)) (snd sg);
      require finished_ok C x (tr ++ c ++ v) f; Some (Some (snd cl))
  | _, _ => None
  end.

(** What the server makes of all the bytes [w] it received: the certificates of the client, if it
    asked for them; the records under the application keys; how the stream ends.  [None] if it
    aborted the handshake. *)
Definition server_reads (C : crypto) (s : server) (lim : nat) (w : bytes)
  : option (option (list bytes) * (list (byte * bytes) * peer_end)) :=
  let '(record, w) := first_record w in
  kx <! server_exchange C s record;
  let '(psk, x) := kx in
  msw <! answer_records C lim (x_ckey x) (x_civ x) (List.length w) 0 w;
  certs <! answer_ok C s x (fst msw);
  k <! app_keys C psk x "c ap traffic";
  Some (certs, peer_read C lim (fst k) (snd k) 0 (snd msw)).

(** ** Which servers a client can talk to *)

(** The pre-shared key both know. *)
Definition same_psk (cfg : tls_config) (s : server) : Prop :=
  match cfg_psk cfg with
  | None => True
  | Some (k, ids) => (exists i, In i ids /\ s_keys s i = Some k) /\ forall i k', In i ids -> s_keys s i = Some k' -> k' = k
  end.

(** The certificates the server gets. *)
Definition shown {V} (p : provider V) (x : exchange) : option (list bytes) :=
  match requests (x_before x) with [] => None | _ => Some (own_certs p) end.

(** The client's certificate is a non-empty X.509 one and the server takes its signatures. *)
Definition signs_for {V} (p : provider V) (s : server) : Prop :=
  forall e, p_client_cert p = Some e -> exists d, e = CE_X509 d /\ d <> [] /\
    forall sign scheme m sg, p_signer p = Ok (sign, scheme) -> sign m = Some sg -> s_check s [d] (sig_scheme_code scheme) m sg = true.


(** The server's messages make a flight for a client with a read buffer of [room] bytes: they are
    of the form the RFC gives them, at most one of them a CertificateRequest and none a Finished;
    the records hold them in order, the Finished in the last one; the records are not too big. *)
Definition sends_well (C : crypto) (s : server) (room : nat) (x : exchange) : Prop :=
  let l := s_parts s (x_msgs x) in
  parts_msgs l = x_msgs x /\
  Forall (fun m => understood C (fst m) (snd m) /\ in_flight (snd m) /\ ~ is_finished (snd m)) (x_before x) /\
  List.length (requests (x_before x)) <= 1 /\
  ~ (exists m, In m (parts_msgs (removelast l)) /\ is_finished (snd m)) /\
  Forall (part_fits C room) l /\ (N.of_nat (List.length l) < 2 ^ 64)%N /\
  List.length (x_shello x) <= room.
