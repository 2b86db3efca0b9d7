(** * Specification vocabulary for certificates: host names (RFC 6125), certificate chains
    (RFC 5280), and the signature of the server (RFC 8446 section 4.4.3) *)
From Coq Require Import String List NArith Arith Bool.
From Coq.Strings Require Import Byte.
From Verif Require Import Base Codes Crypto Config Handshake Connection Pki WebPki SpecWire SpecMessages SpecKeys SpecHandshake.
Import ListNotations.
Local Open Scope list_scope.

(** ** Host names *)

(** Letter, digit, hyphen. *)
Definition ldh (b : byte) : Prop :=
  let n := Byte.to_N b in (97 <= n <= 122 \/ 65 <= n <= 90 \/ 48 <= n <= 57 \/ n = 45)%N.
Definition dot : byte := x2e.
Definition star : byte := x2a.

(** The same but for the case of ASCII letters. *)
Definition same_letter (a b : byte) : Prop :=
  let m := Byte.to_N a in let n := Byte.to_N b in
  (m = n \/ (65 <= m <= 90 /\ n = m + 32) \/ (65 <= n <= 90 /\ m = n + 32))%N.
Definition same_text : bytes -> bytes -> Prop := Forall2 same_letter.

(** Labels with dots between them; a DNS name has at least one label and no empty one. *)
Fixpoint dotted (ls : list bytes) : bytes :=
  match ls with [] => [] | [l] => l | l :: r => l ++ dot :: dotted r end.
Definition dns_name (ls : list bytes) (s : bytes) : Prop :=
  ls <> [] /\ Forall (fun l => l <> [] /\ Forall ldh l) ls /\ s = dotted ls.

(** RFC 6125, 6.4: the name [cn] in a certificate is the host's, or [*.] and at least two
    labels that are all but the first of the host's. *)
Definition rfc_match (cn host : bytes) : Prop :=
  exists hl, dns_name hl host /\
    ((exists cl, dns_name cl cn /\ Forall2 same_text cl hl) \/
     (exists sl s first rest, cn = star :: dot :: s /\ dns_name sl s /\ 2 <= List.length sl /\
        hl = first :: rest /\ Forall2 same_text sl rest)).

(** The same without any demand on labels: empty ones count. *)
Definition dns_text (s : bytes) : Prop := Forall (fun b => ldh b \/ b = dot) s.
Definition text_match (cn host : bytes) : Prop :=
  (dns_text cn /\ dns_text host /\ same_text cn host) \/
  (exists suffix label rest, cn = star :: dot :: suffix /\ host = label ++ dot :: rest /\
     Forall ldh label /\ dns_text suffix /\ In dot suffix /\ dns_text rest /\ same_text suffix rest).

(** The host [h] is named: by a subject alternative name or by the common name. *)
Definition named (cn : option bytes) (sans : list bytes) (h : bytes) : Prop :=
  (exists s, In s sans /\ text_match s h) \/ (exists c, cn = Some c /\ text_match c h).

(** What is demanded of the names in a certificate; without a host name to check: none there. *)
Definition host_ok (host cn : option bytes) (sans : list bytes) : Prop :=
  match host with
  | Some h => named cn sans h
  | None => cn = None /\ sans = []
  end.

(** ** The names in a certificate *)

(** The content bytes of an object identifier (X.690, 8.19): the first two numbers in one, then
    each number in base 128, every digit but the last with its high bit set. *)
Fixpoint digits128 (fuel : nat) (n : N) (last : bool) : bytes :=
  match fuel with
  | O => []
  | S fuel => (if (n <? 128)%N then [] else digits128 fuel (n / 128)%N false) ++
              [byte_of (n mod 128 + (if last then 0 else 128))%N]
  end.
Definition object_id (arcs : list N) : bytes :=
  match arcs with
  | a :: b :: r => concat (map (fun n => digits128 10 n true) ((40 * a + b)%N :: r))
  | _ => []
  end.

(** UTF-8 (RFC 3629 section 3): how a character is written, and what is text. *)
Definition character (n : N) : Prop := (n < 0xD800 \/ 0xDFFF < n < 0x110000)%N.
Definition utf8_char (n : N) : bytes :=
  if (n <? 0x80)%N then [byte_of n]
  else if (n <? 0x800)%N then [byte_of (0xC0 + n / 64); byte_of (0x80 + n mod 64)]
  else if (n <? 0x10000)%N then [byte_of (0xE0 + n / 4096); byte_of (0x80 + (n / 64) mod 64); byte_of (0x80 + n mod 64)]
  else [byte_of (0xF0 + n / 262144); byte_of (0x80 + (n / 4096) mod 64); byte_of (0x80 + (n / 64) mod 64); byte_of (0x80 + n mod 64)].
Definition text (b : bytes) : Prop := exists ns, Forall character ns /\ b = concat (map utf8_char ns).

(** The values of the attributes 2.5.4.3 of the subject, in order. *)
Definition common_names (subject : list (list (bytes * bytes))) : list bytes :=
  concat (map (fun rdn => match rdn with
                          | (oid, v) :: _ => if bytes_eqb oid (object_id [2; 5; 4; 3]%N) then [v] else []
                          | [] => [] end) subject).

(** The common name: the last one, if it is text. *)
Definition is_common_name (c : dcert) (cn : option bytes) : Prop :=
  Forall (fun rdn => rdn <> []) (dc_subject c) /\
  Forall (fun v => List.length v <= 64) (common_names (dc_subject c)) /\
  match rev (common_names (dc_subject c)) with
  | v :: _ => (text v /\ cn = Some v) \/ (~ text v /\ cn = None)
  | [] => cn = None
  end.

(** [b] begins with the elements [gs] (tag and content), [rest] follows. *)
Inductive elements (L : pki_lib) : bytes -> list (byte * bytes) -> bytes -> Prop :=
| el_none b : elements L b [] b
| el_one b t v r gs rest : k_header L b = Some (t, List.length v, v ++ r) -> elements L r gs rest ->
    elements L b ((t, v) :: gs) rest.

(** The general names of an extension value: a SEQUENCE of them; [rest] is what was not read. *)
Definition general_names (L : pki_lib) (value : bytes) (gs : list (byte * bytes)) (rest : bytes) : Prop :=
  exists content after, k_header L value = Some (x30, List.length content, content ++ after) /\
    elements L content gs rest.

(** The dNSNames ([2]) among them. *)
Definition dns_names (gs : list (byte * bytes)) : list bytes :=
  map snd (filter (fun g => byte_eqb (fst g) x82) gs).

(** The values of the extensions 2.5.29.17; they are OCTET STRINGs. *)
Definition san_values (exts : list (bytes * (byte * bytes))) : list (byte * bytes) :=
  map snd (filter (fun e => bytes_eqb (fst e) (object_id [2; 5; 29; 17]%N)) exts).

(** The subject alternative names: the first three dNSNames of the extensions.  Each extension
    is read to its end unless three names were found. *)
Definition are_sans (L : pki_lib) (c : dcert) (sans : list bytes) : Prop :=
  match dc_extensions c with
  | None => sans = []
  | Some exts => exists gss,
      Forall2 (fun e gs => fst e = x04 /\ exists rest, general_names L (snd e) gs rest /\
                 (rest = [] \/ List.length sans = 3)) (san_values exts) gss /\
      sans = firstn 3 (dns_names (concat gss))
  end.

(** Well-formed names: every element is there, every dNSName is text of at most 64 bytes. *)
Definition good_sans (L : pki_lib) (c : dcert) (all : list bytes) : Prop :=
  match dc_extensions c with
  | None => all = []
  | Some exts => exists gss,
      Forall2 (fun e gs => fst e = x04 /\ general_names L (snd e) gs []) (san_values exts) gss /\
      all = dns_names (concat gss) /\ Forall (fun n => text n /\ List.length n <= 64) all
  end.

(** ** Chains *)

(** The algorithms by their object identifiers and their parameters (RFC 5758: ecdsa-with-SHA256
    and SHA384 without parameters; RFC 8410: Ed25519 without; RFC 4055: sha256-, sha384- and
    sha512WithRSAEncryption with NULL). *)
Definition ecdsa_with (n : N) : alg_id := (object_id [1; 2; 840; 10045; 4; 3; n]%N, None).
Definition ed25519 : alg_id := (object_id [1; 3; 101; 112]%N, None).
Definition rsa_with (n : N) : alg_id := (object_id [1; 2; 840; 113549; 1; 1; n]%N, Some [x05; x00]).
Definition known_algs (F : features) : list (alg_id * sig_alg) :=
  [(ecdsa_with 2, A_P256)] ++
  (if f_p384 F then [(ecdsa_with 3, A_P384)] else []) ++
  (if f_ed25519 F then [(ed25519, A_Ed25519)] else []) ++
  (if f_rsa F then [(rsa_with 11, A_Pkcs1_256); (rsa_with 12, A_Pkcs1_384); (rsa_with 13, A_Pkcs1_512)] else []).

(** [sg] is a signature of [msg] under [key]. *)
Definition good_signature (L : pki_lib) (a : sig_alg) (key msg sg : bytes) : Prop :=
  k_key_ok L a key = true /\ k_sig_ok L a sg = true /\ k_verify L a key msg sg = true /\
  (a = A_Ed25519 -> List.length key = 32).

(** [tbs] is the whole first element, a SEQUENCE, of the SEQUENCE [der]. *)
Definition signed_part (L : pki_lib) (der tbs : bytes) : Prop :=
  exists n h v rest, k_header L der = Some (x30, n, tbs ++ rest) /\
    k_header L (tbs ++ rest) = Some (x30, List.length v, v ++ rest) /\ tbs = h ++ v.

Definition seconds (t : cert_time) : N := match t with UtcTime n => n | GeneralTime n => n end.
Definition in_force (now : option N) (c : dcert) : Prop :=
  match now with
  | Some t => (seconds (dc_not_before c) <= t <= seconds (dc_not_after c))%N
  | None => True
  end.

(** The certificate [der] is in force and signed with the key in the certificate [issuer]. *)
Definition issued (L : pki_lib) (F : features) (now : option N) (issuer der : bytes) : Prop :=
  exists ci c key a sg tbs, k_cert L issuer = Some ci /\ dc_key ci = Some key /\
    k_cert L der = Some c /\ in_force now c /\
    In (dc_alg c, a) (known_algs F) /\ dc_signature c = Some sg /\ signed_part L der tbs /\
    good_signature L a key tbs sg.

(** Each of [certs] is issued by the next, the last by the certificate [ca]. *)
Definition chained (L : pki_lib) (F : features) (now : option N) (ca : bytes) (certs : list bytes) : Prop :=
  forall i der, nth_error certs i = Some der -> issued L F now (nth (S i) certs ca) der.

(** The first certificate is for [host].  With no certificate at all there are no names. *)
Definition leaf_for (L : pki_lib) (host : option bytes) (certs : list bytes) : Prop :=
  match certs with
  | [] => host = None
  | leaf :: _ => exists c cn sans, k_cert L leaf = Some c /\ is_common_name c cn /\ are_sans L c sans /\
      host_ok host cn sans
  end.

(** ** The signature of the server *)

(** What a server signs (4.4.3), the transcript being [tr]. *)
Definition server_signs (C : crypto) (tr : bytes) : bytes :=
  repeat (byte_of 32) 64 ++ ascii "TLS 1.3, server CertificateVerify" ++ [x00] ++ c_hash C tr.

(** The schemes by their numbers (4.2.3). *)
Definition known_schemes (F : features) : list (N * sig_alg) :=
  [(0x0403%N, A_P256)] ++
  (if f_p384 F then [(0x0503%N, A_P384)] else []) ++
  (if f_ed25519 F then [(0x0807%N, A_Ed25519)] else []) ++
  (if f_rsa F then [(0x0804%N, A_Pss_256); (0x0805%N, A_Pss_384); (0x0806%N, A_Pss_512)] else []).

(** [sg] is a signature, with the scheme [scheme], of what a server signs, under the key in the
    certificate [leaf]. *)
Definition server_signed (L : pki_lib) (F : features) (C : crypto) (leaf tr : bytes) (scheme : N) (sg : bytes) : Prop :=
  exists c key a, k_cert L leaf = Some c /\ dc_key c = Some key /\ In (scheme, a) (known_schemes F) /\
    good_signature L a key (server_signs C tr) sg.

(** A certificate list as it comes out of a Certificate message. *)
Definition received (c : cert_ref) (certs : list bytes) : Prop :=
  exists entries, Forall (fun e => fits 3 (fst e) /\ block_ok (snd e)) entries /\
    ce_raw c = concat (map entry_wire entries) /\ certs = map fst entries /\ ce_entries c = map CE_X509 certs.

(** ** A server that proved itself *)

Definition no_proof (m : smsg) : Prop :=
  match m with M_Certificate _ _ _ | M_CertificateVerify _ _ => False | _ => True end.

(** Among the messages [before], which follow the hellos [hellos], the last that is a Certificate
    or a CertificateVerify is a Certificate; its certificates are [good], and the first of them
    [signed] the transcript up to it. *)
Definition proved_by (good : list bytes -> Prop) (signed : bytes -> bytes -> Prop) (hellos : bytes)
  (before : list (bytes * smsg)) : Prop :=
  exists d1 b ctx certs_raw leaf chain d2,
    before = d1 ++ (b, M_Certificate ctx certs_raw (leaf :: chain)) :: d2 /\
    Forall (fun m => no_proof (snd m)) d2 /\ good (leaf :: chain) /\ signed leaf (hellos ++ raw d1 ++ b).

(** The signature algorithms webpki is told to allow in certificates: ECDSA on either curve with
    SHA-256 or SHA-384, and Ed25519. *)
Definition web_allowed : list web_alg :=
  [W_EcdsaP256Sha256; W_EcdsaP256Sha384; W_EcdsaP384Sha256; W_EcdsaP384Sha384; W_Ed25519].

(** webpki: the first certificate, directly under the authority, at the time [now] (the epoch
    when there is no clock), for the host. *)
Definition web_good (W : web_lib) (now : option N) (ca : cert_entry) (host : option bytes) (certs : list bytes) : Prop :=
  exists a leaf rest, ca = CE_X509 a /\ certs = leaf :: rest /\ w_anchor W a = true /\ w_leaf W leaf = true /\
    w_usage W web_allowed a leaf (match now with Some n => n | None => 0%N end) = true /\
    match host with Some h => w_name_ok W h = true /\ w_for_name W leaf h = true | None => True end.

(** The schemes webpki can check, by number. *)
Definition web_schemes (alloc : bool) : list (N * web_alg) :=
  [(0x0403%N, W_EcdsaP256Sha256); (0x0503%N, W_EcdsaP384Sha384); (0x0807%N, W_Ed25519)] ++
  (if alloc then [(0x0401%N, W_RsaPkcs1Sha256); (0x0501%N, W_RsaPkcs1Sha384); (0x0601%N, W_RsaPkcs1Sha512);
                  (0x0804%N, W_RsaPssSha256); (0x0805%N, W_RsaPssSha384); (0x0806%N, W_RsaPssSha512)] else []).
Definition web_signed (W : web_lib) (alloc : bool) (C : crypto) (scheme : N) (sg leaf tr : bytes) : Prop :=
  exists a, In (scheme, a) (web_schemes alloc) /\ w_leaf W leaf = true /\ w_verify W a leaf (server_signs C tr) sg = true.

(** The verifier of [p] is the one of pki.rs, and of webpki.rs. *)
Definition uses_pki (C : crypto) (L : pki_lib) (F : features) (ca : bytes) (now : option N) (size : nat)
  (p : provider pki_state) : Prop :=
  p_has_verifier p = true /\ p_set_hostname p = pv_set_hostname /\
  p_verify_cert p = pv_verify_certificate L F (CE_X509 ca) now size /\ p_verify_sig p = pv_verify_signature L F C.
Definition uses_webpki (C : crypto) (W : web_lib) (alloc : bool) (ca : cert_entry) (now : option N) (size : nat)
  (p : provider pki_state) : Prop :=
  p_has_verifier p = true /\ p_set_hostname p = pv_set_hostname /\
  p_verify_cert p = wv_verify_certificate W ca now size /\ p_verify_sig p = wv_verify_signature W alloc C.

(** ** Certificates that make the verifier panic *)

Definition key_of (L : pki_lib) (der key : bytes) : Prop := exists c, k_cert L der = Some c /\ dc_key c = Some key.
(** [der] claims to be signed with Ed25519, the key in [issuer] is not one of 32 bytes. *)
Definition wrong_issuer (L : pki_lib) (issuer der : bytes) : Prop :=
  exists c key, k_cert L der = Some c /\ dc_alg c = ed25519 /\ key_of L issuer key /\ List.length key <> 32.

(** A call that returns. *)
Definition settled {A} (o : outcome tls_error A) : Prop := match o with Ok _ | Err _ => True | _ => False end.
