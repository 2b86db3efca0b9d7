(** * Specification: what is wrong with a message that cannot be decoded, and the error for it *)
From Coq Require Import List NArith Arith.
From Coq.Strings Require Import Byte.
From Verif Require Import Base Codes Crypto SpecWire SpecCodes SpecMessages SpecHandshake SpecComplete.
Import ListNotations.

(** A field of a message of the server, with the error for it. *)
Inductive field :=
| Bytes (n : nat) (e : tls_error)                  (* [n] bytes, any *)
| Code (n : nat) (codes : list N) (e : tls_error)  (* a number of [n] bytes, one of [codes] *)
| Vector (k : nat) (e e' : tls_error)              (* a length of [k] bytes ([e]) and so many bytes ([e']) *)
| Extensions (m : server_message)
| Certificates.

Definition short : tls_error := ParseErr PE_InsufficientBytes.

(** The fields of the messages behind type and length (RFC 8446 sections 4.1.3, 4.3.1, 4.3.2, 4.4.2 to
    4.4.4, 4.6.1); [None] for those the client does not take. *)
Definition layout (C : crypto) (ty : N) : option (list field) :=
  match ty with
  | 2 => Some [Bytes 2 InvalidHandshake; Bytes 32 short; Vector 1 InvalidSessionIdLength InvalidSessionIdLength;
               Code 2 (map fst iana_cipher_suite) InvalidCipherSuite; Bytes 1 short; Extensions InServerHello]
  | 4 => Some [Bytes 4 short; Bytes 4 short; Vector 1 short InvalidNonceLength; Vector 2 short InvalidTicketLength;
               Extensions InNewSessionTicket]
  | 8 => Some [Extensions InEncryptedExtensions]
  | 11 => Some [Vector 1 InvalidCertificate InvalidCertificate; Certificates]
  | 13 => Some [Vector 1 InvalidCertificateRequest InvalidCertificateRequest; Extensions InCertificateRequest]
  | 15 => Some [Code 2 (map fst iana_sig_scheme) InvalidSignatureScheme; Vector 2 InvalidSignature InvalidSignature]
  | 20 => Some [Bytes (hash_len C) short]
  | _ => None
  end%N.

Definition header : list field := [Code 1 (map fst iana_handshake_type) InvalidHandshake; Bytes 3 InvalidHandshake].

(** ** Extensions *)

(** The bytes [r], after [n] extensions that were taken, do not begin with one that can be. *)
Inductive bad_extension (m : server_message) (n : nat) : bytes -> tls_error -> Prop :=
| be_cut r : r <> [] -> (forall i y, item_ok i -> r <> item_wire i ++ y) -> bad_extension m n r DecodeError
| be_misplaced t b y : item_ok (t, b) -> recognised t -> ~ In t (rfc_allowed m) ->
    bad_extension m n (item_wire (t, b) ++ y) (AbortHandshake AL_Fatal AD_IllegalParameter)
| be_content t b y : item_ok (t, b) -> recognised t -> In t (rfc_allowed m) -> ~ content_ok m t b ->
    bad_extension m n (item_wire (t, b) ++ y) DecodeError
| be_many t b y : item_ok (t, b) -> recognised t -> In t (rfc_allowed m) -> content_ok m t b -> n = most_extensions m ->
    bad_extension m n (item_wire (t, b) ++ y) DecodeError.

(** A block of extensions at the start of [w]: there is none, it is cut off, or one in it is bad. *)
Inductive bad_block (m : server_message) : bytes -> tls_error -> Prop :=
| bb_length w : length w < 2 -> bad_block m w InvalidExtensionsLength
| bb_body n y : (n < 65536)%N -> (N.of_nat (length y) < n)%N -> bad_block m (uint 2 n ++ y) short
| bb_items good r e y : Forall item_ok good -> digestible m good -> fits 2 (items_wire good ++ r) ->
    bad_extension m (length (recognised_items good)) r e -> bad_block m (vec 2 (items_wire good ++ r) ++ y) e.

(** ** Certificates *)

Definition good_entry (en : bytes * list ext_item) : Prop :=
  fits 3 (fst en) /\ block_ok (snd en) /\ digestible InCertificate (snd en).

Inductive bad_entry (n : nat) : bytes -> tls_error -> Prop :=
| bn_length r : r <> [] -> length r < 3 -> bad_entry n r InvalidCertificateEntry
| bn_body l y : (l < 16777216)%N -> (N.of_nat (length y) < l)%N -> bad_entry n (uint 3 l ++ y) InvalidCertificateEntry
| bn_extensions cert y e : fits 3 cert -> bad_block InCertificate y e -> bad_entry n (vec 3 cert ++ y) e
| bn_many en y : good_entry en -> n = 16 -> bad_entry n (entry_wire en ++ y) DecodeError.

(** ** Fields *)

(** [x] is a field as it should be. *)
Definition proper (f : field) (x : bytes) : Prop :=
  match f with
  | Bytes n _ => length x = n
  | Code n codes _ => exists c, In c codes /\ x = uint n c
  | Vector k _ _ => exists b, fits k b /\ x = vec k b
  | Extensions m => exists items, block_ok items /\ digestible m items /\ x = ext_block items
  | Certificates => exists entries, fits 3 (concat (map entry_wire entries)) /\ Forall good_entry entries /\
      length entries <= 16 /\ x = vec 3 (concat (map entry_wire entries))
  end.

(** [w] does not begin with such a field, and why. *)
Inductive defect : field -> bytes -> tls_error -> Prop :=
| df_bytes n e w : length w < n -> defect (Bytes n e) w e
| df_code_short n codes e w : length w < n -> defect (Code n codes e) w e
| df_code n codes e c y : (c < 256 ^ N.of_nat n)%N -> ~ In c codes -> defect (Code n codes e) (uint n c ++ y) e
| df_length k e e' w : length w < k -> defect (Vector k e e') w e
| df_body k e e' n y : (n < 256 ^ N.of_nat k)%N -> (N.of_nat (length y) < n)%N -> defect (Vector k e e') (uint k n ++ y) e'
| df_extensions m w e : bad_block m w e -> defect (Extensions m) w e
| df_list_length w : length w < 3 -> defect Certificates w InvalidCertificate
| df_list_body n y : (n < 16777216)%N -> (N.of_nat (length y) < n)%N -> defect Certificates (uint 3 n ++ y) InvalidCertificate
| df_entry good r e y : Forall good_entry good -> length good <= 16 -> fits 3 (concat (map entry_wire good) ++ r) ->
    bad_entry (length good) r e -> defect Certificates (vec 3 (concat (map entry_wire good) ++ r) ++ y) e.

(** The first field that is not as it should be decides. *)
Inductive first_defect : list field -> bytes -> tls_error -> Prop :=
| fd_here f fs w e : defect f w e -> first_defect (f :: fs) w e
| fd_later f fs x y e : proper f x -> first_defect fs y e -> first_defect (f :: fs) (x ++ y) e.

(** ** Messages *)

(** The bytes [w] do not begin with a message the client can decode; [e] is the error. *)
Definition faulty (C : crypto) (w : bytes) (e : tls_error) : Prop :=
  first_defect header w e \/
  exists ty len y, In ty (map fst iana_handshake_type) /\ length len = 3 /\ w = uint 1 ty ++ len ++ y /\
    match layout C ty with Some fs => first_defect fs y e | None => e = Unimplemented end.
