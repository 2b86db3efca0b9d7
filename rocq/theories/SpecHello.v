(** * Specification: the ClientHello grammar of RFC 8446 (section 4.1.2 and 4.2)

    A parser written from the RFC presentation language, which consumes its input completely
    and enforces the vector bounds of the RFC.  It shares nothing with the model's encoder. *)
From Coq Require Import List NArith Arith Bool.
From Coq.Strings Require Import Byte.
From Verif Require Import Base Codes SpecWire SpecCodes.
Import ListNotations.

(** ** Grammar combinators *)
Definition grammar (A : Type) := bytes -> option (A * bytes).

Definition num (bs : bytes) : N := fold_left (fun a b => a * 256 + Byte.to_N b)%N bs 0%N.

Definition g_bytes (n : N) : grammar bytes := fun bs =>
  if (n <=? N.of_nat (length bs))%N
  then Some (firstn (N.to_nat n) bs, skipn (N.to_nat n) bs) else None.
Definition g_bind {A B} (p : grammar A) (f : A -> grammar B) : grammar B := fun bs =>
  match p bs with Some (a, r) => f a r | None => None end.
Definition g_ret {A} (a : A) : grammar A := fun bs => Some (a, bs).
Definition g_fail {A} : grammar A := fun _ => None.
Definition g_check (b : bool) : grammar unit := if b then g_ret tt else g_fail.
Definition g_some {A} (o : option A) : grammar A := match o with Some a => g_ret a | None => g_fail end.

Declare Scope grammar_scope.
Notation "x <~ p ; q" := (g_bind p (fun x => q)) (at level 61, p at next level, right associativity) : grammar_scope.
Local Open Scope grammar_scope.

Definition g_uint (k : N) : grammar N := b <~ g_bytes k; g_ret (num b).

(** A whole byte string matches [p]. *)
Definition g_whole {A} (p : grammar A) (bs : bytes) : option A :=
  match p bs with Some (a, []) => Some a | _ => None end.

(** Zero or more items filling the whole string. *)
Fixpoint g_items {A} (fuel : nat) (p : grammar A) (bs : bytes) : option (list A) :=
  match bs with
  | [] => Some []
  | _ =>
      match fuel with
      | O => None
      | S f => match p bs with
               | Some (a, r) => match g_items f p r with Some l => Some (a :: l) | None => None end
               | None => None
               end
      end
  end.

(** opaque x<lo..hi> with a [k]-byte length. *)
Definition g_opaque (k lo hi : N) : grammar bytes :=
  n <~ g_uint k; b <~ g_bytes n; _ <~ g_check ((lo <=? n) && (n <=? hi))%N; g_ret b.
(** T x<lo..hi>. *)
Definition g_vector {A} (k lo hi : N) (p : grammar A) : grammar (list A) :=
  b <~ g_opaque k lo hi; g_some (g_items (length b) p b).

Definition g_code {A} (k : N) (table : list (N * A)) : grammar A :=
  n <~ g_uint k;
  g_some (match find (fun e => (fst e =? n)%N) table with Some e => Some (snd e) | None => None end).

(** ** Extensions *)
Inductive hello_ext :=
| H_server_name (names : list (N * bytes))        (* RFC 6066 section 3 *)
| H_max_fragment_length (m : max_frag)            (* RFC 6066 section 4 *)
| H_supported_groups (l : list named_group)       (* 4.2.7 *)
| H_signature_algorithms (l : list sig_scheme)    (* 4.2.3 *)
| H_alpn (names : list bytes)                     (* RFC 7301 *)
| H_supported_versions (l : list N)               (* 4.2.1 *)
| H_psk_modes (l : list psk_mode)                 (* 4.2.9 *)
| H_key_share (l : list (named_group * bytes))    (* 4.2.8 *)
| H_pre_shared_key (ids : list (bytes * N)) (binders : list bytes) (* 4.2.11 *)
| H_other (code : N) (body : bytes).

Definition g_ext_body (code : N) : grammar hello_ext :=
  match code with
  | 0 => l <~ g_vector 2 1 65535 (t <~ g_uint 1; n <~ g_opaque 2 1 65535; g_ret (t, n)); g_ret (H_server_name l)
  | 1 => m <~ g_code 1 iana_max_frag; g_ret (H_max_fragment_length m)
  | 10 => l <~ g_vector 2 2 65535 (g_code 2 iana_named_group); g_ret (H_supported_groups l)
  | 13 => l <~ g_vector 2 2 65534 (g_code 2 iana_sig_scheme); g_ret (H_signature_algorithms l)
  | 16 => l <~ g_vector 2 2 65535 (g_opaque 1 1 255); g_ret (H_alpn l)
  | 41 => i <~ g_vector 2 7 65535 (i <~ g_opaque 2 1 65535; a <~ g_uint 4; g_ret (i, a));
          b <~ g_vector 2 33 65535 (g_opaque 1 32 255);
          _ <~ g_check (length i =? length b)%nat;
          g_ret (H_pre_shared_key i b)
  | 43 => l <~ g_vector 1 2 254 (g_uint 2); g_ret (H_supported_versions l)
  | 45 => l <~ g_vector 1 1 255 (g_code 1 iana_psk_mode); g_ret (H_psk_modes l)
  | 51 => l <~ g_vector 2 0 65535 (g <~ g_code 2 iana_named_group; k <~ g_opaque 2 1 65535; g_ret (g, k));
          g_ret (H_key_share l)
  | c => fun bs => Some (H_other c bs, [])
  end%N.

Definition g_extension : grammar (N * hello_ext) :=
  code <~ g_uint 2; body <~ g_opaque 2 0 65535;
  x <~ g_some (g_whole (g_ext_body code) body); g_ret (code, x).

(** No two extensions of the same type; pre_shared_key only in last position (4.2, 4.2.11). *)
Fixpoint distinct (l : list N) : bool :=
  match l with [] => true | x :: r => negb (existsb (N.eqb x) r) && distinct r end.
Definition psk_last (l : list N) : bool := negb (existsb (N.eqb 41) (removelast l)).

(** ** ClientHello *)
Record hello := mk_hello {
  h_version : N; h_random : bytes; h_session : bytes; h_suites : list N;
  h_compression : bytes; h_exts : list hello_ext }.

Definition g_client_hello : grammar hello :=
  v <~ g_uint 2; r <~ g_bytes 32; s <~ g_opaque 1 0 32;
  cs <~ g_vector 2 2 65534 (g_uint 2); cm <~ g_opaque 1 1 255;
  es <~ g_vector 2 8 65535 g_extension;
  _ <~ g_check (distinct (map fst es) && psk_last (map fst es));
  g_ret (mk_hello v r s cs cm (map snd es)).

(** Handshake message of type client_hello (4), in one plaintext record (5.1). *)
Definition g_handshake : grammar hello :=
  t <~ g_uint 1; _ <~ g_check (t =? 1)%N;
  b <~ g_opaque 3 0 16777215; g_some (g_whole g_client_hello b).

Definition g_record : grammar hello :=
  t <~ g_uint 1; _ <~ g_check (t =? 22)%N;
  v <~ g_uint 2; _ <~ g_check (v =? 0x0301)%N;
  b <~ g_opaque 2 0 65535; g_some (g_whole g_handshake b).
