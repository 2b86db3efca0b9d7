(** * Base: bytes, errors, outcomes and the state-and-outcome monad.

    Everything in this file is infrastructure for the model; definitions that
    correspond to Rust items cite them. *)

From Coq Require Import List NArith Arith Bool.
From Coq.Strings Require Import Byte.
Import ListNotations.

(** A Rust [u8] is a [byte]; a Rust [&[u8]] is a [bytes]. *)
Notation byte := Coq.Init.Byte.byte.
Notation bytes := (list byte).

(** [n as u8] (truncating cast). *)
Definition b8 (n : N) : byte :=
  match Byte.of_N (n mod 256)%N with Some b => b | None => x00 end.

(** [u16::to_be_bytes], [u24] as pushed by buffer.rs:53, [u32::to_be_bytes],
    [u64::to_be_bytes]. *)
Definition be16 (n : N) : bytes := [b8 (n / 256); b8 n]%N.
Definition be24 (n : N) : bytes := [b8 (n / 65536); b8 (n / 256); b8 n]%N.
Definition be32 (n : N) : bytes := [b8 (n / 16777216); b8 (n / 65536); b8 (n / 256); b8 n]%N.
Definition be64 (n : N) : bytes := be32 (n / 4294967296)%N ++ be32 n.

(** Value of a big-endian byte string ([uN::from_be_bytes]). *)
Definition be_val (l : bytes) : N := fold_left (fun acc b => acc * 256 + Byte.to_N b)%N l 0%N.

(** parse_buffer.rs:6-10 [ParseError]. *)
Inductive parse_error := PE_InsufficientBytes | PE_InsufficientSpace | PE_InvalidData.

(** alert.rs:7-10 [AlertLevel] (codes in Codes.v). *)
Inductive alert_level := AL_Warning | AL_Fatal.

(** alert.rs:25-53 [AlertDescription] (codes in Codes.v). *)
Inductive alert_desc :=
| AD_CloseNotify | AD_UnexpectedMessage | AD_BadRecordMac | AD_RecordOverflow
| AD_HandshakeFailure | AD_BadCertificate | AD_UnsupportedCertificate
| AD_CertificateRevoked | AD_CertificateExpired | AD_CertificateUnknown
| AD_IllegalParameter | AD_UnknownCa | AD_AccessDenied | AD_DecodeError
| AD_DecryptError | AD_ProtocolVersion | AD_InsufficientSecurity
| AD_InternalError | AD_InappropriateFallback | AD_UserCanceled
| AD_MissingExtension | AD_UnsupportedExtension | AD_UnrecognizedName
| AD_BadCertificateStatusResponse | AD_UnknownPskIdentity
| AD_CertificateRequired | AD_NoApplicationProtocol.

(** [embedded_io::ErrorKind]; the kind is opaque to the client, a number. *)
Definition io_kind := N.

(** lib.rs:95-129 [TlsError]. *)
Inductive tls_error :=
| ConnectionClosed | Unimplemented | MissingHandshake
| HandshakeAborted (l : alert_level) (d : alert_desc)
| AbortHandshake (l : alert_level) (d : alert_desc)
| IoError | InternalError | InvalidRecord | UnknownContentType
| InvalidNonceLength | InvalidTicketLength | UnknownExtensionType
| InsufficientSpace | InvalidHandshake | InvalidCipherSuite
| InvalidSignatureScheme | InvalidSignature | InvalidExtensionsLength
| InvalidSessionIdLength | InvalidSupportedVersions | InvalidApplicationData
| InvalidKeyShare | InvalidCertificate | InvalidCertificateEntry
| InvalidCertificateRequest | InvalidPrivateKey
| UnableToInitializeCryptoEngine | ParseErr (p : parse_error) | OutOfMemory
| CryptoError | EncodeError | DecodeError | Io (k : io_kind).

(** Where a Rust panic comes from. *)
Inductive panic_site :=
| PSlice          (* index or range out of bounds, copy_from_slice length mismatch *)
| PArith          (* integer overflow / underflow (debug build reading) *)
| PUnwrap         (* unwrap / unwrap! / expect on None or Err *)
| PUnimplemented  (* unimplemented!() / todo!() *)
| PAssert.        (* assert! / assert_eq! / debug_assert! *)

(** Outcome of running a piece of code.  [Diverge] means that the fuel given to
    a modelled loop ran out; [Cancelled] means that the async future was dropped
    at an await point (no further code of the call runs). *)
Inductive outcome (E A : Type) :=
| Ok (a : A)
| Err (e : E)
| Panic (s : panic_site)
| Diverge
| Cancelled.
Arguments Ok {E A} a.
Arguments Err {E A} e.
Arguments Panic {E A} s.
Arguments Diverge {E A}.
Arguments Cancelled {E A}.

Definition obind {E A B} (m : outcome E A) (f : A -> outcome E B) : outcome E B :=
  match m with
  | Ok a => f a
  | Err e => Err e
  | Panic s => Panic s
  | Diverge => Diverge
  | Cancelled => Cancelled
  end.

Definition omap_err {E E' A} (f : E -> E') (m : outcome E A) : outcome E' A :=
  match m with
  | Ok a => Ok a
  | Err e => Err (f e)
  | Panic s => Panic s
  | Diverge => Diverge
  | Cancelled => Cancelled
  end.

Definition omap {E A B} (f : A -> B) (m : outcome E A) : outcome E B :=
  obind m (fun a => Ok (f a)).

(** [unwrap] of an option / of a result. *)
Definition unwrap {E A} (o : option A) : outcome E A :=
  match o with Some a => Ok a | None => Panic PUnwrap end.

Definition ok_or {E A} (e : E) (o : option A) : outcome E A :=
  match o with Some a => Ok a | None => Err e end.

(** State threaded through code that takes [&mut]; the state survives errors. *)
Definition M (S E A : Type) : Type := S -> outcome E A * S.

Definition ret {S E A} (a : A) : M S E A := fun s => (Ok a, s).
Definition fail {S E A} (e : E) : M S E A := fun s => (Err e, s).
Definition panic {S E A} (p : panic_site) : M S E A := fun s => (Panic p, s).
Definition lift {S E A} (o : outcome E A) : M S E A := fun s => (o, s).
Definition get {S E} : M S E S := fun s => (Ok s, s).
Definition put {S E} (s : S) : M S E unit := fun _ => (Ok tt, s).
Definition modify {S E} (f : S -> S) : M S E unit := fun s => (Ok tt, f s).
Definition gets {S E A} (f : S -> A) : M S E A := fun s => (Ok (f s), s).

Definition bind {S E A B} (m : M S E A) (f : A -> M S E B) : M S E B :=
  fun s =>
    match m s with
    | (Ok a, s') => f a s'
    | (Err e, s') => (Err e, s')
    | (Panic p, s') => (Panic p, s')
    | (Diverge, s') => (Diverge, s')
    | (Cancelled, s') => (Cancelled, s')
    end.

Definition map_err {S E E' A} (f : E -> E') (m : M S E A) : M S E' A :=
  fun s => let '(o, s') := m s in (omap_err f o, s').

(** Observe the result of [m] instead of propagating its error ([let r = m;]). *)
Definition attempt {S E A} (m : M S E A) : M S E (A + E) :=
  fun s =>
    match m s with
    | (Ok a, s') => (Ok (inl a), s')
    | (Err e, s') => (Ok (inr e), s')
    | (Panic p, s') => (Panic p, s')
    | (Diverge, s') => (Diverge, s')
    | (Cancelled, s') => (Cancelled, s')
    end.

Declare Scope m_scope.
Delimit Scope m_scope with m.
Notation "x <- m ;; k" := (bind m (fun x => k))
  (at level 61, m at next level, right associativity) : m_scope.
Notation "' p <- m ;; k" := (bind m (fun x => let p := x in k))
  (at level 61, p pattern, m at next level, right associativity) : m_scope.
Notation "m ;;; k" := (bind m (fun _ => k))
  (at level 61, right associativity) : m_scope.
Notation "x <-- m ;; k" := (obind m (fun x => k))
  (at level 61, m at next level, right associativity) : m_scope.
Open Scope m_scope.

(** ** Slices *)

(** [l[a .. a+n]] without bounds check (only used behind one). *)
Definition sub {A} (l : list A) (a n : nat) : list A := firstn n (skipn a l).

(** [&l[a..b]]: panics when [a > b] or [b > l.len()]. *)
Definition slice_rng {E A} (l : list A) (a b : nat) : outcome E (list A) :=
  if (a <=? b) && (b <=? length l) then Ok (sub l a (b - a)) else Panic PSlice.

(** [&l[a..]]. *)
Definition slice_from {E A} (l : list A) (a : nat) : outcome E (list A) :=
  slice_rng l a (length l).

(** [l[i]] (read). *)
Definition index {E A} (l : list A) (i : nat) : outcome E A :=
  match nth_error l i with Some a => Ok a | None => Panic PSlice end.

(** overwrite [l] at [a] with [bs], without bounds check (only used behind one). *)
Definition splice {A} (l : list A) (a : nat) (bs : list A) : list A :=
  firstn a l ++ bs ++ skipn (a + length bs) l.

(** [l[a..a+bs.len()].copy_from_slice(bs)]. *)
Definition set_rng {E A} (l : list A) (a : nat) (bs : list A) : outcome E (list A) :=
  if a + length bs <=? length l then Ok (splice l a bs) else Panic PSlice.

(** [l[i] = v]. *)
Definition set_index {E A} (l : list A) (i : nat) (v : A) : outcome E (list A) :=
  if i <? length l then Ok (splice l i [v]) else Panic PSlice.

(** [a - b] on [usize] (debug build: panics on underflow). *)
Definition usize_sub {E} (a b : nat) : outcome E nat :=
  if b <=? a then Ok (a - b) else Panic PArith.

Definition zeros (n : nat) : bytes := repeat x00 n.

Definition byte_eqb (a b : byte) : bool := Byte.eqb a b.

Fixpoint bytes_eqb (a b : bytes) : bool :=
  match a, b with
  | [], [] => true
  | x :: a', y :: b' => byte_eqb x y && bytes_eqb a' b'
  | _, _ => false
  end.
