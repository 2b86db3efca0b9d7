(** * Specification: protected records (RFC 8446 section 5) and the peer that opens them

    Written from the RFC over the abstract AEAD only; shared by the properties of the
    sending and of the receiving side. *)
From Coq Require Import List NArith Arith Bool.
From Coq.Strings Require Import Byte.
From Verif Require Import Base Crypto SpecWire SpecKeys.
Import ListNotations.

(** ContentType (5.1). *)
Definition ty_ccs : byte := byte_of 20.
Definition ty_alert : byte := byte_of 21.
Definition ty_handshake : byte := byte_of 22.
Definition ty_data : byte := byte_of 23.

(** The header of a protected record with an encrypted_record of [n] bytes (5.2). *)
Definition rfc_header (n : nat) : bytes := uint 1 23 ++ uint 2 0x0303 ++ uint 2 (N.of_nat n).

(** TLSInnerPlaintext (5.2): content, type, zero padding. *)
Definition rfc_inner (ty : byte) (content : bytes) (pad : nat) : bytes :=
  content ++ [ty] ++ repeat x00 pad.

(** TLSCiphertext number [seq] under a key and an IV (5.2, 5.3). *)
Definition rfc_record (C : crypto) (key iv : bytes) (seq : N) (ty : byte) (content : bytes) (pad : nat)
  : bytes :=
  let inner := rfc_inner ty content pad in
  let h := rfc_header (length inner + tag_len C) in
  let '(ct, tag) := c_seal C key (rfc_nonce iv seq) h inner in
  h ++ ct ++ tag.

(** Undo the padding: the last non-zero byte is the type (5.4). *)
Fixpoint drop_zeros (l : bytes) : bytes :=
  match l with
  | x00 :: r => drop_zeros r
  | _ => l
  end.
Definition rfc_unpad (inner : bytes) : option (byte * bytes) :=
  match drop_zeros (rev inner) with
  | [] => None
  | t :: c => Some (t, rev c)
  end.

(** Open the record with header [h] and encrypted_record [frag] (5.2). *)
Definition rfc_open (C : crypto) (key iv : bytes) (seq : N) (h frag : bytes) : option bytes :=
  if length frag <? tag_len C then None
  else c_open C key (rfc_nonce iv seq) h
         (firstn (length frag - tag_len C) frag) (skipn (length frag - tag_len C) frag).

(** A receiving peer: reads protected records off the wire, opening them with sequence
    numbers [seq], [seq+1], ...; refuses contents longer than [lim] bytes.  It ends with
    some bytes of an incomplete record left, or by rejecting the stream. *)
Inductive peer_end := Pending (left : bytes) | Rejected.

Definition peer_cons (r : byte * bytes) (p : list (byte * bytes) * peer_end) :=
  (r :: fst p, snd p).

Fixpoint peer_loop (C : crypto) (lim : nat) (key iv : bytes) (fuel : nat) (seq : N) (w : bytes)
  : list (byte * bytes) * peer_end :=
  match fuel with
  | O => ([], Pending w)
  | S fuel =>
      if length w <? 5 then ([], Pending w)
      else
        let h := firstn 5 w in
        let n := N.to_nat (be_val (skipn 3 h)) in
        if negb (bytes_eqb (firstn 3 h) (uint 1 23 ++ uint 2 0x0303)) then ([], Rejected)
        else if length w <? 5 + n then ([], Pending w)
        else
          match rfc_open C key iv seq h (firstn n (skipn 5 w)) with
          | None => ([], Rejected)
          | Some inner =>
              match rfc_unpad inner with
              | None => ([], Rejected)
              | Some (t, c) =>
                  if lim <? length c then ([], Rejected)
                  else peer_cons (t, c) (peer_loop C lim key iv fuel (seq + 1) (skipn (5 + n) w))
              end
          end
  end.

Definition peer_read (C : crypto) (lim : nat) (key iv : bytes) (seq : N) (w : bytes)
  : list (byte * bytes) * peer_end :=
  peer_loop C lim key iv (S (length w)) seq w.

(** The TLS limit on the content of a record (5.1). *)
Definition rfc_limit : nat := N.to_nat 16384.

(** The application data among the contents. *)
Definition app_data (l : list (byte * bytes)) : bytes :=
  concat (map (fun r => if Byte.eqb (fst r) ty_data then snd r else []) l).
