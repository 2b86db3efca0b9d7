(** * Model of src/record.rs, src/alert.rs, src/application_data.rs *)
From Coq Require Import List NArith Arith Bool.
From Coq.Strings Require Import Byte.
From Verif Require Import Base ParseBuffer Buffer Codes Extensions Crypto KeySchedule Config Handshake.
Import ListNotations.

(** alert.rs:104-112 [Alert::parse]. *)
Definition parse_alert : P tls_error (alert_level * alert_desc) :=
  l <- pq read_u8 ;;
  d <- pq read_u8 ;;
  l' <- lift (ok_or DecodeError (alert_level_of (Byte.to_N l))) ;;
  d' <- lift (ok_or DecodeError (alert_desc_of (Byte.to_N d))) ;;
  ret (l', d').

(** alert.rs:114-120 [Alert::encode]. *)
Definition enc_alert (l : alert_level) (d : alert_desc) : W unit :=
  enc_err (cb_push (b8 (alert_level_code l))) ;;;
  enc_err (cb_push (b8 (alert_desc_code d))).

(** record.rs:19-26 [ClientRecord]. *)
Inductive client_record :=
| CR_Handshake (h : client_handshake) (encrypted : bool)
| CR_Alert (l : alert_level) (d : alert_desc) (encrypted : bool).

(** record.rs:30-34 [ClientRecordHeader]. *)
Inductive rec_header := RH_Handshake (encrypted : bool) | RH_Alert (encrypted : bool) | RH_AppData.

(** [PartialEq for ClientRecordHeader] (derived, record.rs:28). *)
Definition rec_header_eqb (a b : rec_header) : bool :=
  match a, b with
  | RH_Handshake x, RH_Handshake y => Bool.eqb x y
  | RH_Alert x, RH_Alert y => Bool.eqb x y
  | RH_AppData, RH_AppData => true
  | _, _ => false
  end.

(** record.rs:37-44 [is_encrypted]. *)
Definition rh_is_encrypted (h : rec_header) : bool :=
  match h with RH_Handshake e | RH_Alert e => e | RH_AppData => true end.

(** record.rs:46-54 [header_content_type]. *)
Definition rh_header_content_type (h : rec_header) : content_type :=
  match h with
  | RH_Handshake false => CT_Handshake
  | RH_Alert false => CT_ChangeCipherSpec
  | RH_Handshake true | RH_Alert true | RH_AppData => CT_ApplicationData
  end.

(** record.rs:56-62 [trailer_content_type]. *)
Definition rh_trailer_content_type (h : rec_header) : content_type :=
  match h with
  | RH_Handshake _ => CT_Handshake
  | RH_Alert _ => CT_Alert
  | RH_AppData => CT_ApplicationData
  end.

(** record.rs:64-69 [version]. *)
Definition rh_version (h : rec_header) : bytes :=
  match h with
  | RH_Handshake true | RH_Alert true | RH_AppData => [x03; x03]
  | RH_Handshake false | RH_Alert false => [x03; x01]
  end.

(** record.rs:71-78 [encode]. *)
Definition rh_encode (h : rec_header) : W unit :=
  enc_err (cb_push (b8 (content_type_code (rh_header_content_type h)))) ;;;
  enc_err (cb_extend (rh_version h)).

(** record.rs:86-91 [header]. *)
Definition cr_header (r : client_record) : rec_header :=
  match r with CR_Handshake _ e => RH_Handshake e | CR_Alert _ _ e => RH_Alert e end.

(** record.rs:106-111 [close_notify]. *)
Definition cr_close_notify (opened : bool) : client_record :=
  CR_Alert AL_Warning AD_CloseNotify opened.

(** record.rs:113-122 [encode_payload] (the returned length is unused by callers). *)
Definition cr_encode_payload (C : crypto) (r : client_record) : W unit :=
  match r with
  | CR_Handshake h _ => enc_client_handshake C h
  | CR_Alert l d _ => enc_alert l d
  end.

(** record.rs:124-140 [finish_record]: takes the payload written so far, returns the
    (possibly patched) payload and the new transcript. *)
Definition cr_finish (C : crypto) (r : client_record) (w : wks) (payload tr : bytes)
  : outcome tls_error (bytes * bytes) :=
  match r with
  | CR_Handshake h false => finalize_client_handshake C h w payload tr
  | CR_Handshake _ true => Ok (payload, tr ++ payload)
  | CR_Alert _ _ _ => Ok (payload, tr)
  end.

(** record.rs:146-151 [ServerRecord].  [SR_AppData header off data]: [data] wraps a
    copy of the bytes of the read buffer at [off..]; whoever changes it writes it back. *)
Inductive server_record :=
| SR_Handshake (h : server_handshake)
| SR_ChangeCipherSpec
| SR_Alert (l : alert_level) (d : alert_desc)
| SR_AppData (header : bytes) (off : nat) (data : cbuf).

(** record.rs:158 [RecordHeader::LEN]. *)
Definition HEADER_LEN : nat := 5.

(** record.rs:174-179 [RecordHeader::decode]; the header is the 5-byte array. *)
Definition hdr_decode (h : bytes) : outcome tls_error bytes :=
  b <-- index h 0 ;;
  match content_type_of (Byte.to_N b) with
  | None => Err InvalidRecord
  | Some _ => Ok h
  end.

(** record.rs:160-163 [content_type]. *)
Definition hdr_content_type (h : bytes) : outcome tls_error content_type :=
  b <-- index h 0 ;; unwrap (content_type_of (Byte.to_N b)).

(** record.rs:165-168 [content_length]. *)
Definition hdr_content_length (h : bytes) : outcome tls_error nat :=
  a <-- index h 3 ;; b <-- index h 4 ;; Ok (N.to_nat (be_val [a; b])).

(** record.rs:192-221 [ServerRecord::decode]; [off] is where [data] lies in the read
    buffer; returns the record and the new transcript. *)
Definition sr_decode (C : crypto) (h : bytes) (off : nat) (data tr : bytes)
  : outcome tls_error (server_record * bytes) :=
  n <-- hdr_content_length h ;;
  if negb (n =? length data) then Panic PAssert else
  t <-- hdr_content_type h ;;
  match t with
  | CT_Invalid => Err Unimplemented
  | CT_ChangeCipherSpec => Ok (SR_ChangeCipherSpec, tr)
  | CT_Alert =>
      ld <-- fst (parse_alert (pb_new data)) ;; Ok (SR_Alert (fst ld) (snd ld), tr)
  | CT_Handshake =>
      ht <-- fst (read_server_handshake C tr (pb_new data)) ;; Ok (SR_Handshake (fst ht), snd ht)
  | CT_ApplicationData =>
      Ok (SR_AppData h off (cb_wrap_with_pos data (length data)), tr)
  end.
