(** * Parsers depend on the bytes they move over only *)
From Coq Require Import List NArith Arith Bool Lia ZArith.
From Coq.Strings Require Import Byte.
From Coq Require Import ZifyBool ZifyNat ZifyN.
From Verif Require Import Base ParseBuffer Codes Extensions Crypto KeySchedule Config Handshake
  BaseProofs ParseProofs SpecWire SpecCodes SpecMessages PropCodes WireProofs ExtProofs SpecHandshake AcceptProofs.
Import ListNotations.

(** Whenever [m] succeeds, it does so on the bytes it moved over, wherever they are. *)
Definition local {E A} (m : P E A) : Prop := acc m (fun a x => parses m x a).

Lemma parses_bind' {E A B} (m : P E A) (f : A -> P E B) b1 b2 a b :
  parses m b1 a -> parses (f a) b2 b -> parses (bind m f) (b1 ++ b2) b.
Proof.
  intros H1 H2 pre post. unfold bind. rewrite at_pos_assoc, H1, at_pos_move, H2. now rewrite app_assoc.
Qed.

Lemma local_bind {E A B} (m : P E A) (f : A -> P E B) : local m -> (forall a, local (f a)) -> local (bind m f).
Proof.
  intros H1 H2. eapply acc_weaken; [apply acc_bind; [exact H1|exact H2]|].
  cbn beta. intros b x (a & x1 & x2 & -> & Ha & Hb). eapply parses_bind'; eauto.
Qed.
Lemma local_ret {E A} (a : A) : local (ret a : P E A).
Proof.
  eapply acc_weaken; [apply acc_ret|]. cbn beta. intros b x [-> ->] pre post. unfold ret. now rewrite app_nil_r.
Qed.
Lemma local_lift {E A} (o : outcome E A) : local (lift o : P E A).
Proof.
  eapply acc_weaken; [apply acc_lift|]. cbn beta. intros b x [-> ->] pre post. unfold lift. now rewrite app_nil_r.
Qed.
Lemma local_fail {E A} (e : E) : local (fail e : P E A).
Proof. apply acc_fail. Qed.
Lemma local_map_err {E E' A} (g : E -> E') (m : P E A) : local m -> local (map_err g m).
Proof.
  intros H. eapply acc_weaken; [apply acc_map_err; exact H|]. intros a x Hp pre post. unfold map_err. now rewrite Hp.
Qed.
Lemma local_pq {A} (m : P parse_error A) : local m -> local (pq m).
Proof. apply local_map_err. Qed.
Lemma parses_take' x : parses (pb_take (length x)) x x.
Proof.
  intros pre post. unfold pb_take, at_pos. cbn [pb_pos pb_buf]. rewrite (proj2 (Nat.leb_le _ _)) by (rewrite !app_length; lia).
  rewrite slice_rng_ok by (rewrite ?app_length; lia). unfold sub.
  replace (length pre + length x - length pre) with (length x) by lia.
  rewrite skipn_app, Nat.sub_diag, skipn_all2, skipn_O by lia. cbn [app].
  rewrite firstn_app, firstn_all2, Nat.sub_diag by lia. cbn [firstn]. rewrite app_nil_r, app_length.
  cbn [app]. now rewrite <- app_assoc.
Qed.
Lemma local_take n : local (pb_take n).
Proof. eapply acc_weaken; [apply acc_take|]. cbn beta. intros a x [-> <-]. apply parses_take'. Qed.
Lemma local_fill n : local (pb_fill n). Proof. apply local_take. Qed.
Lemma local_slice n : local (pb_slice n).
Proof. apply local_bind; [apply local_take|]. intros; apply local_ret. Qed.
Lemma local_u16 : local read_u16. Proof. apply local_bind; [apply local_take|]. intros; apply local_ret. Qed.
Lemma local_u24 : local read_u24. Proof. apply local_bind; [apply local_take|]. intros; apply local_ret. Qed.
Lemma local_u32 : local read_u32. Proof. apply local_bind; [apply local_take|]. intros; apply local_ret. Qed.
Lemma local_u8 : local read_u8.
Proof.
  eapply acc_weaken; [apply acc_u8|]. cbn beta. intros a x -> pre post. unfold read_u8, at_pos. cbn [pb_pos pb_buf].
  rewrite (proj2 (Nat.ltb_lt _ _)) by (rewrite !app_length; cbn [length]; lia).
  unfold index. rewrite nth_error_app2, Nat.sub_diag by lia. cbn [nth_error app]. rewrite app_length. cbn [length].
  now rewrite <- app_assoc.
Qed.
Lemma local_of_code {A} (o : option A) : local (of_code o).
Proof. destruct o; [apply local_ret|apply local_fail]. Qed.
Lemma local_ext_vector g cap : local (ext_parse_vector g cap).
Proof.
  unfold ext_parse_vector. apply local_bind; [apply local_map_err, local_u16|]. intros n.
  apply local_bind; [apply local_pq, local_slice|]. intros d. apply local_lift.
Qed.

#[local] Hint Resolve local_bind local_ret local_lift local_fail local_map_err local_pq local_take local_fill local_slice
  local_u8 local_u16 local_u24 local_u32 local_of_code local_ext_vector : loc.
Ltac loc := repeat first [apply local_ret|apply local_lift|apply local_fail|apply local_map_err|apply local_pq|apply local_fill
  |apply local_slice|apply local_u8|apply local_u16|apply local_u24|apply local_u32|apply local_of_code|apply local_ext_vector
  |apply local_bind; [|intros ?]].

(** The part of a message after its length field. *)
Definition parse_body (C : crypto) (t : handshake_type) : P tls_error server_handshake :=
  match t with
  | HT_ServerHello => x <- parse_server_hello ;; ret (SH_ServerHello x)
  | HT_NewSessionTicket => parse_new_session_ticket ;;; ret SH_NewSessionTicket
  | HT_EncryptedExtensions => parse_encrypted_extensions ;;; ret SH_EncryptedExtensions
  | HT_Certificate => x <- parse_certificate ;; ret (SH_Certificate x)
  | HT_CertificateRequest => x <- parse_certificate_request ;; ret (SH_CertificateRequest x)
  | HT_CertificateVerify => x <- parse_certificate_verify ;; ret (SH_CertificateVerify x)
  | HT_Finished => x <- parse_finished C ;; ret (SH_Finished x)
  | _ => fail Unimplemented
  end.

Lemma local_body C t : local (parse_body C t).
Proof.
  destruct t; cbn [parse_body]; try apply local_fail; (apply local_bind; [|intros ?; apply local_ret]).
  - unfold parse_server_hello. loc.
  - unfold parse_new_session_ticket. loc.
  - unfold parse_encrypted_extensions. loc.
  - unfold parse_certificate. loc.
  - unfold parse_certificate_request. loc.
  - unfold parse_certificate_verify, parse_sig_scheme. loc.
  - unfold parse_finished. loc.
Qed.

Lemma parse_split C : parse_server_handshake C =
  (t <- map_err (fun _ => InvalidHandshake) (b <- read_u8 ;; of_code (handshake_type_of (Byte.to_N b))) ;;
   _content_len <- map_err (fun _ => InvalidHandshake) read_u24 ;; parse_body C t).
Proof. reflexivity. Qed.

Lemma local_message C : local (parse_server_handshake C).
Proof. rewrite parse_split. loc. apply local_body. Qed.

Definition with_hash (C : crypto) (tr : bytes) (h : server_handshake) : server_handshake :=
  match h with SH_Finished f => SH_Finished (mk_fin (f_verify f) (Some (c_hash C tr))) | _ => h end.

(** Reading a message that parses. *)
Lemma read_message C tr pre b post h : parses (parse_server_handshake C) b h ->
  read_server_handshake C tr (at_pos pre b post) = (Ok (with_hash C tr h, tr ++ b), at_pos (pre ++ b) [] post).
Proof.
  intros H. unfold read_server_handshake. unfold bind at 1, gets at 1. unfold bind at 1. rewrite H.
  unfold bind at 1, gets at 1. unfold bind at 1, gets at 1. unfold bind at 1, lift.
  unfold at_pos, pb_offset, pb_as_slice. cbn [pb_pos pb_buf].
  rewrite slice_rng_ok by (rewrite ?app_length; lia). unfold sub. rewrite app_length.
  replace (length pre + length b - length pre) with (length b) by lia.
  rewrite <- app_assoc, skipn_app, Nat.sub_diag, skipn_all2, skipn_O by lia. cbn [app].
  rewrite firstn_app, firstn_all2, Nat.sub_diag by lia. cbn [firstn]. rewrite app_nil_r. reflexivity.
Qed.

Lemma read_message_inv C tr pre bs h tr' q : read_server_handshake C tr (at_pos pre bs []) = (Ok (h, tr'), q) ->
  exists b y h0, bs = b ++ y /\ q = at_pos (pre ++ b) y [] /\ parses (parse_server_handshake C) b h0 /\
    h = with_hash C tr h0 /\ tr' = tr ++ b.
Proof.
  intros H. unfold read_server_handshake in H. unfold bind at 1, gets at 1 in H.
  apply bind_ok in H as (h0 & p1 & H0 & H). apply local_message in H0 as (b & y & -> & -> & Hp).
  pose proof (read_message C tr pre b y h0 Hp) as Hr. unfold read_server_handshake in Hr. unfold bind at 1, gets at 1 in Hr. unfold bind at 1 in Hr.
  rewrite Hp in Hr.
  assert (E : at_pos (pre ++ b) [] y = at_pos (pre ++ b) y []) by (unfold at_pos; now rewrite app_nil_r).
  rewrite E in Hr.
  assert (E2 : at_pos pre (b ++ y) [] = at_pos pre b y) by (unfold at_pos; now rewrite app_nil_r). rewrite E2 in H.
  rewrite Hr in H. apply pair_equal_spec in H as [H <-]. exists b, y, h0.
  split; [reflexivity|]. split; [reflexivity|]. split; [exact Hp|].
  assert (E3 : (with_hash C tr h0, tr ++ b) = (h, tr')) by congruence. apply pair_equal_spec in E3 as [<- <-]. auto.
Qed.

(** A message that parses: type byte, three bytes of any content, body. *)
Lemma parses_split C b h : parses (parse_server_handshake C) b h ->
  exists t len body ty, b = t :: len ++ body /\ length len = 3 /\
    handshake_type_of (Byte.to_N t) = Some ty /\ parses (parse_body C ty) body h.
Proof.
  intros H. specialize (H [] []). rewrite parse_split in H.
  apply bind_ok in H as (ty & p1 & H1 & H).
  assert (L1 : local (map_err (fun _ => InvalidHandshake) (b <- read_u8 ;; of_code (handshake_type_of (Byte.to_N b))) : P tls_error _)) by loc.
  assert (A1 : acc (map_err (fun _ => InvalidHandshake) (b <- read_u8 ;; of_code (handshake_type_of (Byte.to_N b))) : P tls_error _)
    (fun ty x => exists t, x = [t] /\ handshake_type_of (Byte.to_N t) = Some ty)).
  { apply acc_map_err. eapply acc_weaken; [apply acc_bind; [apply acc_u8|intros a; apply acc_of_code]|].
    cbn beta. intros b0 x (a & x1 & x2 & -> & -> & Hc & ->). exists a. rewrite app_nil_r. auto. }
  apply A1 in H1 as (x & y & -> & -> & (t & -> & Ht)).
  apply bind_ok in H as (n & p2 & H2 & H).
  assert (A2 : acc (map_err (fun _ => InvalidHandshake) read_u24 : P tls_error _) (fun _ x => length x = 3)).
  { apply acc_map_err. eapply acc_weaken; [apply acc_bind; [apply acc_take|intros a; apply acc_ret]|].
    cbn beta. intros b0 x (a & x1 & x2 & -> & [-> Hl] & [_ ->]). now rewrite app_nil_r. }
  apply A2 in H2 as (len & y' & -> & -> & Hl).
  apply local_body in H as (body & y & -> & E & Hp).
  exists t, len, body, ty. 
  assert (Ey : y = []).
  { apply (f_equal pb_pos) in E. unfold at_pos in E. cbn [pb_pos] in E. repeat rewrite app_length in E. cbn [length] in E. destruct y; [reflexivity|cbn [length] in E; lia]. }
  subst y. rewrite app_nil_r. auto.
Qed.

Lemma parses_join C t len body ty h : length len = 3 -> handshake_type_of (Byte.to_N t) = Some ty ->
  parses (parse_body C ty) body h -> parses (parse_server_handshake C) (t :: len ++ body) h.
Proof.
  intros Hl Ht Hp. rewrite parse_split. change (t :: len ++ body) with ([t] ++ len ++ body).
  eapply parses_bind'.
  - apply parses_map_err. rewrite <- (app_nil_r [t]). eapply parses_bind'; [apply parses_read_u8|apply parses_of_code; exact Ht].
  - refine (parses_bind' _ _ len body (be_val len) h _ _); [|exact Hp]. apply parses_map_err. rewrite <- (app_nil_r len) at 1.
    eapply parses_bind'; [now apply parses_take|apply parses_ret].
Qed.
