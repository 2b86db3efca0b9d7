(** * C35, C75: what makes an open connection panic, and who can *)
From Coq Require Import String List NArith Arith Bool Lia ZArith.
From Coq.Strings Require Import Byte.
From Coq Require Import ZifyBool ZifyNat ZifyN.
From Verif Require Import Base ParseBuffer Buffer Codes Extensions Crypto KeySchedule Config Handshake Record WriteBuffer
  Transport RecordReader ReadBuffer Connection Api BaseProofs SpecWire WireProofs SpecCodes SpecMessages SpecKeys KeyProofs SpecRecord RecordProofs SpecRead
  SpecSend SendProofs SpecHello PropHello HsProofs ConnProofs FrameProofs DecryptProofs FlagProofs ReadProofs RecvProofs ServeProofs SpecHandshake SpecComplete CompleteProofs
  SpecFailure SpecReceiver ListenProofs ReceiverProofs PropReceiver Toy ToyRun PropRead PropRecv PropStrict.
Import ListNotations.
Local Open Scope list_scope.

Ltac Zify.zify_post_hook ::= Z.div_mod_to_equations.

(** ** Exactly when *)

(** A connection that waits for a record panics exactly when what comes next on the transport - after records that the client
    passes over - is a record of the kinds that SpecReceiver.v lists with [V_panic]. *)
Theorem C35_exactly : forall C L c o x, crypto_ok C -> waiting C L c -> waits o = true ->
  (fst (step C o c) = Panic x <->
   exists n w, hears C (read_key c) (read_iv c) (room c) (next_seq c) (incoming c) (V_panic x) n w).
Proof.
  intros C L c o x HC (Hu & Hop & Hun & Hb & Hs) Hw. assert (Hl : listening C L c) by (split; [exact Hu|split; assumption]).
  pose proof (listening_mirrors C L c HC Hl) as Hm. assert (Hr : receives o = true) by (destruct o; (reflexivity || discriminate Hw)).
  assert (Hst : receiver_of c = mk_receiver true [] (next_seq c) (incoming c)) by (unfold receiver_of; now rewrite Hop, Hun).
  destruct (step C o c) as [r c'] eqn:E. cbn [fst].
  destruct (machine_step C (incoming c) c o r c' HC Hm Hr E) as [(y & -> & M)|(M & _ & _ & Hret)].
  - specialize (M (mk_receiver true [] 0%N [])). rewrite Hst in M. split.
    + intros Hp. assert (y = x) as -> by congruence. inversion M; subst; eauto.
      match goal with H : succeeds _ |- _ => destruct H as [? H]; discriminate H end.
      match goal with H : succeeds _ |- _ => destruct H as [? H]; discriminate H end.
    + intros (n & w & Hh). pose proof (rc_panic C (read_key c) (read_iv c) (room c) _ _ o x n w (mk_receiver true [] 0%N []) Hw Hh) as M'.
      destruct (receive_unique _ _ _ _ _ _ _ _ _ _ Hr M M') as [A _]; congruence.
  - rewrite Hst in M. split.
    + intros ->. destruct Hret.
    + intros (n & w & Hh). pose proof (rc_panic C (read_key c) (read_iv c) (room c) _ _ o x n w (receiver_of c') Hw Hh) as M'.
      destruct (receive_unique _ _ _ _ _ _ _ _ _ _ Hr M M') as [A _]; congruence.
Qed.

(** ** After the handshake: every message but NewSessionTicket *)

(** An authentic record of handshake messages, the first of them that is not a NewSessionTicket being any message that the client can decode, makes
    the next reading call panic, whatever follows it in the record. *)
Theorem C35_any_refuted : forall C L c o ms b m junk pad rest, crypto_ok C -> waiting C L c -> waits o = true ->
  Forall (ticket C) ms -> understood C b m -> m <> M_NewSessionTicket ->
  let content := concat ms ++ b ++ junk in
  incoming c = rfc_record C (read_key c) (read_iv c) (next_seq c) ty_handshake content pad ++ rest ->
  length content + 1 + pad + tag_len C <= room c -> (N.of_nat (length content + 1 + pad + tag_len C) < 65536)%N ->
  fst (step C o c) = Panic PUnimplemented.
Proof.
  intros C L c o ms b m junk pad rest HC Hwt Hw Hms Hb Hm content Hin Hroom Hsz.
  destruct (authentic_record C (read_key c) (read_iv c) (room c) (next_seq c) ty_handshake content pad HC) as (h & f & E & Hr & _ & Hi); try assumption; [discriminate|].
  apply (C35_exactly C L c o PUnimplemented HC Hwt Hw). exists (next_seq c), rest. rewrite Hin, E, <- app_assoc.
  apply he_record with (v := V_panic PUnimplemented); [exact Hr| |reflexivity]. apply Hi; [|reflexivity]. now apply (ci_message C ms b m junk).
Qed.

(** ** C75: without any key *)

(** The same in a record in the clear: nobody needs the session keys for that. *)
Theorem C75_any_refuted : forall C L c o h b m junk rest, crypto_ok C -> waiting C L c -> waits o = true ->
  understood C b m -> m <> M_NewSessionTicket ->
  incoming c = h ++ (b ++ junk) ++ rest -> framed h (b ++ junk) -> hd_error h = Some ty_handshake -> length (b ++ junk) <= room c ->
  fst (step C o c) = Panic PUnimplemented.
Proof.
  intros C L c o h b m junk rest HC Hwt Hw Hb Hm Hin Hfr Hh Hroom.
  apply (C35_exactly C L c o PUnimplemented HC Hwt Hw). exists (next_seq c), rest. rewrite Hin.
  apply he_record with (v := V_panic PUnimplemented); [|now apply (ri_message C _ _ _ h (b ++ junk) b m junk)|reflexivity].
  split; [exact Hfr|]. split; [|exact Hroom]. cbn [fst]. destruct h as [|t h]; [discriminate|]. cbn in Hh. injection Hh as ->. cbn; auto 10.
Qed.

(** Eleven bytes do it, in every session, at every point where the application waits for data. *)
Theorem C75_refuted : forall C L c o v1 v2 rest, crypto_ok C -> waiting C L c -> waits o = true -> 6 <= room c ->
  incoming c = [x16; v1; v2; x00; x06; x08; x00; x00; x02; x00; x00] ++ rest ->
  fst (step C o c) = Panic PUnimplemented.
Proof.
  intros C L c o v1 v2 rest HC Hwt Hw Hroom Hin.
  apply (C75_any_refuted C L c o [x16; v1; v2; x00; x06] [x08; x00; x00; x02; x00; x00] (M_EncryptedExtensions []) [] rest); try assumption; try discriminate.
  - split; [|split; [intros t b []|cbn; lia]]. exists [x00; x00; x02], [x00; x00]. split; [reflexivity|]. split; [|reflexivity].
    split; [|reflexivity]. split; [constructor|]. reflexivity.
  - split; reflexivity.
  - reflexivity.
Qed.

(** And only that.  The server sends the records [srv] in the session, data and tickets; whatever arrives instead, in whatever state the
    connection is: if a receiving call panics, a record that the server did not send passed the authentication, or a handshake record
    arrived in the clear.  (After an interrupted read it may panic as well, C17; [at_boundary] excludes that.) *)
Theorem C75_causes_partial : forall C L c o x srv lim, crypto_ok C -> in_use C L c -> at_boundary c -> receives o = true ->
  Forall (served C lim) srv -> (N.of_nat (length srv) <= u64_max)%N ->
  fst (step C o c) = Panic x ->
  forgery C (incoming c) (read_key c) (read_iv c) srv \/
  x = PUnimplemented /\ exists h f, framed h f /\ received_in (incoming c) h f /\ hd_error h = Some ty_handshake.
Proof.
  intros C L c o x srv lim HC Hu Hb Hr Hsrv Hlen Hp.
  destruct (C35_causes_partial C L c o x HC Hu Hb Hr Hp) as (_ & l & h & f & _ & Hfr & Hrec & [(Hh & _ & ->)|(inner & Hop & Hcr)]); [right; split; [reflexivity|]; exists h, f; auto|].
  set (n := (next_seq c + N.of_nat (length l))%N) in *.
  assert (Hdec : {server_record_no C (read_key c) (read_iv c) srv n = Some (h ++ f)} + {server_record_no C (read_key c) (read_iv c) srv n <> Some (h ++ f)}).
  { decide equality. apply list_eq_dec. apply Byte.byte_eq_dec. }
  destruct Hdec as [Heq|Hne]; [exfalso|left; exists n, h, f, inner; auto].
  unfold server_record_no in Heq. destruct (nth_error srv (N.to_nat n)) as [[[t' c'] pad]|] eqn:En; [|discriminate].
  rewrite Forall_forall in Hsrv. destruct (Hsrv _ (nth_error_In _ _ En)) as (Ht & _ & _).
  assert (Hlt : N.to_nat n < length srv) by (apply nth_error_Some; congruence).
  destruct (rfc_record_parts C (read_key c) (read_iv c) n t' c' pad HC) as (f' & E' & Hf' & Ho').
  assert (Heq' : h ++ f = rfc_header (length c' + 1 + pad + 16) ++ f') by congruence.
  apply app_len_inj in Heq' as [-> ->]; [|rewrite rfc_header_length; apply Hfr].
  rewrite Ho' in Hop. assert (inner = rfc_inner t' c' pad) as -> by congruence.
  assert (Hunp : rfc_unpad (rfc_inner t' c' pad) = Some (t', c')) by (apply unpad_inner; destruct Ht as [->|[-> _]]; discriminate).
  destruct Hcr as [(He & _)|[(Hmax & _)|((c2 & Hun & Hno) & _)]].
  - rewrite He in Hunp. discriminate.
  - lia.
  - rewrite Hunp in Hun. destruct Ht as [->|[-> Hms]]; [discriminate|]. apply Hno. now injection Hun as <-.
Qed.

(** ** The hypotheses are met *)

(** The session of [C14_case] (PropRead.v); the eleven bytes come after the server's records. *)
Definition eleven : bytes := [x16; x03; x03; x00; x06; x08; x00; x00; x02; x00; x00].
Example C75_case : let c := snd (run toy [OpRead (zeros 4); OpRead (zeros 4)] (conn_in (their_wire ++ eleven))) in
  waiting toy 300 c /\ room c = 400 /\ incoming c = eleven ++ [] /\ next_seq c = 4%N /\
  map snd (fst (run toy [OpRead (zeros 4); OpRead (zeros 4); OpRead (zeros 4); OpFlush] (conn_in (their_wire ++ eleven)))) =
    [Ok (VRead 2 [x68; x69; x00; x00]); Ok (VRead 1 [x21; x00; x00; x00]); Panic PUnimplemented] /\
  Forall (served toy 400) some_records.
Proof.
  cbv zeta. split; [|split; [vm_compute; reflexivity|split; [vm_compute; reflexivity|split; [vm_compute; reflexivity|split; [vm_compute; reflexivity|exact some_records_served]]]]].
  split.
  - exists (conn_in (their_wire ++ eleven)), [OpRead (zeros 4); OpRead (zeros 4)]. split; [apply conn_in_established|]. split; [reflexivity|]. split; [|reflexivity].
    assert (E : map snd (fst (run toy [OpRead (zeros 4); OpRead (zeros 4)] (conn_in (their_wire ++ eleven)))) = [Ok (VRead 2 [x68; x69; x00; x00]); Ok (VRead 1 [x21; x00; x00; x00])]) by (vm_compute; reflexivity).
    apply Forall_forall. intros p Hp. apply (in_map snd) in Hp. rewrite E in Hp. unfold returned. destruct Hp as [<-|[<-|[]]]; exact I.
  - split; [vm_compute; reflexivity|]. split; [vm_compute; reflexivity|]. split; [vm_compute; reflexivity|].
    assert (E : rd_rx (cn_rd (snd (run toy [OpRead (zeros 4); OpRead (zeros 4)] (conn_in (their_wire ++ eleven))))) = trickle eleven) by (vm_compute; reflexivity).
    unfold steady. rewrite E. apply trickle_chunked.
Qed.

Print Assumptions C35_exactly.
Print Assumptions C35_any_refuted.
Print Assumptions C75_any_refuted.
Print Assumptions C75_refuted.
Print Assumptions C75_causes_partial.
