(** * C79: which error each message gives that cannot be decoded *)
From Coq Require Import List NArith Arith Bool Lia.
From Coq.Strings Require Import Byte.
From Verif Require Import Base ParseBuffer Codes Extensions Crypto KeySchedule Config Handshake SpecWire SpecCodes SpecMessages WireProofs
  SpecHandshake SpecComplete AcceptProofs LocalProofs MessageProofs SpecDefect DefectProofs Toy ToyRun.
Import ListNotations.

(** The client answers the bytes [w] with the error [e] exactly if [w] is faulty and [e] the error for the
    first fault (messages.rs and extensions/; the transcript is not touched). *)
Theorem C79_exactly : forall C tr w e,
  (exists q, read_server_handshake C tr (pb_new w) = (Err e, q)) <-> faulty C w e.
Proof. intros C tr w e. rewrite pb_new_at. apply read_faulty. Qed.

(** The bytes begin with a message the client understands or are faulty, not both; and there is one error
    for them. *)
Theorem C79_one_of : forall C w,
  ((exists b junk m, w = b ++ junk /\ understood C b m) /\ forall e, ~ faulty C w e) \/
  ((exists e, faulty C w e /\ forall e', faulty C w e' -> e' = e) /\ forall b junk m, w = b ++ junk -> ~ understood C b m).
Proof.
  intros C w. destruct (read_server_handshake C [] (at_pos [] w [])) as [o q] eqn:E.
  destruct (faulty_or C [] w) as [(a & q' & Ep)|[e He]].
  - left. split.
    + apply local_message in Ep as (b & y & -> & _ & Hp). destruct (parses_understood C b a Hp) as (m & Hm & _). eauto.
    + intros e He. apply (faulty_parse C []) in He as [q2 He]. congruence.
  - right. split.
    + exists e. split; [exact He|]. intros e' He'. apply (faulty_parse C []) in He as [q1 H1], He' as [q2 H2]. congruence.
    + intros b junk m -> Hm. destruct (understood_parses C b m Hm) as (h & Hp & _). apply (faulty_parse C []) in He as [q1 H1].
      replace (at_pos [] (b ++ junk) []) with (at_pos [] b junk) in H1 by (unfold at_pos; now rewrite app_nil_r). rewrite Hp in H1. discriminate.
Qed.

(** ** Concrete cases *)

(** EncryptedExtensions with supported_versions, which does not belong there, after an extension that is not
    known; the message breaks off after it, but that is not noticed. *)
Definition misplaced_message : bytes :=
  uint 1 8 ++ [x00; x01; x00] ++ vec 2 (items_wire [(0x1234%N, [x01])] ++ item_wire (43%N, [x03; x04])).
Example misplaced_faulty : faulty toy misplaced_message (AbortHandshake AL_Fatal AD_IllegalParameter).
Proof.
  right. exists 8%N, [x00; x01; x00], (vec 2 (items_wire [(0x1234%N, [x01])] ++ item_wire (43%N, [x03; x04]))).
  split; [vm_compute; tauto|]. split; [reflexivity|]. split; [reflexivity|]. cbn [layout].
  apply fd_here, df_extensions. rewrite <- (app_nil_r (vec 2 _)).
  apply bb_items.
  - constructor; [split; reflexivity|constructor].
  - split; [intros t b []|vm_compute; lia].
  - reflexivity.
  - rewrite <- (app_nil_r (item_wire _)). apply be_misplaced; [split; reflexivity|vm_compute; tauto|vm_compute; intuition discriminate].
Qed.

(** A ServerHello with a suite that is not in the registry, the extensions missing: the suite counts. *)
Definition unknown_suite : bytes := uint 1 2 ++ [x00; x00; x26] ++ [x03; x03] ++ repeat xab 32 ++ vec 1 [x01] ++ uint 2 0xcafe.
Example suite_faulty : faulty toy unknown_suite InvalidCipherSuite.
Proof.
  right. exists 2%N, [x00; x00; x26], ([x03; x03] ++ repeat xab 32 ++ vec 1 [x01] ++ uint 2 0xcafe ++ []).
  split; [vm_compute; tauto|]. split; [reflexivity|]. split; [reflexivity|]. cbn [layout].
  apply fd_later; [reflexivity|]. apply fd_later; [reflexivity|]. apply fd_later; [exists [x01]; split; reflexivity|].
  apply fd_here, df_code; [reflexivity|vm_compute; intuition discriminate].
Qed.

(** A message of the server that the client never takes. *)
Example client_hello_faulty : faulty toy [x01; x00; x00; x00] Unimplemented.
Proof.
  right. exists 1%N, [x00; x00; x00], []. split; [vm_compute; tauto|]. split; [reflexivity|]. split; reflexivity.
Qed.

Print Assumptions C79_exactly.
Print Assumptions C79_one_of.
