(** * C03: code points map one-to-one *)
From Coq Require Import List NArith Lia.
From Verif Require Import Base Codes SpecCodes.
Import ListNotations.
Local Open Scope N_scope.

Ltac in_list := repeat (first [left; reflexivity | right]).
Ltac code_in := intros []; cbv; in_list.
(* a code that decodes is one of the registry *)
Ltac of_in :=
  intros n x; split;
  [ intros H; destruct n as [|p]; cbv in H;
    repeat (match type of H with context [match ?q with _ => _ end] => destruct q end);
    try discriminate; inversion H; subst; cbv; in_list
  | intros H; cbn in H; repeat (destruct H as [H|H]; [inversion H; reflexivity|]); contradiction ].
Ltac uniq_l := intros n x y H1 H2; cbn in H1, H2;
  repeat (destruct H1 as [H1|H1]; [inversion H1; subst; clear H1;
     repeat (destruct H2 as [H2|H2]; [inversion H2; subst; reflexivity|]); contradiction|]); contradiction.
Ltac uniq_r := intros n m x H1 H2; cbn in H1, H2;
  repeat (destruct H1 as [H1|H1]; [inversion H1; subst; clear H1;
     repeat (destruct H2 as [H2|H2]; [inversion H2; subst; reflexivity|]); contradiction|]); contradiction.
Ltac impl := split; [code_in | split; [of_in | split; [uniq_l|uniq_r]]].

Theorem C03_content_type : implements iana_content_type content_type_code content_type_of.
Proof. impl. Qed.
Theorem C03_alert_level : implements iana_alert_level alert_level_code alert_level_of.
Proof. impl. Qed.
Theorem C03_alert_description : implements iana_alert_desc alert_desc_code alert_desc_of.
Proof. impl. Qed.
Theorem C03_handshake_type : implements iana_handshake_type handshake_type_code handshake_type_of.
Proof. impl. Qed.
Theorem C03_cipher_suite : implements iana_cipher_suite cipher_suite_code cipher_suite_of.
Proof. impl. Qed.
Theorem C03_extension_type : implements iana_ext_type ext_type_code ext_type_of.
Proof. impl. Qed.
Theorem C03_named_group : implements iana_named_group named_group_code named_group_of.
Proof. impl. Qed.
Theorem C03_signature_scheme : implements iana_sig_scheme sig_scheme_code sig_scheme_of.
Proof. impl. Qed.
Theorem C03_max_fragment_length : implements iana_max_frag max_frag_code max_frag_of.
Proof. impl. Qed.
Theorem C03_psk_mode : implements iana_psk_mode psk_mode_code psk_mode_of.
Proof. impl. Qed.

(** The round trip in the form of the property. *)
Theorem C03_round_trip {A} (registry : list (N * A)) code of :
  implements registry code of ->
  (forall x, of (code x) = Some x) /\
  (forall n x, of n = Some x -> code x = n) /\
  (forall x y, code x = code y -> x = y).
Proof.
  intros (H1 & H2 & H3 & H4). repeat split.
  - intros x. apply H2. apply H1.
  - intros n x H. apply H2 in H. eapply H4; [apply H1|exact H].
  - intros x y H. eapply H3; [apply H1|]. rewrite H. apply H1.
Qed.

Print Assumptions C03_content_type.
Print Assumptions C03_alert_level.
Print Assumptions C03_alert_description.
Print Assumptions C03_handshake_type.
Print Assumptions C03_cipher_suite.
Print Assumptions C03_extension_type.
Print Assumptions C03_named_group.
Print Assumptions C03_signature_scheme.
Print Assumptions C03_max_fragment_length.
Print Assumptions C03_psk_mode.
Print Assumptions C03_round_trip.

(** Concrete cases, including codes that must not decode. *)
Example C03_ex1 : content_type_of 23 = Some CT_ApplicationData /\ content_type_of 24 = None.
Proof. split; reflexivity. Qed.
Example C03_ex2 : sig_scheme_of 0x0804 = Some SS_RsaPssRsaeSha256 /\ sig_scheme_of 0x0805 = Some SS_RsaPssRsaeSha384
  /\ sig_scheme_of 0x0800 = None.
Proof. repeat split. Qed.
