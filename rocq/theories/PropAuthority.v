(** * Theorems on who may vouch for a certificate: C60 *)
From Coq Require Import List NArith Arith Bool Lia.
From Coq.Strings Require Import Byte.
From Verif Require Import Base ParseBuffer Buffer Codes Extensions Crypto KeySchedule Config Handshake
  Record WriteBuffer Transport RecordReader ReadBuffer Connection Api Pki WebPki
  BaseProofs SpecWire SpecMessages SpecKeys SpecHandshake SpecPki SpecAuthority
  NameProofs Utf8Proofs PkiProofs VerifyProofs Toy ToyRun ToyServer ToyPki PropPki.
Import ListNotations.
Local Open Scope list_scope.

(** ** The verifier of pki.rs *)

(** Whoever holds a certificate the verifier accepts, for whatever host and with whatever
    extensions, vouches for any host: a certificate signed with the key of their certificate and
    put in front of their list is accepted.  C60 is false in every setting where anybody holds
    a certificate. *)
Theorem C60_refuted_any_holder : forall L F ca now size tr own mine rest s s', pki_ok L ->
  ce_entries own = map CE_X509 (mine :: rest) ->
  pv_verify_certificate L F (CE_X509 ca) now size tr own s = (Ok tt, s') ->
  forall forged victim size2 tr2 list2 t, issued L F now mine forged -> names_host L forged victim ->
    ce_entries list2 = map CE_X509 (forged :: mine :: rest) ->
    length (ce_context list2) <= 256 -> length (ce_raw list2) <= size2 -> pv_host t = Some victim ->
    fst (pv_verify_certificate L F (CE_X509 ca) now size2 tr2 list2 t) = Ok tt.
Proof.
  intros L F ca now size tr own mine rest s s' HL He H forged victim size2 tr2 list2 t Hi Hn He2 H1 H2 Ht.
  apply (cert_call L F ca now size tr own (mine :: rest) s s' HL He) in H as ((Hch & Hall & _) & _).
  destruct Hn as (c & cn & all & Hc & Hcn & Hs & Hnm).
  assert (Hr : reads_names L forged (mk_names cn (firstn 3 all))).
  { exists c. split; [exact Hc|]. split; [now apply common_name_spec|now apply sans_complete]. }
  rewrite (proj2 (cert_call L F ca now size2 tr2 list2 (forged :: mine :: rest) t
    (mk_pv (pv_host t) (Some tr2) (Some (mk_owned (ce_context list2) (ce_raw list2)))) HL He2)); [reflexivity|].
  split; [|auto]. split.
  - intros [|i] der Hd; cbn [nth_error] in Hd.
    + injection Hd as <-. exact Hi.
    + exact (Hch i der Hd).
  - split; [constructor; [eauto|exact Hall]|]. eexists. split; [exact Hr|]. rewrite Ht. exact Hnm.
Qed.

(** Of the certificate that vouches only the key is looked at. *)
Theorem C60_key_only : forall L F i1 i2 c1 c2 e now, k_cert L i1 = Some c1 -> k_cert L i2 = Some c2 -> dc_key c1 = dc_key c2 ->
  verify_certificate L F (CE_X509 i1) e now = verify_certificate L F (CE_X509 i2) e now.
Proof. intros L F i1 i2 c1 c2 e now H1 H2 H. unfold verify_certificate. rewrite H1, H2. cbn [ok_or obind]. now rewrite H. Qed.

(** If nobody but the configured authority and the holders of certificates of authorities signs
    certificates, the verifier accepts only lists in which authorities vouch.  Missing: without
    that (C60_refuted). *)
Theorem C60_partial : forall L F ca now size tr c certs s s', pki_ok L -> ce_entries c = map CE_X509 certs ->
  (forall i ci der, issued L F now i der -> k_cert L i = Some ci -> i = ca \/ authority ci) ->
  pv_verify_certificate L F (CE_X509 ca) now size tr c s = (Ok tt, s') -> ~ In ca certs ->
  only_authorities L certs.
Proof.
  intros L F ca now size tr c certs s s' HL He Hw H Hca i der Hd.
  destruct (C38_sound L F ca now size tr c certs s s' HL He H) as [Hch _].
  destruct (nth_error certs i) as [d|] eqn:Ed; [|apply nth_error_None in Ed; assert (S i < length certs) by (apply nth_error_Some; congruence); lia].
  specialize (Hch i d Ed). rewrite (nth_error_nth certs (S i) ca Hd) in Hch.
  assert (Hch' := Hch). destruct Hch as (ci & _ & _ & _ & _ & _ & Hci & _).
  exists ci. split; [exact Hci|]. destruct (Hw der ci d Hch' Hci) as [->|Ha]; [|exact Ha].
  exfalso. apply Hca. eapply nth_error_In; exact Hd.
Qed.

(** ** The verifier of webpki.rs *)

(** Only the configured authority vouches: webpki checked the first certificate directly against it. *)
Theorem C60_webpki : forall W ca now size tr c certs s, ce_entries c = map CE_X509 certs ->
  fst (wv_verify_certificate W ca now size tr c s) = Ok tt ->
  exists a leaf rest time, ca = CE_X509 a /\ certs = leaf :: rest /\ w_usage W web_allowed a leaf time = true.
Proof.
  intros W ca now size tr c certs s He H. apply (C46_certificate W ca now size tr c certs s He) in H as ((a & leaf & rest & H1 & H2 & _ & _ & H3 & _) & _).
  exists a, leaf, rest. eauto.
Qed.

(** ** A concrete case *)

(** The toy library, in which every certificate says cA FALSE. *)
Definition e_cert (b : bytes) : option dcert :=
  option_map (fun c => mk_dcert (dc_not_before c) (dc_not_after c) (dc_subject c) (dc_key c)
    (Some ((oid_basic_constraints, (x04, [x30; x00])) :: match dc_extensions c with Some l => l | None => [] end))
    (dc_alg c) (dc_signature c)) (z_cert b).
Definition e_lib : pki_lib := mk_pki e_cert z_header (k_key_ok z_lib) (k_sig_ok z_lib) (k_verify z_lib).
Lemma e_ok : pki_ok e_lib.
Proof. exact (mk_pki_ok e_lib (ok_header _ z_ok)). Qed.

(** A certificate for "M", key cd, from the authority; and one for "A" signed with that key. *)
Definition e_mine : bytes := Eval vm_compute in z_issue [xca] (z_tbs xcd x01 x09 [x30; x03; x82; x01; x4d]).
Definition e_forged : bytes := Eval vm_compute in z_issue [xcd] (z_tbs xce x01 x09 [x30; x03; x82; x01; x41]).
Definition e_list (certs : list bytes) : cert_ref := mk_cert [x00] [] (map CE_X509 certs).
Definition e_told (h : byte) : pki_state := mk_pv (Some [h]) None None.

Lemma e_mine_ok : pv_verify_certificate e_lib z_features (CE_X509 z_ca) (Some 5%N) 100 [x00] (e_list [e_mine]) (e_told x4d) =
  (Ok tt, mk_pv (Some [x4d]) (Some [x00]) (Some (mk_owned [] [x00]))).
Proof. vm_compute. reflexivity. Qed.
Lemma e_forged_ok : pv_verify_certificate e_lib z_features (CE_X509 z_ca) (Some 5%N) 100 [x00] (e_list [e_forged; e_mine]) (e_told x41) =
  (Ok tt, mk_pv (Some [x41]) (Some [x00]) (Some (mk_owned [] [x00]))).
Proof. vm_compute. reflexivity. Qed.

(** C60 is false: a certificate that says it is not one of an authority vouches. *)
Theorem C60_refuted : exists L F ca now size tr c mine forged s s', pki_ok L /\
  ce_entries c = map CE_X509 [forged; mine] /\
  pv_verify_certificate L F (CE_X509 ca) now size tr c s = (Ok tt, s') /\
  (exists dc, k_cert L mine = Some dc /\ end_entity dc) /\ ~ only_authorities L [forged; mine].
Proof.
  exists e_lib, z_features, z_ca, (Some 5%N), 100, [x00], (e_list [e_forged; e_mine]), e_mine, e_forged, (e_told x41).
  eexists. split; [exact e_ok|]. split; [reflexivity|]. split; [exact e_forged_ok|]. split.
  - eexists. split; [reflexivity|]. eexists. split; [reflexivity|]. split; [now left|].
    intros v [H|[H|[]]]; [now injection H as <-|]. discriminate.
  - intros H. destruct (H 0 e_mine eq_refl) as (c & Hc & exts & v & He & Hin & n & r & ->).
    cbn in Hc. injection Hc as <-. cbn in He. injection He as <-. cbn in Hin. destruct Hin as [Hin|[Hin|[]]]; discriminate.
Qed.

(** The premises of [C60_refuted_any_holder] are met by it. *)
Example any_holder_meets : issued e_lib z_features (Some 5%N) e_mine e_forged /\ names_host e_lib e_forged [x61].
Proof.
  split.
  - destruct (C38_sound _ _ _ _ _ _ _ _ _ _ e_ok (eq_refl : ce_entries (e_list [e_forged; e_mine]) = map CE_X509 [e_forged; e_mine]) e_forged_ok) as [H _].
    exact (H 0 e_forged eq_refl).
  - eexists _, None, [[x41]]. split; [reflexivity|]. split; [repeat split; constructor|]. split.
    + cbn [good_sans dc_extensions]. exists [[(x82, [x41])]]. split; [|split; [reflexivity|constructor; [split; [apply utf8_spec; reflexivity|cbn; lia]|constructor]]].
      cbn. constructor; [|constructor]. split; [reflexivity|]. exists [x82; x01; x41], []. split; [reflexivity|].
      eapply (el_one _ _ x82 [x41] []); [reflexivity|]. constructor.
    + left. exists [x41]. split; [now left|]. now apply match_spec.
Qed.

(** Those of [C60_partial] by a library that knows only the certificate of the authority and one it issued. *)
Definition a_lib : pki_lib :=
  mk_pki (fun b => if bytes_eqb b z_ca then z_cert b else if bytes_eqb b e_mine then e_cert b else None)
    z_header (k_key_ok z_lib) (k_sig_ok z_lib) (k_verify z_lib).
Lemma bytes_eqb_spec a b : reflect (a = b) (bytes_eqb a b).
Proof. apply iff_reflect. symmetry. apply bytes_eqb_eq. Qed.
Example partial_meets : pki_ok a_lib /\
  (forall i ci der, issued a_lib z_features (Some 5%N) i der -> k_cert a_lib i = Some ci -> i = z_ca \/ authority ci) /\
  fst (pv_verify_certificate a_lib z_features (CE_X509 z_ca) (Some 5%N) 100 [x00] (e_list [e_mine]) (e_told x4d)) = Ok tt /\
  ~ In z_ca [e_mine].
Proof.
  split; [exact (mk_pki_ok a_lib (ok_header _ z_ok))|]. split; [|split; [vm_compute; reflexivity|intros [H|[]]; discriminate]].
  intros i ci der (ci' & c & key & a & sg & tbs & Hi & Hk & Hc & _ & _ & Hsg & Htbs & Hg) _.
  cbn [k_cert a_lib] in Hi, Hc. destruct (bytes_eqb_spec i z_ca) as [E|E]; [now left|].
  destruct (bytes_eqb_spec i e_mine) as [->|]; [|discriminate]. exfalso. vm_compute in Hi. injection Hi as <-. injection Hk as <-.
  destruct Htbs as (n & h & v & rest & H1 & H2 & H3). destruct Hg as (_ & _ & Hg & _).
  destruct (bytes_eqb_spec der z_ca) as [->|]; [|destruct (bytes_eqb_spec der e_mine) as [->|]; [|discriminate]].
  all: vm_compute in Hc; injection Hc as <-; injection Hsg as <-; cbn [k_verify a_lib z_lib] in Hg;
    match type of Hg with bytes_eqb ?s _ = true => destruct (bytes_eqb_spec s (z_sign [xcd] tbs)) as [Eq|]; [|discriminate] end;
    unfold z_sign in Eq; cbn [app] in Eq; discriminate.
Qed.

(** With it [open] succeeds: the server has no list of certificates in which authorities vouch for it. *)
Definition b_lib : pki_lib :=
  mk_pki (fun b => if bytes_eqb b z_ca || bytes_eqb b z_mid || bytes_eqb b z_leaf then e_cert b else None)
    z_header (k_key_ok z_lib) (k_sig_ok z_lib) (k_verify z_lib).
Definition b_provider : provider pki_state :=
  mk_provider toy_random toy_secret true pv_set_hostname
    (pv_verify_certificate b_lib z_features (CE_X509 z_ca) (Some 5%N) 100) (pv_verify_signature b_lib z_features toy)
    None (Err Unimplemented) 0.
Theorem C60_refuted_open : exists C L F p cfg ca rbuf wbuf rx tx c0 host, crypto_ok C /\ pki_ok L /\
  uses_pki C L F ca (Some 5%N) 100 p /\ cfg_server_name cfg = Some host /\ cn_new C rbuf wbuf rx tx = Ok c0 /\
  (forall certs, chained L F (Some 5%N) ca certs -> leaf_for L (Some host) certs -> ~ only_authorities L certs) /\
  fst (cn_open C p cfg pv_new c0) = Ok tt.
Proof.
  exists toy, b_lib, z_features, b_provider, small_config, z_ca. eexists _, _, _, _. exists z_start, [x61].
  split; [exact toy_ok|]. split; [exact (mk_pki_ok b_lib (ok_header _ z_ok))|]. split; [repeat split|].
  split; [reflexivity|]. split; [exact z_start_new|]. split; [|vm_compute; reflexivity].
  intros [|leaf certs] Hch Hl; [discriminate|]. destruct Hl as (c & cn & sans & Hc & Hcn & Hs & Hh).
  assert (Hk : forall d c, k_cert b_lib d = Some c -> d = z_ca \/ d = z_mid \/ d = z_leaf).
  { intros d dc. cbn [k_cert b_lib]. destruct (bytes_eqb_spec d z_ca); [auto|]. destruct (bytes_eqb_spec d z_mid); [auto|].
    destruct (bytes_eqb_spec d z_leaf); [auto|discriminate]. }
  assert (Hn : forall sans c, dc_extensions c = Some [(oid_basic_constraints, (x04, [x30; x00]))] -> dc_subject c = [] ->
    is_common_name c cn -> are_sans b_lib c sans -> host_ok (Some [x61]) cn sans -> False).
  { clear. intros sans c He Hd (_ & _ & Hc) Hs Hh. rewrite Hd in Hc. cbn in Hc. subst cn. unfold are_sans in Hs. rewrite He in Hs. cbn in Hs.
    destruct Hs as (gss & Hf & ->). inversion Hf; subst. cbn in Hh. destruct Hh as [(x & [] & _)|(x & Hx & _)]. discriminate. }
  destruct (Hk leaf c Hc) as [->|[->| ->]].
  - exfalso. vm_compute in Hc. injection Hc as <-. eapply Hn; [| |exact Hcn|exact Hs|exact Hh]; reflexivity.
  - exfalso. vm_compute in Hc. injection Hc as <-. eapply Hn; [| |exact Hcn|exact Hs|exact Hh]; reflexivity.
  - destruct certs as [|d r].
    + exfalso. destruct (Hch 0 z_leaf eq_refl) as (ci & c' & key & a & sg & tbs & Hi & Hkey & Hc' & _ & _ & Hsg & _ & _ & _ & Hg & _).
      cbn [nth] in Hi. vm_compute in Hi. injection Hi as <-. injection Hkey as <-. vm_compute in Hc'. injection Hc' as <-. injection Hsg as <-.
      cbn [k_verify b_lib z_lib] in Hg. apply bytes_eqb_eq in Hg. unfold z_sign in Hg. cbn [app] in Hg. discriminate.
    + intros Ho. destruct (Ho 0 d eq_refl) as (c' & Hc' & exts & v & He & Hin & n & rv & ->).
      destruct (Hk d c' Hc') as [->|[->| ->]]; vm_compute in Hc'; injection Hc' as <-; injection He as <-; cbn in Hin;
        repeat (destruct Hin as [Hin|Hin]; [discriminate|]); exact Hin.
Qed.

Print Assumptions C60_refuted_any_holder.
Print Assumptions C60_key_only.
Print Assumptions C60_partial.
Print Assumptions C60_webpki.
Print Assumptions C60_refuted.
Print Assumptions C60_refuted_open.
