(** * The certificate verifiers against the specification *)
From Coq Require Import List NArith Arith Bool Lia.
From Coq.Strings Require Import Byte.
From Coq Require Import ZifyBool ZifyNat ZifyN.
From Verif Require Import Base Codes Crypto Handshake Pki BaseProofs SpecWire SpecMessages SpecKeys SpecHandshake SpecPki NameProofs Utf8Proofs.
Import ListNotations.

(** ** Object identifiers, algorithms and text *)

Lemma oid_common_name : OID_COMMON_NAME = object_id [2; 5; 4; 3]%N.
Proof. reflexivity. Qed.
Lemma oid_san : OID_SAN = object_id [2; 5; 29; 17]%N.
Proof. reflexivity. Qed.
Lemma id_ecdsa_256 : ID_ECDSA_SHA256 = ecdsa_with 2.
Proof. reflexivity. Qed.
Lemma id_ecdsa_384 : ID_ECDSA_SHA384 = ecdsa_with 3.
Proof. reflexivity. Qed.
Lemma id_ed25519 : ID_ED25519 = ed25519.
Proof. reflexivity. Qed.
Lemma id_rsa_256 : ID_RSA_SHA256 = rsa_with 11.
Proof. reflexivity. Qed.
Lemma id_rsa_384 : ID_RSA_SHA384 = rsa_with 12.
Proof. reflexivity. Qed.
Lemma id_rsa_512 : ID_RSA_SHA512 = rsa_with 13.
Proof. reflexivity. Qed.

(** ** The common name *)

Lemma cn_loop_spec : forall subject acc cn, common_name_loop subject acc = Some cn <->
  Forall (fun rdn => rdn <> []) subject /\ Forall (fun v => length v <= 64) (common_names subject) /\
  cn = match rev (common_names subject) with
       | v :: _ => if utf8_valid v then Some v else None
       | [] => acc
       end.
Proof.
  induction subject as [|rdn r IH]; intros acc cn; cbn [common_name_loop].
  - cbn. split; [intros [= <-]; auto|intros (_ & _ & ->); reflexivity].
  - destruct rdn as [|[oid v] more].
    + split; [discriminate|]. intros (H & _). inversion H; congruence.
    + unfold common_names. cbn [map concat]. fold (common_names r).
      rewrite oid_common_name. destruct (bytes_eqb oid (object_id [2; 5; 4; 3]%N)).
      * cbn [app rev]. destruct (Nat.leb_spec (length v) HOSTNAME_MAXLEN) as [Hl|Hl]; unfold HOSTNAME_MAXLEN in Hl.
        -- rewrite IH. split.
           ++ intros (H1 & H2 & ->). split; [constructor; [discriminate|assumption]|]. split; [now constructor|].
              destruct (rev (common_names r)) eqn:E; cbn [app]; reflexivity.
           ++ intros (H1 & H2 & ->). inversion H1; inversion H2; subst. split; [assumption|]. split; [assumption|].
              destruct (rev (common_names r)) eqn:E; cbn [app]; reflexivity.
        -- split; [discriminate|]. intros (_ & H & _). inversion H; subst. lia.
      * cbn [app]. rewrite IH. split; intros (H1 & H2 & H3); split; auto; [constructor; [discriminate|assumption]|now inversion H1].
Qed.

Lemma common_name_spec c cn : extract_common_name c = Some cn <-> is_common_name c cn.
Proof.
  unfold extract_common_name, is_common_name. rewrite cn_loop_spec.
  split; intros (H1 & H2 & H3); (split; [exact H1|split; [exact H2|]]).
  - destruct (rev (common_names (dc_subject c))) as [|v vs]; [exact H3|].
    destruct (utf8_valid v) eqn:E; [left; split; [now apply utf8_spec|exact H3]|right; split; [|exact H3]].
    intros H. apply utf8_spec in H. congruence.
  - destruct (rev (common_names (dc_subject c))) as [|v vs]; [exact H3|].
    destruct H3 as [[H ->]|[H ->]]; [apply utf8_spec in H as ->; reflexivity|].
    destruct (utf8_valid v) eqn:E; [apply utf8_spec in E; contradiction|reflexivity].
Qed.

Section P.
Context (L : pki_lib) (F : features).

(** ** The subject alternative names *)

Lemma elements_app b g1 m g2 r : elements L b g1 m -> elements L m g2 r -> elements L b (g1 ++ g2) r.
Proof. induction 1; cbn [app]; [auto|]. intros. econstructor; eauto. Qed.

Lemma dns_names_app a b : dns_names (a ++ b) = dns_names a ++ dns_names b.
Proof. unfold dns_names. now rewrite filter_app, map_app. Qed.

Lemma firstn_full {A} n (a b : list A) : length (firstn n a) = n -> firstn n (a ++ b) = firstn n a.
Proof.
  intros H. rewrite firstn_app. rewrite firstn_length in H. replace (n - length a) with 0 by lia. cbn [firstn]. now rewrite app_nil_r.
Qed.

Lemma firstn_first {A} n (a b : list A) : firstn n (firstn n a ++ b) = firstn n (a ++ b).
Proof.
  rewrite !firstn_app, firstn_firstn, Nat.min_id, firstn_length. f_equal. f_equal. lia.
Qed.

(** The values that [san_loop] looks at. *)
Lemma san_loop_sound (HL : pki_ok L) : forall fuel b names out, length names <= 3 -> san_loop L fuel b names = Ok out ->
  exists gs rest, elements L b gs rest /\ out = firstn 3 (names ++ dns_names gs) /\ (rest = [] \/ length out = 3).
Proof.
  induction fuel as [|fuel IH]; intros b names out Hn H; destruct b as [|t0 b]; cbn [san_loop] in H; try discriminate.
  - injection H as <-. exists [], []. split; [constructor|]. change (dns_names []) with (@nil bytes). rewrite app_nil_r, firstn_all2 by lia. auto.
  - injection H as <-. exists [], []. split; [constructor|]. change (dns_names []) with (@nil bytes). rewrite app_nil_r, firstn_all2 by lia. auto.
  - destruct (k_header L (t0 :: b)) as [[[t n] r]|] eqn:Hh; [|discriminate].
    destruct (ok_header L HL _ _ _ _ Hh) as (h & Eh). cbn [app] in Eh. injection Eh as <- _.
    destruct (Nat.leb_spec n (length r)) as [Hl|]; [|discriminate].
    assert (Hh' : k_header L (t0 :: b) = Some (t0, length (firstn n r), firstn n r ++ skipn n r)).
    { rewrite Hh, firstn_skipn. rewrite firstn_length, Nat.min_l by lia. reflexivity. }
    destruct (byte_eqb t0 x82) eqn:Et.
    + destruct (utf8_valid (firstn n r) && (length (firstn n r) <=? HOSTNAME_MAXLEN)); [|discriminate].
      set (names2 := if length names <? MAX_SAN_DNS_NAMES then names ++ [firstn n r] else names) in H.
      assert (E2 : forall gs, firstn 3 (names ++ firstn n r :: gs) = firstn 3 (names2 ++ gs)).
      { intros gs. unfold names2. destruct (Nat.ltb_spec (length names) MAX_SAN_DNS_NAMES) as [Hlt|Hge].
        - now rewrite <- app_assoc.
        - unfold MAX_SAN_DNS_NAMES in Hge. rewrite !firstn_full; auto; rewrite firstn_length; lia. }
      assert (L2 : length names2 <= 3).
      { unfold names2. destruct (Nat.ltb_spec (length names) MAX_SAN_DNS_NAMES) as [Hlt|Hge]; [|lia].
        rewrite app_length. cbn [length]. unfold MAX_SAN_DNS_NAMES in Hlt. lia. }
      destruct (length names2 =? MAX_SAN_DNS_NAMES) eqn:Ef.
      * injection H as <-. apply Nat.eqb_eq in Ef. unfold MAX_SAN_DNS_NAMES in Ef.
        exists [(t0, firstn n r)], (skipn n r). split; [econstructor; [exact Hh'|constructor]|].
        unfold dns_names. cbn [filter map fst snd]. rewrite Et. cbn [map snd]. rewrite E2, app_nil_r, firstn_all2 by lia. auto.
      * destruct (IH _ _ _ L2 H) as (gs & rest & Hel & -> & Hr). exists ((t0, firstn n r) :: gs), rest.
        split; [econstructor; eauto|]. unfold dns_names. cbn [filter map fst snd]. rewrite Et. cbn [map snd].
        rewrite E2. auto.
    + destruct (IH _ _ _ Hn H) as (gs & rest & Hel & -> & Hr). exists ((t0, firstn n r) :: gs), rest.
      split; [econstructor; eauto|]. unfold dns_names. cbn [filter map fst snd]. rewrite Et. auto.
Qed.

Lemma san_extensions_sound (HL : pki_ok L) : forall exts names out, length names <= 3 ->
  san_extensions L exts names = Ok out ->
  exists gss, Forall2 (fun e gs => fst e = x04 /\ exists rest, general_names L (snd e) gs rest /\
                 (rest = [] \/ length out = 3)) (san_values exts) gss /\
    out = firstn 3 (names ++ dns_names (concat gss)).
Proof.
  induction exts as [|[oid [tag value]] r IH]; intros names out Hn H; cbn [san_extensions] in H.
  - injection H as <-. exists []. split; [constructor|]. cbn [concat]. change (dns_names []) with (@nil bytes). now rewrite app_nil_r, firstn_all2 by lia.
  - unfold san_values. cbn [filter map fst]. rewrite oid_san in H. destruct (bytes_eqb oid (object_id [2; 5; 29; 17]%N)).
    + destruct (byte_eqb tag x04) eqn:Et; [|discriminate]. apply byte_eqb_eq in Et as ->.
      destruct (k_header L value) as [[[t n] content]|] eqn:Hh; [|discriminate].
      destruct (byte_eqb t x30) eqn:Et; [|discriminate]. apply byte_eqb_eq in Et as ->.
      destruct (Nat.leb_spec n (length content)) as [Hl|]; [|discriminate].
      destruct (san_loop L (length value) (firstn n content) names) as [names1| | | |] eqn:Hs; try discriminate. cbn [obind] in H.
      destruct (san_loop_sound HL _ _ _ _ Hn Hs) as (gs & rest & Hel & E1 & Hr).
      assert (L1 : length names1 <= 3) by (rewrite E1, firstn_length; lia).
      destruct (IH _ _ L1 H) as (gss & Hf & ->). exists (gs :: gss). cbn [map snd].
      split.
      * constructor; [|exact Hf]. split; [reflexivity|]. exists rest. split.
        -- exists (firstn n content), (skipn n content). split; [|exact Hel]. cbn [snd].
           rewrite Hh, firstn_skipn, firstn_length, Nat.min_l by lia. reflexivity.
        -- destruct Hr as [->|Hr]; [now left|right]. rewrite E1 in Hr. rewrite firstn_length in Hr. rewrite firstn_length, app_length, E1, firstn_length. lia.
      * cbn [concat]. rewrite dns_names_app, E1, app_assoc. apply firstn_first.
    + apply IH; auto.
Qed.

Lemma sans_sound (HL : pki_ok L) c sans : extract_san_dns_names L c = Ok sans -> are_sans L c sans.
Proof.
  unfold extract_san_dns_names, are_sans. destruct (dc_extensions c) as [exts|]; [|now intros [= <-]].
  intros H. destruct (san_extensions_sound HL exts [] sans (Nat.le_0_l 3) H) as (gss & Hf & E). exists gss. auto.
Qed.

Lemma san_loop_complete (HL : pki_ok L) : forall b gs, elements L b gs [] ->
  Forall (fun n => text n /\ length n <= 64) (dns_names gs) ->
  forall fuel names, length names <= 3 -> length b <= fuel ->
  san_loop L fuel b names = Ok (firstn 3 (names ++ dns_names gs)).
Proof.
  intros b gs H. remember [] as e eqn:Ee. induction H as [b|b t v r gs rest Hh Hel IH]; intros Hg fuel names Hn Hf.
  - subst b. change (dns_names []) with (@nil bytes). rewrite app_nil_r, firstn_all2 by lia. now destruct fuel.
  - destruct (ok_header L HL _ _ _ _ Hh) as (h & ->). cbn [app] in *. destruct fuel as [|fuel]; [cbn in Hf; lia|].
    cbn [san_loop]. rewrite Hh. destruct (Nat.leb_spec (length v) (length (v ++ r))) as [_|Hc]; [|rewrite app_length in Hc; lia].
    replace (firstn (length v) (v ++ r)) with v by (rewrite firstn_app, Nat.sub_diag, firstn_all; cbn [firstn]; now rewrite app_nil_r).
    rewrite skipn_app, Nat.sub_diag, skipn_all. cbn [skipn app].
    assert (Hfr : length r <= fuel) by (cbn [length] in Hf; rewrite !app_length in Hf; lia).
    unfold dns_names in *. cbn [filter map fst snd] in *. destruct (byte_eqb t x82) eqn:Et.
    + cbn [map snd] in *. inversion Hg as [|? ? [Hu Hl] Hg']; subst. apply utf8_spec in Hu. rewrite Hu.
      destruct (Nat.leb_spec (length v) HOSTNAME_MAXLEN) as [_|Hc]; [|unfold HOSTNAME_MAXLEN in Hc; lia]. cbn [andb].
      fold (dns_names gs) in *. unfold MAX_SAN_DNS_NAMES.
      destruct (Nat.ltb_spec (length names) 3) as [Hlt|Hge].
      * destruct (length (names ++ [v]) =? 3) eqn:E3.
        -- apply Nat.eqb_eq in E3. replace (names ++ v :: dns_names gs) with ((names ++ [v]) ++ dns_names gs) by now rewrite <- app_assoc.
           rewrite firstn_full by (rewrite firstn_length; lia). now rewrite firstn_all2 by lia.
        -- apply Nat.eqb_neq in E3. rewrite IH; auto; [now rewrite <- app_assoc|]. rewrite app_length in *. cbn [length] in *. lia.
      * destruct (length names =? 3) eqn:E3; [|apply Nat.eqb_neq in E3; lia].
        rewrite firstn_full by (rewrite firstn_length; lia). now rewrite firstn_all2 by lia.
    + apply IH; auto.
Qed.

Lemma san_extensions_complete (HL : pki_ok L) : forall exts gss,
  Forall2 (fun e gs => fst e = x04 /\ general_names L (snd e) gs []) (san_values exts) gss ->
  Forall (fun n => text n /\ length n <= 64) (dns_names (concat gss)) ->
  forall names, length names <= 3 -> san_extensions L exts names = Ok (firstn 3 (names ++ dns_names (concat gss))).
Proof.
  induction exts as [|[oid [tag value]] r IH]; intros gss Hf Hg names Hn; cbn [san_extensions].
  - inversion Hf. cbn [concat]. change (dns_names []) with (@nil bytes). now rewrite app_nil_r, firstn_all2 by lia.
  - unfold san_values in Hf. cbn [filter map fst] in Hf. rewrite oid_san. destruct (bytes_eqb oid (object_id [2; 5; 29; 17]%N)); [|now apply IH].
    cbn [map snd] in Hf. inversion Hf as [|? gs ? gss' [E4 (content & after & Hh & Hel)] Hf']; subst. cbn [fst snd] in *. subst tag.
    cbn [concat] in *. rewrite dns_names_app in *. apply Forall_app in Hg as [Hg1 Hg2].
    change (byte_eqb x04 x04) with true. cbv iota. rewrite Hh. change (byte_eqb x30 x30) with true. cbv iota.
    destruct (Nat.leb_spec (length content) (length (content ++ after))) as [_|Hc]; [|rewrite app_length in Hc; lia].
    replace (firstn (length content) (content ++ after)) with content by (rewrite firstn_app, Nat.sub_diag, firstn_all; cbn [firstn]; now rewrite app_nil_r).
    rewrite (san_loop_complete HL _ _ Hel Hg1); auto.
    2:{ destruct (ok_header L HL _ _ _ _ Hh) as (h & ->). rewrite !app_length. lia. }
    cbn [obind]. rewrite (IH _ Hf' Hg2) by (rewrite firstn_length; lia). f_equal.
    rewrite app_assoc. apply firstn_first.
Qed.

Lemma sans_complete (HL : pki_ok L) c all : good_sans L c all -> extract_san_dns_names L c = Ok (firstn 3 all).
Proof.
  unfold good_sans, extract_san_dns_names. destruct (dc_extensions c) as [exts|]; [|now intros ->].
  intros (gss & Hf & -> & Hg). apply (san_extensions_complete HL exts gss Hf Hg []). cbn. lia.
Qed.

(** ** One certificate *)

Lemma tlv_spec (HL : pki_ok L) der tbs : get_certificate_tlv_bytes L der = Some tbs <-> signed_part L der tbs.
Proof.
  unfold get_certificate_tlv_bytes, signed_part. split.
  - destruct (k_header L der) as [[[t1 n1] r1]|] eqn:H1; [|discriminate].
    destruct (byte_eqb t1 x30) eqn:E1; [|discriminate]. apply byte_eqb_eq in E1 as ->.
    destruct (k_header L r1) as [[[t2 n2] r2]|] eqn:H2; [|discriminate].
    destruct (byte_eqb t2 x30) eqn:E2; [|discriminate]. apply byte_eqb_eq in E2 as ->.
    destruct (Nat.leb_spec n2 (length r2)) as [Hl|]; [|discriminate]. intros [= <-].
    destruct (ok_header L HL _ _ _ _ H2) as (h & Eh).
    assert (Hd : firstn (length r1 - length r2 + n2) r1 = (x30 :: h) ++ firstn n2 r2).
    { rewrite Eh, app_length. replace (length (x30 :: h) + length r2 - length r2 + n2) with (length (x30 :: h) + n2) by lia.
      apply firstn_app_2. }
    exists n1, (x30 :: h), (firstn n2 r2), (skipn n2 r2). rewrite Hd, <- app_assoc, firstn_skipn, <- Eh.
    split; [reflexivity|]. split; [|reflexivity]. rewrite H2, firstn_length, Nat.min_l by lia. reflexivity.
  - intros (n & h & v & rest & -> & H2 & ->). rewrite H2. change (byte_eqb x30 x30) with true. cbv iota.
    destruct (Nat.leb_spec (length v) (length (v ++ rest))) as [_|Hc]; [|rewrite app_length in Hc; lia]. f_equal.
    rewrite <- app_assoc. rewrite (app_length h). replace (length h + length (v ++ rest) - length (v ++ rest) + length v) with (length h + length v) by lia.
    rewrite firstn_app_2, firstn_app, Nat.sub_diag, firstn_all. cbn [firstn]. now rewrite app_nil_r.
Qed.

Lemma alg_eqb_eq a b : alg_eqb a b = true <-> a = b.
Proof.
  destruct a as [o1 p1], b as [o2 p2]. unfold alg_eqb. cbn [fst snd]. rewrite andb_true_iff, bytes_eqb_eq.
  destruct p1, p2; rewrite ?bytes_eqb_eq; split; intros H; try (destruct H; congruence); try (injection H; intros; subst; auto; fail);
    try discriminate H.
Qed.

Lemma cert_alg_spec id a : cert_alg F id = Some a <-> In (id, a) (known_algs F).
Proof.
  unfold cert_alg, known_algs. rewrite id_ecdsa_256, id_ecdsa_384, id_ed25519, id_rsa_256, id_rsa_384, id_rsa_512. split.
  - destruct (alg_eqb id (ecdsa_with 2)) eqn:E1; [apply alg_eqb_eq in E1 as ->; intros [= <-]; now left|].
    destruct (f_p384 F && alg_eqb id (ecdsa_with 3)) eqn:E2.
    { apply andb_true_iff in E2 as [-> E2]. apply alg_eqb_eq in E2 as ->. intros [= <-]. right. now left. }
    destruct (f_ed25519 F && alg_eqb id ed25519) eqn:E3.
    { apply andb_true_iff in E3 as [-> E3]. apply alg_eqb_eq in E3 as ->. intros [= <-]. destruct (f_p384 F); cbn; auto. }
    destruct (f_rsa F && alg_eqb id (rsa_with 11)) eqn:E4.
    { apply andb_true_iff in E4 as [-> E4]. apply alg_eqb_eq in E4 as ->. intros [= <-]. destruct (f_p384 F), (f_ed25519 F); cbn; auto. }
    destruct (f_rsa F && alg_eqb id (rsa_with 12)) eqn:E5.
    { apply andb_true_iff in E5 as [-> E5]. apply alg_eqb_eq in E5 as ->. intros [= <-]. destruct (f_p384 F), (f_ed25519 F); cbn; auto 6. }
    destruct (f_rsa F && alg_eqb id (rsa_with 13)) eqn:E6; [|discriminate].
    apply andb_true_iff in E6 as [-> E6]. apply alg_eqb_eq in E6 as ->. intros [= <-]. destruct (f_p384 F), (f_ed25519 F); cbn; auto 7.
  - destruct F as [p e r]. cbn [f_p384 f_ed25519 f_rsa]. destruct p, e, r; cbn [app In]; intros H;
      repeat (destruct H as [H|H]; [injection H as <- <-; reflexivity|]); destruct H.
Qed.

Lemma arm_key_spec a key : arm_key L a key = Ok tt <-> k_key_ok L a key = true /\ (a = A_Ed25519 -> length key = 32).
Proof.
  unfold arm_key. destruct a; try (destruct (k_key_ok L _ key); split; try discriminate; [intros _; split; [reflexivity|discriminate]|reflexivity|intros []; discriminate]).
  destruct (Nat.eqb_spec (length key) 32) as [E|E]; destruct (k_key_ok L A_Ed25519 key); split; try discriminate; auto;
    try (intros [? ?]; discriminate); intros [_ H]; exfalso; auto.
Qed.

Lemma within_spec now c : (match now with
          | Some now => (now <? get_cert_time (dc_not_before c))%N || (get_cert_time (dc_not_after c) <? now)%N
          | None => false
          end) = false <-> in_force now c.
Proof.
  unfold in_force. destruct now as [t|]; [|now split].
  assert (forall x, get_cert_time x = seconds x) as E by (now intros []). rewrite !E, orb_false_iff, !N.ltb_ge. tauto.
Qed.

(** [verify_certificate] accepts exactly what the specification does. *)
Lemma verify_certificate_spec (HL : pki_ok L) issuer der now n :
  verify_certificate L F (CE_X509 issuer) (CE_X509 der) now = Ok n <->
  issued L F now issuer der /\
  exists c, k_cert L der = Some c /\ extract_common_name c = Some (cn_common n) /\ extract_san_dns_names L c = Ok (cn_sans n).
Proof.
  unfold verify_certificate. split.
  - destruct (k_cert L issuer) as [ci|] eqn:Hi; [cbn [ok_or obind]|discriminate].
    destruct (k_cert L der) as [c|] eqn:Hc; [cbn [ok_or obind]|discriminate].
    destruct (dc_key ci) as [key|] eqn:Hk; [cbn [ok_or obind]|discriminate].
    destruct (extract_common_name c) as [cn|] eqn:Hcn; [cbn [ok_or obind]|discriminate].
    destruct (extract_san_dns_names L c) as [sans| | | |] eqn:Hs; cbn [obind]; try discriminate.
    match goal with |- obind (if ?b then _ else _) _ = _ -> _ => destruct b eqn:Hw end; [discriminate|cbn [obind]]. apply within_spec in Hw.
    destruct (get_certificate_tlv_bytes L der) as [tbs|] eqn:Ht; [cbn [ok_or obind]|discriminate]. apply (tlv_spec HL) in Ht.
    destruct (cert_alg F (dc_alg c)) as [a|] eqn:Ha; [|discriminate]. apply cert_alg_spec in Ha.
    destruct (arm_key L a key) as [[]| | | |] eqn:Hak; cbn [obind]; try discriminate. apply arm_key_spec in Hak as [Hk1 Hk2].
    destruct (dc_signature c) as [sg|] eqn:Hsg; [cbn [ok_or obind]|discriminate].
    destruct (k_sig_ok L a sg) eqn:Hso; [|discriminate]. destruct (k_verify L a key tbs sg) eqn:Hv; [|discriminate].
    intros [= <-]. split.
    + exists ci, c, key, a, sg, tbs. unfold good_signature. auto 12.
    + exists c. auto.
  - intros [(ci & c & key & a & sg & tbs & Hi & Hk & Hc & Hw & Ha & Hsg & Ht & Hk1 & Hso & Hv & Hk2) (c' & Hc' & Hcn & Hs)].
    assert (c' = c) as -> by congruence. rewrite Hi. cbn [ok_or obind]. rewrite Hc. cbn [ok_or obind]. rewrite Hk. cbn [ok_or obind].
    rewrite Hcn. cbn [ok_or obind]. rewrite Hs. cbn [ok_or obind]. apply within_spec in Hw. rewrite Hw. cbn [obind].
    apply (tlv_spec HL) in Ht. rewrite Ht. cbn [ok_or obind]. apply cert_alg_spec in Ha. rewrite Ha.
    rewrite (proj2 (arm_key_spec a key) (conj Hk1 Hk2)). cbn [obind]. rewrite Hsg. cbn [ok_or obind]. rewrite Hso, Hv. now destruct n.
Qed.

(** ** The chain *)

(** Names read from a certificate. *)
Definition reads_names (der : bytes) (n : cert_names) : Prop :=
  exists c, k_cert L der = Some c /\ extract_common_name c = Some (cn_common n) /\ extract_san_dns_names L c = Ok (cn_sans n).

Lemma nth_after (l : list bytes) i d x : nth_error l i = Some x -> nth i l d = x.
Proof. intros H. now apply nth_error_nth. Qed.

Lemma chain_loop_S fuel c now names : chain_loop L F (S fuel) c now names =
  (nx <-- chain_next c ;;
   match nx with
   | None => Ok names
   | Some ((p, q), c) => names <-- verify_certificate L F p q now ;; chain_loop L F fuel c now names
   end).
Proof. reflexivity. Qed.

(** From [k] certificates still to check, [prev] the one before. *)
Lemma chain_loop_spec (HL : pki_ok L) ca now certs : forall k names n, k <= length certs ->
  chain_loop L F (S k) (mk_chain (CE_X509 (nth k certs ca)) (map CE_X509 certs) k) now names = Ok n <->
  (forall i der, i < k -> nth_error certs i = Some der ->
     issued L F now (nth (S i) certs ca) der /\ exists m, reads_names der m) /\
  (if k =? 0 then n = names else exists leaf, nth_error certs 0 = Some leaf /\ reads_names leaf n).
Proof.
  induction k as [|k IH]; intros names n Hk; rewrite chain_loop_S; unfold chain_next; cbn [ch_left ch_entries ch_prev].
  - cbn [obind Nat.eqb]. split; [intros [= <-]; split; [lia|reflexivity]|intros [_ ->]; reflexivity].
  - unfold index. rewrite nth_error_map. destruct (nth_error certs k) as [der|] eqn:Hd; [|apply nth_error_None in Hd; lia].
    cbn [option_map obind]. cbn [Nat.eqb].
    rewrite (nth_after certs k ca der Hd) in IH.
    split.
    + destruct (verify_certificate L F (CE_X509 (nth (S k) certs ca)) (CE_X509 der) now) as [m| | | |] eqn:Hv; cbn [obind]; try discriminate.
      intros H. apply (IH m n ltac:(lia)) in H as [Hall Hn]. apply (verify_certificate_spec HL) in Hv as [Hi Hr]. split.
      * intros i d Hi1 Hi2. destruct (Nat.eq_dec i k) as [->|]; [|apply Hall; [lia|exact Hi2]].
        assert (d = der) as -> by congruence. split; [exact Hi|now exists m].
      * destruct k as [|k]; cbn [Nat.eqb] in Hn; [|exact Hn]. subst n. now exists der.
    + intros [Hall Hn]. destruct (Hall k der ltac:(lia) Hd) as [Hi (m & Hm)].
      rewrite (proj2 (verify_certificate_spec HL _ _ _ m) (conj Hi Hm)). cbn [obind]. apply IH; [lia|]. split; [intros; apply Hall; auto with arith|].
      destruct k as [|k]; cbn [Nat.eqb]; [|exact Hn]. destruct Hn as (leaf & Hl & c & H1 & H2 & H3).
      assert (leaf = der) as -> by congruence. destruct Hm as (c' & H1' & H2' & H3').
      assert (c' = c) as -> by congruence. destruct n, m; cbn in *; congruence.
Qed.

Lemma chain_spec (HL : pki_ok L) ca now certs n :
  chain_loop L F (S (length certs)) (chain_new (CE_X509 ca) (map CE_X509 certs)) now (mk_names None []) = Ok n <->
  chained L F now ca certs /\ Forall (fun d => exists m, reads_names d m) certs /\
  match certs with [] => n = mk_names None [] | leaf :: _ => reads_names leaf n end.
Proof.
  unfold chain_new. rewrite map_length.
  replace (CE_X509 ca) with (CE_X509 (nth (length certs) certs ca)) by (rewrite nth_overflow; auto).
  rewrite (chain_loop_spec HL ca now certs (length certs) _ n (Nat.le_refl _)). unfold chained. split.
  - intros [H Hn]. split; [|split].
    + intros i d Hi. apply H; [|exact Hi]. apply nth_error_Some. congruence.
    + apply Forall_forall. intros d Hd. apply In_nth_error in Hd as (i & Hi). apply (H i); [|exact Hi]. apply nth_error_Some. congruence.
    + destruct certs; cbn in Hn; [exact Hn|]. destruct Hn as (leaf & [= ->] & Hr). exact Hr.
  - intros (H & Hr & Hn). split.
    + intros i d _ Hi. split; [now apply H|]. rewrite Forall_forall in Hr. apply Hr. eapply nth_error_In; eauto.
    + destruct certs as [|leaf r]; cbn; [exact Hn|]. eauto.
Qed.
End P.
