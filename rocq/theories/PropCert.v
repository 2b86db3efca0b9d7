(** * C07: the Certificate message *)
From Coq Require Import List NArith Arith Bool Lia ZArith.
From Coq.Strings Require Import Byte.
From Coq Require Import ZifyBool ZifyNat ZifyN.
From Verif Require Import Base ParseBuffer Buffer Codes Extensions Crypto KeySchedule Config Handshake
  SpecWire SpecCodes SpecMessages BaseProofs ParseProofs WireProofs ExtProofs SpecBuffer BufferProofs HelloProofs SpaceProofs.
Import ListNotations.

Ltac Zify.zify_post_hook ::= Z.div_mod_to_equations.

(** ** Specification: RFC 8446 section 4.4.2 *)

(** An entry: the certificate and an extension block. *)
Definition entry_wire (e : bytes * list ext_item) : bytes := vec 3 (fst e) ++ ext_block (snd e).
Definition entries_wire (l : list (bytes * list ext_item)) : bytes := concat (map entry_wire l).
Definition certificate_wire (ctx : bytes) (l : list (bytes * list ext_item)) : bytes :=
  vec 1 ctx ++ vec 3 (entries_wire l).

(** An extension block a client must tolerate in a server's entry: unknown extensions
    only (they are skipped). *)
Definition unknown_only (items : list ext_item) : Prop :=
  block_ok items /\ Forall (fun i => ~ recognised (fst i)) items.

Definition wire_ok (ctx : bytes) (l : list (bytes * list ext_item)) : Prop :=
  fits 1 ctx /\ fits 3 (entries_wire l) /\ length l <= 16 /\ Forall (fun e => unknown_only (snd e)) l.

Definition plain (ders : list bytes) : list (bytes * list ext_item) := map (fun d => (d, [])) ders.

(** ** Lemmas *)

Lemma unknown_result g cap items : Forall (fun i => ~ recognised (fst i)) items ->
  forall acc, block_result g cap acc items = Ok acc.
Proof.
  induction items as [|[t b] items IH]; intros H acc; [reflexivity|].
  inversion H as [|? ? H1 H2]; subst. cbn [fst] in H1. apply not_recognised_of in H1.
  pose proof (block_result_skip g cap acc [] t b items H1) as Hs. cbn [app] in Hs. rewrite Hs. now apply IH.
Qed.

Lemma unknown_only_nil : unknown_only [].
Proof. split; [split; [constructor|reflexivity]|constructor]. Qed.

Lemma wire_ok_plain ctx ders : fits 1 ctx -> fits 3 (entries_wire (plain ders)) -> length ders <= 16 ->
  wire_ok ctx (plain ders).
Proof.
  intros H1 H2 H3. unfold wire_ok, plain. rewrite map_length. repeat split; auto.
  apply Forall_forall. intros e He. apply in_map_iff in He as (d & <- & _). apply unknown_only_nil.
Qed.

Lemma entry_wire_length e : 5 <= length (entry_wire e).
Proof. unfold entry_wire, ext_block. rewrite app_length, !vec_length. lia. Qed.

Lemma entries_loop cap : forall l fuel acc pre,
  Forall (fun e => fits 3 (fst e) /\ unknown_only (snd e)) l ->
  length acc + length l <= cap -> length (entries_wire l) < fuel ->
  cert_entries_loop fuel cap acc (at_pos pre (entries_wire l) [])
  = Ok (acc ++ map (fun e => CE_X509 (fst e)) l).
Proof.
  induction l as [|e l IH]; intros fuel acc pre H Hc Hf; cbn [entries_wire map concat] in *.
  - destruct fuel; [lia|]. cbn [cert_entries_loop]. rewrite pb_is_empty_at. cbn. now rewrite app_nil_r.
  - fold (entries_wire l) in *. inversion H as [|? ? [H1 [H2 H2']] H3]; subst.
    pose proof (entry_wire_length e) as He. rewrite app_length in Hf.
    destruct fuel as [|fuel]; [lia|]. cbn [cert_entries_loop]. rewrite pb_is_empty_at, app_length.
    rewrite (proj2 (Nat.eqb_neq _ _)) by lia.
    rewrite at_pos_assoc, app_nil_r.
    destruct (runs_cert_entry (fst e) (snd e) H1 H2 pre (entries_wire l)) as [Hr1 Hr2].
    rewrite unknown_result in Hr1, Hr2 by assumption. cbn [omap obind] in Hr1, Hr2.
    fold (entry_wire e) in Hr1, Hr2. specialize (Hr2 _ eq_refl).
    destruct (parse_cert_entry (at_pos pre (entry_wire e) (entries_wire l))) as [o p]. cbn [fst snd] in *. subst o p.
    cbn [length] in Hc. rewrite (proj2 (Nat.ltb_lt _ _)) by lia.
    replace (at_pos (pre ++ entry_wire e) [] (entries_wire l)) with (at_pos (pre ++ entry_wire e) (entries_wire l) [])
      by (unfold at_pos; cbn [app]; now rewrite app_nil_r).
    rewrite IH; [rewrite <- app_assoc; reflexivity|assumption|rewrite app_length; cbn; lia|lia].
Qed.

Lemma fits_entries l : fits 3 (entries_wire l) -> Forall (fun e => unknown_only (snd e)) l ->
  Forall (fun e => fits 3 (fst e) /\ unknown_only (snd e)) l.
Proof.
  intros Hf H. rewrite Forall_forall in *. intros e He. split; [|auto].
  pose proof (concat_len_in entry_wire l e He) as Hl. fold (entries_wire l) in Hl.
  unfold entry_wire in Hl at 1. rewrite app_length, vec_length in Hl.
  apply (proj1 (fits_3 _)) in Hf. apply fits_3. lia.
Qed.

Lemma entries_parse l : length l <= 16 -> fits 3 (entries_wire l) ->
  Forall (fun e => unknown_only (snd e)) l ->
  parse_cert_entries 16 (pb_new (entries_wire l)) = Ok (map (fun e => CE_X509 (fst e)) l).
Proof.
  intros Hl Hf H. unfold parse_cert_entries. cbn [pb_buf pb_new].
  change (pb_new (entries_wire l)) with (mk_pbuf 0 (entries_wire l)).
  replace (mk_pbuf 0 (entries_wire l)) with (at_pos [] (entries_wire l) [])
    by (unfold at_pos; cbn [length app]; now rewrite app_nil_r).
  rewrite entries_loop; [reflexivity|now apply fits_entries|cbn; lia|lia].
Qed.

Lemma parses_certificate ctx l : wire_ok ctx l ->
  parses parse_certificate (certificate_wire ctx l)
    (mk_cert (entries_wire l) ctx (map (fun e => CE_X509 (fst e)) l)).
Proof.
  intros (Hx & Hf & Hl & Hu). unfold certificate_wire.
  assert (Hr : runs parse_certificate (vec 1 ctx ++ vec 3 (entries_wire l))
     (Ok (mk_cert (entries_wire l) ctx (map (fun e => CE_X509 (fst e)) l)))).
  { unfold parse_certificate.
    apply (parses_vec1 ctx Hx _ _ _ (fun s => _ <- _ ;; raw <- _ ;; es <- lift _ ;;
       ret (mk_cert (pb_as_slice raw) (pb_as_slice s) es))).
    rewrite <- (app_nil_r (vec 3 (entries_wire l))).
    apply (parses_vec3 (entries_wire l) Hf).
    intros pre post. rewrite entries_parse by assumption. unfold bind, lift. cbn. split; [reflexivity|].
    intros x Hx'. now rewrite app_nil_r. }
  intros pre post. destruct (Hr pre post) as [H1 H2]. specialize (H2 _ eq_refl).
  destruct (parse_certificate _) as [o p]. cbn [fst snd] in *. now subst.
Qed.

Lemma encodes_cert ctx raw ders :
  encodes (enc_certificate (mk_cert raw ctx (map CE_X509 ders))) (certificate_wire ctx (plain ders)) tt.
Proof.
  unfold enc_certificate, certificate_wire, entries_wire, plain. cbn [ce_context ce_entries].
  eapply encodes_bind; [apply encodes_vec1, encodes_extend|].
  apply encodes_vec3. rewrite map_map.
  replace (map (fun x => entry_wire (x, [])) ders)
    with (map (fun e => match e with CE_X509 d => entry_wire (d, []) | _ => [] end) (map CE_X509 ders))
    by (rewrite map_map; reflexivity).
  apply encodes_for_each. intros e He. apply in_map_iff in He as (d & <- & _).
  unfold enc_cert_entry, entry_wire. cbn [fst snd].
  eapply encodes_bind; [apply encodes_vec3, encodes_extend|apply encodes_u16].
Qed.

(** ** The theorems *)

(** Encoding: the outgoing buffer gains exactly the RFC image, or the write is refused. *)
Theorem C07_encode : forall c raw ctx ders, in_bounds c ->
  exists o c', enc_certificate (mk_cert raw ctx (map CE_X509 ders)) c = (o, c') /\
    (length (certificate_wire ctx (plain ders)) <= length (after c) ->
       o = Ok tt /\ appended c c' (certificate_wire ctx (plain ders))) /\
    (length (after c) < length (certificate_wire ctx (plain ders)) -> o = Err InsufficientSpace).
Proof.
  intros c raw ctx ders Hb. unfold in_bounds in Hb.
  destruct (cbuf_split c) as [Hc Hl]; [exact Hb|].
  destruct (encodes_cert ctx raw ders (firstn (cb_off c + cb_len c) (cb_buf c)) (skipn (cb_off c + cb_len c) (cb_buf c))
             (cb_off c) (cb_len c) Hl) as [H1 H2]. rewrite <- Hc in H1, H2.
  set (e := enc_certificate _ c) in *. unfold after.
  destruct (le_lt_dec (length (certificate_wire ctx (plain ders))) (length (skipn (cb_off c + cb_len c) (cb_buf c)))) as [L|L].
  - specialize (H1 L). rewrite H1. do 2 eexists. split; [reflexivity|]. split; [|lia]. intros _. split; [reflexivity|].
    set (w := certificate_wire ctx (plain ders)) in *.
    unfold appended, in_bounds, before, window, after. cbn [cb_off cb_len cb_buf].
    assert (Hlen : length (cb_buf c) = cb_off c + cb_len c + length (skipn (cb_off c + cb_len c) (cb_buf c)))
      by (rewrite skipn_length; lia).
    set (Pr := firstn (cb_off c + cb_len c) (cb_buf c)) in *.
    set (R := skipn (cb_off c + cb_len c) (cb_buf c)) in *.
    rewrite !app_length, skipn_length.
    split; [reflexivity|]. split; [lia|]. split; [lia|].
    assert (Hbuf : cb_buf c = Pr ++ R) by (unfold Pr, R; now rewrite firstn_skipn).
    split; [rewrite Hbuf; rewrite !firstn_app; replace (cb_off c - length Pr) with 0 by lia; reflexivity|].
    split.
    + rewrite Hbuf, !skipn_app. replace (cb_off c - length Pr) with 0 by lia. cbn [skipn].
      assert (Hp : length (skipn (cb_off c) Pr) = cb_len c) by (rewrite skipn_length; lia).
      rewrite firstn_app, Hp. rewrite firstn_all2 by lia.
      replace (cb_len c + length w - cb_len c) with (length w) by lia.
      rewrite firstn_app, firstn_all, Nat.sub_diag. cbn [firstn]. rewrite app_nil_r. f_equal.
      rewrite firstn_app, Hp, Nat.sub_diag. cbn [firstn]. rewrite app_nil_r. symmetry. apply firstn_all2. lia.
    + rewrite skipn_app, skipn_all2 by lia. cbn [app].
      replace (cb_off c + (cb_len c + length w) - length Pr) with (length w) by lia.
      rewrite skipn_app, skipn_all, Nat.sub_diag. reflexivity.
  - destruct (H2 L) as (er & R' & len' & He & Hs & _). rewrite He. do 2 eexists. split; [reflexivity|].
    split; [lia|]. intros _. f_equal. exact (only_certificate _ _ _ _ He).
Qed.
Print Assumptions C07_encode.

(** Parsing: the image, wherever it lies, gives back the context and the certificates in
    order and is consumed exactly; also with extension blocks the client does not know. *)
Theorem C07_parse : forall ctx l pre post, wire_ok ctx l ->
  exists c, parse_certificate (mk_pbuf (length pre) (pre ++ certificate_wire ctx l ++ post))
    = (Ok c, mk_pbuf (length pre + length (certificate_wire ctx l)) (pre ++ certificate_wire ctx l ++ post)) /\
    ce_context c = ctx /\ ce_entries c = map (fun e => CE_X509 (fst e)) l.
Proof.
  intros ctx l pre post H. pose proof (parses_certificate ctx l H pre post) as Hp.
  unfold at_pos in Hp. rewrite Hp. eexists.
  split; [cbn [app]; rewrite app_length, <- app_assoc; reflexivity|split; reflexivity].
Qed.
Print Assumptions C07_parse.

(** Hence the round trip. *)
Theorem C07_round_trip : forall ctx ders raw c,
  fits 1 ctx -> fits 3 (entries_wire (plain ders)) -> length ders <= 16 ->
  in_bounds c -> length (certificate_wire ctx (plain ders)) <= length (after c) ->
  exists bs c' p', enc_certificate (mk_cert raw ctx (map CE_X509 ders)) c = (Ok tt, c') /\
    appended c c' bs /\
    parse_certificate (pb_new bs) = (Ok (mk_cert (entries_wire (plain ders)) ctx (map CE_X509 ders)), p') /\
    pb_pos p' = length bs.
Proof.
  intros ctx ders raw c H1 H2 H3 Hb Hfit.
  destruct (C07_encode c raw ctx ders Hb) as (o & c' & He & Hok & _). destruct (Hok Hfit) as [-> Ha].
  pose proof (parses_certificate ctx (plain ders) (wire_ok_plain ctx ders H1 H2 H3) [] []) as Hp.
  unfold at_pos in Hp. cbn [length app] in Hp. rewrite !app_nil_r in Hp.
  assert (Hm : map (fun e => CE_X509 (fst e)) (plain ders) = map CE_X509 ders)
    by (unfold plain; rewrite map_map; reflexivity).
  rewrite Hm in Hp.
  exists (certificate_wire ctx (plain ders)), c'. eexists. split; [exact He|]. split; [exact Ha|].
  split; [exact Hp|reflexivity].
Qed.
Print Assumptions C07_round_trip.

(** More than 16 certificates are refused, not truncated. *)
Theorem C07_too_many : forall l ctx, fits 1 ctx -> fits 3 (entries_wire l) -> 16 < length l ->
  Forall (fun e => unknown_only (snd e)) l ->
  fst (parse_certificate (pb_new (certificate_wire ctx l))) = Err DecodeError.
Proof.
  intros l ctx Hx Hf Hl Hu.
  assert (Hloop : forall l fuel acc pre,
     Forall (fun e => fits 3 (fst e) /\ unknown_only (snd e)) l ->
     length acc <= 16 -> 16 < length acc + length l -> length (entries_wire l) < fuel ->
     cert_entries_loop fuel 16 acc (at_pos pre (entries_wire l) []) = Err DecodeError).
  { clear. induction l as [|e l IH]; intros fuel acc pre H Ha Hc Hf; cbn [entries_wire map concat length] in *; [lia|].
    fold (entries_wire l) in *. inversion H as [|? ? [H1 [H2 H2']] H3]; subst.
    pose proof (entry_wire_length e) as He. rewrite app_length in Hf.
    destruct fuel as [|fuel]; [lia|]. cbn [cert_entries_loop]. rewrite pb_is_empty_at, app_length.
    rewrite (proj2 (Nat.eqb_neq _ _)) by lia.
    rewrite at_pos_assoc, app_nil_r.
    destruct (runs_cert_entry (fst e) (snd e) H1 H2 pre (entries_wire l)) as [Hr1 Hr2].
    rewrite unknown_result in Hr1, Hr2 by assumption. cbn [omap obind] in Hr1, Hr2.
    fold (entry_wire e) in Hr1, Hr2. specialize (Hr2 _ eq_refl).
    destruct (parse_cert_entry (at_pos pre (entry_wire e) (entries_wire l))) as [o p]. cbn [fst snd] in *. subst o p.
    destruct (length acc <? 16) eqn:E; [|reflexivity]. apply Nat.ltb_lt in E.
    replace (at_pos (pre ++ entry_wire e) [] (entries_wire l)) with (at_pos (pre ++ entry_wire e) (entries_wire l) [])
      by (unfold at_pos; cbn [app]; now rewrite app_nil_r).
    apply IH; [assumption|rewrite app_length; cbn; lia|rewrite app_length; cbn; lia|lia]. }
  assert (Hp : parse_cert_entries 16 (pb_new (entries_wire l)) = Err DecodeError).
  { unfold parse_cert_entries. cbn [pb_buf pb_new].
    replace (mk_pbuf 0 (entries_wire l)) with (at_pos [] (entries_wire l) [])
      by (unfold at_pos; cbn [length app]; now rewrite app_nil_r).
    change (pb_new (entries_wire l)) with (mk_pbuf 0 (entries_wire l)).
    replace (mk_pbuf 0 (entries_wire l)) with (at_pos [] (entries_wire l) [])
      by (unfold at_pos; cbn [length app]; now rewrite app_nil_r).
    apply Hloop; [now apply fits_entries|cbn; lia|cbn; lia|lia]. }
  assert (Hr : runs parse_certificate (vec 1 ctx ++ vec 3 (entries_wire l)) (Err DecodeError)).
  { unfold parse_certificate.
    apply (parses_vec1 ctx Hx _ _ _ (fun s => _ <- _ ;; raw <- _ ;; es <- lift _ ;;
       ret (mk_cert (pb_as_slice raw) (pb_as_slice s) es))).
    rewrite <- (app_nil_r (vec 3 (entries_wire l))).
    apply (parses_vec3 (entries_wire l) Hf).
    intros pre post. rewrite Hp. unfold bind, lift. cbn. split; [reflexivity|]. intros x Hx'. discriminate. }
  destruct (Hr [] []) as [H1 _]. unfold at_pos in H1. cbn [length app] in H1. rewrite app_nil_r in H1.
  exact H1.
Qed.
Print Assumptions C07_too_many.

(** The owned form of a received certificate: kept and restored exactly when the entries fit
    the owned capacity [n], refused otherwise. *)
Theorem C07_owned : forall ctx l n pre post c p', wire_ok ctx l ->
  parse_certificate (mk_pbuf (length pre) (pre ++ certificate_wire ctx l ++ post)) = (Ok c, p') ->
  if length (entries_wire l) <=? n
  then exists o, cert_to_owned n c = Ok o /\ cert_from_owned o = Ok c
  else cert_to_owned n c = Err OutOfMemory.
Proof.
  intros ctx l n pre post c p' Hw Hp.
  pose proof (parses_certificate ctx l Hw pre post) as H. unfold at_pos in H. rewrite H in Hp.
  inversion Hp; subst c. clear H Hp. destruct Hw as (Hx & Hf & Hl & Hu).
  unfold cert_to_owned. cbn [ce_context ce_raw]. apply (proj1 (fits_1 _)) in Hx.
  rewrite (proj2 (Nat.leb_le (length ctx) 256)) by lia.
  destruct (length (entries_wire l) <=? n) eqn:E; [|reflexivity].
  eexists. split; [reflexivity|]. unfold cert_from_owned. cbn [co_entries_data co_context].
  rewrite entries_parse by assumption. reflexivity.
Qed.
Print Assumptions C07_owned.

(** A certificate assembled with [with_context]/[add] has no raw entries: its owned form is
    silently empty, whatever was added. *)
Theorem C07_owned_built_refuted : forall ctx e n, length ctx <= 256 ->
  exists c o c', cert_add (cert_with_context ctx) e = Ok c /\ ce_entries c = [e] /\
    cert_to_owned n c = Ok o /\ cert_from_owned o = Ok c' /\ ce_entries c' = [].
Proof.
  intros ctx e n H. unfold cert_add, cert_with_context, cert_to_owned, cert_from_owned.
  cbn [ce_entries ce_raw ce_context length Nat.ltb Nat.leb app].
  do 3 eexists. split; [reflexivity|]. split; [reflexivity|]. cbn [ce_context ce_raw].
  rewrite (proj2 (Nat.leb_le _ _) H). cbn [length]. split; [reflexivity|].
  cbn [co_entries_data co_context]. split; reflexivity.
Qed.
Print Assumptions C07_owned_built_refuted.

(** [add] one after the other, from the left. *)
Definition add_all (c : cert_ref) (es : list cert_entry) : outcome tls_error cert_ref :=
  fold_left (fun o e => c' <-- o ;; cert_add c' e) es (Ok c).

(** Entries can be added as long as there are at most 16 of them, and come in the order in which
    they were added; the 17th is refused with an error. *)
Theorem C07_built : forall ctx es,
  add_all (cert_with_context ctx) es
  = if length es <=? 16 then Ok (mk_cert [] ctx es) else Err InsufficientSpace.
Proof.
  intros ctx es. unfold add_all, cert_with_context.
  assert (Hf : forall l, fold_left (fun o e => c' <-- o ;; cert_add c' e) l (Err InsufficientSpace) = Err InsufficientSpace)
    by (induction l as [|x l IH]; [reflexivity|exact IH]).
  assert (H : forall l pre, length pre <= 16 ->
    fold_left (fun o e => c' <-- o ;; cert_add c' e) l (Ok (mk_cert [] ctx pre))
    = if length (pre ++ l) <=? 16 then Ok (mk_cert [] ctx (pre ++ l)) else Err InsufficientSpace).
  { induction l as [|x l IH]; intros pre Hp; cbn [fold_left obind].
    - rewrite app_nil_r, (proj2 (Nat.leb_le _ _) Hp). reflexivity.
    - unfold cert_add at 2. cbn [ce_entries ce_raw ce_context]. destruct (length pre <? 16) eqn:E.
      + apply Nat.ltb_lt in E. rewrite IH by (rewrite app_length; cbn; lia). rewrite <- app_assoc. reflexivity.
      + apply Nat.ltb_ge in E. rewrite Hf, (proj2 (Nat.leb_gt (length (pre ++ x :: l)) 16)); [reflexivity|].
        rewrite app_length. cbn. lia. }
  apply (H es []). cbn. lia.
Qed.
Print Assumptions C07_built.

Example C07_built_case : exists e,
  add_all (cert_with_context [x01]) (repeat e 16) = Ok (mk_cert [] [x01] (repeat e 16)) /\
  add_all (cert_with_context [x01]) (repeat e 17) = Err InsufficientSpace.
Proof. exists (CE_X509 [x30]). rewrite !C07_built. split; reflexivity. Qed.

Example C07_example :
  wire_ok [x01; x02] [([x30; x03; x01], []); ([x30], [(0x1234%N, [x00])])] /\
  (let w := certificate_wire [x01; x02] [([x30; x03; x01], []); ([x30], [(0x1234%N, [x00])])] in
   fst (parse_certificate (pb_new w))
   = Ok (mk_cert (skipn 6 w) [x01; x02] [CE_X509 [x30; x03; x01]; CE_X509 [x30]])).
Proof.
  split; [|vm_compute; reflexivity].
  split; [reflexivity|]. split; [reflexivity|]. split; [cbn; lia|].
  constructor; [apply unknown_only_nil|]. constructor; [|constructor].
  split; [split; [constructor; [split; reflexivity|constructor]|reflexivity]|].
  constructor; [|constructor]. cbn [fst]. intros H. vm_compute in H.
  repeat (destruct H as [H|H]; [discriminate|]). contradiction.
Qed.
