(** * Extension blocks *)
From Coq Require Import List NArith Arith Bool Lia ZArith.
From Coq.Strings Require Import Byte.
From Coq Require Import ZifyBool ZifyNat ZifyN.
From Verif Require Import Base ParseBuffer Codes Extensions Crypto KeySchedule Config Handshake
  BaseProofs ParseProofs SpecWire SpecCodes SpecMessages PropCodes WireProofs.
Import ListNotations.

Ltac Zify.zify_post_hook ::= Z.div_mod_to_equations.

Definition abort_illegal : tls_error := AbortHandshake AL_Fatal AD_IllegalParameter.

(** What the block parser computes on a list of items. *)
Fixpoint block_result (g : ext_group) (cap : nat) (acc : list extension) (items : list ext_item)
  : outcome tls_error (list extension) :=
  match items with
  | [] => Ok acc
  | (t, b) :: r =>
      match ext_type_of t with
      | None => block_result g cap acc r
      | Some ty =>
          match g ty with
          | None => Err abort_illegal
          | Some m =>
              match fst (m (pb_new b)) with
              | Ok x => if length acc <? cap then block_result g cap (acc ++ [mk_ext ty x]) r
                        else Err DecodeError
              | Err _ => Err DecodeError
              | Panic s => Panic s
              | Diverge => Diverge
              | Cancelled => Cancelled
              end
          end
      end
  end.

Lemma parse_ext_type_wire t : (t < 65536)%N -> forall pre post,
  pq parse_ext_type (at_pos pre (uint 2 t) post)
  = (match ext_type_of t with Some ty => Ok ty | None => Err (ParseErr PE_InvalidData) end,
     at_pos (pre ++ uint 2 t) [] post).
Proof.
  intros Ht pre post. unfold pq, map_err, parse_ext_type, bind.
  rewrite (parses_read_u16 t Ht pre post). unfold of_code, lift, ok_or.
  destruct (ext_type_of t); reflexivity.
Qed.

Lemma ext_parse_item g t b : item_ok (t, b) -> forall pre post,
  ext_parse g (at_pos pre (item_wire (t, b)) post)
  = (match ext_type_of t with
     | None => Err UnknownExtensionType
     | Some ty => match g ty with
                  | None => Err abort_illegal
                  | Some m => match fst (m (pb_new b)) with
                              | Ok x => Ok (mk_ext ty x)
                              | Err _ => Err DecodeError
                              | Panic s => Panic s | Diverge => Diverge | Cancelled => Cancelled
                              end
                  end
     end, at_pos (pre ++ item_wire (t, b)) [] post).
Proof.
  intros [Ht Hb] pre post. cbn [fst snd] in *. unfold item_wire, vec. cbn [fst snd].
  unfold ext_parse. unfold bind at 1. unfold attempt.
  rewrite (at_pos_assoc pre (uint 2 t)), (parse_ext_type_wire t Ht).
  set (ety := match ext_type_of t with Some ty => inl ty | None => inr (ParseErr PE_InvalidData) end
        : ext_type + tls_error).
  transitivity ((n <- map_err (fun _ : parse_error => DecodeError) read_u16;;
     d <- map_err (fun _ : parse_error => DecodeError) (pb_slice (N.to_nat n));;
     match ety with
     | inl t => match g t with
                | Some parse_data => let '(o, _) := parse_data d in
                    x <- lift (omap_err (fun _ : parse_error => DecodeError) o);; ret (mk_ext t x)
                | None => fail (AbortHandshake AL_Fatal AD_IllegalParameter)
                end
     | inr (ParseErr PE_InvalidData) => fail UnknownExtensionType
     | inr _ => fail DecodeError
     end) (at_pos (pre ++ uint 2 t) (uint 2 (N.of_nat (length b)) ++ b) post)).
  { unfold ety. destruct (ext_type_of t); rewrite at_pos_move; reflexivity. }
  unfold bind at 1.
  rewrite at_pos_assoc. unfold map_err at 1. apply (proj1 (fits_2 _)) in Hb.
  rewrite (parses_read_u16 _ Hb). cbn [omap_err]. rewrite at_pos_move.
  unfold bind at 1. unfold map_err. rewrite Nat2N.id.
  rewrite (parses_slice (length b) b eq_refl). cbn [omap_err].
  rewrite <- !app_assoc. unfold ety. destruct (ext_type_of t) as [ty|]; [|reflexivity].
  destruct (g ty) as [m|]; [|reflexivity].
  destruct (m (pb_new b)) as [[x|e|s| |] d']; reflexivity.
Qed.

Lemma item_wire_length i : length (item_wire i) = 4 + length (snd i).
Proof. unfold item_wire. rewrite app_length, vec_length, uint_length. lia. Qed.

Lemma pb_is_empty_at pre bs : pb_is_empty (at_pos pre bs []) = (length bs =? 0).
Proof.
  unfold pb_is_empty, at_pos. cbn [pb_pos pb_buf]. rewrite app_nil_r, app_length.
  destruct (Nat.eqb_spec (length bs) 0); [apply Nat.eqb_eq|apply Nat.eqb_neq]; lia.
Qed.

Lemma ext_vector_loop_items g cap : forall items fuel acc pre,
  Forall item_ok items -> length (items_wire items) < fuel ->
  ext_vector_loop g fuel cap acc (at_pos pre (items_wire items) []) = block_result g cap acc items.
Proof.
  induction items as [|[t b] items IH]; intros fuel acc pre Hok Hf.
  - destruct fuel; [cbn in Hf; lia|]. cbn [ext_vector_loop]. rewrite pb_is_empty_at. reflexivity.
  - destruct fuel; [lia|]. cbn [ext_vector_loop]. rewrite pb_is_empty_at.
    unfold items_wire in *. cbn [map concat] in *. rewrite app_length, item_wire_length in *.
    cbn [snd] in *. rewrite (proj2 (Nat.eqb_neq _ _)) by lia.
    inversion Hok as [|? ? H1 H2]; subst.
    rewrite at_pos_assoc, (ext_parse_item g t b H1). cbn [block_result].
    rewrite app_nil_r.
    assert (Hnext : forall a, ext_vector_loop g fuel cap a
        (at_pos (pre ++ item_wire (t, b)) [] (concat (map item_wire items)))
        = block_result g cap a items).
    { intros a. rewrite <- (app_nil_r (concat (map item_wire items))).
      rewrite at_pos_move. apply IH; [assumption|lia]. }
    destruct (ext_type_of t) as [ty|].
    + destruct (g ty) as [m|]; [|reflexivity].
      destruct (fst (m (pb_new b))) as [x|e|s| |]; try reflexivity.
      destruct (length acc <? cap); [|reflexivity]. apply Hnext.
    + apply Hnext.
Qed.

Lemma ext_vector_items g cap items : block_ok items -> forall pre post,
  ext_parse_vector g cap (at_pos pre (ext_block items) post)
  = (block_result g cap [] items, at_pos (pre ++ ext_block items) [] post).
Proof.
  intros [Hok Hf] pre post. unfold ext_parse_vector, ext_block, vec. unfold bind at 1, map_err.
  rewrite at_pos_assoc. apply (proj1 (fits_2 _)) in Hf.
  rewrite (parses_read_u16 _ Hf). cbn [omap_err]. unfold bind, pq, map_err.
  rewrite at_pos_move, Nat2N.id.
  rewrite (parses_slice _ (items_wire items) eq_refl). cbn [omap_err]. unfold lift.
  rewrite <- app_assoc. f_equal.
  pose proof (ext_vector_loop_items g cap items (S (length (items_wire items))) [] [] Hok ltac:(lia)) as H.
  unfold at_pos in H. cbn [length app] in H. rewrite app_nil_r in H. exact H.
Qed.

(** ** The allowed tables *)

Definition msg_group (m : server_message) : ext_group :=
  match m with
  | InServerHello => grp_server_hello
  | InEncryptedExtensions => grp_encrypted_ext
  | InCertificateRequest => grp_cert_request
  | InCertificate => grp_certificate
  | InNewSessionTicket => grp_new_session_ticket
  end.

Lemma allowed_group m t : In (ext_type_code t) (rfc_allowed m) <-> msg_group m t <> None.
Proof.
  split.
  - destruct m, t; cbn; intros H; try discriminate; exfalso;
      repeat (destruct H as [H|H]; [discriminate|]); contradiction.
  - destruct m, t; cbn; intros H; try (exfalso; apply H; reflexivity);
      repeat (first [left; reflexivity|right]).
Qed.

Lemma recognised_of t : recognised t <-> exists ty, ext_type_of t = Some ty /\ ext_type_code ty = t.
Proof.
  destruct C03_extension_type as (H1 & H2 & H3 & H4). unfold recognised. split.
  - intros H. apply in_map_iff in H as ([n ty] & Hn & Hin). cbn in Hn. subst n.
    exists ty. split; [now apply H2|]. eapply H4; [apply H1|exact Hin].
  - intros (ty & Ho & Hc). apply H2 in Ho. apply in_map_iff. exists (t, ty). auto.
Qed.

Lemma not_recognised_of t : ~ recognised t <-> ext_type_of t = None.
Proof.
  split.
  - intros H. destruct (ext_type_of t) as [ty|] eqn:E; [|reflexivity].
    exfalso. apply H. apply recognised_of. exists ty. split; [assumption|].
    destruct C03_extension_type as (H1 & H2 & H3 & H4). apply H2 in E. eapply H4; [apply H1|exact E].
  - intros H Hr. apply recognised_of in Hr as (ty & Ho & _). congruence.
Qed.

(** ** Consequences on [block_result] *)

Lemma block_result_skip g cap acc pre t b post : ext_type_of t = None ->
  block_result g cap acc (pre ++ (t, b) :: post) = block_result g cap acc (pre ++ post).
Proof.
  intros Ht. revert acc; induction pre as [|[t' b'] pre IH]; intros acc; cbn [app block_result].
  - now rewrite Ht.
  - destruct (ext_type_of t') as [ty|]; [|apply IH].
    destruct (g ty) as [m|]; [|reflexivity].
    destruct (fst (m (pb_new b'))); try reflexivity. destruct (length acc <? cap); [apply IH|reflexivity].
Qed.

Lemma block_result_app g cap acc pre post xs : block_result g cap acc pre = Ok xs ->
  block_result g cap acc (pre ++ post) = block_result g cap xs post.
Proof.
  revert acc; induction pre as [|[t' b'] pre IH]; intros acc H; cbn [app block_result] in *.
  - congruence.
  - destruct (ext_type_of t') as [ty|]; [|now apply IH].
    destruct (g ty) as [m|]; [|discriminate].
    destruct (fst (m (pb_new b'))); try discriminate.
    destruct (length acc <? cap); [now apply IH|discriminate].
Qed.

Lemma block_result_accepts m cap acc items xs : block_result (msg_group m) cap acc items = Ok xs ->
  (forall i, In i items -> recognised (fst i) -> In (fst i) (rfc_allowed m)).
Proof.
  revert acc; induction items as [|[t b] items IH]; intros acc H i Hin Hr; [contradiction|].
  cbn [block_result] in H. destruct (ext_type_of t) as [ty|] eqn:Et.
  - destruct (msg_group m ty) as [p|] eqn:Eg; [|discriminate].
    destruct (fst (p (pb_new b))); try discriminate.
    destruct (length acc <? cap); [|discriminate].
    destruct Hin as [<-|Hin]; [|eapply IH; eauto]. cbn.
    apply recognised_of in Hr as (ty' & Ho & Hc). cbn in Ho, Hc. rewrite Et in Ho. inversion Ho; subst.
    apply allowed_group. congruence.
  - destruct Hin as [<-|Hin]; [|eapply IH; eauto].
    apply recognised_of in Hr as (ty' & Ho & Hc). cbn in Ho. congruence.
Qed.

(** The accepted extensions are the recognised items in order. *)
Definition recognised_b (t : N) : bool := match ext_type_of t with Some _ => true | None => false end.

Lemma recognised_b_iff t : recognised_b t = true <-> recognised t.
Proof.
  unfold recognised_b. destruct (ext_type_of t) eqn:E.
  - split; auto. intros _. destruct (N.eq_dec t t); [|congruence].
    apply recognised_of. exists e. split; [assumption|].
    destruct C03_extension_type as (H1 & H2 & H3 & H4). apply H2 in E. eapply H4; [apply H1|exact E].
  - split; [discriminate|]. intros H. now apply not_recognised_of in E.
Qed.

Lemma block_result_types g cap acc items xs : block_result g cap acc items = Ok xs ->
  map (fun x => ext_type_code (x_type x)) xs
  = map (fun x => ext_type_code (x_type x)) acc ++ filter recognised_b (map fst items).
Proof.
  revert acc; induction items as [|[t b] items IH]; intros acc H; cbn [block_result] in H.
  - inversion H; subst. cbn. now rewrite app_nil_r.
  - cbn [map fst filter]. unfold recognised_b at 1. destruct (ext_type_of t) as [ty|] eqn:Et; [|now apply IH].
    destruct (g ty) as [p|]; [|discriminate].
    destruct (fst (p (pb_new b))); try discriminate.
    destruct (length acc <? cap); [|discriminate].
    rewrite (IH _ H), map_app. cbn [map x_type app]. rewrite <- app_assoc. cbn [app].
    replace (ext_type_code ty) with t; [reflexivity|].
    destruct C03_extension_type as (H1 & H2 & H3 & H4). apply H2 in Et. symmetry. eapply H4; [apply H1|exact Et].
Qed.

(** ** Every accepted block is a list of items *)

Lemma take_inv n p a p' : pb_take n p = (Ok a, p') ->
  pb_pos p + n <= length (pb_buf p) /\ a = sub (pb_buf p) (pb_pos p) n /\
  p' = mk_pbuf (pb_pos p + n) (pb_buf p).
Proof.
  unfold pb_take. destruct (Nat.leb_spec (pb_pos p + n) (length (pb_buf p))) as [H|H]; [|discriminate].
  rewrite slice_rng_ok by lia. intros E. inversion E; subst.
  repeat split; auto. f_equal. lia.
Qed.

(** ** Whole messages *)

(** Outcome (and position when it succeeds) on a wire image. *)
Definition runs {E A} (m : P E A) (bs : bytes) (o : outcome E A) : Prop :=
  forall pre post, fst (m (at_pos pre bs post)) = o /\
    (forall a, o = Ok a -> snd (m (at_pos pre bs post)) = at_pos (pre ++ bs) [] post).

Lemma runs_bind {E A B} (m : P E A) (f : A -> P E B) b1 b2 a o :
  parses m b1 a -> runs (f a) b2 o -> runs (bind m f) (b1 ++ b2) o.
Proof.
  intros H1 H2 pre post.
  replace (bind m f (at_pos pre (b1 ++ b2) post)) with (f a (at_pos (pre ++ b1) b2 post))
    by (unfold bind; now rewrite at_pos_assoc, H1, at_pos_move).
  destruct (H2 (pre ++ b1) post) as [H3 H4]. split; [assumption|].
  intros x Hx. rewrite (H4 x Hx). now rewrite app_assoc.
Qed.

Lemma runs_ret {E A B} (m : P E A) (g : A -> B) bs o :
  runs m bs o -> runs (bind m (fun a => ret (g a))) bs (omap g o).
Proof.
  intros H pre post. specialize (H pre post). destruct H as [H1 H2]. unfold bind.
  destruct (m (at_pos pre bs post)) as [[a|e|s| |] p']; cbn in *; subst o; cbn;
    (split; [reflexivity|]); intros x Hx; try discriminate.
  now rewrite (H2 a eq_refl).
Qed.

Lemma runs_ext_vector g cap items : block_ok items ->
  runs (ext_parse_vector g cap) (ext_block items) (block_result g cap [] items).
Proof. intros H pre post. rewrite (ext_vector_items g cap items H). now split. Qed.

Lemma runs_eq {E A} (m : P E A) b1 b2 o : b1 = b2 -> runs m b1 o -> runs m b2 o.
Proof. now intros ->. Qed.

Lemma parses_vec1 (b : bytes) : fits 1 b -> forall e1 e2 : parse_error -> tls_error,
  forall A (k : pbuf -> P tls_error A) rest o, runs (k (pb_new b)) rest o ->
  runs (n <- map_err e1 read_u8 ;; s <- map_err e2 (pb_slice (N.to_nat (Byte.to_N n))) ;; k s)
    (vec 1 b ++ rest) o.
Proof.
  intros Hb e1 e2 A k rest o H. unfold vec. rewrite <- app_assoc. apply (proj1 (fits_1 _)) in Hb.
  eapply runs_bind; [apply parses_map_err, parses_read_u8_uint; lia|].
  eapply runs_bind; [apply parses_map_err, parses_slice|exact H].
  rewrite to_N_b8, N.mod_small by lia. now rewrite Nat2N.id.
Qed.

Lemma parses_vec2 (b : bytes) : fits 2 b -> forall e1 e2 : parse_error -> tls_error,
  forall A (k : pbuf -> P tls_error A) rest o, runs (k (pb_new b)) rest o ->
  runs (n <- map_err e1 read_u16 ;; s <- map_err e2 (pb_slice (N.to_nat n)) ;; k s)
    (vec 2 b ++ rest) o.
Proof.
  intros Hb e1 e2 A k rest o H. unfold vec. rewrite <- app_assoc. apply (proj1 (fits_2 _)) in Hb.
  eapply runs_bind; [apply parses_map_err, parses_read_u16; lia|].
  eapply runs_bind; [apply parses_map_err, parses_slice|exact H]. now rewrite Nat2N.id.
Qed.

Lemma parses_vec3 (b : bytes) : fits 3 b -> forall e1 e2 : parse_error -> tls_error,
  forall A (k : pbuf -> P tls_error A) rest o, runs (k (pb_new b)) rest o ->
  runs (n <- map_err e1 read_u24 ;; s <- map_err e2 (pb_slice (N.to_nat n)) ;; k s)
    (vec 3 b ++ rest) o.
Proof.
  intros Hb e1 e2 A k rest o H. unfold vec. rewrite <- app_assoc. apply (proj1 (fits_3 _)) in Hb.
  eapply runs_bind; [apply parses_map_err, parses_read_u24; lia|].
  eapply runs_bind; [apply parses_map_err, parses_slice|exact H]. now rewrite Nat2N.id.
Qed.

Lemma cipher_suite_known suite : In suite (map fst iana_cipher_suite) ->
  exists s, cipher_suite_of suite = Some s /\ (suite < 65536)%N.
Proof.
  intros H. apply in_map_iff in H as ([n s] & Hn & Hin). cbn in Hn. subst n.
  exists s. destruct C03_cipher_suite as (_ & H2 & _). split; [now apply H2|].
  cbn in Hin. repeat (destruct Hin as [Hin|Hin]; [inversion Hin; subst; reflexivity|]). contradiction.
Qed.

Lemma runs_server_hello v r sid suite comp items :
  frame_ok (F_ServerHello v r sid suite comp) -> block_ok items ->
  runs parse_server_hello (frame_body (F_ServerHello v r sid suite comp) (ext_block items))
    (block_result grp_server_hello 4 [] items).
Proof.
  intros (Hv & Hr & Hs & Hc & Hp) Hi. cbn [frame_body]. unfold parse_server_hello.
  destruct (cipher_suite_known suite Hc) as (cs & Hcs & Hcn).
  eapply runs_bind; [apply parses_map_err, parses_read_u16, Hv|].
  eapply runs_bind; [apply parses_pq, parses_fill, Hr|].
  apply (parses_vec1 sid Hs _ _ _ (fun _ => _)).
  eapply runs_bind.
  { apply parses_map_err. eapply parses_bind_nil; [apply parses_read_u16, Hcn|].
    apply parses_of_code, Hcs. }
  eapply runs_bind; [apply parses_pq, parses_read_u8_uint, Hp|].
  now apply runs_ext_vector.
Qed.

Lemma runs_pq_eq {A} (m : P parse_error A) : pq m = map_err ParseErr m. Proof. reflexivity. Qed.

Lemma runs_new_session_ticket l a n t items :
  frame_ok (F_NewSessionTicket l a n t) -> block_ok items ->
  runs parse_new_session_ticket (frame_body (F_NewSessionTicket l a n t) (ext_block items))
    (omap (fun _ => tt) (block_result grp_new_session_ticket 1 [] items)).
Proof.
  intros (Hl & Ha & Hn & Ht) Hi. cbn [frame_body]. unfold parse_new_session_ticket.
  eapply runs_bind; [apply parses_pq, parses_read_u32, Hl|].
  eapply runs_bind; [apply parses_pq, parses_read_u32, Ha|].
  apply (parses_vec1 n Hn _ _ _ (fun _ => _)).
  apply (parses_vec2 t Ht _ _ _ (fun _ => _)).
  apply (runs_ret _ (fun _ => tt)). now apply runs_ext_vector.
Qed.

Lemma runs_certificate_request ctx items :
  frame_ok (F_CertificateRequest ctx) -> block_ok items ->
  runs parse_certificate_request (frame_body (F_CertificateRequest ctx) (ext_block items))
    (omap (fun _ => ctx) (block_result grp_cert_request 6 [] items)).
Proof.
  intros Hc Hi. cbn [frame_body]. unfold parse_certificate_request.
  apply (parses_vec1 ctx Hc _ _ _ (fun s => _ ;;; ret (pb_as_slice s))).
  apply (runs_ret _ (fun _ => ctx)). now apply runs_ext_vector.
Qed.

Lemma runs_encrypted_extensions items : block_ok items ->
  runs parse_encrypted_extensions (ext_block items)
    (omap (fun _ => tt) (block_result grp_encrypted_ext 16 [] items)).
Proof. intros Hi. apply (runs_ret _ (fun _ => tt)). now apply runs_ext_vector. Qed.

Lemma runs_cert_entry cert items : fits 3 cert -> block_ok items ->
  runs parse_cert_entry (vec 3 cert ++ ext_block items)
    (omap (fun _ => CE_X509 cert) (block_result grp_certificate 2 [] items)).
Proof.
  intros Hc Hi. unfold parse_cert_entry.
  apply (parses_vec3 cert Hc _ _ _ (fun s => _ ;;; ret (CE_X509 (pb_as_slice s)))).
  apply (runs_ret _ (fun _ => CE_X509 cert)). now apply runs_ext_vector.
Qed.

Lemma block_length items : block_ok items -> (N.of_nat (length (ext_block items)) < 65538)%N.
Proof. intros [_ H]. unfold ext_block. rewrite vec_length. apply (proj1 (fits_2 _)) in H. lia. Qed.

Lemma one_cert_entry cert items : fits 3 cert -> block_ok items ->
  parse_cert_entries 16 (pb_new (vec 3 cert ++ ext_block items))
  = omap (fun _ => [CE_X509 cert]) (block_result grp_certificate 2 [] items).
Proof.
  intros Hc Hi. unfold parse_cert_entries. cbn [pb_buf pb_new].
  set (w := vec 3 cert ++ ext_block items).
  assert (Hw : exists n, length w = S n).
  { unfold w. rewrite app_length, vec_length. exists (2 + length cert + length (ext_block items)). lia. }
  destruct Hw as [n Hn]. rewrite Hn.
  change (S (S n)) with (S (S n)). cbn [cert_entries_loop].
  assert (Hne : pb_is_empty (pb_new w) = false)
    by (unfold pb_is_empty, pb_new; cbn [pb_pos pb_buf]; now rewrite Hn).
  change (mk_pbuf 0 w) with (pb_new w). rewrite Hne.
  destruct (runs_cert_entry cert items Hc Hi [] []) as [H1 H2]. fold w in H1, H2.
  unfold at_pos in H1, H2. cbn [length app] in H1, H2. rewrite app_nil_r in H1, H2. fold (pb_new w) in H1, H2.
  destruct (block_result grp_certificate 2 [] items) as [xs|e|s| |]; cbn [omap obind] in *;
    destruct (parse_cert_entry (pb_new w)) as [o p']; cbn [fst snd] in *; subst o; cbn [obind]; try reflexivity.
  specialize (H2 _ eq_refl). subst p'. cbn [length app Nat.ltb Nat.leb].
  unfold pb_is_empty. cbn [pb_pos pb_buf]. now rewrite Nat.eqb_refl.
Qed.

Lemma runs_certificate ctx cert items :
  frame_ok (F_Certificate ctx cert) -> block_ok items ->
  runs parse_certificate (frame_body (F_Certificate ctx cert) (ext_block items))
    (omap (fun _ => mk_cert (vec 3 cert ++ ext_block items) ctx [CE_X509 cert])
       (block_result grp_certificate 2 [] items)).
Proof.
  intros [Hx Hc] Hi. cbn [frame_body]. unfold parse_certificate.
  pose proof (block_length items Hi) as Hbl.
  apply (parses_vec1 ctx Hx _ _ _ (fun s => _ <- _ ;; raw <- _ ;; es <- lift _ ;;
     ret (mk_cert (pb_as_slice raw) (pb_as_slice s) es))).
  rewrite <- (app_nil_r (vec 3 (vec 3 cert ++ ext_block items))).
  apply (parses_vec3 (vec 3 cert ++ ext_block items)); [apply fits_3|..].
  { rewrite app_length, vec_length. lia. }
  intros pre post. rewrite one_cert_entry; [|apply fits_3; lia|assumption].
  unfold bind, lift. destruct (block_result grp_certificate 2 [] items) as [xs|e|s| |]; cbn;
    (split; [reflexivity|]); intros x Hx'; try discriminate.
  now rewrite app_nil_r.
Qed.

Definition msg_cap (m : server_message) : nat :=
  match m with
  | InServerHello => 4 | InEncryptedExtensions => 16 | InCertificateRequest => 6
  | InCertificate => 2 | InNewSessionTicket => 1
  end.

Definition built (f : frame) (items : list ext_item) (xs : list extension) : server_handshake :=
  match f with
  | F_ServerHello _ _ _ _ _ => SH_ServerHello xs
  | F_EncryptedExtensions => SH_EncryptedExtensions
  | F_CertificateRequest ctx => SH_CertificateRequest ctx
  | F_Certificate ctx cert =>
      SH_Certificate (mk_cert (vec 3 cert ++ ext_block items) ctx [CE_X509 cert])
  | F_NewSessionTicket _ _ _ _ => SH_NewSessionTicket
  end.

Lemma frame_length f items : frame_ok f -> block_ok items -> fits 3 (frame_body f (ext_block items)).
Proof.
  intros Hf Hi. pose proof (block_length items Hi) as Hb. apply fits_3.
  destruct f; cbn [frame_ok frame_body] in *; rewrite ?app_length, ?vec_length, ?uint_length, ?app_length, ?vec_length.
  - destruct Hf as (_ & Hr & Hs & _). apply (proj1 (fits_1 _)) in Hs. lia.
  - lia.
  - apply (proj1 (fits_1 _)) in Hf. lia.
  - destruct Hf as [Hx Hc]. apply (proj1 (fits_1 _)) in Hx. lia.
  - destruct Hf as (_ & _ & Hn & Ht). apply (proj1 (fits_1 _)) in Hn. apply (proj1 (fits_2 _)) in Ht. lia.
Qed.

Lemma omap_omap {E A B D} (f : A -> B) (g : B -> D) (o : outcome E A) :
  omap g (omap f o) = omap (fun a => g (f a)) o.
Proof. now destruct o. Qed.

Lemma runs_message C f items : frame_ok f -> block_ok items ->
  runs (parse_server_handshake C) (message f items)
    (omap (built f items) (block_result (msg_group (frame_message f)) (msg_cap (frame_message f)) [] items)).
Proof.
  intros Hf Hi. pose proof (frame_length f items Hf Hi) as Hl. apply (proj1 (fits_3 _)) in Hl.
  unfold message, vec. unfold parse_server_handshake.
  eapply runs_bind.
  { apply parses_map_err. eapply parses_bind_nil.
    - apply parses_read_u8_uint. destruct f; reflexivity.
    - apply parses_of_code. instantiate (1 := match f with
        | F_ServerHello _ _ _ _ _ => HT_ServerHello | F_EncryptedExtensions => HT_EncryptedExtensions
        | F_CertificateRequest _ => HT_CertificateRequest | F_Certificate _ _ => HT_Certificate
        | F_NewSessionTicket _ _ _ _ => HT_NewSessionTicket end).
      destruct f; reflexivity. }
  eapply runs_bind; [apply parses_map_err, parses_read_u24, Hl|].
  destruct f; cbn [frame_message msg_group msg_cap].
  - apply (runs_ret _ SH_ServerHello). now apply runs_server_hello.
  - pose proof (runs_encrypted_extensions items Hi) as H.
    apply (runs_ret _ (fun _ => SH_EncryptedExtensions)) in H. rewrite omap_omap in H. exact H.
  - pose proof (runs_certificate_request context items Hf Hi) as H.
    apply (runs_ret _ SH_CertificateRequest) in H. rewrite omap_omap in H. exact H.
  - pose proof (runs_certificate context cert items Hf Hi) as H.
    apply (runs_ret _ SH_Certificate) in H. rewrite omap_omap in H. exact H.
  - pose proof (runs_new_session_ticket _ _ _ _ items Hf Hi) as H.
    apply (runs_ret _ (fun _ => SH_NewSessionTicket)) in H. rewrite omap_omap in H. exact H.
Qed.
