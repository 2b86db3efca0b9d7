(** * What the parsers accept: the wire grammar, read backwards *)
From Coq Require Import List NArith Arith Bool Lia ZArith.
From Coq.Strings Require Import Byte.
From Coq Require Import ZifyBool ZifyNat ZifyN.
From Verif Require Import Base ParseBuffer Codes Extensions Crypto KeySchedule Config Handshake
  BaseProofs ParseProofs SpecWire SpecCodes SpecMessages PropCodes WireProofs ExtProofs SpecHandshake.
Import ListNotations.

Ltac Zify.zify_post_hook ::= Z.div_mod_to_equations.

(** [acc m R]: whenever [m] succeeds with [a] it has moved over some bytes [x] with [R a x]. *)
Definition acc {E A} (m : P E A) (R : A -> bytes -> Prop) : Prop :=
  forall pre bs a p', m (at_pos pre bs []) = (Ok a, p') ->
  exists x y, bs = x ++ y /\ p' = at_pos (pre ++ x) y [] /\ R a x.

Lemma at_pos_shift pre x y : at_pos pre (x ++ y) [] = mk_pbuf (length pre) ((pre ++ x) ++ y).
Proof. unfold at_pos. now rewrite app_nil_r, app_assoc. Qed.
Lemma at_pos_next pre x y : at_pos (pre ++ x) y [] = mk_pbuf (length pre + length x) ((pre ++ x) ++ y).
Proof. unfold at_pos. now rewrite app_nil_r, app_length. Qed.

Lemma acc_weaken {E A} (m : P E A) (R R' : A -> bytes -> Prop) :
  acc m R -> (forall a x, R a x -> R' a x) -> acc m R'.
Proof. intros H HR pre bs a p' E0. destruct (H _ _ _ _ E0) as (x & y & H1 & H2 & H3). exists x, y. auto. Qed.

Lemma acc_bind {E A B} (m : P E A) (f : A -> P E B) R1 (R2 : A -> B -> bytes -> Prop) :
  acc m R1 -> (forall a, acc (f a) (R2 a)) ->
  acc (bind m f) (fun b x => exists a x1 x2, x = x1 ++ x2 /\ R1 a x1 /\ R2 a b x2).
Proof.
  intros H1 H2 pre bs b p' H. apply bind_ok in H as (a & p1 & Ha & Hb).
  destruct (H1 _ _ _ _ Ha) as (x & y & -> & -> & HR). destruct (H2 a _ _ _ _ Hb) as (x2 & y2 & -> & -> & HR2).
  exists (x ++ x2), y2. split; [apply app_assoc|]. split; [now rewrite app_assoc|]. exists a, x, x2. auto.
Qed.

Lemma acc_ret {E A} (a : A) : acc (ret a : P E A) (fun b x => b = a /\ x = []).
Proof.
  intros pre bs b p' H. inversion H. subst. exists [], bs. rewrite app_nil_r. auto.
Qed.
Lemma acc_lift {E A} (o : outcome E A) : acc (lift o) (fun b x => o = Ok b /\ x = []).
Proof.
  intros pre bs b p' H. inversion H. subst. exists [], bs. rewrite app_nil_r. auto.
Qed.
Lemma acc_fail {E A} (e : E) R : acc (fail e : P E A) R.
Proof. intros pre bs b p' H. discriminate. Qed.
Lemma acc_map_err {E E' A} (g : E -> E') (m : P E A) R : acc m R -> acc (map_err g m) R.
Proof.
  intros H pre bs a p' H0. unfold map_err in H0. destruct (m (at_pos pre bs [])) as [[b|e|s| |] q] eqn:Em; inversion H0. subst.
  eapply H. exact Em.
Qed.
Lemma acc_pq {A} (m : P parse_error A) R : acc m R -> acc (pq m) R.
Proof. apply acc_map_err. Qed.

Lemma acc_take n : acc (pb_take n) (fun a x => a = x /\ length x = n).
Proof.
  intros pre bs a p' H. apply take_inv in H as (Hle & -> & ->). unfold at_pos in *. cbn [pb_pos pb_buf] in *.
  rewrite app_nil_r in *. rewrite app_length in Hle.
  exists (firstn n bs), (skipn n bs). rewrite firstn_skipn. split; [reflexivity|].
  assert (Hl : length (firstn n bs) = n) by (rewrite firstn_length; lia).
  split; [rewrite app_length, Hl, app_nil_r, <- app_assoc, firstn_skipn; reflexivity|]. split; [|exact Hl].
  unfold sub. rewrite skipn_app, Nat.sub_diag, skipn_all2, skipn_O by lia. reflexivity.
Qed.

Lemma acc_slice n : acc (pb_slice n) (fun a x => a = pb_new x /\ length x = n).
Proof.
  eapply acc_weaken; [apply acc_bind; [apply acc_take|intros a; apply acc_ret]|].
  cbn beta. intros a x (b & x1 & x2 & -> & [-> Hl] & -> & ->). rewrite app_nil_r. auto.
Qed.

Lemma uint_be_val k x : length x = k -> uint k (be_val x) = x.
Proof.
  intros <-. apply be_val_inj; [apply uint_length|]. apply be_val_uint_small, be_val_lt.
Qed.

Lemma acc_be n : acc (s <- pb_take n ;; ret (be_val s)) (fun a x => x = uint n a /\ (a < 256 ^ N.of_nat n)%N).
Proof.
  eapply acc_weaken; [apply acc_bind; [apply acc_take|intros a; apply acc_ret]|].
  cbn beta. intros a x (b & x1 & x2 & -> & [-> Hl] & -> & ->). rewrite app_nil_r, uint_be_val by exact Hl.
  split; [reflexivity|]. rewrite <- Hl. apply be_val_lt.
Qed.
Lemma acc_u16 : acc read_u16 (fun a x => x = uint 2 a /\ (a < 65536)%N). Proof. apply (acc_be 2). Qed.
Lemma acc_u24 : acc read_u24 (fun a x => x = uint 3 a /\ (a < 16777216)%N). Proof. apply (acc_be 3). Qed.
Lemma acc_u32 : acc read_u32 (fun a x => x = uint 4 a /\ (a < 4294967296)%N). Proof. apply (acc_be 4). Qed.

Lemma acc_u8 : acc read_u8 (fun a x => x = [a]).
Proof.
  intros pre bs a p' H. unfold read_u8 in H. unfold at_pos in H. cbn [pb_pos pb_buf] in H. rewrite app_nil_r in H.
  destruct (Nat.ltb_spec (length pre) (length (pre ++ bs))) as [Hl|]; [|discriminate].
  destruct bs as [|b bs]; [rewrite app_length in Hl; cbn in Hl; lia|].
  unfold index in H. rewrite nth_error_app2, Nat.sub_diag in H by lia. cbn [nth_error] in H. inversion H. subst.
  exists [a], bs. split; [reflexivity|]. split; [|reflexivity].
  unfold at_pos. rewrite app_length, app_nil_r, <- app_assoc. reflexivity.
Qed.

Lemma acc_of_code {A} (o : option A) : acc (of_code o) (fun a x => o = Some a /\ x = []).
Proof.
  unfold of_code. eapply acc_weaken; [apply acc_lift|]. cbn beta. intros a x [H ->]. split; [|reflexivity].
  destruct o; inversion H. reflexivity.
Qed.

Lemma b8_uint b : [b] = uint 1 (Byte.to_N b).
Proof. rewrite uint_b8, b8_to_N. reflexivity. Qed.

(** ** Vectors *)

Lemma acc_vec1 {A} (e1 e2 : parse_error -> tls_error) (k : pbuf -> P tls_error A) R :
  (forall d, fits 1 d -> acc (k (pb_new d)) (R d)) ->
  acc (n <- map_err e1 read_u8 ;; s <- map_err e2 (pb_slice (N.to_nat (Byte.to_N n))) ;; k s)
    (fun a x => exists d y, x = vec 1 d ++ y /\ fits 1 d /\ R d a y).
Proof.
  intros Hk pre bs a p' H. apply bind_ok in H as (n & p1 & Hn & H).
  apply (acc_map_err _ _ _ acc_u8) in Hn as (x1 & y1 & -> & -> & ->).
  apply bind_ok in H as (s & p2 & Hs & H).
  apply (acc_map_err _ _ _ (acc_slice _)) in Hs as (x2 & y2 & -> & -> & -> & Hl).
  assert (Hf : fits 1 x2) by (apply fits_1; pose proof (to_N_lt n); lia).
  apply (Hk x2 Hf) in H as (x3 & y3 & -> & -> & HR).
  exists (vec 1 x2 ++ x3), y3. assert (Hv : vec 1 x2 = [n] ++ x2).
  { unfold vec. rewrite Hl, N2Nat.id, <- b8_uint. reflexivity. }
  rewrite Hv, <- !app_assoc. split; [reflexivity|]. split; [reflexivity|]. exists x2, x3. rewrite Hv, <- !app_assoc. auto.
Qed.

Lemma acc_vec_n {A} k (rd : P parse_error N) (e1 e2 : parse_error -> tls_error) (f : pbuf -> P tls_error A) R :
  acc rd (fun a x => x = uint k a /\ (a < 256 ^ N.of_nat k)%N) ->
  (forall d, fits k d -> acc (f (pb_new d)) (R d)) ->
  acc (n <- map_err e1 rd ;; s <- map_err e2 (pb_slice (N.to_nat n)) ;; f s)
    (fun a x => exists d y, x = vec k d ++ y /\ fits k d /\ R d a y).
Proof.
  intros Hrd Hk pre bs a p' H. apply bind_ok in H as (n & p1 & Hn & H).
  apply (acc_map_err _ _ _ Hrd) in Hn as (x1 & y1 & -> & -> & -> & Hlt).
  apply bind_ok in H as (s & p2 & Hs & H).
  apply (acc_map_err _ _ _ (acc_slice _)) in Hs as (x2 & y2 & -> & -> & -> & Hl).
  assert (Hf : fits k x2) by (unfold fits; now rewrite Hl, N2Nat.id).
  apply (Hk x2 Hf) in H as (x3 & y3 & -> & -> & HR).
  exists (vec k x2 ++ x3), y3. assert (Hv : vec k x2 = uint k n ++ x2).
  { unfold vec. rewrite Hl, N2Nat.id. reflexivity. }
  rewrite Hv, <- !app_assoc. split; [reflexivity|]. split; [reflexivity|]. exists x2, x3. rewrite Hv, <- !app_assoc. auto.
Qed.

(** ** Extension blocks *)

Lemma ext_parse_shape g pre bs o p' : ext_parse g (at_pos pre bs []) = (o, p') ->
  (exists x, o = Ok x) \/ o = Err UnknownExtensionType ->
  exists t b y, bs = item_wire (t, b) ++ y /\ item_ok (t, b).
Proof.
  intros H Ho. unfold ext_parse in H. unfold bind at 1, attempt at 1 in H.
  destruct (pq parse_ext_type (at_pos pre bs [])) as [[ty|e|s| |] p1] eqn:E1;
    try (apply pair_equal_spec in H as [<- _]; destruct Ho as [[x Hx]|Hx]; discriminate).
  - (* recognised *)
    assert (Hacc : acc (pq parse_ext_type) (fun a x => exists t, x = uint 2 t /\ (t < 65536)%N)).
    { apply acc_pq. unfold parse_ext_type. eapply acc_weaken; [apply acc_bind; [apply acc_u16|intros a; apply acc_of_code]|].
      cbn beta. intros a x (n & x1 & x2 & -> & [-> Hn] & _ & ->). rewrite app_nil_r. eauto. }
    apply Hacc in E1 as (x1 & y1 & -> & -> & t & -> & Ht).
    unfold bind at 1 in H. destruct (map_err (fun _ => DecodeError) read_u16 (at_pos (pre ++ uint 2 t) y1 [])) as [[n|e|s| |] p2] eqn:E2;
      try (apply pair_equal_spec in H as [<- _]; destruct Ho as [[x Hx]|Hx]; try discriminate).
    2:{ unfold map_err in E2. destruct (read_u16 _) as [[]]; inversion E2; subst; discriminate. }
    apply (acc_map_err _ _ _ acc_u16) in E2 as (x2 & y2 & -> & -> & -> & Hn).
    unfold bind at 1 in H. destruct (map_err (fun _ => DecodeError) (pb_slice (N.to_nat n)) _) as [[d|e|s| |] p3] eqn:E3;
      try (apply pair_equal_spec in H as [<- _]; destruct Ho as [[x Hx]|Hx]; try discriminate).
    2:{ unfold map_err in E3. destruct (pb_slice _ _) as [[]]; inversion E3; subst; discriminate. }
    apply (acc_map_err _ _ _ (acc_slice _)) in E3 as (x3 & y3 & -> & -> & -> & Hl).
    exists t, x3, y3. assert (Hv : vec 2 x3 = uint 2 n ++ x3) by (unfold vec; now rewrite Hl, N2Nat.id).
    unfold item_wire. cbn [fst snd]. rewrite Hv, <- !app_assoc. split; [reflexivity|]. split; [exact Ht|].
    cbn [snd]. apply fits_2. lia.
  - (* not recognised *)
    unfold pq, map_err in E1. destruct (parse_ext_type (at_pos pre bs [])) as [[ty|pe|s| |] p2] eqn:E2; inversion E1. subst e p2. clear E1.
    unfold parse_ext_type in E2. unfold bind at 1 in E2.
    destruct (read_u16 (at_pos pre bs [])) as [[t|e2|s| |] p2] eqn:E3; try (inversion E2; fail).
    + apply acc_u16 in E3 as (x1 & y1 & -> & -> & -> & Ht).
      unfold of_code, lift, ok_or in E2. destruct (ext_type_of t); apply pair_equal_spec in E2 as [Epe <-]; [discriminate|]. injection Epe as <-.
      unfold bind at 1 in H. destruct (map_err (fun _ => DecodeError) read_u16 (at_pos (pre ++ uint 2 t) y1 [])) as [[n|e|s| |] p2] eqn:E2;
        try (apply pair_equal_spec in H as [<- _]; destruct Ho as [[x Hx]|Hx]; try discriminate).
      2:{ unfold map_err in E2. destruct (read_u16 _) as [[]]; inversion E2; subst; discriminate. }
      apply (acc_map_err _ _ _ acc_u16) in E2 as (x2 & y2 & -> & -> & -> & Hn).
      unfold bind at 1 in H. destruct (map_err (fun _ => DecodeError) (pb_slice (N.to_nat n)) _) as [[d|e|s| |] p3] eqn:E3;
        try (apply pair_equal_spec in H as [<- _]; destruct Ho as [[x Hx]|Hx]; try discriminate).
      2:{ unfold map_err in E3. destruct (pb_slice _ _) as [[]]; inversion E3; subst; discriminate. }
      apply (acc_map_err _ _ _ (acc_slice _)) in E3 as (x3 & y3 & -> & -> & -> & Hl).
      exists t, x3, y3. assert (Hv : vec 2 x3 = uint 2 n ++ x3) by (unfold vec; now rewrite Hl, N2Nat.id).
      unfold item_wire. cbn [fst snd]. rewrite Hv, <- !app_assoc. split; [reflexivity|]. split; [exact Ht|].
      cbn [snd]. apply fits_2. lia.
    + (* too short *)
      inversion E2. subst e2 p2. clear E2.
      assert (Hpe : pe = PE_InsufficientBytes /\ p1 = at_pos pre bs []).
      { unfold read_u16, bind, pb_take in E3. destruct (_ <=? _); [|inversion E3; auto].
        destruct (slice_rng _ _ _) as [| |s| |] eqn:Es; inversion E3; subst.
        unfold slice_rng in Es. destruct (_ && _); discriminate. }
      destruct Hpe as [-> ->]. exfalso.
      assert (Hr : map_err (fun _ => DecodeError) read_u16 (at_pos pre bs []) = (Err DecodeError, at_pos pre bs [])).
      { unfold map_err. rewrite E3. reflexivity. }
      unfold bind at 1 in H. rewrite Hr in H. apply pair_equal_spec in H as [<- _]. destruct Ho as [[x Hx]|Hx]; discriminate.
Qed.

Lemma ext_vector_loop_acc g cap : forall fuel acc0 pre bs xs,
  ext_vector_loop g fuel cap acc0 (at_pos pre bs []) = Ok xs ->
  exists items, bs = items_wire items /\ Forall item_ok items /\ block_result g cap acc0 items = Ok xs.
Proof.
  induction fuel as [|fuel IH]; intros acc0 pre bs xs H; cbn [ext_vector_loop] in H; rewrite pb_is_empty_at in H.
  - destruct (Nat.eqb_spec (length bs) 0) as [Hl|]; [|discriminate]. destruct bs; [|discriminate].
    inversion H. exists []. auto.
  - destruct (Nat.eqb_spec (length bs) 0) as [Hl|Hl].
    { destruct bs; [|discriminate]. inversion H. exists []. auto. }
    destruct (ext_parse g (at_pos pre bs [])) as [o p'] eqn:Ep.
    assert (Ho : (exists x, o = Ok x) \/ o = Err UnknownExtensionType).
    { destruct o as [x|e|s| |]; try discriminate; [left; eauto|]. right. destruct e; try discriminate. reflexivity. }
    destruct (ext_parse_shape _ _ _ _ _ Ep Ho) as (t & b & y & -> & Hi).
    rewrite at_pos_assoc in Ep. rewrite (ext_parse_item g t b Hi) in Ep. apply pair_equal_spec in Ep as [Eo <-].
    assert (Hnext : forall a, ext_vector_loop g fuel cap a (at_pos (pre ++ item_wire (t, b)) [] (y ++ [])) = Ok xs ->
      block_result g cap acc0 [(t, b)] = Ok a ->
      exists items, item_wire (t, b) ++ y = items_wire items /\ Forall item_ok items /\ block_result g cap acc0 items = Ok xs).
    { intros a Ha Hb. rewrite at_pos_move in Ha. apply IH in Ha as (items & -> & Hok & Hr). exists ((t, b) :: items).
      split; [reflexivity|]. split; [now constructor|].
      change ((t, b) :: items) with ([(t, b)] ++ items). now rewrite (block_result_app _ _ _ _ _ _ Hb). }
    cbn [block_result] in Hnext.
    destruct (ext_type_of t) as [ty|].
    + destruct (g ty) as [m|]; [|subst o; discriminate].
      destruct (fst (m (pb_new b))) as [x|e|s| |]; subst o; try discriminate.
      destruct (length acc0 <? cap); [|discriminate]. eapply Hnext; [exact H|reflexivity].
    + subst o. eapply Hnext; [exact H|reflexivity].
Qed.

Lemma acc_ext_vector g cap : acc (ext_parse_vector g cap)
  (fun xs x => exists items, block_ok items /\ x = ext_block items /\ block_result g cap [] items = Ok xs).
Proof.
  intros pre bs xs p' H. unfold ext_parse_vector, pq in H. apply bind_ok in H as (n & p1 & Hn & H).
  apply (acc_map_err _ _ _ acc_u16) in Hn as (x1 & y1 & -> & -> & -> & Hlt).
  apply bind_ok in H as (s & p2 & Hs & H).
  apply (acc_map_err _ _ _ (acc_slice _)) in Hs as (x2 & y2 & -> & -> & -> & Hl).
  apply acc_lift in H as (x3 & y3 & -> & -> & Hr & ->).
  replace (pb_new x2) with (at_pos [] x2 []) in Hr by (unfold at_pos, pb_new; cbn [length app]; now rewrite app_nil_r).
  apply ext_vector_loop_acc in Hr as (items & -> & Hok & Hr).
  assert (Hv : ext_block items = uint 2 n ++ items_wire items) by (unfold ext_block, vec; now rewrite Hl, N2Nat.id).
  exists (ext_block items), y3. rewrite Hv, <- !app_assoc. split; [reflexivity|]. split; [now rewrite app_nil_r|].
  exists items. split; [split; [exact Hok|apply fits_2; lia]|]. auto.
Qed.

(** ** Messages *)

Definition denotes (sm : smsg) (h : server_handshake) : Prop :=
  match sm, h with
  | M_ServerHello _ items, SH_ServerHello xs => block_result grp_server_hello 4 [] items = Ok xs
  | M_NewSessionTicket, SH_NewSessionTicket => True
  | M_EncryptedExtensions _, SH_EncryptedExtensions => True
  | M_Certificate ctx raw certs, SH_Certificate c => c = mk_cert raw ctx (map CE_X509 certs)
  | M_CertificateRequest ctx _, SH_CertificateRequest c => c = ctx
  | M_CertificateVerify s sig, SH_CertificateVerify v => sig_scheme_code (cv_scheme v) = s /\ cv_sig v = sig
  | M_Finished v, SH_Finished f => f_verify f = v
  | _, _ => False
  end.

Definition entry_ok (e : bytes * list ext_item) : Prop := fits 3 (fst e) /\ block_ok (snd e).

Lemma acc_cert_entry : acc parse_cert_entry (fun e x => exists en, entry_ok en /\ x = entry_wire en /\ e = CE_X509 (fst en)).
Proof.
  unfold parse_cert_entry. eapply acc_weaken.
  - apply (acc_vec_n 3 read_u24 _ _ (fun c => _ ;;; ret (CE_X509 (pb_as_slice c)))
      (fun d e x => exists items, block_ok items /\ x = ext_block items /\ e = CE_X509 d)); [apply acc_u24|].
    intros d Hd. eapply acc_weaken; [apply acc_bind; [apply acc_ext_vector|intros a; apply acc_ret]|].
    cbn beta. intros e x (xs & x1 & x2 & -> & (items & Hok & -> & _) & -> & ->). rewrite app_nil_r. eauto.
  - cbn beta. intros e x (d & y & -> & Hf & items & Hok & -> & ->). exists (d, items). unfold entry_ok, entry_wire. auto.
Qed.

Lemma cert_entries_acc cap : forall fuel acc0 pre bs es,
  cert_entries_loop fuel cap acc0 (at_pos pre bs []) = Ok es ->
  exists ens, bs = concat (map entry_wire ens) /\ Forall entry_ok ens /\ es = acc0 ++ map (fun en => CE_X509 (fst en)) ens.
Proof.
  induction fuel as [|fuel IH]; intros acc0 pre bs es H; cbn [cert_entries_loop] in H; rewrite pb_is_empty_at in H.
  - destruct (Nat.eqb_spec (length bs) 0) as [Hl|]; [|discriminate]. destruct bs; [|discriminate].
    inversion H. exists []. cbn. rewrite app_nil_r. auto.
  - destruct (Nat.eqb_spec (length bs) 0) as [Hl|Hl].
    { destruct bs; [|discriminate]. inversion H. exists []. cbn. rewrite app_nil_r. auto. }
    destruct (parse_cert_entry (at_pos pre bs [])) as [[e|e|s| |] p'] eqn:Ep; try discriminate.
    apply acc_cert_entry in Ep as (x & y & -> & -> & en & Hok & -> & ->).
    destruct (length acc0 <? cap); [|discriminate]. apply IH in H as (ens & -> & Hoks & ->).
    exists (en :: ens). split; [reflexivity|]. split; [now constructor|]. now rewrite <- app_assoc.
Qed.

Lemma pb_new_at b : pb_new b = at_pos [] b [].
Proof. unfold at_pos, pb_new. cbn [length app]. now rewrite app_nil_r. Qed.

Lemma acc_certificate : acc parse_certificate (fun c x =>
  exists ctx raw ens, fits 1 ctx /\ fits 3 raw /\ Forall entry_ok ens /\ raw = concat (map entry_wire ens) /\
    x = vec 1 ctx ++ vec 3 raw /\ c = mk_cert raw ctx (map CE_X509 (map fst ens))).
Proof.
  unfold parse_certificate. eapply acc_weaken.
  - apply (acc_vec1 _ _ (fun ctx => el <- map_err (fun _ => InvalidCertificate) read_u24 ;;
        raw <- map_err (fun _ => InvalidCertificate) (pb_slice (N.to_nat el)) ;;
        es <- lift (parse_cert_entries 16 raw) ;; ret (mk_cert (pb_as_slice raw) (pb_as_slice ctx) es))
      (fun ctx c y => exists raw ens, fits 3 raw /\ Forall entry_ok ens /\ raw = concat (map entry_wire ens) /\
         y = vec 3 raw /\ c = mk_cert raw ctx (map CE_X509 (map fst ens)))).
    intros ctx Hctx. eapply acc_weaken.
    + apply (acc_vec_n 3 read_u24 _ _ (fun raw => es <- lift (parse_cert_entries 16 raw) ;;
          ret (mk_cert (pb_as_slice raw) (pb_as_slice (pb_new ctx)) es))
        (fun raw c y => y = [] /\ exists ens, Forall entry_ok ens /\ raw = concat (map entry_wire ens) /\
           c = mk_cert raw ctx (map CE_X509 (map fst ens)))); [apply acc_u24|].
      intros raw Hraw. eapply acc_weaken; [apply acc_bind; [apply acc_lift|intros a; apply acc_ret]|].
      cbn beta. intros c x (es & x1 & x2 & -> & [He ->] & -> & ->). split; [reflexivity|].
      unfold parse_cert_entries in He. rewrite pb_new_at in He. apply cert_entries_acc in He as (ens & -> & Hok & ->).
      exists ens. split; [exact Hok|]. split; [reflexivity|]. cbn [app]. rewrite map_map. reflexivity.
    + cbn beta. intros c x (raw & y & -> & Hf & -> & ens & Hok & -> & ->). eexists _, ens. rewrite app_nil_r. repeat (split; [eassumption || reflexivity|]). reflexivity.
  - cbn beta. intros c x (ctx & y & -> & Hf & raw & ens & Hfr & Hok & -> & -> & ->). exists ctx. eexists _, ens. repeat (split; [eassumption || reflexivity|]). reflexivity.
Qed.

Section Messages.
Context (C : crypto).

Lemma acc_server_hello : acc parse_server_hello (fun xs x =>
  exists suite items, smsg_body C (M_ServerHello suite items) x /\ block_result grp_server_hello 4 [] items = Ok xs).
Proof.
  intros pre bs xs p' H. unfold parse_server_hello in H.
  apply bind_ok in H as (v & p1 & Hv & H). apply (acc_map_err _ _ _ acc_u16) in Hv as (x1 & y1 & -> & -> & -> & Hv).
  apply bind_ok in H as (r & p2 & Hr & H). apply (acc_pq _ _ (acc_take _)) in Hr as (x2 & y2 & -> & -> & -> & Hr).
  refine ((fun G => _) (acc_vec1 (fun _ => InvalidSessionIdLength) (fun _ => InvalidSessionIdLength)
    (fun _ => map_err (fun _ => InvalidCipherSuite) (n <- read_u16 ;; of_code (cipher_suite_of n)) ;;;
       pq read_u8 ;;; ext_parse_vector grp_server_hello 4)
    (fun _ xs x => exists suite comp items, (comp < 256)%N /\ In suite (map fst iana_cipher_suite) /\
       block_ok items /\ x = uint 2 suite ++ uint 1 comp ++ ext_block items /\ block_result grp_server_hello 4 [] items = Ok xs) _ _ _ _ _ H)).
  - destruct G as (x3 & y3 & -> & -> & sid & y & -> & Hs & suite & comp & items & Hc & Hsu & Hok & -> & Hb).
    exists (uint 2 v ++ x2 ++ vec 1 sid ++ uint 2 suite ++ uint 1 comp ++ ext_block items), y3.
    rewrite <- !app_assoc. split; [reflexivity|]. split; [reflexivity|].
    exists suite, items. split; [|exact Hb]. exists v, x2, sid, comp. split; [cbn; auto|]. split; [exact Hok|].
    cbn [frame_body]. now rewrite <- ?app_assoc.
  - intros d _. eapply acc_weaken.
    + apply acc_bind; [apply acc_map_err; apply acc_bind; [apply acc_u16|intros a; apply acc_of_code]|].
      intros cs. apply acc_bind; [apply acc_pq, acc_u8|]. intros cp. apply acc_ext_vector.
    + cbn beta. intros a x (cs & x3 & x4 & -> & (n & x5 & x6 & -> & [-> Hn] & Hcs & ->) & cp & x7 & x8 & -> & -> & items & Hok & -> & Hb).
      exists n, (Byte.to_N cp), items. split; [apply to_N_lt|].
      split. { apply in_map_iff. exists (n, cs). split; [reflexivity|]. destruct C03_cipher_suite as (_ & H2 & _). now apply H2. }
      split; [exact Hok|]. split; [|exact Hb]. rewrite <- b8_uint, app_nil_r. reflexivity.
Qed.

Lemma acc_new_session_ticket : acc parse_new_session_ticket (fun _ x => smsg_body C M_NewSessionTicket x).
Proof.
  intros pre bs xs p' H. unfold parse_new_session_ticket in H.
  apply bind_ok in H as (l & p1 & Hl & H). apply (acc_pq _ _ acc_u32) in Hl as (x1 & y1 & -> & -> & -> & Hl).
  apply bind_ok in H as (g & p2 & Hg & H). apply (acc_pq _ _ acc_u32) in Hg as (x2 & y2 & -> & -> & -> & Hg).
  refine ((fun G => _) (acc_vec1 ParseErr (fun _ => InvalidNonceLength)
    (fun _ => tl <- pq read_u16 ;; map_err (fun _ => InvalidTicketLength) (pb_slice (N.to_nat tl)) ;;;
       ext_parse_vector grp_new_session_ticket 1 ;;; ret tt)
    (fun _ _ x => exists ticket items, fits 2 ticket /\ block_ok items /\ x = vec 2 ticket ++ ext_block items) _ _ _ _ _ H)).
  - destruct G as (x3 & y3 & -> & -> & nonce & y & -> & Hs & ticket & items & Ht & Hok & ->).
    exists (uint 4 l ++ uint 4 g ++ vec 1 nonce ++ vec 2 ticket ++ ext_block items), y3. rewrite <- !app_assoc. split; [reflexivity|]. split; [reflexivity|].
    exists l, g, nonce, ticket, items. split; [cbn; auto|]. split; [exact Hok|].
    cbn [frame_body]. now rewrite <- ?app_assoc.
  - intros d _. eapply acc_weaken.
    + apply (acc_vec_n 2 read_u16 ParseErr (fun _ => InvalidTicketLength)
        (fun _ => ext_parse_vector grp_new_session_ticket 1 ;;; ret tt)
        (fun _ _ x => exists items, block_ok items /\ x = ext_block items)); [apply acc_u16|].
      intros t _. eapply acc_weaken; [apply acc_bind; [apply acc_ext_vector|intros a; apply acc_ret]|].
      cbn beta. intros u x (xs' & x3 & x4 & -> & (items & Hok & -> & _) & _ & ->). rewrite app_nil_r. eauto.
    + cbn beta. intros a x (t & y & -> & Hf & items & Hok & ->). eauto 6.
Qed.

Lemma sig_scheme_inv n s : sig_scheme_of n = Some s -> In n (map fst iana_sig_scheme) /\ sig_scheme_code s = n.
Proof.
  destruct C03_signature_scheme as (H1 & H2 & H3 & H4). intros H. apply H2 in H. split.
  - apply in_map_iff. exists (n, s). auto.
  - eapply H4; [apply H1|exact H].
Qed.

Lemma acc_msg : acc (parse_server_handshake C) (fun h x => exists sm, reads_as C x sm /\ denotes sm h).
Proof.
  intros pre bs h p' H. unfold parse_server_handshake in H.
  apply bind_ok in H as (t & p1 & Ht & H).
  assert (Ha : acc (map_err (fun _ : parse_error => InvalidHandshake) (b <- read_u8 ;; of_code (handshake_type_of (Byte.to_N b))))
    (fun a x => x = uint 1 (handshake_type_code a))).
  { apply acc_map_err. eapply acc_weaken; [apply acc_bind; [apply acc_u8|intros a; apply acc_of_code]|].
    cbn beta. intros a x (b & x1 & x2 & -> & -> & Hb & ->). cbn [app]. rewrite b8_uint.
    destruct C03_handshake_type as (H1 & H2 & H3 & H4). apply H2 in Hb. f_equal. eapply H4; [exact Hb|apply H1]. }
  apply Ha in Ht as (x1 & y1 & -> & -> & ->). clear Ha.
  apply bind_ok in H as (n & p2 & Hn & H). apply (acc_map_err _ _ _ acc_u24) in Hn as (x2 & y2 & -> & -> & -> & Hn).
  assert (Hfin : forall sm, smsg_type sm = handshake_type_code t ->
    (exists x y, y2 = x ++ y /\ p' = at_pos (((pre ++ uint 1 (handshake_type_code t)) ++ uint 3 n) ++ x) y [] /\ smsg_body C sm x /\ denotes sm h) ->
    exists x y, uint 1 (handshake_type_code t) ++ uint 3 n ++ y2 = x ++ y /\ p' = at_pos (pre ++ x) y [] /\
      exists sm, reads_as C x sm /\ denotes sm h).
  { intros sm Hty (x & y & -> & -> & Hb & Hd). exists (uint 1 (handshake_type_code t) ++ uint 3 n ++ x), y.
    rewrite <- !app_assoc. split; [reflexivity|]. split; [reflexivity|]. exists sm. split; [|exact Hd].
    exists (uint 3 n), x. rewrite Hty. split; [apply uint_length|]. auto. }
  destruct t; try (exfalso; revert H; discriminate).
  - (* ServerHello *)
    apply bind_ok in H as (xs & p3 & Hx & H). unfold ret in H. apply pair_equal_spec in H as [H <-]. injection H as <-.
    apply acc_server_hello in Hx as (x & y & -> & -> & suite & items & Hb & Hr).
    apply (Hfin (M_ServerHello suite items) eq_refl). exists x, y. auto.
  - apply bind_ok in H as (xs & p3 & Hx & H). unfold ret in H. apply pair_equal_spec in H as [H <-]. injection H as <-.
    apply acc_new_session_ticket in Hx as (x & y & -> & -> & Hb). apply (Hfin M_NewSessionTicket eq_refl). exists x, y. cbn. auto.
  - apply bind_ok in H as (xs & p3 & Hx & H). unfold ret in H. apply pair_equal_spec in H as [H <-]. injection H as <-.
    unfold parse_encrypted_extensions in Hx. apply bind_ok in Hx as (es & p4 & He & Hx). unfold ret in Hx. apply pair_equal_spec in Hx as [_ <-].
    apply acc_ext_vector in He as (x & y & -> & -> & items & Hok & -> & _).
    apply (Hfin (M_EncryptedExtensions items) eq_refl). exists (ext_block items), y. cbn. auto 6.
  - apply bind_ok in H as (c & p3 & Hx & H). unfold ret in H. apply pair_equal_spec in H as [H <-]. injection H as <-.
    apply acc_certificate in Hx as (x & y & -> & -> & ctx & raw & ens & F1 & F2 & F3 & F4 & -> & ->).
    apply (Hfin (M_Certificate ctx raw (map fst ens)) eq_refl). exists (vec 1 ctx ++ vec 3 raw), y.
    split; [reflexivity|]. split; [reflexivity|]. split; [|reflexivity]. exists ens. auto 8.
  - apply bind_ok in H as (c & p3 & Hx & H). unfold ret in H. apply pair_equal_spec in H as [H <-]. injection H as <-.
    unfold parse_certificate_request in Hx.
    refine ((fun G => _) (acc_vec1 (fun _ => InvalidCertificateRequest) (fun _ => InvalidCertificateRequest)
      (fun ctx => ext_parse_vector grp_cert_request 6 ;;; ret (pb_as_slice ctx))
      (fun d c x => c = d /\ exists items, block_ok items /\ x = ext_block items) _ _ _ _ _ Hx)).
    + destruct G as (x & y & -> & -> & ctx & y' & -> & Hf & -> & items & Hok & ->).
      apply (Hfin (M_CertificateRequest ctx items) eq_refl). exists (vec 1 ctx ++ ext_block items), y. cbn. auto 8.
    + intros d _. eapply acc_weaken; [apply acc_bind; [apply acc_ext_vector|intros a; apply acc_ret]|].
      cbn beta. intros u x (xs' & x3 & x4 & -> & (items & Hok & -> & _) & -> & ->). rewrite app_nil_r. cbn. eauto.
  - apply bind_ok in H as (c & p3 & Hx & H). unfold ret in H. apply pair_equal_spec in H as [H <-]. injection H as <-.
    unfold parse_certificate_verify in Hx. apply bind_ok in Hx as (s & p4 & Hs & Hx).
    assert (Ha : acc (map_err (fun _ : parse_error => InvalidSignatureScheme) parse_sig_scheme)
      (fun a x => exists n, x = uint 2 n /\ sig_scheme_of n = Some a)).
    { apply acc_map_err. unfold parse_sig_scheme. eapply acc_weaken; [apply acc_bind; [apply acc_u16|intros a; apply acc_of_code]|].
      cbn beta. intros a x (b & x1 & x2 & -> & [-> _] & Hb & ->). rewrite app_nil_r. eauto. }
    apply Ha in Hs as (x1 & y1 & -> & -> & sn & -> & Hsn). apply sig_scheme_inv in Hsn as [Hin Hcode].
    refine ((fun G => _) (acc_vec_n 2 read_u16 (fun _ => InvalidSignature) (fun _ => InvalidSignature)
      (fun sig => ret (mk_cv s (pb_as_slice sig)))
      (fun d c x => c = mk_cv s d /\ x = []) _ _ _ _ _ _ Hx)).
    + destruct G as (x & y & -> & -> & sig & y' & -> & Hf & -> & ->). rewrite (app_nil_r (vec 2 sig)) in *.
      apply (Hfin (M_CertificateVerify sn sig) eq_refl). exists (uint 2 sn ++ vec 2 sig), y. rewrite <- !app_assoc.
      split; [reflexivity|]. split; [reflexivity|]. cbn. auto.
    + apply acc_u16.
    + intros d _. apply acc_ret.
  - apply bind_ok in H as (c & p3 & Hx & H). unfold ret in H. apply pair_equal_spec in H as [H <-]. injection H as <-.
    unfold parse_finished in Hx. apply bind_ok in Hx as (v & p4 & Hv & Hx). unfold ret in Hx. apply pair_equal_spec in Hx as [Hx <-]. injection Hx as <-.
    apply (acc_pq _ _ (acc_take _)) in Hv as (x & y & -> & -> & -> & Hl).
    apply (Hfin (M_Finished x) eq_refl). exists x, y. cbn. auto.
Qed.

(** Reading one message and adding it to the transcript. *)
Lemma acc_read tr pre bs h tr' p' : read_server_handshake C tr (at_pos pre bs []) = (Ok (h, tr'), p') ->
  exists x y sm, bs = x ++ y /\ p' = at_pos (pre ++ x) y [] /\ reads_as C x sm /\ denotes sm h /\ tr' = tr ++ x /\
    (forall f, h = SH_Finished f -> f_hash f = Some (c_hash C tr)).
Proof.
  intros H. unfold read_server_handshake in H. unfold bind at 1, gets at 1 in H.
  apply bind_ok in H as (h0 & p1 & H0 & H). apply acc_msg in H0 as (x & y & -> & -> & sm & Hr & Hd).
  unfold bind at 1, gets at 1 in H. unfold bind at 1, gets at 1 in H.
  apply bind_ok in H as (msg & p2 & Hm & H). unfold lift in Hm. apply pair_equal_spec in Hm as [Hm <-].
  unfold ret in H. apply pair_equal_spec in H as [H <-].
  assert (Hmsg : msg = x).
  { unfold at_pos, pb_offset, pb_as_slice in Hm. cbn [pb_pos pb_buf] in Hm. rewrite app_nil_r in Hm.
    apply slice_rng_inv in Hm as (_ & _ & ->). unfold sub. rewrite app_length.
    replace (length pre + length x - length pre) with (length x) by lia.
    rewrite <- app_assoc, skipn_app, Nat.sub_diag, skipn_all2, skipn_O by lia. cbn [app].
    rewrite firstn_app, firstn_all2, Nat.sub_diag by lia. cbn [firstn]. apply app_nil_r. }
  subst msg. apply (f_equal (fun o => match o with Ok a => a | _ => (h, tr') end)) in H.
  apply pair_equal_spec in H as [<- <-]. exists x, y, sm. split; [reflexivity|]. split; [reflexivity|]. split; [exact Hr|].
  destruct h0; (split; [try exact Hd|split; [reflexivity|]]); intros f0 Hf; try discriminate.
  injection Hf as <-. reflexivity.
Qed.

(** The shape of the share the client uses. *)
Lemma share_of_block items xs g share : block_result grp_server_hello 4 [] items = Ok xs ->
  sh_key_share xs = Some (g, share) -> share_of items (named_group_code g) share.
Proof.
  assert (G : forall items acc0 xs, block_result grp_server_hello 4 acc0 items = Ok xs -> sh_key_share acc0 = None ->
    sh_key_share xs = Some (g, share) -> share_of items (named_group_code g) share).
  { clear items xs. induction items as [|[t b] items IH]; intros acc0 xs H Ha Hs; cbn [block_result] in H.
    - congruence.
    - assert (Hskip : t <> 51%N -> share_of items (named_group_code g) share -> share_of ((t, b) :: items) (named_group_code g) share).
      { intros Ht (pre & post & junk & -> & Hp & Hg & Hf). exists ((t, b) :: pre), post, junk. split; [reflexivity|]. split; [now constructor|auto]. }
      destruct (ext_type_of t) as [ty|] eqn:Et.
      2:{ apply Hskip; [intros ->; discriminate|]. eapply IH; eauto. }
      destruct (grp_server_hello ty) as [m|] eqn:Eg; [|discriminate].
      destruct (fst (m (pb_new b))) as [x|e|s| |] eqn:Em; try discriminate.
      destruct (length acc0 <? 4); [|discriminate].
      assert (Hcode : ext_type_code ty = t).
      { destruct C03_extension_type as (H1 & H2 & H3 & H4). apply H2 in Et. eapply H4; [apply H1|exact Et]. }
      assert (Happ : forall a e, sh_key_share a = None -> sh_key_share (a ++ [e]) = sh_key_share [e]).
      { induction a as [|a0 a IHa]; intros e Hn; [reflexivity|]. cbn [app sh_key_share] in *.
        destruct (x_data a0); try discriminate; now apply IHa. }
      destruct (sh_key_share (acc0 ++ [mk_ext ty x])) as [gs|] eqn:Ek.
      + (* this is the key share *)
        assert (Hfirst : forall items a xs, block_result grp_server_hello 4 a items = Ok xs -> sh_key_share a = Some gs -> sh_key_share xs = Some gs).
        { clear. induction items as [|[t b] items IH]; intros a xs H Ha; cbn [block_result] in H; [congruence|].
          destruct (ext_type_of t) as [ty|]; [|eauto]. destruct (grp_server_hello ty) as [m|]; [|discriminate].
          destruct (fst (m (pb_new b))) as [x|e|s| |]; try discriminate. destruct (length a <? 4); [|discriminate].
          eapply IH; [exact H|]. clear - Ha. induction a as [|a0 a IHa]; [discriminate|]. cbn [app sh_key_share] in *.
          destruct (x_data a0); auto. }
        rewrite (Hfirst _ _ _ H Ek) in Hs. rewrite (Happ _ _ Ha) in Ek. cbn [sh_key_share x_data] in Ek.
        destruct x; try discriminate. injection Ek as <-. injection Hs as -> ->.
        destruct ty; try discriminate; cbn in Eg; injection Eg as <-;
          try (exfalso; revert Em; clear; unfold parse_psk_sh, parse_unimpl, parse_version_sh, bind, gets, ret; try (destruct (read_u16 _) as [[]]); discriminate).
        cbn in Hcode. subst t.
        destruct (parse_key_share_sh (pb_new b)) as [o q] eqn:Ep. cbn [fst] in Em. subst o.
        unfold parse_key_share_sh in Ep. apply bind_ok in Ep as ([g1 o1] & q1 & Ep & Er). unfold ret in Er. apply pair_equal_spec in Er as [Er <-].
        injection Er as -> ->. rewrite pb_new_at in Ep. unfold parse_key_share_entry in Ep.
        apply bind_ok in Ep as (g2 & q2 & Eg & Ep). unfold parse_named_group in Eg.
        apply bind_ok in Eg as (gn & q3 & En & Eg). apply acc_u16 in En as (x1 & y1 & -> & -> & -> & _).
        apply acc_of_code in Eg as (x2 & y2 & -> & -> & Hgo & ->).
        apply bind_ok in Ep as (n & q4 & En & Ep). apply acc_u16 in En as (x3 & y3 & -> & -> & -> & Hn).
        apply bind_ok in Ep as (d & q5 & Ed & Ep). apply acc_slice in Ed as (x4 & y4 & -> & -> & -> & Hl).
        unfold ret in Ep. apply pair_equal_spec in Ep as [Ep _]. injection Ep as <- <-.
        destruct C03_named_group as (H1 & H2 & H3 & H4). apply H2 in Hgo.
        assert (Hgn : gn = named_group_code g2) by (eapply H4; [exact Hgo|apply H1]). subst gn.
        exists [], items, y4. cbn [app]. split.
        { f_equal. f_equal. unfold pb_as_slice, pb_new. cbn [pb_buf]. unfold vec. rewrite Hl, N2Nat.id, <- !app_assoc. reflexivity. }
        split; [constructor|]. split; [apply in_map_iff; exists (named_group_code g2, g2); auto|]. apply fits_2. unfold pb_as_slice, pb_new. cbn [pb_buf]. lia.
      + apply Hskip; [|eapply IH; eauto]. intros ->. destruct ty; try discriminate. cbn in Eg. injection Eg as <-.
        rewrite (Happ _ _ Ha) in Ek. revert Ek. cbn [sh_key_share x_data].
        destruct (parse_key_share_sh (pb_new b)) as [o q] eqn:Ep. cbn [fst] in Em. subst o.
        unfold parse_key_share_sh in Ep. apply bind_ok in Ep as ([g1 o1] & q1 & Ep & Er). unfold ret in Er. apply pair_equal_spec in Er as [Er <-].
        injection Er as <-. discriminate. }
  intros H. now apply (G items [] xs H).
Qed.
End Messages.
