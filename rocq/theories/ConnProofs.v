(** * From [open] to a working connection; [close]; whole histories *)
From Coq Require Import List NArith Arith Bool Lia ZArith.
From Coq.Strings Require Import Byte.
From Coq Require Import ZifyBool ZifyNat ZifyN.
From Verif Require Import Base Buffer Codes Extensions Crypto KeySchedule Config Handshake Record WriteBuffer
  Transport RecordReader ReadBuffer Connection Api
  BaseProofs SpecWire WireProofs BufferProofs SpecKeys KeyProofs WriteProofs SpecRecord RecordProofs SpecSend SendProofs
  SpecHello HsWrite HsProofs.
Import ListNotations.

Ltac Zify.zify_post_hook ::= Z.div_mod_to_equations.

Lemma established_facts C L c : crypto_ok C -> established C L c ->
  idle C L c /\ k_counter (wst (cn_wh c)) = 0%N /\ cn_opened c = true /\ wh_policy (cn_wh c) = Strict /\
  cn_dec c = dec_default /\ k_counter (r_state (rd_ks (cn_rd c))) = 0%N /\
  length (k_iv (r_state (rd_ks (cn_rd c)))) = iv_len C.
Proof.
  intros HC (V & p & cfg & v & rbuf & wbuf & rx & tx & c0 & _ & Hn & HL & Ho).
  destruct (cn_new_idle C _ _ _ _ _ Hn) as (Hid & _ & Hpol & _ & Hdec & _). rewrite HL in Hid.
  destruct (open_ok C p cfg L v c0 tt c HC Hid Ho) as (v' & c1 & h' & _ & Hr & ->).
  destruct (hrun_inv C p cfg L _ _ _ _ _ HC Hid Hr) as (Hid1 & _ & Hd1 & Hp1).
  destruct (hrun_fresh C p cfg L _ _ _ _ _ HC Hid Hr) as (Hc1 & Hc2 & Hc3); [discriminate|].
  unfold set_opened. cbn [cn_wh cn_opened cn_dec cn_rd]. split; [exact Hid1|]. repeat split; congruence.
Qed.

Lemma established_sending C L c : crypto_ok C -> 133 <= L -> established C L c -> sending C L (cn_wh c) None.
Proof.
  intros HC HL He. destruct (established_facts C L c HC He) as ((Hp & Hiv) & _). split; [exact HL|].
  split; [exact Hiv|exact Hp].
Qed.

(** ** Histories without close *)

Lemma run_sending C L : crypto_ok C -> forall ops c pend, sending C L (cn_wh c) pend ->
  forallb (fun o => negb (is_close o)) ops = true ->
  exists pend', sending C L (cn_wh (snd (run C ops c))) pend'.
Proof.
  intros HC. induction ops as [|o ops IH]; intros c pend Hs Hcl; [now exists pend|].
  cbn [forallb] in Hcl. apply andb_prop in Hcl as [Hc1 Hcl]. apply negb_true_iff in Hc1.
  destruct (step C o c) as [r c1] eqn:E. rewrite (run_cons' _ _ _ _ _ _ E).
  destruct (step_send C L o c r c1 pend HC Hs Hc1 E) as (pend1 & Hs1 & _).
  destruct (stops o r); [now exists pend1|]. cbn [snd]. eapply IH; eauto.
Qed.

Lemma used_sending C L c : crypto_ok C -> 133 <= L -> used C L c -> exists pend, sending C L (cn_wh c) pend.
Proof.
  intros HC HL (c0 & ops & He & Hcl & ->). eapply run_sending; eauto. now apply established_sending.
Qed.

(** ** Close *)

(** What [close] sends last. *)
Definition notify (opened : bool) (m : N) (k : nat) : handed :=
  if opened then H_rec m ty_alert [x01; x00] k
  else H_plain [x14; x03; x01; x00; x02; x01; x00] k.

Definition ev_full (C : crypto) (key iv : bytes) (h : handed) : nat :=
  match ev C key iv h with TxWrite b _ => length b | TxFlush => 0 end.
Definition ev_sent (h : handed) : nat := match h with H_rec _ _ _ k | H_plain _ k => k | H_flush => 0 end.

Inductive close_log (C : crypto) (L : nat) (w : whalf) (opened : bool) (pend : option bytes)
  : outcome tls_error unit -> list handed -> Prop :=
| cl_flush_fails o k : content pend <> [] \/ pend <> None ->
    k <= ev_full C (k_key (wst w)) (k_iv (wst w)) (H_rec (k_counter (wst w)) ty_data (content pend) k) ->
    133 + length (content pend) <= L ->
    (io_fault o /\ ~ wr_ok (wh_tx w) \/ (u64_max <= k_counter (wst w))%N /\ o = Panic PUnwrap) ->
    close_log C L w opened pend o [H_rec (k_counter (wst w)) ty_data (content pend) k]
| cl_flush_cut o hs m : io_fault o -> ~ tx_ok (wh_tx w) ->
    clean C (k_key (wst w)) (k_iv (wst w)) L (k_counter (wst w)) hs m ->
    app_data (contents hs) = content pend ->
    close_log C L w opened pend o hs
| cl_notify o hs m k fl :
    clean C (k_key (wst w)) (k_iv (wst w)) L (k_counter (wst w)) hs m ->
    app_data (contents hs) = content pend -> (pend = None -> hs = []) -> (forall pl, pend = Some pl -> contents hs = [(ty_data, pl)]) ->
    k <= ev_full C (k_key (wst w)) (k_iv (wst w)) (notify opened m k) ->
    (o = Ok tt /\ k = ev_full C (k_key (wst w)) (k_iv (wst w)) (notify opened m k) /\ fl = [H_flush] /\ (m < u64_max)%N
     \/ fl = [] /\ (io_fault o /\ ~ tx_ok (wh_tx w) \/ o = Panic PUnwrap /\ (u64_max <= m)%N)) ->
    (io_fault o -> fl = [] -> wr_ok (wh_tx w) -> k = ev_full C (k_key (wst w)) (k_iv (wst w)) (notify opened m k)) ->
    close_log C L w opened pend o (hs ++ notify opened m k :: fl).

Lemma notify_ev C key iv opened (k : kstate) n : k_key k = key -> k_iv k = iv ->
  TxWrite (rec_wire C (cr_close_notify opened) k (alert_wire AL_Warning AD_CloseNotify)) n
  = ev C key iv (notify opened (k_counter k) n).
Proof. intros <- <-. destruct opened; reflexivity. Qed.

(** The second half: the alert, on an idle buffer. *)
Lemma close_alert C L c : crypto_ok C -> sending C L (cn_wh c) None ->
  let w := cn_wh c in
  let m := k_counter (wst w) in
  exists b, wb_hdr b = None /\
  (s <- cn_write_record C (cr_close_notify (cn_opened c)) ;;
   on_wh (on_tx (tx_write_all s)) ;;; on_wh wh_increment ;;; on_wh (on_tx tx_flush)) c
  = let '(o, w') := send (rec_wire C (cr_close_notify (cn_opened c)) (wst w) (alert_wire AL_Warning AD_CloseNotify)) true
                      (mk_whalf b (wh_ks w) (wh_tx w) (wh_policy w)) in
    (o, mk_conn (cn_rd c) (cn_dec c) w' (cn_shared c) (cn_opened c)).
Proof.
  intros HC (HL & Hiv & Hlen & Hp & Hh) w m.
  set (s := rec_wire C (cr_close_notify (cn_opened c)) (wst w) (alert_wire AL_Warning AD_CloseNotify)).
  assert (Hw : exists b, wb_write_record C (cr_close_notify (cn_opened c)) (wh_ks w) (tr_of c) (wh_wb w)
     = (Ok (s, tr_of c), b) /\ wb_hdr b = None).
  { subst w. rewrite (wbuf_eta (wh_wb (cn_wh c))), Hp, Hh. unfold s, rec_wire.
    destruct (cn_opened c).
    - erewrite write_record_protected; [|exact HC|exact Hiv|apply encodes_alert|reflexivity|reflexivity|reflexivity|cbn; lia].
      rewrite protected_record_rfc, trailer_type by assumption. eexists. split; reflexivity.
    - erewrite write_record_plain; [|apply encodes_alert|reflexivity|reflexivity|reflexivity|cbn; lia].
      rewrite plain_wire by reflexivity. eexists. split; reflexivity. }
  destruct Hw as (b & Hw & Hb). exists b. split; [exact Hb|].
  unfold bind at 1. unfold cn_write_record. unfold bind at 1, get at 1. unfold bind at 1, on_wh at 1, on_wb at 1.
  fold w. unfold tr_of in Hw. rewrite Hw. cbn [snd fst]. unfold bind at 1, on_rd, set_transcript, modify at 1. unfold ret at 1.
  cbn [cn_rd cn_dec cn_wh cn_shared cn_opened].
  replace (mk_rdst _ _ _ _ _) with (cn_rd c) by (destruct (cn_rd c) as [? ? ? ? []]; reflexivity).
  unfold send, bind, on_wh. cbn [cn_rd cn_dec cn_wh cn_shared cn_opened].
  destruct (on_tx (tx_write_all s) _) as [[u| | | |] w1]; try reflexivity.
  cbn [cn_rd cn_dec cn_wh cn_shared cn_opened].
  destruct (wh_increment w1) as [[u1| | | |] w2]; try reflexivity.
Qed.

Lemma notify_full C key iv op m k k' : ev_full C key iv (notify op m k) = ev_full C key iv (notify op m k').
Proof. destruct op; reflexivity. Qed.

Lemma close_spec C L c pend r c' : crypto_ok C -> sending C L (cn_wh c) pend -> cn_close C c = (r, c') ->
  exists hs, log_of (cn_wh c') = log_of (cn_wh c) ++ map (ev C (k_key (wst (cn_wh c))) (k_iv (wst (cn_wh c)))) hs /\
    close_log C L (cn_wh c) (cn_opened c) pend r hs /\ cn_rd c' = cn_rd c /\ cn_opened c' = cn_opened c.
Proof.
  intros HC Hs Hcl.
  assert (Halert : forall cc hs m, sending C L (cn_wh cc) None -> cn_opened cc = cn_opened c -> cn_rd cc = cn_rd c ->
    k_key (wst (cn_wh cc)) = k_key (wst (cn_wh c)) -> k_iv (wst (cn_wh cc)) = k_iv (wst (cn_wh c)) ->
    k_counter (wst (cn_wh cc)) = m ->
    (tx_ok (wh_tx (cn_wh c)) -> tx_ok (wh_tx (cn_wh cc))) -> (wr_ok (wh_tx (cn_wh c)) -> wr_ok (wh_tx (cn_wh cc))) ->
    log_of (cn_wh cc) = log_of (cn_wh c) ++ map (ev C (k_key (wst (cn_wh c))) (k_iv (wst (cn_wh c)))) hs ->
    clean C (k_key (wst (cn_wh c))) (k_iv (wst (cn_wh c))) L (k_counter (wst (cn_wh c))) hs m ->
    app_data (contents hs) = content pend -> (pend = None -> hs = []) -> (forall pl, pend = Some pl -> contents hs = [(ty_data, pl)]) ->
    (s <- cn_write_record C (cr_close_notify (cn_opened cc)) ;;
     on_wh (on_tx (tx_write_all s)) ;;; on_wh wh_increment ;;; on_wh (on_tx tx_flush)) cc = (r, c') ->
    exists hs, log_of (cn_wh c') = log_of (cn_wh c) ++ map (ev C (k_key (wst (cn_wh c))) (k_iv (wst (cn_wh c)))) hs /\
    close_log C L (cn_wh c) (cn_opened c) pend r hs /\ cn_rd c' = cn_rd c /\ cn_opened c' = cn_opened c).
  { intros cc hs m Hss Hop Hrd Hk Hi Hm Htx Hwr Hlog Hclean Hdata Hp1 Hp2 Hrun.
    destruct (close_alert C L cc HC Hss) as (b & _ & He). rewrite He in Hrun. clear He.
    set (s := rec_wire _ _ _ _) in Hrun.
    destruct (send_cases s true (mk_whalf b (wh_ks (cn_wh cc)) (wh_tx (cn_wh cc)) (wh_policy (cn_wh cc))))
      as (o1 & w' & Hse & Hsent & _). rewrite Hse in Hrun. inversion Hrun. subst o1 c'. clear Hrun Hse.
    cbn [cn_wh cn_rd cn_opened].
    assert (Hev : forall n, TxWrite s n = ev C (k_key (wst (cn_wh c))) (k_iv (wst (cn_wh c))) (notify (cn_opened c) m n)).
    { intros n. rewrite <- Hop, <- Hm. apply notify_ev; assumption. }
    assert (Hfull : forall n, ev_full C (k_key (wst (cn_wh c))) (k_iv (wst (cn_wh c))) (notify (cn_opened c) m n) = length s).
    { intros n. unfold ev_full. now rewrite <- Hev. }
    assert (Hm' : k_counter (wst (mk_whalf b (wh_ks (cn_wh cc)) (wh_tx (cn_wh cc)) (wh_policy (cn_wh cc)))) = m) by exact Hm.
    change (log_of (mk_whalf b (wh_ks (cn_wh cc)) (wh_tx (cn_wh cc)) (wh_policy (cn_wh cc)))) with (log_of (cn_wh cc)) in Hsent.
    assert (G : forall n fl, log_of w' = log_of (cn_wh cc) ++ TxWrite s n :: map (ev C (k_key (wst (cn_wh c))) (k_iv (wst (cn_wh c)))) fl ->
      close_log C L (cn_wh c) (cn_opened c) pend r (hs ++ notify (cn_opened c) m n :: fl) ->
      exists hs0, log_of w' = log_of (cn_wh c) ++ map (ev C (k_key (wst (cn_wh c))) (k_iv (wst (cn_wh c)))) hs0 /\
        close_log C L (cn_wh c) (cn_opened c) pend r hs0 /\ cn_rd cc = cn_rd c /\ cn_opened cc = cn_opened c).
    { intros n fl Hl Hc. exists (hs ++ notify (cn_opened c) m n :: fl). split; [|auto].
      rewrite Hl, Hlog, map_app, <- app_assoc. cbn [map]. now rewrite Hev. }
    inversion Hsent as [o2 n Hio Hn Hnok Hks Hl Eo|Hcnt Hks Hl Eo|Hcnt Hks Hl Eo|o2 Hcnt Hks Hio Hst Hnok Hl Eo]; subst.
    - apply (G n []); [exact Hl|]. refine (cl_notify _ _ _ _ _ _ hs _ n [] Hclean Hdata Hp1 Hp2 _ _ _).
      + rewrite Hfull. exact Hn.
      + right. split; [reflexivity|]. left. split; [exact Hio|]. intros Hx. apply Hnok. exact (proj1 (Htx Hx)).
      + intros _ _ Hw. exfalso. apply Hnok. cbn [wh_tx]. auto.
    - apply (G (length s) []); [exact Hl|]. refine (cl_notify _ _ _ _ _ _ hs _ (length s) [] Hclean Hdata Hp1 Hp2 _ _ _).
      + rewrite Hfull. apply le_n.
      + right. split; [reflexivity|]. right. split; [reflexivity|]. exact Hcnt.
      + intros _ _ _. now rewrite Hfull.
    - apply (G (length s) [H_flush]); [exact Hl|]. refine (cl_notify _ _ _ _ _ _ hs _ (length s) _ Hclean Hdata Hp1 Hp2 _ _ _).
      + rewrite Hfull. apply le_n.
      + left. rewrite Hfull. auto.
      + intros _ _ _. now rewrite Hfull.
    - apply (G (length s) []); [exact Hl|]. refine (cl_notify _ _ _ _ _ _ hs _ (length s) [] Hclean Hdata Hp1 Hp2 _ _ _).
      + rewrite Hfull. apply le_n.
      + right. split; [reflexivity|]. left. split; [exact Hio|]. intros Hx. apply Hnok. exact (Htx Hx).
      + intros _ _ _. now rewrite Hfull. }
  unfold cn_close in Hcl. unfold bind at 1 in Hcl. unfold cn_flush, on_wh at 1 in Hcl.
  destruct pend as [pl|].
  - destruct (flush_pending C L (cn_wh c) pl HC Hs) as (b & Hev & Hb).
    assert (Hfit : 133 + length pl < L) by (destruct Hs as (_ & _ & _ & _ & _ & Hfit & _); exact Hfit).
    rewrite Hev in Hcl. clear Hev.
    set (w1 := mk_whalf b (wh_ks (cn_wh c)) (wh_tx (cn_wh c)) (wh_policy (cn_wh c))) in *.
    destruct (send_cases (data_record C (cn_wh c) pl) (policy_flush_transport (wh_policy (cn_wh c))) w1)
      as (o1 & w' & Hse & Hsent & Hwb & Hpol & Htx & Hwr). rewrite Hse in Hcl. clear Hse.
    change (log_of w1) with (log_of (cn_wh c)) in Hsent.
    set (n := k_counter (wst (cn_wh c))) in *.
    inversion Hsent as [o2 k Hio Hn Hnok Hks Hl Eo|Hcnt Hks Hl Eo|Hcnt Hks Hl Eo|o2 Hcnt Hks Hio Hst Hnok Hl Eo].
    + subst o2. exists [H_rec n ty_data pl k].
      assert (Hr : r = o1 /\ c' = mk_conn (cn_rd c) (cn_dec c) w' (cn_shared c) (cn_opened c)).
      { destruct Hio as [[e ->]| ->]; now inversion Hcl. }
      destruct Hr as [-> ->]. cbn [cn_wh cn_rd cn_opened]. split; [exact Hl|]. split; [|auto].
      change pl with (content (Some pl)) at 2. apply cl_flush_fails; [right; discriminate|exact Hn|cbn; lia|left; auto].
    + subst o1. exists [H_rec n ty_data pl (length (data_record C (cn_wh c) pl))].
      inversion Hcl. subst r c'. cbn [cn_wh cn_rd cn_opened]. split; [exact Hl|]. split; [|auto].
      change pl with (content (Some pl)) at 2. apply cl_flush_fails; [right; discriminate|unfold ev_full; cbn; apply le_n|cbn; lia|right; auto].
    + subst o1.
      set (hs := H_rec n ty_data pl (length (data_record C (cn_wh c) pl)) :: (if policy_flush_transport (wh_policy (cn_wh c)) then [H_flush] else [])).
      unfold bind at 1, get at 1 in Hcl. cbn [cn_opened] in Hcl.
      eapply (Halert (mk_conn (cn_rd c) (cn_dec c) w' (cn_shared c) (cn_opened c)) hs (n + 1)%N); cbn [cn_wh cn_opened cn_rd]; auto.
      * destruct Hs as (HL & Hiv & _). split; [exact HL|]. split; [unfold wst; rewrite Hks; exact Hiv|now rewrite Hwb].
      * unfold wst. now rewrite Hks.
      * unfold wst. now rewrite Hks.
      * unfold wst. now rewrite Hks.
      * rewrite Hl. unfold hs. cbn [map]. f_equal. f_equal. now destruct (policy_flush_transport _).
      * unfold hs. apply clean_rec; [lia|exact Hcnt|]. destruct (policy_flush_transport _); repeat constructor.
      * unfold hs. destruct (policy_flush_transport _); cbn; now rewrite app_nil_r.
      * discriminate.
      * intros pl0 E. inversion E. subst pl0. unfold hs. now destruct (policy_flush_transport _).
    + subst o2. exists [H_rec n ty_data pl (length (data_record C (cn_wh c) pl))].
      assert (Hr : r = o1 /\ c' = mk_conn (cn_rd c) (cn_dec c) w' (cn_shared c) (cn_opened c)).
      { destruct Hio as [[e ->]| ->]; now inversion Hcl. }
      destruct Hr as [-> ->]. cbn [cn_wh cn_rd cn_opened]. split; [exact Hl|]. split; [|auto].
      eapply (cl_flush_cut _ _ _ _ _ _ _ (n + 1)%N); [exact Hio|exact Hnok| |cbn; now rewrite app_nil_r].
      apply clean_rec; [cbn; lia|exact Hcnt|constructor].
  - rewrite (flush_idle C L) in Hcl by exact Hs. unfold bind at 1, get at 1 in Hcl. cbn [cn_opened] in Hcl.
    assert (Hc : mk_conn (cn_rd c) (cn_dec c) (cn_wh c) (cn_shared c) (cn_opened c) = c) by now destruct c.
    rewrite Hc in Hcl.
    eapply (Halert c [] (k_counter (wst (cn_wh c)))); eauto; [cbn [map]; now rewrite app_nil_r|constructor|discriminate].
Qed.

(** ** Splitting a history at its close *)

Lemma run_split C : forall ops c rs c', run C ops c = (rs, c') ->
  exists ops1, forallb (fun o => negb (is_close o)) ops1 = true /\
   (run C ops1 c = (rs, c') \/
    exists rs1 c1 r, run C ops1 c = (rs1, c1) /\ step C OpClose c1 = (r, c') /\ rs = rs1 ++ [(OpClose, r)] /\
      Forall (fun p => stops (fst p) (snd p) = false) rs1).
Proof.
  induction ops as [|o ops IH]; intros c rs c' H.
  - exists []. split; [reflexivity|]. now left.
  - destruct (step C o c) as [r c1] eqn:E. rewrite (run_cons' _ _ _ _ _ _ E) in H.
    destruct (is_close o) eqn:Ec.
    + destruct o; try discriminate. cbn [stops] in H. inversion H. subst.
      exists []. split; [reflexivity|]. right. exists [], c, r. repeat split; auto.
    + destruct (stops o r) eqn:Es.
      * inversion H. subst. exists [o]. cbn [forallb]. rewrite Ec. split; [reflexivity|]. left.
        rewrite (run_cons' _ _ _ _ _ _ E), Es. reflexivity.
      * destruct (run C ops c1) as [rs2 c2] eqn:E2. cbn [fst snd] in H. inversion H. subst.
        destruct (IH _ _ _ E2) as (ops1 & Hc & [Hr|(rs1 & c3 & r3 & Hr & Hs & Hrs & Hst)]).
        -- exists (o :: ops1). cbn [forallb]. rewrite Ec. split; [exact Hc|]. left.
           rewrite (run_cons' _ _ _ _ _ _ E), Es, Hr. reflexivity.
        -- exists (o :: ops1). cbn [forallb]. rewrite Ec. split; [exact Hc|]. right.
           exists ((o, r) :: rs1), c3, r3. rewrite (run_cons' _ _ _ _ _ _ E), Es, Hr. cbn [fst snd].
           split; [reflexivity|]. split; [exact Hs|]. split; [now rewrite Hrs|]. constructor; auto.
Qed.

Lemma run_app C : forall ops1 ops2 c rs1 c1, run C ops1 c = (rs1, c1) ->
  Forall (fun p => stops (fst p) (snd p) = false) rs1 ->
  run C (ops1 ++ ops2) c = (rs1 ++ fst (run C ops2 c1), snd (run C ops2 c1)).
Proof.
  induction ops1 as [|o ops1 IH]; intros ops2 c rs1 c1 H Hst.
  - inversion H. subst. cbn. now destruct (run C ops2 c1).
  - destruct (step C o c) as [r c2] eqn:E. rewrite (run_cons' _ _ _ _ _ _ E) in H.
    cbn [app]. rewrite (run_cons' _ _ _ _ _ _ E). destruct (stops o r) eqn:Es.
    + inversion H. subst. inversion Hst. cbn [fst snd] in *. congruence.
    + destruct (run C ops1 c2) as [rs2 c3] eqn:E2. cbn [fst snd] in H. inversion H. subst.
      inversion Hst. subst. rewrite (IH ops2 _ _ _ E2) by assumption. reflexivity.
Qed.

Lemma step_close_eq C c r c' : step C OpClose c = (r, c') ->
  exists r0, cn_close C c = (r0, c') /\
   (r0 = Ok tt /\ r = Ok VUnit \/ (forall u, r0 <> Ok u) /\ (io_fault r0 <-> io_fault r) /\ (r0 = Panic PUnwrap -> r = Panic PUnwrap)).
Proof.
  cbn [step]. unfold bind, ret. destruct (cn_close C c) as [o c1]. intros H.
  destruct o as [[]|e|x| |]; inversion H; subst; eexists; (split; [reflexivity|]);
    (left; split; reflexivity) || (right; split; [discriminate|]; split; [|intros E; inversion E; reflexivity]; unfold io_fault; split; intros [[k E]|E]; try discriminate;
      (now right) || (left; exists k; now inversion E)).
Qed.

(** ** Every record of a history *)

(** An event allowed on a connection with a write buffer of [L] bytes. *)
Definition rec_fits (C : crypto) (key iv : bytes) (L : nat) (h : handed) : Prop :=
  match h with
  | H_rec n ty c k => (ty = ty_data /\ 133 + length c <= L \/ ty = ty_alert /\ c = [x01; x00]) /\
      (n <= u64_max)%N /\ k <= length (rfc_record C key iv n ty c 0)
  | H_plain b k => b = [x14; x03; x01; x00; x02; x01; x00] /\ k <= 7
  | H_flush => True
  end.

Lemma clean_fits C key iv L n l m : clean C key iv L n l m -> Forall (rec_fits C key iv L) l.
Proof.
  induction 1; constructor; auto; [exact I|]. split; [auto|]. split; [lia|apply le_n].
Qed.

Lemma notify_fits C key iv L op m k : (m <= u64_max)%N -> k <= ev_full C key iv (notify op m k) ->
  rec_fits C key iv L (notify op m k).
Proof.
  intros Hm Hk. destruct op; cbn in *; [|auto]. split; [auto|]. split; [exact Hm|exact Hk].
Qed.

Lemma close_log_fits C L w op pend r hs : close_log C L w op pend r hs -> (k_counter (wst w) <= u64_max)%N ->
  Forall (rec_fits C (k_key (wst w)) (k_iv (wst w)) L) hs.
Proof.
  intros H Hm. destruct H as [o k Hp Hk Hl Ho|o hs m Hio Htx Hcl Hd|o hs m k fl Hcl Hd Hp1 Hp2 Hk Ho Hx].
  - constructor; [|constructor]. split; [auto|]. split; [exact Hm|exact Hk].
  - eapply clean_fits; eauto.
  - apply Forall_app. split; [eapply clean_fits; eauto|]. constructor.
    + apply notify_fits; [eapply clean_max; eauto|exact Hk].
    + destruct Ho as [(_ & _ & -> & _)|(-> & _)]; [constructor; [exact I|constructor]|constructor].
Qed.

Lemma close_log_seqs C L w op pend r hs : close_log C L w op pend r hs -> (k_counter (wst w) <= u64_max)%N ->
  NoDup (seqs hs) /\ Forall (fun x => k_counter (wst w) <= x <= u64_max)%N (seqs hs).
Proof.
  intros H Hmax. destruct H as [o k Hp Hk Hl Ho|o hs m Hio Htx Hcl Hd|o hs m k fl Hcl Hd Hp1 Hp2 Hk Ho Hx].
  - cbn. split; repeat constructor; auto; lia.
  - destruct (clean_seqs _ _ _ _ _ _ _ Hcl) as [H1 H2]. split; [exact H1|].
    eapply Forall_impl; [|exact H2]. cbn. intros a Ha. pose proof (clean_max _ _ _ _ _ _ _ Hcl Hmax). lia.
  - destruct (clean_seqs _ _ _ _ _ _ _ Hcl) as [H1 H2].
    pose proof (clean_max _ _ _ _ _ _ _ Hcl Hmax). pose proof (clean_le _ _ _ _ _ _ _ Hcl).
    assert (Hfl : seqs (notify op m k :: fl) = if op then [m] else []).
    { destruct Ho as [(_ & _ & -> & _)|(-> & _)]; now destruct op. }
    rewrite seqs_app, Hfl. split.
    + destruct op; [|now rewrite app_nil_r].
      apply NoDup_rev in H1. rewrite <- (rev_involutive (seqs hs ++ [m])). apply NoDup_rev.
      rewrite rev_app_distr. cbn. constructor; [|exact H1]. intros Hin. apply in_rev in Hin.
      rewrite Forall_forall in H2. apply H2 in Hin. lia.
    + apply Forall_app. split; [eapply Forall_impl; [|exact H2]; cbn; intros; lia|].
      destruct op; repeat constructor; lia.
Qed.

Lemma NoDup_app_lt (a b : list N) m : NoDup a -> NoDup b -> Forall (fun x => x < m)%N a -> Forall (fun x => m <= x)%N b ->
  NoDup (a ++ b).
Proof.
  induction a as [|x a IH]; intros Ha Hb Hla Hlb; [exact Hb|]. cbn. inversion Ha. subst. constructor.
  - rewrite in_app_iff. intros [Hin|Hin]; [contradiction|]. inversion Hla. subst.
    rewrite Forall_forall in Hlb. apply Hlb in Hin. lia.
  - apply IH; auto. now inversion Hla.
Qed.

(** Any history, any transport: what goes out is a list of allowed events. *)
Lemma run_fits_noclose C L : crypto_ok C -> forall ops c rs c' pend, sending C L (cn_wh c) pend ->
  (k_counter (wst (cn_wh c)) <= u64_max)%N ->
  forallb (fun o => negb (is_close o)) ops = true -> run C ops c = (rs, c') ->
  exists hs pend', log_of (cn_wh c') = log_of (cn_wh c) ++ map (ev C (k_key (wst (cn_wh c))) (k_iv (wst (cn_wh c)))) hs /\
    Forall (rec_fits C (k_key (wst (cn_wh c))) (k_iv (wst (cn_wh c))) L) hs /\ same_keys (cn_wh c) (cn_wh c') /\
    sending C L (cn_wh c') pend' /\ (k_counter (wst (cn_wh c')) <= u64_max)%N.
Proof.
  intros HC. induction ops as [|o ops IH]; intros c rs c' pend Hs Hmax Hcl Hrun.
  - inversion Hrun. subst. exists [], pend. cbn [map]. rewrite app_nil_r. repeat split; auto; apply Hs.
  - cbn [forallb] in Hcl. apply andb_prop in Hcl as [Hc1 Hcl]. apply negb_true_iff in Hc1.
    destruct (step C o c) as [r c1] eqn:E. rewrite (run_cons' _ _ _ _ _ _ E) in Hrun.
    destruct (step_send C L o c r c1 pend HC Hs Hc1 E) as (pend1 & Hs1 & Hk1 & _ & _ & Hst & _).
    destruct (step_handed C L o r _ _ _ _ Hst) as (hs & tail & Hlog & Hclean & Htail & _).
    pose proof (clean_max _ _ _ _ _ _ _ Hclean Hmax) as Hmax1.
    assert (Hf1 : Forall (rec_fits C (k_key (wst (cn_wh c))) (k_iv (wst (cn_wh c))) L) (hs ++ tail)).
    { apply Forall_app. split; [eapply clean_fits; eauto|].
      destruct Htail as [->|(x & k & -> & Hx & Hk & _)]; [constructor|]. constructor; [|constructor].
      split; [auto|]. auto. }
    destruct (stops o r).
    + inversion Hrun. subst. exists (hs ++ tail), pend1. auto.
    + destruct (run C ops c1) as [rs2 c2] eqn:E2. cbn [fst snd] in Hrun. inversion Hrun. subst.
      destruct (IH c1 rs2 c' pend1 Hs1 Hmax1 Hcl E2) as (hs2 & pend2 & Hl2 & Hf2 & Hk2 & Hs2 & Hm2).
      destruct Hk1 as (K1 & K2 & K3), Hk2 as (K4 & K5 & K6). rewrite K1, K2 in *.
      exists ((hs ++ tail) ++ hs2), pend2. split; [now rewrite Hl2, Hlog, (map_app _ (hs ++ tail)), app_assoc|].
      split; [apply Forall_app; auto|]. split; [repeat split; congruence|]. auto.
Qed.

Lemma run_fits C L ops c rs c' pend : crypto_ok C -> sending C L (cn_wh c) pend ->
  (k_counter (wst (cn_wh c)) <= u64_max)%N -> run C ops c = (rs, c') ->
  exists hs, log_of (cn_wh c') = log_of (cn_wh c) ++ map (ev C (k_key (wst (cn_wh c))) (k_iv (wst (cn_wh c)))) hs /\
    Forall (rec_fits C (k_key (wst (cn_wh c))) (k_iv (wst (cn_wh c))) L) hs.
Proof.
  intros HC Hs Hmax Hrun. destruct (run_split C _ _ _ _ Hrun) as (ops1 & Hcl & [Hr|(rs1 & c1 & r & Hr & Hst & _ & _)]).
  - destruct (run_fits_noclose C L HC _ _ _ _ _ Hs Hmax Hcl Hr) as (hs & pend' & H1 & H2 & _). eauto.
  - destruct (run_fits_noclose C L HC _ _ _ _ _ Hs Hmax Hcl Hr) as (hs & pend' & H1 & H2 & (K1 & K2 & _) & Hs1 & Hm1).
    destruct (step_close_eq _ _ _ _ Hst) as (r0 & Hc & _).
    destruct (close_spec C L c1 pend' r0 c' HC Hs1 Hc) as (hs2 & Hl2 & Hcl2 & _).
    pose proof (close_log_fits _ _ _ _ _ _ _ Hcl2 Hm1) as Hf2. rewrite K1, K2 in *.
    exists (hs ++ hs2). split; [now rewrite Hl2, H1, map_app, app_assoc|]. apply Forall_app; auto.
Qed.

Lemma removelast_snoc {A} (l : list A) x : removelast (l ++ [x]) = l.
Proof. apply removelast_last. Qed.

(** If the application stops at the first transport failure, or writes never fail: sequence
    numbers are used once. *)
Lemma run_seqs C L ops c rs c' pend : crypto_ok C -> sending C L (cn_wh c) pend ->
  (k_counter (wst (cn_wh c)) <= u64_max)%N -> run C ops c = (rs, c') ->
  wr_ok (wh_tx (cn_wh c)) \/ Forall (fun p => ~ send_fault p) (removelast rs) ->
  exists hs, log_of (cn_wh c') = log_of (cn_wh c) ++ map (ev C (k_key (wst (cn_wh c))) (k_iv (wst (cn_wh c)))) hs /\
    Forall (rec_fits C (k_key (wst (cn_wh c))) (k_iv (wst (cn_wh c))) L) hs /\
    NoDup (seqs hs) /\ Forall (fun x => k_counter (wst (cn_wh c)) <= x <= u64_max)%N (seqs hs).
Proof.
  intros HC Hs Hmax Hrun Hsafe.
  assert (Hno : forall ops1 rs1 c1, forallb (fun o => negb (is_close o)) ops1 = true -> run C ops1 c = (rs1, c1) ->
    wr_ok (wh_tx (cn_wh c)) \/ Forall (fun p => ~ send_fault p) (removelast rs1) ->
    exists hs tail, log_of (cn_wh c1) = log_of (cn_wh c) ++ map (ev C (k_key (wst (cn_wh c))) (k_iv (wst (cn_wh c)))) (hs ++ tail) /\
    Forall (rec_fits C (k_key (wst (cn_wh c))) (k_iv (wst (cn_wh c))) L) (hs ++ tail) /\
    NoDup (seqs (hs ++ tail)) /\ Forall (fun x => k_counter (wst (cn_wh c)) <= x <= u64_max)%N (seqs (hs ++ tail)) /\
    Forall (fun x => x < k_counter (wst (cn_wh c1)))%N (seqs hs) /\
    (k_counter (wst (cn_wh c)) <= k_counter (wst (cn_wh c1)) <= u64_max)%N /\ same_keys (cn_wh c) (cn_wh c1) /\ (exists pend', sending C L (cn_wh c1) pend') /\
    (wr_ok (wh_tx (cn_wh c)) \/ Forall (fun p => ~ send_fault p) rs1 -> tail = [] \/ exists l o1, rs1 = l ++ [(o1, Panic PUnwrap)])).
  { intros ops1 rs1 c1 Hcl Hr Hsafe1.
    destruct (run_gen C L HC ops1 c rs1 c1 pend Hs Hcl Hr Hsafe1) as (hs & tail & pend' & Hs1 & Hk & Hlog & Hclean & Htail & _ & Hend & _).
    pose proof (clean_max _ _ _ _ _ _ _ Hclean Hmax) as Hm1. pose proof (clean_le _ _ _ _ _ _ _ Hclean) as Hle.
    destruct (clean_seqs _ _ _ _ _ _ _ Hclean) as [H1 H2].
    exists hs, tail. split; [exact Hlog|].
    split. { apply Forall_app. split; [eapply clean_fits; eauto|].
      destruct Htail as [->|(x & k & -> & Hx & Hk')]; [constructor|]. constructor; [|constructor]. split; [auto|auto]. }
    split. { rewrite seqs_app. apply (NoDup_app_lt _ _ (k_counter (wst (cn_wh c1)))); [exact H1| | |].
      - destruct Htail as [->|(x & k & -> & Hx & Hk')]; repeat constructor; auto.
      - eapply Forall_impl; [|exact H2]. cbn. intros; lia.
      - destruct Htail as [->|(x & k & -> & Hx & Hk')]; repeat constructor; lia. }
    split. { rewrite seqs_app. apply Forall_app. split; [eapply Forall_impl; [|exact H2]; cbn; intros; lia|].
      destruct Htail as [->|(x & k & -> & Hx & Hk')]; repeat constructor; lia. }
    split; [eapply Forall_impl; [|exact H2]; cbn; intros; lia|]. split; [lia|]. split; [exact Hk|]. split; [eauto|exact Hend]. }
  destruct (run_split C _ _ _ _ Hrun) as (ops1 & Hcl & [Hr|(rs1 & c1 & r & Hr & Hst & Hrs & Hns)]).
  - destruct (Hno _ _ _ Hcl Hr Hsafe) as (hs & tail & H1 & H2 & H3 & H4 & _). eauto 6.
  - subst rs. rewrite removelast_snoc in Hsafe.
    assert (Hsafe1 : wr_ok (wh_tx (cn_wh c)) \/ Forall (fun p => ~ send_fault p) (removelast rs1)).
    { destruct Hsafe as [Hsafe|Hsafe]; [now left|]. right. clear - Hsafe.
      induction Hsafe as [|x l Hx Hl IH]; [constructor|]. destruct l; [constructor|]. rewrite removelast_cons. constructor; auto. }
    destruct (Hno _ _ _ Hcl Hr Hsafe1) as (hs & tail & H1 & H2 & H3 & H4 & H5 & H6 & (K1 & K2 & _) & (pend' & Hs1) & Hend).
    assert (tail = []).
    { destruct (Hend Hsafe) as [?|(l & o1 & ->)]; [assumption|]. apply Forall_app in Hns as [_ Hns].
      inversion Hns as [|? ? Hx _]. destruct o1; discriminate. }
    subst tail. rewrite app_nil_r in *.
    destruct (step_close_eq _ _ _ _ Hst) as (r0 & Hc & _).
    destruct (close_spec C L c1 pend' r0 c' HC Hs1 Hc) as (hs2 & Hl2 & Hcl2 & _).
    pose proof (close_log_fits _ _ _ _ _ _ _ Hcl2 (proj2 H6)) as Hf2.
    destruct (close_log_seqs _ _ _ _ _ _ _ Hcl2 (proj2 H6)) as [Hd2 Hr2]. rewrite K1, K2 in *.
    exists (hs ++ hs2). split; [now rewrite Hl2, H1, map_app, app_assoc|]. split; [apply Forall_app; auto|].
    rewrite seqs_app. split.
    + apply (NoDup_app_lt _ _ (k_counter (wst (cn_wh c1)))); auto. eapply Forall_impl; [|exact Hr2]. cbn. intros; lia.
    + apply Forall_app. split; [exact H4|]. eapply Forall_impl; [|exact Hr2]. cbn. intros; lia.
Qed.

(** ** write and flush, exactly *)

Lemma pending_inj L w p1 p2 : pending L w p1 -> pending L w p2 -> p1 = p2.
Proof.
  intros [_ H1] [_ H2]. destruct p1 as [a|], p2 as [b|]; auto.
  - destruct H1 as (Hp1 & _ & _ & R1 & E1), H2 as (Hp2 & _ & _ & R2 & E2).
    assert (length a = length b) by lia. rewrite E1 in E2. apply app_inv_head in E2.
    apply (f_equal (firstn (length a))) in E2. rewrite firstn_app_exact in E2 by reflexivity.
    rewrite firstn_app_exact in E2 by congruence. now subst.
  - destruct H1 as (_ & H1 & _), H2 as (_ & H2). congruence.
  - destruct H1 as (_ & H1), H2 as (_ & H2 & _). congruence.
Qed.

Lemma sending_inj C L w p1 p2 : sending C L w p1 -> sending C L w p2 -> p1 = p2.
Proof. intros (_ & _ & H1) (_ & _ & H2). eapply pending_inj; eauto. Qed.

(** The outcome of handing over the record [rec]. *)
Definition handed_over (rec : bytes) (rv : value) (w w' : whalf) (r : outcome tls_error value) : Prop :=
  exists k fl, log_of w' = log_of w ++ TxWrite rec k :: fl /\ k <= length rec /\
   (r = Ok rv /\ k = length rec /\ fl = (if policy_flush_transport (wh_policy w) then [TxFlush] else []) /\
      (k_counter (wst w) < u64_max)%N
    \/ fl = [] /\ (io_fault r /\ ~ tx_ok (wh_tx w) \/ r = Panic PUnwrap /\ (u64_max <= k_counter (wst w))%N)).

Lemma send_handed rec rv b w o w' f : send rec (policy_flush_transport (wh_policy w))
    (mk_whalf b (wh_ks w) (wh_tx w) (wh_policy w)) = (o, w') -> (forall u, f u = Ok rv) ->
  handed_over rec rv w w' (obind o f).
Proof.
  intros H Hf. destruct (send_cases rec (policy_flush_transport (wh_policy w)) (mk_whalf b (wh_ks w) (wh_tx w) (wh_policy w)))
    as (o1 & w1 & He & Hs & _). rewrite He in H. inversion H. subst o1 w1. clear H He.
  change (log_of (mk_whalf b (wh_ks w) (wh_tx w) (wh_policy w))) with (log_of w) in Hs.
  inversion Hs as [o2 n Hio Hn Hnok Hks Hl Eo|Hcnt Hks Hl Eo|Hcnt Hks Hl Eo|o2 Hcnt Hks Hio Hst Hnok Hl Eo]; subst.
  - exists n, []. split; [exact Hl|]. split; [exact Hn|]. right. split; [reflexivity|]. left. split.
    + destruct Hio as [[k ->]| ->]; [left; now exists k|now right].
    + intros Hx. apply Hnok, Hx.
  - exists (length rec), []. split; [exact Hl|]. split; [apply le_n|]. right. split; [reflexivity|]. right. auto.
  - eexists _, _. split; [exact Hl|]. split; [apply le_n|]. left. cbn [obind]. rewrite Hf. auto.
  - exists (length rec), []. split; [exact Hl|]. split; [apply le_n|]. right. split; [reflexivity|]. left. split.
    + destruct Hio as [[k ->]| ->]; [left; now exists k|now right].
    + exact Hnok.
Qed.

Lemma write_exact C L c b r c' pend : crypto_ok C -> sending C L (cn_wh c) pend -> cn_opened c = true ->
  step C (OpWrite b) c = (r, c') ->
  let f := length (content pend) in
  let n := Nat.min (length b) (L - 133 - f) in
  let pl := content pend ++ firstn n b in
  length pl = f + n /\
  (f + n < L - 133 /\ r = Ok (VCount n) /\ log_of (cn_wh c') = log_of (cn_wh c) /\ sending C L (cn_wh c') (Some pl)
   \/ f + n = L - 133 /\ sending C L (cn_wh c') None /\
      handed_over (data_record C (cn_wh c) pl) (VCount n) (cn_wh c) (cn_wh c') r).
Proof.
  intros HC Hs Hop Hst f n pl. cbn [step] in Hst.
  unfold cn_write in Hst. unfold bind at 1 in Hst. unfold bind at 1, get at 1 in Hst. unfold on_wh in Hst.
  rewrite Hop in Hst.
  assert (Hpl : length pl = f + n). { unfold pl. rewrite app_length, firstn_length. unfold n, f. lia. }
  assert (Hf : f <= L - 133).
  { destruct Hs as (HL & _ & Hp). unfold f. destruct pend as [p0|]; cbn [content length]; [|lia].
    destruct Hp as (_ & _ & _ & Hp & _). lia. }
  split; [exact Hpl|].
  destruct (write_eval C L (cn_wh c) pend b HC Hs) as [(Hlt & b' & Hev & Hp)|(Hlt & b' & Hev & Hp)];
    fold (accepts_n L pend b) in *; change (accepts_n L pend b) with n in *; fold pl in Hlt, Hev, Hp.
  - left. rewrite Hev in Hst. unfold ret in Hst. inversion Hst. subst r c'. cbn [cn_wh].
    split; [destruct Hs; lia|]. split; [reflexivity|]. split; [reflexivity|].
    destruct Hs as (HL & Hiv & _). split; [exact HL|]. split; [exact Hiv|exact Hp].
  - right. split; [destruct Hs; lia|]. rewrite Hev in Hst. unfold bind in Hst.
    destruct (send _ _ _) as [o1 w1] eqn:Es.
    assert (Hw1 : sending C L w1 None).
    { destruct (send_cases (data_record C (cn_wh c) pl) (policy_flush_transport (wh_policy (cn_wh c)))
         (mk_whalf b' (wh_ks (cn_wh c)) (wh_tx (cn_wh c)) (wh_policy (cn_wh c)))) as (o2 & w2 & He & Hsent & Hwb & _).
      rewrite Es in He. inversion He. subst o2 w2. destruct Hs as (HL & Hiv & _).
      split; [exact HL|]. split; [|now rewrite Hwb].
      unfold wst. destruct Hsent as [? ? ? ? ? Hk|? Hk|? Hk|? ? Hk]; rewrite Hk; exact Hiv. }
    pose proof (send_handed _ (VCount n) _ _ _ _ (fun _ => Ok (VCount n)) Es (fun _ => eq_refl)) as Hh.
    destruct o1; unfold ret in Hst; inversion Hst; subst r c'; cbn [cn_wh]; auto.
Qed.

Lemma flush_exact C L c r c' pend : crypto_ok C -> sending C L (cn_wh c) pend ->
  step C OpFlush c = (r, c') -> sending C L (cn_wh c') None /\
  match pend with
  | None => r = Ok VUnit /\ c' = c
  | Some pl => handed_over (data_record C (cn_wh c) pl) VUnit (cn_wh c) (cn_wh c') r
  end.
Proof.
  intros HC Hs Hst. cbn [step] in Hst. unfold cn_flush, bind, on_wh in Hst. destruct pend as [pl|].
  - destruct (flush_pending C L (cn_wh c) pl HC Hs) as (b' & Hev & Hp). rewrite Hev in Hst.
    destruct (send _ _ _) as [o1 w1] eqn:Es.
    assert (Hw1 : sending C L w1 None).
    { destruct (send_cases (data_record C (cn_wh c) pl) (policy_flush_transport (wh_policy (cn_wh c)))
         (mk_whalf b' (wh_ks (cn_wh c)) (wh_tx (cn_wh c)) (wh_policy (cn_wh c)))) as (o2 & w2 & He & Hsent & Hwb & _).
      rewrite Es in He. inversion He. subst o2 w2. destruct Hs as (HL & Hiv & _).
      split; [exact HL|]. split; [|now rewrite Hwb].
      unfold wst. destruct Hsent as [? ? ? ? ? Hk|? Hk|? Hk|? ? Hk]; rewrite Hk; exact Hiv. }
    pose proof (send_handed _ VUnit _ _ _ _ (fun _ => Ok VUnit) Es (fun _ => eq_refl)) as Hh.
    destruct o1; unfold ret in Hst; inversion Hst; subst; cbn [cn_wh]; auto.
  - rewrite (flush_idle C L) in Hst by assumption. unfold ret in Hst. inversion Hst. subst. cbn [cn_wh].
    split; [exact Hs|]. split; [reflexivity|now destruct c].
Qed.

Lemma handed_over_r rec rv w w' r : handed_over rec rv w w' r ->
  r = Ok rv \/ io_fault r \/ r = Panic PUnwrap.
Proof. intros (k & fl & _ & _ & [(-> & _)|(_ & [[H _]|[-> _]])]); auto. Qed.

Lemma step_started C L o c r c' pend : crypto_ok C -> sending C L (cn_wh c) pend -> is_close o = false ->
  step C o c = (r, c') ->
  exists pend', sending C L (cn_wh c') pend' /\
    option_map (@length byte) pend' = started1 (L - 133) (option_map (@length byte) pend) (o, r) /\
    wh_policy (cn_wh c') = policy1 (wh_policy (cn_wh c)) (o, r).
Proof.
  intros HC Hs Hcl Hst.
  destruct (step_send C L o c r c' pend HC Hs Hcl Hst) as (pend' & Hs' & _ & _ & _ & _ & Hpol).
  exists pend'. split; [exact Hs'|].
  assert (Hp : wh_policy (cn_wh c') = policy1 (wh_policy (cn_wh c)) (o, r)).
  { unfold policy1. cbn [fst]. destruct o; try (apply Hpol; discriminate).
    cbn [step] in Hst. unfold cn_set_policy, on_wh, bind, modify, ret in Hst. now inversion Hst. }
  split; [|exact Hp]. clear Hp Hpol.
  assert (Hsame : cn_wh c' = cn_wh c -> option_map (@length byte) pend' = option_map (@length byte) pend).
  { intros E. rewrite E in Hs'. now rewrite (sending_inj _ _ _ _ _ Hs' Hs). }
  destruct o as [b| |p|dst| |n|ops fin|]; try discriminate.
  - destruct (cn_opened c) eqn:Hop.
    2:{ cbn [step] in Hst. unfold cn_write in Hst. unfold bind at 1 in Hst. unfold bind at 1, get at 1 in Hst. unfold on_wh in Hst.
        rewrite Hop in Hst. inversion Hst. subst. cbn [started1]. now apply Hsame. }
    destruct (write_exact C L c b r c' pend HC Hs Hop Hst) as (Hpl & [(Hlt & -> & _ & Hs2)|(Heq & Hs2 & Hh)]).
    + rewrite (sending_inj _ _ _ _ _ Hs' Hs2). cbn [started1 option_map]. rewrite Hpl.
      replace (match option_map (@length byte) pend with Some n => n | None => 0 end) with (length (content pend)) by now destruct pend.
      rewrite (proj2 (Nat.eqb_neq _ _)) by lia. reflexivity.
    + rewrite (sending_inj _ _ _ _ _ Hs' Hs2). cbn [option_map].
      destruct (handed_over_r _ _ _ _ _ Hh) as [->|[[[k ->]| ->]| ->]]; try reflexivity.
      cbn [started1 option_map].
      replace (match option_map (@length byte) pend with Some n => n | None => 0 end) with (length (content pend)) by now destruct pend.
      rewrite Heq, Nat.eqb_refl. reflexivity.
  - destruct (flush_exact C L c r c' pend HC Hs Hst) as (Hs2 & _).
    now rewrite (sending_inj _ _ _ _ _ Hs' Hs2).
  - cbn [started1]. cbn [step] in Hst. unfold cn_set_policy, on_wh, bind, modify, ret in Hst. inversion Hst. subst.
    change (sending C L (cn_wh c) pend') in Hs'. now rewrite (sending_inj _ _ _ _ _ Hs' Hs).
  - cbn [started1]. apply Hsame. apply (f_equal snd) in Hst. cbn [step] in Hst. rewrite bind_snd_ret in Hst. cbn [snd] in Hst.
    rewrite <- Hst. apply on_rh_wh.
  - cbn [started1]. apply Hsame. apply (f_equal snd) in Hst. cbn [step] in Hst. rewrite bind_snd_ret in Hst. cbn [snd] in Hst.
    rewrite <- Hst. apply on_rh_wh.
  - cbn [started1]. apply Hsame. apply (f_equal snd) in Hst. cbn [step] in Hst. rewrite bind_snd_ret in Hst. cbn [snd] in Hst.
    rewrite <- Hst. apply on_rh_wh.
  - cbn [started1]. apply Hsame. apply (f_equal snd) in Hst. cbn [step] in Hst. rewrite bind_snd_ret in Hst. cbn [snd] in Hst.
    rewrite <- Hst. apply on_rh_wh.
Qed.

Lemma run_started C L : crypto_ok C -> forall ops c rs c' pend, sending C L (cn_wh c) pend ->
  forallb (fun o => negb (is_close o)) ops = true -> run C ops c = (rs, c') ->
  exists pend', sending C L (cn_wh c') pend' /\
    option_map (@length byte) pend' = fold_left (started1 (L - 133)) rs (option_map (@length byte) pend) /\
    wh_policy (cn_wh c') = fold_left policy1 rs (wh_policy (cn_wh c)).
Proof.
  intros HC. induction ops as [|o ops IH]; intros c rs c' pend Hs Hcl Hrun.
  - inversion Hrun. subst. exists pend. auto.
  - cbn [forallb] in Hcl. apply andb_prop in Hcl as [Hc1 Hcl]. apply negb_true_iff in Hc1.
    destruct (step C o c) as [r c1] eqn:E. rewrite (run_cons' _ _ _ _ _ _ E) in Hrun.
    destruct (step_started C L o c r c1 pend HC Hs Hc1 E) as (pend1 & Hs1 & Hst1 & Hp1).
    destruct (stops o r).
    + inversion Hrun. subst. exists pend1. cbn [fold_left]. auto.
    + destruct (run C ops c1) as [rs2 c2] eqn:E2. cbn [fst snd] in Hrun. inversion Hrun. subst. cbn [fold_left].
      rewrite <- Hst1, <- Hp1. eapply IH; eauto.
Qed.
