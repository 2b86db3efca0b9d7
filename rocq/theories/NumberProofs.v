(** * The numbers of the records, whatever the transport does *)
From Coq Require Import String List NArith Arith Bool Lia ZArith.
From Coq.Strings Require Import Byte.
From Coq Require Import ZifyBool ZifyNat ZifyN.
From Verif Require Import Base ParseBuffer Buffer Codes Crypto KeySchedule Config Handshake Record WriteBuffer
  Transport RecordReader Connection Api SpecWire SpecKeys SpecRecord SpecRead SpecSend SendProofs ConnProofs RecvProofs
  SpecReceiver SpecEndpoint EndpointProofs PropSend SpecNumbers.
Import ListNotations.
Local Open Scope list_scope.

Section Counted.
Context (C : crypto) (key iv : bytes).

(** [hs] was handed over when the next number was [n] and the transport was going to answer [a]. *)
Inductive counted : N -> list wr_answer -> list handed -> N -> list wr_answer -> Prop :=
| ct_nil n a : counted n a [] n a
| ct_flush n a l n' a' : counted n a l n' a' -> counted n a (H_flush :: l) n' a'
| ct_rec n a ty x l n' a' : counted (if took (hd WrOk a) then n + 1 else n) (tl a) l n' a' ->
    counted n a (H_rec n ty x (reach (hd WrOk a) (rfc_record C key iv n ty x 0)) :: l) n' a'
| ct_plain n a b l n' a' : hd x00 b <> x17 -> counted (if took (hd WrOk a) then n + 1 else n) (tl a) l n' a' ->
    counted n a (H_plain b (reach (hd WrOk a) b) :: l) n' a'.

Lemma counted_app n a l1 n1 a1 l2 n2 a2 : counted n a l1 n1 a1 -> counted n1 a1 l2 n2 a2 -> counted n a (l1 ++ l2) n2 a2.
Proof. intros H H2. induction H; cbn [app]; [exact H2|constructor; auto..]. Qed.

(** The item that is handed over as [b]. *)
Definition item (n : N) (h : handed) (b : bytes) (a : wr_answer) : Prop :=
  (exists ty x, b = rfc_record C key iv n ty x 0 /\ h = H_rec n ty x (reach a b)) \/ (hd x00 b <> x17 /\ h = H_plain b (reach a b)).

Lemma item_counted n a h b l n' a' : item n h b (hd WrOk a) ->
  counted (if took (hd WrOk a) then n + 1 else n) (tl a) l n' a' -> counted n a (h :: l) n' a'.
Proof. intros [(ty & x & -> & ->)|(Hb & ->)] H; constructor; auto. Qed.

Lemma item_ev n h b a : item n h b a -> ev C key iv h = TxWrite b (reach a b).
Proof. intros [(ty & x & -> & ->)|(Hb & ->)]; reflexivity. Qed.

Lemma emit_counted b strict s r s' : (forall a, exists h, item (t_next s) h b a) -> emit b strict s = (r, s') ->
  exists hs n1, tx_log (t_tx s') = tx_log (t_tx s) ++ map (ev C key iv) hs /\
    counted (t_next s) (tx_wr (t_tx s)) hs n1 (tx_wr (t_tx s')) /\ ((forall x, r <> Panic x) -> n1 = t_next s').
Proof.
  intros Hi H. destruct (Hi (hd WrOk (tx_wr (t_tx s)))) as (h & Hh). pose proof (item_ev _ _ _ _ Hh) as Hev.
  pose proof (fun l n' a' => item_counted (t_next s) (tx_wr (t_tx s)) h b l n' a' Hh) as Hc. clear Hi Hh.
  unfold emit, tx_write_all in H.
  destruct (tx_wr (t_tx s)) as [|[|k e|k] wr]; cbn [hd tl took] in *.
  1,2: destruct (t_next s <? u64_max)%N; [destruct strict|];
    [unfold tx_flush in H; cbn [tx_fl tx_wr tx_log] in H; destruct (tx_fl (t_tx s)) as [|[|k|] fl]| |];
    cbn [io_error] in H; apply pair_equal_spec in H as [<- <-]; cbn [t_tx tx_log tx_wr t_next].
  1,2,7,8: exists [h; H_flush], (t_next s + 1)%N; cbn [map]; rewrite Hev, <- app_assoc; (split; [reflexivity|]); (split; [apply Hc; do 2 constructor|reflexivity]).
  all: try (exists [h], (t_next s + 1)%N; cbn [map]; rewrite Hev; (split; [reflexivity|]); (split; [apply Hc; constructor|]);
            first [reflexivity|intros Hx; now destruct (Hx PUnwrap)]).
  all: cbn [io_error] in H; apply pair_equal_spec in H as [<- <-]; cbn [t_tx tx_log tx_wr t_next];
    exists [h], (t_next s); cbn [map]; rewrite Hev; (split; [reflexivity|]); (split; [apply Hc; constructor|reflexivity]).
Qed.

Lemma emit_data_counted s r s' : emit_data C key iv s = (r, s') ->
  exists hs n1, tx_log (t_tx s') = tx_log (t_tx s) ++ map (ev C key iv) hs /\
    counted (t_next s) (tx_wr (t_tx s)) hs n1 (tx_wr (t_tx s')) /\ ((forall x, r <> Panic x) -> n1 = t_next s').
Proof.
  unfold emit_data. destruct (t_data s) as [x|].
  - apply emit_counted. intros a. eexists. left. exists ty_data, x. split; reflexivity.
  - intros H. apply pair_equal_spec in H as [<- <-]. exists [], (t_next s). split; [symmetry; apply app_nil_r|]. split; [constructor|reflexivity].
Qed.

Lemma transmit_counted cap opened o s r s' : transmit C key iv cap opened o s = (r, s') ->
  exists hs n1, tx_log (t_tx s') = tx_log (t_tx s) ++ map (ev C key iv) hs /\
    counted (t_next s) (tx_wr (t_tx s)) hs n1 (tx_wr (t_tx s')) /\ ((forall x, r <> Panic x) -> n1 = t_next s').
Proof.
  assert (G0 : exists hs n1, tx_log (t_tx s) = tx_log (t_tx s) ++ map (ev C key iv) hs /\
     counted (t_next s) (tx_wr (t_tx s)) hs n1 (tx_wr (t_tx s)) /\ n1 = t_next s).
  { exists [], (t_next s). split; [symmetry; apply app_nil_r|]. split; [constructor|reflexivity]. }
  assert (R : forall A (q : outcome tls_error A) v, (forall x, result_of q v <> Panic x) -> forall x, q <> Panic x).
  { intros A q v H x ->. now apply (H x). }
  destruct G0 as (hs0 & n0 & G1 & G2 & G3).
  destruct o; cbn [transmit]; intros H.
  - destruct opened; [|apply pair_equal_spec in H as [<- <-]; exists hs0, n0; auto].
    destruct (_ =? cap).
    + destruct (emit_data _ _ _ _) as [q s2] eqn:E. apply pair_equal_spec in H as [<- <-].
      apply emit_data_counted in E as (hs & n1 & E1 & E2 & E3). exists hs, n1. split; [exact E1|]. split; [exact E2|].
      intros Hx. apply E3. exact (R _ _ _ Hx).
    + apply pair_equal_spec in H as [<- <-]. exists hs0, n0. auto.
  - destruct (emit_data _ _ _ _) as [q s2] eqn:E. apply pair_equal_spec in H as [<- <-].
    apply emit_data_counted in E as (hs & n1 & E1 & E2 & E3). exists hs, n1. split; [exact E1|]. split; [exact E2|].
    intros Hx. apply E3. exact (R _ _ _ Hx).
  - apply pair_equal_spec in H as [<- <-]. exists hs0, n0. auto.
  - apply pair_equal_spec in H as [<- <-]. exists hs0, n0. auto.
  - apply pair_equal_spec in H as [<- <-]. exists hs0, n0. auto.
  - apply pair_equal_spec in H as [<- <-]. exists hs0, n0. auto.
  - apply pair_equal_spec in H as [<- <-]. exists hs0, n0. auto.
  - destruct (emit_data _ _ _ _) as [q s2] eqn:E. apply emit_data_counted in E as (hs & n1 & E1 & E2 & E3).
    assert (Hx0 : forall q', q = q' -> (forall u, q' <> Ok u) -> (result_of q VUnit, s2) = (r, s') ->
      exists hs n1, tx_log (t_tx s') = tx_log (t_tx s) ++ map (ev C key iv) hs /\
        counted (t_next s) (tx_wr (t_tx s)) hs n1 (tx_wr (t_tx s')) /\ ((forall x, r <> Panic x) -> n1 = t_next s')).
    { intros q' _ _ E. apply pair_equal_spec in E as [<- <-]. exists hs, n1. split; [exact E1|]. split; [exact E2|].
      intros Hx. apply E3. exact (R _ _ _ Hx). }
    destruct q as [u|e|x| |]; [|apply (Hx0 _ eq_refl ltac:(discriminate) H)..]. clear Hx0.
    specialize (E3 ltac:(discriminate)). subst n1.
    destruct (emit _ _ _) as [q2 s3] eqn:F. apply pair_equal_spec in H as [<- <-].
    apply emit_counted in F as (hs2 & n2 & F1 & F2 & F3).
    + exists (hs ++ hs2), n2. split; [rewrite F1, E1, map_app; now rewrite app_assoc|].
      split; [eapply counted_app; eauto|]. intros Hx. apply F3. exact (R _ _ _ Hx).
    + intros a. unfold farewell. destruct opened; eexists; [left; do 2 eexists; split; reflexivity|right; split; [discriminate|reflexivity]].
Qed.

(** ** Reading off the numbers *)

Lemma counted_at n a hs n' a' : counted n a hs n' a' -> forall i h, nth_error (writes hs) i = Some h ->
  let m := (n + N.of_nat (length (filter took (map (fun j => nth j a WrOk) (seq 0 i)))))%N in
  let q := nth i a WrOk in
  (exists ty x, h = H_rec m ty x (reach q (rfc_record C key iv m ty x 0))) \/
  (exists b, h = H_plain b (reach q b) /\ hd x00 b <> x17).
Proof.
  assert (Hn : forall (a : list wr_answer) j, nth (S j) a WrOk = nth j (tl a) WrOk) by (intros [|? []] [|j]; reflexivity).
  assert (H0 : forall a : list wr_answer, nth 0 a WrOk = hd WrOk a) by (intros []; reflexivity).
  assert (Hseq : forall (a : list wr_answer) i, length (filter took (map (fun j => nth j a WrOk) (seq 0 (S i)))) =
     (if took (hd WrOk a) then 1 else 0) + length (filter took (map (fun j => nth j (tl a) WrOk) (seq 0 i)))).
  { intros a0 i. cbn [seq map filter]. rewrite H0. rewrite <- seq_shift, map_map.
    rewrite (map_ext (fun x => nth (S x) a0 WrOk) (fun j => nth j (tl a0) WrOk)) by (intros; apply Hn).
    destruct (took (hd WrOk a0)); reflexivity. }
  induction 1 as [n a|n a l n' a' H IH|n a ty x l n' a' H IH|n a b l n' a' Hb H IH]; intros i h Hi; cbn zeta.
  - destruct i; discriminate.
  - exact (IH i h Hi).
  - destruct i as [|i].
    + cbn in Hi. inversion Hi. left. exists ty, x. cbn [seq map filter length]. change (N.of_nat 0) with 0%N. rewrite N.add_0_r, H0. reflexivity.
    + cbn [writes filter nth_error] in Hi. specialize (IH i h Hi). cbn zeta in IH. rewrite Hseq, Hn.
      replace (n + N.of_nat ((if took (hd WrOk a) then 1 else 0) + length (filter took (map (fun j => nth j (tl a) WrOk) (seq 0 i)))))%N
        with ((if took (hd WrOk a) then n + 1 else n) + N.of_nat (length (filter took (map (fun j => nth j (tl a) WrOk) (seq 0 i)))))%N by (destruct (took _); lia).
      exact IH.
  - destruct i as [|i].
    + cbn in Hi. inversion Hi. right. exists b. rewrite H0. split; [reflexivity|exact Hb].
    + cbn [writes filter nth_error] in Hi. specialize (IH i h Hi). cbn zeta in IH. rewrite Hseq, Hn.
      replace (n + N.of_nat ((if took (hd WrOk a) then 1 else 0) + length (filter took (map (fun j => nth j (tl a) WrOk) (seq 0 i)))))%N
        with ((if took (hd WrOk a) then n + 1 else n) + N.of_nat (length (filter took (map (fun j => nth j (tl a) WrOk) (seq 0 i)))))%N by (destruct (took _); lia).
      exact IH.
Qed.

End Counted.

(** ** Histories *)

Lemma recv_keeps_wh C o c r c' : receives o = true -> step C o c = (r, c') -> cn_wh c' = cn_wh c.
Proof.
  intros Ho H.
  assert (G : forall A (m : M rhalf tls_error A) (g : A -> value), (x <- on_rh m ;; ret (g x)) c = (r, c') -> cn_wh c' = cn_wh c).
  { intros A m g E. unfold bind, on_rh in E. destruct (m (cn_rd c, (cn_dec c, cn_opened c))) as [q [s [d b]]].
    destruct q; cbn in E; apply pair_equal_spec in E as [_ <-]; reflexivity. }
  destruct o; try discriminate; cbn [step] in H; eapply G; exact H.
Qed.

Lemma run_counted C L : crypto_ok C -> forall ops c rs c' pend, sending C L (cn_wh c) pend -> run C ops c = (rs, c') ->
  exists hs n1 a1, sent_log c' = sent_log c ++ map (ev C (write_key c) (write_iv c)) hs /\
    counted C (write_key c) (write_iv c) (k_counter (w_state (wh_ks (cn_wh c)))) (tx_wr (wh_tx (cn_wh c))) hs n1 a1.
Proof.
  intros HC. induction ops as [|o ops IH]; intros c rs c' pend Hs H.
  - cbn in H. apply pair_equal_spec in H as [_ <-]. exists []. do 2 eexists. split; [symmetry; apply app_nil_r|constructor].
  - destruct (step C o c) as [r c1] eqn:E. rewrite (run_cons' C o ops c r c1 E) in H.
    assert (G : exists hs n1, sent_log c1 = sent_log c ++ map (ev C (write_key c) (write_iv c)) hs /\
      counted C (write_key c) (write_iv c) (k_counter (w_state (wh_ks (cn_wh c)))) (tx_wr (wh_tx (cn_wh c))) hs n1 (tx_wr (wh_tx (cn_wh c1))) /\
      (stops o r = false -> n1 = k_counter (w_state (wh_ks (cn_wh c1))) /\ write_key c1 = write_key c /\ write_iv c1 = write_iv c /\
         exists pend1, sending C L (cn_wh c1) pend1)).
    { destruct (receives o) eqn:Ho.
      - pose proof (recv_keeps_wh C o c r c1 Ho E) as Ew. unfold sent_log, write_key, write_iv. rewrite Ew.
        exists []. eexists. split; [symmetry; apply app_nil_r|]. split; [constructor|]. intros _. eauto 10.
      - destruct (transmit_step C L c o r c1 pend HC Hs Ho E) as (T1 & T2 & _).
        destruct (transmit_counted C (write_key c) (write_iv c) _ _ _ _ _ _ T1) as (hs & n1 & K1 & K2 & K3).
        exists hs, n1. split; [exact K1|]. split; [exact K2|]. intros Hst.
        assert (Hcl : is_close o = false) by (destruct o; try reflexivity; discriminate).
        assert (Hp : forall x, r <> Panic x) by (intros x ->; destruct o; discriminate).
        destruct (T2 Hcl) as (pend1 & S1 & S2 & S3). split; [exact (K3 Hp)|]. split; [exact S2|]. split; [exact S3|]. now exists pend1. }
    destruct G as (hs & n1 & G1 & G2 & G3). destruct (stops o r) eqn:Est.
    + apply pair_equal_spec in H as [_ <-]. exists hs, n1. eexists. split; [exact G1|exact G2].
    + destruct (G3 eq_refl) as (-> & Ek & Ei & pend1 & Hs1). destruct (run C ops c1) as [rs2 c2] eqn:Er. cbn [fst snd] in H.
      apply pair_equal_spec in H as [_ <-]. destruct (IH c1 rs2 c2 pend1 Hs1 Er) as (hs2 & n2 & a2 & I1 & I2).
      rewrite Ek, Ei in *. exists (hs ++ hs2), n2, a2. split; [rewrite I1, G1, map_app; symmetry; apply app_assoc|].
      eapply counted_app; eauto.
Qed.
