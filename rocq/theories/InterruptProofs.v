(** * The record reader when the transport fails or the read is cancelled in the middle of a record *)
From Coq Require Import List NArith Arith Bool Lia ZArith.
From Coq.Strings Require Import Byte.
From Coq Require Import ZifyBool ZifyNat ZifyN.
From Verif Require Import Base ParseBuffer Buffer Codes Extensions Crypto KeySchedule Config Handshake Record
  WriteBuffer Transport RecordReader ReadBuffer Connection Api BaseProofs ParseProofs SpecWire SpecKeys
  SpecRecord SpecRead FrameProofs PropFrame SpecInterrupt.
Import ListNotations.

Ltac Zify.zify_post_hook ::= Z.div_mod_to_equations.

Lemma struck_map {A B} (f : A -> B) e o : struck e o -> struck e (omap f o).
Proof. intros []; constructor. Qed.

(** The transport, up to the fault. *)
Lemma read_before n pre e rx' : chunked pre -> 0 < n -> fault e ->
  pre = [] /\ (exists o, struck e o /\ rx_read_some n (pre ++ e :: rx') = (o, rx')) \/
  exists got pre', rx_read_some n (pre ++ e :: rx') = (Ok got, pre' ++ e :: rx') /\ got <> [] /\ length got <= n /\
    stream pre = got ++ stream pre' /\ chunked pre'.
Proof.
  intros Hc Hn He. destruct Hc as [|e0 pre (b & -> & Hb) Hc].
  - left. split; [reflexivity|]. destruct He as [-> | [k ->]]; eexists; (split; [constructor|reflexivity]).
  - right. destruct b as [|x b]; [contradiction|]. destruct n as [|n]; [lia|].
    exists (x :: firstn n b), (match skipn n b with [] => pre | _ => RxData (skipn n b) :: pre end).
    split; [|split; [discriminate|split; [cbn [length]; rewrite firstn_length; lia|split]]].
    + unfold rx_read_some, bind, map_err, rx_read. cbn [app firstn skipn omap_err length Nat.eqb].
      unfold ret. destruct (skipn n b); reflexivity.
    + rewrite stream_cons. cbn [app]. f_equal. rewrite <- (firstn_skipn n b) at 1. rewrite <- app_assoc. f_equal.
      destruct (skipn n b); reflexivity.
    + destruct (skipn n b); [exact Hc|]. apply chunked_cons; [discriminate|exact Hc].
Qed.

(** Fewer bytes than a header before the fault. *)
Lemma header_struck : forall fuel acc pre e rx', 5 - length acc <= fuel -> length acc <= 5 -> chunked pre -> fault e ->
  length (stream pre) < 5 - length acc ->
  exists o, struck e o /\ header_loop fuel acc (pre ++ e :: rx') = (o, rx').
Proof.
  induction fuel as [|fuel IH]; intros acc pre e rx' Hf Ha Hc He Hl; [lia|].
  cbn [header_loop]. unfold HEADER_LEN. destruct (Nat.eqb_spec (length acc) 5) as [E|E]; [lia|].
  destruct (read_before (5 - length acc) pre e rx' Hc ltac:(lia) He) as [(-> & o & Ho & Hr)|(got & pre' & Hr & Hg & Hgl & Hs & Hc')].
  - exists o. split; [exact Ho|]. unfold bind. rewrite Hr. destruct Ho; reflexivity.
  - assert (length got <> 0) by (destruct got; [contradiction|discriminate]).
    rewrite Hs, app_length in Hl.
    destruct (IH (acc ++ got) pre' e rx') as (o & Ho & K); [rewrite app_length; lia|rewrite app_length; lia|exact Hc'|exact He|rewrite app_length; lia|].
    exists o. split; [exact Ho|]. unfold bind. rewrite Hr. exact K.
Qed.

Lemma header_before : forall fuel acc pre e rx' x y, 5 - length acc <= fuel -> length acc <= 5 -> chunked pre -> fault e ->
  stream pre = x ++ y -> length x = 5 - length acc ->
  exists pre', header_loop fuel acc (pre ++ e :: rx') = (Ok (acc ++ x), pre' ++ e :: rx') /\ stream pre' = y /\ chunked pre'.
Proof.
  induction fuel as [|fuel IH]; intros acc pre e rx' x y Hf Ha Hc He Hs Hx.
  - assert (E : length acc = 5) by lia. rewrite E in Hx. destruct x; [|discriminate].
    cbn [header_loop]. unfold HEADER_LEN. rewrite E. cbn. exists pre. rewrite app_nil_r. auto.
  - cbn [header_loop]. unfold HEADER_LEN. destruct (Nat.eqb_spec (length acc) 5) as [E|E].
    + rewrite E in Hx. destruct x; [|discriminate]. exists pre. rewrite app_nil_r. auto.
    + destruct (read_before (5 - length acc) pre e rx' Hc ltac:(lia) He) as [(-> & o & Ho & Hr)|(got & pre' & Hr & Hg & Hgl & Hs' & Hc')].
      * cbn in Hs. symmetry in Hs. apply app_eq_nil in Hs as [-> _]. cbn [length] in Hx. lia.
      * assert (length got <> 0) by (destruct got; [contradiction|discriminate]).
        rewrite Hs' in Hs.
        assert (Hz : exists z, x = got ++ z /\ stream pre' = z ++ y).
        { destruct (app_eq_app _ _ _ _ Hs) as (z & [[Ha1 Ha2]|[Ha1 Ha2]]).
          - assert (length got = length x + length z) by (rewrite Ha1, app_length; reflexivity).
            assert (length z = 0) by lia. destruct z; [|discriminate]. rewrite app_nil_r in Ha1. subst x.
            exists []. rewrite app_nil_r. split; [reflexivity|]. now rewrite Ha2.
          - eauto. }
        destruct Hz as (z & -> & Hz). rewrite app_length in Hx.
        destruct (IH (acc ++ got) pre' e rx' z y) as (rx1 & K1 & K2 & K3); [rewrite app_length; lia|rewrite app_length; lia|exact Hc'|exact He|exact Hz|rewrite app_length; lia|].
        exists rx1. unfold bind. rewrite Hr, K1, <- app_assoc. auto.
Qed.

(** Part of a body before the fault: it stays in the buffer. *)
Lemma advance_struck : forall fuel amount pre e rx' s, amount - rd_pending s <= fuel ->
  rd_decoded s + amount <= length (rd_buf s) -> chunked pre -> fault e -> rd_rx s = pre ++ e :: rx' ->
  rd_pending s + length (stream pre) < amount ->
  exists o s', struck e o /\ advance_loop fuel amount (amount - rd_pending s) s = (o, s') /\ rd_rx s' = rx' /\
    pend s' = pend s ++ stream pre /\ rd_pending s' = rd_pending s + length (stream pre) /\ rd_ks s' = rd_ks s /\
    rd_decoded s' = rd_decoded s /\ length (rd_buf s') = length (rd_buf s) /\
    firstn (rd_decoded s) (rd_buf s') = firstn (rd_decoded s) (rd_buf s).
Proof.
  induction fuel as [|fuel IH]; intros amount pre e rx' s Hf Hd Hc He Hrx Hl; [lia|].
  destruct (read_before (amount - rd_pending s) pre e rx' Hc ltac:(lia) He) as [(-> & o & Ho & Hr)|(got & pre' & Hr & Hg & Hgl & Hs & Hc')].
  - rewrite advance_step by lia. rewrite Hrx, Hr.
    exists (omap (fun _ => tt) o), (mk_rdst (rd_buf s) (rd_decoded s) (rd_pending s) rx' (rd_ks s)).
    split; [now apply struck_map|]. split; [destruct Ho; reflexivity|]. cbn. rewrite app_nil_r. rewrite Nat.add_0_r. auto 10.
  - assert (length got <> 0) by (destruct got; [contradiction|discriminate]).
    rewrite advance_step by lia. rewrite Hrx, Hr.
    rewrite Hs, app_length in Hl.
    set (s1 := mk_rdst (splice (rd_buf s) (rd_decoded s + rd_pending s) got) (rd_decoded s) (rd_pending s + length got) (pre' ++ e :: rx') (rd_ks s)).
    destruct (IH amount pre' e rx' s1) as (o & s' & Ho & Ha & K1 & K2 & K3 & K4 & K5 & K6 & K7);
      unfold s1 in *; cbn [rd_buf rd_decoded rd_pending rd_rx rd_ks] in *; try lia; try assumption; try reflexivity.
    { rewrite splice_length by lia. lia. }
    exists o, s'. split; [exact Ho|].
    replace (amount - rd_pending s - length got) with (amount - (rd_pending s + length got)) by lia.
    split; [exact Ha|]. split; [exact K1|]. split.
    { rewrite K2, Hs, app_assoc. f_equal. unfold pend. cbn [rd_buf rd_decoded rd_pending]. rewrite sub_app_split.
      f_equal; [|apply splice_sub; lia]. rewrite !sub_skipn_firstn. now rewrite set_rng_sub_before by lia. }
    split; [rewrite Hs, app_length; lia|]. split; [exact K4|]. split; [exact K5|].
    split; [rewrite K6, splice_length by lia; reflexivity|].
    rewrite K7. apply set_rng_sub_before; lia.
Qed.

(** ** One read *)

Lemma read_header_struck C s pre e rx' : rd_rx s = pre ++ e :: rx' -> chunked pre -> fault e -> length (stream pre) < 5 ->
  exists o, struck e o /\ rd_read C s = (o, mk_rdst (rd_buf s) (rd_decoded s) (rd_pending s) rx' (rd_ks s)).
Proof.
  intros Hrx Hc He Hl. destruct (header_struck 6 [] pre e rx') as (o & Ho & Hh); [cbn; lia|cbn; lia|exact Hc|exact He|cbn; lia|].
  unfold rd_read, bind at 1, on_rx at 1, next_record_header, bind at 1. rewrite Hrx, Hh.
  destruct Ho; eexists; (split; [constructor|reflexivity]).
Qed.

Lemma read_body_struck C s pre e rx' h x n : rd_pending s = 0 -> rd_wf s -> rd_rx s = pre ++ e :: rx' -> chunked pre -> fault e ->
  stream pre = h ++ x -> length h = 5 -> known_type h -> hdr_content_length h = Ok n -> length x < n <= length (rd_buf s) ->
  exists o s', struck e o /\ rd_read C s = (o, s') /\ rd_rx s' = rx' /\ pend s' = x /\ rd_pending s' = length x /\ rd_ks s' = rd_ks s /\
    rd_decoded s' = place s n /\ length (rd_buf s') = length (rd_buf s).
Proof.
  intros Hp Hw Hrx Hc He Hs Hl Hk Hn Hx.
  destruct (header_before 6 [] pre e rx' h x) as (pre' & Hh & Hs' & Hc'); [cbn; lia|cbn; lia|exact Hc|exact He|exact Hs|cbn; lia|].
  unfold rd_read, bind at 1, on_rx at 1, next_record_header, bind at 1. rewrite Hrx, Hh. cbn [app]. unfold lift at 1. rewrite Hk.
  unfold bind at 1, lift at 1. rewrite Hn. unfold advance, bind at 1. unfold bind at 1.
  rewrite ensure_ready by (cbn [rd_buf rd_decoded rd_pending rd_rx rd_ks]; first [exact Hp|exact Hw|lia]).
  cbn [rd_buf rd_decoded rd_pending rd_rx rd_ks]. fold (place s n).
  assert (Hpl : place s n + n <= length (rd_buf s)).
  { unfold place. destruct (Nat.ltb_spec (length (rd_buf s)) (rd_decoded s + n)); lia. }
  set (s1 := mk_rdst (rd_buf s) (place s n) 0 (pre' ++ e :: rx') (rd_ks s)).
  destruct (advance_struck (S n) n pre' e rx' s1) as (o & s' & Ho & Ha & K1 & K2 & K3 & K4 & K5 & K6 & _);
    unfold s1 in *; cbn [rd_buf rd_decoded rd_pending rd_rx rd_ks] in *; try lia; try assumption; try reflexivity.
  { rewrite Hs'. lia. }
  rewrite Nat.sub_0_r in Ha. rewrite Ha. rewrite Hs' in *. cbn [app] in K2. unfold pend at 2 in K2. cbn [rd_buf rd_decoded rd_pending] in K2.
  exists (omap (fun _ => SR_ChangeCipherSpec) o), s'. split; [now apply struck_map|]. split; [destruct Ho; reflexivity|].
  split; [exact K1|]. split; [rewrite K2; reflexivity|]. split; [exact K3|]. split; [exact K4|]. split; [exact K5|exact K6].
Qed.

(** ** The read after it, with [pend s] left over *)

Lemma advance_enough : forall fuel amount remain s, amount - rd_pending s <= fuel -> rd_wf s -> chunked (rd_rx s) ->
  amount <= rd_pending s \/
    rd_decoded s + rd_pending s + remain <= length (rd_buf s) /\ amount - rd_pending s <= remain /\
    amount - rd_pending s <= length (stream (rd_rx s)) ->
  fst (advance_loop fuel amount remain s) = Ok tt.
Proof.
  induction fuel as [|fuel IH]; intros amount remain s Hf Hw Hc H.
  - cbn [advance_loop]. unfold bind at 1, get at 1. destruct (Nat.leb_spec amount (rd_pending s)); [reflexivity|lia].
  - destruct (Nat.leb_spec amount (rd_pending s)) as [Hle|Hgt].
    { cbn [advance_loop]. unfold bind at 1, get at 1. now rewrite (proj2 (Nat.leb_le _ _) Hle). }
    destruct H as [H|(H1 & H2 & H3)]; [lia|].
    rewrite advance_step by lia.
    destruct (rx_read_some_chunked remain (rd_rx s) Hc) as [[Hnil Hr]|(got & rx1 & Hr & Hg & Hl & Hs1 & Hc1)]; [lia| |].
    { rewrite Hnil in H3. cbn in H3. lia. }
    rewrite Hr. assert (length got <> 0) by (destruct got; [contradiction|discriminate]).
    rewrite Hs1, app_length in H3.
    apply IH; unfold rd_wf in *; cbn [rd_buf rd_decoded rd_pending rd_rx rd_ks]; [lia|rewrite splice_length by lia; lia|exact Hc1|].
    rewrite splice_length by lia. lia.
Qed.

Lemma advance_no_room fuel amount remain s : rd_wf s -> rd_pending s < amount ->
  length (rd_buf s) < rd_decoded s + rd_pending s + remain -> advance_loop (S fuel) amount remain s = (Panic PSlice, s).
Proof.
  intros Hw Hp Hr. cbn [advance_loop]. unfold bind at 1, get at 1. destruct (Nat.leb_spec amount (rd_pending s)); [lia|].
  unfold bind at 1, lift at 1. rewrite slice_from_ok by exact Hw.
  unfold bind at 1, lift at 1, slice_rng at 1. cbn [Nat.leb andb]. rewrite skipn_length.
  destruct (Nat.leb_spec remain (length (rd_buf s) - (rd_decoded s + rd_pending s))); [unfold rd_wf in Hw; lia|]. reflexivity.
Qed.

Lemma advance_short : forall fuel amount remain s, amount - rd_pending s <= fuel -> rd_wf s -> chunked (rd_rx s) ->
  rd_pending s + length (stream (rd_rx s)) < amount -> amount - rd_pending s <= remain ->
  rd_decoded s + rd_pending s + remain <= length (rd_buf s) ->
  fst (advance_loop fuel amount remain s) = Err IoError.
Proof.
  induction fuel as [|fuel IH]; intros amount remain s Hf Hw Hc H H1 H2; [lia|].
  rewrite advance_step by lia.
  destruct (rx_read_some_chunked remain (rd_rx s) Hc) as [[Hnil Hr]|(got & rx1 & Hr & Hg & Hl & Hs1 & Hc1)]; [lia| |].
  { rewrite Hr. reflexivity. }
  rewrite Hr. assert (length got <> 0) by (destruct got; [contradiction|discriminate]).
  rewrite Hs1, app_length in H. unfold rd_wf in *.
  apply IH; unfold rd_wf in *; cbn [rd_buf rd_decoded rd_pending rd_rx rd_ks]; try (rewrite splice_length by lia); try lia; exact Hc1.
Qed.

Lemma read_left C s h y n : rd_wf s -> chunked (rd_rx s) -> stream (rd_rx s) = h ++ y -> length h = 5 -> known_type h ->
  hdr_content_length h = Ok n -> n <= length (rd_buf s) ->
  let x := pend s in
  (length x < n -> length (rd_buf s) < place s n + length x + n -> fst (rd_read C s) = Panic PSlice) /\
  (length x < n -> place s n + length x + n <= length (rd_buf s) -> length (x ++ y) < n -> fst (rd_read C s) = Err IoError) /\
  (n <= length x \/ place s n + length x + n <= length (rd_buf s) /\ n <= length (x ++ y) ->
   omap anywhere (fst (rd_read C s)) = omap fst (sr_decode C h 0 (firstn n (x ++ y)) (r_transcript (rd_ks s)))).
Proof.
  intros Hw Hc Hs Hl Hk Hn Hb x.
  assert (Hxl : length x = rd_pending s) by (unfold x, pend; rewrite sub_length; unfold rd_wf in Hw; lia).
  destruct (header_loop_chunked 6 [] (rd_rx s)) as [H1 _]; [cbn; lia|cbn; lia|exact Hc|].
  destruct (H1 h y Hs ltac:(cbn; lia)) as (rx' & K1 & K2 & K3). clear H1.
  assert (Hrd : rd_read C s = (advance n ;;; consume_record C h) (mk_rdst (rd_buf s) (rd_decoded s) (rd_pending s) rx' (rd_ks s))).
  { unfold rd_read, bind at 1, on_rx at 1, next_record_header, bind at 1. rewrite K1. cbn [app]. unfold lift at 1. rewrite Hk.
    unfold bind at 1, lift at 1. rewrite Hn. reflexivity. }
  rewrite Hrd. clear Hrd K1. unfold advance. set (s1 := mk_rdst (rd_buf s) (rd_decoded s) (rd_pending s) rx' (rd_ks s)).
  assert (Hw1 : rd_wf s1) by exact Hw.
  destruct (ensure_contiguous n s1) as [o2 s2] eqn:Ee.
  destruct (ensure_any n s1 o2 s2 Hw1 Ee) as (Hw2 & Hb2 & Hk2 & Hr2 & Hp2 & H2).
  destruct (ensure_pend n s1 o2 s2 Hw1 Ee) as (Hpe & _). change (pend s1) with x in Hpe.
  assert (Hd2 : o2 = Ok tt /\ rd_decoded s2 = place s n).
  { revert Ee. unfold ensure_contiguous, bind at 1, get at 1. unfold s1. cbn [rd_buf rd_decoded rd_pending rd_rx rd_ks]. unfold place.
    destruct (Nat.ltb_spec (length (rd_buf s)) (rd_decoded s + n)).
    - destruct (Nat.ltb_spec (length (rd_buf s)) n); [lia|]. unfold bind, lift, put. unfold rd_wf in Hw. rewrite slice_rng_ok by lia.
      intros E. apply pair_equal_spec in E as [<- <-]. auto.
    - intros E. apply pair_equal_spec in E as [<- <-]. auto. }
  destruct Hd2 as [-> Hd2]. clear H2.
  change (rd_pending s1) with (rd_pending s) in Hp2. change (rd_buf s1) with (rd_buf s) in Hb2. change (rd_rx s1) with rx' in Hr2. change (rd_ks s1) with (rd_ks s) in Hk2.
  split; [|split].
  - intros Hx1 Hx2. unfold bind at 1. unfold bind at 1. rewrite Ee, advance_no_room; [reflexivity|exact Hw2|lia|lia].
  - intros Hx1 Hx2 Hx3. rewrite app_length in Hx3. unfold bind at 1. unfold bind at 1. rewrite Ee.
    pose proof (advance_short (S n) n n s2) as Ha. destruct (advance_loop (S n) n n s2) as [o3 s3]. cbn [fst] in Ha.
    rewrite Ha; [reflexivity|lia|exact Hw2|now rewrite Hr2|rewrite Hr2, K2; lia|lia|lia].
  - intros Hx. unfold bind at 1. unfold bind at 1. rewrite Ee.
    pose proof (advance_enough (S n) n n s2) as Ha. destruct (advance_loop (S n) n n s2) as [o3 s3] eqn:Ea. cbn [fst] in Ha.
    assert (Eo : o3 = Ok tt).
    { apply Ha; [lia|exact Hw2|now rewrite Hr2|]. rewrite Hr2, K2. rewrite app_length in Hx. lia. }
    clear Ha. rewrite Eo in *. destruct (advance_loop_stream _ _ _ _ _ _ Hw2 Ea) as (u & Hu1 & Hu2). rewrite Hr2, K2 in Hu1. rewrite Hpe in Hu2.
    apply advance_loop_any in Ea; [|lia|exact Hw2]. destruct Ea as (Hw3 & Hb3 & Hd3 & Hk3 & Hr3 & H3).
    destruct (consume_ok C h n s3 Hl Hn Hw3 H3) as [Hdl Hcr]. rewrite Hcr. clear Hcr.
    assert (Hdata : sub (rd_buf s3) (rd_decoded s3) n = firstn n (x ++ y)).
    { rewrite Hu1, app_assoc, <- Hu2. unfold pend. unfold sub at 2. rewrite firstn_app, firstn_firstn.
      replace (n - _) with 0.
      2:{ rewrite firstn_length, skipn_length. unfold rd_wf in Hw3. lia. }
      cbn [firstn]. rewrite app_nil_r. replace (Nat.min n (rd_pending s3)) with n by lia. reflexivity. }
    rewrite Hdata, Hk3, Hk2. pose proof (sr_decode_anywhere C h (rd_decoded s3) (firstn n (x ++ y)) (r_transcript (rd_ks s))) as Hany.
    destruct (sr_decode C h (rd_decoded s3) (firstn n (x ++ y)) (r_transcript (rd_ks s))) as [[rec tr']|ee|xx| |];
      rewrite <- Hany; reflexivity.
Qed.
