(** * C17: what a transport error or a cancellation in the middle of a record does, for every record and every point *)
From Coq Require Import List NArith Arith Bool Lia ZArith.
From Coq.Strings Require Import Byte.
From Coq Require Import ZifyBool ZifyNat ZifyN.
From Verif Require Import Base ParseBuffer Buffer Codes Extensions Crypto KeySchedule Config Handshake Record
  WriteBuffer Transport RecordReader ReadBuffer Connection Api BaseProofs ParseProofs Toy SpecWire SpecKeys
  SpecRecord SpecRead SpecChunk FrameProofs ReadProofs ServeProofs RecvProofs PropFrame ToyRun SpecInterrupt InterruptProofs.
Import ListNotations.

Ltac Zify.zify_post_hook ::= Z.div_mod_to_equations.

(** ** A call that waits for a record passes on what the record reader says *)

Definition passed {A B} (o : outcome tls_error A) (r : outcome tls_error B) : Prop :=
  match o with
  | Ok _ => False
  | Err e => r = Err e
  | Panic x => r = Panic x
  | Diverge => r = Diverge
  | Cancelled => r = Cancelled
  end.

Lemma step_passed C W c o q s' : crinv C W c -> unread c = [] -> waits o = true -> cn_opened c = true ->
  rd_read C (cn_rd c) = (q, s') -> (forall v, q <> Ok v) ->
  exists r, passed q r /\ step C o c = (r, with_rd c s' (cn_dec c) true).
Proof.
  intros Hr Hu Ho Hop Hq Hn. destruct (step_waits C o c Ho) as (A & m & g & Hst). rewrite Hst.
  assert (Hf : exists r, passed q r /\ fill_loop C (S (rx_size (rd_rx (cn_rd c)))) (cn_rd c, (cn_dec c, true)) = (r, (s', (cn_dec c, true)))).
  { rewrite (fill_empty C W _ _ _ _ Hr Hu). unfold bind at 1, read_application_data, bind at 1, on_fst. cbn [fst snd]. rewrite Hq.
    destruct q as [v| | | |]; [now destruct (Hn v)| | | |]; eexists; (split; [reflexivity|reflexivity]). }
  destruct Hf as (r & Hp & Hf).
  unfold bind at 1. unfold on_rh. rewrite Hop. unfold bind at 1. unfold rh_read_buffered, bind at 1, get at 1. cbn [fst snd].
  unfold bind at 1. rewrite Hf. destruct q as [v| | | |]; [now destruct (Hn v)| | | |]; cbn in Hp; subst r; eexists; (split; [reflexivity|reflexivity]).
Qed.

Lemma struck_not_ok {A} e (o : outcome tls_error A) : struck e o -> forall v, o <> Ok v.
Proof. intros []; discriminate. Qed.
Lemma struck_passed {A B} e (o : outcome tls_error A) (r : outcome tls_error B) : struck e o -> passed o r -> struck e r.
Proof. intros [] H; cbn in H; subst; constructor. Qed.
Lemma struck_returned {A} e (o : outcome tls_error A) : struck e o -> match o with Panic _ | Diverge => False | _ => True end.
Proof. now intros []. Qed.

(** ** The theorems *)

(** Fewer than five bytes of a record have arrived when the transport fails or the call is
    cancelled: the call reports that, and these bytes are gone.  The connection is the one that
    never received them, so that the next call takes the rest of the record for the start of one. *)
Theorem C17_header_refuted : forall C L c o pre e rx', crypto_ok C -> in_use C L c -> cn_opened c = true -> unread c = [] -> at_boundary c ->
  waits o = true -> rd_rx (cn_rd c) = pre ++ e :: rx' -> chunked pre -> fault e -> length (stream pre) < 5 ->
  exists r, struck e r /\ step C o c = (r, with_rx rx' c).
Proof.
  intros C L c o pre e rx' HC Hin Hop Hu Hb Ho Hrx Hc He Hl.
  destruct (in_use_recv C L c HC Hin) as (W & Hr).
  destruct (read_header_struck C (cn_rd c) pre e rx' Hrx Hc He Hl) as (q & Hq & Hread).
  destruct (step_passed C W c o q _ Hr Hu Ho Hop Hread (struck_not_ok e q Hq)) as (r & Hp & Hs).
  exists r. split; [exact (struck_passed e q r Hq Hp)|]. rewrite Hs. unfold with_rd, with_rx. now rewrite Hop.
Qed.

(** The header has arrived, and a part of the body: the header is gone, and the part of the
    body stays at the front of what the next call reads. *)
Theorem C17_body_refuted : forall C L c o pre e rx' h x n, crypto_ok C -> in_use C L c -> cn_opened c = true -> unread c = [] -> at_boundary c ->
  waits o = true -> rd_rx (cn_rd c) = pre ++ e :: rx' -> chunked pre -> fault e ->
  stream pre = h ++ x -> length h = 5 -> type_known h -> be_val (skipn 3 h) = N.of_nat n -> length x < n <= room c ->
  exists r c', struck e r /\ step C o c = (r, c') /\ rd_rx (cn_rd c') = rx' /\ left_over (cn_rd c') = x /\
    rd_ks (cn_rd c') = rd_ks (cn_rd c) /\ cn_wh c' = cn_wh c /\ cn_opened c' = true /\ unread c' = [] /\ room c' = room c.
Proof.
  intros C L c o pre e rx' h x n HC Hin Hop Hu Hb Ho Hrx Hc He Hs Hl Hk Hn Hx.
  destruct (in_use_recv C L c HC Hin) as (W & Hr).
  destruct (hdr_content_length_ok h Hl) as (n' & En & Env & _). replace n' with n in En by lia.
  destruct (read_body_struck C (cn_rd c) pre e rx' h x n) as (q & s' & Hq & Hread & K1 & K2 & K3 & K4 & K5 & K6);
    [exact Hb|apply Hr|exact Hrx|exact Hc|exact He|exact Hs|exact Hl|now apply type_known_ok|exact En|exact Hx|].
  destruct (step_passed C W c o q _ Hr Hu Ho Hop Hread (struck_not_ok e q Hq)) as (r & Hp & Hst).
  exists r, (with_rd c s' (cn_dec c) true). split; [exact (struck_passed e q r Hq Hp)|]. split; [exact Hst|].
  cbn [with_rd cn_rd cn_wh cn_opened]. repeat (split; [assumption || reflexivity|]). split; [|exact K6].
  unfold unread, unread_of. cbn [with_rd cn_rd cn_dec].
  pose proof (proj1 (unread_nil C W _ _ Hr) Hu) as E. rewrite E, Nat.sub_diag. reflexivity.
Qed.

(** The read after that: the next five bytes from the transport are taken for a header, and the
    body is taken from what was left over before anything else.  It panics if what was left over and
    a whole body do not fit into the buffer together. *)
Theorem C17_next_refuted : forall C s h y n, rd_decoded s + rd_pending s <= length (rd_buf s) -> chunked (rd_rx s) ->
  stream (rd_rx s) = h ++ y -> length h = 5 -> type_known h -> be_val (skipn 3 h) = N.of_nat n -> n <= length (rd_buf s) ->
  let x := left_over s in
  (length x < n -> length (rd_buf s) < body_at s n + length x + n -> fst (rd_read C s) = Panic PSlice) /\
  (length x < n -> body_at s n + length x + n <= length (rd_buf s) -> length (x ++ y) < n -> fst (rd_read C s) = Err IoError) /\
  (n <= length x \/ body_at s n + length x + n <= length (rd_buf s) /\ n <= length (x ++ y) ->
   map (omap anywhere) [fst (rd_read C s)] = meaning C (r_transcript (rd_ks s)) [(h, firstn n (x ++ y))]).
Proof.
  intros C s h y n Hw Hc Hs Hl Hk Hn Hb x.
  destruct (hdr_content_length_ok h Hl) as (n' & En & Env & _). replace n' with n in En by lia.
  destruct (read_left C s h y n Hw Hc Hs Hl (type_known_ok h Hl Hk) En Hb) as (H1 & H2 & H3).
  split; [exact H1|]. split; [exact H2|]. intros H. specialize (H3 H). fold (left_over s) in H3. change (pend s) with x in H3.
  cbn [map meaning]. rewrite H3. destruct (sr_decode _ _ _ _ _) as [[rec tr]| | | |]; reflexivity.
Qed.

(** Two calls on a connection: when [x] bytes of a record had arrived at the fault and the next
    five bytes announce a longer body with no room for both, the second call panics. *)
Theorem C17_panics_refuted : forall C L c o1 o2 pre e rx' h x n h2 y n2, crypto_ok C -> in_use C L c -> cn_opened c = true -> unread c = [] -> at_boundary c ->
  waits o1 = true -> waits o2 = true -> rd_rx (cn_rd c) = pre ++ e :: rx' -> chunked pre -> fault e -> chunked rx' ->
  stream pre = h ++ x -> length h = 5 -> type_known h -> be_val (skipn 3 h) = N.of_nat n -> length x < n <= room c ->
  stream rx' = h2 ++ y -> length h2 = 5 -> type_known h2 -> be_val (skipn 3 h2) = N.of_nat n2 -> length x < n2 <= room c -> room c < length x + n2 ->
  exists r, struck e r /\ map snd (fst (run C [o1; o2] c)) = [r; Panic PSlice].
Proof.
  intros C L c o1 o2 pre e rx' h x n h2 y n2 HC Hin Hop Hu Hb Ho1 Ho2 Hrx Hc He Hc2 Hs Hl Hk Hn Hx Hs2 Hl2 Hk2 Hn2 Hx2 Hroom.
  destruct (C17_body_refuted C L c o1 pre e rx' h x n HC Hin Hop Hu Hb Ho1 Hrx Hc He Hs Hl Hk Hn Hx)
    as (r & c' & Hst & Hstep & K1 & K2 & K3 & K4 & K5 & K6 & K7).
  exists r. split; [exact Hst|].
  assert (Hin' : in_use C L c').
  { eapply in_use_step; [exact Hin| |exact Hstep|exact (struck_returned e r Hst)]. destruct o1; try discriminate; reflexivity. }
  destruct (in_use_recv C L c' HC Hin') as (W & Hr).
  assert (Hwf : rd_wf (cn_rd c')) by apply Hr.
  destruct (C17_next_refuted C (cn_rd c') h2 y n2) as (H1 & _); [exact Hwf|now rewrite K1|rewrite K1; exact Hs2|exact Hl2|exact Hk2|exact Hn2|unfold room in *; lia|].
  rewrite K2 in H1. unfold room in *.
  specialize (H1 ltac:(lia) ltac:(unfold body_at; lia)).
  destruct (rd_read C (cn_rd c')) as [q s'] eqn:Er. cbn [fst] in H1. subst q.
  destruct (step_passed C W c' o2 _ _ Hr K6 Ho2 K5 Er ltac:(discriminate)) as (r2 & Hp & Hs'). cbn in Hp. subst r2.
  cbn [run]. rewrite Hstep. destruct r as [|k| | |]; try (now destruct (struck_returned _ _ Hst)); cbn [run]; rewrite Hs'; destruct o1; try discriminate Ho1; destruct o2; try discriminate Ho2; reflexivity.
Qed.

(** ** The hypotheses are met *)

Lemma toy_conn_ready rx : in_use toy 300 (toy_conn rx) /\ cn_opened (toy_conn rx) = true /\ unread (toy_conn rx) = [] /\ at_boundary (toy_conn rx) /\
  rd_rx (cn_rd (toy_conn rx)) = rx /\ room (toy_conn rx) = 400.
Proof.
  split; [apply established_in_use, toy_conn_established|]. split; [reflexivity|]. split; [reflexivity|]. split; [reflexivity|]. split; reflexivity.
Qed.

(** Three bytes of a header, then a timeout: they are lost. *)
Definition cut_header : list rx_event := [RxData [x17]; RxData [x03; x03]; RxErr 7%N; RxData [x00; x11]].
Example C17_header_case : forall o, waits o = true ->
  step toy o (toy_conn cut_header) = (Err (Io 7%N), with_rx [RxData [x00; x11]] (toy_conn cut_header)).
Proof.
  intros o Ho. destruct (toy_conn_ready cut_header) as (K1 & K2 & K3 & K4 & K5 & _).
  destruct (C17_header_refuted toy 300 (toy_conn cut_header) o [RxData [x17]; RxData [x03; x03]] (RxErr 7%N) [RxData [x00; x11]]) as (r & Hr & Hs);
    [exact toy_ok|exact K1|exact K2|exact K3|exact K4|exact Ho|exact K5|repeat constructor; eexists; (split; [reflexivity|discriminate])|right; eauto|cbn; lia|].
  inversion Hr. subst. exact Hs.
Qed.

(** A record of 300 bytes of which 150 have arrived when the call is cancelled; the next call finds
    a header that announces 300 bytes, and panics. *)
Definition cut_body : list rx_event :=
  [RxData (rfc_header 300); RxData (zeros 150); RxCancel; RxData (rfc_header 300 ++ zeros 300)].
Example C17_panics_case : forall o1 o2, waits o1 = true -> waits o2 = true ->
  map snd (fst (run toy [o1; o2] (toy_conn cut_body))) = [Cancelled; Panic PSlice].
Proof.
  intros o1 o2 Ho1 Ho2. destruct (toy_conn_ready cut_body) as (K1 & K2 & K3 & K4 & K5 & K6).
  destruct (C17_panics_refuted toy 300 (toy_conn cut_body) o1 o2 [RxData (rfc_header 300); RxData (zeros 150)] RxCancel
    [RxData (rfc_header 300 ++ zeros 300)] (rfc_header 300) (zeros 150) 300 (rfc_header 300) (zeros 300) 300) as (r & Hr & Hs);
    [exact toy_ok|exact K1|exact K2|exact K3|exact K4|exact Ho1|exact Ho2|exact K5|repeat constructor; eexists; (split; [reflexivity|discriminate])|now left
    |repeat constructor; eexists; (split; [reflexivity|discriminate])
    |reflexivity|reflexivity|cbn; tauto|reflexivity|rewrite K6; unfold zeros; rewrite repeat_length; lia
    |cbn [stream]; reflexivity|reflexivity|cbn; tauto|reflexivity|rewrite K6; unfold zeros; rewrite repeat_length; lia
    |rewrite K6; unfold zeros; rewrite repeat_length; lia|].
  inversion Hr. subst. exact Hs.
Qed.

(** A body of four bytes interrupted after three, then a record of two bytes: what is read is a
    record whose body is the beginning of the interrupted one. *)
Example C17_next_case :
  let rx := [RxData (rfc_header 4 ++ [x01; x02; x03]); RxErr 7%N; RxData (rfc_header 2 ++ [x0a; x0b])] in
  map (omap anywhere) (fst (reads toy 2 (rd_new (zeros 16) rx (ks_r (ks_new toy))))) =
    [Err (Io 7%N); Ok (SR_AppData (rfc_header 2) 0 (cb_wrap_with_pos [x01; x02] 2))].
Proof. vm_compute. reflexivity. Qed.

Print Assumptions C17_header_refuted.
Print Assumptions C17_body_refuted.
Print Assumptions C17_next_refuted.
Print Assumptions C17_panics_refuted.
