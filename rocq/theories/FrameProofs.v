(** * The record reader: framing, for arbitrary and for well-behaved transports *)
From Coq Require Import List NArith Arith Bool Lia ZArith.
From Coq.Strings Require Import Byte.
From Coq Require Import ZifyBool ZifyNat ZifyN.
From Verif Require Import Base ParseBuffer Buffer Codes Extensions Crypto KeySchedule Config Handshake Record
  Transport RecordReader ReadBuffer Connection Api BaseProofs ParseProofs SpecRead.
Import ListNotations.

(** ** The transport *)

Lemma rx_size_cons e rx : rx_size (e :: rx) = rx_event_size e + rx_size rx.
Proof. reflexivity. Qed.

Arguments rx_size : simpl never.

Lemma rx_read_some_any n rx o rx' : rx_read_some n rx = (o, rx') ->
  rx_size rx' <= rx_size rx /\
  match o with
  | Ok got => got <> [] /\ length got <= n /\ rx_size rx' + length got <= rx_size rx
  | Err e => e = IoError \/ exists k, e = Io k
  | Cancelled => True
  | _ => False
  end.
Proof.
  unfold rx_read_some, bind, map_err, rx_read. destruct rx as [|[b|k|] r].
  - cbn. intros H. inversion H. subst. auto.
  - cbn [omap_err]. destruct (firstn n b) as [|x l] eqn:Eg.
    + cbn. intros H. inversion H. subst. split; [|auto].
      destruct (skipn n b) as [|y t] eqn:Es; rewrite !rx_size_cons; [cbn; lia|].
      cbn [rx_event_size]. assert (length b = length (firstn n b) + length (skipn n b)) by (rewrite <- app_length, firstn_skipn; reflexivity).
      rewrite Eg, Es in H0. cbn [length] in *. lia.
    + cbn [length Nat.eqb]. unfold ret. intros H. inversion H. subst o rx'. clear H.
      assert (H : length b = length (firstn n b) + length (skipn n b)) by (rewrite <- app_length, firstn_skipn; reflexivity).
      assert (Hn : length (firstn n b) <= n) by (rewrite firstn_length; lia).
      rewrite Eg in *. assert (rx_size match skipn n b with [] => r | _ :: _ => RxData (skipn n b) :: r end + length (x :: l) <= rx_size (RxData b :: r)).
      { destruct (skipn n b) as [|y t] eqn:Es; rewrite !rx_size_cons; cbn [rx_event_size length] in *; lia. }
      split; [lia|]. split; [discriminate|]. split; [exact Hn|exact H0].
  - cbn. intros H. inversion H. subst. rewrite rx_size_cons. split; [cbn; lia|]. right. eauto.
  - cbn. intros H. inversion H. subst. rewrite rx_size_cons. split; [cbn; lia|exact I].
Qed.

Lemma stream_cons b rx : stream (RxData b :: rx) = b ++ stream rx. Proof. reflexivity. Qed.
Lemma chunked_cons b rx : b <> [] -> chunked rx -> chunked (RxData b :: rx).
Proof. intros Hb H. constructor; eauto. Qed.

Lemma rx_read_some_chunked n rx : chunked rx -> 0 < n ->
  rx = [] /\ rx_read_some n rx = (Err IoError, []) \/
  exists got rx', rx_read_some n rx = (Ok got, rx') /\ got <> [] /\ length got <= n /\
    stream rx = got ++ stream rx' /\ chunked rx'.
Proof.
  intros Hc Hn. destruct Hc as [|e rx (b & -> & Hb) Hc]; [left; split; reflexivity|right].
  destruct b as [|x b]; [contradiction|]. destruct n as [|n]; [lia|].
  exists (x :: firstn n b), (match skipn n b with [] => rx | _ => RxData (skipn n b) :: rx end).
  split.
  - unfold rx_read_some, bind, map_err, rx_read. cbn [firstn skipn omap_err length Nat.eqb].
    unfold ret. destruct (skipn n b); reflexivity.
  - split; [discriminate|]. split; [cbn [length]; rewrite firstn_length; lia|]. split.
    + rewrite stream_cons. cbn [app]. f_equal. rewrite <- (firstn_skipn n b) at 1. rewrite <- app_assoc. f_equal.
      destruct (skipn n b); reflexivity.
    + destruct (skipn n b); [exact Hc|]. apply chunked_cons; [discriminate|exact Hc].
Qed.

Lemma stream_nil rx : chunked rx -> stream rx = [] -> rx = [].
Proof.
  intros [|e r (b & -> & Hb) _] H; [reflexivity|]. rewrite stream_cons in H. now apply app_eq_nil in H as [H _].
Qed.

(** ** The header *)

Lemma header_loop_any : forall fuel acc rx o rx', 5 - length acc <= fuel -> length acc <= 5 ->
  header_loop fuel acc rx = (o, rx') ->
  rx_size rx' <= rx_size rx /\
  match o with
  | Ok h => length h = 5 /\ rx_size rx' + (5 - length acc) <= rx_size rx
  | Err e => e = IoError \/ exists k, e = Io k
  | Cancelled => True
  | _ => False
  end.
Proof.
  induction fuel as [|fuel IH]; intros acc rx o rx' Hf Ha H.
  - cbn in H. assert (E : length acc = 5) by lia. unfold HEADER_LEN in H. rewrite E in H. cbn in H. inversion H. subst. lia.
  - cbn [header_loop] in H. unfold HEADER_LEN in H. destruct (Nat.eqb_spec (length acc) 5) as [E|E].
    + inversion H. subst. lia.
    + unfold bind at 1 in H. destruct (rx_read_some (5 - length acc) rx) as [o1 rx1] eqn:E1.
      apply rx_read_some_any in E1 as [Hs H1]. destruct o1 as [got|e|x| |]; try contradiction.
      * destruct H1 as (Hg & Hl & Hs1). assert (length got <> 0) by (destruct got; [contradiction|discriminate]).
        apply IH in H; [|rewrite app_length; lia|rewrite app_length; lia]. destruct H as [Hs2 H]. split; [lia|].
        destruct o; auto. rewrite app_length in H. lia.
      * inversion H. subst. auto.
      * inversion H. subst. auto.
Qed.

Lemma header_loop_chunked : forall fuel acc rx, 5 - length acc <= fuel -> length acc <= 5 -> chunked rx ->
  (forall x y, stream rx = x ++ y -> length x = 5 - length acc ->
    exists rx', header_loop fuel acc rx = (Ok (acc ++ x), rx') /\ stream rx' = y /\ chunked rx') /\
  (length (stream rx) < 5 - length acc -> header_loop fuel acc rx = (Err IoError, [])).
Proof.
  induction fuel as [|fuel IH]; intros acc rx Hf Ha Hc.
  - assert (E : length acc = 5) by lia. split; [|lia]. intros x y Hs Hx. rewrite E in Hx. destruct x; [|discriminate].
    cbn [header_loop]. unfold HEADER_LEN. rewrite E. cbn. exists rx. rewrite app_nil_r. auto.
  - cbn [header_loop]. unfold HEADER_LEN. destruct (Nat.eqb_spec (length acc) 5) as [E|E].
    + split; [|lia]. intros x y Hs Hx. rewrite E in Hx. destruct x; [|discriminate]. exists rx. rewrite app_nil_r. auto.
    + destruct (rx_read_some_chunked (5 - length acc) rx Hc) as [[-> Hr]|(got & rx1 & Hr & Hg & Hl & Hs1 & Hc1)]; [lia| |].
      * split.
        -- intros x y Hs Hx. cbn in Hs. symmetry in Hs. apply app_eq_nil in Hs as [-> _]. cbn [length] in Hx. lia.
        -- intros _. unfold bind. now rewrite Hr.
      * assert (length got <> 0) by (destruct got; [contradiction|discriminate]).
        destruct (IH (acc ++ got) rx1) as [I1 I2]; [rewrite app_length; lia|rewrite app_length; lia|exact Hc1|].
        rewrite app_length in I1, I2. split.
        -- intros x y Hs Hx. rewrite Hs1 in Hs.
           destruct (app_eq_app _ _ _ _ Hs) as (z & [[Ha1 Ha2]|[Ha1 Ha2]]).
           ++ assert (length got = length x + length z) by (rewrite Ha1, app_length; reflexivity).
              assert (length z = 0) by lia. destruct z; [|discriminate]. rewrite app_nil_r in Ha1. subst x. cbn in Ha2.
              destruct (I1 [] (stream rx1) eq_refl) as (rx' & K1 & K2 & K3); [cbn [length]; lia|].
              exists rx'. unfold bind. rewrite Hr, K1, app_nil_r. rewrite Ha2. auto.
           ++ subst x. rewrite app_length in Hx. destruct (I1 z y Ha2) as (rx' & K1 & K2 & K3); [lia|].
              exists rx'. unfold bind. rewrite Hr, K1, <- app_assoc. auto.
        -- intros Hlt. unfold bind. rewrite Hr. apply I2. rewrite Hs1, app_length in Hlt. lia.
Qed.

(** ** The body *)

Definition rd_wf (s : rdst) : Prop := rd_decoded s + rd_pending s <= length (rd_buf s).

Lemma set_rng_sub_before {A} (l : list A) a bs n : n <= a -> a + length bs <= length l ->
  firstn n (splice l a bs) = firstn n l.
Proof.
  intros Hn Hl. unfold splice. rewrite firstn_app, firstn_firstn, firstn_length.
  replace (Nat.min n a) with n by lia. replace (n - Nat.min a (length l)) with 0 by lia. cbn. apply app_nil_r.
Qed.

Lemma advance_loop_any : forall fuel amount remain s o s',
  amount - rd_pending s <= fuel -> rd_wf s -> advance_loop fuel amount remain s = (o, s') ->
  rd_wf s' /\ length (rd_buf s') = length (rd_buf s) /\ rd_decoded s' = rd_decoded s /\ rd_ks s' = rd_ks s /\
  rx_size (rd_rx s') <= rx_size (rd_rx s) /\
  match o with
  | Ok _ => amount <= rd_pending s'
  | Err e => e = IoError \/ exists k, e = Io k
  | Panic x => x = PSlice \/ x = PArith
  | Cancelled => True
  | Diverge => False
  end.
Proof.
  induction fuel as [|fuel IH]; intros amount remain s o s' Hf Hw H.
  - cbn [advance_loop] in H. unfold bind at 1, get at 1 in H.
    destruct (Nat.leb_spec amount (rd_pending s)); [|lia]. inversion H. subst. auto 10.
  - cbn [advance_loop] in H. unfold bind at 1, get at 1 in H.
    destruct (Nat.leb_spec amount (rd_pending s)) as [Hle|Hgt]; [inversion H; subst; auto 10|].
    unfold bind at 1, lift at 1 in H. rewrite slice_from_ok in H by exact Hw.
    unfold bind at 1, lift at 1, slice_rng at 1 in H. cbn [Nat.leb andb] in H. rewrite skipn_length in H.
    destruct (Nat.leb_spec remain (length (rd_buf s) - (rd_decoded s + rd_pending s))) as [Hr|Hr]; cbn [andb] in H.
    2:{ inversion H. subst. auto 10. }
    unfold bind at 1, on_rx at 1 in H. unfold sub in H. cbn [skipn] in H. rewrite Nat.sub_0_r, firstn_length, skipn_length in H.
    replace (Nat.min remain _) with remain in H by lia.
    destruct (rx_read_some remain (rd_rx s)) as [o1 rx1] eqn:E1. apply rx_read_some_any in E1 as [Hs1 H1].
    destruct o1 as [got|e|x| |]; try contradiction.
    2:{ inversion H. subst. cbn. auto 10. }
    2:{ inversion H. subst. cbn. auto 10. }
    destruct H1 as (Hg & Hl & Hs2). unfold bind at 1, lift at 1 in H. rewrite usize_sub_ok in H by lia.
    unfold bind at 1, get at 1 in H. cbn [rd_buf rd_decoded rd_pending rd_rx rd_ks] in H.
    unfold bind at 1, lift at 1 in H. rewrite set_rng_ok in H by (unfold rd_wf in Hw; lia).
    unfold bind at 1, put at 1 in H.
    assert (length got <> 0) by (destruct got; [contradiction|discriminate]).
    apply IH in H; cbn [rd_buf rd_decoded rd_pending rd_rx rd_ks] in *.
    + destruct H as (H2 & H3 & H4 & H5 & H6 & H7). rewrite splice_length in H3 by lia.
      split; [exact H2|]. split; [exact H3|]. split; [exact H4|]. split; [exact H5|]. split; [lia|exact H7].
    + lia.
    + unfold rd_wf. cbn [rd_buf rd_decoded rd_pending]. rewrite splice_length by lia. unfold rd_wf in Hw. lia.
Qed.

Lemma advance_step fuel amount rem s : rd_pending s < amount -> rd_decoded s + rd_pending s + rem <= length (rd_buf s) ->
  advance_loop (S fuel) amount rem s =
    match rx_read_some rem (rd_rx s) with
    | (Ok got, rx1) => advance_loop fuel amount (rem - length got)
          (mk_rdst (splice (rd_buf s) (rd_decoded s + rd_pending s) got) (rd_decoded s) (rd_pending s + length got) rx1 (rd_ks s))
    | (o, rx1) => (omap (fun _ => tt) o, mk_rdst (rd_buf s) (rd_decoded s) (rd_pending s) rx1 (rd_ks s))
    end.
Proof.
  intros Hp Hb. cbn [advance_loop]. unfold bind at 1, get at 1. destruct (Nat.leb_spec amount (rd_pending s)); [lia|].
  unfold bind at 1, lift at 1. rewrite slice_from_ok by lia.
  unfold bind at 1, lift at 1. rewrite slice_rng_ok by (rewrite ?skipn_length; lia).
  unfold bind at 1, on_rx at 1. unfold sub. cbn [skipn]. rewrite Nat.sub_0_r, firstn_length, skipn_length.
  replace (Nat.min rem _) with rem by lia. destruct (rx_read_some rem (rd_rx s)) as [o rx1] eqn:E1.
  apply rx_read_some_any in E1 as [_ E1]. destruct o as [got|e|x| |]; try contradiction; try reflexivity.
  destruct E1 as (_ & Hl & _). unfold bind at 1, lift at 1. rewrite usize_sub_ok by lia.
  unfold bind at 1, get at 1. cbn [rd_buf rd_decoded rd_pending rd_rx rd_ks].
  unfold bind at 1, lift at 1. rewrite set_rng_ok by lia. reflexivity.
Qed.

Lemma advance_loop_chunked : forall fuel amount s, amount - rd_pending s <= fuel ->
  rd_pending s <= amount -> rd_decoded s + amount <= length (rd_buf s) -> chunked (rd_rx s) ->
  (forall x y, stream (rd_rx s) = x ++ y -> length x = amount - rd_pending s ->
    exists rx', advance_loop fuel amount (amount - rd_pending s) s
      = (Ok tt, mk_rdst (splice (rd_buf s) (rd_decoded s + rd_pending s) x) (rd_decoded s) amount rx' (rd_ks s)) /\
      stream rx' = y /\ chunked rx') /\
  (length (stream (rd_rx s)) < amount - rd_pending s ->
    exists s', advance_loop fuel amount (amount - rd_pending s) s = (Err IoError, s') /\ rd_rx s' = []).
Proof.
  induction fuel as [|fuel IH]; intros amount s Hf Hp Hd Hc.
  - assert (E : rd_pending s = amount) by lia. split; [|lia]. intros x y Hs Hx. assert (x = []) by (destruct x; [reflexivity|cbn in Hx; lia]). subst x.
    exists (rd_rx s). cbn [advance_loop]. unfold bind, get. rewrite E, Nat.leb_refl, splice_nil. split; [|auto].
    destruct s; cbn in *; subst; reflexivity.
  - destruct (Nat.leb_spec amount (rd_pending s)) as [Hle|Hgt].
    { assert (E : rd_pending s = amount) by lia. split; [|lia]. intros x y Hs Hx. assert (x = []) by (destruct x; [reflexivity|cbn in Hx; lia]). subst x.
      exists (rd_rx s). cbn [advance_loop]. unfold bind, get. rewrite E, Nat.leb_refl, splice_nil. split; [|auto].
      destruct s; cbn in *; subst; reflexivity. }
    set (rem := amount - rd_pending s) in *.
    destruct (rx_read_some_chunked rem (rd_rx s) Hc) as [[Hnil Hr]|(got & rx1 & Hr & Hg & Hl & Hs1 & Hc1)]; [lia| |].
    { split.
      - intros x y Hs Hx. rewrite Hnil in Hs. cbn in Hs. symmetry in Hs. apply app_eq_nil in Hs as [-> _]. cbn [length] in Hx. lia.
      - intros _. pose proof (advance_step fuel amount rem s) as Hstep. rewrite Hr in Hstep. rewrite Hstep by lia.
        eexists. split; [reflexivity|reflexivity]. }
    pose proof (advance_step fuel amount rem s) as Hstep. rewrite Hr in Hstep. rewrite Hstep by lia. clear Hstep.
    assert (length got <> 0) by (destruct got; [contradiction|discriminate]).
    set (s1 := mk_rdst _ _ _ _ _).
    destruct (IH amount s1) as [I1 I2]; subst s1; cbn [rd_buf rd_decoded rd_pending rd_rx rd_ks] in *;
      [lia|lia|rewrite splice_length by lia; lia|exact Hc1|].
    replace (amount - (rd_pending s + length got)) with (rem - length got) in * by lia. split.
    + intros x y Hs Hx. rewrite Hs1 in Hs.
      assert (Hz : exists z, x = got ++ z /\ stream rx1 = z ++ y).
      { destruct (app_eq_app _ _ _ _ Hs) as (z & [[Ha1 Ha2]|[Ha1 Ha2]]).
        - assert (length got = length x + length z) by (rewrite Ha1, app_length; reflexivity).
          assert (length z = 0) by lia. destruct z; [|discriminate]. rewrite app_nil_r in Ha1. subst x.
          exists []. rewrite app_nil_r. split; [reflexivity|]. now rewrite Ha2.
        - eauto. }
      destruct Hz as (z & -> & Hz). rewrite app_length in Hx.
      destruct (I1 z y Hz) as (rx' & K1 & K2 & K3); [lia|]. exists rx'. rewrite K1. split; [|auto].
      rewrite Nat.add_assoc, splice_app by lia. reflexivity.
    + intros Hlt. apply I2. rewrite Hs1, app_length in Hlt. lia.
Qed.

Lemma ensure_any len s o s' : rd_wf s -> ensure_contiguous len s = (o, s') ->
  rd_wf s' /\ length (rd_buf s') = length (rd_buf s) /\ rd_ks s' = rd_ks s /\ rd_rx s' = rd_rx s /\ rd_pending s' = rd_pending s /\
  match o with
  | Ok _ => rd_decoded s' + len <= length (rd_buf s)
  | Err e => e = InsufficientSpace /\ s' = s /\ length (rd_buf s) < len
  | _ => False
  end.
Proof.
  intros Hw H. unfold ensure_contiguous, bind at 1, get at 1 in H.
  destruct (Nat.ltb_spec (length (rd_buf s)) (rd_decoded s + len)) as [H1|H1].
  - destruct (Nat.ltb_spec (length (rd_buf s)) len) as [H2|H2].
    + inversion H. subst. auto 10.
    + unfold bind, lift, put in H. unfold rd_wf in Hw. rewrite slice_rng_ok in H by lia. inversion H. subst. clear H.
      cbn [rd_buf rd_decoded rd_pending rd_rx rd_ks]. unfold rd_wf. cbn [rd_buf rd_decoded rd_pending].
      replace (rd_decoded s + rd_pending s - rd_decoded s) with (rd_pending s) by lia.
      assert (Hl : length (sub (rd_buf s) (rd_decoded s) (rd_pending s)) = rd_pending s) by (rewrite sub_length; lia).
      rewrite splice_length by lia. repeat split; lia.
  - inversion H. subst. auto 10.
Qed.

Lemma ensure_ready len s : rd_pending s = 0 -> rd_wf s -> len <= length (rd_buf s) ->
  ensure_contiguous len s = (Ok tt, mk_rdst (rd_buf s) (if length (rd_buf s) <? rd_decoded s + len then 0 else rd_decoded s) 0 (rd_rx s) (rd_ks s)).
Proof.
  intros Hp Hw Hl. unfold ensure_contiguous, bind at 1, get at 1.
  destruct (Nat.ltb_spec (length (rd_buf s)) (rd_decoded s + len)) as [H1|H1].
  - destruct (Nat.ltb_spec (length (rd_buf s)) len) as [H2|H2]; [lia|].
    unfold bind, lift, put. unfold rd_wf in Hw. rewrite slice_rng_ok by lia. rewrite Hp.
    replace (rd_decoded s + 0 - rd_decoded s) with 0 by lia. unfold sub. cbn [firstn]. now rewrite splice_nil.
  - unfold ret. destruct s; cbn in *; subst; reflexivity.
Qed.

(** ** A whole record *)

Lemma consume_ok C h n s : length h = 5 -> hdr_content_length h = Ok n -> rd_wf s -> n <= rd_pending s ->
  let data := sub (rd_buf s) (rd_decoded s) n in
  length data = n /\
  consume_record C h s =
    match sr_decode C h (rd_decoded s) data (r_transcript (rd_ks s)) with
    | Ok rt => (Ok (fst rt), mk_rdst (rd_buf s) (rd_decoded s + n) (rd_pending s - n) (rd_rx s) (r_with_transcript (rd_ks s) (snd rt)))
    | o => (omap fst o, mk_rdst (rd_buf s) (rd_decoded s + n) (rd_pending s - n) (rd_rx s) (rd_ks s))
    end.
Proof.
  intros Hh Hn Hw Hp data. unfold rd_wf in Hw. unfold data. split; [rewrite sub_length; lia|].
  unfold consume_record. rewrite Hn. unfold bind at 1, lift at 1. unfold bind at 1, get at 1.
  unfold bind at 1, lift at 1. rewrite slice_from_ok by lia.
  unfold bind at 1, lift at 1. rewrite slice_rng_ok by (rewrite ?skipn_length; lia).
  unfold bind at 1, lift at 1. rewrite usize_sub_ok by lia. unfold bind at 1, put at 1.
  unfold sub. cbn [skipn]. rewrite Nat.sub_0_r.
  unfold bind, lift, modify, ret. cbn [rd_buf rd_decoded rd_pending rd_rx rd_ks].
  destruct (sr_decode _ _ _ _ _); reflexivity.
Qed.

Lemma hdr_decode_inv h x : hdr_decode h = Ok x -> x = h /\ hdr_decode h = Ok h.
Proof.
  intros H. assert (x = h); [|now subst]. revert H. unfold hdr_decode. destruct (index h 0); cbn; try discriminate.
  destruct (content_type_of _); congruence.
Qed.

Lemma hdr_decode_total h : length h = 5 -> hdr_decode h = Ok h \/ hdr_decode h = Err InvalidRecord.
Proof.
  intros Hl. unfold hdr_decode. destruct (index_ok (E:=tls_error) h 0) as (b & -> & _); [lia|]. cbn.
  destruct (content_type_of _); auto.
Qed.

Definition known_type (h : bytes) : Prop := hdr_decode h = Ok h.

Lemma framed_length h f : framed h f -> hdr_content_length h = Ok (length f).
Proof.
  intros [Hl Hv]. destruct (hdr_content_length_ok h Hl) as (n & -> & -> & _). rewrite Hv. f_equal. lia.
Qed.

(** ** Where the bytes come from *)

Lemma subseq_refl {A} (a : list A) : subseq a a. Proof. induction a; constructor; assumption. Qed.
Lemma subseq_app {A} (a b c d : list A) : subseq a b -> subseq c d -> subseq (a ++ c) (b ++ d).
Proof.
  intros H Hc. induction H as [b|x a b H IH|x a b H IH]; cbn [app].
  - induction b; cbn [app]; [exact Hc|now constructor].
  - now constructor.
  - now constructor.
Qed.
Lemma subseq_trans {A} (a b c : list A) : subseq a b -> subseq b c -> subseq a c.
Proof.
  intros H1 H2. revert a H1. induction H2 as [c|x b c H IH|x b c H IH]; intros a H1.
  - inversion H1. constructor.
  - constructor. now apply IH.
  - inversion H1; subst; constructor; now apply IH.
Qed.
Lemma subseq_right {A} (a b : list A) : subseq a (b ++ a).
Proof. induction b; cbn [app]; [apply subseq_refl|now constructor]. Qed.
Lemma subseq_left {A} (a b : list A) : subseq a (a ++ b).
Proof. pose proof (subseq_app a a [] b (subseq_refl a) (ss_nil b)) as H. now rewrite app_nil_r in H. Qed.

(** The bytes read but not yet part of a record. *)
Definition pend (s : rdst) : bytes := sub (rd_buf s) (rd_decoded s) (rd_pending s).

Lemma rx_read_some_stream n rx o rx' : rx_read_some n rx = (o, rx') ->
  match o with Ok got => stream rx = got ++ stream rx' | _ => stream rx = stream rx' end.
Proof.
  unfold rx_read_some, bind, map_err, rx_read. destruct rx as [|[b|k|] r].
  - cbn. intros H. inversion H. reflexivity.
  - cbn [omap_err].
    assert (E : stream (RxData b :: r) = firstn n b ++ stream (match skipn n b with [] => r | _ => RxData (skipn n b) :: r end)).
    { rewrite stream_cons. rewrite <- (firstn_skipn n b) at 1. rewrite <- app_assoc. f_equal. destruct (skipn n b); reflexivity. }
    intros H. destruct (firstn n b) as [|x l] eqn:Eg; cbn [length Nat.eqb] in H.
    + unfold fail in H. destruct (skipn n b); apply pair_equal_spec in H as [<- <-]; exact E.
    + unfold ret in H. destruct (skipn n b); apply pair_equal_spec in H as [<- <-]; exact E.
  - cbn. intros H. inversion H. reflexivity.
  - cbn. intros H. inversion H. reflexivity.
Qed.

Lemma header_loop_stream : forall fuel acc rx o rx', header_loop fuel acc rx = (o, rx') ->
  exists used, stream rx = used ++ stream rx' /\ forall h, o = Ok h -> h = acc ++ used.
Proof.
  induction fuel as [|fuel IH]; intros acc rx o rx' H; cbn [header_loop] in H; destruct (length acc =? HEADER_LEN);
    try (inversion H; subst; exists []; split; [reflexivity|]; intros h E; inversion E; now rewrite app_nil_r).
  unfold bind at 1 in H. destruct (rx_read_some (HEADER_LEN - length acc) rx) as [o1 rx1] eqn:E1.
  apply rx_read_some_stream in E1. destruct o1 as [got|e|x| |];
    try (inversion H; subst; exists []; split; [exact E1|discriminate]).
  apply IH in H as (used & Hs & Hh). exists (got ++ used). split; [rewrite E1, Hs; apply app_assoc|].
  intros h E. rewrite app_assoc. now apply Hh.
Qed.

Lemma ensure_pend len s o s' : rd_wf s -> ensure_contiguous len s = (o, s') -> pend s' = pend s /\ rd_rx s' = rd_rx s.
Proof.
  intros Hw H. unfold ensure_contiguous, bind at 1, get at 1 in H.
  destruct (length (rd_buf s) <? rd_decoded s + len); [destruct (length (rd_buf s) <? len)|]; try (inversion H; subst; auto).
  unfold bind, lift, put in H. unfold rd_wf in Hw. rewrite slice_rng_ok in H by lia. inversion H. subst. clear H.
  split; [|reflexivity]. unfold pend. cbn [rd_buf rd_decoded rd_pending].
  replace (rd_decoded s + rd_pending s - rd_decoded s) with (rd_pending s) by lia.
  assert (Hl : length (sub (rd_buf s) (rd_decoded s) (rd_pending s)) = rd_pending s) by (rewrite sub_length; lia).
  pose proof (splice_sub (rd_buf s) 0 (sub (rd_buf s) (rd_decoded s) (rd_pending s)) ltac:(lia)) as E. now rewrite Hl in E.
Qed.

Lemma sub_skipn_firstn {A} (l : list A) a n : sub l a n = skipn a (firstn (a + n) l).
Proof. unfold sub. rewrite skipn_firstn_comm. f_equal. lia. Qed.

Lemma advance_loop_stream : forall fuel amount remain s o s', rd_wf s -> advance_loop fuel amount remain s = (o, s') ->
  exists used, stream (rd_rx s) = used ++ stream (rd_rx s') /\ pend s' = pend s ++ used.
Proof.
  assert (G0 : forall s : rdst, exists used, stream (rd_rx s) = used ++ stream (rd_rx s) /\ pend s = pend s ++ used).
  { intros s. exists []. now rewrite app_nil_r. }
  induction fuel as [|fuel IH]; intros amount remain s o s' Hw H.
  - cbn [advance_loop] in H. unfold bind at 1, get at 1 in H. destruct (amount <=? rd_pending s); inversion H; subst; apply G0.
  - cbn [advance_loop] in H. unfold bind at 1, get at 1 in H.
    destruct (amount <=? rd_pending s); [inversion H; subst; apply G0|].
    unfold bind at 1, lift at 1 in H. rewrite slice_from_ok in H by exact Hw.
    unfold bind at 1, lift at 1, slice_rng at 1 in H. cbn [Nat.leb andb] in H. rewrite skipn_length in H.
    destruct (Nat.leb_spec remain (length (rd_buf s) - (rd_decoded s + rd_pending s))) as [Hr|Hr]; cbn [andb] in H.
    2:{ inversion H. subst. apply G0. }
    unfold bind at 1, on_rx at 1 in H. unfold sub in H. cbn [skipn] in H. rewrite Nat.sub_0_r, firstn_length, skipn_length in H.
    replace (Nat.min remain _) with remain in H by lia.
    destruct (rx_read_some remain (rd_rx s)) as [o1 rx1] eqn:E1. pose proof (rx_read_some_stream _ _ _ _ E1) as Hst. apply rx_read_some_any in E1 as [Hs1 H1].
    destruct o1 as [got|e|x| |]; try contradiction; try (inversion H; subst; exists []; rewrite app_nil_r; split; [exact Hst|reflexivity]).
    destruct H1 as (Hg & Hl & Hs2). unfold bind at 1, lift at 1 in H. rewrite usize_sub_ok in H by lia.
    unfold bind at 1, get at 1 in H. cbn [rd_buf rd_decoded rd_pending rd_rx rd_ks] in H.
    unfold bind at 1, lift at 1 in H. rewrite set_rng_ok in H by (unfold rd_wf in Hw; lia).
    unfold bind at 1, put at 1 in H. unfold rd_wf in Hw.
    apply IH in H; [|unfold rd_wf; cbn [rd_buf rd_decoded rd_pending]; rewrite splice_length by lia; lia].
    destruct H as (used & U1 & U2). cbn [rd_rx] in U1. exists (got ++ used). split; [rewrite Hst, U1; apply app_assoc|].
    rewrite U2, app_assoc. f_equal. unfold pend. cbn [rd_buf rd_decoded rd_pending]. rewrite sub_app_split.
    f_equal; [|apply splice_sub; lia]. rewrite !sub_skipn_firstn. now rewrite set_rng_sub_before by lia.
Qed.

(** A record [h], [f] was read completely from [s]; the reader is then [s']. *)
Definition complete (s s' : rdst) (h f : bytes) : Prop :=
  known_type h /\ framed h f /\ length f <= rd_decoded s' /\
  sub (rd_buf s') (rd_decoded s' - length f) (length f) = f /\
  (rd_pending s = 0 -> rd_pending s' = 0) /\ rx_size (rd_rx s') + 5 <= rx_size (rd_rx s) /\
  exists x, stream (rd_rx s) = h ++ x ++ stream (rd_rx s') /\ pend s ++ x = f ++ pend s'.

(** No complete record could be read. *)
Definition framing_failure {A} (pending : nat) (o : outcome tls_error A) : Prop :=
  match o with
  | Err e => e = IoError \/ (exists k, e = Io k) \/ e = InvalidRecord \/ e = InsufficientSpace
  | Cancelled => True
  | Panic x => (x = PSlice \/ x = PArith) /\ pending <> 0
  | _ => False
  end.

(** What one read of a record does, whatever the transport does. *)
Lemma rd_read_any C s o s' : rd_wf s -> rd_read C s = (o, s') ->
  rd_wf s' /\ length (rd_buf s') = length (rd_buf s) /\ rx_size (rd_rx s') <= rx_size (rd_rx s) /\
  (framing_failure (rd_pending s) o /\ rd_ks s' = rd_ks s /\
     (exists used, stream (rd_rx s) = used ++ stream (rd_rx s') /\ subseq (pend s') (pend s ++ used)) \/
   exists h f, complete s s' h f /\
     match sr_decode C h (rd_decoded s' - length f) f (r_transcript (rd_ks s)) with
     | Ok rt => o = Ok (fst rt) /\ rd_ks s' = r_with_transcript (rd_ks s) (snd rt)
     | Err e => o = Err e /\ rd_ks s' = rd_ks s
     | _ => False
     end).
Proof.
  intros Hw H. unfold rd_read in H. unfold bind at 1, on_rx at 1, next_record_header, bind at 1 in H.
  destruct (header_loop 6 [] (rd_rx s)) as [o1 rx1] eqn:Eh.
  destruct (header_loop_stream _ _ _ _ _ Eh) as (hu & Hu1 & Hu2).
  assert (Hsub0 : exists used, stream (rd_rx s) = used ++ stream rx1 /\ subseq (pend s) (pend s ++ used)).
  { exists hu. split; [exact Hu1|apply subseq_left]. }
  apply header_loop_any in Eh; [|cbn; lia|cbn; lia]. destruct Eh as [Hs1 Eh]. cbn [length Nat.sub] in Eh.
  destruct o1 as [h|e|x| |]; try contradiction.
  2:{ inversion H. subst. cbn [rd_buf rd_decoded rd_pending rd_rx rd_ks]. split; [exact Hw|]. split; [reflexivity|]. split; [exact Hs1|]. left. split; [cbn; tauto|]. split; [reflexivity|exact Hsub0]. }
  2:{ inversion H. subst. cbn [rd_buf rd_decoded rd_pending rd_rx rd_ks]. split; [exact Hw|]. split; [reflexivity|]. split; [exact Hs1|]. left. split; [exact I|]. split; [reflexivity|exact Hsub0]. }
  destruct Eh as [Hl Hs2]. specialize (Hu2 h eq_refl). cbn [app] in Hu2. subst hu. unfold lift at 1 in H.
  destruct (hdr_decode_total h Hl) as [Ed|Ed]; rewrite Ed in H.
  2:{ inversion H. subst. cbn [rd_buf rd_decoded rd_pending rd_rx rd_ks]. split; [exact Hw|]. split; [reflexivity|]. split; [exact Hs1|]. left. split; [cbn; tauto|]. split; [reflexivity|exact Hsub0]. }
  destruct (hdr_content_length_ok h Hl) as (n & En & Env & _).
  unfold bind at 1, lift at 1 in H. rewrite En in H.
  unfold advance in H. unfold bind at 1 in H.
  set (s1 := mk_rdst (rd_buf s) (rd_decoded s) (rd_pending s) rx1 (rd_ks s)) in H.
  assert (Hw1 : rd_wf s1) by exact Hw.
  unfold bind at 1 in H. destruct (ensure_contiguous n s1) as [o2 s2] eqn:Ee.
  destruct (ensure_any n s1 o2 s2 Hw1 Ee) as (Hw2 & Hb2 & Hk2 & Hr2 & Hp2 & H2).
  destruct (ensure_pend n s1 o2 s2 Hw1 Ee) as (Hpe & _).
  destruct o2 as [u|e|x| |]; try contradiction.
  2:{ inversion H. subst o s'. destruct H2 as (-> & -> & _). split; [exact Hw|]. split; [reflexivity|]. split; [exact Hs1|]. left. split; [cbn; tauto|]. split; [reflexivity|exact Hsub0]. }
  assert (Hpend : rd_pending s2 = 0 -> forall o3 s3, advance_loop (S n) n n s2 = (o3, s3) -> (forall x, o3 <> Panic x) /\ (o3 = Ok tt -> rd_pending s3 = n)).
  { clear - H2 Hw2 Hb2. intros Hp0.
    assert (G : forall fuel s o3 s3, rd_pending s <= n -> rd_decoded s + n <= length (rd_buf s) ->
       advance_loop fuel n (n - rd_pending s) s = (o3, s3) -> (forall x, o3 <> Panic x) /\ (o3 = Ok tt -> rd_pending s3 = n)).
    { induction fuel as [|fuel IH]; intros t o3 s3 Hp Hd H.
      - cbn [advance_loop] in H. unfold bind, get in H. destruct (Nat.leb_spec n (rd_pending t)); inversion H; subst;
        (split; [intros x Hx; discriminate|intros; try discriminate; lia]).
      - destruct (Nat.leb_spec n (rd_pending t)).
        { cbn [advance_loop] in H. unfold bind, get in H. rewrite (proj2 (Nat.leb_le _ _) H0) in H.
          inversion H; subst; split; [intros x Hx; discriminate|lia]. }
        rewrite advance_step in H by lia.
        destruct (rx_read_some _ (rd_rx t)) as [oo rxx] eqn:E1. apply rx_read_some_any in E1 as [_ H1].
        destruct oo as [got|e|x| |]; try contradiction;
          try (inversion H; subst; split; [intros y Hy; discriminate|intros Hy; discriminate]).
        destruct H1 as (Hg & Hl & _).
        replace (n - rd_pending t - length got) with (n - (rd_pending t + length got)) in H by lia.
        match type of H with advance_loop _ _ _ ?t1 = _ => refine (IH t1 o3 s3 _ _ H) end; cbn [rd_buf rd_decoded rd_pending rd_rx rd_ks]; [lia|rewrite splice_length by lia; lia]. }
    intros o3 s3 H. apply (G (S n) s2 o3 s3); [lia|lia|]. now rewrite Hp0, Nat.sub_0_r. }
  destruct (advance_loop (S n) n n s2) as [o3 s3] eqn:Ea.
  specialize (fun p => Hpend p o3 s3 eq_refl).
  destruct (advance_loop_stream _ _ _ _ _ _ Hw2 Ea) as (x & Hx1 & Hx2).
  rewrite Hr2 in Hx1. cbn [s1 rd_rx] in Hx1. rewrite Hpe in Hx2. change (pend s1) with (pend s) in Hx2.
  assert (Hsub3 : exists used, stream (rd_rx s) = used ++ stream (rd_rx s3) /\ subseq (pend s3) (pend s ++ used)).
  { exists (h ++ x). split; [rewrite Hu1, Hx1; apply app_assoc|]. rewrite Hx2. apply subseq_app; [apply subseq_refl|apply subseq_right]. }
  apply advance_loop_any in Ea; [|lia|exact Hw2]. destruct Ea as (Hw3 & Hb3 & Hd3 & Hk3 & Hr3 & H3).
  assert (Hrx : rx_size (rd_rx s3) + 5 <= rx_size (rd_rx s)) by (rewrite Hr2 in Hr3; cbn [s1 rd_rx] in *; lia).
  assert (Hks : rd_ks s3 = rd_ks s) by (rewrite Hk3, Hk2; reflexivity).
  destruct o3 as [u3|e|y| |]; try contradiction.
  2:{ inversion H. subst o s'. cbn [s1 rd_buf] in *. split; [exact Hw3|]. split; [congruence|]. split; [lia|]. left. split; [cbn; tauto|]. split; [exact Hks|exact Hsub3]. }
  2:{ inversion H. subst o s'. cbn [s1 rd_buf] in *. split; [exact Hw3|]. split; [congruence|]. split; [lia|]. left. split; [|split; [exact Hks|exact Hsub3]].
      cbn. split; [exact H3|]. intros Hp0. cbn [s1 rd_pending] in Hp2. rewrite <- Hp2 in Hp0. destruct (Hpend Hp0) as [Hx _]. now apply (Hx y). }
  2:{ inversion H. subst o s'. cbn [s1 rd_buf] in *. split; [exact Hw3|]. split; [congruence|]. split; [lia|]. left. split; [exact I|]. split; [exact Hks|exact Hsub3]. }
  destruct (consume_ok C h n s3 Hl En Hw3 H3) as [Hdl Hc]. rewrite Hc in H. clear Hc.
  set (data := sub (rd_buf s3) (rd_decoded s3) n) in *.
  pose proof (sr_decode_safe C h (rd_decoded s3) data (r_transcript (rd_ks s3)) Hl Ed ltac:(now rewrite Hdl)) as Hsafe.
  cbn [s1 rd_buf rd_pending] in *.
  assert (Hfin : exists s4, s4 = s' /\ rd_buf s' = rd_buf s3 /\ rd_decoded s' = rd_decoded s3 + n /\ rd_pending s' = rd_pending s3 - n /\
     rd_rx s' = rd_rx s3 /\ match sr_decode C h (rd_decoded s3) data (r_transcript (rd_ks s3)) with
     | Ok rt => o = Ok (fst rt) /\ rd_ks s' = r_with_transcript (rd_ks s3) (snd rt)
     | Err e => o = Err e /\ rd_ks s' = rd_ks s3
     | _ => False end).
  { exists s'. split; [reflexivity|].
    destruct (sr_decode C h (rd_decoded s3) data (r_transcript (rd_ks s3))) as [[rec tr']|e|y| |]; try contradiction;
      apply pair_equal_spec in H as [<- <-]; cbn [rd_buf rd_decoded rd_pending rd_rx rd_ks fst snd omap obind]; auto 10. }
  destruct Hfin as (s4 & _ & F1 & F2 & F3 & F4 & F5). clear H.
  unfold rd_wf in *. rewrite F1, F2, F3, F4. split; [lia|]. split; [congruence|]. split; [lia|]. right. exists h, data.
  assert (Hoff : rd_decoded s3 + n - length data = rd_decoded s3) by lia.
  split.
  - split; [exact Ed|]. split; [split; [exact Hl|lia]|]. rewrite F1, F2, F3, F4, Hoff. split; [lia|]. split; [now rewrite Hdl|].
    split; [intros Hp0; rewrite <- Hp2 in Hp0; destruct (Hpend Hp0) as [_ Hx]; destruct u3; rewrite (Hx eq_refl); lia|].
    split; [exact Hrx|]. exists x. split; [rewrite Hu1, Hx1; reflexivity|]. rewrite <- Hx2.
    unfold pend. rewrite F1, F2, F3. unfold data.
    replace (rd_pending s3) with (n + (rd_pending s3 - n)) at 1 by lia. apply sub_app_split.
  - rewrite Hoff. rewrite Hks in F5. exact F5.
Qed.

(** ** A reader between two records, on a transport that delivers everything *)

Definition ready (s : rdst) : Prop := rd_pending s = 0 /\ rd_decoded s <= length (rd_buf s) /\ chunked (rd_rx s).

(** Where the next record of [n] bytes goes. *)
Definition place (s : rdst) (n : nat) : nat :=
  if length (rd_buf s) <? rd_decoded s + n then 0 else rd_decoded s.

Lemma ready_header C s h rest : ready s -> stream (rd_rx s) = h ++ rest -> length h = 5 ->
  exists rx', stream rx' = rest /\ chunked rx' /\ forall (n : nat), hdr_content_length h = Ok n ->
    rd_read C s =
      match hdr_decode h with
      | Ok _ => (advance n ;;; consume_record C h) (mk_rdst (rd_buf s) (rd_decoded s) 0 rx' (rd_ks s))
      | _ => (Err InvalidRecord, mk_rdst (rd_buf s) (rd_decoded s) 0 rx' (rd_ks s))
      end.
Proof.
  intros (Hp & Hd & Hc) Hs Hl.
  destruct (header_loop_chunked 6 [] (rd_rx s)) as [H1 _]; [cbn; lia|cbn; lia|exact Hc|].
  destruct (H1 h rest Hs ltac:(cbn; lia)) as (rx' & K1 & K2 & K3). exists rx'. split; [exact K2|]. split; [exact K3|].
  intros n En. unfold rd_read, next_record_header. unfold bind at 1, on_rx at 1. unfold bind at 1. rewrite K1. cbn [app].
  unfold lift at 1. destruct (hdr_decode_total h Hl) as [-> | ->]; [|now rewrite Hp].
  unfold bind at 1, lift at 1. rewrite En, Hp. reflexivity.
Qed.

Lemma ready_frame C s h f rest : ready s -> stream (rd_rx s) = h ++ f ++ rest -> framed h f -> known_type h ->
  length f <= length (rd_buf s) ->
  exists rx', stream rx' = rest /\ chunked rx' /\
    rd_read C s =
      match sr_decode C h (place s (length f)) f (r_transcript (rd_ks s)) with
      | Ok rt => (Ok (fst rt), mk_rdst (splice (rd_buf s) (place s (length f)) f) (place s (length f) + length f) 0 rx'
                                 (r_with_transcript (rd_ks s) (snd rt)))
      | o => (omap fst o, mk_rdst (splice (rd_buf s) (place s (length f)) f) (place s (length f) + length f) 0 rx' (rd_ks s))
      end.
Proof.
  intros Hr Hs Hf Hk Hl. pose proof (framed_length h f Hf) as En. destruct Hf as [Hh Hv].
  destruct (ready_header C s h (f ++ rest) Hr Hs Hh) as (rx1 & Hs1 & Hc1 & Hread). specialize (Hread _ En).
  rewrite Hk in Hread. destruct Hr as (Hp & Hd & Hc). rewrite Hread. clear Hread.
  set (s1 := mk_rdst (rd_buf s) (rd_decoded s) 0 rx1 (rd_ks s)).
  assert (Hpl : place s (length f) + length f <= length (rd_buf s)).
  { unfold place. destruct (Nat.ltb_spec (length (rd_buf s)) (rd_decoded s + length f)); lia. }
  unfold advance. unfold bind at 1. unfold bind at 1.
  rewrite ensure_ready; [|reflexivity|unfold rd_wf, s1; cbn [rd_buf rd_decoded rd_pending]; lia|exact Hl].
  subst s1. cbn [rd_buf rd_decoded rd_pending rd_rx rd_ks]. fold (place s (length f)).
  set (s2 := mk_rdst (rd_buf s) (place s (length f)) 0 rx1 (rd_ks s)).
  destruct (advance_loop_chunked (S (length f)) (length f) s2) as [H1 _];
    unfold s2 in *; cbn [rd_buf rd_decoded rd_pending rd_rx rd_ks] in *; [lia|lia|exact Hpl|exact Hc1|].
  destruct (H1 f rest Hs1 ltac:(lia)) as (rx' & K1 & K2 & K3). rewrite Nat.sub_0_r in K1. rewrite K1. clear K1 H1.
  exists rx'. split; [exact K2|]. split; [exact K3|]. rewrite Nat.add_0_r.
  destruct (consume_ok C h (length f) (mk_rdst (splice (rd_buf s) (place s (length f)) f) (place s (length f)) (length f) rx' (rd_ks s)))
    as [_ Hcon]; [exact Hh|exact En|unfold rd_wf; cbn [rd_buf rd_decoded rd_pending]; rewrite splice_length; lia|reflexivity|].
  rewrite Hcon. cbn [rd_buf rd_decoded rd_pending rd_rx rd_ks]. rewrite splice_sub by exact Hpl. rewrite Nat.sub_diag. reflexivity.
Qed.

Lemma ready_short C s : ready s -> length (stream (rd_rx s)) < 5 ->
  exists s', rd_read C s = (Err IoError, s') /\ rd_rx s' = [] /\ rd_ks s' = rd_ks s.
Proof.
  intros (Hp & Hd & Hc) Hl.
  destruct (header_loop_chunked 6 [] (rd_rx s)) as [_ H1]; [cbn; lia|cbn; lia|exact Hc|].
  unfold rd_read, next_record_header. unfold bind at 1, on_rx at 1. unfold bind at 1. rewrite H1 by (cbn [length]; lia).
  eexists. split; [reflexivity|]. split; reflexivity.
Qed.

Lemma ready_badtype C s h rest : ready s -> stream (rd_rx s) = h ++ rest -> length h = 5 -> ~ known_type h ->
  exists rx', stream rx' = rest /\ chunked rx' /\
    rd_read C s = (Err InvalidRecord, mk_rdst (rd_buf s) (rd_decoded s) 0 rx' (rd_ks s)).
Proof.
  intros Hr Hs Hl Hk. destruct (ready_header C s h rest Hr Hs Hl) as (rx' & Hs1 & Hc1 & Hread).
  destruct (hdr_content_length_ok h Hl) as (n & En & _). exists rx'. rewrite (Hread n En).
  destruct (hdr_decode_total h Hl) as [E|E]; [contradiction|]. rewrite E. auto.
Qed.

Lemma ready_toolong C s h rest n : ready s -> stream (rd_rx s) = h ++ rest -> length h = 5 -> known_type h ->
  hdr_content_length h = Ok n -> length (rd_buf s) < n ->
  exists rx', stream rx' = rest /\ chunked rx' /\
    rd_read C s = (Err InsufficientSpace, mk_rdst (rd_buf s) (rd_decoded s) 0 rx' (rd_ks s)).
Proof.
  intros Hr Hs Hl Hk En Hn. destruct (ready_header C s h rest Hr Hs Hl) as (rx' & Hs1 & Hc1 & Hread).
  exists rx'. rewrite (Hread n En), Hk. split; [exact Hs1|]. split; [exact Hc1|].
  unfold advance, ensure_contiguous, bind, get. cbn [rd_buf rd_decoded].
  destruct (Nat.ltb_spec (length (rd_buf s)) (rd_decoded s + n)); [|lia].
  destruct (Nat.ltb_spec (length (rd_buf s)) n); [|lia]. reflexivity.
Qed.

Lemma ready_cut C s h rest n : ready s -> stream (rd_rx s) = h ++ rest -> length h = 5 -> known_type h ->
  hdr_content_length h = Ok n -> n <= length (rd_buf s) -> length rest < n ->
  exists s', rd_read C s = (Err IoError, s') /\ rd_rx s' = [] /\ rd_ks s' = rd_ks s.
Proof.
  intros Hr Hs Hl Hk En Hn Hlt. destruct (ready_header C s h rest Hr Hs Hl) as (rx1 & Hs1 & Hc1 & Hread).
  specialize (Hread _ En). rewrite Hk in Hread. destruct Hr as (Hp & Hd & Hc).
  destruct (rd_read C s) as [o s'] eqn:E. 
  assert (Hks : rd_ks s' = rd_ks s -> exists s'0, (o, s') = (Err IoError, s'0) /\ rd_rx s'0 = [] /\ rd_ks s'0 = rd_ks s).
  { intros Hk'. clear E. revert Hread. set (s1 := mk_rdst (rd_buf s) (rd_decoded s) 0 rx1 (rd_ks s)).
    unfold advance. unfold bind at 1. unfold bind at 1.
    rewrite ensure_ready; [|reflexivity|unfold rd_wf, s1; cbn [rd_buf rd_decoded rd_pending]; lia|exact Hn].
    subst s1. cbn [rd_buf rd_decoded rd_pending rd_rx rd_ks]. fold (place s n).
    assert (Hpl : place s n + n <= length (rd_buf s)).
    { unfold place. destruct (Nat.ltb_spec (length (rd_buf s)) (rd_decoded s + n)); lia. }
    set (s2 := mk_rdst (rd_buf s) (place s n) 0 rx1 (rd_ks s)).
    destruct (advance_loop_chunked (S n) n s2) as [_ H1];
      unfold s2 in *; cbn [rd_buf rd_decoded rd_pending rd_rx rd_ks] in *; [lia|lia|exact Hpl|exact Hc1|].
    destruct (H1 ltac:(rewrite Hs1; lia)) as (s3 & K1 & K2). rewrite Nat.sub_0_r in K1. rewrite K1. clear K1 H1.
    intros Hread. assert (E1 : o = Err IoError) by (exact (f_equal fst Hread)).
    assert (E2 : s' = s3) by (exact (f_equal snd Hread)). subst o s'. exists s3. auto. }
  apply Hks. assert (Hw : rd_wf s) by (unfold rd_wf; lia).
  destruct (rd_read_any C s o s' Hw E) as (_ & _ & _ & [[_ [Ho _]]|Ho]); [exact Ho|].
  assert (Hex : o = Err IoError -> rd_ks s' = rd_ks s).
  { intros ->. destruct Ho as (h0 & f0 & _ & Ho). destruct (sr_decode _ _ _ _ _) as [| | | |]; try tauto. destruct Ho as [Ho _]; discriminate. }
  apply Hex. clear Hex Ho. revert Hread. set (s1 := mk_rdst (rd_buf s) (rd_decoded s) 0 rx1 (rd_ks s)).
  unfold advance. unfold bind at 1. unfold bind at 1.
  rewrite ensure_ready; [|reflexivity|unfold rd_wf, s1; cbn [rd_buf rd_decoded rd_pending]; lia|exact Hn].
  subst s1. cbn [rd_buf rd_decoded rd_pending rd_rx rd_ks]. fold (place s n).
  assert (Hpl : place s n + n <= length (rd_buf s)).
  { unfold place. destruct (Nat.ltb_spec (length (rd_buf s)) (rd_decoded s + n)); lia. }
  set (s2 := mk_rdst (rd_buf s) (place s n) 0 rx1 (rd_ks s)).
  destruct (advance_loop_chunked (S n) n s2) as [_ H1];
    unfold s2 in *; cbn [rd_buf rd_decoded rd_pending rd_rx rd_ks] in *; [lia|lia|exact Hpl|exact Hc1|].
  destruct (H1 ltac:(rewrite Hs1; lia)) as (s3 & K1 & K2). rewrite Nat.sub_0_r in K1. rewrite K1.
  intros Hread. exact (f_equal fst Hread).
Qed.

Lemma empty_read C s : rd_rx s = [] -> rd_read C s = (Err IoError, s).
Proof.
  intros Hs. unfold rd_read, next_record_header, bind, on_rx. rewrite Hs. cbn. f_equal. destruct s; cbn in *; now subst.
Qed.
