(** * The cuts in the incoming bytes make no difference *)
From Coq Require Import String List NArith Arith Bool Lia ZArith.
From Coq.Strings Require Import Byte.
From Coq Require Import ZifyBool ZifyNat ZifyN.
From Verif Require Import Base ParseBuffer Buffer Codes Extensions Crypto KeySchedule Config Handshake Record WriteBuffer
  Transport RecordReader ReadBuffer Connection Api BaseProofs ParseProofs SpecWire SpecKeys SpecRead SpecOpen FrameProofs ReceiverProofs TermProofs SpecChunk.
Import ListNotations.
Local Open Scope list_scope.

Definition setrx (rx : list rx_event) (s : rdst) : rdst := mk_rdst (rd_buf s) (rd_decoded s) (rd_pending s) rx (rd_ks s).

(** ** The reader *)

(** The states are the same but for the cuts. *)
Definition twin (s1 s2 : rdst) : Prop :=
  s2 = setrx (rd_rx s2) s1 /\ rd_wf s1 /\ settled s1 /\ chunked (rd_rx s2) /\ stream (rd_rx s2) = stream (rd_rx s1).

Lemma twin_settled s1 s2 : twin s1 s2 -> settled s2.
Proof.
  intros (E & _ & (H1 & H2) & H3 & H4). split; [exact H3|]. destruct H2 as [H2|H2]; [left; rewrite E; exact H2|right].
  apply stream_nil; [exact H3|]. rewrite H4, H2. reflexivity.
Qed.

Lemma advance_cut : forall fuel amount s, amount - rd_pending s <= fuel ->
  rd_pending s <= amount -> rd_decoded s + amount <= length (rd_buf s) -> chunked (rd_rx s) ->
  length (stream (rd_rx s)) < amount - rd_pending s ->
  advance_loop fuel amount (amount - rd_pending s) s =
    (Err IoError, mk_rdst (splice (rd_buf s) (rd_decoded s + rd_pending s) (stream (rd_rx s))) (rd_decoded s)
                    (rd_pending s + length (stream (rd_rx s))) [] (rd_ks s)).
Proof.
  induction fuel as [|fuel IH]; intros amount s Hf Hp Hd Hc Hlt; [lia|].
  set (rem := amount - rd_pending s) in *.
  pose proof (advance_step fuel amount rem s) as Hstep.
  destruct (rx_read_some_chunked rem (rd_rx s) Hc) as [[Hnil Hr]|(got & rx1 & Hr & Hg & Hl & Hs1 & Hc1)]; [lia| |]; rewrite Hr in Hstep; rewrite Hstep by lia.
  - rewrite Hnil. cbn [stream map concat length]. rewrite splice_nil, Nat.add_0_r. reflexivity.
  - assert (length got <> 0) by (destruct got; [contradiction|discriminate]). rewrite Hs1, app_length in Hlt.
    set (s1 := mk_rdst _ _ _ _ _). specialize (IH amount s1). subst s1; cbn [rd_buf rd_decoded rd_pending rd_rx rd_ks] in *.
    replace (amount - (rd_pending s + length got)) with (rem - length got) in * by lia.
    rewrite IH; [|lia|lia|rewrite splice_length by lia; lia|exact Hc1|lia].
    rewrite Hs1, app_length. f_equal. f_equal; [|lia]. rewrite Nat.add_assoc. apply splice_app. lia.
Qed.

Lemma read_cut C s h rest n : ready s -> stream (rd_rx s) = h ++ rest -> length h = 5 -> known_type h ->
  hdr_content_length h = Ok n -> n <= length (rd_buf s) -> length rest < n ->
  rd_read C s = (Err IoError, mk_rdst (splice (rd_buf s) (FrameProofs.place s n) rest) (FrameProofs.place s n) (length rest) [] (rd_ks s)).
Proof.
  intros Hr Hs Hl Hk En Hn Hlt. destruct (ready_header C s h rest Hr Hs Hl) as (rx1 & Hs1 & Hc1 & Hread).
  specialize (Hread _ En). rewrite Hk in Hread. rewrite Hread. destruct Hr as (Hp & Hd & Hc).
  set (s1 := mk_rdst (rd_buf s) (rd_decoded s) 0 rx1 (rd_ks s)).
  unfold advance. unfold bind at 1. unfold bind at 1.
  rewrite ensure_ready; [|reflexivity|unfold rd_wf, s1; cbn [rd_buf rd_decoded rd_pending]; lia|exact Hn].
  subst s1. cbn [rd_buf rd_decoded rd_pending rd_rx rd_ks]. fold (FrameProofs.place s n).
  assert (Hpl : FrameProofs.place s n + n <= length (rd_buf s)).
  { unfold FrameProofs.place. destruct (Nat.ltb_spec (length (rd_buf s)) (rd_decoded s + n)); lia. }
  pose proof (advance_cut (S n) n (mk_rdst (rd_buf s) (FrameProofs.place s n) 0 rx1 (rd_ks s))) as H1.
  cbn [rd_buf rd_decoded rd_pending rd_rx rd_ks] in H1. rewrite Nat.sub_0_r in H1. rewrite H1; [|lia|lia|exact Hpl|exact Hc1|rewrite Hs1; exact Hlt].
  rewrite Hs1, Nat.add_0_r. reflexivity.
Qed.

Lemma read_short C s : chunked (rd_rx s) -> length (stream (rd_rx s)) < 5 -> rd_read C s = (Err IoError, setrx [] s).
Proof.
  intros Hc Hl. destruct (header_loop_chunked 6 [] (rd_rx s)) as [_ H1]; [cbn; lia|cbn; lia|exact Hc|].
  unfold rd_read, next_record_header. unfold bind at 1, on_rx at 1. unfold bind at 1. rewrite H1 by (cbn [length]; lia). reflexivity.
Qed.

Lemma chunked_nil : chunked []. Proof. constructor. Qed.

Lemma twin_read C s1 s2 : twin s1 s2 -> fst (rd_read C s1) = fst (rd_read C s2) /\ twin (snd (rd_read C s1)) (snd (rd_read C s2)).
Proof.
  intros Ht. pose proof (twin_settled s1 s2 Ht) as Hset2. destruct Ht as (E & Hw & Hset1 & Hc2 & Hst).
  assert (Hw2 : rd_wf s2) by (rewrite E; exact Hw).
  destruct (Nat.ltb_spec (length (stream (rd_rx s1))) 5) as [Hlt|Hge].
  { rewrite (read_short C s1 (proj1 Hset1) Hlt), (read_short C s2 Hc2) by (rewrite Hst; exact Hlt). cbn [fst snd]. split; [reflexivity|].
    split; [rewrite E; reflexivity|]. split; [exact Hw|]. split; [split; [apply chunked_nil|now right]|]. split; [apply chunked_nil|reflexivity]. }
  assert (Hne1 : rd_rx s1 <> []) by (intros Hx; rewrite Hx in Hge; cbn in Hge; lia).
  assert (Hne2 : rd_rx s2 <> []) by (intros Hx; rewrite <- Hst, Hx in Hge; cbn in Hge; lia).
  pose proof (settled_ready s1 Hw Hset1 Hne1) as R1. pose proof (settled_ready s2 Hw2 Hset2 Hne2) as R2.
  set (h := firstn 5 (stream (rd_rx s1))). set (rest := skipn 5 (stream (rd_rx s1))).
  assert (Hs1 : stream (rd_rx s1) = h ++ rest) by (symmetry; apply firstn_skipn).
  assert (Hs2 : stream (rd_rx s2) = h ++ rest) by (now rewrite Hst).
  assert (Hl : length h = 5) by (apply firstn_length_le; lia).
  assert (Eb : rd_buf s2 = rd_buf s1) by (rewrite E; reflexivity). assert (Ed : rd_decoded s2 = rd_decoded s1) by (rewrite E; reflexivity).
  assert (Ek : rd_ks s2 = rd_ks s1) by (rewrite E; reflexivity).
  assert (Epl : forall n, FrameProofs.place s2 n = FrameProofs.place s1 n) by (intros; unfold FrameProofs.place; now rewrite Eb, Ed).
  assert (Hpl : forall n, n <= length (rd_buf s1) -> FrameProofs.place s1 n + n <= length (rd_buf s1)).
  { intros n Hn. unfold FrameProofs.place. destruct (Nat.ltb_spec (length (rd_buf s1)) (rd_decoded s1 + n)); lia. }
  destruct R1 as (P1 & D1 & C1) eqn:ER1. clear ER1.
  assert (Hk : known_type h \/ ~ known_type h).
  { unfold known_type. destruct (hdr_decode_total h Hl) as [H|H]; [now left|right; rewrite H; discriminate]. }
  destruct Hk as [Hk|Hk].
  2:{ destruct (ready_badtype C s1 h rest R1 Hs1 Hl Hk) as (x1 & A1 & B1 & ->). destruct (ready_badtype C s2 h rest R2 Hs2 Hl Hk) as (x2 & A2 & B2 & ->).
      cbn [fst snd]. split; [reflexivity|]. split; [unfold setrx; cbn [rd_buf rd_decoded rd_pending rd_rx rd_ks]; now rewrite Eb, Ed, Ek|].
      split; [unfold rd_wf; cbn [rd_buf rd_decoded rd_pending]; lia|]. split; [split; [exact B1|now left]|]. cbn [rd_rx]. split; [exact B2|now rewrite A1, A2]. }
  assert (Hn : exists n, hdr_content_length h = Ok n).
  { destruct h as [|a [|b [|c [|d [|e [|]]]]]]; try discriminate Hl. eexists. reflexivity. }
  destruct Hn as [n Hn].
  destruct (Nat.ltb_spec (length (rd_buf s1)) n) as [Hlong|Hfit].
  { destruct (ready_toolong C s1 h rest n R1 Hs1 Hl Hk Hn Hlong) as (x1 & A1 & B1 & ->).
    destruct (ready_toolong C s2 h rest n R2 Hs2 Hl Hk Hn ltac:(now rewrite Eb)) as (x2 & A2 & B2 & ->).
    cbn [fst snd]. split; [reflexivity|]. split; [unfold setrx; cbn [rd_buf rd_decoded rd_pending rd_rx rd_ks]; now rewrite Eb, Ed, Ek|].
    split; [unfold rd_wf; cbn [rd_buf rd_decoded rd_pending]; lia|]. split; [split; [exact B1|now left]|]. cbn [rd_rx]. split; [exact B2|now rewrite A1, A2]. }
  specialize (Hpl n Hfit).
  destruct (Nat.ltb_spec (length rest) n) as [Hcut|Hfull].
  { rewrite (read_cut C s1 h rest n R1 Hs1 Hl Hk Hn Hfit Hcut), (read_cut C s2 h rest n R2 Hs2 Hl Hk Hn ltac:(now rewrite Eb) Hcut).
    cbn [fst snd]. split; [reflexivity|]. split; [unfold setrx; cbn [rd_buf rd_decoded rd_pending rd_rx rd_ks]; now rewrite Epl, Eb, Ek|].
    split; [unfold rd_wf; cbn [rd_buf rd_decoded rd_pending]; rewrite splice_length by lia; lia|]. split; [split; [apply chunked_nil|now right]|]. split; [apply chunked_nil|reflexivity]. }
  set (f := firstn n rest). set (more := skipn n rest).
  assert (Hlf : length f = n) by (apply firstn_length_le; lia).
  assert (Hf : framed h f) by (split; [exact Hl|rewrite Hlf; destruct (hdr_content_length_ok h Hl) as (k & Ek1 & Ek2 & _); rewrite Hn in Ek1; injection Ek1 as ->; lia]).
  assert (Er : rest = f ++ more) by (symmetry; apply firstn_skipn). rewrite Er in Hs1, Hs2.
  destruct (ready_frame C s1 h f more R1 Hs1 Hf Hk ltac:(lia)) as (x1 & A1 & B1 & ->).
  destruct (ready_frame C s2 h f more R2 Hs2 Hf Hk ltac:(rewrite Eb; lia)) as (x2 & A2 & B2 & ->).
  rewrite Hlf, Epl, Eb, Ek. destruct (sr_decode C h (FrameProofs.place s1 n) f (r_transcript (rd_ks s1))) as [[rec tr]|e|x| |]; cbn [fst snd omap];
    (split; [reflexivity|]; split; [reflexivity|]; split; [unfold rd_wf; cbn [rd_buf rd_decoded rd_pending]; rewrite splice_length by lia; lia|];
     split; [split; [exact B1|now left]|]; cbn [rd_rx]; split; [exact B2|now rewrite A1, A2]).
Qed.

(** ** Programs *)

(** On states that are the same but for the cuts, the same result, and such states again. *)
Definition par {S A} (R : S -> S -> Prop) (m1 m2 : M S tls_error A) : Prop :=
  forall s1 s2, R s1 s2 -> fst (m1 s1) = fst (m2 s2) /\ R (snd (m1 s1)) (snd (m2 s2)).

Lemma par_bind {S A B} (R : S -> S -> Prop) (m1 m2 : M S tls_error A) (f1 f2 : A -> M S tls_error B) :
  par R m1 m2 -> (forall a, par R (f1 a) (f2 a)) -> par R (bind m1 f1) (bind m2 f2).
Proof.
  intros H1 H2 s1 s2 H. unfold bind. destruct (H1 s1 s2 H) as [E1 R1]. destruct (m1 s1) as [o1 t1]. destruct (m2 s2) as [o2 t2]. cbn [fst snd] in E1, R1. subst o2.
  destruct o1 as [a|e|x| |]; [exact (H2 a t1 t2 R1)|..]; split; auto.
Qed.
Lemma par_get {S A} (R : S -> S -> Prop) (f1 f2 : S -> M S tls_error A) : (forall x1 x2, R x1 x2 -> par R (f1 x1) (f2 x2)) -> par R (bind get f1) (bind get f2).
Proof. intros H s1 s2 Hs. exact (H s1 s2 Hs s1 s2 Hs). Qed.
Lemma par_lift {S A} (R : S -> S -> Prop) (o : outcome tls_error A) : par R (lift o) (lift o).
Proof. intros s1 s2 H. now split. Qed.
Lemma par_ret {S A} (R : S -> S -> Prop) (a : A) : par R (ret a) (ret a).
Proof. intros s1 s2 H. now split. Qed.
Lemma par_fail {S A} (R : S -> S -> Prop) e : par R (fail e : M S tls_error A) (fail e).
Proof. intros s1 s2 H. now split. Qed.
Lemma par_panic {S A} (R : S -> S -> Prop) x : par R (panic x : M S tls_error A) (panic x).
Proof. intros s1 s2 H. now split. Qed.
Lemma par_attempt {S A} (R : S -> S -> Prop) (m : M S tls_error A) : par R m m -> par R (attempt m) (attempt m).
Proof.
  intros H s1 s2 Hs. unfold attempt. destruct (H s1 s2 Hs) as [E1 R1]. destruct (m s1) as [o1 t1]. destruct (m s2) as [o2 t2]. cbn [fst snd] in E1, R1. subst o2.
  destruct o1; split; auto.
Qed.

(** Changes that do not concern the bytes to come. *)
Lemma twin_move s1 s2 t1 t2 : twin s1 s2 -> place t1 = place s1 -> rd_rx t2 = rd_rx s2 -> t2 = setrx (rd_rx t2) t1 -> twin t1 t2.
Proof.
  intros (E & Hw & (H1 & H2) & H3 & H4) P1 P2 Et. assert (Px : rd_rx t1 = rd_rx s1) by (exact (rx_place _ _ P1)).
  split; [exact Et|]. split; [exact (wf_place _ _ P1 Hw)|]. unfold settled. rewrite Px, P2.
  assert (Pp : rd_pending t1 = rd_pending s1) by (unfold place in P1; congruence). rewrite Pp. repeat split; assumption.
Qed.

Lemma twin_cases s1 s2 : twin s1 s2 -> exists rx2, s2 = setrx rx2 s1.
Proof. intros [E _]. now exists (rd_rx s2). Qed.

Lemma par_modify f : (forall s rx, f (setrx rx s) = setrx rx (f s)) -> (forall s, place (f s) = place s) -> par twin (modify f) (modify f).
Proof.
  intros Hf Hp s1 s2 H. split; [reflexivity|]. cbn [modify snd]. pose proof H as [E _].
  apply (twin_move s1 s2); [exact H|apply Hp|exact (rx_place _ _ (Hp s2))|]. rewrite (rx_place _ _ (Hp s2)). rewrite E at 1. apply Hf.
Qed.
Lemma par_transcript tr : par twin (set_transcript tr) (set_transcript tr).
Proof. apply par_modify; reflexivity. Qed.
Lemma par_increment : par twin rd_increment rd_increment.
Proof.
  intros s1 s2 H. destruct (twin_cases s1 s2 H) as [rx2 ->]. unfold rd_increment, bind, get, lift, put. cbn [setrx rd_ks rd_buf rd_decoded rd_pending rd_rx].
  destruct (increment_counter (r_state (rd_ks s1))); cbn [fst snd]; (split; [reflexivity|]); try exact H.
  apply (twin_move _ _ _ _ H); reflexivity.
Qed.
Lemma par_write_back off b : par twin (s <- get ;; b <- lift (set_rng (rd_buf s) off b) ;; put (mk_rdst b (rd_decoded s) (rd_pending s) (rd_rx s) (rd_ks s)))
  (s <- get ;; b <- lift (set_rng (rd_buf s) off b) ;; put (mk_rdst b (rd_decoded s) (rd_pending s) (rd_rx s) (rd_ks s))).
Proof.
  intros s1 s2 H. destruct (twin_cases s1 s2 H) as [rx2 ->]. pose proof (st_write_back off b s1) as P. revert P. unfold bind, get, lift, put. cbn [setrx rd_ks rd_buf rd_decoded rd_pending rd_rx].
  destruct (set_rng (rd_buf s1) off b); cbn [fst snd]; intros [_ P]; (split; [reflexivity|]); try exact H.
  apply (twin_move _ _ _ _ H); [exact P|reflexivity|reflexivity].
Qed.

Definition twf {S} (a b : rdst * S) : Prop := twin (fst a) (fst b) /\ snd a = snd b.

Lemma twin_ks s1 s2 : twin s1 s2 -> rd_ks s2 = rd_ks s1. Proof. intros H. now destruct (twin_cases s1 s2 H) as [rx2 ->]. Qed.
Lemma twin_buf s1 s2 : twin s1 s2 -> rd_buf s2 = rd_buf s1. Proof. intros H. now destruct (twin_cases s1 s2 H) as [rx2 ->]. Qed.

Lemma par_fst {S A} (m : M rdst tls_error A) : par twin m m -> par twf (on_fst m : M (rdst * S) tls_error A) (on_fst m).
Proof.
  intros H [r1 s1] [r2 s2] [Hr Hs]. cbn [fst snd] in Hr, Hs. subst s2. unfold on_fst. cbn [fst snd]. destruct (H r1 r2 Hr) as [E R]. destruct (m r1), (m r2). cbn [fst snd] in *.
  split; [exact E|]. split; [exact R|reflexivity].
Qed.

Section Decrypt.
Context {S : Type} (C : crypto) (cb : rks -> server_record -> M S tls_error unit).

Lemma par_cb r : par twf (call_cb cb r) (call_cb cb r).
Proof.
  intros [r1 s1] [r2 s2] [Hr Hs]. cbn [fst snd] in Hr, Hs. subst s2. unfold call_cb. cbn [fst snd]. rewrite (twin_ks r1 r2 Hr).
  destruct (cb (rd_ks r1) r s1). cbn [fst snd]. split; [reflexivity|]. split; [exact Hr|reflexivity].
Qed.
Lemma par_loop : forall fuel q, par twf (handshake_loop C cb fuel q) (handshake_loop C cb fuel q).
Proof.
  induction fuel as [|fuel IH]; intros q; cbn [handshake_loop]; (apply par_bind; [apply par_lift|intros n]); destruct (n =? 0); try apply par_ret; try apply par_lift.
  apply par_get. intros x1 x2 [Hx _]. rewrite (twin_ks _ _ Hx). destruct (read_server_handshake C (r_transcript (rd_ks (fst x1))) q) as [o q'].
  apply par_bind; [apply par_lift|intros ht]. apply par_bind; [apply par_fst, par_transcript|intros []]. apply par_bind; [apply par_cb|intros []]. apply IH.
Qed.
Lemma par_decrypt rec : par twf (decrypt_record C cb rec) (decrypt_record C cb rec).
Proof.
  destruct rec as [h| |l d|h off data]; cbn [decrypt_record]; try apply par_cb.
  apply par_get. intros x1 x2 [Hx _]. rewrite (twin_ks _ _ Hx). apply par_bind; [apply par_lift|intros nonce].
  destruct (decrypt_in_place _ _ _ _ _) as [o data1]. apply par_bind; [apply par_lift|intros []]. apply par_bind; [apply par_fst, par_write_back|intros []].
  destruct (strip_content_type data1) as [o2 data2]. apply par_bind; [apply par_lift|intros t]. apply par_bind; [apply par_lift|intros inner].
  apply par_bind; [|intros []; apply par_fst, par_increment].
  destruct t; try apply par_fail.
  - apply par_bind; [apply par_lift|intros ?; apply par_cb].
  - apply par_loop.
  - apply par_cb.
Qed.
End Decrypt.

(** ** The connection *)

Definition twc (a b : conn) : Prop := twin (cn_rd a) (cn_rd b) /\ b = with_rx (rd_rx (cn_rd b)) a.

Lemma twc_intro r1 r2 d w k op : twin r1 r2 -> twc (mk_conn r1 d w k op) (mk_conn r2 d w k op).
Proof. intros H. split; [exact H|]. unfold with_rx. cbn [cn_rd cn_dec cn_wh cn_shared cn_opened]. f_equal. apply H. Qed.
Lemma twc_fields a b : twc a b -> cn_dec b = cn_dec a /\ cn_wh b = cn_wh a /\ cn_shared b = cn_shared a /\ cn_opened b = cn_opened a.
Proof. intros [_ ->]. repeat split. Qed.

Lemma par_wh {A} (m : M whalf tls_error A) : par twc (on_wh m) (on_wh m).
Proof.
  intros a b H. destruct (twc_fields a b H) as (E1 & E2 & E3 & E4). unfold on_wh. rewrite E1, E2, E3, E4. destruct (m (cn_wh a)). cbn [fst snd].
  split; [reflexivity|]. apply twc_intro, H.
Qed.
Lemma par_rd {A} (m : M rdst tls_error A) : par twin m m -> par twc (on_rd m) (on_rd m).
Proof.
  intros Hm a b H. destruct (twc_fields a b H) as (E1 & E2 & E3 & E4). unfold on_rd. destruct (Hm _ _ (proj1 H)) as [E R].
  destruct (m (cn_rd a)) as [o1 t1]. destruct (m (cn_rd b)) as [o2 t2]. cbn [fst snd] in *. subst o2. rewrite E1, E2, E3, E4. split; [reflexivity|]. apply twc_intro, R.
Qed.
Lemma par_ks f : par twc (on_ks f) (on_ks f).
Proof.
  intros a b H. destruct (twc_fields a b H) as (E1 & E2 & E3 & E4). unfold on_ks.
  assert (Ek : cn_keysched b = cn_keysched a) by (unfold cn_keysched; now rewrite E2, E3, (twin_ks _ _ (proj1 H))).
  rewrite Ek. destruct (f (cn_keysched a)); cbn [fst snd]; (split; [reflexivity|]); try exact H.
  unfold cn_with_keysched. rewrite E1, E2, E4. apply twc_intro. apply (twin_move _ _ _ _ (proj1 H)); [reflexivity|reflexivity|].
  destruct (twin_cases _ _ (proj1 H)) as [rx2 ->]. reflexivity.
Qed.
Lemma par_write_record C r : par twc (cn_write_record C r) (cn_write_record C r).
Proof.
  unfold cn_write_record. apply par_get. intros a b H. destruct (twc_fields a b H) as (E1 & E2 & E3 & E4). rewrite E2, (twin_ks _ _ (proj1 H)).
  apply par_bind; [apply par_wh|intros st]. apply par_bind; [apply par_rd, par_transcript|intros []]. apply par_ret.
Qed.

(** ** [open] *)

Section Open.
Context {V : Type} (C : crypto) (p : provider V) (cfg : tls_config).
Definition twh (a b : conn * @hs_data V) : Prop := twc (fst a) (fst b) /\ snd a = snd b.

Lemma par_conn {A} (m : M conn tls_error A) : par twc m m -> par twh (on_conn m) (on_conn m).
Proof.
  intros Hm [c1 h1] [c2 h2] [Hc Hh]. cbn [fst snd] in Hc, Hh. subst h2. unfold on_conn. cbn [fst snd]. destruct (Hm _ _ Hc) as [E R].
  destruct (m c1), (m c2). cbn [fst snd] in *. split; [exact E|]. split; [exact R|reflexivity].
Qed.
Lemma par_mod f : par twh (mod_hs f) (mod_hs f).
Proof. intros [c1 h1] [c2 h2] [Hc Hh]. cbn [fst snd] in Hc, Hh. subst h2. split; [reflexivity|]. split; [exact Hc|reflexivity]. Qed.
Lemma par_respond tx : par twh (on_conn (on_wh (respond tx))) (on_conn (on_wh (respond tx))).
Proof. apply par_conn, par_wh. Qed.
Lemma par_write r : par twh (on_conn (cn_write_record C r)) (on_conn (cn_write_record C r)).
Proof. apply par_conn, par_write_record. Qed.
Lemma par_read : par twh (on_conn (on_rd (rd_read C))) (on_conn (on_rd (rd_read C))).
Proof. apply par_conn, par_rd. intros s1 s2. apply twin_read. Qed.

Lemma par_hpe (m : M (conn * @hs_data V) tls_error hs_state) : par twh m m -> par twh (handle_processing_error C m) (handle_processing_error C m).
Proof.
  intros H. unfold handle_processing_error. apply par_bind; [apply par_attempt, H|intros [s|e]]; [apply par_ret|].
  destruct e; try apply par_fail. apply par_bind; [apply par_write|intros tx]. apply par_bind; [apply par_respond|intros []]. apply par_fail.
Qed.
Lemma par_server_hello rec : par twh (process_server_hello C rec) (process_server_hello C rec).
Proof.
  destruct rec as [[e| | |ce|ctx|v|f]| |l d|hd off data]; cbn [process_server_hello]; try apply par_fail.
  apply par_get. intros x1 x2 [_ Hx]. rewrite Hx. apply par_bind; [apply par_mod|intros []]. apply par_bind; [apply par_lift|intros secret].
  apply par_bind; [apply par_lift|intros shared]. apply par_bind; [apply par_conn, par_ks|intros []]. apply par_ret.
Qed.
Lemma par_server_verify rec : par twh (process_server_verify C p rec) (process_server_verify C p rec).
Proof.
  intros [c1 h1] [c2 h2] [Hc Hh]. cbn [fst snd] in Hc, Hh. subst h2. destruct (twc_fields c1 c2 Hc) as (E1 & E2 & E3 & E4). unfold process_server_verify.
  destruct (par_decrypt C (server_verify_cb C p) rec (cn_rd c1, (St_ServerVerify, h1)) (cn_rd c2, (St_ServerVerify, h1))) as [E [R S]].
  { split; [exact (proj1 Hc)|reflexivity]. }
  destruct (decrypt_record C (server_verify_cb C p) rec (cn_rd c1, (St_ServerVerify, h1))) as [o1 [r1 [s1 k1]]].
  destruct (decrypt_record C (server_verify_cb C p) rec (cn_rd c2, (St_ServerVerify, h1))) as [o2 [r2 [s2 k2]]]. cbn [fst snd] in *. apply pair_equal_spec in S as [-> ->]. subst o2.
  rewrite E1, E2, E3, E4. split; [reflexivity|]. split; [apply twc_intro, R|reflexivity].
Qed.

Lemma twh_transcript x1 x2 : twh x1 x2 -> rd_ks (cn_rd (fst x2)) = rd_ks (cn_rd (fst x1)) /\ cn_keysched (fst x2) = cn_keysched (fst x1) /\ snd x1 = snd x2.
Proof.
  intros [H1 H2]. destruct (twc_fields _ _ H1) as (E1 & E2 & E3 & E4). pose proof (twin_ks _ _ (proj1 H1)) as Ek. split; [exact Ek|]. split; [|exact H2].
  unfold cn_keysched. now rewrite E2, E3, Ek.
Qed.

Lemma par_process s : par twh (process C p cfg s) (process C p cfg s).
Proof.
  destruct s; cbn [process].
  - apply par_bind; [|intros tx; apply par_bind; [apply par_respond|intros []; apply par_ret]].
    unfold do_client_hello. apply par_bind; [apply par_conn, par_ks|intros []]. apply par_bind; [apply par_write|intros tx]. apply par_bind; [apply par_mod|intros []]. apply par_ret.
  - apply par_bind; [apply par_read|intros rec]. apply par_hpe, par_server_hello.
  - apply par_bind; [apply par_read|intros rec]. apply par_hpe, par_server_verify.
  - apply par_bind; [|intros nt; apply par_bind; [apply par_respond|intros []; apply par_ret]].
    unfold do_client_cert. apply par_get. intros x1 x2 Hx. destruct (twh_transcript x1 x2 Hx) as (E1 & E2 & E3). rewrite E1, E3.
    apply par_bind; [apply par_mod|intros []]. apply par_bind; [apply par_lift|intros ctx]. destruct (p_client_cert p); (apply par_bind; [apply par_write|intros ?; apply par_ret]).
  - apply par_bind; [|intros rt; apply par_bind; [apply par_respond|intros []; destruct (fst rt); [apply par_ret|apply par_fail]]].
    unfold do_client_cert_verify. apply par_get. intros x1 x2 Hx. destruct (twh_transcript x1 x2 Hx) as (E1 & E2 & E3). rewrite E1.
    destruct (p_signer p) as [[sign scheme]|e|x| |]; [|apply par_bind; [apply par_write|intros ?; apply par_ret]|apply par_panic|apply par_lift|apply par_lift].
    apply par_bind; [apply par_lift|intros msg]. destruct (sign msg); [|apply par_panic]. destruct (_ <? _); [apply par_panic|]. apply par_bind; [apply par_write|intros ?; apply par_ret].
  - apply par_bind; [|intros tx; apply par_bind; [apply par_respond|intros []]].
    + unfold do_client_finished. apply par_get. intros x1 x2 Hx. destruct (twh_transcript x1 x2 Hx) as (E1 & E2 & E3). rewrite E2.
      apply par_bind; [apply par_lift|intros v]. apply par_write.
    + unfold client_finished_finalize. apply par_get. intros x1 x2 Hx. destruct (twh_transcript x1 x2 Hx) as (E1 & E2 & E3). rewrite E3.
      apply par_bind; [apply par_mod|intros []]. apply par_bind; [apply par_lift|intros tr]. apply par_bind; [apply par_conn, par_rd, par_transcript|intros []].
      apply par_bind; [apply par_conn, par_ks|intros []]. apply par_ret.
  - apply par_ret.
Qed.

Lemma par_rounds : forall n s st1 o st1', handshake_run C p cfg n s st1 o st1' -> forall st2, twh st1 st2 ->
  exists st2', handshake_run C p cfg n s st2 o st2' /\ twh st1' st2'.
Proof.
  induction 1 as [st|s st s1 st1 n o st2 Hs E Hr IH|s st e st1 Hs E|s st x st1 Hs E|s st st1 Hs E]; intros t Ht.
  - exists t. split; [constructor|exact Ht].
  - destruct (par_process s st t Ht) as [Eo R]. rewrite E in Eo, R. destruct (process C p cfg s t) as [o2 t1] eqn:E2. cbn [fst snd] in Eo, R. subst o2.
    destruct (IH t1 R) as (t2 & H2 & T2). exists t2. split; [|exact T2]. econstructor; eassumption.
  - destruct (par_process s st t Ht) as [Eo R]. rewrite E in Eo, R. destruct (process C p cfg s t) as [o2 t1] eqn:E2. cbn [fst snd] in Eo, R. subst o2.
    exists t1. split; [|exact R]. now apply hr_error.
  - destruct (par_process s st t Ht) as [Eo R]. rewrite E in Eo, R. destruct (process C p cfg s t) as [o2 t1] eqn:E2. cbn [fst snd] in Eo, R. subst o2.
    exists t1. split; [|exact R]. now apply hr_panic.
  - destruct (par_process s st t Ht) as [Eo R]. rewrite E in Eo, R. destruct (process C p cfg s t) as [o2 t1] eqn:E2. cbn [fst snd] in Eo, R. subst o2.
    exists t1. split; [|exact R]. now apply hr_cancelled.
Qed.

Lemma rounds_unique : forall n s st o st', handshake_run C p cfg n s st o st' -> forall n2 o2 st2, handshake_run C p cfg n2 s st o2 st2 -> o = o2 /\ st' = st2.
Proof.
  induction 1 as [st|s st s1 st1 n o st2 Hs E Hr IH|s st e st1 Hs E|s st x st1 Hs E|s st st1 Hs E]; intros n2 o2 t H2;
    inversion H2; subst; try contradiction; try (match goal with A : process _ _ _ _ _ = _, B : process _ _ _ _ _ = _ |- _ => rewrite A in B; apply pair_equal_spec in B as [B1 B2]; try discriminate B1 end).
  - split; reflexivity.
  - injection B1 as <-. subst. eapply IH; eassumption.
  - injection B1 as <-. subst. split; reflexivity.
  - injection B1 as <-. subst. split; reflexivity.
  - subst. split; reflexivity.
Qed.

Lemma open_twin v c1 c2 : provider_returns p -> twc c1 c2 ->
  fst (cn_open C p cfg v c1) = fst (cn_open C p cfg v c2) /\ twc (snd (cn_open C p cfg v c1)) (snd (cn_open C p cfg v c2)).
Proof.
  intros Hp Hc. unfold cn_open.
  destruct (match p_has_verifier p, cfg_server_name cfg with true, Some n => p_set_hostname p n v | _, _ => (Ok tt, v) end) as [o0 v'] eqn:E0.
  destruct o0 as [[]|e|x| |]; try (split; [reflexivity|exact Hc]).
  change ((lift (Ok tt) ;;; open_loop C p cfg (8 + rx_size (rd_rx (cn_rd c1))) St_ClientHello) (c1, hs_new v'))
    with (open_loop C p cfg (8 + rx_size (rd_rx (cn_rd c1))) St_ClientHello (c1, hs_new v')).
  change ((lift (Ok tt) ;;; open_loop C p cfg (8 + rx_size (rd_rx (cn_rd c2))) St_ClientHello) (c2, hs_new v'))
    with (open_loop C p cfg (8 + rx_size (rd_rx (cn_rd c2))) St_ClientHello (c2, hs_new v')).
  set (F1 := 8 + rx_size (rd_rx (cn_rd c1))). set (F2 := 8 + rx_size (rd_rx (cn_rd c2))).
  assert (W1 : rd_wf (reader (c1, hs_new v'))) by (apply Hc).
  assert (W2 : rd_wf (reader (c2, hs_new v'))). { unfold reader. cbn [fst]. destruct (twin_cases _ _ (proj1 Hc)) as [rx2 E]. rewrite E. exact W1. }
  pose proof (open_loop_runs C p cfg Hp F1 St_ClientHello (c1, hs_new v') W1) as R1.
  pose proof (open_loop_runs C p cfg Hp F2 St_ClientHello (c2, hs_new v') W2) as R2.
  unfold rx_left in R1, R2. cbn [fst rank] in R1, R2. specialize (R1 ltac:(lia)). specialize (R2 ltac:(lia)).
  destruct (open_loop C p cfg F1 St_ClientHello (c1, hs_new v')) as [o1 st1]. destruct (open_loop C p cfg F2 St_ClientHello (c2, hs_new v')) as [o2 st2].
  destruct R1 as [(n1 & R1 & _) _]. destruct R2 as [(n2 & R2 & _) _].
  destruct (par_rounds _ _ _ _ _ R1 (c2, hs_new v')) as (st3 & R3 & T3); [split; [exact Hc|reflexivity]|].
  destruct (rounds_unique _ _ _ _ _ R3 _ _ _ R2) as [<- <-]. destruct st1 as [d1 h1]. destruct st3 as [d2 h2]. destruct T3 as [T3 _]. cbn [fst] in T3.
  destruct (twc_fields _ _ T3) as (E1 & E2 & E3 & E4).
  destruct o1; cbn [fst snd]; (split; [reflexivity|]); try exact T3. rewrite E1, E2, E3. apply twc_intro, T3.
Qed.
End Open.

(** ** The other calls *)

Notation twr := (@twf (dec_info * bool)).

Lemma par_rad C : par twr (read_application_data C) (read_application_data C).
Proof.
  unfold read_application_data. apply par_bind; [apply par_fst; intros s1 s2; apply twin_read|intros rec].
  apply par_get. intros x1 x2 [Hx _]. rewrite (twin_buf _ _ Hx). apply par_decrypt.
Qed.

Lemma par_fills C : forall n st1 o st1', fill_run C n st1 o st1' -> forall st2, twr st1 st2 -> exists st2', fill_run C n st2 o st2' /\ twr st1' st2'.
Proof.
  assert (K : forall st t : rhalf, twr st t -> fst (snd t) = fst (snd st)) by (intros st t [_ ->]; reflexivity).
  induction 1 as [st Hd|st st1 n o st2 Hd E Hr IH|st x Hd|st e st1 Hd E|st x st1 Hd E|st st1 Hd E]; intros t Ht; rewrite <- (K st t Ht) in Hd.
  - exists t. split; [now constructor|exact Ht].
  - destruct (par_rad C st t Ht) as [Eo R]. rewrite E in Eo, R. destruct (read_application_data C t) as [o2 t1] eqn:E2. cbn [fst snd] in Eo, R. subst o2.
    destruct (IH t1 R) as (t2 & H2 & T2). exists t2. split; [|exact T2]. econstructor; eassumption.
  - exists t. split; [now constructor|exact Ht].
  - destruct (par_rad C st t Ht) as [Eo R]. rewrite E in Eo, R. destruct (read_application_data C t) as [o2 t1] eqn:E2. cbn [fst snd] in Eo, R. subst o2.
    exists t1. split; [|exact R]. now apply fr_error.
  - destruct (par_rad C st t Ht) as [Eo R]. rewrite E in Eo, R. destruct (read_application_data C t) as [o2 t1] eqn:E2. cbn [fst snd] in Eo, R. subst o2.
    exists t1. split; [|exact R]. now apply fr_panic.
  - destruct (par_rad C st t Ht) as [Eo R]. rewrite E in Eo, R. destruct (read_application_data C t) as [o2 t1] eqn:E2. cbn [fst snd] in Eo, R. subst o2.
    exists t1. split; [|exact R]. now apply fr_cancelled.
Qed.

Lemma fills_unique C : forall n st o st', fill_run C n st o st' -> forall n2 o2 st2, fill_run C n2 st o2 st2 -> o = o2 /\ st' = st2.
Proof.
  induction 1 as [st Hd|st st1 n o st2 Hd E Hr IH|st x Hd|st e st1 Hd E|st x st1 Hd E|st st1 Hd E]; intros n2 o2 t H2;
    inversion H2; subst; try congruence; try (split; congruence);
    try (match goal with A : read_application_data _ _ = _, B : read_application_data _ _ = _ |- _ => rewrite A in B; apply pair_equal_spec in B as [B1 B2]; try discriminate B1 end).
  subst. eapply IH; eassumption.
Qed.

Lemma par_buffered C : par twr (rh_read_buffered C) (rh_read_buffered C).
Proof.
  intros [r1 [d op]] [r2 s2] [Hr Hs]. cbn [fst snd] in Hr, Hs. subst s2. destruct op; [|split; [reflexivity|split; [exact Hr|reflexivity]]].
  assert (U : forall r, rh_read_buffered C (r, (d, true)) = let '(o, st) := fill_loop C (S (rx_size (rd_rx r))) (r, (d, true)) in
     match o with Ok _ => (create_read_buffer (fst (snd st)) (rd_buf (fst st)), st) | Err e => (Err e, st) | Panic x => (Panic x, st) | Diverge => (Diverge, st) | Cancelled => (Cancelled, st) end).
  { intros r. unfold rh_read_buffered, bind, get, lift. cbn [fst snd]. now destruct (fill_loop C (S (rx_size (rd_rx r))) (r, (d, true))) as [[[]|e|x| |] st]. }
  rewrite !U. clear U.
  assert (W1 : rd_wf (fst (r1, (d, true)))) by apply Hr.
  assert (W2 : rd_wf (fst (r2, (d, true)))) by (destruct (twin_cases _ _ Hr) as [rx2 E]; cbn [fst]; rewrite E; exact W1).
  pose proof (fill_runs C (S (rx_size (rd_rx r1))) (r1, (d, true)) W1 ltac:(unfold left; cbn [fst]; lia)) as F1.
  pose proof (fill_runs C (S (rx_size (rd_rx r2))) (r2, (d, true)) W2 ltac:(unfold left; cbn [fst]; lia)) as F2.
  destruct (fill_loop C (S (rx_size (rd_rx r1))) (r1, (d, true))) as [o1 st1]. destruct (fill_loop C (S (rx_size (rd_rx r2))) (r2, (d, true))) as [o2 st2].
  destruct F1 as [(n1 & F1 & _) _]. destruct F2 as [(n2 & F2 & _) _].
  destruct (par_fills C _ _ _ _ F1 (r2, (d, true))) as (st3 & F3 & T3); [split; [exact Hr|reflexivity]|].
  destruct (fills_unique C _ _ _ _ F3 _ _ _ F2) as [<- <-].
  destruct o1 as [[]|e|x| |]; try (cbn [fst snd]; split; [reflexivity|exact T3]).
  destruct T3 as [T3 T4]. cbn [fst snd]. rewrite <- T4, (twin_buf _ _ T3). split; [reflexivity|]. now split.
Qed.

Lemma par_set_dec d : par twr (rh_set_dec d) (rh_set_dec d).
Proof. intros [r1 [d1 o1]] [r2 s2] [Hr Hs]. cbn [fst snd] in Hr, Hs. subst s2. split; [reflexivity|]. split; [exact Hr|reflexivity]. Qed.
Lemma par_drop r : par twr (rh_drop r) (rh_drop r).
Proof. unfold rh_drop. apply par_get. intros x1 x2 [_ Hx]. rewrite Hx. apply par_set_dec. Qed.

Lemma par_rh {A} (m : M rhalf tls_error A) : par twr m m -> par twc (on_rh m) (on_rh m).
Proof.
  intros Hm a b H. destruct (twc_fields a b H) as (E1 & E2 & E3 & E4). unfold on_rh. rewrite E1, E2, E3, E4.
  destruct (Hm (cn_rd a, (cn_dec a, cn_opened a)) (cn_rd b, (cn_dec a, cn_opened a))) as [E [R S]]; [split; [exact (proj1 H)|reflexivity]|].
  destruct (m (cn_rd a, (cn_dec a, cn_opened a))) as [o1 [r1 [d1 p1]]]. destruct (m (cn_rd b, (cn_dec a, cn_opened a))) as [o2 [r2 [d2 p2]]]. cbn [fst snd] in *.
  apply pair_equal_spec in S as [-> ->]. split; [exact E|]. apply twc_intro, R.
Qed.

Lemma par_step C o : par twc (step C o) (step C o).
Proof.
  destruct o as [b| |pol|dst| |n|ops fin|]; cbn [step]; (apply par_bind; [|intros ?; apply par_ret]).
  - unfold cn_write. apply par_get. intros a c H. destruct (twc_fields a c H) as (E1 & E2 & E3 & E4). rewrite E4. apply par_wh.
  - apply par_wh.
  - apply par_wh.
  - apply par_rh. unfold rh_read. destruct (_ =? _); [apply par_ret|]. apply par_bind; [apply par_buffered|intros r]. apply par_bind; [apply par_lift|intros bnr].
    apply par_bind; [apply par_drop|intros []]. apply par_ret.
  - apply par_rh. unfold rh_fill_buf. apply par_bind; [apply par_buffered|intros r]. apply par_bind; [apply par_lift|intros sr]. apply par_bind; [apply par_drop|intros []]. apply par_ret.
  - apply par_rh. unfold rh_consume. apply par_get. intros x1 x2 [Hx Hy]. rewrite Hy, (twin_buf _ _ Hx). apply par_bind; [apply par_lift|intros r].
    apply par_bind; [apply par_lift|intros sr]. apply par_drop.
  - apply par_rh. unfold rh_with_buffer. apply par_bind; [apply par_buffered|intros r]. apply par_bind; [apply par_lift|intros q]. apply par_bind; [|intros []; apply par_ret].
    destruct fin; [apply par_drop|]. apply par_get. intros x1 x2 [_ Hy]. rewrite Hy. apply par_set_dec.
  - unfold cn_close. apply par_bind; [apply par_wh|intros []]. apply par_get. intros a c H. destruct (twc_fields a c H) as (E1 & E2 & E3 & E4). rewrite E4.
    apply par_bind; [apply par_write_record|intros s]. apply par_bind; [apply par_wh|intros []]. apply par_bind; [apply par_wh|intros []]. apply par_wh.
Qed.

(** ** Sessions *)

Theorem session_twin C {V} : forall (l : list (call V)) c1 c2, twc c1 c2 -> Forall call_returns l ->
  fst (session C l c1) = fst (session C l c2) /\ twc (snd (session C l c1)) (snd (session C l c2)).
Proof.
  induction l as [|[p cfg v|o] l IH]; intros c1 c2 H HF; [split; [reflexivity|exact H]|..]; inversion HF as [|? ? Hp HF']; subst; cbn [session].
  - destruct (open_twin C p cfg v c1 c2 Hp H) as [E R]. destruct (cn_open C p cfg v c1) as [r d1]. destruct (cn_open C p cfg v c2) as [r2 d2]. cbn [fst snd] in E, R. subst r2.
    specialize (IH d1 d2 R HF'). destruct (session C l d1) as [rs1 e1]. destruct (session C l d2) as [rs2 e2]. cbn [fst snd] in IH. destruct IH as [-> IH].
    destruct r; cbn [fst snd]; (split; [reflexivity|]); assumption.
  - destruct (par_step C o c1 c2 H) as [E R]. destruct (step C o c1) as [r d1]. destruct (step C o c2) as [r2 d2]. cbn [fst snd] in E, R. subst r2.
    specialize (IH d1 d2 R HF'). destruct (session C l d1) as [rs1 e1]. destruct (session C l d2) as [rs2 e2]. cbn [fst snd] in IH. destruct IH as [-> IH].
    destruct o; destruct r; cbn [fst snd]; (split; [reflexivity|]); assumption.
Qed.

Lemma new_twin C rbuf wbuf rx1 rx2 tx c1 c2 : chunked rx1 -> chunked rx2 -> stream rx1 = stream rx2 ->
  cn_new C rbuf wbuf rx1 tx = Ok c1 -> cn_new C rbuf wbuf rx2 tx = Ok c2 -> twc c1 c2.
Proof.
  intros H1 H2 Hs E1 E2. unfold cn_new in E1, E2. destruct (wb_new wbuf) as [w|e|x| |]; try discriminate. cbn [obind] in E1, E2. injection E1 as <-. injection E2 as <-.
  apply twc_intro. split; [reflexivity|]. split; [unfold rd_wf; cbn; lia|]. split; [split; [exact H1|now left]|]. split; [exact H2|now symmetry].
Qed.
