(** * C74: the end of the peer's data *)
From Coq Require Import String List NArith Arith Bool Lia ZArith.
From Coq.Strings Require Import Byte.
From Coq Require Import ZifyBool ZifyNat ZifyN.
From Verif Require Import Base ParseBuffer Buffer Codes Extensions Crypto KeySchedule Config Handshake Record WriteBuffer
  Transport RecordReader ReadBuffer Connection Api Lib BaseProofs SpecWire WireProofs SpecCodes SpecMessages SpecKeys KeyProofs SpecRecord RecordProofs SpecRead
  SpecSend SendProofs SpecHello PropHello HsProofs ConnProofs FrameProofs DecryptProofs FlagProofs ReadProofs RecvProofs ServeProofs SpecHandshake SpecComplete CompleteProofs
  SpecFailure SpecReceiver ListenProofs ReceiverProofs PropReceiver Toy ToyRun PropRead PropRecv PropStrict.
Import ListNotations.
Local Open Scope list_scope.

Ltac Zify.zify_post_hook ::= Z.div_mod_to_equations.

(** ** What is meant *)

(** A [read] into a buffer that is not empty. *)
Definition real_read (o : op) : Prop := exists dst, o = OpRead dst /\ dst <> [].

(** It returned some bytes. *)
Definition got_some (p : op * outcome tls_error value) : Prop := exists n b, 0 < n <= length b /\ snd p = Ok (VRead n b).

(** What arrives when the connection under TLS is cut: nothing, part of a record header, or a header and part of its record (one
    that would fit the read buffer). *)
Definition cut_off (room : nat) (w : bytes) : Prop :=
  length w < 5 \/
  exists h f k, w = h ++ f /\ length h = 5 /\ type_known h /\ be_val (skipn 3 h) = N.of_nat k /\ k <= room /\ length f < k.

(** What code that is written for any [embedded_io] stream sees of a result: the value, or the kind of the error. *)
Definition generic_view (r : outcome tls_error value) : outcome io_kind value :=
  match r with
  | Ok v => Ok v
  | Err e => Err (err_kind e)
  | Panic x => Panic x
  | Diverge => Diverge
  | Cancelled => Cancelled
  end.

(** ** The records of the server, in the machine of SpecReceiver.v *)

Section Machine.
Context (C : crypto) (HC : crypto_ok C) (key iv : bytes) (room : nat).

Lemma hears_skip n h f rest v0 n1 v n' w' : readable room (h, f) -> record_is C key iv n h f v0 n1 -> passed v0 = true ->
  hears C key iv room n (h ++ f ++ rest) v n' w' -> passed v = false -> hears C key iv room n1 rest v n' w'.
Proof.
  intros Hr Hi Hp H Hv. assert (Hl5 : length h = 5) by (destruct Hr as ((E & _) & _); exact E).
  remember (h ++ f ++ rest) as W eqn:E. destruct H as [n h' f' rest' v2 n2 v3 n3 w3 Hr' Hi' Hp' Hh'|n h' f' rest' v2 n2 Hr' Hi' Hp'|n w2 Hl'|n h' w2 Hl' Ht'|n h' k' w2 Hl' Ht' Hk' Hroom'|n h' k' w2 Hl' Ht' Hk' Hroom' Hw'].
  - destruct (readable_unique room _ _ _ _ _ _ Hr' Hr E) as (-> & -> & ->). destruct (record_unique C _ _ _ _ _ _ _ _ _ Hi Hi') as [_ ->]. exact Hh'.
  - destruct (readable_unique room _ _ _ _ _ _ Hr' Hr E) as (-> & -> & ->). destruct (record_unique C _ _ _ _ _ _ _ _ _ Hi Hi') as [A _].
    congruence.
  - subst w2. rewrite app_length in Hl'. lia.
  - destruct (head_unique h' h _ _ Hl' Hl5 E) as [-> _]. destruct Hr as (_ & Ht & _). contradiction.
  - destruct (head_unique h' h _ _ Hl' Hl5 E) as [-> _]. destruct Hr as ((_ & Hb) & _ & Hroom). cbn [fst snd] in *. lia.
  - destruct (head_unique h' h _ _ Hl' Hl5 E) as [-> E2]. destruct Hr as ((_ & Hb) & _ & Hroom). cbn [fst snd] in *. subst w2. rewrite app_length in Hw'. lia.
Qed.

Lemma served_record n t b pad : served C room ((t, b), pad) -> (n < u64_max)%N ->
  exists h f v, rfc_record C key iv n t b pad = h ++ f /\ readable room (h, f) /\ record_is C key iv n h f v (n + 1) /\
    (v = V_data b /\ t = ty_data \/ v = V_nothing /\ t = ty_handshake).
Proof.
  intros (Hk & Hr & Hs) Hn.
  assert (Ht : t <> x00) by (destruct Hk as [-> |(-> & _)]; discriminate).
  destruct (authentic_record C key iv room n t b pad HC Ht Hr Hs) as (h & f & E & Hrd & Hi & _).
  destruct Hk as [-> |(-> & ms & Eb & Hms)].
  - exists h, f, (V_data b). split; [exact E|]. split; [exact Hrd|]. split; [apply Hi; [apply ci_data|reflexivity|exact Hn]|auto].
  - destruct (content_total C ty_handshake b) as (v & Hv). pose proof (content_handshake C b v Hv) as A. unfold pass_verdict in A.
    rewrite (hs_pass_tickets C b ms [] Eb Hms) in A. subst v.
    exists h, f, V_nothing. split; [exact E|]. split; [exact Hrd|]. split; [apply Hi; [exact Hv|reflexivity|exact Hn]|auto].
Qed.

Definition sent_data (srv : list sent_record) : bytes := concat (data_of (map fst srv)).

Lemma waits_passed : forall v n w n' w', hears C key iv room n w v n' w' -> passed v = false.
Proof. induction 1; auto. Qed.

(** The next thing heard is the data of one of the records, or what follows them all. *)
Lemma hears_either : forall srv n, Forall (served C room) srv -> (n + N.of_nat (length srv) <= u64_max)%N ->
  (exists d n1 srv2, d <> [] /\ sent_data srv = d ++ sent_data srv2 /\ Forall (served C room) srv2 /\
     (n1 + N.of_nat (length srv2) = n + N.of_nat (length srv))%N /\
     forall t v n' w', hears C key iv room n (server_wire C key iv n srv ++ t) v n' w' -> v = V_data d /\ n' = n1 /\ w' = server_wire C key iv n1 srv2 ++ t) \/
  (sent_data srv = [] /\
     forall t v n' w', hears C key iv room n (server_wire C key iv n srv ++ t) v n' w' -> hears C key iv room (n + N.of_nat (length srv)) t v n' w').
Proof.
  induction srv as [|[[ty b] pad] srv IH]; intros n Hs Hn.
  - right. split; [reflexivity|]. cbn [length]. replace (n + N.of_nat 0)%N with n by lia. intros t v n' w' H. exact H.
  - inversion Hs as [|? ? Hs1 Hs2]; subst. cbn [server_wire length] in *.
    destruct (served_record n ty b pad Hs1 ltac:(lia)) as (h & f & v0 & E & Hrd & Hi & Hk).
    rewrite E. destruct (passed v0) eqn:Ep.
    + assert (Hskip : forall t v n' w', hears C key iv room n (((h ++ f) ++ server_wire C key iv (n + 1) srv) ++ t) v n' w' ->
        hears C key iv room (n + 1) (server_wire C key iv (n + 1) srv ++ t) v n' w').
      { intros t v n' w' H. rewrite <- !app_assoc in H. exact (hears_skip _ _ _ _ _ _ _ _ _ Hrd Hi Ep H (waits_passed _ _ _ _ _ H)). }
      assert (Ed : sent_data (@cons sent_record ((ty, b), pad) srv) = sent_data srv).
      { unfold sent_data, data_of. cbn [map filter fst]. destruct Hk as [[-> ->]|[-> ->]].
        - destruct b; [|discriminate Ep]. reflexivity.
        - reflexivity. }
      rewrite Ed. destruct (IH (n + 1)%N Hs2 ltac:(lia)) as [(d & n1 & srv2 & E2 & E3 & E4 & E5 & E6)|[E1 E2]].
      * left. exists d, n1, srv2. do 3 (split; [assumption|]). split; [lia|]. intros t v n' w' H. apply E6, Hskip, H.
      * right. split; [exact E1|]. intros t v n' w' H. replace (n + N.of_nat (S (length srv)))%N with (n + 1 + N.of_nat (length srv))%N by lia. apply E2, Hskip, H.
    + destruct Hk as [[-> ->]|[-> ->]]; [|discriminate Ep].
      left. exists b, (n + 1)%N, srv. split; [intros ->; discriminate Ep|]. split; [reflexivity|]. split; [exact Hs2|]. split; [lia|].
      intros t v n' w' H. rewrite <- !app_assoc in H.
      destruct (hears_unique C _ _ _ _ _ _ _ _ (he_record C key iv room n h f _ _ (n + 1)%N Hrd Hi Ep) _ _ _ H) as (A & <- & <-).
      subst v. auto.
Qed.

Lemma hears_server t srv n v n' w' : Forall (served C room) srv -> (n + N.of_nat (length srv) <= u64_max)%N ->
  hears C key iv room n (server_wire C key iv n srv ++ t) v n' w' -> passed v = false ->
  (exists d srv2, v = V_data d /\ d <> [] /\ sent_data srv = d ++ sent_data srv2 /\ Forall (served C room) srv2 /\
     (n' + N.of_nat (length srv2) = n + N.of_nat (length srv))%N /\ w' = server_wire C key iv n' srv2 ++ t) \/
  (sent_data srv = [] /\ hears C key iv room (n + N.of_nat (length srv)) t v n' w').
Proof.
  intros Hs Hn H _. destruct (hears_either srv n Hs Hn) as [(d & n1 & srv2 & E2 & E3 & E4 & E5 & E6)|[E1 E2]].
  - destruct (E6 _ _ _ _ H) as (-> & -> & ->). left. exists d, srv2. auto 10.
  - right. split; [exact E1|]. apply E2, H.
Qed.

(** What is heard at the end of the data, and what calls get from then on. *)
Definition ends (n : N) (t : bytes) (e e' : tls_error) : Prop :=
  forall v n' w', hears C key iv room n t v n' w' -> passed v = false ->
    (v = V_closed /\ e = ConnectionClosed /\ e' = MissingHandshake) \/ (v = V_error IoError /\ e = IoError /\ e' = IoError /\ w' = []).

Lemma hears_short n w v n' w' : length w < 5 -> hears C key iv room n w v n' w' -> v = V_error IoError /\ w' = [].
Proof.
  intros Hl H. destruct H as [n h' f' rest' v2 n2 v3 n3 w3 Hr' Hi' Hp' Hh'|n h' f' rest' v2 n2 Hr' Hi' Hp'|n w2 Hl'|n h' w2 Hl' Ht'|n h' k' w2 Hl' Ht' Hk' Hroom'|n h' k' w2 Hl' Ht' Hk' Hroom' Hw'];
    try (destruct Hr' as ((E & _) & _); cbn [fst] in E); rewrite ?app_length in Hl; try lia. auto.
Qed.

Lemma ends_cut n w : cut_off room w -> ends n w IoError IoError.
Proof.
  intros [Hs|(h & f & k & -> & Hl & Ht & Hk & Hroom & Hf)] v n' w' H Hv.
  - destruct (hears_short _ _ _ _ _ Hs H) as [-> ->]. auto.
  - destruct (hears_unique C _ _ _ _ _ _ _ _ (he_cut C key iv room n h k f Hl Ht Hk Hroom Hf) _ _ _ H) as (_ & _ & <-).
    right. split; [|auto]. remember (h ++ f) as W eqn:E.
    destruct H as [n h' f' rest' v2 n2 v3 n3 w3 Hr' Hi' Hp' Hh'|n h' f' rest' v2 n2 Hr' Hi' Hp'|n w2 Hl'|n h' w2 Hl' Ht'|n h' k' w2 Hl' Ht' Hk' Hroom'|n h' k' w2 Hl' Ht' Hk' Hroom' Hw'].
    + destruct Hr' as ((L1 & L2) & _ & L3). cbn [fst snd] in *. destruct (head_unique h' h _ _ L1 Hl E) as [-> E2]. subst f. rewrite app_length in Hf. lia.
    + destruct Hr' as ((L1 & L2) & _ & L3). cbn [fst snd] in *. destruct (head_unique h' h _ _ L1 Hl E) as [-> E2]. subst f. rewrite app_length in Hf. lia.
    + reflexivity.
    + destruct (head_unique h' h _ _ Hl' Hl E) as [-> _]. contradiction.
    + destruct (head_unique h' h _ _ Hl' Hl E) as [-> _]. lia.
    + reflexivity.
Qed.

Lemma ends_close n lvl pad rest : lvl = x01 \/ lvl = x02 -> 3 + pad + tag_len C <= room -> (N.of_nat (3 + pad + tag_len C) < 65536)%N ->
  ends n (rfc_record C key iv n ty_alert [lvl; x00] pad ++ rest) ConnectionClosed MissingHandshake.
Proof.
  intros Hlvl Hr Hs v n' w' H Hv.
  destruct (authentic_record C key iv room n ty_alert [lvl; x00] pad HC ltac:(discriminate) ltac:(cbn [length]; lia) ltac:(cbn [length]; lia)) as (h & f & E & Hrd & _ & Hi).
  assert (Ha : exists l, is_alert [lvl; x00] l AD_CloseNotify).
  { destruct Hlvl as [-> | ->]; [exists AL_Warning|exists AL_Fatal]; exists []; reflexivity. }
  destruct Ha as [l Ha].
  rewrite E, <- app_assoc in H.
  destruct (hears_unique C _ _ _ _ _ _ _ _ (he_record C key iv room n h f _ V_closed n Hrd (Hi _ (ci_close C _ _ Ha) eq_refl) eq_refl) _ _ _ H) as (A & _).
  left. subst v. auto.
Qed.

(** ** Loops of reads *)

Definition finished (e' : tls_error) (s : receiver) : Prop :=
  q_data s = [] /\ (q_open s = false /\ e' = MissingHandshake \/ q_open s = true /\ q_wire s = [] /\ e' = IoError).

Lemma over_receive e' s o r s' : finished e' s -> waits o = true -> receive C key iv room s o r s' -> r = Err e' /\ finished e' s'.
Proof.
  intros [Hd Hs] Hw H. inversion H as [? ? ? got q' Hq Hsu Htk|? ? Hop Hw'|n w ? ? d n' w' got q' _ Hh Hsu Htk|n w ? e n' w' _ Hh|n w ? n' w' _ Hh|n w ? x n' w' ? _ Hh]; subst; cbn [q_open q_data q_wire] in *.
  - destruct Hq as [[_ Hq]|Hq]; congruence.
  - destruct Hs as [[_ ->]|[Hs _]]; [|congruence]. split; [reflexivity|]. split; [exact Hd|left; auto].
  - destruct Hs as [[Hs _]|(_ & -> & ->)]; [discriminate|]. apply hears_short in Hh as [E _]; [discriminate E|cbn; lia].
  - destruct Hs as [[Hs _]|(_ & -> & ->)]; [discriminate|]. apply hears_short in Hh as [E ->]; [|cbn; lia]. injection E as ->.
    split; [reflexivity|]. split; [reflexivity|right; auto].
  - destruct Hs as [[Hs _]|(_ & -> & ->)]; [discriminate|]. apply hears_short in Hh as [E _]; [discriminate E|cbn; lia].
  - destruct Hs as [[Hs _]|(_ & -> & ->)]; [discriminate|]. apply hears_short in Hh as [E _]; [discriminate E|cbn; lia].
Qed.

Lemma over_listens e' : forall rs s s', finished e' s -> Forall (fun p => waits (fst p) = true) rs -> listens C key iv room s rs s' ->
  Forall (fun p => snd p = Err e') rs.
Proof.
  induction rs as [|[o r] rs IH]; intros s s' Hf Hw H; constructor; inversion Hw as [|? ? Hw1 Hw2]; subst; cbn [fst snd] in *.
  - inversion H as [|? ? ? s1 ? ? _ Hr _ _|? ? ? ? ? Hn]; subst; [exact (proj1 (over_receive _ _ _ _ _ Hf Hw1 Hr))|destruct o; discriminate].
  - inversion H as [|? ? ? s1 ? ? _ Hr _ Hl|? ? ? ? ? Hn Hl]; subst; [|destruct o; discriminate].
    exact (IH _ _ (proj2 (over_receive _ _ _ _ _ Hf Hw1 Hr)) Hw2 Hl).
Qed.

Lemma read_takes dst r q got q' : dst <> [] -> succeeds r -> take (OpRead dst) r q got q' ->
  exists n b, 0 < n <= length b /\ r = Ok (VRead n b) /\ firstn n b = got /\ q = got ++ q' /\ got <> [].
Proof.
  intros Hd [v Hv] H. inversion H as [|? ? n _ Hq En| | | |? ? ? Hf|? ? ? Hf]; subst; try congruence; try discriminate.
  exists (Nat.min (length dst) (length q)), (firstn (Nat.min (length dst) (length q)) q ++ skipn (Nat.min (length dst) (length q)) dst).
  assert (0 < length dst) by (destruct dst; [congruence|cbn; lia]). assert (0 < length q) by (destruct q; [congruence|cbn; lia]).
  assert (Hl : length (firstn (Nat.min (length dst) (length q)) q) = Nat.min (length dst) (length q)) by (rewrite firstn_length; lia).
  split; [rewrite app_length, Hl; lia|]. split; [reflexivity|]. split; [rewrite firstn_app, Hl, Nat.sub_diag, firstn_O, app_nil_r; rewrite <- Hl at 1; apply firstn_all|].
  split; [symmetry; apply firstn_skipn|]. intros E. rewrite E in Hl. cbn in Hl. lia.
Qed.

Lemma read_loop t e e' : forall rs q n srv s', Forall (served C room) srv -> (n + N.of_nat (length srv) <= u64_max)%N ->
  ends (n + N.of_nat (length srv)) t e e' ->
  Forall (fun p => real_read (fst p)) rs ->
  listens C key iv room (mk_receiver true q n (server_wire C key iv n srv ++ t)) rs s' ->
  (Forall got_some rs /\ exists left, read_bytes rs ++ left = q ++ sent_data srv) \/
  exists pre o post, rs = pre ++ (o, Err e) :: post /\ Forall got_some pre /\ read_bytes pre = q ++ sent_data srv /\
    Forall (fun p => snd p = Err e') post.
Proof.
  induction rs as [|[o r] rs IH]; intros q n srv s' Hs Hn He Hf H.
  - left. split; [constructor|]. exists (q ++ sent_data srv). reflexivity.
  - inversion Hf as [|? ? (dst & Eo & Hd) Hf']; subst. cbn [fst] in Eo. subst o.
    assert (Hw : waits (OpRead dst) = true) by (destruct dst; [congruence|reflexivity]).
    assert (HW : Forall (fun p : op * outcome tls_error value => waits (fst p) = true) rs).
    { eapply Forall_impl; [|exact Hf']. intros a (d0 & -> & Hd0). destruct d0; [congruence|reflexivity]. }
    assert (Hgo : forall got q' n1 srv1, Forall (served C room) srv1 -> (n1 + N.of_nat (length srv1) = n + N.of_nat (length srv))%N ->
      (exists k b, 0 < k <= length b /\ r = Ok (VRead k b) /\ firstn k b = got) -> q ++ sent_data srv = got ++ q' ++ sent_data srv1 ->
      listens C key iv room (mk_receiver true q' n1 (server_wire C key iv n1 srv1 ++ t)) rs s' ->
      (Forall got_some ((OpRead dst, r) :: rs) /\ exists left, read_bytes ((OpRead dst, r) :: rs) ++ left = q ++ sent_data srv) \/
      exists pre o post, (OpRead dst, r) :: rs = pre ++ (o, Err e) :: post /\ Forall got_some pre /\ read_bytes pre = q ++ sent_data srv /\
        Forall (fun p => snd p = Err e') post).
    { intros got q' n1 srv1 Hs1 En (k & b & Hk & -> & Eg) Eq Hl.
      assert (Hrb : forall l, read_bytes ((OpRead dst, Ok (VRead k b)) :: l) = got ++ read_bytes l) by (intros l; unfold read_bytes; cbn [map concat]; now rewrite Eg).
      destruct (IH q' n1 srv1 s' Hs1 ltac:(lia) ltac:(rewrite En; exact He) Hf' Hl) as [(A & left & B)|(pre & o & post & A & B & D & F)].
      - left. split; [constructor; [exists k, b; auto|exact A]|]. exists left. rewrite Hrb, <- app_assoc, B. now rewrite Eq.
      - right. exists ((OpRead dst, Ok (VRead k b)) :: pre), o, post. split; [now rewrite A|]. split; [constructor; [exists k, b; auto|exact B]|].
        split; [rewrite Hrb, D; now rewrite Eq|exact F]. }
    assert (Hend : forall s1, r = Err e -> finished e' s1 -> listens C key iv room s1 rs s' -> q ++ sent_data srv = [] ->
      exists pre o post, (OpRead dst, r) :: rs = pre ++ (o, Err e) :: post /\ Forall got_some pre /\ read_bytes pre = q ++ sent_data srv /\
        Forall (fun p => snd p = Err e') post).
    { intros s1 -> Hfin Hl Eq. exists [], (OpRead dst), rs. split; [reflexivity|]. split; [constructor|]. split; [now rewrite Eq|].
      exact (over_listens e' rs _ _ Hfin HW Hl). }
    inversion H as [|? ? ? s1 ? ? _ Hr _ Hl|? ? ? ? ? Hx Hl]; subst; [|discriminate Hx].
    inversion Hr as [? ? ? got q' Hq Hsu Htk|? ? Hop Hw'|n0 w ? ? d n' w' got q' _ Hh Hsu Htk|n0 w ? e0 n' w' _ Hh|n0 w ? n' w' _ Hh|n0 w ? x n' w' ? _ Hh]; subst; cbn [q_open q_data q_wire q_next] in *.
    + destruct (read_takes dst r q got q' Hd Hsu Htk) as (k & b & K1 & K2 & K3 & K4 & _).
      apply (Hgo got q' n srv Hs eq_refl); [exists k, b; auto| |exact Hl]. rewrite K4, <- app_assoc. reflexivity.
    + discriminate Hop.
    + destruct (read_takes dst r d got q' Hd Hsu Htk) as (k & b & K1 & K2 & K3 & K4 & _).
      destruct (hears_server t srv n _ _ _ Hs Hn Hh (waits_passed _ _ _ _ _ Hh)) as [(d0 & srv2 & E1 & E2 & E3 & E4 & E5 & E6)|[E1 E2]].
      * injection E1 as <-. apply (Hgo got q' n' srv2 E4 E5); [exists k, b; auto| |rewrite <- E6; exact Hl]. cbn [app]. rewrite E3, K4, <- app_assoc. reflexivity.
      * destruct (He _ _ _ E2 (waits_passed _ _ _ _ _ E2)) as [(A & _)|(A & _)]; discriminate A.
    + destruct (hears_server t srv n _ _ _ Hs Hn Hh (waits_passed _ _ _ _ _ Hh)) as [(d0 & srv2 & E1 & _)|[E1 E2]]; [discriminate E1|].
      destruct (He _ _ _ E2 (waits_passed _ _ _ _ _ E2)) as [(A & _)|(A & -> & -> & ->)]; [discriminate A|]. injection A as ->.
      right. apply (Hend _ eq_refl) with (2 := Hl); [|cbn [app]; exact E1]. split; [reflexivity|right; auto].
    + destruct (hears_server t srv n _ _ _ Hs Hn Hh (waits_passed _ _ _ _ _ Hh)) as [(d0 & srv2 & E1 & _)|[E1 E2]]; [discriminate E1|].
      destruct (He _ _ _ E2 (waits_passed _ _ _ _ _ E2)) as [(_ & -> & ->)|(A & _)]; [|discriminate A].
      right. apply (Hend _ eq_refl) with (2 := Hl); [|cbn [app]; exact E1]. split; [reflexivity|left; auto].
    + destruct (hears_server t srv n _ _ _ Hs Hn Hh (waits_passed _ _ _ _ _ Hh)) as [(d0 & srv2 & E1 & _)|[E1 E2]]; [discriminate E1|].
      destruct (He _ _ _ E2 (waits_passed _ _ _ _ _ E2)) as [(A & _)|(A & _)]; discriminate A.
Qed.

(** ** Any receiving calls, on two streams that end in different ways *)

Definition plain_kind (e : tls_error) : Prop := err_kind e = kind_other.

Definition paired (t1 t2 : bytes) (e1 e2 : tls_error) (s1 s2 : receiver) : Prop :=
  (exists q n srv, Forall (served C room) srv /\ (n + N.of_nat (length srv) <= u64_max)%N /\
     (exists e, ends (n + N.of_nat (length srv)) t1 e e1) /\ (exists e, ends (n + N.of_nat (length srv)) t2 e e2) /\
     s1 = mk_receiver true q n (server_wire C key iv n srv ++ t1) /\ s2 = mk_receiver true q n (server_wire C key iv n srv ++ t2)) \/
  (finished e1 s1 /\ finished e2 s2).

Lemma finished_step e s o r s' : finished e s -> receives o = true -> receive C key iv room s o r s' ->
  finished e s' /\ (waits o = true -> r = Err e) /\ (waits o = false -> succeeds r /\ exists got q', take o r [] got q').
Proof.
  intros Hf Ho H. destruct (waits o) eqn:Ew.
  { destruct (over_receive e s o r s' Hf Ew H) as [A B]. split; [exact B|]. split; [auto|discriminate]. }
  inversion H as [? ? ? got q' Hq Hsu Htk|? ? Hop Hw'|n w ? ? d n' w' got q' Hx Hh Hsu Htk|n w ? e0 n' w' Hx Hh|n w ? n' w' Hx Hh|n w ? x n' w' ? Hx Hh]; subst; try congruence.
  destruct Hf as [Hd Hs]. rewrite Hd in Htk. split; [|split; [discriminate|intros _; eauto]].
  split; [|exact Hs]. cbn [q_data].
  inversion Htk as [|? ? ? ? Hn| | |? ? ? ? Hn|? ? ? Hn|? ? ? Hn]; subst; try congruence. apply skipn_nil.
Qed.

Lemma take_same o r1 r2 q g1 q1 g2 q2 : receives o = true -> succeeds r1 -> succeeds r2 -> take o r1 q g1 q1 -> take o r2 q g2 q2 -> r1 = r2 /\ q1 = q2.
Proof.
  intros Ho [v1 ->] [v2 ->] H1 H2.
  inversion H1; subst; inversion H2; subst; try congruence; auto;
    exfalso; match goal with H : forall v, Ok _ <> Ok v |- _ => exact (H _ eq_refl) end.
Qed.

Lemma alive_step q n srv o : Forall (served C room) srv -> (n + N.of_nat (length srv) <= u64_max)%N ->
  forall t x e r s', ends (n + N.of_nat (length srv)) t x e ->
    receive C key iv room (mk_receiver true q n (server_wire C key iv n srv ++ t)) o r s' ->
    ((q <> [] \/ waits o = false) /\ succeeds r /\ exists got q', take o r q got q' /\ s' = mk_receiver true q' n (server_wire C key iv n srv ++ t)) \/
    (q = [] /\ waits o = true /\
      ((exists d n' srv2 got q', d <> [] /\ hears C key iv room n (server_wire C key iv n srv ++ t) (V_data d) n' (server_wire C key iv n' srv2 ++ t) /\
         sent_data srv <> [] /\ succeeds r /\ take o r d got q' /\ s' = mk_receiver true q' n' (server_wire C key iv n' srv2 ++ t)) \/
       (sent_data srv = [] /\ r = Err x /\ finished e s' /\ err_kind x = kind_other))).
Proof.
  intros Hs Hn. intros t x e r s' He H.
    inversion H as [? ? ? got q' Hq Hsu Htk|? ? Hop Hw'|n0 w ? ? d n' w' got q' Hx Hh Hsu Htk|n0 w ? e0 n' w' Hx Hh|n0 w ? n' w' Hx Hh|n0 w ? y n' w' ? Hx Hh]; subst; cbn [q_open q_data q_wire q_next] in *.
    - left. split; [tauto|]. split; [exact Hsu|]. exists got, q'. auto.
    - discriminate Hop.
    - right. split; [reflexivity|]. split; [exact Hx|]. left.
      destruct (hears_server t srv n _ _ _ Hs Hn Hh (waits_passed _ _ _ _ _ Hh)) as [(d0 & srv2 & E1 & E2 & E3 & E4 & E5 & E6)|[E1 E2]].
      + injection E1 as <-. exists d, n', srv2, got, q'. rewrite <- E6. split; [exact E2|]. split; [exact Hh|]. split; [rewrite E3; destruct d; [congruence|discriminate]|auto].
      + destruct (He _ _ _ E2 (waits_passed _ _ _ _ _ E2)) as [(A & _)|(A & _)]; discriminate A.
    - right. split; [reflexivity|]. split; [exact Hx|]. right.
      destruct (hears_server t srv n _ _ _ Hs Hn Hh (waits_passed _ _ _ _ _ Hh)) as [(d0 & srv2 & E1 & _)|[E1 E2]]; [discriminate E1|].
      destruct (He _ _ _ E2 (waits_passed _ _ _ _ _ E2)) as [(A & _)|(A & -> & -> & ->)]; [discriminate A|]. injection A as ->.
      split; [exact E1|]. split; [reflexivity|]. split; [|reflexivity]. split; [reflexivity|right; auto].
    - right. split; [reflexivity|]. split; [exact Hx|]. right.
      destruct (hears_server t srv n _ _ _ Hs Hn Hh (waits_passed _ _ _ _ _ Hh)) as [(d0 & srv2 & E1 & _)|[E1 E2]]; [discriminate E1|].
      destruct (He _ _ _ E2 (waits_passed _ _ _ _ _ E2)) as [(_ & -> & ->)|(A & _)]; [|discriminate A].
      split; [exact E1|]. split; [reflexivity|]. split; [|reflexivity]. split; [reflexivity|left; auto].
    - destruct (hears_server t srv n _ _ _ Hs Hn Hh (waits_passed _ _ _ _ _ Hh)) as [(d0 & srv2 & E1 & _)|[E1 E2]]; [discriminate E1|].
      destruct (He _ _ _ E2 (waits_passed _ _ _ _ _ E2)) as [(A & _)|(A & _)]; discriminate A.
Qed.

Lemma paired_step t1 t2 e1 e2 s1 s2 o r1 r2 s1' s2' : receives o = true -> paired t1 t2 e1 e2 s1 s2 ->
  receive C key iv room s1 o r1 s1' -> receive C key iv room s2 o r2 s2' ->
  generic_view r1 = generic_view r2 /\ paired t1 t2 e1 e2 s1' s2'.
Proof.
  intros Ho [(q & n & srv & Hs & Hn & [x1 He1] & [x2 He2] & -> & ->)|[Hf1 Hf2]] H1 H2.
  2:{ destruct (finished_step e1 s1 o r1 s1' Hf1 Ho H1) as (A1 & B1 & D1). destruct (finished_step e2 s2 o r2 s2' Hf2 Ho H2) as (A2 & B2 & D2).
    split; [|right; auto]. destruct (waits o).
    - rewrite B1, B2 by reflexivity. cbn [generic_view]. f_equal.
      destruct Hf1 as [_ [[_ ->]|(_ & _ & ->)]], Hf2 as [_ [[_ ->]|(_ & _ & ->)]]; reflexivity.
    - destruct (D1 eq_refl) as (S1 & g1 & q1 & T1). destruct (D2 eq_refl) as (S2 & g2 & q2 & T2).
      now destruct (take_same o r1 r2 _ _ _ _ _ Ho S1 S2 T1 T2) as [-> _]. }
  pose proof (alive_step q n srv o Hs Hn) as Hcase.
  destruct (Hcase t1 x1 e1 r1 s1' He1 H1) as [(P1 & S1 & g1 & q1 & T1 & ->)|(P1 & W1 & Q1)];
    destruct (Hcase t2 x2 e2 r2 s2' He2 H2) as [(P2 & S2 & g2 & q2 & T2 & ->)|(P2 & W2 & Q2)].
  - destruct (take_same o r1 r2 _ _ _ _ _ Ho S1 S2 T1 T2) as [-> ->]. split; [reflexivity|]. left. exists q2, n, srv. eauto 10.
  - destruct P1; congruence.
  - destruct P2; congruence.
  - subst q. destruct Q1 as [(d1 & n1 & v1 & g1 & q1 & D1 & X1 & Y1 & S1 & T1 & ->)|(Y1 & -> & F1 & K1)];
      destruct Q2 as [(d2 & n2 & v2 & g2 & q2 & D2 & X2 & Y2 & S2 & T2 & ->)|(Y2 & -> & F2 & K2)]; try congruence.
    + destruct (hears_either srv n Hs Hn) as [(d & n' & srv2 & E2 & E3 & E4 & E5 & E6)|[E1 _]]; [|congruence].
      destruct (E6 _ _ _ _ X1) as (V1 & -> & W1'). destruct (E6 _ _ _ _ X2) as (V2 & -> & W2'). injection V1 as ->. injection V2 as ->.
      rewrite W1', W2'. destruct (take_same o r1 r2 _ _ _ _ _ Ho S1 S2 T1 T2) as [-> ->]. split; [reflexivity|].
      left. exists q2, n', srv2. rewrite E5. eauto 10.
    + cbn [generic_view]. rewrite K1, K2. split; [reflexivity|right; auto].
Qed.

Lemma paired_listens t1 t2 e1 e2 : forall rs1 rs2 s1 s2 s1' s2', paired t1 t2 e1 e2 s1 s2 -> map fst rs1 = map fst rs2 ->
  Forall (fun p => receives (fst p) = true) rs1 ->
  listens C key iv room s1 rs1 s1' -> listens C key iv room s2 rs2 s2' ->
  map (fun p => generic_view (snd p)) rs1 = map (fun p => generic_view (snd p)) rs2.
Proof.
  induction rs1 as [|[o r1] rs1 IH]; intros [|[o2 r2] rs2] s1 s2 s1' s2' Hp E Hf H1 H2; try discriminate E; [reflexivity|].
  cbn [map fst] in E. injection E as <- E. inversion Hf as [|? ? Ho Hf']; subst. cbn [fst] in Ho.
  inversion H1 as [|? ? ? m1 ? ? _ R1 _ L1|? ? ? ? ? Hx _]; subst; [|congruence].
  inversion H2 as [|? ? ? m2 ? ? _ R2 _ L2|? ? ? ? ? Hx _]; subst; [|congruence].
  destruct (paired_step _ _ _ _ _ _ _ _ _ _ _ Ho Hp R1 R2) as [V Hp']. cbn [map snd]. f_equal; [exact V|]. exact (IH _ _ _ _ _ Hp' E Hf' L1 L2).
Qed.

Lemma paired_returned t1 t2 e1 e2 s1 s2 o r s' : receives o = true -> paired t1 t2 e1 e2 s1 s2 -> receive C key iv room s1 o r s' ->
  returned (o, r) /\ paired t1 t1 e1 e1 s' s'.
Proof.
  intros Ho Hp H.
  assert (Hp1 : paired t1 t1 e1 e1 s1 s1).
  { destruct Hp as [(q & n & srv & Hs & Hn & He1 & He2 & E1 & E2)|[Hf1 Hf2]]; [left; exists q, n, srv; auto 10|right; auto]. }
  destruct (paired_step _ _ _ _ _ _ _ _ _ _ _ Ho Hp1 H H) as [_ A]. split; [|exact A].
  destruct Hp1 as [(q & n & srv & Hs & Hn & [x He1] & _ & -> & _)|[Hf1 _]].
  - destruct (alive_step q n srv o Hs Hn _ _ _ _ _ He1 H) as [(_ & [v ->] & _)|(_ & _ & [(d & n1 & v1 & g1 & q1 & _ & _ & _ & [v ->] & _)|(_ & -> & _)])]; exact I.
  - destruct (finished_step e1 s1 o r s' Hf1 Ho H) as (_ & B & D). destruct (waits o); [rewrite B by reflexivity; exact I|].
    destruct (D eq_refl) as ([v ->] & _). exact I.
Qed.

Lemma paired_all_returned t1 e1 : forall rs s1 s', paired t1 t1 e1 e1 s1 s1 -> Forall (fun p => receives (fst p) = true) rs ->
  listens C key iv room s1 rs s' -> Forall returned rs.
Proof.
  induction rs as [|[o r] rs IH]; intros s1 s' Hp Hf H; constructor; inversion Hf as [|? ? Ho Hf']; subst; cbn [fst] in Ho;
    (inversion H as [|? ? ? m1 ? ? _ R1 _ L1|? ? ? ? ? Hx _]; subst; [|congruence]);
    destruct (paired_returned _ _ _ _ _ _ _ _ _ Ho Hp R1) as [A B]; [exact A|exact (IH _ _ B Hf' L1)].
Qed.

End Machine.

Lemma run_complete C : forall ops c rs c', Forall (fun o => receives o = true) ops -> run C ops c = (rs, c') -> Forall returned rs -> map fst rs = ops.
Proof.
  induction ops as [|o ops IH]; intros c rs c' Hf H Hr; cbn [run] in H.
  - injection H as <- _. reflexivity.
  - inversion Hf as [|? ? Ho Hf']; subst. destruct (step C o c) as [r c1]. destruct (run C ops c1) as [rs2 c2] eqn:E2.
    assert (Hs : rs = (o, r) :: rs2 \/ rs = [(o, r)] /\ ~ returned (o, r)).
    { destruct o; try discriminate Ho; destruct r; injection H as <- _; auto; right; split; auto. }
    destruct Hs as [-> |[-> Hn]]; [|inversion Hr; subst; contradiction].
    inversion Hr; subst. cbn [map fst]. f_equal. now apply (IH c1 rs2 c2).
Qed.

Lemma run_receives C ops c rs c' : Forall (fun o => receives o = true) ops -> run C ops c = (rs, c') -> Forall (fun p => receives (fst p) = true) rs.
Proof.
  intros Hf H. pose proof (run_ops C (fun o => receives o = true) ops c Hf) as G. rewrite H in G. cbn [fst] in G. now rewrite Forall_map in G.
Qed.

Lemma count_reads rs : Forall (fun p => real_read (fst p)) rs -> Forall got_some rs -> length rs <= length (read_bytes rs).
Proof.
  induction rs as [|[o r] rs IH]; intros H1 H2; [cbn; lia|]. inversion H1 as [|? ? (dst & Eo & _) H1']; inversion H2 as [|? ? (n & b & Hn & Er) H2']; subst.
  cbn [fst snd] in *. subst o r. unfold read_bytes. cbn [map concat]. rewrite app_length, firstn_length. specialize (IH H1' H2'). unfold read_bytes in IH. cbn [length]. lia.
Qed.

Lemma ends_run C L c srv t e e' ops rs c' : crypto_ok C -> established C L c -> steady c ->
  incoming c = server_wire C (read_key c) (read_iv c) 0 srv ++ t ->
  Forall (served C (room c)) srv -> (N.of_nat (length srv) <= u64_max)%N ->
  ends C (read_key c) (read_iv c) (room c) (N.of_nat (length srv)) t e e' ->
  Forall real_read ops -> length (concat (data_of (map fst srv))) < length ops -> run C ops c = (rs, c') ->
  exists pre o post, rs = pre ++ (o, Err e) :: post /\ Forall got_some pre /\
    read_bytes pre = concat (data_of (map fst srv)) /\ Forall (fun p => snd p = Err e') post.
Proof.
  intros HC Hes Hst Hin Hs Hn He Hf Hlen H.
  destruct (C54_start C L c HC Hes Hst) as [Hl Er]. destruct (C54_run C L c ops rs c' HC Hl H) as (s' & Hls & _). rewrite Er, Hin in Hls.
  assert (Hrc : Forall (fun o => receives o = true) ops) by (eapply Forall_impl; [|exact Hf]; intros o (dst & -> & _); reflexivity).
  assert (Hrr : Forall (fun p => real_read (fst p)) rs).
  { pose proof (run_ops C real_read ops c Hf) as G. rewrite H in G. cbn [fst] in G. now rewrite Forall_map in G. }
  destruct (read_loop C HC _ _ _ t e e' rs [] 0 srv s' Hs ltac:(lia) He Hrr Hls) as [(A & left & B)|D]; [|exact D].
  exfalso. cbn [app] in B. unfold sent_data in B. pose proof (count_reads rs Hrr A) as Hc.
  assert (Hret : Forall returned rs) by (eapply Forall_impl; [|exact A]; intros [o r] (n & b & _ & E); cbn [snd] in E; subst r; exact I).
  pose proof (run_complete C ops c rs c' Hrc H Hret) as Em. apply (f_equal (@length _)) in Em. rewrite map_length in Em.
  apply (f_equal (@length _)) in B. rewrite app_length in B. lia.
Qed.

(** ** C74 *)

(** A [read] into a buffer that is not empty never returns [Ok(0)], and [fill_buf] never an empty slice, in any history of calls. *)
Theorem C74_never_zero_partial : forall C L c ops rs c', crypto_ok C -> listening C L c -> run C ops c = (rs, c') ->
  (forall o r, In (o, r) rs -> real_read o -> forall b, r <> Ok (VRead 0 b)) /\
  (forall r, In (OpFillBuf, r) rs -> r <> Ok (VBytes [])).
Proof.
  intros C L c ops rs c' HC Hl Hr. destruct (C54_run C L c ops rs c' HC Hl Hr) as (s' & H & _). clear Hr.
  assert (Ht : forall o r q got q', take o r q got q' -> succeeds r -> (real_read o -> forall b, r <> Ok (VRead 0 b)) /\ (o = OpFillBuf -> r <> Ok (VBytes []))).
  { intros o r q got q' Htk Hsu. split.
    - intros (dst & -> & Hd) b ->. destruct (read_takes dst _ _ _ _ Hd Hsu Htk) as (n & b' & K1 & K2 & _). injection K2 as <- <-. lia.
    - intros -> ->. inversion Htk; subst; try congruence; try discriminate; match goal with H : forall v, _ <> _ |- _ => exact (H _ eq_refl) end. }
  assert (G : Forall (fun p : op * outcome tls_error value => (real_read (fst p) -> forall b, snd p <> Ok (VRead 0 b)) /\ (fst p = OpFillBuf -> snd p <> Ok (VBytes []))) rs).
  { induction H as [s|s o r s1 rs s2 Ho Hrc Hpa Hls IH|s o r rs s2 Ho Hls IH]; [constructor| |].
    - constructor; [|exact IH]. cbn [fst snd]. inversion Hrc; subst; try (split; intros; discriminate); eapply Ht; eassumption.
    - constructor; [|exact IH]. cbn [fst snd]. split; [intros (dst & -> & _)|intros ->]; discriminate Ho. }
  rewrite Forall_forall in G. split; [intros o r Hi|intros r Hi]; destruct (G _ Hi) as [G1 G2]; [exact G1|exact (G2 eq_refl)].
Qed.

(** [embedded_io]: "Ok(0) means end of file".  The server sends its records and closes with close_notify.  An application that reads on
    gets all the data - and then an error, [ConnectionClosed]; after that [MissingHandshake].  It never gets [Ok(0)]. *)
Theorem C74_closed_refuted : forall C L c srv lvl pad rest ops rs c', crypto_ok C -> established C L c -> steady c ->
  incoming c = server_wire C (read_key c) (read_iv c) 0 srv ++
    rfc_record C (read_key c) (read_iv c) (N.of_nat (length srv)) ty_alert [lvl; x00] pad ++ rest ->
  Forall (served C (room c)) srv -> (N.of_nat (length srv) <= u64_max)%N ->
  lvl = x01 \/ lvl = x02 -> 3 + pad + tag_len C <= room c -> (N.of_nat (3 + pad + tag_len C) < 65536)%N ->
  Forall real_read ops -> length (concat (data_of (map fst srv))) < length ops -> run C ops c = (rs, c') ->
  exists pre o post, rs = pre ++ (o, Err ConnectionClosed) :: post /\ Forall got_some pre /\
    read_bytes pre = concat (data_of (map fst srv)) /\ Forall (fun p => snd p = Err MissingHandshake) post.
Proof.
  intros C L c srv lvl pad rest ops rs c' HC Hes Hst Hin Hs Hn Hlvl Hr1 Hr2 Hf Hlen H.
  eapply (ends_run C L c srv _ ConnectionClosed MissingHandshake ops rs c' HC Hes Hst Hin Hs Hn); [|exact Hf|exact Hlen|exact H].
  now apply ends_close.
Qed.

(** The stream is cut, anywhere, without close_notify: then all the data of the whole records is delivered, and after it
    [read] gives [IoError], each time.  So a cut can be told from the end ([ConnectionClosed]). *)
Theorem C74_cut_partial : forall C L c srv w ops rs c', crypto_ok C -> established C L c -> steady c ->
  incoming c = server_wire C (read_key c) (read_iv c) 0 srv ++ w -> cut_off (room c) w ->
  Forall (served C (room c)) srv -> (N.of_nat (length srv) <= u64_max)%N ->
  Forall real_read ops -> length (concat (data_of (map fst srv))) < length ops -> run C ops c = (rs, c') ->
  exists pre post, rs = pre ++ post /\ post <> [] /\ Forall got_some pre /\
    read_bytes pre = concat (data_of (map fst srv)) /\ Forall (fun p => snd p = Err IoError) post.
Proof.
  intros C L c srv w ops rs c' HC Hes Hst Hin Hc Hs Hn Hf Hlen H.
  destruct (ends_run C L c srv w IoError IoError ops rs c' HC Hes Hst Hin Hs Hn (ends_cut C _ _ _ _ w Hc) Hf Hlen H) as (pre & o & post & E & A & B & D).
  exists pre, ((o, Err IoError) :: post). split; [exact E|]. split; [discriminate|]. split; [exact A|]. split; [exact B|]. constructor; [reflexivity|exact D].
Qed.

(** But not by code that is written for any [embedded_io] stream and sees of an error only its kind: whatever receiving calls it makes, the
    results are the same whether the server closed the connection or an attacker cut it. *)
Theorem C74_kinds_refuted : forall C L c1 c2 srv lvl pad rest w ops, crypto_ok C ->
  established C L c1 -> steady c1 -> established C L c2 -> steady c2 ->
  read_key c1 = read_key c2 -> read_iv c1 = read_iv c2 -> room c1 = room c2 ->
  incoming c1 = server_wire C (read_key c1) (read_iv c1) 0 srv ++
    rfc_record C (read_key c1) (read_iv c1) (N.of_nat (length srv)) ty_alert [lvl; x00] pad ++ rest ->
  incoming c2 = server_wire C (read_key c2) (read_iv c2) 0 srv ++ w -> cut_off (room c2) w ->
  Forall (served C (room c1)) srv -> (N.of_nat (length srv) <= u64_max)%N ->
  lvl = x01 \/ lvl = x02 -> 3 + pad + tag_len C <= room c1 -> (N.of_nat (3 + pad + tag_len C) < 65536)%N ->
  Forall (fun o => receives o = true) ops ->
  map (fun p => generic_view (snd p)) (fst (run C ops c1)) = map (fun p => generic_view (snd p)) (fst (run C ops c2)).
Proof.
  intros C L c1 c2 srv lvl pad rest w ops HC He1 Hs1 He2 Hs2 Ek Ei Em Hin1 Hin2 Hcut Hsv Hn Hlvl Hr1 Hr2 Hf.
  destruct (run C ops c1) as [rs1 c1'] eqn:R1. destruct (run C ops c2) as [rs2 c2'] eqn:R2. cbn [fst].
  destruct (C54_start C L c1 HC He1 Hs1) as [Hl1 Er1]. destruct (C54_run C L c1 ops rs1 c1' HC Hl1 R1) as (s1' & Hls1 & _). rewrite Er1, Hin1 in Hls1.
  destruct (C54_start C L c2 HC He2 Hs2) as [Hl2 Er2]. destruct (C54_run C L c2 ops rs2 c2' HC Hl2 R2) as (s2' & Hls2 & _). rewrite Er2, Hin2, <- Ek, <- Ei, <- Em in Hls2.
  rewrite <- Em in Hcut.
  pose proof (run_receives C ops c1 rs1 c1' Hf R1) as F1. pose proof (run_receives C ops c2 rs2 c2' Hf R2) as F2.
  set (t1 := rfc_record C (read_key c1) (read_iv c1) (N.of_nat (length srv)) ty_alert [lvl; x00] pad ++ rest) in *.
  assert (E1 : ends C (read_key c1) (read_iv c1) (room c1) (N.of_nat (length srv)) t1 ConnectionClosed MissingHandshake) by (now apply ends_close).
  assert (E2 : ends C (read_key c1) (read_iv c1) (room c1) (N.of_nat (length srv)) w IoError IoError) by (now apply ends_cut).
  assert (P : forall ta tb xa xb ea eb, ends C (read_key c1) (read_iv c1) (room c1) (N.of_nat (length srv)) ta xa ea ->
    ends C (read_key c1) (read_iv c1) (room c1) (N.of_nat (length srv)) tb xb eb ->
    paired C (read_key c1) (read_iv c1) (room c1) ta tb ea eb
      (mk_receiver true [] 0 (server_wire C (read_key c1) (read_iv c1) 0 srv ++ ta)) (mk_receiver true [] 0 (server_wire C (read_key c1) (read_iv c1) 0 srv ++ tb))).
  { intros ta tb xa xb ea eb H1 H2. left. exists [], 0%N, srv. cbn [N.add]. split; [exact Hsv|]. split; [lia|]. split; [now exists xa|]. split; [now exists xb|]. auto. }
  pose proof (paired_all_returned C HC _ _ _ t1 _ rs1 _ s1' (P t1 t1 _ _ _ _ E1 E1) F1 Hls1) as G1.
  pose proof (paired_all_returned C HC _ _ _ w _ rs2 _ s2' (P w w _ _ _ _ E2 E2) F2 Hls2) as G2.
  refine (paired_listens C HC _ _ _ t1 w _ _ rs1 rs2 _ _ s1' s2' (P t1 w _ _ _ _ E1 E2) _ F1 Hls1 Hls2).
  rewrite (run_complete C ops c1 rs1 c1' Hf R1 G1), (run_complete C ops c2 rs2 c2' Hf R2 G2). reflexivity.
Qed.

(** The session of [C25_case] (PropRead.v), cut in the middle of the close_notify. *)
Definition their_cut : bytes := Eval vm_compute in firstn 9 their_close.
Example C74_case : let c1 := conn_in (their_wire ++ their_close) in let c2 := conn_in (their_wire ++ their_cut) in
  established toy 300 c1 /\ steady c1 /\ established toy 300 c2 /\ steady c2 /\
  read_key c1 = read_key c2 /\ read_iv c1 = read_iv c2 /\ room c1 = 400 /\ room c2 = 400 /\
  incoming c1 = server_wire toy (read_key c1) (read_iv c1) 0 some_records ++
    rfc_record toy (read_key c1) (read_iv c1) (N.of_nat (length some_records)) ty_alert [x01; x00] 2 ++ [] /\
  incoming c2 = server_wire toy (read_key c2) (read_iv c2) 0 some_records ++ their_cut /\ cut_off 400 their_cut /\
  Forall (served toy 400) some_records /\
  map snd (fst (run toy [OpRead (zeros 2); OpRead (zeros 2); OpRead (zeros 2); OpRead (zeros 2)] c2)) =
    [Ok (VRead 2 [x68; x69]); Ok (VRead 1 [x21; x00]); Err IoError; Err IoError].
Proof.
  intros c1 c2. split; [apply conn_in_established|]. split; [apply trickle_chunked|]. split; [apply conn_in_established|]. split; [apply trickle_chunked|].
  do 6 (split; [vm_compute; reflexivity|]). split.
  { right. exists (firstn 5 their_cut), (skipn 5 their_cut), 21. split; [reflexivity|]. split; [reflexivity|].
    split; [cbn; auto 10|]. split; [reflexivity|]. split; [lia|cbn; lia]. }
  split; [exact some_records_served|]. vm_compute. reflexivity.
Qed.
Print Assumptions C74_never_zero_partial.
Print Assumptions C74_closed_refuted.
Print Assumptions C74_cut_partial.
Print Assumptions C74_kinds_refuted.
