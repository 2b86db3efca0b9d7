(** * C76: an extension is read from nothing but what would have been written *)
From Coq Require Import String List NArith Arith Bool Lia ZArith.
From Coq.Strings Require Import Byte.
From Coq Require Import ZifyBool ZifyNat ZifyN.
From Verif Require Import Base Buffer ParseBuffer Codes Extensions BaseProofs SpecWire WireProofs BufferProofs SpecCodes SpecMessages
  ExtProofs AcceptProofs MessageProofs HelloProofs PropCodes SpecCodec PropCodec.
Import ListNotations.
Local Open Scope list_scope.
Ltac Zify.zify_post_hook ::= Z.div_mod_to_equations.

(** [exact m R]: [m] reads [a] from the bytes [x] exactly if [R a x]. *)
Definition exact {E A} (m : P E A) (R : A -> bytes -> Prop) : Prop := (forall a x, R a x -> parses m x a) /\ acc m R.

Lemma exact_new {E A} (m : P E A) R : exact m R -> forall b a, fst (m (pb_new b)) = Ok a <-> exists x junk, R a x /\ b = x ++ junk.
Proof.
  intros [Hf Hb] b a. split.
  - intros H. destruct (m (pb_new b)) as [o q] eqn:Em. cbn [fst] in H. subst o. rewrite pb_new_at in Em.
    apply Hb in Em as (x & y & -> & _ & HR). eauto.
  - intros (x & junk & HR & ->). rewrite pb_new_at, at_pos_assoc, (Hf a x HR). reflexivity.
Qed.
Lemma exact_map {E A B} (m : P E A) R (g : A -> B) : exact m R -> exact (a <- m ;; ret (g a)) (fun b x => exists a, b = g a /\ R a x).
Proof.
  intros [Hf Hb]. split.
  - intros b x (a & -> & HR). eapply parses_bind_nil; [apply Hf, HR|apply parses_ret].
  - eapply acc_weaken; [apply acc_bind; [exact Hb|intros a; apply acc_ret]|]. cbn beta. intros b x (a & x1 & x2 & -> & HR & -> & ->).
    rewrite app_nil_r. eauto.
Qed.
Lemma exact_u16 : exact read_u16 (fun a x => x = uint 2 a /\ (a < 65536)%N).
Proof. split; [intros a x [-> Ha]; now apply parses_read_u16|apply acc_u16]. Qed.

Section Lists.
Context {T : Type} (read : P parse_error T) (ok : T -> Prop) (wire : T -> bytes).
Context (ex : exact read (fun t x => ok t /\ x = wire t)).
Context (ne : forall t, wire t <> []).

Definition list_of {B} (g : list T -> B) (k cap : nat) (b : B) (x : bytes) : Prop :=
  exists ts, b = g ts /\ Forall ok ts /\ length ts <= cap /\ x = vec k (concat (map wire ts)) /\ fits k (concat (map wire ts)).

Lemma exact_list {B} (g : list T -> B) cap (len : P parse_error nat) k :
  exact len (fun n x => x = uint k (N.of_nat n) /\ (N.of_nat n < 256 ^ N.of_nat k)%N) ->
  exact (n <- len ;; l <- read_list cap n read ;; ret (g l)) (list_of g k cap).
Proof.
  intros [Lf Lb]. assert (fwd : forall t, ok t -> parses read (wire t) t) by (intros t Ht; apply (proj1 ex); auto). split.
  - intros b x (ts & -> & Hok & Hc & -> & Hf). unfold vec. eapply parses_bind; [apply Lf; split; [reflexivity|exact Hf]|].
    eapply parses_bind_nil; [|apply parses_ret]. unfold read_list. eapply parses_bind_nil; [now apply parses_slice|].
    apply parses_lift. rewrite pb_new_at. apply (loop_fwd read wire ok fwd ne); [lia|cbn [length]; lia|exact Hok].
  - intros pre bs b p' H. apply bind_ok in H as (n & q1 & En & H). apply Lb in En as (x1 & y1 & -> & -> & -> & Hn).
    apply bind_ok in H as (l & q2 & El & H). unfold read_list in El.
    apply bind_ok in El as (d & q3 & Ed & El). apply acc_slice in Ed as (x2 & y2 & -> & -> & -> & Hl).
    unfold lift in El. apply pair_equal_spec in El as [El <-]. rewrite pb_new_at in El. injection H as <- <-.
    apply (read_list_loop_iff read ok wire fwd (proj2 ex) ne cap) in El as (ts & -> & Hts & -> & Hc); [|lia|cbn; lia]. cbn [app] in *.
    exists (vec k (concat (map wire ts))), y2. unfold vec. rewrite Hl, <- !app_assoc. split; [reflexivity|]. split; [reflexivity|].
    exists ts. split; [reflexivity|]. split; [exact Hts|]. split; [exact Hc|]. unfold vec, fits. rewrite Hl. auto.
Qed.
End Lists.

Lemma exact_len16 : exact (n <- read_u16 ;; ret (N.to_nat n)) (fun n x => x = uint 2 (N.of_nat n) /\ (N.of_nat n < 256 ^ N.of_nat 2)%N).
Proof.
  destruct (exact_map _ _ N.to_nat exact_u16) as [Hf Hb]. split.
  - intros a x [-> Ha]. apply Hf. exists (N.of_nat a). rewrite Nat2N.id. auto.
  - eapply acc_weaken; [exact Hb|]. cbn beta. intros a x (n & -> & -> & Hn). rewrite N2Nat.id. auto.
Qed.
Lemma exact_len8 : exact (n <- read_u8 ;; ret (N.to_nat (Byte.to_N n))) (fun n x => x = uint 1 (N.of_nat n) /\ (N.of_nat n < 256 ^ N.of_nat 1)%N).
Proof.
  change (256 ^ N.of_nat 1)%N with 256%N. split.
  - intros a x [-> Ha]. eapply parses_bind_nil; [apply parses_read_u8_uint, Ha|]. rewrite to_N_b8, N.mod_small, Nat2N.id by exact Ha. apply parses_ret.
  - eapply acc_weaken; [apply acc_bind; [apply acc_u8|intros a; apply acc_ret]|]. cbn beta. intros a x (b & x1 & x2 & -> & -> & -> & ->).
    rewrite N2Nat.id, app_nil_r. pose proof (to_N_lt b). split; [apply b8_uint|lia].
Qed.
(** The readers, with the length read and converted in one step. *)
Lemma exact_ext {E A} (m m' : P E A) R : (forall s, m s = m' s) -> exact m R -> exact m' R.
Proof.
  intros He [Hf Hb]. split.
  - intros a x HR pre post. rewrite <- He. now apply Hf.
  - intros pre bs a p' H. rewrite <- He in H. now apply Hb.
Qed.
Lemma bind_map {E A B D} (m : P E A) (g : A -> B) (f : B -> P E D) s : ((b <- (a <- m ;; ret (g a)) ;; f b) s) = (a <- m ;; f (g a)) s.
Proof. unfold bind, ret. destruct (m s) as [[] ?]; reflexivity. Qed.

Lemma exact_list16 {T B} (read : P parse_error T) ok wire (g : list T -> B) cap :
  exact read (fun t x => ok t /\ x = wire t) -> (forall t, wire t <> []) ->
  exact (n <- read_u16 ;; l <- read_list cap (N.to_nat n) read ;; ret (g l)) (list_of ok wire g 2 cap).
Proof.
  intros He Hn. eapply exact_ext; [intros s; apply (bind_map read_u16 N.to_nat (fun n => l <- read_list cap n read ;; ret (g l)))|].
  exact (exact_list read ok wire He Hn g cap _ 2 exact_len16).
Qed.
Lemma exact_list8 {T B} (read : P parse_error T) ok wire (g : list T -> B) cap :
  exact read (fun t x => ok t /\ x = wire t) -> (forall t, wire t <> []) ->
  exact (n <- read_u8 ;; l <- read_list cap (N.to_nat (Byte.to_N n)) read ;; ret (g l)) (list_of ok wire g 1 cap).
Proof.
  intros He Hn. eapply exact_ext; [intros s; apply (bind_map read_u8 (fun n => N.to_nat (Byte.to_N n)) (fun n => l <- read_list cap n read ;; ret (g l)))|].
  exact (exact_list read ok wire He Hn g cap _ 1 exact_len8).
Qed.

(** The elements. *)
Lemma exact_code {A} (of : N -> option A) code reg : implements reg code of -> (forall x, (code x < 65536)%N) ->
  exact (n <- read_u16 ;; of_code (of n)) (fun t x => True /\ x = uint 2 (code t)).
Proof. intros Hi Hs. destruct (code_read of code reg Hi Hs) as [Hf Hb]. split; [|exact Hb]. intros a x [_ ->]. now apply Hf. Qed.
Lemma exact_code8 {A} (of : N -> option A) code reg : implements reg code of -> (forall x, (code x < 256)%N) ->
  exact (b <- read_u8 ;; of_code (of (Byte.to_N b))) (fun t x => True /\ x = uint 1 (code t)).
Proof.
  intros (H1 & H2 & H3 & H4) Hs. split.
  - intros a x [_ ->]. eapply parses_bind_nil; [apply parses_read_u8_uint, Hs|]. apply parses_of_code.
    rewrite to_N_b8, N.mod_small by apply Hs. apply H2, H1.
  - eapply acc_weaken; [apply acc_bind; [apply acc_u8|intros a; apply acc_of_code]|]. cbn beta. intros a x (n & x1 & x2 & -> & -> & Hn & ->).
    rewrite app_nil_r. split; [exact I|]. rewrite b8_uint. f_equal. apply H2 in Hn. eapply H4; [exact Hn|apply H1].
Qed.
Lemma exact_name : exact parse_server_name (fun n x => host_name n /\ x = name_wire n).
Proof. split; [|exact acc_name]. intros n x [[Hf Ha] ->]. now apply parses_name. Qed.
Definition share_wire (e : named_group * bytes) : bytes := uint 2 (named_group_code (fst e)) ++ vec 2 (snd e).
Lemma exact_share : exact parse_key_share_entry (fun e x => fits 2 (snd e) /\ x = share_wire e).
Proof.
  split; [intros e x [Hf ->]; now apply parses_entry|].
  intros pre bs e p' H. unfold parse_key_share_entry in H.
  apply bind_ok in H as (g & q1 & Eg & H). apply (proj2 (exact_code _ _ _ C03_named_group named_group_small)) in Eg as (x1 & y1 & -> & -> & _ & ->).
  apply bind_ok in H as (n & q2 & En & H). apply acc_u16 in En as (x2 & y2 & -> & -> & -> & Hn).
  apply bind_ok in H as (d & q3 & Ed & H). apply acc_slice in Ed as (x3 & y3 & -> & -> & -> & Hl). injection H as <- <-.
  exists (share_wire (g, x3)), y3. unfold share_wire, vec. cbn [fst snd]. rewrite Hl, N2Nat.id. repeat rewrite <- app_assoc. split; [reflexivity|]. split; [reflexivity|].
  unfold fits. rewrite Hl, N2Nat.id. split; [exact Hn|]. reflexivity.
Qed.
Lemma exact_alpn : exact parse_alpn (fun d x => d = XD_Alpn [] /\ exists names, Forall (fun n => 1 <= length n <= 255) names /\
  x = vec 2 (concat (map (vec 1) names)) /\ fits 2 (concat (map (vec 1) names))).
Proof.
  assert (Hn : forall names, Forall (fun n => 1 <= length n <= 255) names <-> Forall (fun n : bytes => n <> [] /\ fits 1 n) names).
  { intros names. split; apply Forall_impl; intros n.
    - intros H. split; [intros ->; cbn in H; lia|apply fits_1; lia].
    - intros [H H1]. apply fits_1 in H1. destruct n; [congruence|cbn [length] in *; lia]. }
  split.
  - intros d x (-> & names & Hns & -> & Hf). apply Hn in Hns. apply fits_2 in Hf. rewrite (vec_eq 2). unfold parse_alpn. eapply parses_bind; [apply parses_read_u16, Hf|].
    rewrite Nat2N.id. eapply parses_bind_nil; [now apply parses_slice|]. eapply parses_bind_nil; [|apply parses_ret]. apply parses_lift.
    rewrite pb_new_at. apply alpn_loop_iff; [lia|eauto].
  - intros pre bs d p' H. unfold parse_alpn in H.
    apply bind_ok in H as (n & q1 & En & H). apply acc_u16 in En as (x1 & y1 & -> & -> & -> & Hlt).
    apply bind_ok in H as (s & q3 & Ed & H). apply acc_slice in Ed as (x2 & y2 & -> & -> & -> & Hl).
    apply bind_ok in H as (u & q4 & Eu & H). unfold lift in Eu. apply pair_equal_spec in Eu as [Eu <-]. destruct u. injection H as <- <-.
    rewrite pb_new_at in Eu. apply alpn_loop_iff in Eu; [|lia]. destruct Eu as (names & -> & Hns).
    exists (vec 2 (concat (map (vec 1) names))), y2. rewrite (vec_eq 2), Hl, N2Nat.id. repeat rewrite <- app_assoc. split; [reflexivity|]. split; [reflexivity|].
    split; [reflexivity|]. exists names. apply Hn in Hns. split; [exact Hns|]. split; [now rewrite (vec_eq 2), Hl, N2Nat.id|]. apply fits_2. lia.
Qed.

(** ** The theorem *)

(** The two kinds of payload whose parser looks at everything there is. *)
Definition takes_all (x : ext_data) : Prop := match x with XD_ServerNameResponse | XD_Unimpl _ => True | _ => False end.

Definition read_from (c : carrier) (t : ext_type) (b : bytes) (d : ext_data) : Prop :=
  exists x junk, sayable c t x /\ b = image x ++ junk /\ (takes_all x -> junk = []) /\ d = x_data (as_read (mk_ext t x)).

Ltac sort_out := match goal with H : In _ _ |- _ => cbn [In opaque_types] in H; repeat (destruct H as [H|H]; [discriminate H|]); solve [destruct H] end.

Lemma fits_front k (a junk : bytes) : fits k (a ++ junk) -> fits k a.
Proof. unfold fits. rewrite app_length. lia. Qed.
Lemma fits_inner k (a : bytes) : fits k (vec k a) -> fits k a.
Proof. unfold fits. rewrite vec_length. lia. Qed.

Lemma by_list {T} c t (m : P parse_error ext_data) (ok ok' : T -> Prop) (wire : T -> bytes) g k cap :
  exact m (list_of ok wire g k cap) ->
  (forall x, sayable c t x <-> exists ts, x = g ts /\ length ts <= cap /\ Forall ok' ts) ->
  (forall ts, image (g ts) = vec k (concat (map wire ts)) /\ x_data (as_read (mk_ext t (g ts))) = g ts /\ ~ takes_all (g ts)) ->
  (forall a, ok a -> ok' a) ->
  (forall ts, length ts <= cap -> Forall ok' ts -> fits 2 (vec k (concat (map wire ts))) -> fits k (concat (map wire ts)) /\ Forall ok ts) ->
  forall b d, fits 2 b -> fst (m (pb_new b)) = Ok d <-> read_from c t b d.
Proof.
  intros He Hs Hg Hok Hf b d Hb. rewrite (exact_new _ _ He). unfold read_from. split.
  - intros (x & junk & (ts & -> & Ho & Hc & -> & _) & ->). exists (g ts), junk. destruct (Hg ts) as (-> & -> & Ht).
    split; [apply Hs; exists ts; split; [reflexivity|]; split; [exact Hc|]; eapply Forall_impl; [exact Hok|exact Ho]|].
    split; [reflexivity|]. split; [contradiction|reflexivity].
  - intros (x & junk & Hx & -> & _ & ->). apply Hs in Hx as (ts & -> & Hc & Ho). destruct (Hg ts) as (Hi & -> & _). rewrite Hi in *.
    exists (vec k (concat (map wire ts))), junk. split; [|reflexivity]. destruct (Hf ts Hc Ho (fits_front _ _ _ Hb)) as [H1 H2].
    exists ts. auto.
Qed.

Lemma elements_fit {T} (wire : T -> bytes) (part : T -> bytes) k ts : (forall a, length (part a) <= length (wire a)) ->
  fits k (vec 2 (concat (map wire ts))) -> Forall (fun a => fits k (part a)) ts.
Proof.
  intros Hp Hf. apply Forall_forall. intros a Ha. pose proof (in_fits wire k ts a Ha Hf) as H. specialize (Hp a). unfold fits in *. lia.
Qed.
Lemma each_small {T} (wire : T -> bytes) n ts : (forall a, length (wire a) <= n) -> length (concat (map wire ts)) <= n * length ts.
Proof. intros H. induction ts as [|a ts IH]; cbn [map concat length]; [lia|]. rewrite app_length. specialize (H a). lia. Qed.

Lemma code_list_exact {A} c t (of : N -> option A) code reg (g : list A -> ext_data) cap b d : implements reg code of -> (forall x, (code x < 65536)%N) ->
  (forall x, sayable c t x <-> exists ts, x = g ts /\ length ts <= cap) ->
  (forall ts, image (g ts) = vec 2 (concat (map (fun a => uint 2 (code a)) ts)) /\ x_data (as_read (mk_ext t (g ts))) = g ts /\ ~ takes_all (g ts)) ->
  fits 2 b ->
  fst ((n <- read_u16 ;; l <- read_list cap (N.to_nat n) (n <- read_u16 ;; of_code (of n)) ;; ret (g l)) (pb_new b)) = Ok d <-> read_from c t b d.
Proof.
  intros Hi Hsm Hs Hg Hb.
  apply (by_list c t _ (fun _ => True) (fun _ => True) (fun a => uint 2 (code a)) g 2 cap); [| |exact Hg|auto| |exact Hb].
  - apply exact_list16; [exact (exact_code of code reg Hi Hsm)|]. intros a. apply ne_uint. lia.
  - intros x. rewrite Hs. split; intros (ts & H); exists ts; [split; [tauto|]; split; [tauto|apply Forall_forall; auto]|tauto].
  - intros ts _ _ Hf. split; [now apply fits_inner|apply Forall_forall; auto].
Qed.

Lemma payload_exact c t p b d : parser_of c t = Some p -> fits 2 b -> fst (p (pb_new b)) = Ok d <-> read_from c t b d.
Proof.
  intros Hp Hb.
  assert (Hu : p = parse_unimpl -> In t (opaque_types c) -> fst (p (pb_new b)) = Ok d <-> read_from c t b d).
  { intros -> Ht. change (fst (parse_unimpl (pb_new b))) with (@Ok parse_error _ (XD_Unimpl b)). split.
    - intros Ed. injection Ed as <-. exists (XD_Unimpl b), []. cbn [image]. rewrite app_nil_r. split; [now apply y_other|auto].
    - intros (x & junk & Hs & -> & Hj & ->). assert (Hx : exists w, x = XD_Unimpl w).
      { destruct c as [|[]]; cbn [opaque_types In] in Ht; repeat (destruct Ht as [<-|Ht]; [inversion Hs; subst; first [eexists; reflexivity|sort_out]|]); destruct Ht. }
      destruct Hx as [w ->]. rewrite Hj by exact I. cbn [image x_data as_read]. now rewrite app_nil_r. }
  assert (Halpn : In c [InClientHello; From InEncryptedExtensions] -> t = ET_ApplicationLayerProtocolNegotiation -> fst (parse_alpn (pb_new b)) = Ok d <-> read_from c t b d).
  { intros Hc ->. rewrite (exact_new _ _ exact_alpn). split.
    - intros (x & junk & (-> & names & Hn & -> & _) & ->). exists (XD_Alpn names), junk. split; [now apply y_alpn|]. split; [reflexivity|]. split; [intros []|reflexivity].
    - intros (x & junk & Hs & -> & _ & ->). assert (Hx : exists l, x = XD_Alpn l /\ Forall (fun n => 1 <= length n <= 255) l) by (clear Hu Hb Hp; destruct Hc as [<-|[<-|[]]]; inversion Hs; subst; first [exfalso; sort_out|eauto]).
      destruct Hx as (l & -> & Hl). exists (image (XD_Alpn l)), junk. split; [|reflexivity]. split; [reflexivity|]. exists l. split; [assumption|]. split; [reflexivity|].
      apply fits_inner. exact (fits_front _ _ _ Hb). }
  assert (Hfrag : In c [InClientHello; From InEncryptedExtensions] -> t = ET_MaxFragmentLength -> fst (parse_max_frag_ext (pb_new b)) = Ok d <-> read_from c t b d).
  { intros Hc ->. unfold parse_max_frag_ext, parse_max_frag. rewrite (exact_new _ _ (exact_map _ _ XD_MaxFrag (exact_code8 _ _ _ C03_max_fragment_length ltac:(now intros [])))). split.
    - intros (x & junk & (m & -> & _ & ->) & ->). exists (XD_MaxFrag m), junk. split; [now apply y_frag|]. split; [reflexivity|]. split; [intros []|reflexivity].
    - intros (x & junk & Hs & -> & _ & ->). assert (Hx : exists m, x = XD_MaxFrag m) by (clear Hu Halpn Hb Hp; destruct Hc as [<-|[<-|[]]]; inversion Hs; subst; first [exfalso; sort_out|eauto]).
      destruct Hx as [m ->]. exists (image (XD_MaxFrag m)), junk. split; [|reflexivity]. exists m. split; [reflexivity|]. split; [exact I|reflexivity]. }
  assert (Hgroups : In c [InClientHello; From InEncryptedExtensions] -> t = ET_SupportedGroups -> fst (parse_groups 13 (pb_new b)) = Ok d <-> read_from c t b d).
  { intros Hc ->. apply (code_list_exact c _ _ _ _ XD_Groups 13 b d C03_named_group named_group_small); [| |exact Hb].
    - intros x. split.
      + intros Hs. clear Hu Halpn Hfrag Hb Hp. destruct Hc as [<-|[<-|[]]]; inversion Hs; subst; first [exfalso; sort_out|eauto].
      + intros (ts & -> & Hl). now apply y_groups.
    - intros ts. split; [reflexivity|]. split; [reflexivity|intros []]. }
  assert (Hschemes : In (c, t) [(InClientHello, ET_SignatureAlgorithms); (InClientHello, ET_SignatureAlgorithmsCert); (From InCertificateRequest, ET_SignatureAlgorithms)] ->
    fst (parse_sig_algs 25 (pb_new b)) = Ok d <-> read_from c t b d).
  { intros Hc. apply (code_list_exact c _ _ _ _ XD_SigAlgs 25 b d C03_signature_scheme sig_scheme_small); [| |exact Hb].
    - intros x. split.
      + intros Hs. cbn [In] in Hc. destruct Hc as [Hc|[Hc|[Hc|[]]]]; injection Hc as <- <-; inversion Hs; subst; first [exfalso; sort_out|eauto].
      + intros (ts & -> & Hl). now apply y_schemes.
    - intros ts. split; [reflexivity|]. split; [reflexivity|intros []]. }
  destruct c as [|[]], t; cbn in Hp; try discriminate; injection Hp as <-; try (apply Hu; [reflexivity|cbn; tauto]); clear Hu;
    try (apply Halpn; [cbn; tauto|reflexivity]); try (apply Hfrag; [cbn; tauto|reflexivity]); try (apply Hgroups; [cbn; tauto|reflexivity]);
    try (apply Hschemes; cbn; tauto); clear Halpn Hfrag Hgroups Hschemes.
  - (* server_name *)
    apply (by_list InClientHello ET_ServerName _ host_name (Forall (fun b => (Byte.to_N b < 128)%N)) name_wire XD_ServerNames 2 1); [| | | | |exact Hb].
    + apply exact_list16; [exact exact_name|]. intros n. apply nonempty_uint. lia.
    + intros x. split; [intros Hs; inversion Hs; subst; first [exfalso; sort_out|eauto]|]. intros (ts & -> & Hl & Ha). now apply y_names.
    + intros ts. split; [reflexivity|]. split; [reflexivity|intros []].
    + intros n Hn. apply Hn.
    + intros ts _ Ha Hf. split; [now apply fits_inner|]. pose proof (elements_fit name_wire (fun n => n) 2 ts ltac:(intros n; unfold name_wire; rewrite app_length, vec_length; lia) Hf) as Hn.
      rewrite Forall_forall in *. intros n Hi. split; auto.
  - (* pre_shared_key *)
    split; [discriminate|]. intros (x & junk & Hs & _). inversion Hs; subst; sort_out.
  - (* supported_versions *)
    apply (by_list InClientHello ET_SupportedVersions _ (fun v => (v < 65536)%N) (fun v => (v < 65536)%N) (uint 2) XD_VersionsCH 1 1); [| | |auto| |exact Hb].
    + apply exact_list8; [|intros n; apply ne_uint; lia]. destruct exact_u16 as [H1 H2]. split; [intros a x [Ha ->]; now apply H1|].
      eapply acc_weaken; [exact H2|]. cbn beta. tauto.
    + intros x. split; [intros Hs; inversion Hs; subst; first [exfalso; sort_out|eauto]|]. intros (ts & -> & Hl & Ha). now apply y_versions.
    + intros ts. split; [reflexivity|]. split; [reflexivity|intros []].
    + intros ts Hl Ha _. split; [|exact Ha]. apply fits_1. assert (length (concat (map (uint 2) ts)) <= 2 * length ts) by (apply each_small; intros a; now rewrite uint_length). lia.
  - (* psk_key_exchange_modes *)
    apply (by_list InClientHello ET_PskKeyExchangeModes _ (fun _ => True) (fun _ => True) (fun m => uint 1 (psk_mode_code m)) XD_PskModes 1 4); [| | |auto| |exact Hb].
    + apply exact_list8; [|intros n; apply ne_uint; lia]. exact (exact_code8 _ _ _ C03_psk_mode ltac:(now intros [])).
    + intros x. split; [intros Hs; inversion Hs; subst; first [exfalso; sort_out|eexists; split; [reflexivity|]; split; [assumption|apply Forall_forall; auto]]|].
      intros (ts & -> & Hl & _). now apply y_modes.
    + intros ts. split; [reflexivity|]. split; [reflexivity|intros []].
    + intros ts Hl Ha _. split; [|exact Ha]. apply fits_1. assert (length (concat (map (fun m => uint 1 (psk_mode_code m)) ts)) <= 1 * length ts) by (apply each_small; intros a; now rewrite uint_length). lia.
  - (* key_share *)
    apply (by_list InClientHello ET_KeyShare _ (fun e => fits 2 (snd e)) (fun _ => True) share_wire XD_KeySharesCH 2 1); [| | |auto| |exact Hb].
    + apply exact_list16; [exact exact_share|]. intros n. apply nonempty_uint. lia.
    + intros x. split; [intros Hs; inversion Hs; subst; first [exfalso; sort_out|eexists; split; [reflexivity|]; split; [assumption|apply Forall_forall; auto]]|].
      intros (ts & -> & Hl & _). now apply y_shares.
    + intros ts. split; [reflexivity|]. split; [reflexivity|intros []].
    + intros ts _ _ Hf. split; [now apply fits_inner|]. apply (elements_fit share_wire snd 2 ts); [|exact Hf]. intros e. unfold share_wire. rewrite app_length, vec_length. lia.
  - (* ServerHello: pre_shared_key *)
    unfold parse_psk_sh. rewrite (exact_new _ _ (exact_map _ _ XD_PskSH exact_u16)). split.
    + intros (x & junk & (n & -> & -> & Hn) & ->). exists (XD_PskSH n), junk. split; [now apply y_psk|]. split; [reflexivity|]. split; [intros []|reflexivity].
    + intros (x & junk & Hs & -> & _ & ->). inversion Hs; subst; try (exfalso; sort_out). eexists _, junk. split; [|reflexivity]. eexists. split; [reflexivity|]. split; [reflexivity|assumption].
  - unfold parse_version_sh. rewrite (exact_new _ _ (exact_map _ _ XD_VersionSH exact_u16)). split.
    + intros (x & junk & (n & -> & -> & Hn) & ->). exists (XD_VersionSH n), junk. split; [now apply y_version|]. split; [reflexivity|]. split; [intros []|reflexivity].
    + intros (x & junk & Hs & -> & _ & ->). inversion Hs; subst; try (exfalso; sort_out). eexists _, junk. split; [|reflexivity]. eexists. split; [reflexivity|]. split; [reflexivity|assumption].
  - unfold parse_key_share_sh.
    replace (fst ((' (g, o) <- parse_key_share_entry;; ret (XD_KeyShareSH g o)) (pb_new b))) with
      (fst ((e <- parse_key_share_entry ;; ret (XD_KeyShareSH (fst e) (snd e))) (pb_new b)))
      by (unfold bind; destruct (parse_key_share_entry (pb_new b)) as [[[]| | | |] ?]; reflexivity).
    rewrite (exact_new _ _ (exact_map _ _ (fun e => XD_KeyShareSH (fst e) (snd e)) exact_share)). split.
    + intros (x & junk & ([g k] & -> & Hn & ->) & ->). exists (XD_KeyShareSH g k), junk. split; [now apply y_share|]. split; [reflexivity|]. split; [intros []|reflexivity].
    + intros (x & junk & Hs & -> & _ & ->). inversion Hs; subst; try (exfalso; sort_out). eexists _, junk. split; [|reflexivity]. exists (g, k).
      split; [reflexivity|]. split; [|reflexivity]. cbn [snd image] in *. apply fits_front in Hb. unfold fits in *. rewrite app_length, vec_length in Hb. lia.
  - pose proof (server_name_iff b) as H. unfold MessageProofs.accepts in H. split.
    + intros E. assert (b = []) as -> by (apply H; eauto). change (@Ok parse_error _ XD_ServerNameResponse = Ok d) in E. injection E as <-. exists XD_ServerNameResponse, []. split; [apply y_answer|]. auto.
    + intros (x & junk & Hs & -> & Hj & ->). inversion Hs; subst; try (exfalso; sort_out). rewrite Hj by exact I. reflexivity.
Qed.

(** Whatever message it is in: an extension is read from the bytes the encoder writes for it, and from no other (but, within the extension, bytes
    may follow that are not looked at); and what is read is what was written. *)
Theorem C76_exactly : forall c t b x, (N.of_nat (length b) < 65536)%N ->
  fst (ext_parse (parser_of c) (pb_new (uint 2 (ext_type_code t) ++ vec 2 b))) = Ok x <->
  exists d w junk, sayable c t d /\ writes (enc_ext_data d) w /\ b = w ++ junk /\ (takes_all d -> junk = []) /\ x = as_read (mk_ext t d).
Proof.
  intros c t b x Hb. change (uint 2 (ext_type_code t) ++ vec 2 b) with (item_wire (ext_type_code t, b)). apply fits_2 in Hb.
  replace (pb_new (item_wire (ext_type_code t, b))) with (at_pos [] (item_wire (ext_type_code t, b)) []) by (unfold at_pos, pb_new; cbn [app length]; now rewrite app_nil_r).
  rewrite ext_parse_item by (split; [cbn [fst]; destruct t; reflexivity|exact Hb]). rewrite (proj1 (C03_round_trip _ _ _ C03_extension_type)). cbn [fst].
  destruct (parser_of c t) as [p|] eqn:Hp.
  - pose proof (fun d => payload_exact c t p b d Hp Hb) as H. split.
    + intros E. destruct (fst (p (pb_new b))) as [d| | | |]; try discriminate. injection E as <-. destruct (proj1 (H d) eq_refl) as (y & junk & Hs & -> & Hj & ->).
      exists y, (image y), junk. split; [exact Hs|]. split; [apply encodes_writes; eapply encodes_image, Hs|]. auto.
    + intros (y & w & junk & Hs & Hw & -> & Hj & ->). rewrite (writes_unique _ _ _ Hw (encodes_writes _ _ (encodes_image _ _ _ Hs))) in *.
      rewrite (proj2 (H (x_data (as_read (mk_ext t y))))); [reflexivity|]. exists y, junk. auto.
  - split; [discriminate|]. intros (y & w & junk & Hs & _). exfalso.
    clear Hb. destruct Hs as [| |c t l Hl Hc|c l Hl Hc| | |c m Hc|c l Hc Hn| | | | |c t d Ht]; try discriminate Hp;
      try (cbn [In] in Hc; repeat (destruct Hc as [Hc|Hc]; [first [injection Hc as <- <-|subst c]; discriminate Hp|]); destruct Hc).
    destruct c as [|[]]; cbn [opaque_types In] in Ht; repeat (destruct Ht as [<-|Ht]; [discriminate Hp|]); destruct Ht.
Qed.

(** A key share list with a byte behind it; the opaque types take everything; a list of versions whose length is odd is read from nothing. *)
Example C76_exactly_case :
  fst (ext_parse (parser_of InClientHello) (pb_new (uint 2 51 ++ vec 2 ([x00; x05; x00; x17; x00; x01; x07] ++ [xff])))) =
    Ok (mk_ext ET_KeyShare (XD_KeySharesCH [(NG_Secp256r1, [x07])])) /\
  fst (ext_parse (parser_of (From InCertificate)) (pb_new (uint 2 5 ++ vec 2 [x01; x02]))) = Ok (mk_ext ET_StatusRequest (XD_Unimpl [x01; x02])) /\
  (forall x, fst (ext_parse (parser_of InClientHello) (pb_new (uint 2 43 ++ vec 2 [x03; x03; x04; x03]))) <> Ok x).
Proof.
  split; [|split].
  - apply (C76_exactly InClientHello ET_KeyShare); [reflexivity|].
    exists (XD_KeySharesCH [(NG_Secp256r1, [x07])]), [x00; x05; x00; x17; x00; x01; x07], [xff].
    split; [apply y_shares; cbn; lia|]. split; [apply encodes_writes; apply (encodes_image InClientHello ET_KeyShare); apply y_shares; cbn; lia|].
    split; [reflexivity|]. split; [intros []|reflexivity].
  - apply (C76_exactly (From InCertificate) ET_StatusRequest); [reflexivity|]. exists (XD_Unimpl [x01; x02]), [x01; x02], [].
    split; [apply y_other; now left|]. split; [apply encodes_writes; apply encodes_extend|]. auto.
  - intros x H. vm_compute in H. discriminate.
Qed.

Print Assumptions C76_exactly.

