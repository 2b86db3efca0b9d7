(** * Host name matching: the model's function against the specification *)
From Coq Require Import List NArith Arith Bool Lia.
From Coq.Strings Require Import Byte.
From Coq Require Import ZifyBool ZifyNat ZifyN.
From Verif Require Import Base Codes Crypto Handshake Pki BaseProofs SpecPki.
Import ListNotations.

Lemma to_N_byte a b : Byte.to_N a = Byte.to_N b -> a = b.
Proof. intros H. apply (f_equal Byte.of_N) in H. rewrite !Byte.of_to_N in H. congruence. Qed.

Lemma chr_dot b : chr 46 b = true <-> b = dot.
Proof. unfold chr. split; [|intros ->; reflexivity]. intros H. apply to_N_byte. change (Byte.to_N dot) with 46%N. lia. Qed.
Lemma chr_star b : chr 42 b = true <-> b = star.
Proof. unfold chr. split; [|intros ->; reflexivity]. intros H. apply to_N_byte. change (Byte.to_N star) with 42%N. lia. Qed.

Lemma host_char_spec b : host_char b = true <-> ldh b \/ b = dot.
Proof. unfold host_char. rewrite orb_true_iff, chr_dot. unfold ldh, between, chr. split; intros [H|H]; auto; left; lia. Qed.
Lemma ldh_not_dot b : ldh b -> chr 46 b = false.
Proof. unfold ldh, chr. lia. Qed.
Lemma ldh_not_star b : ldh b -> chr 42 b = false.
Proof. unfold ldh, chr. lia. Qed.

Lemma to_lower_same a b : to_lower a = to_lower b <-> same_letter a b.
Proof.
  unfold to_lower, same_letter, between. cbv zeta. generalize (Byte.to_N a) (Byte.to_N b). intros m n.
  destruct ((65 <=? m) && (m <=? 90))%N eqn:E1, ((65 <=? n) && (n <=? 90))%N eqn:E2; lia.
Qed.
Lemma same_lower_spec : forall a b, same_lower a b = true <-> same_text a b.
Proof.
  induction a as [|x a IH]; intros [|y b]; cbn [same_lower]; try (split; [discriminate|intros H; inversion H]).
  - split; [constructor|reflexivity].
  - rewrite andb_true_iff, IH, N.eqb_eq, to_lower_same. split; [intros []; now constructor|intros H; inversion H; auto].
Qed.
Lemma same_text_length a b : same_text a b -> length a = length b.
Proof. induction 1; cbn [length]; congruence. Qed.

Lemma same_letter_dot a b : same_letter a b -> chr 46 a = chr 46 b.
Proof. unfold same_letter, chr. cbv zeta. lia. Qed.
Lemma same_letter_ldh a b : same_letter a b -> ldh a -> ldh b.
Proof. unfold same_letter, ldh. cbv zeta. lia. Qed.
Lemma same_text_dots a b : same_text a b -> count (chr 46) a = count (chr 46) b.
Proof. induction 1; cbn [count]; [reflexivity|]. now rewrite (same_letter_dot _ _ H), IHForall2. Qed.

Lemma count_app f a b : count f (a ++ b) = count f a + count f b.
Proof. induction a; cbn [app count]; lia. Qed.
Lemma count_none f a : count f a = 0 <-> Forall (fun b => f b = false) a.
Proof.
  induction a as [|x a IH]; cbn [count]; [split; [constructor|reflexivity]|].
  destruct (f x) eqn:E.
  - split; [lia|intros H; inversion H; congruence].
  - cbn [plus]. rewrite IH. split; [now constructor|intros H; now inversion H].
Qed.

Lemma dns_text_forallb s : forallb host_char s = true <-> dns_text s.
Proof. rewrite forallb_forall. unfold dns_text. rewrite Forall_forall. split; intros H b Hb; apply host_char_spec; auto. Qed.

Lemma dns_text_no_star s : dns_text s -> count (chr 42) s = 0.
Proof.
  intros H. apply count_none. eapply Forall_impl; [|exact H]. intros b [Hb| ->]; [now apply ldh_not_star|reflexivity].
Qed.
Lemma text_or_star s : forallb (fun b => host_char b || chr 42 b) s = true -> count (chr 42) s = 0 -> dns_text s.
Proof.
  intros H Hc. apply count_none in Hc. unfold dns_text. rewrite forallb_forall in H. rewrite Forall_forall in *.
  intros b Hb. specialize (H b Hb). specialize (Hc b Hb). cbn beta in Hc. rewrite Hc, orb_false_r in H. now apply host_char_spec.
Qed.
Lemma dns_text_star s : dns_text s -> forallb (fun b => host_char b || chr 42 b) s = true.
Proof. intros H. apply dns_text_forallb in H. rewrite forallb_forall in *. intros b Hb. now rewrite (H b Hb). Qed.

Lemma after_dot_some h r : after_dot h = Some r <-> exists l, h = l ++ dot :: r /\ Forall (fun b => chr 46 b = false) l.
Proof.
  revert r. induction h as [|x h IH]; intros r; cbn [after_dot].
  - split; [discriminate|intros ([|? ?] & H & _); discriminate].
  - destruct (chr 46 x) eqn:E.
    + apply chr_dot in E as ->. split; [intros [= <-]; exists []; auto|].
      intros ([|y l] & H & Hl); cbn [app] in H; injection H; intros; subst; [reflexivity|].
      inversion Hl as [|? ? Hd]. discriminate Hd.
    + rewrite IH. split.
      * intros (l & -> & Hl). exists (x :: l). split; [reflexivity|now constructor].
      * intros ([|y l] & H & Hl); cbn [app] in H; injection H; intros; subst; [discriminate E|].
        inversion Hl; subst. eauto.
Qed.
Lemma after_dot_none h : after_dot h = None <-> count (chr 46) h = 0.
Proof.
  induction h as [|x h IH]; cbn [after_dot count]; [now split|].
  destruct (chr 46 x); [split; [discriminate|lia]|]. now rewrite IH.
Qed.

Lemma count_in s : 1 <= count (chr 46) s <-> In dot s.
Proof.
  induction s as [|x s IH]; cbn [count]; [split; [lia|intros []]|].
  destruct (chr 46 x) eqn:E.
  - apply chr_dot in E as ->. split; [now left|lia].
  - cbn [plus]. rewrite IH. split; [now right|]. intros [-> | H]; [discriminate E|exact H].
Qed.

(** ** The matching function *)

Theorem match_spec cn host : tls_hostname_match_impl cn host = true <-> text_match cn host.
Proof.
  unfold tls_hostname_match_impl. split.
  - destruct (forallb (fun b => host_char b || chr 42 b) cn) eqn:Hc; [cbn [negb]|discriminate].
    destruct (forallb host_char host) eqn:Hh; [cbn [negb]|discriminate]. apply dns_text_forallb in Hh.
    destruct (count (chr 42) cn =? 0) eqn:Hs.
    + apply Nat.eqb_eq in Hs. destruct (length cn =? length host); [cbn [negb]|discriminate].
      intros H. left. split; [now apply text_or_star|]. split; [exact Hh|]. now apply same_lower_spec.
    + destruct (count (chr 42) cn =? 1) eqn:Hs1; [cbn [negb]|discriminate].
      destruct cn as [|a [|b suffix]]; [discriminate|discriminate|].
      destruct (chr 42 a && chr 46 b) eqn:Hab; [cbn [negb]|discriminate].
      apply andb_true_iff in Hab as [Ha Hb]. apply chr_star in Ha as ->. apply chr_dot in Hb as ->.
      destruct (1 + count (chr 46) (star :: dot :: suffix) <? 3) eqn:Hl; [discriminate|].
      destruct (1 + count (chr 46) (star :: dot :: suffix) =? 1 + count (chr 46) host) eqn:Hn; [cbn [negb]|discriminate].
      destruct (after_dot host) as [rest|] eqn:Hr; [|discriminate]. cbn [skipn].
      destruct (length suffix =? length rest); [cbn [negb]|discriminate]. intros H. apply same_lower_spec in H.
      apply after_dot_some in Hr as (label & -> & Hlab). right. exists suffix, label, rest.
      cbn [count] in *. change (chr 42 star) with true in *. change (chr 42 dot) with false in *.
      change (chr 46 star) with false in *. change (chr 46 dot) with true in *. cbv beta iota in *.
      unfold dns_text in Hh. rewrite Forall_app in Hh. destruct Hh as [Hh1 Hh2]. inversion Hh2 as [|? ? _ Hrest]; subst.
      split; [reflexivity|]. split; [reflexivity|]. split; [|split; [|split; [|split]]].
      * rewrite Forall_forall in *. intros b Hb. destruct (Hh1 b Hb) as [Hx | ->]; [assumption|]. specialize (Hlab dot Hb). discriminate.
      * apply text_or_star; [|lia]. cbn [forallb] in Hc. rewrite !andb_true_iff in Hc. tauto.
      * apply count_in. lia.
      * exact Hrest.
      * exact H.
  - intros [(Hc & Hh & Hs)|(suffix & label & rest & -> & -> & Hl & Hsu & Hd & Hr & Hs)].
    + rewrite (dns_text_star cn Hc). apply dns_text_forallb in Hh. rewrite Hh, (dns_text_no_star cn Hc). cbn [negb Nat.eqb].
      rewrite (same_text_length _ _ Hs), Nat.eqb_refl. cbn [negb]. now apply same_lower_spec.
    + assert (Hh : dns_text (label ++ dot :: rest)).
      { unfold dns_text. apply Forall_app. split; [|constructor; auto]. eapply Forall_impl; [|exact Hl]. auto. }
      apply dns_text_forallb in Hh. rewrite Hh. cbn [forallb]. rewrite (dns_text_star suffix Hsu).
      change (host_char star || chr 42 star) with true. change (host_char dot || chr 42 dot) with true. cbn [negb andb].
      cbn [count]. change (chr 42 star) with true. change (chr 42 dot) with false. change (chr 46 star) with false.
      change (chr 46 dot) with true. cbv beta iota. rewrite (dns_text_no_star suffix Hsu). cbn [plus Nat.eqb negb andb].
      apply count_in in Hd. destruct (Nat.ltb_spec (S (S (count (chr 46) suffix))) 3); [lia|].
      rewrite count_app. cbn [count]. change (chr 46 dot) with true. cbv beta iota.
      assert (count (chr 46) label = 0) as ->.
      { apply count_none. eapply Forall_impl; [|exact Hl]. exact ldh_not_dot. }
      cbn [plus]. rewrite (same_text_dots _ _ Hs), Nat.eqb_refl. cbn [negb].
      assert (after_dot (label ++ dot :: rest) = Some rest) as ->.
      { apply after_dot_some. exists label. split; [reflexivity|]. eapply Forall_impl; [|exact Hl]. exact ldh_not_dot. }
      cbn [skipn]. rewrite (same_text_length _ _ Hs), Nat.eqb_refl. cbn [negb]. now apply same_lower_spec.
Qed.

Theorem names_spec n host : tls_hostname_match n host = true <-> host_ok host (cn_common n) (cn_sans n).
Proof.
  unfold tls_hostname_match, host_ok. destruct host as [h|].
  - rewrite orb_true_iff, existsb_exists. unfold named. split.
    + intros [(s & Hi & Hm)|H]; [left; exists s; split; [exact Hi|now apply match_spec]|].
      destruct (cn_common n) as [c|]; [|discriminate]. right. exists c. split; [reflexivity|now apply match_spec].
    + intros [(s & Hi & Hm)|(c & -> & Hm)]; [left; exists s; split; [exact Hi|now apply match_spec]|].
      right. now apply match_spec.
  - destruct (cn_common n), (cn_sans n); cbn; split; try discriminate; auto; intros []; discriminate.
Qed.

(** ** Labels *)

Lemma dotted_cons l r : r <> [] -> dotted (l :: r) = l ++ dot :: dotted r.
Proof. destruct r; [congruence|reflexivity]. Qed.

Lemma ldh_label_inj a b x y : Forall ldh a -> Forall ldh b -> a ++ dot :: x = b ++ dot :: y -> a = b /\ x = y.
Proof.
  revert b. induction a as [|c a IH]; intros [|d b] Ha Hb H; cbn [app] in H; injection H; intros; subst.
  - auto.
  - inversion Hb as [|? ? Hd]; subst. apply ldh_not_dot in Hd. discriminate Hd.
  - inversion Ha as [|? ? Hd]; subst. apply ldh_not_dot in Hd. discriminate Hd.
  - inversion Ha; inversion Hb; subst. destruct (IH b) as [-> ->]; auto.
Qed.

Lemma dns_name_text ls s : dns_name ls s -> dns_text s.
Proof.
  intros (Hn & Hl & ->). clear Hn. induction Hl as [|l r [_ H] Hr IH]; [constructor|]. destruct r as [|l2 r].
  - cbn [dotted]. eapply Forall_impl; [|exact H]. auto.
  - rewrite dotted_cons by discriminate. apply Forall_app. split; [eapply Forall_impl; [|exact H]; auto|].
    constructor; [now right|exact IH].
Qed.

(** The labels of a text that has the same letters. *)
Lemma same_labels ls : Forall (fun l => l <> [] /\ Forall ldh l) ls -> ls <> [] -> forall s, same_text s (dotted ls) ->
  exists cl, dns_name cl s /\ Forall2 same_text cl ls.
Proof.
  assert (Hside : forall l x, Forall ldh l -> same_text x l -> Forall ldh x).
  { intros l x Hl Hx. induction Hx as [|? ? ? ? Hxy]; [constructor|]. inversion Hl; subst. constructor; auto.
    eapply same_letter_ldh; [|eassumption]. unfold same_letter in *; cbv zeta in *; lia. }
  induction 1 as [|l r [Hl0 Hl] Hr IH]; intros Hn s Hs; [congruence|]. destruct r as [|l2 r].
  - cbn [dotted] in Hs. exists [s]. split; [|constructor; auto]. split; [discriminate|]. split; [|reflexivity].
    constructor; [|constructor]. split; [intros ->; inversion Hs; congruence|eapply Hside; eauto].
  - rewrite dotted_cons in Hs by discriminate. apply Forall2_app_inv_r in Hs as (a & t & Ha & Ht & ->).
    inversion Ht as [|d ? t' ? Hd Ht' E1 E2]; subst.
    assert (d = dot) as -> by (apply chr_dot; rewrite (same_letter_dot _ _ Hd); reflexivity).
    destruct (IH ltac:(discriminate) t' Ht') as (cl & (Hcn & Hcl & ->) & Hf).
    exists (a :: cl). split; [|constructor; auto]. split; [discriminate|]. split.
    + constructor; [|exact Hcl]. split; [intros ->; inversion Ha; congruence|eapply Hside; eauto].
    + rewrite dotted_cons; auto.
Qed.
Lemma labels_same ls : forall cl, Forall2 same_text cl ls -> same_text (dotted cl) (dotted ls).
Proof.
  induction ls as [|l r IH]; intros cl H; inversion H as [|c ? cl' ? Hc Hr]; subst; [constructor|].
  destruct r as [|l2 r]; inversion Hr as [|c2]; subst; cbn [dotted]; [exact Hc|].
  apply Forall2_app; [exact Hc|]. constructor; [left; reflexivity|]. apply (IH _ Hr).
Qed.

Lemma dns_name_split ls s : dns_name ls s -> In dot s -> exists first rest, ls = first :: rest /\ rest <> [] /\ Forall ldh first /\
  s = first ++ dot :: dotted rest /\ dns_name rest (dotted rest).
Proof.
  intros (Hn & Hl & ->) Hd. destruct ls as [|l [|l2 r]]; [congruence| |].
  - cbn [dotted] in Hd. inversion Hl as [|? ? [_ H]]; subst. rewrite Forall_forall in H. specialize (H _ Hd). apply ldh_not_dot in H. discriminate H.
  - inversion Hl as [|? ? [H0 H] Hr]; subst. exists l, (l2 :: r). split; [reflexivity|]. split; [discriminate|]. split; [exact H|].
    split; [reflexivity|]. split; [discriminate|auto].
Qed.

Lemma has_dot_two ls s : dns_name ls s -> (In dot s <-> 2 <= length ls).
Proof.
  intros H. split.
  - intros Hd. destruct (dns_name_split _ _ H Hd) as (f & r & -> & Hr & _). destruct r; [congruence|cbn; lia].
  - destruct H as (_ & _ & ->). destruct ls as [|l [|l2 r]]; cbn [length]; try lia. intros _.
    rewrite dotted_cons by discriminate. apply in_or_app. right. now left.
Qed.

(** For a host that is a DNS name, the rule is that of the RFC. *)
Theorem rfc_spec cn host hl : dns_name hl host -> (text_match cn host <-> rfc_match cn host).
Proof.
  intros Hh. split.
  - intros [(Hc & _ & Hs)|(suffix & label & rest & -> & E & Hl & Hsu & Hd & Hr & Hs)].
    + exists hl. split; [exact Hh|]. left. destruct Hh as (Hn & Hl & ->). apply same_labels; auto.
    + exists hl. split; [exact Hh|]. right.
      destruct (dns_name_split _ _ Hh) as (first & rs & -> & Hn & Hf & E2 & Hrs); [rewrite E; apply in_or_app; right; now left|].
      rewrite E in E2. apply ldh_label_inj in E2 as [-> ->]; auto.
      destruct (same_labels rs (proj1 (proj2 Hrs)) Hn suffix Hs) as (sl & Hsl & Hf2).
      exists sl, suffix, first, rs. split; [reflexivity|]. split; [exact Hsl|]. split; [|auto].
      apply (has_dot_two _ _ Hsl). exact Hd.
  - intros (hl' & Hh' & [(cl & Hc & Hf)|(sl & s & first & rest & -> & Hsl & Hn & -> & Hf)]).
    + left. split; [eapply dns_name_text; eauto|]. split; [eapply dns_name_text; eauto|].
      destruct Hc as (_ & _ & ->), Hh' as (_ & _ & ->). now apply labels_same.
    + right. assert (Hrn : rest <> []) by (intros ->; inversion Hf; subst; cbn in Hn; lia).
      destruct Hh' as (_ & Hl & ->). inversion Hl as [|? ? [H0 H1] H2]; subst.
      exists s, first, (dotted rest). split; [reflexivity|]. split; [now apply dotted_cons|]. split; [exact H1|].
      split; [eapply dns_name_text; eauto|]. split; [now apply (has_dot_two _ _ Hsl)|].
      split; [apply (dns_name_text rest); split; auto|]. destruct Hsl as (_ & _ & ->). now apply labels_same.
Qed.
