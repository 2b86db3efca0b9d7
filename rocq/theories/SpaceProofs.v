(** * Which error a message gives that does not fit its buffer *)
From Coq Require Import List NArith Arith Bool.
From Coq.Strings Require Import Byte.
From Verif Require Import Base Buffer Codes Extensions Crypto Handshake.
Import ListNotations.

(** [m] reports no other error than [e]. *)
Definition only {A} (e : tls_error) (m : W A) : Prop := forall c e' c', m c = (Err e', c') -> e' = e.

Lemma only_bind {A B} e (m : W A) (k : A -> W B) : only e m -> (forall a, only e (k a)) -> only e (bind m k).
Proof.
  intros H1 H2 c e' c' H. unfold bind in H. destruct (m c) as [[a|e1|x| |] c1] eqn:E; try discriminate.
  - exact (H2 a _ _ _ H).
  - injection H as <- <-. exact (H1 _ _ _ E).
Qed.
Lemma only_ret {A} e (a : A) : only e (ret a). Proof. intros c e' c' H. discriminate. Qed.
Lemma only_gets {A} e (f : cbuf -> A) : only e (gets f). Proof. intros c e' c' H. discriminate. Qed.
Lemma only_sub e n m : only e (lift (usize_sub n m)).
Proof. intros c e' c' H. unfold lift, usize_sub in H. destruct (m <=? n); discriminate. Qed.
Lemma only_panic {A} e x : only e (@panic cbuf tls_error A x). Proof. intros c e' c' H. discriminate. Qed.
Lemma sub_no_err {E} n m (e : E) : usize_sub n m <> Err e. Proof. unfold usize_sub. destruct (m <=? n); discriminate. Qed.
Lemma set_rng_no_err {E A} (b : list A) i x (e : E) : set_rng b i x <> Err e. Proof. unfold set_rng. destruct (_ <=? _); discriminate. Qed.
Lemma set_index_no_err {E A} (b : list A) i x (e : E) : set_index b i x <> Err e. Proof. unfold set_index. destruct (_ <? _); discriminate. Qed.
Lemma only_extend bs : only InsufficientSpace (cb_extend bs).
Proof.
  intros c e' c' H. unfold cb_extend in H. destruct (cb_space c) as [sp|e|x| |] eqn:E; try discriminate; [|exfalso; exact (sub_no_err _ _ _ E)].
  destruct (_ <? _); [congruence|]. destruct (set_rng _ _ _) as [b|e|x| |] eqn:E'; try discriminate. exfalso. exact (set_rng_no_err _ _ _ _ E').
Qed.
Lemma only_push v : only InsufficientSpace (cb_push v).
Proof.
  intros c e' c' H. unfold cb_push in H. destruct (cb_space c) as [sp|e|x| |] eqn:E; try discriminate; [|exfalso; exact (sub_no_err _ _ _ E)].
  destruct (_ <? _); [|congruence]. destruct (set_index _ _ _) as [b|e|x| |] eqn:E'; try discriminate. exfalso. exact (set_index_no_err _ _ _ _ E').
Qed.
Lemma only_set i v : only InsufficientSpace (cb_set i v).
Proof.
  intros c e' c' H. unfold cb_set in H. destruct (_ <? _); [|congruence].
  destruct (set_index _ _ _) as [b|e|x| |] eqn:E'; try discriminate. exfalso. exact (set_index_no_err _ _ _ _ E').
Qed.
Ltac onlys := repeat first [apply only_bind; [|intros ?] | apply only_ret | apply only_gets | apply only_sub | apply only_panic | apply only_extend | apply only_push | apply only_set].
Lemma only_u8 {A} (op : W A) : only InsufficientSpace op -> only InsufficientSpace (with_u8_length op).
Proof. intros H. unfold with_u8_length. onlys; try exact H. Qed.
Lemma only_u16 {A} (op : W A) : only InsufficientSpace op -> only InsufficientSpace (with_u16_length op).
Proof. intros H. unfold with_u16_length, cb_push_u16, cb_set_u16. onlys; try exact H. Qed.
Lemma only_u24 {A} (op : W A) : only InsufficientSpace op -> only InsufficientSpace (with_u24_length op).
Proof. intros H. unfold with_u24_length, cb_push_u24, cb_set_u24. onlys; try exact H. Qed.
Lemma only_each {A} (f : A -> W unit) l : (forall a, only InsufficientSpace (f a)) -> only InsufficientSpace (for_each l f).
Proof. intros H. induction l as [|a l IH]; cbn [for_each]; [apply only_ret|]. apply only_bind; [apply H|intros _; exact IH]. Qed.
Lemma only_certificate c : only InsufficientSpace (enc_certificate c).
Proof.
  unfold enc_certificate. apply only_bind; [apply only_u8, only_extend|intros _]. apply only_u24, only_each. intros [d|d]; unfold enc_cert_entry, cb_push_u16;
    (apply only_bind; [|intros _; apply only_extend]); [apply only_u24, only_extend|apply only_panic].
Qed.
Lemma only_certificate_verify v : only InsufficientSpace (enc_certificate_verify v).
Proof. unfold enc_certificate_verify. apply only_bind; [apply only_extend|intros _; apply only_u16, only_extend]. Qed.
Lemma only_finished f : only EncodeError (enc_finished f).
Proof. intros c e' c' H. unfold enc_finished, enc_err, map_err in H. destruct (cb_extend _ _) as [[|e1| | |] ?]; try discriminate. now injection H as <- _. Qed.
