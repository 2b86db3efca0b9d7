(** * Safety of every parser: no panic, no divergence, the window never leaves the input *)
From Coq Require Import List NArith Arith Bool Lia ZArith.
From Coq.Strings Require Import Byte.
From Coq Require Import ZifyBool ZifyNat ZifyN.
From Verif Require Import Base ParseBuffer Buffer Codes Extensions Crypto KeySchedule Config
  Handshake Record BaseProofs.
Import ListNotations.

Definition pwf (p : pbuf) : Prop := pb_pos p <= length (pb_buf p).

(** [psafe k Q m]: from every well-formed buffer, [m] returns a value satisfying [Q] after
    consuming at least [k] bytes, or an error; the underlying bytes are untouched and the
    position only moves forward, inside the buffer. *)
Definition psafe {E A} (k : nat) (Q : A -> Prop) (m : P E A) : Prop :=
  forall p, pwf p ->
    match m p with
    | (Ok a, p') => pb_buf p' = pb_buf p /\ pb_pos p + k <= pb_pos p' /\ pwf p' /\ Q a
    | (Err e, p') => pb_buf p' = pb_buf p /\ pb_pos p <= pb_pos p' /\ pwf p'
    | _ => False
    end.

Definition any {A} (_ : A) : Prop := True.

Lemma psafe_weaken {E A} k k' (Q Q' : A -> Prop) (m : P E A) :
  psafe k Q m -> k' <= k -> (forall a, Q a -> Q' a) -> psafe k' Q' m.
Proof.
  intros H Hk HQ p Hp. specialize (H p Hp).
  destruct (m p) as [[a|e|x| |] p']; try contradiction; [|assumption].
  destruct H as (H1 & H2 & H3 & H4). repeat split; auto; lia.
Qed.

Lemma psafe_any {E A} k k' (Q : A -> Prop) (m : P E A) :
  psafe k Q m -> k' <= k -> psafe k' any m.
Proof. intros H Hk. apply (psafe_weaken k k' Q); auto. intros; exact I. Qed.

Lemma psafe_ret {E A} (a : A) (Q : A -> Prop) : Q a -> psafe 0 Q (ret a : P E A).
Proof. intros HQ p Hp. cbn. repeat split; auto. lia. Qed.

Lemma psafe_fail {E A} k (e : E) (Q : A -> Prop) : psafe k Q (fail e : P E A).
Proof. intros p Hp. cbn. repeat split; auto. Qed.

Lemma psafe_bind {E A B} k1 k2 (Q1 : A -> Prop) (Q2 : B -> Prop) (m : P E A) (f : A -> P E B) :
  psafe k1 Q1 m -> (forall a, Q1 a -> psafe k2 Q2 (f a)) -> psafe (k1 + k2) Q2 (bind m f).
Proof.
  intros Hm Hf p Hp. unfold bind. specialize (Hm p Hp).
  destruct (m p) as [[a|e|x| |] p']; try contradiction.
  - destruct Hm as (Hb & Hpos & Hw & HQ). specialize (Hf a HQ p' Hw).
    destruct (f a p') as [[b|e|x| |] p'']; try contradiction;
      [destruct Hf as (Hb' & Hpos' & Hw' & HQ')|destruct Hf as (Hb' & Hpos' & Hw')];
      repeat split; auto; try congruence; lia.
  - assumption.
Qed.

Lemma psafe_map_err {E E' A} k (Q : A -> Prop) (g : E -> E') (m : P E A) :
  psafe k Q m -> psafe k Q (map_err g m).
Proof.
  intros H p Hp. unfold map_err. specialize (H p Hp).
  destruct (m p) as [[a|e|x| |] p']; cbn; auto.
Qed.

Lemma psafe_gets {E A} (f : pbuf -> A) : psafe 0 any (gets f : P E A).
Proof. intros p Hp. cbn. repeat split; auto. lia. Qed.

Lemma psafe_lift {E A} (o : outcome E A) (Q : A -> Prop) :
  match o with Ok a => Q a | Err _ => True | _ => False end -> psafe 0 Q (lift o : P E A).
Proof.
  intros H p Hp. unfold lift. destruct o; try contradiction; repeat split; auto. lia.
Qed.

(** ** Primitive readers *)

Lemma psafe_take n : psafe n (fun s => length s = n) (pb_take n).
Proof.
  intros p Hp. unfold pb_take. unfold pwf in *.
  destruct (Nat.leb_spec (pb_pos p + n) (length (pb_buf p))).
  - rewrite slice_rng_ok by lia. cbn. repeat split; try lia.
    rewrite sub_length. lia.
  - cbn. repeat split; auto.
Qed.

Lemma psafe_slice n : psafe n (fun d => pb_pos d = 0 /\ length (pb_buf d) = n) (pb_slice n).
Proof.
  unfold pb_slice. replace n with (n + 0) at 1 by lia.
  eapply psafe_bind; [apply psafe_take|]. intros s Hs. apply psafe_ret. cbn. auto.
Qed.

Lemma psafe_read_u8 : psafe 1 any read_u8.
Proof.
  intros p Hp. unfold read_u8. unfold pwf in *.
  destruct (Nat.ltb_spec (pb_pos p) (length (pb_buf p))).
  - destruct (index_ok (E:=parse_error) (pb_buf p) (pb_pos p)) as (a & -> & _); [assumption|].
    cbn. repeat split; lia.
  - cbn. repeat split; auto.
Qed.

Lemma psafe_read_be n : psafe n any (s <- pb_take n ;; ret (be_val s)).
Proof.
  replace n with (n + 0) at 1 by lia.
  eapply psafe_bind; [apply psafe_take|]. intros; apply psafe_ret; exact I.
Qed.
Lemma psafe_read_u16 : psafe 2 any read_u16. Proof. apply (psafe_read_be 2). Qed.
Lemma psafe_read_u24 : psafe 3 any read_u24. Proof. apply (psafe_read_be 3). Qed.
Lemma psafe_read_u32 : psafe 4 any read_u32. Proof. apply (psafe_read_be 4). Qed.

Lemma psafe_fill n : psafe n (fun s => length s = n) (pb_fill n).
Proof. apply psafe_take. Qed.

Lemma psafe_of_code {A} (o : option A) : psafe 0 any (of_code o).
Proof. unfold of_code. apply psafe_lift. destruct o; exact I. Qed.

(** ** Loops *)

Lemma read_list_loop_safe {T} (read : P parse_error T) (cap : nat) :
  psafe 1 any read ->
  forall fuel acc d, pwf d -> length (pb_buf d) - pb_pos d < fuel ->
  match read_list_loop fuel cap read acc d with Ok _ | Err _ => True | _ => False end.
Proof.
  intros Hr. induction fuel as [|fuel IH]; intros acc d Hd Hf.
  - lia.
  - cbn [read_list_loop]. destruct (pb_is_empty d) eqn:He; [exact I|].
    specialize (Hr d Hd). destruct (read d) as [[t|e|x| |] d']; try contradiction; [|exact I].
    destruct (length acc <? cap); [|exact I]. apply IH.
    + apply Hr.
    + destruct Hr as (Hb & Hp & Hw & _). unfold pwf in *. rewrite Hb. 
      unfold pb_is_empty in He. apply Nat.eqb_neq in He. lia.
Qed.

Lemma psafe_read_list {T} (read : P parse_error T) cap n :
  psafe 1 any read -> psafe n any (read_list cap n read).
Proof.
  intros Hr. unfold read_list. replace n with (n + 0) at 1 by lia.
  eapply psafe_bind; [apply psafe_slice|]. intros d [Hd0 Hdl]. apply psafe_lift.
  pose proof (read_list_loop_safe read cap Hr (S n) [] d) as H.
  assert (Hw : pwf d) by (unfold pwf; lia).
  specialize (H Hw ltac:(lia)).
  destruct (read_list_loop (S n) cap read [] d); try exact I; contradiction.
Qed.

(** Chain [psafe] through a parser written with binds. *)
Ltac psafe_one :=
  first
    [ apply psafe_read_u8 | apply psafe_read_u16 | apply psafe_read_u24 | apply psafe_read_u32
    | apply psafe_of_code | apply psafe_slice | apply psafe_take | apply psafe_fill
    | apply psafe_gets
    | apply psafe_read_list
    | apply psafe_map_err ].

Definition psafe0 {E A} (m : P E A) : Prop := psafe 0 any m.

Lemma psafe0_bind {E A B} k (Q : A -> Prop) (m : P E A) (f : A -> P E B) :
  psafe k Q m -> (forall a, Q a -> psafe0 (f a)) -> psafe0 (bind m f).
Proof.
  intros Hm Hf. eapply psafe_any; [eapply psafe_bind; [exact Hm|]|apply Nat.le_0_l].
  exact Hf.
Qed.

(** bind where the first part alone ensures the progress [k]. *)
Lemma psafe_bind_l {E A B} k (Q : A -> Prop) (m : P E A) (f : A -> P E B) :
  psafe k Q m -> (forall a, Q a -> psafe0 (f a)) -> psafe k any (bind m f).
Proof.
  intros Hm Hf. replace k with (k + 0) by lia. eapply psafe_bind; eauto.
Qed.

Lemma psafe0_intro {E A} k (Q : A -> Prop) (m : P E A) : psafe k Q m -> psafe0 m.
Proof. intros H. eapply psafe_any; eauto. lia. Qed.

Lemma psafe0_ret {E A} (a : A) : psafe0 (ret a : P E A).
Proof. apply psafe_ret. exact I. Qed.

Lemma psafe0_fail {E A} (e : E) : psafe0 (fail e : P E A).
Proof. apply psafe_fail. Qed.

Lemma psafe_pq {A} k (Q : A -> Prop) (m : P parse_error A) : psafe k Q m -> psafe k Q (pq m).
Proof. apply psafe_map_err. Qed.

(** ** Extension payloads *)

Lemma safe_ext_type : psafe 2 any parse_ext_type.
Proof. apply (psafe_bind_l _ _ _ _ psafe_read_u16). intros; eapply psafe0_intro; apply psafe_of_code. Qed.
Lemma safe_named_group : psafe 2 any parse_named_group.
Proof. apply (psafe_bind_l _ _ _ _ psafe_read_u16). intros; eapply psafe0_intro; apply psafe_of_code. Qed.
Lemma safe_sig_scheme : psafe 2 any parse_sig_scheme.
Proof. apply (psafe_bind_l _ _ _ _ psafe_read_u16). intros; eapply psafe0_intro; apply psafe_of_code. Qed.
Lemma safe_max_frag : psafe 1 any parse_max_frag.
Proof. apply (psafe_bind_l _ _ _ _ psafe_read_u8). intros; eapply psafe0_intro; apply psafe_of_code. Qed.
Lemma safe_psk_mode : psafe 1 any parse_psk_mode.
Proof. apply (psafe_bind_l _ _ _ _ psafe_read_u8). intros; eapply psafe0_intro; apply psafe_of_code. Qed.

Lemma safe_server_name : psafe 1 any parse_server_name.
Proof.
  unfold parse_server_name, parse_name_type. eapply psafe_bind_l.
  - apply (psafe_bind_l _ _ _ _ psafe_read_u8). intros b _.
    destruct (_ =? _)%N; [apply psafe0_ret|apply psafe0_fail].
  - intros _ _. eapply psafe0_bind; [apply psafe_read_u16|]. intros n _.
    eapply psafe0_bind; [apply psafe_slice|]. intros s _.
    destruct (is_ascii _); [apply psafe0_ret|apply psafe0_fail].
Qed.

Lemma safe_server_name_response : psafe0 parse_server_name_response.
Proof.
  unfold parse_server_name_response. eapply psafe0_bind; [apply psafe_gets|].
  intros [] _; [apply psafe0_ret|apply psafe0_fail].
Qed.

Lemma safe_version_sh : psafe0 parse_version_sh.
Proof. eapply psafe0_bind; [apply psafe_read_u16|]. intros; apply psafe0_ret. Qed.

Lemma safe_sig_algs cap : psafe0 (parse_sig_algs cap).
Proof.
  eapply psafe0_bind; [apply psafe_read_u16|]. intros n _.
  eapply psafe0_bind; [apply psafe_read_list; eapply psafe_any; [apply safe_sig_scheme|lia]|].
  intros; apply psafe0_ret.
Qed.

Lemma safe_groups cap : psafe0 (parse_groups cap).
Proof.
  eapply psafe0_bind; [apply psafe_read_u16|]. intros n _.
  eapply psafe0_bind; [apply psafe_read_list; eapply psafe_any; [apply safe_named_group|lia]|].
  intros; apply psafe0_ret.
Qed.

Lemma safe_key_share_entry : psafe 2 any parse_key_share_entry.
Proof.
  apply (psafe_bind_l _ _ _ _ safe_named_group). intros g _.
  eapply psafe0_bind; [apply psafe_read_u16|]. intros n _.
  eapply psafe0_bind; [apply psafe_slice|]. intros; apply psafe0_ret.
Qed.

Lemma safe_key_share_sh : psafe0 parse_key_share_sh.
Proof. eapply psafe0_bind; [apply safe_key_share_entry|]. intros [g o] _; apply psafe0_ret. Qed.

Lemma safe_psk_sh : psafe0 parse_psk_sh.
Proof. eapply psafe0_bind; [apply psafe_read_u16|]. intros; apply psafe0_ret. Qed.

Lemma safe_max_frag_ext : psafe0 parse_max_frag_ext.
Proof. eapply psafe0_bind; [apply safe_max_frag|]. intros; apply psafe0_ret. Qed.

Lemma safe_unimpl : psafe0 parse_unimpl.
Proof. eapply psafe0_bind; [apply psafe_gets|]. intros; apply psafe0_ret. Qed.

Lemma alpn_loop_safe : forall fuel d, pwf d -> length (pb_buf d) - pb_pos d < fuel ->
  match alpn_loop fuel d with Ok _ | Err _ => True | _ => False end.
Proof.
  set (item := (n <- read_u8 ;;
           if (Byte.to_N n =? 0)%N then fail PE_InvalidData
           else pb_slice (N.to_nat (Byte.to_N n)) ;;; ret tt)).
  assert (Hi : psafe 1 any item).
  { apply (psafe_bind_l _ _ _ _ psafe_read_u8). intros b _.
    destruct (_ =? _)%N; [apply psafe0_fail|].
    eapply psafe0_bind; [apply psafe_slice|]. intros; apply psafe0_ret. }
  induction fuel as [|fuel IH]; intros d Hd Hf; [lia|].
  cbn [alpn_loop]. destruct (pb_is_empty d) eqn:He; [exact I|].
  fold item. specialize (Hi d Hd).
  destruct (item d) as [[t|e|x| |] d']; try contradiction; [|exact I].
  apply IH; [apply Hi|]. destruct Hi as (Hb & Hp & Hw & _). unfold pwf in *. rewrite Hb.
  unfold pb_is_empty in He. apply Nat.eqb_neq in He. lia.
Qed.

Lemma safe_alpn : psafe0 parse_alpn.
Proof.
  eapply psafe0_bind; [apply psafe_read_u16|]. intros n _.
  eapply psafe0_bind; [apply psafe_slice|]. intros d [Hd0 Hdl].
  eapply (psafe0_bind 0 any); [|intros; apply psafe0_ret].
  apply psafe_lift.
  pose proof (alpn_loop_safe (S (N.to_nat n)) d) as H.
  specialize (H ltac:(unfold pwf; lia) ltac:(lia)).
  destruct (alpn_loop _ d); try exact I; contradiction.
Qed.

(** ** Extension groups *)

Definition group_safe (g : ext_group) : Prop := forall t m, g t = Some m -> psafe0 m.

Ltac group_cases :=
  intros t m H; destruct t; cbn in H; inversion H; subst;
  first [apply safe_unimpl | apply safe_alpn | apply safe_max_frag_ext | apply safe_psk_sh
        | apply safe_key_share_sh | apply safe_groups | apply safe_sig_algs | apply safe_version_sh
        | apply safe_server_name_response].

Lemma safe_grp_server_hello : group_safe grp_server_hello. Proof. group_cases. Qed.
Lemma safe_grp_encrypted_ext : group_safe grp_encrypted_ext. Proof. group_cases. Qed.
Lemma safe_grp_cert_request : group_safe grp_cert_request. Proof. group_cases. Qed.
Lemma safe_grp_certificate : group_safe grp_certificate. Proof. group_cases. Qed.
Lemma safe_grp_new_session_ticket : group_safe grp_new_session_ticket. Proof. group_cases. Qed.

(** [ext_parse] on a non-empty buffer consumes at least 4 bytes unless it stops the loop. *)
Lemma ext_parse_safe g p : group_safe g -> pwf p ->
  match ext_parse g p with
  | (Ok _, p') | (Err UnknownExtensionType, p') =>
      pb_buf p' = pb_buf p /\ pb_pos p + 4 <= pb_pos p' /\ pwf p'
  | (Err _, p') => pb_buf p' = pb_buf p /\ pb_pos p <= pb_pos p' /\ pwf p'
  | _ => False
  end.
Proof.
  intros Hg Hp. unfold ext_parse.
  set (k := fun ety => n <- map_err (fun _ : parse_error => DecodeError) read_u16;;
     d <- map_err (fun _ : parse_error => DecodeError) (pb_slice (N.to_nat n));;
     match ety with
     | inl t => match g t with
                | Some parse_data => let '(o, _) := parse_data d in
                    x <- lift (omap_err (fun _ : parse_error => DecodeError) o);; ret (mk_ext t x)
                | None => fail (AbortHandshake AL_Fatal AD_IllegalParameter)
                end
     | inr (ParseErr PE_InvalidData) => fail UnknownExtensionType
     | inr _ => fail DecodeError
     end : P tls_error extension).
  (* the attempt *)
  unfold bind at 1. unfold attempt.
  pose proof (psafe_pq _ _ _ safe_ext_type p Hp) as H0.
  (* when the type could not be read at all, nothing was consumed *)
  assert (H0' : match pq parse_ext_type p with
                | (Ok _, p') => pb_buf p' = pb_buf p /\ pb_pos p' = pb_pos p + 2 /\ pwf p'
                | (Err (ParseErr PE_InvalidData), p') => pb_buf p' = pb_buf p /\ pb_pos p' = pb_pos p + 2 /\ pwf p'
                | (Err _, p') => pb_buf p' = pb_buf p /\ pb_pos p <= pb_pos p' /\ pwf p'
                | _ => False end).
  { clear -H0 Hp. revert H0. unfold pq, map_err, parse_ext_type, bind, read_u16, bind, of_code, lift, ret.
    unfold pb_take. unfold pwf in *.
    destruct (Nat.leb_spec (pb_pos p + 2) (length (pb_buf p))).
    - rewrite slice_rng_ok by lia. destruct (ext_type_of _); cbn; intros _; repeat split; lia.
    - cbn. intros _. repeat split; auto. }
  clear H0. destruct (pq parse_ext_type p) as [[t|e|x| |] p1]; try contradiction.
  - (* known type *)
    destruct H0' as (Hb1 & Hp1 & Hw1). fold (k (inl t)).
    assert (Hk : forall p1, pwf p1 -> match k (inl t) p1 with
       | (Ok _, p') => pb_buf p' = pb_buf p1 /\ pb_pos p1 + 2 <= pb_pos p' /\ pwf p'
       | (Err UnknownExtensionType, _) => False
       | (Err _, p') => pb_buf p' = pb_buf p1 /\ pb_pos p1 <= pb_pos p' /\ pwf p'
       | _ => False end).
    { clear -Hg. intros p Hp. unfold k. unfold bind at 1.
      pose proof (psafe_map_err _ _ (fun _ => DecodeError) _ psafe_read_u16 p Hp) as H1.
      unfold map_err in H1 |- *.
      destruct (read_u16 p) as [[n|e|x| |] p1]; cbn [omap_err] in *; try contradiction; [|assumption].
      unfold bind at 1.
      destruct H1 as (Hb1 & Hp1 & Hw1 & _).
      pose proof (psafe_slice (N.to_nat n) p1 Hw1) as H2.
      destruct (pb_slice (N.to_nat n) p1) as [[d|e|x| |] p2]; cbn [omap_err]; try contradiction.
      2:{ destruct H2 as (?&?&?). repeat split; [congruence|lia|assumption]. }
      destruct H2 as (Hb2 & Hp2 & Hw2 & Hd0 & Hdl).
      destruct (g t) as [m|] eqn:Eg.
      - pose proof (Hg t m Eg d) as Hm. specialize (Hm ltac:(unfold pwf; lia)).
        destruct (m d) as [[a|e|x| |] d']; try contradiction; cbn; repeat split; try congruence; try lia; assumption.
      - cbn. repeat split; try congruence; try lia; assumption. }
    specialize (Hk p1 Hw1).
    destruct (k (inl t) p1) as [[a|e|x| |] p2]; try contradiction.
    + destruct Hk as (?&?&?). repeat split; try congruence; try lia; assumption.
    + destruct e; try contradiction; destruct Hk as (?&?&?); repeat split; try congruence; try lia; assumption.
  - fold (k (inr e)).
    assert (Hk : forall p1, pwf p1 -> match k (inr e) p1 with
       | (Err UnknownExtensionType, p') => e = ParseErr PE_InvalidData /\ pb_buf p' = pb_buf p1 /\ pb_pos p1 + 2 <= pb_pos p' /\ pwf p'
       | (Err _, p') => pb_buf p' = pb_buf p1 /\ pb_pos p1 <= pb_pos p' /\ pwf p'
       | _ => False end).
    { clear. intros p Hp. unfold k. unfold bind at 1.
      pose proof (psafe_map_err _ _ (fun _ => DecodeError) _ psafe_read_u16 p Hp) as H1.
      unfold map_err in H1 |- *.
      destruct (read_u16 p) as [[n|e1|x| |] p1]; cbn [omap_err] in *; try contradiction; [|assumption].
      unfold bind at 1. destruct H1 as (Hb1 & Hp1 & Hw1 & _).
      pose proof (psafe_slice (N.to_nat n) p1 Hw1) as H2.
      destruct (pb_slice (N.to_nat n) p1) as [[d|e2|x| |] p2]; cbn [omap_err]; try contradiction.
      2:{ destruct H2 as (?&?&?). repeat split; [congruence|lia|assumption]. }
      destruct H2 as (Hb2 & Hp2 & Hw2 & Hd0 & Hdl).
      destruct e as [| | | | | | | | | | | | | | | | | | | | | | | | | | |[]| | | | |]; cbn;
        repeat split; try congruence; try lia; assumption. }
    assert (Hw1 : pwf p1) by (destruct e as [| | | | | | | | | | | | | | | | | | | | | | | | | | |[]| | | | |]; apply H0').
    assert (Hb1 : pb_buf p1 = pb_buf p /\ pb_pos p <= pb_pos p1 /\
                  (e = ParseErr PE_InvalidData -> pb_pos p1 = pb_pos p + 2)).
    { destruct e as [| | | | | | | | | | | | | | | | | | | | | | | | | | |[]| | | | |];
        destruct H0' as (?&?&?); repeat split; try congruence; try lia. }
    specialize (Hk p1 Hw1). destruct Hb1 as (Hb1 & Hp1 & Hp1').
    destruct (k (inr e) p1) as [[a|e'|x| |] p2]; try contradiction.
    destruct e'; try (destruct Hk as (?&?&?); repeat split; try congruence; try lia; assumption).
    destruct Hk as (He&?&?&?). specialize (Hp1' He). repeat split; try congruence; try lia; assumption.
Qed.

Lemma ext_vector_loop_safe g cap : group_safe g ->
  forall fuel acc d, pwf d -> length (pb_buf d) - pb_pos d < fuel ->
  match ext_vector_loop g fuel cap acc d with Ok _ | Err _ => True | _ => False end.
Proof.
  intros Hg. induction fuel as [|fuel IH]; intros acc d Hd Hf; [lia|].
  cbn [ext_vector_loop]. destruct (pb_is_empty d) eqn:He; [exact I|].
  unfold pb_is_empty in He. apply Nat.eqb_neq in He.
  pose proof (ext_parse_safe g d Hg Hd) as H.
  destruct (ext_parse g d) as [[t|e|x| |] d']; try contradiction.
  - destruct (length acc <? cap); [|exact I].
    destruct H as (Hb & Hp & Hw). unfold pwf in *. apply IH; [exact Hw|]. rewrite Hb. lia.
  - destruct e; try exact I.
    destruct H as (Hb & Hp & Hw). unfold pwf in *. apply IH; [exact Hw|]. rewrite Hb. lia.
Qed.

Lemma psafe_ext_vector g cap : group_safe g -> psafe 2 any (ext_parse_vector g cap).
Proof.
  intros Hg. unfold ext_parse_vector.
  eapply psafe_bind_l; [apply psafe_map_err, psafe_read_u16|]. intros n _.
  eapply psafe0_bind; [apply psafe_pq, psafe_slice|]. intros d [Hd0 Hdl].
  apply psafe_lift.
  pose proof (ext_vector_loop_safe g cap Hg (S (N.to_nat n)) [] d) as H.
  specialize (H ltac:(unfold pwf; lia) ltac:(lia)).
  destruct (ext_vector_loop _ _ _ _ d); try exact I; contradiction.
Qed.

(** ** Handshake messages *)

Lemma safe_server_hello : psafe0 parse_server_hello.
Proof.
  unfold parse_server_hello.
  eapply psafe0_bind; [apply psafe_map_err, psafe_read_u16|]. intros _ _.
  eapply psafe0_bind; [apply psafe_pq, psafe_fill|]. intros _ _.
  eapply psafe0_bind; [apply psafe_map_err, psafe_read_u8|]. intros sl _.
  eapply psafe0_bind; [apply psafe_map_err, psafe_slice|]. intros _ _.
  eapply psafe0_bind; [apply psafe_map_err|intros _ _].
  { apply (psafe_bind_l _ _ _ _ psafe_read_u16). intros; eapply psafe0_intro; apply psafe_of_code. }
  eapply psafe0_bind; [apply psafe_pq, psafe_read_u8|]. intros _ _.
  eapply psafe0_intro, psafe_ext_vector, safe_grp_server_hello.
Qed.

Lemma safe_encrypted_extensions : psafe0 parse_encrypted_extensions.
Proof.
  eapply psafe0_bind; [apply psafe_ext_vector, safe_grp_encrypted_ext|]. intros; apply psafe0_ret.
Qed.

Lemma safe_new_session_ticket : psafe0 parse_new_session_ticket.
Proof.
  unfold parse_new_session_ticket.
  eapply psafe0_bind; [apply psafe_pq, psafe_read_u32|]. intros _ _.
  eapply psafe0_bind; [apply psafe_pq, psafe_read_u32|]. intros _ _.
  eapply psafe0_bind; [apply psafe_pq, psafe_read_u8|]. intros nl _.
  eapply psafe0_bind; [apply psafe_map_err, psafe_slice|]. intros _ _.
  eapply psafe0_bind; [apply psafe_pq, psafe_read_u16|]. intros tl _.
  eapply psafe0_bind; [apply psafe_map_err, psafe_slice|]. intros _ _.
  eapply psafe0_bind; [apply psafe_ext_vector, safe_grp_new_session_ticket|]. intros; apply psafe0_ret.
Qed.

Lemma safe_cert_entry : psafe 3 any parse_cert_entry.
Proof.
  unfold parse_cert_entry.
  eapply psafe_bind_l; [apply psafe_map_err, psafe_read_u24|]. intros n _.
  eapply psafe0_bind; [apply psafe_map_err, psafe_slice|]. intros c _.
  eapply psafe0_bind; [apply psafe_ext_vector, safe_grp_certificate|]. intros; apply psafe0_ret.
Qed.

Lemma cert_entries_loop_safe cap : forall fuel acc d, pwf d -> length (pb_buf d) - pb_pos d < fuel ->
  match cert_entries_loop fuel cap acc d with Ok _ | Err _ => True | _ => False end.
Proof.
  induction fuel as [|fuel IH]; intros acc d Hd Hf; [lia|].
  cbn [cert_entries_loop]. destruct (pb_is_empty d) eqn:He; [exact I|].
  pose proof (safe_cert_entry d Hd) as Hr.
  destruct (parse_cert_entry d) as [[t|e|x| |] d']; try contradiction; [|exact I].
  destruct (length acc <? cap); [|exact I]. apply IH; [apply Hr|].
  destruct Hr as (Hb & Hp & Hw & _). unfold pwf in *. rewrite Hb.
  unfold pb_is_empty in He. apply Nat.eqb_neq in He. lia.
Qed.

Lemma parse_cert_entries_safe cap d : pwf d ->
  match parse_cert_entries cap d with Ok _ | Err _ => True | _ => False end.
Proof. intros Hd. unfold parse_cert_entries. apply cert_entries_loop_safe; [assumption|lia]. Qed.

Lemma safe_certificate : psafe0 parse_certificate.
Proof.
  unfold parse_certificate.
  eapply psafe0_bind; [apply psafe_map_err, psafe_read_u8|]. intros cl _.
  eapply psafe0_bind; [apply psafe_map_err, psafe_slice|]. intros ctx _.
  eapply psafe0_bind; [apply psafe_map_err, psafe_read_u24|]. intros el _.
  eapply psafe0_bind; [apply psafe_map_err, psafe_slice|]. intros raw [Hr0 Hrl].
  eapply (psafe0_bind 0 any); [|intros; apply psafe0_ret].
  apply psafe_lift. pose proof (parse_cert_entries_safe 16 raw ltac:(unfold pwf; lia)) as H.
  destruct (parse_cert_entries 16 raw); try exact I; contradiction.
Qed.

Lemma safe_certificate_request : psafe0 parse_certificate_request.
Proof.
  unfold parse_certificate_request.
  eapply psafe0_bind; [apply psafe_map_err, psafe_read_u8|]. intros cl _.
  eapply psafe0_bind; [apply psafe_map_err, psafe_slice|]. intros ctx _.
  eapply psafe0_bind; [apply psafe_ext_vector, safe_grp_cert_request|]. intros; apply psafe0_ret.
Qed.

Lemma safe_certificate_verify : psafe0 parse_certificate_verify.
Proof.
  unfold parse_certificate_verify.
  eapply psafe0_bind; [apply psafe_map_err, safe_sig_scheme|]. intros s _.
  eapply psafe0_bind; [apply psafe_map_err, psafe_read_u16|]. intros n _.
  eapply psafe0_bind; [apply psafe_map_err, psafe_slice|]. intros; apply psafe0_ret.
Qed.

Lemma safe_finished C : psafe0 (parse_finished C).
Proof. eapply psafe0_bind; [apply psafe_pq, psafe_fill|]. intros; apply psafe0_ret. Qed.

Lemma safe_server_handshake C : psafe 4 any (parse_server_handshake C).
Proof.
  unfold parse_server_handshake. change 4 with (1 + 3).
  eapply psafe_bind.
  { apply psafe_map_err. apply (psafe_bind_l _ _ _ _ psafe_read_u8).
    intros; eapply psafe0_intro; apply psafe_of_code. }
  intros t _. eapply psafe_bind_l; [apply psafe_map_err, psafe_read_u24|]. intros _ _.
  destruct t; try apply psafe0_fail;
    (eapply psafe0_bind;
       [first [apply safe_server_hello | apply safe_new_session_ticket
              | apply safe_encrypted_extensions | apply safe_certificate
              | apply safe_certificate_request | apply safe_certificate_verify
              | apply safe_finished]
       |intros; apply psafe0_ret]).
Qed.

(** [ServerHandshake::read]: also gives the bytes added to the transcript. *)
Lemma read_server_handshake_spec C tr p : pwf p ->
  match read_server_handshake C tr p with
  | (Ok (h, tr'), p') =>
      pb_buf p' = pb_buf p /\ pb_pos p + 4 <= pb_pos p' /\ pwf p' /\
      tr' = tr ++ sub (pb_buf p) (pb_pos p) (pb_pos p' - pb_pos p)
  | (Err e, p') => pb_buf p' = pb_buf p /\ pb_pos p <= pb_pos p' /\ pwf p'
  | _ => False
  end.
Proof.
  intros Hp. unfold read_server_handshake. unfold bind at 1. cbn [gets].
  unfold bind at 1. pose proof (safe_server_handshake C p Hp) as H.
  destruct (parse_server_handshake C p) as [[h|e|x| |] p']; try contradiction; [|assumption].
  destruct H as (Hb & Hpos & Hw & _). unfold bind, gets, lift, pb_offset, pb_as_slice, ret.
  rewrite slice_rng_ok by (unfold pwf in *; lia).
  rewrite Hb. repeat split; auto.
Qed.

(** ** Records *)

Lemma safe_alert : psafe0 parse_alert.
Proof.
  unfold parse_alert.
  eapply psafe0_bind; [apply psafe_pq, psafe_read_u8|]. intros l _.
  eapply psafe0_bind; [apply psafe_pq, psafe_read_u8|]. intros d _.
  eapply (psafe0_bind 0 any); [apply psafe_lift; destruct (alert_level_of _); exact I|]. intros l' _.
  eapply (psafe0_bind 0 any); [apply psafe_lift; destruct (alert_desc_of _); exact I|]. intros d' _.
  apply psafe0_ret.
Qed.

Lemma pwf_new b : pwf (pb_new b).
Proof. unfold pwf; cbn; lia. Qed.

Lemma hdr_content_length_ok h : length h = 5 ->
  exists n, hdr_content_length h = Ok n /\ n = N.to_nat (be_val (skipn 3 h)) /\ n <= N.to_nat 65535.
Proof.
  intros Hl. destruct h as [|a [|b [|c [|d [|e [|]]]]]]; try discriminate.
  eexists. split; [reflexivity|]. split; [reflexivity|].
  pose proof (be_val_lt [d; e]) as H. cbn [length] in H. change (256 ^ N.of_nat 2)%N with 65536%N in H. lia.
Qed.

Lemma sr_decode_safe C h off data tr :
  length h = 5 -> hdr_decode h = Ok h -> hdr_content_length h = Ok (length data) ->
  match sr_decode C h off data tr with Ok _ | Err _ => True | _ => False end.
Proof.
  intros Hl Hd Hn. unfold sr_decode. rewrite Hn. cbn [obind]. rewrite Nat.eqb_refl. cbn [negb].
  assert (Ht : exists t, hdr_content_type h = Ok t).
  { revert Hd. unfold hdr_decode, hdr_content_type. destruct (index h 0); cbn; try discriminate.
    destruct (content_type_of _); cbn; try discriminate; eauto. }
  destruct Ht as [t ->]. cbn [obind]. destruct t; try exact I.
  - pose proof (safe_alert (pb_new data) (pwf_new data)) as H.
    destruct (parse_alert (pb_new data)) as [[a|e|x| |] p']; try contradiction; exact I.
  - pose proof (read_server_handshake_spec C tr (pb_new data) (pwf_new data)) as H.
    destruct (read_server_handshake C tr (pb_new data)) as [[[a b]|e|x| |] p']; try contradiction; exact I.
Qed.
