(** * C04 and C05: the outgoing buffer *)
From Coq Require Import List NArith Arith Bool Lia ZArith.
From Coq.Strings Require Import Byte.
From Verif Require Import Base Buffer BaseProofs SpecWire WireProofs SpecBuffer BufferProofs.
Import ListNotations.

(** ** Representation *)

Lemma skipn_len_app {A} (a b : list A) n : n = length a -> skipn n (a ++ b) = b.
Proof. intros ->. now rewrite skipn_app, skipn_all, Nat.sub_diag. Qed.

Lemma appended_intro Pr R off len bs R2 : length Pr = off + len -> R2 = skipn (length bs) R ->
  length bs <= length R ->
  appended (mk_cbuf (Pr ++ R) off len) (mk_cbuf (Pr ++ bs ++ R2) off (len + length bs)) bs.
Proof.
  intros Hl -> Hle. unfold appended, in_bounds, before, window, after. cbn [cb_buf cb_off cb_len].
  rewrite !app_length, skipn_length. repeat split; try lia.
  - rewrite !firstn_app. replace (off - length Pr) with 0 by lia. now cbn.
  - assert (Hlen : length (skipn off Pr) = len) by (rewrite skipn_length; lia).
    rewrite !skipn_app. replace (off - length Pr) with 0 by lia. cbn [skipn].
    rewrite app_assoc, firstn_app.
    rewrite (firstn_all2 (skipn off Pr ++ bs)) by (rewrite app_length; lia).
    replace (len + length bs - length (skipn off Pr ++ bs)) with 0 by (rewrite app_length; lia).
    cbn [firstn]. rewrite app_nil_r. f_equal.
    rewrite firstn_app, Hlen, Nat.sub_diag. cbn [firstn].
    rewrite app_nil_r. symmetry. apply firstn_all2. lia.
  - rewrite (app_assoc Pr bs), (skipn_len_app (Pr ++ bs)) by (rewrite app_length; lia).
    now rewrite (skipn_len_app Pr) by lia.
Qed.

Lemma appended_repr c c' bs : in_bounds c -> appended c c' bs ->
  length bs <= length (after c) /\
  c' = mk_cbuf (before c ++ window c ++ bs ++ skipn (length bs) (after c)) (cb_off c)
         (cb_len c + length bs).
Proof.
  intros Hb (Ho & Hl & Hb' & Hbe & Hw & Ha).
  assert (Hlen : cb_len c' = cb_len c + length bs).
  { apply (f_equal (@length _)) in Hw. unfold window in Hw. rewrite app_length in Hw.
    rewrite !firstn_length, !skipn_length in Hw. unfold in_bounds in *. lia. }
  assert (Hroom : length bs <= length (after c)).
  { unfold after. rewrite skipn_length. unfold in_bounds in *. lia. }
  split; [exact Hroom|].
  destruct c' as [b' o' l']. cbn [cb_off cb_len cb_buf] in *. subst o' l'. f_equal.
  rewrite <- (firstn_skipn (cb_off c) b'). change (firstn (cb_off c) b') with (before (mk_cbuf b' (cb_off c) (cb_len c + length bs))).
  rewrite Hbe. f_equal.
  rewrite <- (firstn_skipn (cb_len c + length bs) (skipn (cb_off c) b')).
  change (firstn (cb_len c + length bs) (skipn (cb_off c) b'))
    with (window (mk_cbuf b' (cb_off c) (cb_len c + length bs))).
  rewrite Hw, <- app_assoc. do 2 f_equal. rewrite <- Ha. unfold after. cbn [cb_buf cb_off cb_len].
  rewrite skipn_skipn. f_equal. lia.
Qed.

Lemma in_bounds_split c : in_bounds c ->
  c = mk_cbuf ((before c ++ window c) ++ after c) (cb_off c) (cb_len c) /\
  length (before c ++ window c) = cb_off c + cb_len c.
Proof.
  intros H. unfold before, window, after, in_bounds in *. split.
  - rewrite <- app_assoc. replace (skipn (cb_off c + cb_len c) (cb_buf c))
      with (skipn (cb_len c) (skipn (cb_off c) (cb_buf c))) by (rewrite skipn_skipn; f_equal; lia).
    rewrite !firstn_skipn. now destruct c.
  - rewrite app_length, !firstn_length, skipn_length. lia.
Qed.

Lemma appended_bound c c' bs : in_bounds c -> appended c c' bs -> length bs <= length (after c).
Proof. intros H1 H2. now apply (appended_repr c c' bs). Qed.

Lemma encodes_appended {A} (m : W A) bs a c : encodes m bs a -> in_bounds c ->
  (length bs <= length (after c) -> exists c', m c = (Ok a, c') /\ appended c c' bs) /\
  (length (after c) < length bs -> exists e c' more, m c = (Err e, c') /\ space_error e /\
     in_bounds c' /\ cb_off c' = cb_off c /\ length (cb_buf c') = length (cb_buf c) /\
     before c' = before c /\ window c' = window c ++ more).
Proof.
  intros H Hb. destruct (in_bounds_split c Hb) as [Hc Hl].
  pose proof (f_equal m Hc) as Hm. rewrite Hm; clear Hm.
  destruct (H (before c ++ window c) (after c) (cb_off c) (cb_len c) Hl) as [H1 H2]. split.
  - intros Hle. eexists. split; [apply H1, Hle|]. rewrite Hc at 1. now apply appended_intro.
  - intros Hgt. destruct (H2 Hgt) as (e & R' & len' & He & Hs & HR & Hl1 & Hl2).
    exists e, (mk_cbuf ((before c ++ window c) ++ R') (cb_off c) len'), (firstn (len' - cb_len c) R').
    assert (Hbl : length (before c) = cb_off c) by (unfold before, in_bounds in *; rewrite firstn_length; lia).
    assert (Hwl : length (window c) = cb_len c) by (rewrite app_length in Hl; lia).
    assert (Htot : length (cb_buf c) = cb_off c + cb_len c + length (after c)).
    { unfold after. rewrite skipn_length. unfold in_bounds in Hb. lia. }
    repeat split; auto.
    + unfold in_bounds. cbn [cb_buf cb_off cb_len]. rewrite !app_length. lia.
    + cbn [cb_buf]. rewrite !app_length. lia.
    + unfold before at 1. cbn [cb_buf cb_off]. rewrite <- app_assoc, <- Hbl, firstn_app, firstn_all, Nat.sub_diag.
      cbn [firstn]. now rewrite app_nil_r.
    + unfold window at 1. cbn [cb_buf cb_off cb_len]. rewrite <- app_assoc, <- Hbl, skipn_app, skipn_all, Nat.sub_diag.
      cbn [skipn app]. rewrite firstn_app, Hwl. f_equal. apply firstn_all2. lia.
Qed.

(** ** C05 *)

(** The model's function for each single write. *)
Definition exec1 (w : write1) : W unit :=
  match w with
  | WPush b => cb_push b
  | WBytes bs => cb_extend bs
  | WU16 n => cb_push_u16 n
  | WU24 n => cb_push_u24 n
  | WU32 n => cb_push_u32 n
  end.

Lemma encodes_exec1 w : encodes (exec1 w) (image1 w) tt.
Proof.
  destruct w; cbn [exec1 image1]; rewrite ?uint_be16, ?uint_be24, ?uint_be32.
  - apply encodes_push.
  - apply encodes_extend.
  - apply encodes_u16.
  - apply encodes_u24.
  - apply encodes_u32.
Qed.

Lemma extend_refused bs c : in_bounds c -> length (after c) < length bs ->
  cb_extend bs c = (Err InsufficientSpace, c).
Proof.
  intros Hb Hgt. unfold cb_extend, cb_space, cb_capacity. unfold in_bounds, after in *.
  rewrite skipn_length in Hgt. rewrite usize_sub_ok by lia.
  now rewrite (proj2 (Nat.ltb_lt _ _)) by lia.
Qed.

(** A single write appends its bytes if there is room; otherwise it reports
    InsufficientSpace and changes nothing. *)
Theorem C05_single_write : forall w c, in_bounds c ->
  (length (image1 w) <= length (after c) ->
     exists c', exec1 w c = (Ok tt, c') /\ appended c c' (image1 w)) /\
  (length (after c) < length (image1 w) -> exec1 w c = (Err InsufficientSpace, c)).
Proof.
  intros w c Hb. split.
  - apply (encodes_appended _ _ _ c (encodes_exec1 w) Hb).
  - intros Hgt. destruct w; cbn [exec1 image1] in *;
      try (unfold cb_push_u16, cb_push_u24, cb_push_u32; apply extend_refused; [assumption|];
           rewrite ?uint_length in Hgt; exact Hgt).
    unfold cb_push, cb_space, cb_capacity. unfold in_bounds, after in *. rewrite skipn_length in Hgt.
    cbn [length] in Hgt. rewrite usize_sub_ok by lia.
    now rewrite (proj2 (Nat.ltb_ge _ _)) by lia.
Qed.
Print Assumptions C05_single_write.

(** Any sequence of single writes, the caller carrying on after refusals: the buffer holds
    exactly the writes that fitted, in order; nothing else of the slice changed. *)
Fixpoint run_writes (l : list write1) (c : cbuf) : cbuf :=
  match l with
  | [] => c
  | w :: r => run_writes r (snd (exec1 w c))
  end.

Lemma appended_refl c : in_bounds c -> appended c c [].
Proof.
  intros H. unfold appended. repeat split; auto. now rewrite app_nil_r.
Qed.

Lemma appended_trans c c1 c2 b1 b2 : appended c c1 b1 -> appended c1 c2 b2 -> appended c c2 (b1 ++ b2).
Proof.
  intros (H1 & H2 & H3 & H4 & H5 & H6) (G1 & G2 & G3 & G4 & G5 & G6).
  unfold appended. repeat split; auto; try congruence.
  - rewrite G5, H5. now rewrite app_assoc.
  - rewrite G6, H6, skipn_skipn. f_equal. rewrite app_length. lia.
Qed.

Theorem C05_history : forall l c, in_bounds c ->
  appended c (run_writes l c) (concat (map image1 (served (length (after c)) l))).
Proof.
  induction l as [|w l IH]; intros c Hb; cbn [run_writes served].
  - now apply appended_refl.
  - destruct (C05_single_write w c Hb) as [H1 H2].
    destruct (Nat.leb_spec (length (image1 w)) (length (after c))) as [Hle|Hgt].
    + destruct (H1 Hle) as (c' & -> & Ha). cbn [snd map concat].
      assert (Hb' : in_bounds c') by apply Ha.
      eapply appended_trans; [exact Ha|]. specialize (IH c' Hb').
      replace (length (after c')) with (length (after c) - length (image1 w)) in IH; [exact IH|].
      destruct Ha as (_ & _ & _ & _ & _ & ->). now rewrite skipn_length.
    + rewrite (H2 Hgt). cbn [snd]. now apply IH.
Qed.
Print Assumptions C05_history.

(** Any composite writer ([?] after each part). *)
Fixpoint exec (w : writer) : W unit :=
  match w with
  | WSkip => ret tt
  | WOne w => exec1 w
  | WSeq a b => exec a ;;; exec b
  | WLen8 b => with_u8_length (exec b)
  | WLen16 b => with_u16_length (exec b)
  | WLen24 b => with_u24_length (exec b)
  end.

Lemma vec_be b : vec 1 b = b8 (N.of_nat (length b)) :: b /\
  vec 2 b = be16 (N.of_nat (length b)) ++ b /\ vec 3 b = be24 (N.of_nat (length b)) ++ b.
Proof. unfold vec. now rewrite uint_b8, uint_be16, uint_be24. Qed.

Lemma encodes_exec w : encodes (exec w) (image w) tt.
Proof.
  induction w; cbn [exec image].
  - apply encodes_ret.
  - apply encodes_exec1.
  - eapply encodes_bind; eassumption.
  - rewrite (proj1 (vec_be _)). now apply encodes_with_u8.
  - rewrite (proj1 (proj2 (vec_be _))). now apply encodes_with_u16.
  - rewrite (proj2 (proj2 (vec_be _))). now apply encodes_with_u24.
Qed.

Theorem C05_writer : forall w c, in_bounds c ->
  (length (image w) <= length (after c) ->
     exists c', exec w c = (Ok tt, c') /\ appended c c' (image w)) /\
  (length (after c) < length (image w) ->
     exists e c' more, exec w c = (Err e, c') /\ space_error e /\ in_bounds c' /\
       cb_off c' = cb_off c /\ length (cb_buf c') = length (cb_buf c) /\
       before c' = before c /\ window c' = window c ++ more).
Proof. intros w c Hb. apply encodes_appended; [apply encodes_exec|assumption]. Qed.
Print Assumptions C05_writer.

(** ** C04 *)

(** A body writer that only appends (on success), whatever it appends. *)
Definition appends_only {A} (op : W A) : Prop :=
  forall c a c', in_bounds c -> op c = (Ok a, c') -> exists bs, appended c c' bs.

Lemma with_length_ok {A} (k : nat) (push : W unit) (z : bytes) (set : nat -> nat -> W unit)
    (enc : nat -> bytes) (op : W A) c a c' :
  0 < k -> length z = k -> (forall d, length (enc d) = k) ->
  encodes push z tt ->
  (forall Pr R off len idx d z', length z' = k -> length Pr = off + idx -> idx + k <= len ->
     set idx d (mk_cbuf (Pr ++ z' ++ R) off len) = (Ok tt, mk_cbuf (Pr ++ enc d ++ R) off len)) ->
  appends_only op -> in_bounds c ->
  (len_pos <- gets cb_len ;; push ;;; start <- gets cb_len ;; r <- op ;;
           len <- gets cb_len ;; d <- lift (usize_sub len start) ;; set len_pos d ;;; ret r) c
  = (Ok a, c') ->
  exists body c0 c1, in_bounds c0 /\ op c0 = (Ok a, c1) /\ appended c0 c1 body /\
    appended c c' (enc (length body) ++ body).
Proof.
  intros Hk Hz Henc Hpush Hset Hop Hb H.
  apply bind_ok in H as (lp & s0 & H0 & H). inversion H0; subst lp s0; clear H0.
  apply bind_ok in H as ([] & c0 & H0 & H).
  destruct (encodes_appended _ _ _ c Hpush Hb) as [Hp1 Hp2].
  destruct (le_lt_dec (length z) (length (after c))) as [Hle|Hgt].
  2:{ destruct (Hp2 Hgt) as (e & c1 & _ & He & _). congruence. }
  destruct (Hp1 Hle) as (c0' & Hc0 & Ha0). rewrite Hc0 in H0. inversion H0; subst c0'; clear H0.
  assert (Hb0 : in_bounds c0) by apply Ha0.
  apply bind_ok in H as (st & s0 & H0 & H). inversion H0; subst st s0; clear H0.
  apply bind_ok in H as (r & c1 & H0 & H).
  destruct (Hop c0 r c1 Hb0 H0) as [body Ha1].
  apply bind_ok in H as (l & s0 & H1 & H). inversion H1; subst l s0; clear H1.
  apply bind_ok in H as (d & s0 & H1 & H). unfold lift in H1.
  apply bind_ok in H as ([] & c2 & H2 & H). inversion H; subst a c2; clear H.
  exists body, c0, c1. split; [exact Hb0|]. split; [exact H0|]. split; [exact Ha1|].
  destruct (in_bounds_split c Hb) as [Hc Hl].
  destruct (appended_repr c c0 z Hb Ha0) as [Hz1 Hc0r].
  destruct (appended_repr c0 c1 body Hb0 Ha1) as [Hb1 Hc1r].
  destruct Ha0 as (_ & _ & _ & Hbe & Hwi & Haf).
  rewrite Hbe, Hwi, Haf, skipn_skipn in Hc1r. rewrite Haf, skipn_length in Hb1.
  rewrite Hc0r in Hc1r. cbn [cb_off cb_len] in Hc1r.
  rewrite Hc0r, Hc1r in H1. cbn [cb_len] in H1. rewrite usize_sub_ok in H1 by lia.
  inversion H1; subst d s0; clear H1.
  replace (cb_len c + length z + length body - (cb_len c + length z)) with (length body) in H2 by lia.
  rewrite <- ?app_assoc in H2. rewrite (app_assoc (before c)) in H2.
  rewrite Hset in H2 by lia. inversion H2; subst c'; clear H2.
  rewrite Hc at 1. replace (cb_len c + length z + length body)
    with (cb_len c + length (enc (length body) ++ body)) by (rewrite app_length, Henc; lia).
  rewrite (app_assoc (enc (length body))).
  apply appended_intro; [assumption| |rewrite app_length, Henc; lia].
  f_equal. rewrite app_length, Henc. lia.
Qed.

(** The prefix is the length modulo its width, hence the length itself when the body fits. *)
Theorem C04_u8 : forall A (op : W A) c a c', appends_only op -> in_bounds c ->
  with_u8_length op c = (Ok a, c') ->
  exists body c0 c1, in_bounds c0 /\ op c0 = (Ok a, c1) /\ appended c0 c1 body /\
    appended c c' (uint 1 (N.of_nat (length body) mod 256) ++ body) /\
    (length body < 256 -> appended c c' (vec 1 body)).
Proof.
  intros A op c a c' Hop Hb H.
  destruct (with_length_ok 1 (cb_push x00) [x00] (fun i d => cb_set i (b8 (N.of_nat d)))
              (fun d => [b8 (N.of_nat d)]) op c a c') as (body & c0 & c1 & H1 & H2 & H3 & H4); auto.
  - apply encodes_push.
  - intros Pr R off len idx d z' Hz Hl Hi. destruct z' as [|x [|]]; try discriminate.
    cbn [app]. apply cb_set_at; lia.
  - exists body, c0, c1. do 3 (split; [assumption|]). unfold vec. rewrite !uint_b8. split.
    + replace (b8 (N.of_nat (length body) mod 256)) with (b8 (N.of_nat (length body))); [assumption|].
      apply b8_ext. now rewrite N.mod_mod.
    + intros _. exact H4.
Qed.
Print Assumptions C04_u8.

Theorem C04_u16 : forall A (op : W A) c a c', appends_only op -> in_bounds c ->
  with_u16_length op c = (Ok a, c') ->
  exists body c0 c1, in_bounds c0 /\ op c0 = (Ok a, c1) /\ appended c0 c1 body /\
    appended c c' (uint 2 (N.of_nat (length body) mod 65536) ++ body) /\
    ((N.of_nat (length body) < 65536)%N -> appended c c' (vec 2 body)).
Proof.
  intros A op c a c' Hop Hb H.
  destruct (with_length_ok 2 (cb_push_u16 0) (be16 0) (fun i d => cb_set_u16 i (N.of_nat d mod 65536))
              (fun d => be16 (N.of_nat d)) op c a c') as (body & c0 & c1 & H1 & H2 & H3 & H4); auto.
  - apply encodes_u16.
  - intros Pr R off len idx d z' Hz Hl Hi. destruct z' as [|x [|y [|]]]; try discriminate.
    cbn [app]. rewrite cb_set_u16_at by lia. now rewrite be16_mod.
  - exists body, c0, c1. do 3 (split; [assumption|]). unfold vec. rewrite !uint_be16. split.
    + now rewrite be16_mod.
    + intros _. exact H4.
Qed.
Print Assumptions C04_u16.

Theorem C04_u24 : forall A (op : W A) c a c', appends_only op -> in_bounds c ->
  with_u24_length op c = (Ok a, c') ->
  exists body c0 c1, in_bounds c0 /\ op c0 = (Ok a, c1) /\ appended c0 c1 body /\
    appended c c' (uint 3 (N.of_nat (length body) mod 16777216) ++ body) /\
    ((N.of_nat (length body) < 16777216)%N -> appended c c' (vec 3 body)).
Proof.
  intros A op c a c' Hop Hb H.
  destruct (with_length_ok 3 (cb_push_u24 0) (be24 0) (fun i d => cb_set_u24 i (N.of_nat d mod 4294967296))
              (fun d => be24 (N.of_nat d)) op c a c') as (body & c0 & c1 & H1 & H2 & H3 & H4); auto.
  - apply encodes_u24.
  - intros Pr R off len idx d z' Hz Hl Hi. destruct z' as [|x [|y [|w [|]]]]; try discriminate.
    cbn [app]. rewrite cb_set_u24_at by lia. now rewrite be24_mod.
  - exists body, c0, c1. do 3 (split; [assumption|]). unfold vec. rewrite !uint_be24. split.
    + replace (be24 (N.of_nat (length body) mod 16777216)) with (be24 (N.of_nat (length body))); [assumption|].
      apply be_val_inj; [reflexivity|]. rewrite !be_val_be24. now rewrite N.mod_mod.
    + intros _. exact H4.
Qed.
Print Assumptions C04_u24.

(** ... and a prefix that parses to the right length only exists when the body fits:
    with more than 255 bytes an 8-bit prefix is wrong. *)
Theorem C04_truncation_malformed : forall body : bytes, 256 <= length body ->
  be_val (uint 1 (N.of_nat (length body) mod 256)) <> N.of_nat (length body).
Proof.
  intros body H. rewrite be_val_uint_small.
  - pose proof (N.mod_upper_bound (N.of_nat (length body)) 256). lia.
  - change (256 ^ N.of_nat 1)%N with 256%N. apply N.mod_upper_bound. discriminate.
Qed.
Print Assumptions C04_truncation_malformed.

(** ** Concrete cases *)
Definition ex_c : cbuf := mk_cbuf [xaa; xbb; x00; x00; x00; x00; x00; x00] 1 1.
Example C05_ex_in_bounds : in_bounds ex_c. Proof. unfold in_bounds; cbn; lia. Qed.
Example C05_ex_writer :
  exec (WLen16 (WSeq (WOne (WPush x07)) (WLen8 (WOne (WBytes [x01; x02]))))) ex_c
  = (Ok tt, mk_cbuf [xaa; xbb; x00; x04; x07; x02; x01; x02] 1 7).
Proof. reflexivity. Qed.
Example C05_ex_served :
  map image1 (served 6 [WU32 1; WU24 2; WU16 3; WPush x01]) = [[x00; x00; x00; x01]; [x00; x03]].
Proof. reflexivity. Qed.
Example C04_ex : appends_only (cb_extend [x01; x02; x03]) /\
  with_u16_length (cb_extend [x01; x02; x03]) ex_c
  = (Ok tt, mk_cbuf [xaa; xbb; x00; x03; x01; x02; x03; x00] 1 6).
Proof.
  split; [|reflexivity]. intros c [] c' Hb H.
  destruct (encodes_appended _ _ _ c (encodes_extend [x01; x02; x03]) Hb) as [H1 H2].
  destruct (le_lt_dec (length [x01; x02; x03]) (length (after c))) as [Hle|Hgt].
  - destruct (H1 Hle) as (c1 & Hc & Ha). rewrite Hc in H. inversion H; subst. eauto.
  - destruct (H2 Hgt) as (e & c1 & _ & He & _). congruence.
Qed.
