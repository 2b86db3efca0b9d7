(** * The outgoing buffer: every writer appends a known byte string *)
From Coq Require Import List NArith Arith Bool Lia ZArith.
From Coq.Strings Require Import Byte.
From Coq Require Import ZifyBool ZifyNat ZifyN.
From Verif Require Import Base Buffer Extensions BaseProofs SpecWire WireProofs.
Import ListNotations.

Ltac Zify.zify_post_hook ::= Z.div_mod_to_equations.

Definition space_error (e : tls_error) : Prop := e = InsufficientSpace \/ e = EncodeError.

(** [encodes m bs a]: on a buffer whose written part is [P] and whose free part is [R], [m]
    appends exactly [bs] and returns [a] when [bs] fits; otherwise it reports an
    out-of-space error and [P] is intact. *)
Definition encodes {A} (m : W A) (bs : bytes) (a : A) : Prop :=
  forall Pr R off len, length Pr = off + len ->
    (length bs <= length R ->
       m (mk_cbuf (Pr ++ R) off len)
       = (Ok a, mk_cbuf (Pr ++ bs ++ skipn (length bs) R) off (len + length bs))) /\
    (length R < length bs ->
       exists e R' len', m (mk_cbuf (Pr ++ R) off len) = (Err e, mk_cbuf (Pr ++ R') off len')
         /\ space_error e /\ length R' = length R /\ len <= len' /\ len' <= len + length R).

Lemma encodes_ret {A} (a : A) : encodes (ret a) [] a.
Proof.
  intros Pr R off len Hl. split; [|cbn; lia]. intros _. unfold ret. cbn. now rewrite Nat.add_0_r.
Qed.

Lemma encodes_bind {A B} (m : W A) (f : A -> W B) b1 b2 a b :
  encodes m b1 a -> encodes (f a) b2 b -> encodes (bind m f) (b1 ++ b2) b.
Proof.
  intros H1 H2 Pr R off len Hl. rewrite app_length. unfold bind.
  destruct (H1 Pr R off len Hl) as [H1a H1b].
  destruct (le_lt_dec (length b1) (length R)) as [Hle|Hgt].
  - rewrite (H1a Hle).
    destruct (H2 (Pr ++ b1) (skipn (length b1) R) off (len + length b1)) as [H2a H2b].
    { rewrite app_length. lia. }
    rewrite skipn_length in *. rewrite <- app_assoc in *. split.
    + intros Hfit. rewrite H2a by lia.
      rewrite skipn_skipn, <- !app_assoc, (Nat.add_comm (length b2)), Nat.add_assoc. reflexivity.
    + intros Hno. destruct H2b as (e & R' & len' & He & Hs & HR & Hl1 & Hl2); [lia|].
      exists e, (b1 ++ R'), len'. rewrite He. rewrite <- app_assoc, app_length.
      repeat split; auto; lia.
  - destruct (H1b Hgt) as (e & R' & len' & -> & Hs & HR & Hl1 & Hl2).
    split; [lia|]. intros _. exists e, R', len'. repeat split; auto.
Qed.

Lemma encodes_bind_nil {A B} (m : W A) (f : A -> W B) b1 a b :
  encodes m b1 a -> encodes (f a) [] b -> encodes (bind m f) b1 b.
Proof. intros. rewrite <- (app_nil_r b1). eapply encodes_bind; eauto. Qed.

Lemma encodes_eq {A} (m : W A) b1 b2 a : b1 = b2 -> encodes m b1 a -> encodes m b2 a.
Proof. now intros ->. Qed.

Lemma encodes_enc_err {A} (m : W A) bs a : encodes m bs a -> encodes (enc_err m) bs a.
Proof.
  intros H Pr R off len Hl. destruct (H Pr R off len Hl) as [Ha Hb].
  unfold enc_err, map_err. split.
  - intros Hle. now rewrite (Ha Hle).
  - intros Hgt. destruct (Hb Hgt) as (e & R' & len' & -> & Hs & Hrest).
    exists EncodeError, R', len'. split; [reflexivity|]. split; [now right|assumption].
Qed.

Lemma cb_space_eq E Pr R off len : length Pr = off + len ->
  cb_space (E:=E) (mk_cbuf (Pr ++ R) off len) = Ok (length R).
Proof.
  intros Hl. unfold cb_space, cb_capacity. cbn [cb_buf cb_off cb_len].
  rewrite usize_sub_ok; rewrite app_length; [f_equal; lia|lia].
Qed.

Lemma splice_at {A} (Pr bs R : list A) : length bs <= length R ->
  splice (Pr ++ R) (length Pr) bs = Pr ++ bs ++ skipn (length bs) R.
Proof.
  intros H. unfold splice. rewrite firstn_app, firstn_all, Nat.sub_diag. cbn [firstn]. rewrite app_nil_r.
  do 2 f_equal. rewrite skipn_app, skipn_all2 by lia. cbn [app]. f_equal. lia.
Qed.

Lemma encodes_extend bs : encodes (cb_extend bs) bs tt.
Proof.
  intros Pr R off len Hl. unfold cb_extend. rewrite cb_space_eq by assumption.
  cbn [cb_buf cb_off cb_len]. split.
  - intros Hle. rewrite (proj2 (Nat.ltb_ge _ _) Hle).
    rewrite set_rng_ok by (rewrite app_length; lia).
    rewrite <- Hl. now rewrite splice_at.
  - intros Hgt. rewrite (proj2 (Nat.ltb_lt _ _) Hgt).
    exists InsufficientSpace, R, len. repeat split; auto; try lia. now left.
Qed.

Lemma encodes_push v : encodes (cb_push v) [v] tt.
Proof.
  intros Pr R off len Hl. unfold cb_push. rewrite cb_space_eq by assumption.
  cbn [cb_buf cb_off cb_len length]. split.
  - intros Hle. rewrite (proj2 (Nat.ltb_lt _ _)) by lia.
    rewrite set_index_ok by (rewrite app_length; lia).
    rewrite <- Hl, splice_at by (cbn; lia). reflexivity.
  - intros Hgt. rewrite (proj2 (Nat.ltb_ge _ _)) by lia.
    exists InsufficientSpace, R, len. repeat split; auto; try lia. now left.
Qed.

Lemma encodes_u16 n : encodes (cb_push_u16 n) (be16 n) tt. Proof. apply encodes_extend. Qed.
Lemma encodes_u24 n : encodes (cb_push_u24 n) (be24 n) tt. Proof. apply encodes_extend. Qed.
Lemma encodes_u32 n : encodes (cb_push_u32 n) (be32 n) tt. Proof. apply encodes_extend. Qed.

Lemma cb_set_at Pr x R off len idx v : length Pr = off + idx -> idx < len ->
  cb_set idx v (mk_cbuf (Pr ++ x :: R) off len) = (Ok tt, mk_cbuf (Pr ++ v :: R) off len).
Proof.
  intros Hl Hi. unfold cb_set. cbn [cb_buf cb_off cb_len].
  rewrite (proj2 (Nat.ltb_lt _ _) Hi).
  rewrite set_index_ok by (rewrite app_length; cbn; lia).
  rewrite <- Hl, splice_at by (cbn; lia). reflexivity.
Qed.

Lemma cb_set_u16_at Pr x y R off len idx n : length Pr = off + idx -> idx + 1 < len ->
  cb_set_u16 idx n (mk_cbuf (Pr ++ x :: y :: R) off len) = (Ok tt, mk_cbuf (Pr ++ be16 n ++ R) off len).
Proof.
  intros Hl Hi. unfold cb_set_u16, bind. rewrite cb_set_at by lia.
  change (Pr ++ b8 (n / 256) :: y :: R) with (Pr ++ [b8 (n / 256)] ++ y :: R). rewrite app_assoc.
  rewrite cb_set_at by (rewrite ?app_length; cbn; lia). now rewrite <- app_assoc.
Qed.

Lemma cb_set_u24_at Pr x y z R off len idx n : length Pr = off + idx -> idx + 2 < len ->
  cb_set_u24 idx n (mk_cbuf (Pr ++ x :: y :: z :: R) off len)
  = (Ok tt, mk_cbuf (Pr ++ be24 n ++ R) off len).
Proof.
  intros Hl Hi. unfold cb_set_u24, bind. rewrite cb_set_at by lia.
  change (Pr ++ b8 (n / 65536) :: y :: z :: R) with (Pr ++ [b8 (n / 65536)] ++ y :: z :: R).
  rewrite app_assoc. rewrite cb_set_at by (rewrite ?app_length; cbn; lia).
  change ((Pr ++ [b8 (n / 65536)]) ++ b8 (n / 256) :: z :: R)
    with ((Pr ++ [b8 (n / 65536)]) ++ [b8 (n / 256)] ++ z :: R).
  rewrite app_assoc. rewrite cb_set_at by (rewrite ?app_length; cbn; lia). now rewrite <- !app_assoc.
Qed.

(** The shared part of the three [with_uN_length]: [k] placeholder bytes, the body, then the
    length is stored over the placeholder. *)
Lemma with_length_gen {A} (k : nat) (push : W unit) (z : bytes) (set : nat -> nat -> W unit)
    (enc : nat -> bytes) (op : W A) bs a :
  0 < k -> length z = k -> (forall d, length (enc d) = k) ->
  encodes push z tt ->
  (forall Pr R off len idx d z', length z' = k -> length Pr = off + idx -> idx + k <= len ->
     set idx d (mk_cbuf (Pr ++ z' ++ R) off len) = (Ok tt, mk_cbuf (Pr ++ enc d ++ R) off len)) ->
  encodes op bs a ->
  encodes (len_pos <- gets cb_len ;; push ;;; start <- gets cb_len ;; r <- op ;;
           len <- gets cb_len ;; d <- lift (usize_sub len start) ;; set len_pos d ;;; ret r)
    (enc (length bs) ++ bs) a.
Proof.
  intros Hk Hz Henc Hpush Hset Hop Pr R off len Hl. rewrite app_length, Henc.
  match goal with |- context [?e (mk_cbuf (Pr ++ R) off len)] =>
    remember (e (mk_cbuf (Pr ++ R) off len)) as out eqn:Eo end.
  unfold bind at 1, gets at 1 in Eo. cbn [cb_len] in Eo.
  destruct (Hpush Pr R off len Hl) as [Hp1 Hp2]. rewrite Hz in *.
  destruct (le_lt_dec k (length R)) as [Hle|Hgt].
  2:{ split; [lia|]. intros _. destruct (Hp2 Hgt) as (e & R' & len' & He & Hrest).
      exists e, R', len'. unfold bind at 1 in Eo. rewrite He in Eo. auto. }
  unfold bind at 1 in Eo. rewrite (Hp1 Hle) in Eo.
  unfold bind at 1, gets at 1 in Eo. cbn [cb_len] in Eo.
  assert (Hl2 : length (Pr ++ z) = off + (len + k)) by (rewrite app_length; lia).
  destruct (Hop (Pr ++ z) (skipn k R) off (len + k) Hl2) as [Ho1 Ho2].
  rewrite skipn_length in *. rewrite <- app_assoc in *. split.
  - intros Hfit. unfold bind at 1 in Eo. rewrite Ho1 in Eo by lia.
    unfold bind at 1, gets at 1 in Eo. cbn [cb_len] in Eo.
    unfold bind at 1, lift in Eo. rewrite usize_sub_ok in Eo by lia.
    replace (len + k + length bs - (len + k)) with (length bs) in Eo by lia.
    unfold bind at 1 in Eo. rewrite <- ?app_assoc in Eo.
    rewrite (Hset Pr _ off _ len (length bs) z) in Eo by (rewrite ?app_length; lia).
    unfold ret in Eo. rewrite Eo. rewrite skipn_skipn, <- ?app_assoc.
    rewrite (Nat.add_comm (length bs) k), Nat.add_assoc. reflexivity.
  - intros Hno. destruct Ho2 as (e & R' & len' & He & Hs & HR & Ha & Hb); [lia|].
    exists e, (z ++ R'), len'. unfold bind at 1 in Eo. rewrite He in Eo. rewrite Eo, <- app_assoc, app_length.
    repeat split; auto; lia.
Qed.

Lemma encodes_with_u8 {A} (op : W A) bs a : encodes op bs a ->
  encodes (with_u8_length op) (b8 (N.of_nat (length bs)) :: bs) a.
Proof.
  intros H. unfold with_u8_length.
  apply (with_length_gen 1 (cb_push x00) [x00] (fun i d => cb_set i (b8 (N.of_nat d)))
           (fun d => [b8 (N.of_nat d)])); auto.
  - apply encodes_push.
  - intros Pr R off len idx d z' Hz Hl Hi. destruct z' as [|x [|]]; try discriminate.
    cbn [app]. apply cb_set_at; lia.
Qed.

Lemma encodes_with_u16 {A} (op : W A) bs a : encodes op bs a ->
  encodes (with_u16_length op) (be16 (N.of_nat (length bs)) ++ bs) a.
Proof.
  intros H. unfold with_u16_length.
  apply (with_length_gen 2 (cb_push_u16 0) (be16 0) (fun i d => cb_set_u16 i (N.of_nat d mod 65536))
           (fun d => be16 (N.of_nat d))); auto.
  - apply encodes_u16.
  - intros Pr R off len idx d z' Hz Hl Hi. destruct z' as [|x [|y [|]]]; try discriminate.
    cbn [app]. rewrite cb_set_u16_at by lia. now rewrite be16_mod.
Qed.

Lemma encodes_with_u24 {A} (op : W A) bs a : encodes op bs a ->
  encodes (with_u24_length op) (be24 (N.of_nat (length bs)) ++ bs) a.
Proof.
  intros H. unfold with_u24_length.
  apply (with_length_gen 3 (cb_push_u24 0) (be24 0) (fun i d => cb_set_u24 i (N.of_nat d mod 4294967296))
           (fun d => be24 (N.of_nat d))); auto.
  - apply encodes_u24.
  - intros Pr R off len idx d z' Hz Hl Hi. destruct z' as [|x [|y [|w [|]]]]; try discriminate.
    cbn [app]. rewrite cb_set_u24_at by lia. now rewrite be24_mod.
Qed.

Lemma encodes_for_each {T} (l : list T) (f : T -> W unit) (g : T -> bytes) :
  (forall x, In x l -> encodes (f x) (g x) tt) -> encodes (for_each l f) (concat (map g l)) tt.
Proof.
  induction l as [|x l IH]; intros H; cbn [for_each map concat].
  - apply encodes_ret.
  - eapply encodes_bind; [apply H; now left|]. apply IH. intros y Hy. apply H. now right.
Qed.

(** Conclusions on any well-formed buffer. *)
Definition cwf (c : cbuf) : Prop := cb_off c + cb_len c <= length (cb_buf c).

Lemma cbuf_split c : cwf c ->
  c = mk_cbuf (firstn (cb_off c + cb_len c) (cb_buf c) ++ skipn (cb_off c + cb_len c) (cb_buf c))
        (cb_off c) (cb_len c) /\
  length (firstn (cb_off c + cb_len c) (cb_buf c)) = cb_off c + cb_len c.
Proof.
  intros H. split.
  - rewrite firstn_skipn. now destruct c.
  - rewrite firstn_length. unfold cwf in H. lia.
Qed.
