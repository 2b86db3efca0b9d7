(** * Facts about the record specification *)
From Coq Require Import List NArith Arith Bool Lia ZArith.
From Coq.Strings Require Import Byte.
From Coq Require Import ZifyBool ZifyNat ZifyN.
From Verif Require Import Base Codes Crypto KeySchedule Record WriteBuffer
  BaseProofs SpecWire WireProofs BufferProofs SpecKeys KeyProofs WriteProofs SpecRecord.
Import ListNotations.

Ltac Zify.zify_post_hook ::= Z.div_mod_to_equations.

Lemma rfc_header_length n : length (rfc_header n) = 5.
Proof. unfold rfc_header. now rewrite !app_length, !uint_length. Qed.

Lemma rfc_inner_length ty c pad : length (rfc_inner ty c pad) = length c + 1 + pad.
Proof. unfold rfc_inner. rewrite !app_length, repeat_length. cbn [length]. lia. Qed.

Lemma drop_zeros_repeat n l : drop_zeros (repeat x00 n ++ l) = drop_zeros l.
Proof. induction n; auto. Qed.

Lemma drop_zeros_nz t l : t <> x00 -> drop_zeros (t :: l) = t :: l.
Proof. intros H. destruct t; auto. congruence. Qed.

Lemma rev_repeat {A} (a : A) n : rev (repeat a n) = repeat a n.
Proof.
  induction n; [reflexivity|]. cbn [repeat rev]. rewrite IHn.
  change [a] with (repeat a 1). rewrite <- repeat_app, Nat.add_comm. reflexivity.
Qed.

Lemma unpad_inner ty c pad : ty <> x00 -> rfc_unpad (rfc_inner ty c pad) = Some (ty, c).
Proof.
  intros H. unfold rfc_unpad, rfc_inner. rewrite !rev_app_distr, rev_repeat, <- app_assoc.
  rewrite drop_zeros_repeat. cbn [rev app]. rewrite drop_zeros_nz by assumption.
  now rewrite rev_involutive.
Qed.

Lemma rfc_record_parts C key iv seq ty c pad : crypto_ok C ->
  exists frag, rfc_record C key iv seq ty c pad = rfc_header (length c + 1 + pad + 16) ++ frag /\
    length frag = length c + 1 + pad + 16 /\
    rfc_open C key iv seq (rfc_header (length c + 1 + pad + 16)) frag = Some (rfc_inner ty c pad).
Proof.
  intros HC. unfold rfc_record, rfc_open. rewrite (ok_tag_len C HC), rfc_inner_length.
  set (h := rfc_header _). set (m := rfc_inner ty c pad).
  pose proof (ok_seal_len C HC key (rfc_nonce iv seq) h m) as [H1 H2].
  pose proof (ok_open_seal C HC key (rfc_nonce iv seq) h m) as H3.
  rewrite (ok_tag_len C HC) in H2. unfold m in H1. rewrite rfc_inner_length in H1. fold m in H1.
  destruct (c_seal C key (rfc_nonce iv seq) h m) as [ct tag]. cbn [fst snd] in *.
  exists (ct ++ tag). split; [reflexivity|]. rewrite app_length, H1, H2. split; [lia|].
  rewrite (proj2 (Nat.ltb_ge _ _)) by lia.
  replace (length c + 1 + pad + 16 - 16) with (length ct) by lia.
  rewrite firstn_app, firstn_all, Nat.sub_diag, skipn_app, skipn_all, Nat.sub_diag. cbn [firstn skipn app].
  now rewrite app_nil_r.
Qed.

Lemma rfc_record_length C key iv seq ty c pad : crypto_ok C ->
  length (rfc_record C key iv seq ty c pad) = 5 + (length c + 1 + pad + 16).
Proof.
  intros HC. destruct (rfc_record_parts C key iv seq ty c pad HC) as (f & -> & Hf & _).
  rewrite app_length, rfc_header_length, Hf. reflexivity.
Qed.

Lemma firstn_app_exact {A} (a b : list A) n : length a = n -> firstn n (a ++ b) = a.
Proof. intros <-. now rewrite firstn_app, firstn_all, Nat.sub_diag, app_nil_r. Qed.

Lemma skipn_app_exact {A} (a b : list A) n : length a = n -> skipn n (a ++ b) = b.
Proof. intros <-. now rewrite skipn_app, skipn_all, Nat.sub_diag. Qed.

Lemma peer_loop_fuel C lim key iv : crypto_ok C -> forall f1 f2 seq w,
  length w < f1 -> length w < f2 ->
  peer_loop C lim key iv f1 seq w = peer_loop C lim key iv f2 seq w.
Proof.
  intros HC. induction f1 as [|f1 IH]; intros f2 seq w H1 H2; [lia|]. destruct f2 as [|f2]; [lia|].
  cbn [peer_loop]. destruct (length w <? 5) eqn:E; [reflexivity|]. apply Nat.ltb_ge in E.
  destruct (negb _); [reflexivity|]. destruct (length w <? _) eqn:E2; [reflexivity|].
  destruct (rfc_open _ _ _ _ _ _); [|reflexivity]. destruct (rfc_unpad _) as [[t c]|]; [|reflexivity].
  destruct (lim <? length c); [reflexivity|]. f_equal.
  apply IH; rewrite skipn_length; lia.
Qed.

Lemma peer_read_record C lim key iv seq ty c pad w : crypto_ok C -> ty <> x00 ->
  length c <= lim -> (N.of_nat (length c + 1 + pad + 16) < 65536)%N ->
  peer_read C lim key iv seq (rfc_record C key iv seq ty c pad ++ w)
  = peer_cons (ty, c) (peer_read C lim key iv (seq + 1) w).
Proof.
  intros HC Hty Hlim Hsz. unfold peer_read.
  destruct (rfc_record_parts C key iv seq ty c pad HC) as (f & -> & Hf & Ho).
  set (n := length c + 1 + pad + 16) in *.
  assert (Hw : length ((rfc_header n ++ f) ++ w) = 5 + n + length w)
    by (rewrite !app_length, rfc_header_length, Hf; lia).
  remember (peer_loop C lim key iv (S (length w)) (seq + 1) w) as T eqn:HT.
  rewrite Hw. cbn [peer_loop]. rewrite Hw, (proj2 (Nat.ltb_ge _ _)) by lia.
  rewrite <- app_assoc.
  rewrite (firstn_app_exact (rfc_header n)) by apply rfc_header_length.
  rewrite (skipn_app_exact (rfc_header n)) by apply rfc_header_length.
  assert (H3 : firstn 3 (rfc_header n) = uint 1 23 ++ uint 2 0x0303)
    by (unfold rfc_header; rewrite app_assoc; apply firstn_app_exact; reflexivity).
  assert (H4 : skipn 3 (rfc_header n) = uint 2 (N.of_nat n))
    by (unfold rfc_header; rewrite app_assoc; apply skipn_app_exact; reflexivity).
  rewrite H3, H4.
  rewrite be_val_uint_small by exact Hsz. rewrite Nat2N.id.
  rewrite bytes_eqb_refl. cbn [negb]. rewrite (proj2 (Nat.ltb_ge _ _)) by lia.
  rewrite (firstn_app_exact f) by assumption. rewrite Ho, unpad_inner by assumption.
  rewrite (proj2 (Nat.ltb_ge _ _)) by assumption. f_equal.
  rewrite app_assoc. rewrite (skipn_app_exact (rfc_header n ++ f)) by (rewrite app_length, rfc_header_length; lia).
  subst T. apply peer_loop_fuel; auto; lia.
Qed.

Lemma peer_read_nil C lim key iv seq : peer_read C lim key iv seq [] = ([], Pending []).
Proof. reflexivity. Qed.

(** A strict prefix of a record: nothing is accepted yet. *)
Lemma peer_read_prefix C lim key iv seq ty c pad k : crypto_ok C ->
  (N.of_nat (length c + 1 + pad + 16) < 65536)%N ->
  k < length (rfc_record C key iv seq ty c pad) ->
  peer_read C lim key iv seq (firstn k (rfc_record C key iv seq ty c pad))
  = ([], Pending (firstn k (rfc_record C key iv seq ty c pad))).
Proof.
  intros HC Hsz Hk. pose proof (rfc_record_length C key iv seq ty c pad HC) as Hl.
  destruct (rfc_record_parts C key iv seq ty c pad HC) as (f & He & Hf & _). rewrite He in *.
  set (n := length c + 1 + pad + 16) in *.
  unfold peer_read. set (w := firstn k (rfc_header n ++ f)).
  assert (Hw : length w = k) by (unfold w; rewrite firstn_length; lia).
  cbn [peer_loop]. rewrite Hw. destruct (k <? 5) eqn:E; [reflexivity|]. apply Nat.ltb_ge in E.
  assert (H5 : firstn 5 w = rfc_header n).
  { unfold w. rewrite firstn_firstn, Nat.min_l by lia. apply firstn_app_exact, rfc_header_length. }
  rewrite H5.
  assert (H3 : firstn 3 (rfc_header n) = uint 1 23 ++ uint 2 0x0303)
    by (unfold rfc_header; rewrite app_assoc; apply firstn_app_exact; reflexivity).
  assert (H4 : skipn 3 (rfc_header n) = uint 2 (N.of_nat n))
    by (unfold rfc_header; rewrite app_assoc; apply skipn_app_exact; reflexivity).
  rewrite H3, H4. rewrite be_val_uint_small by exact Hsz. rewrite Nat2N.id.
  rewrite bytes_eqb_refl. cbn [negb]. now rewrite (proj2 (Nat.ltb_lt _ _)) by lia.
Qed.

(** The model's protected record is the RFC's (without padding). *)
Lemma protected_record_rfc C k ct content : crypto_ok C ->
  protected_record C k ct content
  = rfc_record C (k_key k) (k_iv k) (k_counter k) (byte_of (content_type_code ct)) content 0.
Proof.
  intros HC. unfold protected_record, rfc_record, sealed, rfc_inner. cbn [repeat app].
  replace (b8 (content_type_code ct)) with (byte_of (content_type_code ct)) by (destruct ct; reflexivity).
  set (m := content ++ [byte_of (content_type_code ct)]).
  change (uint 1 23 ++ uint 2 771 ++ uint 2 (N.of_nat (length m + tag_len C))) with (rfc_header (length m + tag_len C)).
  pose proof (ok_seal_len C HC (k_key k) (rfc_nonce (k_iv k) (k_counter k)) (rfc_header (length m + tag_len C)) m) as [H1 H2].
  destruct (c_seal _ _ _ _ _) as [c t]. cbn [fst snd] in *. unfold vec, rfc_header.
  rewrite app_length, H1, H2, <- !app_assoc. reflexivity.
Qed.
