(** * Key schedule and nonces *)
From Coq Require Import String List NArith Arith Bool Lia ZArith.
From Coq.Strings Require Import Byte.
From Coq Require Import ZifyBool ZifyNat ZifyN.
From Verif Require Import Base Crypto KeySchedule BaseProofs SpecWire WireProofs SpecKeys.
Import ListNotations.
Local Open Scope list_scope.

Ltac Zify.zify_post_hook ::= Z.div_mod_to_equations.

(** ** Nonce *)

Lemma pad_loop_spec : forall r n idx done,
  length done = idx -> idx + length r <= n ->
  pad_loop n idx r (zeros (n - idx) ++ done)
  = Ok (zeros (n - idx - length r) ++ rev r ++ done).
Proof.
  induction r as [|b r IH]; intros n idx done Hd Hn; cbn [pad_loop length rev] in *.
  - rewrite Nat.sub_0_r. reflexivity.
  - rewrite usize_sub_ok by lia. cbn [obind]. rewrite usize_sub_ok by lia. cbn [obind].
    rewrite set_index_ok by (rewrite app_length, zeros_length; lia). cbn [obind].
    replace (splice (zeros (n - idx) ++ done) (n - idx - 1) [b])
      with (zeros (n - S idx) ++ b :: done).
    2:{ unfold splice. cbn [length].
        rewrite firstn_app, zeros_length.
        replace (n - idx - 1 - (n - idx)) with 0 by lia. cbn [firstn]. rewrite app_nil_r.
        rewrite skipn_app, zeros_length.
        replace (n - idx - 1 + 1 - (n - idx)) with 0 by lia. cbn [skipn].
        rewrite (@skipn_all2 _ _ (zeros (n - idx))) by (rewrite zeros_length; lia). cbn [app].
        f_equal. unfold zeros.
        replace (n - idx) with ((n - S idx) + 1) by lia. rewrite repeat_app.
        rewrite firstn_app, repeat_length. replace (n - S idx + 1 - 1) with (n - S idx) by lia.
        rewrite Nat.sub_diag. cbn [firstn]. rewrite app_nil_r.
        symmetry. apply firstn_all2. rewrite repeat_length. lia. }
    rewrite IH by (cbn [length]; lia). rewrite <- app_assoc. cbn [app].
    do 2 f_equal. f_equal. lia.
Qed.

Lemma pad_spec n input : length input <= n -> pad n input = Ok (zeros (n - length input) ++ input).
Proof.
  intros H. unfold pad. pose proof (pad_loop_spec (rev input) n 0 [] eq_refl) as Hp.
  rewrite rev_length, Nat.sub_0_r, !app_nil_r, rev_involutive in Hp. apply Hp. lia.
Qed.

Lemma xor_byte_spec a b : xor_byte a b = byte_of (N.lxor (Byte.to_N a) (Byte.to_N b)).
Proof.
  unfold xor_byte, b8, byte_of. rewrite N.mod_small; [reflexivity|].
  apply lxor_lt_256; apply to_N_lt.
Qed.

Lemma get_nonce_spec C n iv : crypto_ok C -> length iv = iv_len C ->
  ks_get_nonce C n iv = Ok (rfc_nonce iv n).
Proof.
  intros HC Hiv. unfold ks_get_nonce. rewrite pad_spec by (rewrite be64_length; apply ok_iv_len, HC).
  cbn [obind]. unfold rfc_nonce, xor_bytes. f_equal. rewrite be64_length, uint_be64, Hiv.
  apply map_ext. intros [a b]. apply xor_byte_spec.
Qed.

Lemma combine_map_inj (iv a b : bytes) : length a = length iv -> length b = length iv ->
  xor_bytes iv a = xor_bytes iv b -> a = b.
Proof.
  revert a b; induction iv as [|i iv IH]; intros [|x a] [|y b] Ha Hb H; try discriminate; auto.
  unfold xor_bytes in H. cbn in H. inversion H as [[H1 H2]]. f_equal; [|apply IH; auto].
  rewrite <- !xor_byte_spec in H1. unfold xor_byte in H1.
  apply to_N_inj. apply (f_equal Byte.to_N) in H1. rewrite !to_N_b8 in H1.
  rewrite !N.mod_small in H1 by (apply lxor_lt_256; apply to_N_lt).
  apply (f_equal (N.lxor (Byte.to_N i))) in H1. rewrite <- !N.lxor_assoc, N.lxor_nilpotent, !N.lxor_0_l in H1.
  exact H1.
Qed.

Lemma rfc_nonce_inj iv n m : 8 <= length iv -> (n < 18446744073709551616)%N ->
  (m < 18446744073709551616)%N -> rfc_nonce iv n = rfc_nonce iv m -> n = m.
Proof.
  intros Hl Hn Hm H. apply combine_map_inj in H.
  2,3: rewrite app_length, repeat_length, uint_length; lia.
  apply app_inv_head in H. apply (f_equal be_val) in H.
  now rewrite !be_val_uint_small in H.
Qed.

Lemma rfc_nonce_length iv n : 8 <= length iv -> length (rfc_nonce iv n) = length iv.
Proof.
  intros H. unfold rfc_nonce, xor_bytes. rewrite map_length, combine_length, app_length, repeat_length, uint_length.
  lia.
Qed.

(** ** Labels *)

Lemma hv_extend_ok cap v bs : length v + length bs <= cap -> hv_extend cap v bs = Ok (v ++ bs).
Proof. intros H. unfold hv_extend. now rewrite (proj2 (Nat.leb_le _ _) H). Qed.

Lemma ascii_lit s : ascii s = lit s. Proof. reflexivity. Qed.

Lemma make_label_spec C prk n label ctx h :
  (ctx = CtxNone /\ h = [] \/ ctx = CtxHash h /\ length h < 256) ->
  length (lit label) + length h + 10 <= label_cap C ->
  length (lit label) < 250 ->
  make_label C (Some prk) n (lit label) ctx
  = ok_or CryptoError (rfc_expand_label C prk label h n).
Proof.
  intros Hctx Hcap Hlab. unfold make_label, rfc_expand_label, rfc_hkdf_label.
  assert (H6 : length (lit "tls13 ") = 6) by reflexivity.
  assert (Hh : length h < 256) by (destruct Hctx as [[_ ->]|[_ H]]; [cbn; lia|exact H]).
  rewrite hv_extend_ok by (rewrite be16_length; cbn [length]; lia). cbn [obind app].
  rewrite hv_extend_ok by (rewrite ?app_length, be16_length; cbn [length]; lia). cbn [obind].
  rewrite hv_extend_ok by (rewrite ?app_length, be16_length; cbn [length]; lia). cbn [obind].
  rewrite hv_extend_ok by (rewrite ?app_length, be16_length; cbn [length]; lia). cbn [obind].
  replace (vec 1 (ascii "tls13 " ++ ascii label))
    with ([b8 (6 + N.of_nat (length (lit label)))] ++ lit "tls13 " ++ lit label).
  2:{ unfold vec. change (ascii label) with (lit label). change (ascii "tls13 ") with (lit "tls13 ").
      rewrite app_length, H6, uint_b8. cbn [app]. f_equal. f_equal. lia. }
  assert (Hv : (match ctx with
     | CtxNone => hv_extend (label_cap C) (((be16 (N.of_nat n) ++ [b8 (6 + N.of_nat (length (lit label)))]) ++ lit "tls13 ") ++ lit label) [x00]
     | CtxHash h0 => v <-- hv_extend (label_cap C) (((be16 (N.of_nat n) ++ [b8 (6 + N.of_nat (length (lit label)))]) ++ lit "tls13 ") ++ lit label) [b8 (N.of_nat (length h0))];; hv_extend (label_cap C) v h0
     end)
    = Ok (uint 2 (N.of_nat n) ++ ([b8 (6 + N.of_nat (length (lit label)))] ++ lit "tls13 " ++ lit label) ++ vec 1 h)).
  { change (vec 1 h) with (uint 1 (N.of_nat (length h)) ++ h).
    replace (uint 2 (N.of_nat n)) with (be16 (N.of_nat n)) by (symmetry; apply uint_be16).
    replace (uint 1 (N.of_nat (length h))) with [b8 (N.of_nat (length h))] by (symmetry; apply uint_b8). rewrite <- !app_assoc.
    destruct Hctx as [[-> ->]|[-> _]].
    - rewrite hv_extend_ok by (rewrite ?app_length, be16_length; cbn [length] in *; lia).
      rewrite <- !app_assoc. reflexivity.
    - rewrite hv_extend_ok by (rewrite ?app_length, be16_length; cbn [length] in *; lia). cbn [obind].
      rewrite hv_extend_ok by (rewrite ?app_length, be16_length; cbn [length] in *; lia).
      rewrite <- !app_assoc. reflexivity. }
  cbn [app] in Hv |- *. rewrite Hv. reflexivity.
Qed.

(** All labels used by the schedule are at most 12 characters long. *)
Lemma make_label_none C prk n label : crypto_ok C -> length (lit label) <= 12 ->
  make_label C (Some prk) n (lit label) CtxNone = ok_or CryptoError (rfc_expand_label C prk label [] n).
Proof.
  intros HC Hl. apply make_label_spec; [now left| |lia]. rewrite (ok_label_cap C HC). cbn. lia.
Qed.

Lemma make_label_hash C prk n label msgs : crypto_ok C -> length (lit label) <= 12 ->
  make_label C (Some prk) n (lit label) (CtxHash (c_hash C msgs))
  = ok_or CryptoError (rfc_expand_label C prk label (c_hash C msgs) n).
Proof.
  intros HC Hl. apply make_label_spec; [right| |lia].
  - split; [reflexivity|]. rewrite (ok_hash_len C HC). destruct (ok_sizes C HC). lia.
  - rewrite (ok_label_cap C HC), (ok_hash_len C HC). lia.
Qed.

Lemma expand_label_total C secret label ctx n : crypto_ok C -> n <= 255 * hash_len C ->
  exists o, rfc_expand_label C secret label ctx n = Some o /\ length o = n.
Proof.
  intros HC Hn. destruct (ok_expand_total C HC secret (rfc_hkdf_label n label ctx) n Hn) as [o Ho].
  exists o. split; [exact Ho|]. eapply ok_expand_len; eauto.
Qed.

Lemma derive_total C secret label m : crypto_ok C ->
  exists o, rfc_derive_secret C secret label m = Some o /\ length o = hash_len C.
Proof. intros HC. apply expand_label_total; [assumption|]. destruct (ok_sizes C HC). lia. Qed.

Lemma from_prk_ok C prk : length prk = hash_len C -> from_prk C prk = Ok prk.
Proof. intros H. unfold from_prk. rewrite H, Nat.ltb_irrefl. reflexivity. Qed.

Lemma calculate_traffic_secret_spec C sh prk label tr : crypto_ok C ->
  sh_hkdf sh = Some prk -> length (lit label) <= 12 ->
  exists s key iv,
    rfc_derive_secret C prk label tr = Some s /\ rfc_key C s = Some key /\ rfc_iv C s = Some iv /\
    calculate_traffic_secret C sh (lit label) tr = Ok (mk_kstate (Some s) 0 key iv) /\
    length s = hash_len C /\ length key = key_len C /\ length iv = iv_len C.
Proof.
  intros HC Hsh Hl. unfold calculate_traffic_secret, derive_secret, ctx_transcript. rewrite Hsh.
  rewrite make_label_hash by assumption.
  destruct (derive_total C prk label tr HC) as (s & Hs & Hsl).
  destruct (ok_sizes C HC) as (_ & _ & Hk & Hi).
  destruct (expand_label_total C s "key" [] (key_len C) HC Hk) as (key & Hkey & Hkl).
  destruct (expand_label_total C s "iv" [] (iv_len C) HC Hi) as (iv & Hiv & Hil).
  exists s, key, iv. repeat split; auto.
  unfold rfc_derive_secret in Hs. rewrite Hs. cbn [ok_or obind].
  rewrite from_prk_ok by assumption. cbn [obind].
  rewrite !make_label_none by (try assumption; cbn; lia). rewrite Hkey, Hiv. reflexivity.
Qed.

Lemma shared_derived_spec C sh prk : crypto_ok C -> sh_hkdf sh = Some prk ->
  exists d, rfc_derive_secret C prk "derived" [] = Some d /\ length d = hash_len C /\
    shared_derived C sh = Ok (mk_shared d (Some prk)).
Proof.
  intros HC Hsh. unfold shared_derived, derive_secret, ctx_empty. rewrite Hsh.
  rewrite make_label_hash by (try assumption; cbn; lia).
  destruct (derive_total C prk "derived" [] HC) as (d & Hd & Hdl).
  exists d. repeat split; auto. unfold rfc_derive_secret in Hd. rewrite Hd. reflexivity.
Qed.
