(** * UTF-8: the check of the model against RFC 3629 *)
From Coq Require Import List NArith Arith Bool Lia.
From Coq.Strings Require Import Byte.
From Coq Require Import ZifyBool ZifyNat ZifyN.
From Verif Require Import Base Pki BaseProofs SpecWire SpecPki.
Import ListNotations.

Lemma of_to b n : Byte.to_N b = n -> byte_of n = b.
Proof. intros <-. unfold byte_of. now rewrite Byte.of_to_N. Qed.
Lemma to_of n : (n < 256)%N -> Byte.to_N (byte_of n) = n.
Proof. intros H. rewrite <- (N.mod_small n 256 H) at 1. change (byte_of (n mod 256)) with (b8 n). rewrite to_N_b8. now apply N.mod_small. Qed.

Lemma inside lo hi b : between lo hi b = true <-> (lo <= Byte.to_N b <= hi)%N.
Proof. unfold between. rewrite andb_true_iff, !N.leb_le. reflexivity. Qed.
Lemma outside lo hi b : between lo hi b = false <-> ~ (lo <= Byte.to_N b <= hi)%N.
Proof. rewrite <- inside. destruct (between lo hi b); split; congruence. Qed.

(** The number with the base-64 digits [d3], [d2], [d1], [d0]. *)
Definition num (d3 d2 d1 d0 : N) : N := (((d3 * 64 + d2) * 64 + d1) * 64 + d0)%N.
Lemma num_mod d3 d2 d1 d0 : (d0 < 64)%N -> (num d3 d2 d1 d0 mod 64 = d0)%N.
Proof. intros H. unfold num. rewrite N.add_comm, N.mod_add by discriminate. now apply N.mod_small. Qed.
Lemma num_div d3 d2 d1 d0 : (d0 < 64)%N -> (num d3 d2 d1 d0 / 64 = num 0 d3 d2 d1)%N.
Proof. intros H. unfold num. rewrite N.div_add_l by discriminate. rewrite (N.div_small d0) by assumption. lia. Qed.
Lemma digits n : (n < 2 ^ 24)%N -> exists d3 d2 d1 d0, (d3 < 64 /\ d2 < 64 /\ d1 < 64 /\ d0 < 64)%N /\ n = num d3 d2 d1 d0.
Proof.
  intros H. exists (n / 64 / 64 / 64)%N, ((n / 64 / 64) mod 64)%N, ((n / 64) mod 64)%N, (n mod 64)%N.
  split.
  - repeat split; try (apply N.mod_lt; discriminate). rewrite !N.div_div by discriminate. apply N.div_lt_upper_bound; [discriminate|exact H].
  - unfold num. pose proof (N.div_mod n 64 ltac:(discriminate)). pose proof (N.div_mod (n / 64) 64 ltac:(discriminate)).
    pose proof (N.div_mod (n / 64 / 64) 64 ltac:(discriminate)). lia.
Qed.

(** A character written with its digits. *)
Lemma char_num d3 d2 d1 d0 : (d3 < 64)%N -> (d2 < 64)%N -> (d1 < 64)%N -> (d0 < 64)%N ->
  utf8_char (num d3 d2 d1 d0) =
    if (num d3 d2 d1 d0 <? 0x80)%N then [byte_of (num d3 d2 d1 d0)]
    else if (num d3 d2 d1 d0 <? 0x800)%N then [byte_of (0xC0 + num 0 d3 d2 d1); byte_of (0x80 + d0)]
    else if (num d3 d2 d1 d0 <? 0x10000)%N then [byte_of (0xE0 + num 0 0 d3 d2); byte_of (0x80 + d1); byte_of (0x80 + d0)]
    else [byte_of (0xF0 + d3); byte_of (0x80 + d2); byte_of (0x80 + d1); byte_of (0x80 + d0)].
Proof.
  intros H3 H2 H1 H0. unfold utf8_char. change 262144%N with (64 * 64 * 64)%N. change 4096%N with (64 * 64)%N.
  rewrite <- !N.div_div by discriminate. rewrite !num_div, !num_mod by assumption.
  replace (num 0 0 0 d3) with d3 by (unfold num; lia). reflexivity.
Qed.

Lemma utf8_char_valid n r : character n -> utf8_valid (utf8_char n ++ r) = utf8_valid r.
Proof.
  intros H. destruct (digits n) as (d3 & d2 & d1 & d0 & (H3 & H2 & H1 & H0) & ->).
  { unfold character in H. assert (n < 0x110000)%N by lia. eapply N.lt_trans; [eassumption|reflexivity]. }
  rewrite char_num by assumption. unfold character in H.
  set (n := num d3 d2 d1 d0) in *. assert (En : n = (((d3 * 64 + d2) * 64 + d1) * 64 + d0)%N) by reflexivity. clearbody n.
  destruct (N.ltb_spec n 0x80); [|destruct (N.ltb_spec n 0x800); [|destruct (N.ltb_spec n 0x10000)]].
  - cbn [app utf8_valid]. replace (between 0 127 (byte_of n)) with true; [reflexivity|].
    symmetry. apply inside. rewrite to_of; lia.
  - assert (d3 = 0 /\ d2 = 0)%N as [-> ->] by lia. change (num 0 0 0 d1) with (0 + d1)%N. rewrite N.add_0_l. cbn [app utf8_valid].
    replace (between 0 127 (byte_of (0xC0 + d1))) with false by (symmetry; apply outside; rewrite to_of; lia).
    replace (between 194 223 (byte_of (0xC0 + d1))) with true by (symmetry; apply inside; rewrite to_of; lia).
    replace (is_cont (byte_of (0x80 + d0))) with true by (symmetry; apply inside; rewrite to_of; lia). reflexivity.
  - assert (d3 = 0)%N as -> by lia. change (num 0 0 0 d2) with (0 + d2)%N. rewrite N.add_0_l. cbn [app utf8_valid].
    replace (between 0 127 (byte_of (0xE0 + d2))) with false by (symmetry; apply outside; rewrite to_of; lia).
    replace (between 194 223 (byte_of (0xE0 + d2))) with false by (symmetry; apply outside; rewrite to_of; lia).
    replace (between 224 239 (byte_of (0xE0 + d2))) with true by (symmetry; apply inside; rewrite to_of; lia).
    replace (is_cont (byte_of (0x80 + d0))) with true by (symmetry; apply inside; rewrite to_of; lia).
    cbn [andb]. rewrite <- (andb_true_r (utf8_valid r)) at 2. f_equal.
    destruct (between 224 224 (byte_of (0xE0 + d2))) eqn:X1; [apply inside in X1|apply outside in X1]; rewrite to_of in X1 by lia.
    { apply inside. rewrite to_of; lia. }
    destruct (between 237 237 (byte_of (0xE0 + d2))) eqn:X2; [apply inside in X2|apply outside in X2]; rewrite to_of in X2 by lia.
    { apply inside. rewrite to_of; lia. }
    apply inside. rewrite to_of; lia.
  - assert (d3 <= 4)%N by lia. cbn [app utf8_valid].
    replace (between 0 127 (byte_of (0xF0 + d3))) with false by (symmetry; apply outside; rewrite to_of; lia).
    replace (between 194 223 (byte_of (0xF0 + d3))) with false by (symmetry; apply outside; rewrite to_of; lia).
    replace (between 224 239 (byte_of (0xF0 + d3))) with false by (symmetry; apply outside; rewrite to_of; lia).
    replace (between 240 244 (byte_of (0xF0 + d3))) with true by (symmetry; apply inside; rewrite to_of; lia).
    replace (is_cont (byte_of (0x80 + d0))) with true by (symmetry; apply inside; rewrite to_of; lia).
    replace (is_cont (byte_of (0x80 + d1))) with true by (symmetry; apply inside; rewrite to_of; lia).
    cbn [andb]. rewrite <- (andb_true_r (utf8_valid r)) at 2. f_equal.
    destruct (between 240 240 (byte_of (0xF0 + d3))) eqn:X1; [apply inside in X1|apply outside in X1]; rewrite to_of in X1 by lia.
    { apply inside. rewrite to_of; lia. }
    destruct (between 244 244 (byte_of (0xF0 + d3))) eqn:X2; [apply inside in X2|apply outside in X2]; rewrite to_of in X2 by lia.
    { apply inside. rewrite to_of; lia. }
    apply inside. rewrite to_of; lia.
Qed.

Lemma text_nil : text [].
Proof. exists []. split; [constructor|reflexivity]. Qed.
Lemma text_cons n c b : character n -> utf8_char n = c -> text b -> text (c ++ b).
Proof. intros H <- (ns & Hf & ->). exists (n :: ns). split; [now constructor|reflexivity]. Qed.

(** What a well-formed character of two, three or four bytes is. *)
Lemma char2 a c : (194 <= Byte.to_N a <= 223)%N -> (128 <= Byte.to_N c <= 191)%N ->
  exists n, character n /\ utf8_char n = [a; c].
Proof.
  intros Ha Hc. exists (num 0 0 (Byte.to_N a - 192) (Byte.to_N c - 128)). split; [unfold character, num; lia|].
  rewrite char_num by lia. unfold num.
  destruct (N.ltb_spec (((0 * 64 + 0) * 64 + (Byte.to_N a - 192)) * 64 + (Byte.to_N c - 128)) 0x80); [lia|].
  destruct (N.ltb_spec (((0 * 64 + 0) * 64 + (Byte.to_N a - 192)) * 64 + (Byte.to_N c - 128)) 0x800); [|lia].
  f_equal; [|f_equal]; apply of_to; lia.
Qed.
Lemma char3 a c d : (224 <= Byte.to_N a <= 239)%N -> (128 <= Byte.to_N c <= 191)%N -> (128 <= Byte.to_N d <= 191)%N ->
  (Byte.to_N a = 224 -> 160 <= Byte.to_N c)%N -> (Byte.to_N a = 237 -> Byte.to_N c <= 159)%N ->
  exists n, character n /\ utf8_char n = [a; c; d].
Proof.
  intros Ha Hc Hd X1 X2. exists (num 0 (Byte.to_N a - 224) (Byte.to_N c - 128) (Byte.to_N d - 128)). split; [unfold character, num; lia|].
  rewrite char_num by lia. unfold num.
  destruct (N.ltb_spec (((0 * 64 + (Byte.to_N a - 224)) * 64 + (Byte.to_N c - 128)) * 64 + (Byte.to_N d - 128)) 0x80); [lia|].
  destruct (N.ltb_spec (((0 * 64 + (Byte.to_N a - 224)) * 64 + (Byte.to_N c - 128)) * 64 + (Byte.to_N d - 128)) 0x800); [lia|].
  destruct (N.ltb_spec (((0 * 64 + (Byte.to_N a - 224)) * 64 + (Byte.to_N c - 128)) * 64 + (Byte.to_N d - 128)) 0x10000); [|lia].
  f_equal; [|f_equal; [|f_equal]]; apply of_to; lia.
Qed.
Lemma char4 a c d e : (240 <= Byte.to_N a <= 244)%N -> (128 <= Byte.to_N c <= 191)%N -> (128 <= Byte.to_N d <= 191)%N ->
  (128 <= Byte.to_N e <= 191)%N ->
  (Byte.to_N a = 240 -> 144 <= Byte.to_N c)%N -> (Byte.to_N a = 244 -> Byte.to_N c <= 143)%N ->
  exists n, character n /\ utf8_char n = [a; c; d; e].
Proof.
  intros Ha Hc Hd He X1 X2. exists (num (Byte.to_N a - 240) (Byte.to_N c - 128) (Byte.to_N d - 128) (Byte.to_N e - 128)).
  split; [unfold character, num; lia|].
  rewrite char_num by lia. unfold num.
  destruct (N.ltb_spec ((((Byte.to_N a - 240) * 64 + (Byte.to_N c - 128)) * 64 + (Byte.to_N d - 128)) * 64 + (Byte.to_N e - 128)) 0x80); [lia|].
  destruct (N.ltb_spec ((((Byte.to_N a - 240) * 64 + (Byte.to_N c - 128)) * 64 + (Byte.to_N d - 128)) * 64 + (Byte.to_N e - 128)) 0x800); [lia|].
  destruct (N.ltb_spec ((((Byte.to_N a - 240) * 64 + (Byte.to_N c - 128)) * 64 + (Byte.to_N d - 128)) * 64 + (Byte.to_N e - 128)) 0x10000); [lia|].
  f_equal; [|f_equal; [|f_equal; [|f_equal]]]; apply of_to; lia.
Qed.

Lemma utf8_text k : forall b, length b <= k -> utf8_valid b = true -> text b.
Proof.
  induction k as [|k IH]; intros b Hk H; destruct b as [|a r]; try exact text_nil; cbn [length] in Hk; [lia|].
  cbn [utf8_valid] in H. destruct (between 0 127 a) eqn:E1.
  { apply inside in E1. apply (text_cons (Byte.to_N a) [a]); [unfold character; lia| |apply IH; [lia|assumption]].
    unfold utf8_char. destruct (N.ltb_spec (Byte.to_N a) 0x80); [|lia]. f_equal. now apply of_to. }
  destruct r as [|c r2]; [discriminate|]. cbn [length] in Hk.
  destruct (between 194 223 a) eqn:E2.
  { apply andb_true_iff in H as [Hc H]. apply inside in E2, Hc. destruct (char2 a c E2 Hc) as (n & Hn & E).
    apply (text_cons n [a; c] r2 Hn E). apply IH; [lia|assumption]. }
  destruct r2 as [|d r3]; [discriminate|]. cbn [length] in Hk.
  destruct (between 224 239 a) eqn:E3.
  { apply andb_true_iff in H as [H Hc]. apply andb_true_iff in H as [Hd H]. apply inside in E3, Hd.
    destruct (char3 a c d) as (n & Hn & E); auto.
    - destruct (between 224 224 a); [|destruct (between 237 237 a)]; apply inside in Hc; lia.
    - intros Ea. assert (between 224 224 a = true) as X by (apply inside; lia). rewrite X in Hc. apply inside in Hc. lia.
    - intros Ea. assert (between 224 224 a = false) as X by (apply outside; lia). rewrite X in Hc.
      assert (between 237 237 a = true) as Y by (apply inside; lia). rewrite Y in Hc. apply inside in Hc. lia.
    - apply (text_cons n [a; c; d] r3 Hn E). apply IH; [lia|assumption]. }
  destruct r3 as [|e r4]; [discriminate|]. cbn [length] in Hk.
  destruct (between 240 244 a) eqn:E4; [|discriminate].
  apply andb_true_iff in H as [H Hc]. apply andb_true_iff in H as [Hx H]. apply andb_true_iff in Hx as [Hd He].
  apply inside in E4, Hd, He. destruct (char4 a c d e) as (n & Hn & E); auto.
  - destruct (between 240 240 a); [|destruct (between 244 244 a)]; apply inside in Hc; lia.
  - intros Ea. assert (between 240 240 a = true) as X by (apply inside; lia). rewrite X in Hc. apply inside in Hc. lia.
  - intros Ea. assert (between 240 240 a = false) as X by (apply outside; lia). rewrite X in Hc.
    assert (between 244 244 a = true) as Y by (apply inside; lia). rewrite Y in Hc. apply inside in Hc. lia.
  - apply (text_cons n [a; c; d; e] r4 Hn E). apply IH; [lia|assumption].
Qed.

Lemma utf8_spec b : utf8_valid b = true <-> text b.
Proof.
  split; [now apply (utf8_text (length b))|].
  intros (ns & Hf & ->). induction Hf as [|n ns Hn Hf IH]; [reflexivity|]. cbn [map concat]. now rewrite utf8_char_valid.
Qed.
