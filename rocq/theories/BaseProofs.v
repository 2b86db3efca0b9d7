(** * Lemmas about Base.v *)
From Coq Require Import List NArith Arith Bool Lia ZArith.
From Coq.Strings Require Import Byte.
From Coq Require Import ZifyBool ZifyNat ZifyN.
From Verif Require Import Base.
Import ListNotations.
Ltac Zify.zify_post_hook ::= Z.div_mod_to_equations.

(** ** Bytes *)

Lemma to_N_lt (b : byte) : (Byte.to_N b < 256)%N.
Proof. destruct b; vm_compute; reflexivity. Qed.

Lemma of_N_some (n : N) : (n < 256)%N -> exists b, Byte.of_N n = Some b.
Proof.
  intros H. destruct (Byte.of_N n) eqn:E; [eauto|].
  apply Byte.of_N_None_iff in E. lia.
Qed.

Lemma to_N_b8 (n : N) : Byte.to_N (b8 n) = (n mod 256)%N.
Proof.
  unfold b8. destruct (of_N_some (n mod 256)%N) as [b Hb].
  { apply N.mod_lt; discriminate. }
  rewrite Hb. apply Byte.to_of_N; assumption.
Qed.

Lemma to_N_inj (a b : byte) : Byte.to_N a = Byte.to_N b -> a = b.
Proof.
  intros H. pose proof (Byte.of_to_N a) as Ha. pose proof (Byte.of_to_N b) as Hb.
  rewrite H in Ha. congruence.
Qed.

Lemma b8_to_N (b : byte) : b8 (Byte.to_N b) = b.
Proof.
  apply to_N_inj. rewrite to_N_b8. apply N.mod_small, to_N_lt.
Qed.

Lemma b8_ext (m n : N) : (m mod 256 = n mod 256)%N -> b8 m = b8 n.
Proof. intros H. apply to_N_inj. now rewrite !to_N_b8. Qed.

(** ** Big-endian integers *)

Lemma be_val_acc (l : bytes) (acc : N) :
  fold_left (fun acc b => acc * 256 + Byte.to_N b)%N l acc
  = (acc * 256 ^ N.of_nat (length l) + be_val l)%N.
Proof.
  revert acc; induction l as [|b l IH]; intros acc.
  - cbn. lia.
  - unfold be_val. cbn [fold_left length].
    rewrite (IH (acc * 256 + Byte.to_N b)%N), (IH (0 * 256 + Byte.to_N b)%N).
    rewrite Nat2N.inj_succ, N.pow_succ_r'. lia.
Qed.

Lemma be_val_cons (b : byte) (l : bytes) :
  be_val (b :: l) = (Byte.to_N b * 256 ^ N.of_nat (length l) + be_val l)%N.
Proof.
  unfold be_val at 1. cbn [fold_left]. rewrite be_val_acc. lia.
Qed.

Lemma be_val_app (a b : bytes) :
  be_val (a ++ b) = (be_val a * 256 ^ N.of_nat (length b) + be_val b)%N.
Proof.
  unfold be_val at 1. rewrite fold_left_app. now rewrite be_val_acc.
Qed.

Lemma be_val_lt (l : bytes) : (be_val l < 256 ^ N.of_nat (length l))%N.
Proof.
  induction l as [|b l IH]; [vm_compute; reflexivity|].
  rewrite be_val_cons. cbn [length]. rewrite Nat2N.inj_succ, N.pow_succ_r'.
  pose proof (to_N_lt b). nia.
Qed.

Lemma be_val_inj (a b : bytes) : length a = length b -> be_val a = be_val b -> a = b.
Proof.
  revert b; induction a as [|x a IH]; intros [|y b] Hl Hv; try discriminate; [reflexivity|].
  rewrite !be_val_cons in Hv. injection Hl as Hl. rewrite Hl in Hv.
  pose proof (be_val_lt a) as Ha. pose proof (be_val_lt b) as Hb. rewrite Hl in Ha.
  assert (Byte.to_N x = Byte.to_N y) by nia.
  f_equal; [now apply to_N_inj|]. apply IH; [assumption|nia].
Qed.

Lemma be16_length (n : N) : length (be16 n) = 2. Proof. reflexivity. Qed.
Lemma be24_length (n : N) : length (be24 n) = 3. Proof. reflexivity. Qed.
Lemma be32_length (n : N) : length (be32 n) = 4. Proof. reflexivity. Qed.
Lemma be64_length (n : N) : length (be64 n) = 8. Proof. reflexivity. Qed.

Lemma be_val_be16 (n : N) : be_val (be16 n) = (n mod 65536)%N.
Proof.
  unfold be16, be_val. cbn [fold_left]. rewrite !to_N_b8. lia.
Qed.
Lemma be_val_be24 (n : N) : be_val (be24 n) = (n mod 16777216)%N.
Proof. unfold be24, be_val. cbn [fold_left]. rewrite !to_N_b8. lia. Qed.
Lemma be_val_be32 (n : N) : be_val (be32 n) = (n mod 4294967296)%N.
Proof. unfold be32, be_val. cbn [fold_left]. rewrite !to_N_b8. lia. Qed.
Lemma be_val_be64 (n : N) : be_val (be64 n) = (n mod 18446744073709551616)%N.
Proof.
  unfold be64. rewrite be_val_app, be32_length, !be_val_be32.
  change (256 ^ N.of_nat 4)%N with 4294967296%N. lia.
Qed.

Lemma be16_mod (n : N) : be16 (n mod 65536) = be16 n.
Proof. apply be_val_inj; [reflexivity|]. rewrite !be_val_be16. lia. Qed.
Lemma be24_mod (n : N) : be24 (n mod 4294967296) = be24 n.
Proof. apply be_val_inj; [reflexivity|]. rewrite !be_val_be24. lia. Qed.

Lemma be_val_be16_small (n : N) : (n < 65536)%N -> be_val (be16 n) = n.
Proof. intros. rewrite be_val_be16. lia. Qed.
Lemma be_val_be24_small (n : N) : (n < 16777216)%N -> be_val (be24 n) = n.
Proof. intros. rewrite be_val_be24. lia. Qed.

Lemma lxor_lt_256 (a b : N) : (a < 256)%N -> (b < 256)%N -> (N.lxor a b < 256)%N.
Proof.
  intros Ha Hb. destruct (N.eq_dec (N.lxor a b) 0) as [->|Hne]; [reflexivity|].
  change 256%N with (2 ^ 8)%N. apply N.log2_lt_pow2; [lia|].
  pose proof (N.log2_lxor a b) as H.
  assert (Hl : forall x, (x < 256)%N -> (N.log2 x < 8)%N).
  { intros x Hx. destruct (N.eq_dec x 0) as [->|Hx0]; [reflexivity|].
    apply N.log2_lt_pow2; [lia|exact Hx]. }
  pose proof (Hl a Ha). pose proof (Hl b Hb). lia.
Qed.

(** ** Lists, slices *)

Lemma skipn_skipn {A} (x y : nat) (l : list A) : skipn x (skipn y l) = skipn (x + y) l.
Proof.
  revert l; induction y as [|y IH]; intros l.
  - now rewrite Nat.add_0_r.
  - destruct l as [|a l]; [now rewrite !skipn_nil|].
    rewrite Nat.add_succ_r. cbn [skipn]. apply IH.
Qed.

Lemma sub_length {A} (l : list A) a n : length (sub l a n) = Nat.min n (length l - a).
Proof. unfold sub. now rewrite firstn_length, skipn_length. Qed.

Lemma sub_full {A} (l : list A) : sub l 0 (length l) = l.
Proof. unfold sub. cbn. apply firstn_all. Qed.

Lemma slice_rng_ok {E A} (l : list A) a b :
  a <= b -> b <= length l -> slice_rng (E:=E) l a b = Ok (sub l a (b - a)).
Proof.
  intros H1 H2. unfold slice_rng.
  rewrite (proj2 (Nat.leb_le a b) H1), (proj2 (Nat.leb_le b (length l)) H2). reflexivity.
Qed.

Lemma slice_rng_inv {E A} (l : list A) a b s :
  slice_rng (E:=E) l a b = Ok s -> a <= b /\ b <= length l /\ s = sub l a (b - a).
Proof.
  unfold slice_rng. destruct (Nat.leb_spec a b); destruct (Nat.leb_spec b (length l)); cbn;
    intros H'; inversion H'; subst; auto.
Qed.

Lemma slice_from_ok {E A} (l : list A) a :
  a <= length l -> slice_from (E:=E) l a = Ok (skipn a l).
Proof.
  intros H. unfold slice_from. rewrite slice_rng_ok by lia. f_equal. unfold sub.
  apply firstn_all2. rewrite skipn_length. lia.
Qed.

Lemma splice_length {A} (l : list A) a bs :
  a + length bs <= length l -> length (splice l a bs) = length l.
Proof.
  intros H. unfold splice. rewrite !app_length, firstn_length, skipn_length. lia.
Qed.

Lemma splice_nil {A} (l : list A) a : splice l a [] = l.
Proof. unfold splice. cbn. rewrite Nat.add_0_r. apply firstn_skipn. Qed.

Lemma splice_app {A} (l : list A) a x y :
  a + length x + length y <= length l ->
  splice (splice l a x) (a + length x) y = splice l a (x ++ y).
Proof.
  intros H. unfold splice. 
  rewrite <- (app_assoc x y), app_length.
  assert (L : length (firstn a l) = a) by (rewrite firstn_length; lia).
  rewrite firstn_app, L.
  rewrite (@firstn_all2 _ (a + length x) (firstn a l)) by lia.
  replace (a + length x - a) with (length x) by lia.
  rewrite firstn_app. rewrite firstn_all, Nat.sub_diag. cbn [firstn]. rewrite app_nil_r.
  rewrite <- app_assoc. do 2 f_equal. f_equal.
  rewrite skipn_app, L. rewrite (@skipn_all2 _ (a + length x + length y) (firstn a l)) by lia.
  cbn [app]. rewrite skipn_app. 
  replace (a + length x + length y - a) with (length x + length y) by lia.
  rewrite (@skipn_all2 _ (length x + length y) (x)) by lia. cbn [app].
  rewrite skipn_skipn. f_equal. lia.
Qed.

Lemma set_rng_ok {E A} (l : list A) a bs :
  a + length bs <= length l -> set_rng (E:=E) l a bs = Ok (splice l a bs).
Proof. intros H. unfold set_rng. now rewrite (proj2 (Nat.leb_le _ _) H). Qed.

Lemma set_rng_inv {E A} (l : list A) a bs l' :
  set_rng (E:=E) l a bs = Ok l' -> a + length bs <= length l /\ l' = splice l a bs.
Proof. unfold set_rng. destruct (Nat.leb_spec (a + length bs) (length l)); intros H'; now inversion H'. Qed.

Lemma set_index_ok {E A} (l : list A) i v :
  i < length l -> set_index (E:=E) l i v = Ok (splice l i [v]).
Proof. intros H. unfold set_index. now rewrite (proj2 (Nat.ltb_lt _ _) H). Qed.

Lemma index_ok {E A} (l : list A) i : i < length l -> exists a, index (E:=E) l i = Ok a /\ nth_error l i = Some a.
Proof.
  intros H. unfold index. destruct (nth_error l i) eqn:E1; [eauto|].
  apply nth_error_None in E1. lia.
Qed.

Lemma usize_sub_ok {E} a b : b <= a -> usize_sub (E:=E) a b = Ok (a - b).
Proof. intros H. unfold usize_sub. now rewrite (proj2 (Nat.leb_le _ _) H). Qed.

Lemma zeros_length n : length (zeros n) = n.
Proof. apply repeat_length. Qed.

(** Contents of a window before and after [splice]. *)
Lemma splice_firstn {A} (l : list A) a bs :
  a <= length l -> firstn a (splice l a bs) = firstn a l.
Proof.
  intros H. unfold splice. rewrite firstn_app, firstn_firstn, Nat.min_id, firstn_length.
  replace (a - Nat.min a (length l)) with 0 by lia. cbn. apply app_nil_r.
Qed.

Lemma splice_skipn {A} (l : list A) a bs :
  a + length bs <= length l -> skipn (a + length bs) (splice l a bs) = skipn (a + length bs) l.
Proof.
  intros H. unfold splice. rewrite skipn_app, firstn_length.
  rewrite (skipn_all2 (firstn a l)) by (rewrite firstn_length; lia). cbn [app].
  rewrite skipn_app. replace (a + length bs - Nat.min a (length l)) with (length bs) by lia.
  rewrite skipn_all, Nat.sub_diag. reflexivity.
Qed.

Lemma splice_sub {A} (l : list A) a bs :
  a + length bs <= length l -> sub (splice l a bs) a (length bs) = bs.
Proof.
  intros H. unfold sub, splice. rewrite skipn_app, firstn_length.
  rewrite (skipn_all2 (firstn a l)) by (rewrite firstn_length; lia). cbn [app].
  replace (a - Nat.min a (length l)) with 0 by lia. cbn [skipn].
  rewrite firstn_app, firstn_all, Nat.sub_diag. cbn. apply app_nil_r.
Qed.

Lemma sub_app_split {A} (l : list A) a m n :
  sub l a (m + n) = sub l a m ++ sub l (a + m) n.
Proof.
  unfold sub. rewrite <- (firstn_skipn m (skipn a l)) at 1.
  rewrite firstn_app. rewrite firstn_firstn.
  replace (Nat.min (m + n) m) with m by lia.
  rewrite firstn_length, skipn_length, skipn_skipn.
  destruct (Nat.le_gt_cases (m) (length l - a)).
  - replace (m + n - Nat.min m (length l - a)) with n by lia. now rewrite (Nat.add_comm m a).
  - rewrite !(@skipn_all2 _ (m + a) l) by lia. 
    rewrite (@skipn_all2 _ (a + m) l) by lia. now rewrite !firstn_nil.
Qed.

(** ** Byte string equality *)

Lemma byte_eqb_eq a b : byte_eqb a b = true <-> a = b.
Proof.
  unfold byte_eqb. split; intros H.
  - now apply Byte.byte_dec_bl.
  - now apply Byte.byte_dec_lb.
Qed.

Lemma bytes_eqb_eq (a b : bytes) : bytes_eqb a b = true <-> a = b.
Proof.
  revert b; induction a as [|x a IH]; intros [|y b]; cbn; split; intros H; try discriminate; auto.
  - apply andb_true_iff in H. destruct H as [H1 H2]. apply byte_eqb_eq in H1. apply IH in H2. congruence.
  - inversion H; subst. apply andb_true_iff. split; [now apply byte_eqb_eq|now apply IH].
Qed.

Lemma bytes_eqb_refl (a : bytes) : bytes_eqb a a = true.
Proof. now apply bytes_eqb_eq. Qed.

(** ** The monad *)

Lemma obind_ok {E A B} (m : outcome E A) (f : A -> outcome E B) b :
  obind m f = Ok b -> exists a, m = Ok a /\ f a = Ok b.
Proof. destruct m; cbn; intros H; try discriminate; eauto. Qed.

Lemma bind_ok {S E A B} (m : M S E A) (f : A -> M S E B) s b s' :
  bind m f s = (Ok b, s') -> exists a s1, m s = (Ok a, s1) /\ f a s1 = (Ok b, s').
Proof. unfold bind. destruct (m s) as [[a|e|p| |] s1]; intros H; try discriminate; eauto. Qed.
