(** * Parsers on known wire images *)
From Coq Require Import List NArith Arith Bool Lia ZArith.
From Coq.Strings Require Import Byte.
From Coq Require Import ZifyBool ZifyNat ZifyN.
From Verif Require Import Base ParseBuffer Codes Extensions BaseProofs SpecWire.
Import ListNotations.

Ltac Zify.zify_post_hook ::= Z.div_mod_to_equations.

(** ** The specification's integers and the model's *)

Lemma byte_of_b8 n : byte_of (n mod 256) = b8 n.
Proof. reflexivity. Qed.

Lemma uint_length k n : length (uint k n) = k.
Proof.
  revert n; induction k as [|k IH]; intros n; [reflexivity|].
  cbn [uint]. rewrite app_length, IH. cbn. lia.
Qed.

Lemma be_val_uint k n : be_val (uint k n) = (n mod 256 ^ N.of_nat k)%N.
Proof.
  revert n; induction k as [|k IH]; intros n.
  - cbn [uint]. change (256 ^ N.of_nat 0)%N with 1%N. now rewrite N.mod_1_r.
  - cbn [uint]. rewrite be_val_app, IH. cbn [length]. change (256 ^ N.of_nat 1)%N with 256%N.
    rewrite byte_of_b8. unfold be_val. cbn [fold_left]. rewrite to_N_b8.
    rewrite Nat2N.inj_succ, N.pow_succ_r'.
    rewrite (N.mul_comm 256 (256 ^ N.of_nat k)), (N.mul_comm (256 ^ N.of_nat k) 256).
    rewrite N.mod_mul_r; [lia|discriminate|apply N.pow_nonzero; discriminate].
Qed.

Lemma be_val_uint_small k n : (n < 256 ^ N.of_nat k)%N -> be_val (uint k n) = n.
Proof. intros H. rewrite be_val_uint. apply N.mod_small, H. Qed.

Lemma uint_be16 n : uint 2 n = be16 n.
Proof.
  apply be_val_inj; [reflexivity|]. rewrite be_val_uint, be_val_be16. reflexivity.
Qed.
Lemma uint_be24 n : uint 3 n = be24 n.
Proof. apply be_val_inj; [reflexivity|]. rewrite be_val_uint, be_val_be24. reflexivity. Qed.
Lemma uint_be32 n : uint 4 n = be32 n.
Proof. apply be_val_inj; [reflexivity|]. rewrite be_val_uint, be_val_be32. reflexivity. Qed.
Lemma uint_be64 n : uint 8 n = be64 n.
Proof. apply be_val_inj; [reflexivity|]. rewrite be_val_uint, be_val_be64. reflexivity. Qed.
Lemma uint_b8 n : uint 1 n = [b8 n].
Proof. cbn [uint app]. now rewrite byte_of_b8. Qed.

Lemma vec_length k b : length (vec k b) = k + length b.
Proof. unfold vec. now rewrite app_length, uint_length. Qed.

Lemma fits_1 b : fits 1 b <-> length b < 256.
Proof. unfold fits. change (256 ^ N.of_nat 1)%N with 256%N. lia. Qed.
Lemma fits_2 b : fits 2 b <-> (N.of_nat (length b) < 65536)%N.
Proof. unfold fits. change (256 ^ N.of_nat 2)%N with 65536%N. lia. Qed.
Lemma fits_3 b : fits 3 b <-> (N.of_nat (length b) < 16777216)%N.
Proof. unfold fits. change (256 ^ N.of_nat 3)%N with 16777216%N. lia. Qed.

(** ** [parses m bs a]: on [bs] wherever it lies, [m] returns [a] and moves just past it.
    [rejects m bs e]: on anything beginning with [bs], [m] fails with [e]. *)
Definition at_pos (pre bs post : bytes) : pbuf := mk_pbuf (length pre) (pre ++ bs ++ post).

Definition parses {E A} (m : P E A) (bs : bytes) (a : A) : Prop :=
  forall pre post, m (at_pos pre bs post) = (Ok a, at_pos (pre ++ bs) [] post).

Definition rejects {E A} (m : P E A) (bs : bytes) (e : E) : Prop :=
  forall pre post, fst (m (at_pos pre bs post)) = Err e.

Lemma at_pos_move pre b1 b2 post :
  at_pos (pre ++ b1) [] (b2 ++ post) = at_pos (pre ++ b1) b2 post.
Proof. reflexivity. Qed.

Lemma at_pos_assoc pre b1 b2 post : at_pos pre (b1 ++ b2) post = at_pos pre b1 (b2 ++ post).
Proof. unfold at_pos. now rewrite !app_assoc. Qed.

Lemma parses_bind {E A B} (m : P E A) (f : A -> P E B) b1 b2 a b :
  parses m b1 a -> parses (f a) b2 b -> parses (bind m f) (b1 ++ b2) b.
Proof.
  intros H1 H2 pre post. unfold bind. rewrite at_pos_assoc, H1, at_pos_move, H2.
  now rewrite app_assoc.
Qed.

Lemma rejects_bind_l {E A B} (m : P E A) (f : A -> P E B) b1 b2 e :
  rejects m b1 e -> rejects (bind m f) (b1 ++ b2) e.
Proof.
  intros H pre post. unfold bind. rewrite at_pos_assoc. specialize (H pre (b2 ++ post)).
  destruct (m (at_pos pre b1 (b2 ++ post))) as [[]]; cbn in *; congruence.
Qed.

Lemma rejects_bind_r {E A B} (m : P E A) (f : A -> P E B) b1 b2 a e :
  parses m b1 a -> rejects (f a) b2 e -> rejects (bind m f) (b1 ++ b2) e.
Proof.
  intros H1 H2 pre post. unfold bind. rewrite at_pos_assoc, H1, at_pos_move. apply H2.
Qed.

Lemma rejects_bind_nil {E A B} (m : P E A) (f : A -> P E B) b1 e :
  rejects m b1 e -> rejects (bind m f) b1 e.
Proof. intros H. rewrite <- (app_nil_r b1). now apply rejects_bind_l. Qed.

Lemma parses_bind_nil {E A B} (m : P E A) (f : A -> P E B) b1 a b :
  parses m b1 a -> parses (f a) [] b -> parses (bind m f) b1 b.
Proof. intros H1 H2. rewrite <- (app_nil_r b1). now apply (parses_bind m f b1 [] a). Qed.

Lemma parses_ret {E A} (a : A) : parses (ret a : P E A) [] a.
Proof.
  intros pre post. unfold ret, at_pos. cbn [app]. now rewrite app_nil_r.
Qed.

Lemma rejects_fail {E A} (e : E) : rejects (fail e : P E A) [] e.
Proof. intros pre post. reflexivity. Qed.

Lemma parses_lift {E A} (o : outcome E A) a : o = Ok a -> parses (lift o) [] a.
Proof. intros -> pre post. unfold lift, at_pos. cbn [app]. now rewrite app_nil_r. Qed.

Lemma rejects_lift {E A} (o : outcome E A) e : o = Err e -> rejects (lift o : P E A) [] e.
Proof. intros -> pre post. reflexivity. Qed.

Lemma parses_map_err {E E' A} (g : E -> E') (m : P E A) bs a :
  parses m bs a -> parses (map_err g m) bs a.
Proof. intros H pre post. unfold map_err. now rewrite H. Qed.

Lemma rejects_map_err {E E' A} (g : E -> E') (m : P E A) bs e :
  rejects m bs e -> rejects (map_err g m) bs (g e).
Proof.
  intros H pre post. unfold map_err. specialize (H pre post).
  destruct (m (at_pos pre bs post)) as [o p']. cbn in *. subst. reflexivity.
Qed.

Lemma parses_pq {A} (m : P parse_error A) bs a : parses m bs a -> parses (pq m) bs a.
Proof. apply parses_map_err. Qed.

Lemma parses_take n bs : length bs = n -> parses (pb_take n) bs bs.
Proof.
  intros H pre post. unfold pb_take, at_pos. cbn [pb_pos pb_buf].
  rewrite !app_length, H.
  rewrite (proj2 (Nat.leb_le _ _)) by lia.
  rewrite slice_rng_ok by (rewrite ?app_length; lia).
  replace (length pre + n - length pre) with (length bs) by lia.
  unfold sub. rewrite skipn_app, skipn_all, Nat.sub_diag. cbn [skipn app].
  rewrite firstn_app, firstn_all, Nat.sub_diag. cbn [firstn]. rewrite app_nil_r.
  now rewrite <- app_assoc.
Qed.

Lemma parses_slice n bs : length bs = n -> parses (pb_slice n) bs (pb_new bs).
Proof.
  intros H. unfold pb_slice. eapply parses_bind_nil; [now apply parses_take|]. apply parses_ret.
Qed.

Lemma parses_fill n bs : length bs = n -> parses (pb_fill n) bs bs.
Proof. apply parses_take. Qed.

Lemma parses_read_u8 b : parses read_u8 [b] b.
Proof.
  intros pre post. unfold read_u8, at_pos. cbn [pb_pos pb_buf].
  rewrite !app_length. cbn [length]. rewrite (proj2 (Nat.ltb_lt _ _)) by lia.
  unfold index. rewrite nth_error_app2, Nat.sub_diag by lia. cbn [app nth_error].
  now rewrite <- app_assoc.
Qed.

Lemma parses_read_u16 n : (n < 65536)%N -> parses read_u16 (uint 2 n) n.
Proof.
  intros H. unfold read_u16. eapply parses_bind_nil; [apply parses_take, uint_length|].
  rewrite be_val_uint_small by exact H. apply parses_ret.
Qed.
Lemma parses_read_u24 n : (n < 16777216)%N -> parses read_u24 (uint 3 n) n.
Proof.
  intros H. unfold read_u24. eapply parses_bind_nil; [apply parses_take, uint_length|].
  rewrite be_val_uint_small by exact H. apply parses_ret.
Qed.
Lemma parses_read_u32 n : (n < 4294967296)%N -> parses read_u32 (uint 4 n) n.
Proof.
  intros H. unfold read_u32. eapply parses_bind_nil; [apply parses_take, uint_length|].
  rewrite be_val_uint_small by exact H. apply parses_ret.
Qed.
Lemma parses_read_u8_uint n : (n < 256)%N -> parses read_u8 (uint 1 n) (b8 n).
Proof. intros H. rewrite uint_b8. apply parses_read_u8. Qed.

Lemma parses_of_code {A} (o : option A) a : o = Some a -> parses (of_code o) [] a.
Proof. intros ->. apply parses_lift. reflexivity. Qed.
Lemma rejects_of_code {A} : rejects (of_code (@None A)) [] PE_InvalidData.
Proof. apply rejects_lift. reflexivity. Qed.

(** Running on a fresh buffer. *)
Lemma parses_new {E A} (m : P E A) bs post a :
  parses m bs a -> m (pb_new (bs ++ post)) = (Ok a, mk_pbuf (length bs) (bs ++ post)).
Proof. intros H. apply (H [] post). Qed.
Lemma rejects_new {E A} (m : P E A) bs post e :
  rejects m bs e -> fst (m (pb_new (bs ++ post))) = Err e.
Proof. intros H. apply (H [] post). Qed.
