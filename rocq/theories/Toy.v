(** * A computable toy instance of the cryptographic primitives

    Not secure and not part of the model: it shows that the premises [crypto_ok] of the
    theorems can be met, and is used to run the model on concrete cases. *)
From Coq Require Import List NArith Arith Bool Lia ZArith.
From Coq.Strings Require Import Byte.
From Coq Require Import ZifyBool ZifyNat ZifyN.
From Verif Require Import Base Crypto KeySchedule BaseProofs.
Import ListNotations.

Definition t_mask : N := Eval vm_compute in (N.ones 128).

Definition t_acc (m : bytes) : N :=
  fold_left (fun a b => N.land (a * 1000003 + Byte.to_N b + 1) t_mask)%N m 7%N.

Definition be128 (n : N) : bytes := be64 (n / 18446744073709551616) ++ be64 n.

Definition t_hash (m : bytes) : bytes :=
  let a := t_acc m in be128 a ++ be128 (N.land (a * 6364136223846793005 + 1442695040888963407) t_mask)%N.

Definition t_hmac (k m : bytes) : bytes := t_hash (k ++ [x36] ++ m).
Definition t_extract (salt ikm : bytes) : bytes := t_hash (salt ++ [x5c] ++ ikm).

Definition t_stream (seed : bytes) (n : nat) : bytes :=
  firstn n (concat (map (fun i => t_hash (seed ++ be16 (N.of_nat i))) (seq 0 (S (n / 32))))).

Definition t_expand (prk info : bytes) (n : nat) : option bytes :=
  if (N.of_nat n <=? 8160)%N then Some (t_stream (prk ++ info) n) else None.

Definition t_xor (a b : bytes) : bytes := map (fun p => xor_byte (fst p) (snd p)) (combine a b).

Definition t_tag (k n a ct : bytes) : bytes := firstn 16 (t_hash (k ++ n ++ a ++ [x99] ++ ct)).

Definition t_seal (k n a m : bytes) : bytes * bytes :=
  let ct := t_xor m (t_stream (k ++ n) (length m)) in (ct, t_tag k n a ct).

Definition t_open (k n a ct tag : bytes) : option bytes :=
  if bytes_eqb tag (t_tag k n a ct) then Some (t_xor ct (t_stream (k ++ n) (length ct))) else None.

(** Key agreement: public key = secret (33 bytes at most), shared secret symmetric. *)
Definition t_pub (s : bytes) : bytes := firstn 33 s.
Definition t_dh (s p : bytes) : option bytes :=
  if length p =? 33 then Some (t_hash (t_xor (firstn 33 s) p)) else None.

Definition toy : crypto :=
  mk_crypto 0x1301 32 16 12 16 54 t_hash t_hmac t_extract t_expand t_seal t_open t_pub t_dh.

Lemma t_hash_length m : length (t_hash m) = 32.
Proof. reflexivity. Qed.

Lemma concat_hash_length seed l :
  length (concat (map (fun i => t_hash (seed ++ be16 (N.of_nat i))) l)) = 32 * length l.
Proof.
  induction l as [|a l IH]; [reflexivity|]. cbn [map concat length].
  rewrite app_length, t_hash_length, IH. lia.
Qed.

Lemma t_stream_length seed n : length (t_stream seed n) = n.
Proof.
  unfold t_stream. rewrite firstn_length, concat_hash_length, seq_length.
  pose proof (Nat.div_mod n 32). pose proof (Nat.mod_upper_bound n 32). lia.
Qed.

Lemma t_xor_length a b : length a = length b -> length (t_xor a b) = length a.
Proof. intros H. unfold t_xor. rewrite map_length, combine_length. lia. Qed.

Lemma xor_byte_twice a b : xor_byte (xor_byte a b) b = a.
Proof.
  apply to_N_inj. unfold xor_byte. rewrite !to_N_b8.
  pose proof (lxor_lt_256 _ _ (to_N_lt a) (to_N_lt b)) as Hlt.
  rewrite (N.mod_small (N.lxor (Byte.to_N a) (Byte.to_N b))) by assumption.
  rewrite N.lxor_assoc, N.lxor_nilpotent, N.lxor_0_r. apply N.mod_small, to_N_lt.
Qed.

Lemma t_xor_twice a b : length a = length b -> t_xor (t_xor a b) b = a.
Proof.
  revert b; induction a as [|x a IH]; intros [|y b] H; try discriminate; [reflexivity|].
  unfold t_xor in *. cbn. f_equal; [apply xor_byte_twice|]. apply IH. now inversion H.
Qed.

Theorem toy_ok : crypto_ok toy.
Proof.
  constructor; unfold toy; cbn [code_point hash_len key_len iv_len tag_len label_cap c_hash c_hmac
    c_extract c_expand c_seal c_open c_pub c_dh].
  - lia.
  - reflexivity.
  - reflexivity.
  - intros; reflexivity.
  - intros; reflexivity.
  - intros; reflexivity.
  - intros p i n o. unfold t_expand. destruct (_ <=? _)%N; intros H; inversion H. apply t_stream_length.
  - intros p i n H. unfold t_expand. destruct (N.leb_spec (N.of_nat n) 8160); [eauto|]. exfalso.
    change (n <= 255 * 32) in H. lia.
  - repeat split; lia.
  - intros k n a m. split.
    + apply t_xor_length. now rewrite t_stream_length.
    + reflexivity.
  - intros k n a c t m. unfold t_open. destruct (bytes_eqb _ _); intros H; inversion H.
    apply t_xor_length. now rewrite t_stream_length.
  - intros k n a m. unfold t_open, t_seal. cbn [fst snd]. rewrite bytes_eqb_refl. f_equal.
    rewrite t_xor_length by now rewrite t_stream_length.
    apply t_xor_twice. now rewrite t_stream_length.
  - intros s. unfold t_pub. rewrite firstn_length. lia.
  - reflexivity.
Qed.
