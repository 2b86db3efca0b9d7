(** * The parsers on bytes that are no message *)
From Coq Require Import List NArith Arith Bool Lia ZArith.
From Coq.Strings Require Import Byte.
From Coq Require Import ZifyBool ZifyNat ZifyN.
From Verif Require Import Base ParseBuffer Codes Extensions Crypto KeySchedule Config Handshake
  BaseProofs ParseProofs SpecWire SpecCodes SpecMessages WireProofs PropCodes ExtProofs SpecHandshake AcceptProofs LocalProofs
  SpecComplete MessageProofs SpecDefect.
Import ListNotations.
Ltac Zify.zify_post_hook ::= Z.div_mod_to_equations.

(** ** Numbers and slices *)

Lemma split_uint k (bs : bytes) : k <= length bs -> exists n y, bs = uint k n ++ y /\ (n < 256 ^ N.of_nat k)%N.
Proof.
  intros H. exists (be_val (firstn k bs)), (skipn k bs).
  assert (Hl : length (firstn k bs) = k) by (rewrite firstn_length; lia).
  rewrite uint_be_val, firstn_skipn by exact Hl. split; [reflexivity|]. rewrite <- Hl at 2. apply be_val_lt.
Qed.

Lemma uint_inj k a b x y : (a < 256 ^ N.of_nat k)%N -> (b < 256 ^ N.of_nat k)%N ->
  uint k a ++ x = uint k b ++ y -> a = b /\ x = y.
Proof.
  intros Ha Hb E. apply app_len_inj in E as [E ->]; [|now rewrite !uint_length]. split; [|reflexivity].
  rewrite <- (be_val_uint_small k a Ha), <- (be_val_uint_small k b Hb). now rewrite E.
Qed.

Lemma at_rest_of pre x y : at_pos (pre ++ x) [] (y ++ []) = at_pos (pre ++ x) y [].
Proof. reflexivity. Qed.

Lemma parses_on {E A} (m : P E A) x a pre y : parses m x a -> m (at_pos pre (x ++ y) []) = (Ok a, at_pos (pre ++ x) y []).
Proof. intros H. rewrite at_pos_assoc, H, at_rest_of. reflexivity. Qed.

Lemma take_short n pre bs : length bs < n -> pb_take n (at_pos pre bs []) = (Err PE_InsufficientBytes, at_pos pre bs []).
Proof.
  intros H. unfold pb_take, at_pos. cbn [pb_pos pb_buf]. rewrite app_nil_r, app_length.
  destruct (Nat.leb_spec (length pre + n) (length pre + length bs)); [lia|reflexivity].
Qed.
Lemma slice_short n pre bs : length bs < n -> pb_slice n (at_pos pre bs []) = (Err PE_InsufficientBytes, at_pos pre bs []).
Proof. intros H. unfold pb_slice, bind. now rewrite take_short. Qed.
Lemma u8_short pre bs : length bs < 1 -> read_u8 (at_pos pre bs []) = (Err PE_InsufficientBytes, at_pos pre bs []).
Proof.
  intros H. destruct bs; [|cbn in H; lia]. unfold read_u8, at_pos. cbn [pb_pos pb_buf app]. rewrite app_nil_r.
  now rewrite Nat.ltb_irrefl.
Qed.

(** The readers of numbers. *)
Definition number {A} (k : nat) (rd : P parse_error A) (val : A -> N) : Prop := forall pre,
  (forall bs, length bs < k -> rd (at_pos pre bs []) = (Err PE_InsufficientBytes, at_pos pre bs [])) /\
  (forall n y, (n < 256 ^ N.of_nat k)%N -> exists a, val a = n /\ rd (at_pos pre (uint k n ++ y) []) = (Ok a, at_pos (pre ++ uint k n) y [])).

Lemma number_be k : number k (s <- pb_take k ;; ret (be_val s)) (fun n => n).
Proof.
  intros pre. split.
  - intros bs H. unfold bind. now rewrite take_short.
  - intros n y H. exists n. split; [reflexivity|]. unfold bind. rewrite (parses_on _ _ _ _ _ (parses_take k _ (uint_length k n))).
    unfold ret. now rewrite be_val_uint_small.
Qed.
Lemma number_u16 : number 2 read_u16 (fun n => n). Proof. apply (number_be 2). Qed.
Lemma number_u24 : number 3 read_u24 (fun n => n). Proof. apply (number_be 3). Qed.
Lemma number_u32 : number 4 read_u32 (fun n => n). Proof. apply (number_be 4). Qed.
Lemma number_u8 : number 1 read_u8 Byte.to_N.
Proof.
  intros pre. split.
  - intros bs H. now apply u8_short.
  - intros n y H. change (256 ^ N.of_nat 1)%N with 256%N in H. exists (b8 n). split; [rewrite to_N_b8; apply N.mod_small, H|].
    now rewrite (parses_on _ _ _ _ _ (parses_read_u8_uint n H)).
Qed.

(** ** Fields *)

(** [m] reads the field [f]; [walks]: the fields [fs]. *)
Definition reads_field {A} (m : P tls_error A) (f : field) : Prop := forall pre bs,
  (forall e, defect f bs e -> exists p, m (at_pos pre bs []) = (Err e, p)) /\
  (forall x y, proper f x -> bs = x ++ y -> exists a, m (at_pos pre bs []) = (Ok a, at_pos (pre ++ x) y [])).

Inductive propers : list field -> bytes -> Prop :=
| ps_nil : propers [] []
| ps_cons f fs x y : proper f x -> propers fs y -> propers (f :: fs) (x ++ y).

Definition walks {A} (m : P tls_error A) (fs : list field) : Prop := forall pre bs,
  (forall e, first_defect fs bs e -> exists p, m (at_pos pre bs []) = (Err e, p)) /\
  (forall x y, propers fs x -> bs = x ++ y -> exists a, m (at_pos pre bs []) = (Ok a, at_pos (pre ++ x) y [])).

Lemma walks_ret {A} (a : A) : walks (ret a) [].
Proof.
  intros pre bs. split.
  - intros e H. inversion H.
  - intros x y H ->. inversion H. exists a. now rewrite app_nil_r.
Qed.

Lemma walks_cons {A B} (m : P tls_error A) (k : A -> P tls_error B) f fs :
  reads_field m f -> (forall a, walks (k a) fs) -> walks (bind m k) (f :: fs).
Proof.
  intros Hm Hk pre bs. destruct (Hm pre bs) as [M1 M2]. split.
  - intros e H. inversion H as [f' fs' w e' Hd|f' fs' x y e' Hp Hd]; subst.
    + destruct (M1 e Hd) as [p E]. exists p. unfold bind. now rewrite E.
    + destruct (M2 x y Hp eq_refl) as [a E]. destruct (Hk a (pre ++ x) y) as [K1 _]. destruct (K1 e Hd) as [p Ep].
      exists p. unfold bind. now rewrite E.
  - intros x y H ->. inversion H as [|f' fs' x1 x2 Hp Hps]; subst.
    destruct (M2 x1 (x2 ++ y) Hp ltac:(now rewrite app_assoc)) as [a E]. destruct (Hk a (pre ++ x1) (x2 ++ y)) as [_ K2].
    destruct (K2 x2 y Hps eq_refl) as [b Eb]. exists b. unfold bind. now rewrite E, Eb, app_assoc.
Qed.

Lemma walks_ext {A} (m m' : P tls_error A) fs : (forall p, m p = m' p) -> walks m fs -> walks m' fs.
Proof. intros E H pre bs. rewrite <- E. apply H. Qed.

Lemma walks_two {A B D} (a : P tls_error A) (b : A -> P tls_error B) (k : B -> P tls_error D) f fs :
  reads_field (x <- a ;; b x) f -> (forall x, walks (k x) fs) -> walks (x <- a ;; y <- b x ;; k y) (f :: fs).
Proof.
  intros H1 H2. eapply walks_ext; [|apply (walks_cons _ k _ _ H1 H2)].
  intros p. unfold bind. destruct (a p) as [[x|e|s| |] q]; reflexivity.
Qed.

Lemma walks_last {A} (m : P tls_error A) f : reads_field m f -> walks m [f].
Proof.
  intros H. eapply walks_ext; [|apply (walks_cons m ret f [] H); intros a; apply walks_ret].
  intros p. unfold bind, ret. now destruct (m p) as [[x|e|s| |] q].
Qed.

Lemma field_bytes {A} k (rd : P parse_error A) val g : number k rd val ->
  reads_field (map_err g rd) (Bytes k (g PE_InsufficientBytes)).
Proof.
  intros H pre bs. destruct (H pre) as [H1 H2]. split.
  - intros e Hd. inversion Hd as [n e' w Hl| | | | | | | |]; subst. eexists. unfold map_err. now rewrite H1.
  - intros x y Hp ->. cbn in Hp. destruct (H2 (be_val x) y) as (a & _ & E); [rewrite <- Hp; apply be_val_lt|].
    rewrite (uint_be_val k x Hp) in E. exists a. unfold map_err. now rewrite E.
Qed.
Lemma field_fill k g : reads_field (map_err g (pb_fill k)) (Bytes k (g PE_InsufficientBytes)).
Proof.
  intros pre bs. unfold pb_fill. split.
  - intros e Hd. inversion Hd as [n e' w Hl| | | | | | | |]; subst. eexists. unfold map_err. now rewrite take_short.
  - intros x y Hp ->. cbn in Hp. eexists. unfold map_err. now rewrite (parses_on _ _ _ _ _ (parses_take k x Hp)).
Qed.

Lemma field_code {A B} k (rd : P parse_error A) val (reg : list (N * B)) code of g e : number k rd val ->
  implements reg code of -> (forall c, In c (map fst reg) -> (c < 256 ^ N.of_nat k)%N) -> (forall pe, g pe = e) ->
  reads_field (map_err g (n <- rd ;; of_code (of (val n)))) (Code k (map fst reg) e).
Proof.
  intros H Hi Hlt Hg pre bs. destruct (H pre) as [H1 H2]. split.
  - intros e0 Hd. inversion Hd as [|n codes e' w Hl|n codes e' c y Hc Hn| | | | | |]; subst.
    + eexists. unfold map_err, bind. rewrite H1 by exact Hl. cbn [omap_err]. now rewrite Hg.
    + destruct (H2 c y Hc) as (a & Ha & E). eexists. unfold map_err, bind. rewrite E. unfold of_code, lift, ok_or. rewrite Ha.
      destruct (of c) as [z|] eqn:Eo; [|cbn [omap_err]; now rewrite Hg].
      exfalso. apply Hn, (of_registry _ _ _ _ Hi). exists z. split; [exact Eo|].
      destruct Hi as (I1 & I2 & I3 & I4). apply I2 in Eo. eapply I4; [apply I1|exact Eo].
  - intros x y (c & Hc & ->) ->. destruct (H2 c y (Hlt c Hc)) as (a & Ha & E).
    apply (of_registry _ _ _ _ Hi) in Hc as (z & Hz & _). exists z. unfold map_err, bind. rewrite E.
    unfold of_code, lift, ok_or. now rewrite Ha, Hz.
Qed.

Lemma field_vec {A} k (rd : P parse_error A) val g g' : number k rd val ->
  reads_field (n <- map_err g rd ;; map_err g' (pb_slice (N.to_nat (val n)))) (Vector k (g PE_InsufficientBytes) (g' PE_InsufficientBytes)).
Proof.
  intros H pre bs. destruct (H pre) as [H1 H2]. split.
  - intros e0 Hd. inversion Hd as [| | |k' e e' w Hl|k' e e' n y Hn Hl| | | |]; subst.
    + eexists. unfold bind, map_err. now rewrite H1.
    + destruct (H2 n y Hn) as (a & Ha & E). eexists. unfold bind, map_err. rewrite E. cbn [omap_err]. rewrite Ha, slice_short by lia. reflexivity.
  - intros x y (b & Hb & ->) ->. destruct (H2 (N.of_nat (length b)) (b ++ y) Hb) as (a & Ha & E).
    eexists. unfold bind, map_err, vec. rewrite <- app_assoc, E. cbn [omap_err]. rewrite Ha, Nat2N.id.
    rewrite (parses_on _ _ _ _ _ (parses_slice _ b eq_refl)). cbn [omap_err]. now rewrite app_assoc.
Qed.

(** ** Extensions *)

Lemma ext_cut g pre r : (forall i y, item_ok i -> r <> item_wire i ++ y) ->
  exists p, ext_parse g (at_pos pre r []) = (Err DecodeError, p).
Proof.
  intros H. unfold ext_parse. unfold bind at 1, attempt at 1.
  destruct (Nat.lt_ge_cases (length r) 2) as [H2|H2].
  { assert (E : pq parse_ext_type (at_pos pre r []) = (Err (ParseErr PE_InsufficientBytes), at_pos pre r [])).
    { unfold pq, map_err, parse_ext_type, bind. now rewrite (proj1 (number_u16 pre) r H2). }
    rewrite E. eexists. unfold bind at 1, map_err. rewrite (proj1 (number_u16 pre) r H2). reflexivity. }
  destruct (split_uint 2 r H2) as (t & y & -> & Ht). change (256 ^ N.of_nat 2)%N with 65536%N in Ht.
  assert (E : exists o, pq parse_ext_type (at_pos pre (uint 2 t ++ y) []) = (o, at_pos (pre ++ uint 2 t) y []) /\
    ((exists ty, o = Ok ty) \/ exists e, o = Err e)).
  { unfold pq, map_err, parse_ext_type, bind. destruct (proj2 (number_u16 pre) t y Ht) as (a & _ & E). rewrite E.
    unfold of_code, lift, ok_or. destruct (ext_type_of a); cbn; eauto 6. }
  destruct E as (o & E & Ho). rewrite E. set (pre' := pre ++ uint 2 t) in *.
  assert (G : forall (F : pbuf -> P tls_error extension), exists p, (n <- map_err (fun _ : parse_error => DecodeError) read_u16;;
    d <- map_err (fun _ : parse_error => DecodeError) (pb_slice (N.to_nat n)) ;; F d) (at_pos pre' y []) = (Err DecodeError, p)).
  { intros F. destruct (Nat.lt_ge_cases (length y) 2) as [H3|H3].
    - eexists. unfold bind at 1, map_err. rewrite (proj1 (number_u16 pre') y H3). reflexivity.
    - destruct (split_uint 2 y H3) as (n & z & -> & Hn). destruct (proj2 (number_u16 pre') n z Hn) as (a & <- & En).
      eexists. unfold bind at 1, map_err at 1. rewrite En. cbn [omap_err]. unfold bind, map_err. rewrite slice_short; [reflexivity|].
      change (256 ^ N.of_nat 2)%N with 65536%N in Hn.
      destruct (Nat.lt_ge_cases (length z) (N.to_nat a)) as [|Hge]; [assumption|]. exfalso.
      apply (H (t, firstn (N.to_nat a) z) (skipn (N.to_nat a) z)).
      + split; [exact Ht|]. cbn [snd]. apply fits_2. rewrite firstn_length. lia.
      + unfold item_wire, vec. cbn [fst snd]. rewrite firstn_length, Nat.min_l by lia. rewrite N2Nat.id, <- !app_assoc, firstn_skipn. reflexivity. }
  destruct Ho as [[ty ->]|[e ->]]; apply G.
Qed.

Lemma loop_good g cap : forall items fuel acc0 pre r xs, Forall item_ok items -> length (items_wire items ++ r) < fuel ->
  block_result g cap acc0 items = Ok xs ->
  exists fuel', length r < fuel' /\
    ext_vector_loop g fuel cap acc0 (at_pos pre (items_wire items ++ r) [])
    = ext_vector_loop g fuel' cap xs (at_pos (pre ++ items_wire items) r []).
Proof.
  induction items as [|[t b] items IH]; intros fuel acc0 pre r xs Hok Hf Hb.
  - cbn [block_result] in Hb. injection Hb as <-. exists fuel. cbn [items_wire map concat app] in *. rewrite app_nil_r. auto.
  - destruct fuel as [|fuel]; [lia|]. inversion Hok as [|? ? H1 H2]; subst.
    unfold items_wire in *. cbn [map concat] in *. rewrite <- app_assoc in *. rewrite app_length, item_wire_length in Hf.
    cbn [ext_vector_loop]. rewrite pb_is_empty_at, app_length, item_wire_length. cbn [snd Nat.add Nat.eqb].
    rewrite at_pos_assoc, (ext_parse_item g t b H1). cbn [block_result] in Hb. rewrite at_rest_of, app_assoc.
    destruct (ext_type_of t) as [ty|].
    + destruct (g ty) as [m|]; [|discriminate]. destruct (fst (m (pb_new b))) as [x|e|s| |]; try discriminate.
      destruct (length acc0 <? cap); [|discriminate]. apply IH; [assumption|lia|exact Hb].
    + apply IH; [assumption|lia|exact Hb].
Qed.

Lemma block_result_count g cap : forall items acc0 xs, block_result g cap acc0 items = Ok xs ->
  length xs = length acc0 + length (recognised_items items).
Proof.
  induction items as [|[t b] items IH]; intros acc0 xs H; cbn [block_result] in H.
  - injection H as <-. cbn. lia.
  - rewrite recognised_items_cons. unfold recognised_b. destruct (ext_type_of t) as [ty|].
    + destruct (g ty) as [m|]; [|discriminate]. destruct (fst (m (pb_new b))) as [x|e|s| |]; try discriminate.
      destruct (length acc0 <? cap); [|discriminate]. apply IH in H. rewrite app_length in H. cbn [app length] in *. lia.
    + apply IH in H. exact H.
Qed.

Lemma cap_most m : msg_cap m = most_extensions m.
Proof. now destruct m. Qed.

Lemma recognised_type t : recognised t -> exists ty, ext_type_of t = Some ty /\ ext_type_code ty = t.
Proof. intros H. now apply recognised_of in H. Qed.

Lemma content_no_panic m ty p b : msg_group m ty = Some p -> (exists x, fst (p (pb_new b)) = Ok x) \/ exists e, fst (p (pb_new b)) = Err e.
Proof.
  intros H. assert (Hs : psafe0 p).
  { destruct m; cbn [msg_group] in H; [eapply safe_grp_server_hello|eapply safe_grp_encrypted_ext|eapply safe_grp_cert_request|eapply safe_grp_certificate|eapply safe_grp_new_session_ticket]; exact H. }
  specialize (Hs (pb_new b) (pwf_new b)).
  destruct (p (pb_new b)) as [[x|e|s| |] q]; cbn [fst]; eauto; contradiction.
Qed.

(** The loop meets an extension it does not take. *)
Lemma loop_bad m pre r e xs fuel : length r < fuel -> bad_extension m (length xs) r e ->
  ext_vector_loop (msg_group m) fuel (msg_cap m) xs (at_pos pre r []) = Err e.
Proof.
  intros Hf H. destruct fuel as [|fuel]; [lia|]. cbn [ext_vector_loop]. rewrite pb_is_empty_at.
  assert (Hitem : forall t b y, item_ok (t, b) -> (length (item_wire (t, b) ++ y) =? 0) = false).
  { intros t b y _. rewrite app_length, item_wire_length. reflexivity. }
  inversion H as [r' Hne Hcut|t b y Hi Hr Hn|t b y Hi Hr Ha Hc|t b y Hi Hr Ha Hc Hm]; subst r e.
  - destruct (Nat.eqb_spec (length r') 0) as [El|_]; [destruct r'; [congruence|discriminate]|].
    destruct (ext_cut (msg_group m) pre r' Hcut) as [p E]. now rewrite E.
  - rewrite (Hitem t b y Hi), at_pos_assoc, (ext_parse_item _ t b Hi). apply recognised_type in Hr as (ty & -> & <-).
    destruct (msg_group m ty) eqn:Eg; [|reflexivity]. exfalso. apply Hn, allowed_group. congruence.
  - rewrite (Hitem t b y Hi), at_pos_assoc, (ext_parse_item _ t b Hi). apply recognised_type in Hr as (ty & -> & <-).
    apply allowed_group in Ha. destruct (msg_group m ty) as [p|] eqn:Eg; [|congruence].
    destruct (content_no_panic m ty p b Eg) as [[x Hx]|[e Hx]]; rewrite Hx; [|reflexivity].
    exfalso. apply Hc, (content_iff m ty p b Eg). now exists x.
  - rewrite (Hitem t b y Hi), at_pos_assoc, (ext_parse_item _ t b Hi). apply recognised_type in Hr as (ty & -> & <-).
    apply allowed_group in Ha. destruct (msg_group m ty) as [p|] eqn:Eg; [|congruence].
    destruct (proj2 (content_iff m ty p b Eg) Hc) as [x Hx]. rewrite Hx.
    rewrite (proj2 (Nat.ltb_ge _ _)); [reflexivity|]. rewrite cap_most. lia.
Qed.

Lemma field_extensions m : reads_field (ext_parse_vector (msg_group m) (msg_cap m)) (Extensions m).
Proof.
  intros pre bs. split.
  - intros e Hd. inversion Hd as [| | | | |m' w e' Hb| | |]; subst. unfold ext_parse_vector.
    inversion Hb as [w Hl|n y Hn Hl|good r e' y Hok Hdig Hfit Hbad]; subst.
    + eexists. unfold bind at 1, map_err at 1. now rewrite (proj1 (number_u16 pre) bs Hl).
    + destruct (proj2 (number_u16 pre) n y Hn) as (a & <- & E). eexists. unfold bind at 1, map_err at 1. rewrite E. cbn [omap_err].
      unfold bind at 1, pq, map_err at 1. rewrite slice_short by lia. reflexivity.
    + destruct (proj2 (number_u16 pre) (N.of_nat (length (items_wire good ++ r))) ((items_wire good ++ r) ++ y) Hfit) as (a & -> & E).
      unfold bind at 1, map_err at 1, vec. rewrite <- app_assoc, E. cbn [omap_err]. unfold bind at 1, pq, map_err at 1.
      rewrite Nat2N.id, (parses_on _ _ _ _ _ (parses_slice _ (items_wire good ++ r) eq_refl)). cbn [omap_err]. unfold lift.
      apply digestible_iff in Hdig as [xs Hxs]. rewrite pb_new_at.
      destruct (loop_good _ _ good (S (length (items_wire good ++ r))) [] [] r xs Hok (Nat.lt_succ_diag_r _) Hxs) as (fuel & Hf & El).
      rewrite El. apply block_result_count in Hxs. cbn [length Nat.add] in Hxs. rewrite <- Hxs in Hbad.
      rewrite (loop_bad m _ r e xs fuel Hf Hbad). eexists. reflexivity.
  - intros x y (items & Hok & Hdig & ->) ->. apply digestible_iff in Hdig as [xs Hxs]. exists xs.
    rewrite at_pos_assoc, (ext_vector_items _ _ _ Hok), Hxs. reflexivity.
Qed.

(** ** Every byte string *)

Lemma content_dec m t b : recognised t -> In t (rfc_allowed m) -> content_ok m t b \/ ~ content_ok m t b.
Proof.
  intros Hr Ha. apply recognised_type in Hr as (ty & _ & <-). apply allowed_group in Ha.
  destruct (msg_group m ty) as [p|] eqn:Eg; [|congruence].
  destruct (content_no_panic m ty p b Eg) as [[x Hx]|[e Hx]].
  - left. apply (content_iff m ty p b Eg). now exists x.
  - right. intros Hc. destruct (proj2 (content_iff m ty p b Eg) Hc) as [x E]. congruence.
Qed.

(** A piece with a length of its own, or not. *)
Lemma piece_total k (bs : bytes) : length bs < k \/
  (exists n y, bs = uint k n ++ y /\ (n < 256 ^ N.of_nat k)%N /\ (N.of_nat (length y) < n)%N) \/
  exists b y, bs = vec k b ++ y /\ fits k b.
Proof.
  destruct (Nat.lt_ge_cases (length bs) k) as [H|H]; [now left|]. right.
  destruct (split_uint k bs H) as (n & y & -> & Hn). destruct (N.lt_ge_cases (N.of_nat (length y)) n) as [Hl|Hl].
  - left. eauto.
  - right. exists (firstn (N.to_nat n) y), (skipn (N.to_nat n) y).
    assert (E : length (firstn (N.to_nat n) y) = N.to_nat n) by (rewrite firstn_length; lia).
    unfold vec, fits. rewrite E, N2Nat.id, <- app_assoc, firstn_skipn. auto.
Qed.

Lemma item_total (bs : bytes) : bs = [] \/ (bs <> [] /\ forall i y, item_ok i -> bs <> item_wire i ++ y) \/
  exists t b y, item_ok (t, b) /\ bs = item_wire (t, b) ++ y.
Proof.
  destruct bs as [|b0 bs0]; [now left|]. set (bs := b0 :: bs0). right. assert (Hne : bs <> []) by discriminate. clearbody bs.
  destruct (Nat.lt_ge_cases (length bs) 2) as [H|H].
  { left. split; [exact Hne|]. intros i y _ E. rewrite E, app_length, item_wire_length in H. lia. }
  destruct (split_uint 2 bs H) as (t & y & -> & Ht). destruct (piece_total 2 y) as [Hl|[(n & z & -> & Hn & Hl)|(b & z & -> & Hb)]].
  - left. split; [exact Hne|]. intros [t' b'] z _ E. apply (f_equal (@length byte)) in E.
    rewrite !app_length, item_wire_length, uint_length in E. lia.
  - left. split; [exact Hne|]. intros [t' b'] y' [Hi1 Hi2] E. unfold item_wire, vec in E. cbn [fst snd] in *.
    rewrite <- !app_assoc in E. apply uint_inj in E as [_ E]; [|exact Ht|exact Hi1].
    apply uint_inj in E as [-> ->]; [|exact Hn|exact Hi2]. rewrite app_length in Hl. lia.
  - right. exists t, b, z. split; [split; [exact Ht|exact Hb]|]. unfold item_wire. cbn [fst snd]. now rewrite <- app_assoc.
Qed.

Lemma recognised_dec t : recognised t \/ ~ recognised t.
Proof. destruct (recognised_b t) eqn:E; [left|right]; rewrite <- recognised_b_iff; congruence. Qed.

Lemma items_wire_app a b : items_wire (a ++ b) = items_wire a ++ items_wire b.
Proof. unfold items_wire. now rewrite map_app, concat_app. Qed.

Lemma digestible_more m good t b : digestible m good ->
  (recognised t -> In t (rfc_allowed m) /\ content_ok m t b /\ length (recognised_items good) <> most_extensions m) ->
  digestible m (good ++ [(t, b)]).
Proof.
  intros [H1 H2] H. unfold digestible.
  assert (E : recognised_items (good ++ [(t, b)]) = recognised_items good ++ if recognised_b t then [(t, b)] else []).
  { unfold recognised_items at 1. rewrite filter_app. f_equal. pose proof (recognised_items_cons t b []) as E. rewrite app_nil_r in E. exact E. }
  rewrite E, app_length. destruct (recognised_b t) eqn:Er.
  - apply recognised_b_iff in Er. destruct (H Er) as (Ha & Hc & Hn). split; [|cbn [length]; lia].
    intros t0 b0 Hin. apply in_app_or in Hin as [Hin|[Hin|[]]]; [auto|]. apply pair_equal_spec in Hin as [<- <-]. auto.
  - rewrite app_nil_r, Nat.add_0_r. auto.
Qed.

Lemma items_total m : forall k (bs : bytes) good, length bs < k -> Forall item_ok good -> digestible m good ->
  (exists items, items_wire good ++ bs = items_wire items /\ Forall item_ok items /\ digestible m items) \/
  exists good' r e, items_wire good ++ bs = items_wire good' ++ r /\ Forall item_ok good' /\ digestible m good' /\
    bad_extension m (length (recognised_items good')) r e.
Proof.
  induction k as [|k IH]; intros bs good Hk Hok Hd; [lia|].
  destruct (item_total bs) as [->|[[Hne Hcut]|(t & b & y & Hi & ->)]].
  - left. exists good. now rewrite app_nil_r.
  - right. exists good, bs, DecodeError. repeat (split; [auto|]). now apply be_cut.
  - assert (Hgo : digestible m (good ++ [(t, b)]) ->
      (exists items, items_wire good ++ item_wire (t, b) ++ y = items_wire items /\ Forall item_ok items /\ digestible m items) \/
      exists good' r e, items_wire good ++ item_wire (t, b) ++ y = items_wire good' ++ r /\ Forall item_ok good' /\ digestible m good' /\
    bad_extension m (length (recognised_items good')) r e).
    { intros Hd'. rewrite app_length, item_wire_length in Hk.
      assert (Hok' : Forall item_ok (good ++ [(t, b)])) by (apply Forall_app; auto).
      specialize (IH y (good ++ [(t, b)]) ltac:(lia) Hok' Hd'). rewrite items_wire_app, <- app_assoc in IH.
      unfold items_wire in IH at 2 5. cbn [map concat] in IH. rewrite app_nil_r in IH. exact IH. }
    assert (Hbad : forall e, bad_extension m (length (recognised_items good)) (item_wire (t, b) ++ y) e ->
      exists good' r e, items_wire good ++ item_wire (t, b) ++ y = items_wire good' ++ r /\ Forall item_ok good' /\ digestible m good' /\
    bad_extension m (length (recognised_items good')) r e).
    { intros e He. exists good, (item_wire (t, b) ++ y), e. auto. }
    destruct (recognised_dec t) as [Hr|Hr]; [|apply Hgo, digestible_more; [exact Hd|contradiction]].
    destruct (in_dec N.eq_dec t (rfc_allowed m)) as [Ha|Ha]; [|right; eapply Hbad, be_misplaced; auto].
    destruct (content_dec m t b Hr Ha) as [Hc|Hc]; [|right; eapply Hbad, be_content; auto].
    destruct (Nat.eq_dec (length (recognised_items good)) (most_extensions m)) as [En|En]; [right; eapply Hbad, be_many; auto|].
    apply Hgo, digestible_more; auto.
Qed.

Lemma block_total m bs : (exists items y, bs = ext_block items ++ y /\ block_ok items /\ digestible m items) \/ exists e, bad_block m bs e.
Proof.
  destruct (piece_total 2 bs) as [Hl|[(n & y & -> & Hn & Hl)|(b & y & -> & Hb)]].
  - right. exists InvalidExtensionsLength. now apply bb_length.
  - right. exists short. now apply bb_body.
  - assert (H0 : digestible m []) by (split; [intros t0 b0 []|cbn; lia]).
    destruct (items_total m (S (length b)) b [] (Nat.lt_succ_diag_r _) (Forall_nil _) H0) as [(items & E & Hok & Hd)|(good & r & e & E & Hok & Hd & He)];
      cbn [items_wire map concat app] in E; subst b.
    + left. exists items, y. split; [reflexivity|]. split; [split; assumption|exact Hd].
    + right. exists e. now apply bb_items.
Qed.

(** ** Certificates *)

Lemma entry_good pre en y : good_entry en -> parse_cert_entry (at_pos pre (entry_wire en ++ y) []) = (Ok (CE_X509 (fst en)), at_pos (pre ++ entry_wire en) y []).
Proof. intros H. apply parses_on, entry_parses, H. Qed.

Lemma entry_bad pre r e n : bad_entry n r e ->
  (exists p, parse_cert_entry (at_pos pre r []) = (Err e, p)) \/
  n = 16 /\ e = DecodeError /\ exists en y, good_entry en /\ r = entry_wire en ++ y.
Proof.
  intros H. unfold parse_cert_entry. inversion H as [r' Hne Hl|l y Hl Hs|cert y e' Hc Hb|en y Hg Hm]; subst; [left|left|left|right; eauto 6].
  - eexists. unfold bind at 1, map_err at 1. now rewrite (proj1 (number_u24 pre) r Hl).
  - destruct (proj2 (number_u24 pre) l y Hl) as (a & <- & E). eexists. unfold bind at 1, map_err at 1. rewrite E. cbn [omap_err].
    unfold bind at 1, map_err at 1. rewrite slice_short by lia. reflexivity.
  - destruct (proj2 (number_u24 pre) (N.of_nat (length cert)) (cert ++ y) Hc) as (a & -> & E).
    unfold bind at 1, map_err at 1, vec. rewrite <- app_assoc, E. cbn [omap_err]. unfold bind at 1, map_err at 1.
    rewrite Nat2N.id, (parses_on _ _ _ _ _ (parses_slice _ cert eq_refl)). cbn [omap_err].
    destruct (proj1 (field_extensions InCertificate ((pre ++ uint 3 (N.of_nat (length cert))) ++ cert) y) e (df_extensions _ _ _ Hb)) as [p Ep].
    exists p. unfold bind at 1. cbn [msg_group msg_cap] in Ep. now rewrite Ep.
Qed.

Lemma entry_wire_pos en : 0 < length (entry_wire en).
Proof. pose proof (entry_wire_ne en). destruct (entry_wire en); [congruence|cbn; lia]. Qed.

Lemma entries_good : forall ens fuel acc0 pre r, Forall good_entry ens -> length acc0 + length ens <= 16 ->
  length (concat (map entry_wire ens) ++ r) < fuel ->
  exists fuel', length r < fuel' /\
    cert_entries_loop fuel 16 acc0 (at_pos pre (concat (map entry_wire ens) ++ r) [])
    = cert_entries_loop fuel' 16 (acc0 ++ map CE_X509 (map fst ens)) (at_pos (pre ++ concat (map entry_wire ens)) r []).
Proof.
  induction ens as [|en ens IH]; intros fuel acc0 pre r Hg Hc Hf.
  - exists fuel. cbn [map concat app] in *. now rewrite !app_nil_r.
  - inversion Hg as [|? ? H1 H2]; subst. cbn [map concat length] in *. rewrite <- app_assoc in *. rewrite app_length in Hf.
    pose proof (entry_wire_pos en). destruct fuel as [|fuel]; [lia|]. cbn [cert_entries_loop]. rewrite pb_is_empty_at.
    rewrite (proj2 (Nat.eqb_neq _ _)) by (rewrite app_length; lia). rewrite (entry_good pre en _ H1).
    rewrite (proj2 (Nat.ltb_lt _ _)) by lia.
    destruct (IH fuel (acc0 ++ [CE_X509 (fst en)]) (pre ++ entry_wire en) r H2) as (fuel' & Hf' & E); [rewrite app_length; cbn [length]; lia|lia|].
    exists fuel'. split; [exact Hf'|]. rewrite E, <- !app_assoc. reflexivity.
Qed.

Lemma entries_bad pre r e acc0 fuel : length r < fuel -> bad_entry (length acc0) r e ->
  cert_entries_loop fuel 16 acc0 (at_pos pre r []) = Err e.
Proof.
  intros Hf H. destruct fuel as [|fuel]; [lia|]. cbn [cert_entries_loop]. rewrite pb_is_empty_at.
  assert (Hne : length r <> 0).
  { inversion H as [r' Hne Hl|l y Hl Hs|cert y e' Hc Hb|en y Hg Hm]; subst.
    - destruct r; [congruence|discriminate].
    - rewrite app_length, uint_length. lia.
    - rewrite app_length, vec_length. lia.
    - pose proof (entry_wire_pos en). rewrite app_length. lia. }
  rewrite (proj2 (Nat.eqb_neq _ _) Hne).
  destruct (entry_bad pre r e (length acc0) H) as [[p E]|(Hn & -> & en & y & Hg & ->)]; [now rewrite E|].
  rewrite (entry_good pre en y Hg), (proj2 (Nat.ltb_ge _ _)) by lia. reflexivity.
Qed.

Definition read_entries : P tls_error (pbuf * list cert_entry) :=
  el <- map_err (fun _ => InvalidCertificate) read_u24 ;;
  raw <- map_err (fun _ => InvalidCertificate) (pb_slice (N.to_nat el)) ;;
  es <- lift (parse_cert_entries 16 raw) ;; ret (raw, es).

Lemma field_certificates : reads_field read_entries Certificates.
Proof.
  intros pre bs. unfold read_entries. split.
  - intros e Hd. inversion Hd as [| | | | | |w Hl|n y Hn Hl|good r e' y Hg Hc Hfit Hb]; subst.
    + eexists. unfold bind at 1, map_err at 1. now rewrite (proj1 (number_u24 pre) bs Hl).
    + destruct (proj2 (number_u24 pre) n y Hn) as (a & <- & E). eexists. unfold bind at 1, map_err at 1. rewrite E. cbn [omap_err].
      unfold bind at 1, map_err at 1. rewrite slice_short by lia. reflexivity.
    + set (body := concat (map entry_wire good) ++ r) in *.
      destruct (proj2 (number_u24 pre) (N.of_nat (length body)) (body ++ y) Hfit) as (a & -> & E).
      unfold bind at 1, map_err at 1, vec. rewrite <- app_assoc, E. cbn [omap_err]. unfold bind at 1, map_err at 1.
      rewrite Nat2N.id, (parses_on _ _ _ _ _ (parses_slice _ body eq_refl)). cbn [omap_err]. unfold bind at 1, lift at 1, parse_cert_entries.
      cbn [pb_buf pb_new]. change (mk_pbuf 0 body) with (pb_new body). rewrite pb_new_at.
      destruct (entries_good good (S (length body)) [] [] r Hg Hc (Nat.lt_succ_diag_r _)) as (fuel & Hf & El). fold body in El.
      rewrite El, (entries_bad _ r e); [eexists; reflexivity|exact Hf|]. cbn [app]. rewrite !map_length. exact Hb.
  - intros x y (ens & Hfit & Hg & Hc & ->) ->. set (body := concat (map entry_wire ens)) in *.
    destruct (proj2 (number_u24 pre) (N.of_nat (length body)) (body ++ y) Hfit) as (a & -> & E).
    unfold bind at 1, map_err at 1, vec. rewrite <- app_assoc, E. cbn [omap_err]. unfold bind at 1, map_err at 1.
    rewrite Nat2N.id, (parses_on _ _ _ _ _ (parses_slice _ body eq_refl)). cbn [omap_err]. unfold bind at 1, lift at 1, parse_cert_entries.
    cbn [pb_buf pb_new]. change (mk_pbuf 0 body) with (pb_new body). rewrite pb_new_at.
    rewrite (proj2 (entries_iff 16 _ [] [] _ (Nat.lt_succ_diag_r _) (Nat.le_0_l 16) (map CE_X509 (map fst ens)))).
    + eexists. unfold ret. now rewrite app_assoc.
    + exists ens. split; [reflexivity|]. split; [exact Hg|]. split; [reflexivity|]. now rewrite !map_length.
Qed.

Lemma entries_total : forall k (bs : bytes) good, length bs < k -> Forall good_entry good -> length good <= 16 ->
  (exists ens, concat (map entry_wire good) ++ bs = concat (map entry_wire ens) /\ Forall good_entry ens /\ length ens <= 16) \/
  exists good' r e, concat (map entry_wire good) ++ bs = concat (map entry_wire good') ++ r /\ Forall good_entry good' /\ length good' <= 16 /\
    bad_entry (length good') r e.
Proof.
  induction k as [|k IH]; intros bs good Hk Hg Hc; [lia|].
  destruct bs as [|b0 bs0]; [left; exists good; now rewrite app_nil_r|]. set (bs := b0 :: bs0) in *.
  assert (Hne : bs <> []) by discriminate. clearbody bs.
  destruct (piece_total 3 bs) as [Hl|[(n & y & -> & Hn & Hl)|(cert & y & -> & Hf)]].
  - right. exists good, bs, InvalidCertificateEntry. repeat (split; [auto|]). now apply bn_length.
  - right. exists good, (uint 3 n ++ y), InvalidCertificateEntry. repeat (split; [auto|]). now apply bn_body.
  - destruct (block_total InCertificate y) as [(items & z & -> & Hok & Hd)|[e He]].
    2:{ right. exists good, (vec 3 cert ++ y), e. repeat (split; [auto|]). now apply bn_extensions. }
    assert (He : good_entry (cert, items)) by (split; [exact Hf|split; assumption]).
    assert (Ew : vec 3 cert ++ ext_block items ++ z = entry_wire (cert, items) ++ z) by (unfold entry_wire; cbn [fst snd]; now rewrite app_assoc).
    rewrite Ew in *. destruct (Nat.eq_dec (length good) 16) as [E16|E16].
    + right. exists good, (entry_wire (cert, items) ++ z), DecodeError. repeat (split; [auto|]). now apply bn_many.
    + pose proof (entry_wire_pos (cert, items)). rewrite app_length in Hk.
      specialize (IH z (good ++ [(cert, items)]) ltac:(lia) ltac:(apply Forall_app; auto) ltac:(rewrite app_length; cbn [length]; lia)).
      rewrite map_app, concat_app, <- app_assoc in IH. cbn [map concat] in IH. rewrite app_nil_r in IH. exact IH.
Qed.

(** ** Totality *)

Lemma field_total f bs : (exists x y, bs = x ++ y /\ proper f x) \/ exists e, defect f bs e.
Proof.
  destruct f as [n e|n codes e|k e e'|m|]; cbn [proper].
  - destruct (Nat.lt_ge_cases (length bs) n) as [H|H]; [right; exists e; now apply df_bytes|].
    left. exists (firstn n bs), (skipn n bs). rewrite firstn_skipn, firstn_length. split; [reflexivity|lia].
  - destruct (Nat.lt_ge_cases (length bs) n) as [H|H]; [right; exists e; now apply df_code_short|].
    destruct (split_uint n bs H) as (c & y & -> & Hc). destruct (in_dec N.eq_dec c codes) as [Hi|Hi]; [left|right].
    + exists (uint n c), y. eauto.
    + exists e. now apply df_code.
  - destruct (piece_total k bs) as [H|[(n & y & -> & Hn & Hl)|(b & y & -> & Hb)]].
    + right. exists e. now apply df_length.
    + right. exists e'. now apply df_body.
    + left. exists (vec k b), y. eauto.
  - destruct (block_total m bs) as [(items & y & -> & Hok & Hd)|[e He]].
    + left. exists (ext_block items), y. eauto 6.
    + right. exists e. now apply df_extensions.
  - destruct (piece_total 3 bs) as [H|[(n & y & -> & Hn & Hl)|(b & y & -> & Hb)]].
    + right. eexists. now apply df_list_length.
    + right. eexists. now apply df_list_body.
    + destruct (entries_total (S (length b)) b [] (Nat.lt_succ_diag_r _) (Forall_nil _) (Nat.le_0_l 16)) as [(ens & E & Hg & Hc)|(good & r & e & E & Hg & Hc & He)];
        cbn [map concat app] in E; subst b.
      * left. exists (vec 3 (concat (map entry_wire ens))), y. split; [reflexivity|]. exists ens. auto.
      * right. exists e. now apply df_entry.
Qed.

Lemma fields_total : forall fs bs, (exists x y, bs = x ++ y /\ propers fs x) \/ exists e, first_defect fs bs e.
Proof.
  induction fs as [|f fs IH]; intros bs.
  - left. exists [], bs. split; [reflexivity|constructor].
  - destruct (field_total f bs) as [(x & y & -> & Hp)|[e He]]; [|right; exists e; now apply fd_here].
    destruct (IH y) as [(x' & z & -> & Hps)|[e He]].
    + left. exists (x ++ x'), z. split; [now rewrite app_assoc|now constructor].
    + right. exists e. now apply fd_later.
Qed.

(** ** Messages *)

Lemma small_codes {A} (reg : list (N * A)) k : forallb (fun c => (c <? 256 ^ N.of_nat k)%N) (map fst reg) = true ->
  forall c, In c (map fst reg) -> (c < 256 ^ N.of_nat k)%N.
Proof. intros H c Hc. rewrite forallb_forall in H. apply N.ltb_lt, H, Hc. Qed.

Lemma walks_server_hello : walks parse_server_hello
  [Bytes 2 InvalidHandshake; Bytes 32 short; Vector 1 InvalidSessionIdLength InvalidSessionIdLength;
   Code 2 (map fst iana_cipher_suite) InvalidCipherSuite; Bytes 1 short; Extensions InServerHello].
Proof.
  unfold parse_server_hello. apply walks_cons; [apply (field_bytes 2 _ _ (fun _ => InvalidHandshake) number_u16)|intros _].
  apply walks_cons; [apply (field_fill 32 ParseErr)|intros _].
  apply walks_two; [apply (field_vec 1 _ _ (fun _ => InvalidSessionIdLength) (fun _ => InvalidSessionIdLength) number_u8)|intros _].
  apply walks_cons; [apply (field_code 2 _ _ _ _ _ (fun _ => InvalidCipherSuite) InvalidCipherSuite number_u16 C03_cipher_suite); [now apply small_codes|reflexivity]|intros _].
  apply walks_cons; [apply (field_bytes 1 _ _ ParseErr number_u8)|intros _].
  apply walks_last, (field_extensions InServerHello).
Qed.

Lemma walks_ticket : walks parse_new_session_ticket
  [Bytes 4 short; Bytes 4 short; Vector 1 short InvalidNonceLength; Vector 2 short InvalidTicketLength; Extensions InNewSessionTicket].
Proof.
  unfold parse_new_session_ticket. apply walks_cons; [apply (field_bytes 4 _ _ ParseErr number_u32)|intros _].
  apply walks_cons; [apply (field_bytes 4 _ _ ParseErr number_u32)|intros _].
  apply walks_two; [apply (field_vec 1 _ _ ParseErr (fun _ => InvalidNonceLength) number_u8)|intros _].
  apply walks_two; [apply (field_vec 2 _ _ ParseErr (fun _ => InvalidTicketLength) number_u16)|intros _].
  apply walks_cons; [apply (field_extensions InNewSessionTicket)|intros _]. apply walks_ret.
Qed.

Lemma walks_certificate : walks parse_certificate [Vector 1 InvalidCertificate InvalidCertificate; Certificates].
Proof.
  unfold parse_certificate. apply walks_two; [apply (field_vec 1 _ _ (fun _ => InvalidCertificate) (fun _ => InvalidCertificate) number_u8)|intros ctx].
  eapply walks_ext; [|apply (walks_cons read_entries (fun q => ret (mk_cert (pb_as_slice (fst q)) (pb_as_slice ctx) (snd q))) Certificates [] field_certificates); intros a; apply walks_ret].
  intros p. unfold read_entries, bind, map_err, lift, ret. destruct (read_u24 p) as [[n|e|s| |] q]; try reflexivity. cbn [omap_err].
  destruct (pb_slice (N.to_nat n) q) as [[raw|e|s| |] q']; try reflexivity. cbn [omap_err].
  destruct (parse_cert_entries 16 raw); reflexivity.
Qed.

Lemma walks_request : walks parse_certificate_request [Vector 1 InvalidCertificateRequest InvalidCertificateRequest; Extensions InCertificateRequest].
Proof.
  unfold parse_certificate_request. apply walks_two; [apply (field_vec 1 _ _ (fun _ => InvalidCertificateRequest) (fun _ => InvalidCertificateRequest) number_u8)|intros ctx].
  apply walks_cons; [apply (field_extensions InCertificateRequest)|intros _]. apply walks_ret.
Qed.

Lemma walks_verify : walks parse_certificate_verify [Code 2 (map fst iana_sig_scheme) InvalidSignatureScheme; Vector 2 InvalidSignature InvalidSignature].
Proof.
  unfold parse_certificate_verify, parse_sig_scheme.
  apply walks_cons; [apply (field_code 2 _ _ _ _ _ (fun _ => InvalidSignatureScheme) InvalidSignatureScheme number_u16 C03_signature_scheme); [now apply small_codes|reflexivity]|intros sc].
  apply walks_two; [apply (field_vec 2 _ _ (fun _ => InvalidSignature) (fun _ => InvalidSignature) number_u16)|intros d]. apply walks_ret.
Qed.

Lemma walks_more {A B} (m : P tls_error A) (g : A -> B) fs : walks m fs -> walks (x <- m ;; ret (g x)) fs.
Proof.
  intros H pre bs. destruct (H pre bs) as [H1 H2]. split.
  - intros e He. destruct (H1 e He) as [p E]. exists p. unfold bind. now rewrite E.
  - intros x y Hx Ebs. destruct (H2 x y Hx Ebs) as [a E]. exists (g a). unfold bind. now rewrite E.
Qed.

(** What follows type and length. *)
Lemma walks_body C ty : match layout C (handshake_type_code ty) with
  | Some fs => walks (parse_body C ty) fs
  | None => forall p, parse_body C ty p = (Err Unimplemented, p)
  end.
Proof.
  destruct ty; cbn [handshake_type_code layout parse_body]; try reflexivity.
  - apply (walks_more _ SH_ServerHello), walks_server_hello.
  - apply (walks_more _ (fun _ => SH_NewSessionTicket)), walks_ticket.
  - apply (walks_more _ (fun _ => SH_EncryptedExtensions)). unfold parse_encrypted_extensions.
    apply walks_cons; [apply (field_extensions InEncryptedExtensions)|intros _]. apply walks_ret.
  - apply (walks_more _ SH_Certificate), walks_certificate.
  - apply (walks_more _ SH_CertificateRequest), walks_request.
  - apply (walks_more _ SH_CertificateVerify), walks_verify.
  - apply (walks_more _ SH_Finished). unfold parse_finished. apply walks_cons; [apply (field_fill (hash_len C) ParseErr)|intros v]. apply walks_ret.
Qed.

(** ** Messages *)

Lemma field_type : reads_field (map_err (fun _ => InvalidHandshake) (b <- read_u8 ;; of_code (handshake_type_of (Byte.to_N b))))
  (Code 1 (map fst iana_handshake_type) InvalidHandshake).
Proof. apply (field_code 1 _ _ _ _ _ (fun _ => InvalidHandshake) InvalidHandshake number_u8 C03_handshake_type); [now apply small_codes|reflexivity]. Qed.

Lemma type_read pre c y : In c (map fst iana_handshake_type) -> exists ty, handshake_type_code ty = c /\
  map_err (fun _ => InvalidHandshake) (b <- read_u8 ;; of_code (handshake_type_of (Byte.to_N b))) (at_pos pre (uint 1 c ++ y) []) = (Ok ty, at_pos (pre ++ uint 1 c) y []).
Proof.
  intros Hin. destruct (proj2 (field_type pre (uint 1 c ++ y)) (uint 1 c) y (ex_intro _ c (conj Hin eq_refl)) eq_refl) as [ty E].
  exists ty. split; [|exact E]. unfold map_err, bind in E.
  assert (Hc : (c < 256 ^ N.of_nat 1)%N) by (exact (small_codes iana_handshake_type 1 eq_refl c Hin)).
  destruct (proj2 (number_u8 pre) c y Hc) as (a & Ha & Ea). rewrite Ea, Ha in E. unfold of_code in E.
  destruct (handshake_type_of c) as [t'|] eqn:Et; [|discriminate]. apply pair_equal_spec in E as [E _]. injection E as <-.
  destruct C03_handshake_type as (_ & H2 & H3). apply H2 in Et. clear -Et.
  cbn in Et. repeat (destruct Et as [Et|Et]; [inversion Et; reflexivity|]). contradiction.
Qed.

Lemma faulty_parse C pre bs e : faulty C bs e -> exists q, parse_server_handshake C (at_pos pre bs []) = (Err e, q).
Proof.
  rewrite parse_split. intros [H|(c & len & y & Hin & Hlen & -> & H)].
  - inversion H as [f fs w e' Hd|f fs x y e' Hp Hd]; subst; clear H.
    + destruct (proj1 (field_type pre bs) e Hd) as [q E]. exists q. unfold bind at 1. now rewrite E.
    + destruct Hp as (c & Hin & ->). destruct (type_read pre c y Hin) as (ty & _ & E).
      inversion Hd as [f fs w e' Hd'|f fs x' y' e' Hp Hd']; subst; [|inversion Hd'].
      destruct (proj1 (field_bytes 3 _ _ (fun _ => InvalidHandshake) number_u24 (pre ++ uint 1 c) y) e Hd') as [q Eq].
      exists q. unfold bind at 1. rewrite E. unfold bind at 1. now rewrite Eq.
  - destruct (type_read pre c (len ++ y) Hin) as (ty & <- & E). 
    destruct (proj2 (field_bytes 3 _ _ (fun _ => InvalidHandshake) number_u24 (pre ++ uint 1 (handshake_type_code ty)) (len ++ y)) len y Hlen eq_refl) as [n Eq].
    pose proof (walks_body C ty) as Hb. destruct (layout C (handshake_type_code ty)) as [fs|].
    + destruct (proj1 (Hb ((pre ++ uint 1 (handshake_type_code ty)) ++ len) y) e H) as [q Ep].
      exists q. unfold bind at 1. rewrite E. unfold bind at 1. now rewrite Eq.
    + subst e. eexists. unfold bind at 1. rewrite E. unfold bind at 1. rewrite Eq. apply Hb.
Qed.

(** The bytes begin with a message that parses, or are faulty. *)
Lemma faulty_or C pre bs : (exists a q, parse_server_handshake C (at_pos pre bs []) = (Ok a, q)) \/ exists e, faulty C bs e.
Proof.
  destruct (fields_total header bs) as [(x & y & -> & Hx)|[e He]]; [|right; exists e; now left].
  inversion Hx as [|f fs x1 x2 Hp Hps]; subst. destruct Hp as (c & Hin & ->).
  inversion Hps as [|f fs x3 x4 Hl Hn]; subst. inversion Hn; subst. rewrite app_nil_r, <- app_assoc. cbn [proper] in Hl.
  destruct (type_read pre c (x3 ++ y) Hin) as (ty & <- & E).
  destruct (proj2 (field_bytes 3 _ _ (fun _ => InvalidHandshake) number_u24 (pre ++ uint 1 (handshake_type_code ty)) (x3 ++ y)) x3 y Hl eq_refl) as [n Eq].
  pose proof (walks_body C ty) as Hb. destruct (layout C (handshake_type_code ty)) as [fs|] eqn:El.
  - destruct (fields_total fs y) as [(x & z & -> & Hx')|[e He]].
    + left. destruct (proj2 (Hb ((pre ++ uint 1 (handshake_type_code ty)) ++ x3) (x ++ z)) x z Hx' eq_refl) as [a Ea].
      rewrite parse_split. do 2 eexists. unfold bind at 1. rewrite E. unfold bind at 1. rewrite Eq. exact Ea.
    + right. exists e. right. exists (handshake_type_code ty), x3, y. rewrite El. auto.
  - right. exists Unimplemented. right. exists (handshake_type_code ty), x3, y. rewrite El. auto.
Qed.

Lemma parse_faulty C pre bs e : (exists q, parse_server_handshake C (at_pos pre bs []) = (Err e, q)) <-> faulty C bs e.
Proof.
  split; [|apply faulty_parse]. intros [q E]. destruct (faulty_or C pre bs) as [(a & q' & E')|[e' He']]; [congruence|].
  destruct (faulty_parse C pre bs e' He') as [q' E']. rewrite E in E'. apply pair_equal_spec in E' as [E' _]. injection E' as ->. exact He'.
Qed.

Lemma read_faulty C tr pre bs e : (exists q, read_server_handshake C tr (at_pos pre bs []) = (Err e, q)) <-> faulty C bs e.
Proof.
  rewrite <- (parse_faulty C pre). unfold read_server_handshake. unfold bind at 1, gets at 1. unfold bind at 1. split.
  - intros [q E]. destruct (parse_server_handshake C (at_pos pre bs [])) as [o q1] eqn:Ep. destruct o as [h|e1|s| |]; try discriminate.
    + exfalso. apply local_message in Ep as (b & y & -> & -> & Hp). pose proof (read_message C tr pre b y h Hp) as Hr.
      unfold read_server_handshake in Hr. unfold bind at 1, gets at 1 in Hr. unfold bind at 1 in Hr. rewrite Hp in Hr.
      assert (E0 : at_pos (pre ++ b) [] y = at_pos (pre ++ b) y []) by (unfold at_pos; now rewrite app_nil_r).
      rewrite E0 in Hr. change (pb_offset (at_pos pre (b ++ y) [])) with (pb_offset (at_pos pre b y)) in E. rewrite Hr in E. discriminate.
    + apply pair_equal_spec in E as [E _]. injection E as ->. eauto.
  - intros [q E]. rewrite E. eauto.
Qed.
