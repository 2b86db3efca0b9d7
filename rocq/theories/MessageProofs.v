(** * Which messages the client decodes *)
From Coq Require Import String List NArith Arith Bool Lia ZArith.
From Coq.Strings Require Import Byte.
From Coq Require Import ZifyBool ZifyNat ZifyN.
From Verif Require Import Base ParseBuffer Buffer Codes Extensions Crypto KeySchedule Config Handshake
  BaseProofs ParseProofs SpecWire SpecCodes SpecMessages WireProofs PropCodes ExtProofs SpecKeys
  SpecRecord SpecRead SpecSend SpecHandshake AcceptProofs LocalProofs SpecComplete.
Import ListNotations.
Local Open Scope list_scope.
Ltac Zify.zify_post_hook ::= Z.div_mod_to_equations.

(** ** Codes *)

Lemma of_registry {A} (reg : list (N * A)) code of n : implements reg code of ->
  In n (map fst reg) <-> exists x, of n = Some x /\ code x = n.
Proof.
  intros (H1 & H2 & H3 & H4). split.
  - intros H. apply in_map_iff in H as ([m x] & Hm & Hin). cbn in Hm. subst m. exists x. split; [now apply H2|]. eapply H4; [apply H1|exact Hin].
  - intros (x & Ho & Hc). apply in_map_iff. exists (n, x). split; [reflexivity|]. now apply H2.
Qed.

Lemma registered_small {A} (reg : list (N * A)) code of n : implements reg code of ->
  (forall x, (code x < 65536)%N) -> In n (map fst reg) -> (n < 65536)%N.
Proof. intros Hi Hs H. apply (of_registry _ _ _ _ Hi) in H as (x & _ & <-). apply Hs. Qed.

(** ** Lists *)

Lemma app_len_inj {A} (a b c d : list A) : a ++ b = c ++ d -> length a = length c -> a = c /\ b = d.
Proof.
  revert c. induction a as [|x a IH]; intros [|y c] E L; try discriminate; [now split|].
  cbn [app] in E. injection E as -> E. destruct (IH c E) as [-> ->]; [now injection L|]. now split.
Qed.


Lemma vec_eq k b : vec k b = uint k (N.of_nat (length b)) ++ b.
Proof. reflexivity. Qed.


Lemma at_pos_nil pre b post : at_pos pre [] (b ++ post) = at_pos pre b post.
Proof. reflexivity. Qed.


Section ReadList.
Context {T : Type} (read : P parse_error T) (ok : T -> Prop) (wire : T -> bytes).
Context (fwd : forall t, ok t -> parses read (wire t) t).
Context (bwd : acc read (fun t x => ok t /\ x = wire t)).
Context (ne : forall t, wire t <> []).

Lemma read_list_loop_iff cap : forall fuel acc0 pre bs, length bs < fuel -> length acc0 <= cap ->
  forall l, read_list_loop fuel cap read acc0 (at_pos pre bs []) = Ok l <->
  exists ts, bs = concat (map wire ts) /\ Forall ok ts /\ l = acc0 ++ ts /\ length l <= cap.
Proof.
  induction fuel as [|fuel IH]; intros acc0 pre bs Hf Hc l; [lia|]. cbn [read_list_loop]. rewrite pb_is_empty_at.
  destruct (Nat.eqb_spec (length bs) 0) as [El|El].
  - destruct bs; [|discriminate]. split.
    + intros H. injection H as <-. exists []. rewrite app_nil_r. auto.
    + intros ([|t ts] & E & _ & -> & _); [now rewrite app_nil_r|].
      cbn [map concat] in E. symmetry in E. apply app_eq_nil in E as [E _]. exfalso. exact (ne t E).
  - split.
    + intros H. destruct (read (at_pos pre bs [])) as [[t|e|s| |] d'] eqn:Er; try discriminate.
      apply bwd in Er as (x & y & -> & -> & Hok & ->).
      destruct (Nat.ltb_spec (length acc0) cap) as [Hlt|]; [|discriminate].
      assert (0 < length (wire t)) by (specialize (ne t); destruct (wire t); [congruence|cbn; lia]).
      apply IH in H; [|rewrite app_length in Hf; lia|rewrite app_length; cbn [length]; lia].
      destruct H as (ts & -> & Hts & -> & Hl). exists (t :: ts). split; [reflexivity|]. split; [now constructor|].
      rewrite <- app_assoc in *. auto.
    + intros ([|t ts] & -> & Hts & -> & Hl); [now cbn in El|]. inversion Hts as [|? ? Ht Hts']; subst.
      cbn [map concat]. rewrite at_pos_assoc, (fwd t Ht).
      rewrite app_length in Hl. cbn [length] in Hl.
      destruct (Nat.ltb_spec (length acc0) cap) as [_|]; [|lia]. rewrite app_nil_r.
      assert (0 < length (wire t)) by (specialize (ne t); destruct (wire t); [congruence|cbn; lia]).
      cbn [map concat] in Hf. rewrite app_length in Hf.
      rewrite <- (app_nil_r (concat (map wire ts))), at_pos_move. apply IH; [lia|rewrite app_length; cbn [length]; lia|].
      exists ts. split; [reflexivity|]. split; [exact Hts'|]. rewrite <- app_assoc. split; [reflexivity|].
      rewrite app_length. cbn [app length]. lia.
Qed.

(** A list with a 16-bit length. *)
Lemma read_list_iff {B} (g : list T -> B) cap b :
  (exists x, fst ((n <- read_u16 ;; l <- read_list cap (N.to_nat n) read ;; ret (g l)) (pb_new b)) = Ok x) <->
  exists ts junk, b = vec 2 (concat (map wire ts)) ++ junk /\ fits 2 (concat (map wire ts)) /\ Forall ok ts /\ length ts <= cap.
Proof.
  split.
  - intros [x H]. destruct ((n <- read_u16 ;; _) (pb_new b)) as [o q] eqn:E. cbn [fst] in H. subst o. rewrite pb_new_at in E.
    apply bind_ok in E as (n & q1 & En & E). apply acc_u16 in En as (x1 & y1 & -> & -> & -> & Hn).
    apply bind_ok in E as (l & q2 & El & E). unfold read_list in El.
    apply bind_ok in El as (d & q3 & Ed & El). apply acc_slice in Ed as (x2 & y2 & -> & -> & -> & Hl).
    unfold lift in El. apply pair_equal_spec in El as [El _]. rewrite pb_new_at in El.
    apply (read_list_loop_iff cap) in El as (ts & -> & Hts & -> & Hc); [|lia|cbn; lia]. cbn [app] in *.
    exists ts, y2. split; [unfold vec; rewrite Hl, N2Nat.id, <- app_assoc; reflexivity|]. split; [apply fits_2; lia|auto].
  - intros (ts & junk & -> & Hf & Hts & Hc). exists (g ts). rewrite pb_new_at. apply fits_2 in Hf.
    unfold vec. rewrite <- app_assoc, at_pos_assoc. unfold bind at 1. rewrite (parses_read_u16 _ Hf).
    rewrite app_nil_r, at_pos_nil. unfold bind at 1, read_list at 1, bind at 1. rewrite Nat2N.id, (parses_slice _ _ eq_refl).
    unfold lift. rewrite pb_new_at.
    rewrite (proj2 (read_list_loop_iff cap _ [] [] _ (Nat.lt_succ_diag_r _) (Nat.le_0_l cap) ts)); [reflexivity|].
    exists ts. auto.
Qed.
End ReadList.

(** ** Contents of extensions *)

Definition accepts (m : P parse_error ext_data) (b : bytes) : Prop := exists x, fst (m (pb_new b)) = Ok x.

Lemma named_group_small x : (named_group_code x < 65536)%N.
Proof. now destruct x. Qed.
Lemma sig_scheme_small x : (sig_scheme_code x < 65536)%N.
Proof. now destruct x. Qed.

Lemma code_read {A} (of : N -> option A) code reg : implements reg code of -> (forall x, (code x < 65536)%N) ->
  (forall t, True -> parses (n <- read_u16 ;; of_code (of n)) (uint 2 (code t)) t) /\
  acc (n <- read_u16 ;; of_code (of n)) (fun t x => True /\ x = uint 2 (code t)).
Proof.
  intros (H1 & H2 & H3 & H4) Hs. split.
  - intros t _. eapply parses_bind_nil; [apply parses_read_u16, Hs|]. apply parses_of_code. apply H2, H1.
  - eapply acc_weaken; [apply acc_bind; [apply acc_u16|intros a; apply acc_of_code]|].
    cbn beta. intros a x (n & x1 & x2 & -> & [-> _] & Hn & ->). rewrite app_nil_r. split; [exact I|].
    f_equal. apply H2 in Hn. eapply H4; [exact Hn|apply H1].
Qed.

Lemma code_list_iff {A} (of : N -> option A) code reg (g : list A -> ext_data) cap b : cap <= 100 ->
  implements reg code of -> (forall x, (code x < 65536)%N) ->
  accepts (n <- read_u16 ;; l <- read_list cap (N.to_nat n) (n <- read_u16 ;; of_code (of n)) ;; ret (g l)) b <->
  code_list reg cap b.
Proof.
  intros Hcap Hi Hs. destruct (code_read of code reg Hi Hs) as [Hf Hb].
  assert (Hne : forall t, uint 2 (code t) <> []) by (intros t E; apply (f_equal (@length byte)) in E; rewrite uint_length in E; discriminate).
  unfold accepts. rewrite (read_list_iff _ (fun _ => True) (fun t => uint 2 (code t)) Hf Hb Hne g cap b).
  unfold code_list. split.
  - intros (ts & junk & -> & Hfit & _ & Hl). exists (map code ts), junk. rewrite map_map. split; [reflexivity|].
    split; [|now rewrite map_length]. apply Forall_forall. intros c Hc. apply in_map_iff in Hc as (t & <- & _).
    apply (of_registry _ _ _ _ Hi). exists t. split; [|reflexivity]. destruct Hi as (H1 & H2 & _). apply H2, H1.
  - intros (codes & junk & -> & Hc & Hl).
    assert (Hts : exists ts, codes = map code ts).
    { clear Hl. induction codes as [|c codes IH]; [now exists []|]. inversion Hc as [|? ? Hc1 Hc2]; subst.
      destruct (IH Hc2) as [ts ->]. apply (of_registry _ _ _ _ Hi) in Hc1 as (t & _ & <-). now exists (t :: ts). }
    destruct Hts as [ts ->]. rewrite map_length in Hl. exists ts, junk. rewrite map_map. split; [reflexivity|].
    split; [|split; [now apply Forall_forall|exact Hl]].
    assert (Hlen : length (concat (map (fun x => uint 2 (code x)) ts)) = 2 * length ts).
    { clear. induction ts as [|t ts IH]; [reflexivity|]. cbn [map concat]. rewrite app_length, uint_length, IH. cbn [length]. lia. }
    apply fits_2. rewrite Hlen. lia.
Qed.

Lemma alpn_name n : n <> [] -> fits 1 n -> forall pre post,
  (x <- read_u8 ;; if (Byte.to_N x =? 0)%N then fail PE_InvalidData else pb_slice (N.to_nat (Byte.to_N x)) ;;; ret tt)
    (at_pos pre (vec 1 n) post) = (Ok tt, at_pos (pre ++ vec 1 n) [] post).
Proof.
  intros Hne Hf pre post. apply fits_1 in Hf. unfold vec.
  assert (Hl : 0 < length n) by (destruct n; [congruence|cbn; lia]).
  revert pre post. change (parses (x <- read_u8 ;; if (Byte.to_N x =? 0)%N then fail PE_InvalidData else pb_slice (N.to_nat (Byte.to_N x)) ;;; ret tt)
    (uint 1 (N.of_nat (length n)) ++ n) tt).
  eapply parses_bind; [apply parses_read_u8_uint; lia|]. rewrite to_N_b8, N.mod_small by lia.
  destruct (N.eqb_spec (N.of_nat (length n)) 0) as [|_]; [lia|]. rewrite Nat2N.id.
  eapply parses_bind_nil; [now apply parses_slice|apply parses_ret].
Qed.

Lemma alpn_loop_iff : forall fuel pre bs, length bs < fuel ->
  alpn_loop fuel (at_pos pre bs []) = Ok tt <->
  exists names, bs = concat (map (vec 1) names) /\ Forall (fun n => n <> [] /\ fits 1 n) names.
Proof.
  induction fuel as [|fuel IH]; intros pre bs Hf; [lia|]. cbn [alpn_loop]. rewrite pb_is_empty_at.
  destruct (Nat.eqb_spec (length bs) 0) as [El|El].
  - destruct bs; [|discriminate]. split; [|reflexivity]. intros _. exists []. auto.
  - split.
    + intros H.
      destruct ((n <- read_u8 ;; _) (at_pos pre bs [])) as [[u|e|s| |] d'] eqn:Er; try discriminate.
      apply bind_ok in Er as (n & q1 & En & Er). apply acc_u8 in En as (x & y & -> & -> & ->).
      destruct (N.eqb_spec (Byte.to_N n) 0) as [|Hn]; [discriminate|].
      apply bind_ok in Er as (d & q2 & Ed & Er). apply acc_slice in Ed as (x2 & y2 & -> & -> & -> & Hl).
      unfold ret in Er. apply pair_equal_spec in Er as [_ <-].
      apply IH in H; [|rewrite !app_length in Hf; lia]. destruct H as (names & -> & Hns).
      pose proof (to_N_lt n). exists (x2 :: names). split.
      * cbn [map concat]. unfold vec. rewrite Hl, N2Nat.id, <- b8_uint, <- app_assoc. reflexivity.
      * constructor; [|exact Hns]. split; [intros ->; cbn in Hl; lia|]. apply fits_1. lia.
    + intros ([|n names] & -> & Hns); [now cbn in El|]. inversion Hns as [|? ? [Hn1 Hn2] Hns']; subst.
      cbn [map concat]. rewrite at_pos_assoc, (alpn_name n Hn1 Hn2).
      cbn [map concat] in Hf. rewrite app_length, vec_length in Hf.
      rewrite at_pos_nil. apply IH; [lia|]. eauto.
Qed.

Lemma alpn_iff b : accepts parse_alpn b <-> name_list b.
Proof.
  unfold accepts, name_list, parse_alpn. split.
  - intros [x H]. destruct ((n <- read_u16 ;; _) (pb_new b)) as [o q] eqn:E. cbn [fst] in H. subst o. rewrite pb_new_at in E.
    apply bind_ok in E as (n & q1 & En & E). apply acc_u16 in En as (x1 & y1 & -> & -> & -> & Hn).
    apply bind_ok in E as (d & q3 & Ed & E). apply acc_slice in Ed as (x2 & y2 & -> & -> & -> & Hl).
    apply bind_ok in E as (u & q4 & Eu & E). unfold lift in Eu. apply pair_equal_spec in Eu as [Eu _]. destruct u.
    rewrite pb_new_at in Eu. apply alpn_loop_iff in Eu; [|lia]. destruct Eu as (names & -> & Hns).
    exists names, y2. split; [rewrite (vec_eq 2), Hl, N2Nat.id, <- app_assoc; reflexivity|]. split; [apply fits_2; lia|exact Hns].
  - intros (names & junk & -> & Hf & Hns). exists (XD_Alpn []). rewrite pb_new_at. apply fits_2 in Hf.
    rewrite (vec_eq 2), <- app_assoc, at_pos_assoc. unfold bind at 1. rewrite (parses_read_u16 _ Hf).
    rewrite app_nil_r, at_pos_nil. unfold bind at 1. rewrite Nat2N.id, (parses_slice _ _ eq_refl).
    unfold bind, lift. rewrite pb_new_at, (proj2 (alpn_loop_iff _ [] _ (Nat.lt_succ_diag_r _))); [reflexivity|]. eauto.
Qed.

Lemma u16_iff (g : N -> ext_data) b : accepts (v <- read_u16 ;; ret (g v)) b <-> 2 <= length b.
Proof.
  unfold accepts. split.
  - intros [x H]. destruct ((v <- read_u16 ;; _) (pb_new b)) as [o q] eqn:E. cbn [fst] in H. subst o. rewrite pb_new_at in E.
    apply bind_ok in E as (n & q1 & En & E). apply acc_u16 in En as (x1 & y1 & -> & -> & -> & Hn).
    rewrite app_length, uint_length. lia.
  - intros H. exists (g (be_val (firstn 2 b))). rewrite <- (firstn_skipn 2 b) at 1. rewrite pb_new_at, at_pos_assoc.
    unfold bind, read_u16, bind. rewrite (parses_take 2 (firstn 2 b)); [reflexivity|]. rewrite firstn_length. lia.
Qed.

Lemma max_frag_iff b : accepts parse_max_frag_ext b <-> exists c junk, b = uint 1 c ++ junk /\ In c (map fst iana_max_frag).
Proof.
  unfold accepts, parse_max_frag_ext, parse_max_frag. split.
  - intros [x H]. destruct ((m <- _ ;; _) (pb_new b)) as [o q] eqn:E. cbn [fst] in H. subst o. rewrite pb_new_at in E.
    apply bind_ok in E as (m & q1 & Em & E). apply bind_ok in Em as (n & q2 & En & Em).
    apply acc_u8 in En as (x1 & y1 & -> & -> & ->). apply acc_of_code in Em as (x2 & y2 & -> & -> & Hm & ->).
    exists (Byte.to_N n), y2. rewrite <- b8_uint. split; [reflexivity|].
    apply (of_registry _ _ _ _ C03_max_fragment_length). exists m. split; [exact Hm|].
    destruct C03_max_fragment_length as (H1 & H2 & H3 & H4). apply H2 in Hm. eapply H4; [apply H1|exact Hm].
  - intros (c & junk & -> & Hc). apply (of_registry _ _ _ _ C03_max_fragment_length) in Hc as (m & Hm & Hc).
    exists (XD_MaxFrag m). rewrite pb_new_at, at_pos_assoc. unfold bind at 1.
    assert (Hlt : (c < 256)%N) by (subst c; now destruct m).
    assert (Hp : parses (b <- read_u8 ;; of_code (max_frag_of (Byte.to_N b))) (uint 1 c) m).
    { eapply parses_bind_nil; [apply parses_read_u8_uint, Hlt|]. apply parses_of_code. now rewrite to_N_b8, N.mod_small. }
    now rewrite Hp.
Qed.

Lemma key_share_iff b : accepts parse_key_share_sh b <->
  exists g share junk, b = uint 2 g ++ vec 2 share ++ junk /\ In g (map fst iana_named_group) /\ fits 2 share.
Proof.
  unfold accepts, parse_key_share_sh. destruct (code_read _ _ _ C03_named_group named_group_small) as [Hf Hb]. split.
  - intros [x H]. destruct ((m <- _ ;; _) (pb_new b)) as [o q] eqn:E. cbn [fst] in H. subst o. rewrite pb_new_at in E.
    apply bind_ok in E as ([g s] & q1 & Eg & E). unfold parse_key_share_entry in Eg.
    apply bind_ok in Eg as (g0 & q2 & Eg0 & Eg). apply Hb in Eg0 as (x1 & y1 & -> & -> & _ & ->).
    apply bind_ok in Eg as (n & q3 & En & Eg). apply acc_u16 in En as (x2 & y2 & -> & -> & -> & Hn).
    apply bind_ok in Eg as (d & q4 & Ed & Eg). apply acc_slice in Ed as (x3 & y3 & -> & -> & -> & Hl).
    exists (named_group_code g0), x3, y3. unfold vec. rewrite Hl, N2Nat.id, <- app_assoc. split; [reflexivity|].
    split; [|apply fits_2; lia]. apply (of_registry _ _ _ _ C03_named_group). exists g0. split; [|reflexivity].
    destruct C03_named_group as (H1 & H2 & _). apply H2, H1.
  - intros (g & share & junk & -> & Hg & Hs). apply (of_registry _ _ _ _ C03_named_group) in Hg as (g0 & _ & <-).
    apply fits_2 in Hs. exists (XD_KeyShareSH g0 share).
    assert (Hp : parses parse_key_share_entry (uint 2 (named_group_code g0) ++ vec 2 share) (g0, share)).
    { unfold parse_key_share_entry. eapply parses_bind; [now apply Hf|]. unfold vec.
      eapply parses_bind; [now apply parses_read_u16|]. rewrite Nat2N.id. eapply parses_bind_nil; [now apply parses_slice|apply parses_ret]. }
    rewrite app_assoc, pb_new_at, at_pos_assoc. unfold bind at 1. now rewrite Hp.
Qed.

Lemma server_name_iff b : accepts parse_server_name_response b <-> b = [].
Proof.
  unfold accepts, parse_server_name_response, bind, gets, pb_is_empty, pb_new. cbn [pb_pos pb_buf]. split.
  - intros [x H]. destruct b; [reflexivity|discriminate].
  - intros ->. now exists XD_ServerNameResponse.
Qed.

Lemma unimpl_ok b : accepts parse_unimpl b.
Proof. eexists. reflexivity. Qed.

Lemma content_iff m ty p b : msg_group m ty = Some p -> accepts p b <-> content_ok m (ext_type_code ty) b.
Proof.
  intros H. destruct m, ty; cbn in H; try discriminate; injection H as <-; cbn [content_ok ext_type_code];
    try (split; [intros _; exact I|intros _; apply unimpl_ok]).
  - apply u16_iff.
  - apply u16_iff.
  - apply key_share_iff.
  - apply server_name_iff.
  - apply max_frag_iff.
  - apply (code_list_iff _ _ _ _ 13 b ltac:(lia) C03_named_group named_group_small).
  - apply alpn_iff.
  - apply (code_list_iff _ _ _ _ 25 b ltac:(lia) C03_signature_scheme sig_scheme_small).
Qed.

(** ** Blocks of extensions *)

Lemma recognised_items_cons t b items : recognised_items ((t, b) :: items) =
  (if recognised_b t then [(t, b)] else []) ++ recognised_items items.
Proof.
  unfold recognised_items. cbn [filter fst]. destruct (existsb (N.eqb t) (map fst iana_ext_type)) eqn:E.
  - assert (Hr : recognised t). { apply existsb_exists in E as (x & Hx & E). apply N.eqb_eq in E as <-. exact Hx. }
    apply recognised_b_iff in Hr. now rewrite Hr.
  - destruct (recognised_b t) eqn:Er; [|reflexivity]. apply recognised_b_iff in Er.
    assert (existsb (N.eqb t) (map fst iana_ext_type) = true); [|congruence].
    apply existsb_exists. exists t. split; [exact Er|apply N.eqb_refl].
Qed.

Lemma block_iff m cap : forall items acc0, length acc0 <= cap ->
  (exists xs, block_result (msg_group m) cap acc0 items = Ok xs) <->
  (forall t b, In (t, b) (recognised_items items) -> In t (rfc_allowed m) /\ content_ok m t b) /\
  length acc0 + length (recognised_items items) <= cap.
Proof.
  induction items as [|[t b] items IH]; intros acc0 Hc.
  - cbn. split; [|intros _; eauto]. intros _. split; [intros ? ? []|lia].
  - rewrite recognised_items_cons. cbn [block_result].
    destruct (ext_type_of t) as [ty|] eqn:Et; unfold recognised_b; rewrite Et; [|exact (IH acc0 Hc)].
    assert (Hcode : ext_type_code ty = t).
    { destruct C03_extension_type as (H1 & H2 & H3 & H4). apply H2 in Et. eapply H4; [apply H1|exact Et]. }
    cbn [app length]. split.
    + intros [xs H]. destruct (msg_group m ty) as [p|] eqn:Eg; [|discriminate].
      destruct (fst (p (pb_new b))) as [x|e|s| |] eqn:Ex; try discriminate.
      destruct (Nat.ltb_spec (length acc0) cap) as [Hlt|]; [|discriminate].
      destruct (proj1 (IH (acc0 ++ [mk_ext ty x]) ltac:(rewrite app_length; cbn [length]; lia)) (ex_intro _ xs H)) as [I1 I2].
      rewrite app_length in I2. cbn [length] in I2. split; [|lia].
      intros t0 b0 [E|Hin]; [|now apply I1]. apply pair_equal_spec in E as [<- <-]. subst t. split.
      * apply allowed_group. congruence.
      * apply (content_iff m ty p b Eg). now exists x.
    + intros [H1 H2]. destruct (H1 t b (or_introl eq_refl)) as [Ha Hok]. subst t. apply allowed_group in Ha.
      destruct (msg_group m ty) as [p|] eqn:Eg; [|congruence]. destruct (proj2 (content_iff m ty p b Eg) Hok) as [x Hx]. rewrite Hx.
      destruct (Nat.ltb_spec (length acc0) cap) as [Hlt|]; [|lia].
      apply IH; [rewrite app_length; cbn [length]; lia|]. rewrite app_length. cbn [length]. split; [|lia].
      intros t0 b0 Hin. apply H1. now right.
Qed.

Lemma digestible_iff m items : digestible m items <-> exists xs, block_result (msg_group m) (msg_cap m) [] items = Ok xs.
Proof.
  rewrite (block_iff m (msg_cap m) items []) by (cbn; lia). unfold digestible. destruct m; cbn [most_extensions msg_cap length Nat.add]; reflexivity.
Qed.

(** ** Certificates *)

Definition entry_fine (e : bytes * list ext_item) : Prop := fits 3 (fst e) /\ block_ok (snd e) /\ digestible InCertificate (snd e).

Lemma entry_parses en : entry_fine en -> parses parse_cert_entry (entry_wire en) (CE_X509 (fst en)).
Proof.
  intros (H1 & H2 & H3). destruct en as [d items]. cbn [fst snd] in *. apply digestible_iff in H3 as [xs H3].
  intros pre post. destruct (runs_cert_entry d items H1 H2 pre post) as [R1 R2]. cbn [msg_group msg_cap] in H3. rewrite H3 in *.
  unfold entry_wire. cbn [fst snd] in *. destruct (parse_cert_entry _) as [o q]. cbn [fst snd] in *. subst o. now rewrite (R2 _ eq_refl).
Qed.

Lemma acc_entry : acc parse_cert_entry (fun e x => exists en, entry_fine en /\ x = entry_wire en /\ e = CE_X509 (fst en)).
Proof.
  unfold parse_cert_entry. eapply acc_weaken.
  - apply (acc_vec_n 3 read_u24 _ _ (fun c => _ ;;; ret (CE_X509 (pb_as_slice c)))
      (fun d e x => exists items, block_ok items /\ digestible InCertificate items /\ x = ext_block items /\ e = CE_X509 d)); [apply acc_u24|].
    intros d Hd. eapply acc_weaken; [apply acc_bind; [apply acc_ext_vector|intros a; apply acc_ret]|].
    cbn beta. intros e x (xs & x1 & x2 & -> & (items & Hok & -> & Hb) & -> & ->). rewrite app_nil_r. exists items.
    split; [exact Hok|]. split; [|auto]. apply digestible_iff. now exists xs.
  - cbn beta. intros e x (d & y & -> & Hf & items & Hok & Hdi & -> & ->). exists (d, items). unfold entry_fine, entry_wire. auto.
Qed.

Lemma entry_wire_ne en : entry_wire en <> [].
Proof. unfold entry_wire. intros E. apply (f_equal (@length byte)) in E. rewrite app_length, vec_length in E. discriminate. Qed.

Lemma entries_iff cap : forall fuel acc0 pre bs, length bs < fuel -> length acc0 <= cap ->
  forall l, cert_entries_loop fuel cap acc0 (at_pos pre bs []) = Ok l <->
  exists ens, bs = concat (map entry_wire ens) /\ Forall entry_fine ens /\ l = acc0 ++ map CE_X509 (map fst ens) /\ length l <= cap.
Proof.
  induction fuel as [|fuel IH]; intros acc0 pre bs Hf Hc l; [lia|]. cbn [cert_entries_loop]. rewrite pb_is_empty_at.
  destruct (Nat.eqb_spec (length bs) 0) as [El|El].
  - destruct bs; [|discriminate]. split.
    + intros H. injection H as <-. exists []. cbn [map]. rewrite app_nil_r. auto.
    + intros ([|t ts] & E & _ & -> & _); [cbn [map]; now rewrite app_nil_r|].
      cbn [map concat] in E. symmetry in E. apply app_eq_nil in E as [E _]. exfalso. exact (entry_wire_ne t E).
  - split.
    + intros H. destruct (parse_cert_entry (at_pos pre bs [])) as [[t|e|s| |] d'] eqn:Er; try discriminate.
      apply acc_entry in Er as (x & y & -> & -> & en & Hok & -> & ->).
      destruct (Nat.ltb_spec (length acc0) cap) as [Hlt|]; [|discriminate].
      assert (0 < length (entry_wire en)) by (pose proof (entry_wire_ne en); destruct (entry_wire en); [congruence|cbn; lia]).
      apply IH in H; [|rewrite app_length in Hf; lia|rewrite app_length; cbn [length]; lia].
      destruct H as (ts & -> & Hts & -> & Hl). exists (en :: ts). split; [reflexivity|]. split; [now constructor|].
      rewrite <- app_assoc in *. auto.
    + intros ([|en ts] & -> & Hts & -> & Hl); [now cbn in El|]. inversion Hts as [|? ? Ht Hts']; subst.
      cbn [map concat]. rewrite at_pos_assoc, (entry_parses en Ht).
      rewrite app_length in Hl. cbn [map length] in Hl.
      destruct (Nat.ltb_spec (length acc0) cap) as [_|]; [|lia].
      assert (0 < length (entry_wire en)) by (pose proof (entry_wire_ne en); destruct (entry_wire en); [congruence|cbn; lia]).
      cbn [map concat] in Hf. rewrite app_length in Hf.
      rewrite at_pos_nil. apply IH; [lia|rewrite app_length; cbn [length]; lia|].
      exists ts. split; [reflexivity|]. split; [exact Hts'|]. rewrite <- app_assoc. split; [reflexivity|].
      rewrite app_length. cbn [map app length]. lia.
Qed.

(** ** Messages *)

Lemma runs_parses {E A} (m : P E A) bs a : runs m bs (Ok a) -> parses m bs a.
Proof. intros H pre post. destruct (H pre post) as [H1 H2]. destruct (m _) as [o q]. cbn [fst snd] in *. subst o. now rewrite (H2 _ eq_refl). Qed.

Lemma certificate_parses ctx raw ens : fits 1 ctx -> fits 3 raw -> raw = concat (map entry_wire ens) ->
  Forall entry_fine ens -> length ens <= 16 ->
  parses parse_certificate (vec 1 ctx ++ vec 3 raw) (mk_cert raw ctx (map CE_X509 (map fst ens))).
Proof.
  intros H1 H2 -> H4 H5. apply runs_parses. unfold parse_certificate.
  apply (parses_vec1 ctx H1 _ _ _ (fun s => _ <- _ ;; raw <- _ ;; es <- lift _ ;; ret (mk_cert (pb_as_slice raw) (pb_as_slice s) es))).
  rewrite <- (app_nil_r (vec 3 _)). apply (parses_vec3 _ H2).
  intros pre post. unfold parse_cert_entries, bind, lift. cbn [pb_buf pb_new]. change (mk_pbuf 0 (concat (map entry_wire ens))) with (pb_new (concat (map entry_wire ens))).
  rewrite pb_new_at. rewrite (proj2 (entries_iff 16 _ [] [] _ (Nat.lt_succ_diag_r _) (Nat.le_0_l 16) (map CE_X509 (map fst ens)))).
  - cbn. rewrite !app_nil_r. split; reflexivity.
  - exists ens. split; [reflexivity|]. split; [exact H4|]. split; [reflexivity|]. now rewrite !map_length.
Qed.

(** Every message the client understands is decoded, as that message. *)
Lemma understood_parses C b m : understood C b m -> exists h, parses (parse_server_handshake C) b h /\ denotes m h.
Proof.
  intros ((len & body & Hl & Hb & ->) & Hu).
  assert (Hj : forall ty h, handshake_type_of (smsg_type m) = Some ty -> parses (parse_body C ty) body h ->
    parses (parse_server_handshake C) (uint 1 (smsg_type m) ++ len ++ body) h).
  { intros ty h Hty Hp. rewrite uint_b8. apply (parses_join C _ len body ty h Hl); [|exact Hp].
    rewrite to_N_b8, N.mod_small; [exact Hty|]. now destruct m. }
  destruct m; cbn [smsg_body smsg_type] in *.
  - destruct Hb as (v & r & sid & comp & Hf & Hi & ->). apply digestible_iff in Hu as [xs Hx].
    exists (SH_ServerHello xs). split; [|exact Hx]. apply (Hj HT_ServerHello); [reflexivity|]. apply runs_parses.
    change (Ok (SH_ServerHello xs) : outcome tls_error server_handshake) with (omap (E := tls_error) SH_ServerHello (Ok xs)). rewrite <- Hx.
    apply (runs_ret _ SH_ServerHello). now apply runs_server_hello.
  - destruct Hu as (len' & l & a & n & t & items & Hl' & Hf & Hi & E & Hd).
    apply app_inv_head in E. apply app_len_inj in E as [<- ->]; [|congruence].
    apply digestible_iff in Hd as [xs Hx]. exists SH_NewSessionTicket. split; [|exact I].
    apply (Hj HT_NewSessionTicket); [reflexivity|]. cbn [parse_body]. eapply parses_bind_nil; [|apply parses_ret].
    apply runs_parses. pose proof (runs_new_session_ticket l a n t items Hf Hi) as R. cbn [msg_group msg_cap] in Hx. rewrite Hx in R. exact R.
  - destruct Hb as [Hi ->]. apply digestible_iff in Hu as [xs Hx]. exists SH_EncryptedExtensions. split; [|exact I].
    apply (Hj HT_EncryptedExtensions); [reflexivity|]. cbn [parse_body]. eapply parses_bind_nil; [|apply parses_ret].
    apply runs_parses. pose proof (runs_encrypted_extensions items Hi) as R. cbn [msg_group msg_cap] in Hx. rewrite Hx in R. exact R.
  - destruct Hb as (ens & H1 & H2 & H3 & Hraw & Hcerts & ->). destruct Hu as (ens' & E & Hens & Hlen).
    exists (SH_Certificate (mk_cert raw context (map CE_X509 (map fst ens')))). split.
    + apply (Hj HT_Certificate); [reflexivity|]. cbn [parse_body]. eapply parses_bind_nil; [|apply parses_ret].
      now apply certificate_parses.
    + cbn [denotes]. f_equal. f_equal. subst certs.
      assert (Hok : Forall (fun e => fits 3 (fst e) /\ block_ok (snd e)) ens') by (eapply Forall_impl; [|exact Hens]; cbn; tauto).
      rewrite Hraw in E. clear - H3 Hok E. symmetry. revert ens' E Hok.
      induction ens as [|e ens IH]; intros [|e' ens'] E Hok; cbn [map concat] in E; [reflexivity| | |].
      * symmetry in E. apply app_eq_nil in E as [E _]. exfalso. exact (entry_wire_ne _ E).
      * apply app_eq_nil in E as [E _]. exfalso. exact (entry_wire_ne _ E).
      * inversion H3 as [|? ? He H3']; subst. inversion Hok as [|? ? He' Hok']; subst.
        assert (Hcut : entry_wire e = entry_wire e' /\ fst e = fst e').
        { destruct e as [d i], e' as [d' i']. unfold entry_wire in *. cbn [fst snd] in *. destruct He as [Hd Hi], He' as [Hd' Hi'].
          rewrite <- !app_assoc in E. unfold vec in E at 1. rewrite <- app_assoc in E.
          rewrite (vec_eq 3 d'), <- app_assoc in E. apply app_len_inj in E as [E1 E]; [|now rewrite !uint_length].
          assert (El : length d = length d').
          { apply (f_equal be_val) in E1. rewrite (be_val_uint_small _ _ Hd), (be_val_uint_small _ _ Hd') in E1. lia. }
          apply app_len_inj in E as [-> E]; [|exact El]. split; [|reflexivity]. f_equal.
          unfold ext_block in *. rewrite !(vec_eq 2), <- !app_assoc in E. apply app_len_inj in E as [E2 E]; [|now rewrite !uint_length].
          assert (Ei : length (items_wire i) = length (items_wire i')).
          { apply (f_equal be_val) in E2. destruct Hi as [_ Hi], Hi' as [_ Hi']. rewrite (be_val_uint_small _ _ Hi), (be_val_uint_small _ _ Hi') in E2. lia. }
          apply app_len_inj in E as [E _]; [|exact Ei]. now rewrite E. }
        destruct Hcut as [Hc Hd]. rewrite Hc in E. apply app_inv_head in E. cbn [map]. f_equal; [exact Hd|]. apply IH; assumption.
  - destruct Hb as (H1 & Hi & ->). apply digestible_iff in Hu as [xs Hx]. exists (SH_CertificateRequest context). split; [|reflexivity].
    apply (Hj HT_CertificateRequest); [reflexivity|]. cbn [parse_body]. eapply parses_bind_nil; [|apply parses_ret].
    apply runs_parses. pose proof (runs_certificate_request context items H1 Hi) as R. cbn [msg_group msg_cap] in Hx. rewrite Hx in R. exact R.
  - destruct Hb as (H1 & H2 & ->). apply (of_registry _ _ _ _ C03_signature_scheme) in H1 as (s & Hs & <-).
    exists (SH_CertificateVerify (mk_cv s signature)). split; [|now split].
    apply (Hj HT_CertificateVerify); [reflexivity|]. cbn [parse_body]. eapply parses_bind_nil; [|apply parses_ret].
    unfold parse_certificate_verify. eapply parses_bind.
    { apply parses_map_err. eapply parses_bind_nil; [apply parses_read_u16, sig_scheme_small|]. apply parses_of_code. exact Hs. }
    apply runs_parses. rewrite <- (app_nil_r (vec 2 signature)). apply (parses_vec2 signature H2 _ _ _ (fun sig => ret (mk_cv s (pb_as_slice sig)))).
    intros pre post. cbn. rewrite !app_nil_r. split; reflexivity.
  - destruct Hb as [H1 ->]. exists (SH_Finished (mk_fin verify_data None)). split; [|reflexivity].
    apply (Hj HT_Finished); [reflexivity|]. cbn [parse_body]. eapply parses_bind_nil; [|apply parses_ret].
    unfold parse_finished. eapply parses_bind_nil; [apply parses_pq, parses_fill, H1|apply parses_ret].
Qed.

(** Only messages the client understands are decoded. *)
Lemma parses_understood C b h : parses (parse_server_handshake C) b h -> exists m, understood C b m /\ denotes m h.
Proof.
  intros Hp. pose proof (Hp [] []) as H0. apply (acc_msg C) in H0 as (x & y & E & Eq & sm & Hr & Hd).
  assert (y = []).
  { apply (f_equal pb_pos) in Eq. unfold at_pos in Eq. cbn [pb_pos length app] in Eq. apply (f_equal (@length byte)) in E.
    rewrite app_length in E. destruct y; [reflexivity|cbn [length] in E; lia]. }
  subst y. rewrite app_nil_r in E. subst x. clear Eq. exists sm. split; [|exact Hd]. split; [exact Hr|].
  destruct Hr as (len & body & Hl & Hb & Eb). rewrite uint_b8 in Eb. pose proof Hp as Hs. rewrite Eb in Hs. cbn [app] in Hs.
  apply parses_split in Hs as (t & len' & body' & ty & E & Hl' & Hty & Hpb). injection E as <- E.
  apply app_len_inj in E as [<- <-]; [|congruence]. rewrite to_N_b8, N.mod_small in Hty by (now destruct sm).
  pose proof (Hpb [] []) as H1. clear Hpb Hp.
  destruct sm; cbn [smsg_type smsg_body] in *; injection Hty as <-; cbn [parse_body] in H1; auto;
    apply bind_ok in H1 as (z & q & Hz & H1).
  - destruct Hb as (v & r & sid & comp & Hf & Hi & ->). apply digestible_iff. exists z.
    destruct (runs_server_hello v r sid suite comp items Hf Hi [] []) as [R _]. rewrite Hz in R. now symmetry.
  - destruct Hb as (l & a & n & t & items & Hf & Hi & ->). exists len, l, a, n, t, items. split; [exact Hl|]. split; [exact Hf|].
    split; [exact Hi|]. split; [now rewrite uint_b8|]. apply digestible_iff.
    destruct (runs_new_session_ticket l a n t items Hf Hi [] []) as [R _]. rewrite Hz in R. cbn [fst] in R.
    destruct (block_result grp_new_session_ticket 1 [] items) eqn:Eb'; try discriminate. cbn [msg_group msg_cap]. eauto.
  - destruct Hb as [Hi ->]. apply digestible_iff.
    destruct (runs_encrypted_extensions items Hi [] []) as [R _]. rewrite Hz in R. cbn [fst] in R.
    destruct (block_result grp_encrypted_ext 16 [] items) eqn:Eb'; try discriminate. cbn [msg_group msg_cap]. eauto.
  - destruct Hb as (ens & F1 & F2 & F3 & Hraw & Hcerts & ->). unfold parse_certificate in Hz.
    rewrite at_pos_assoc in Hz.
    rewrite (vec_eq 1), at_pos_assoc in Hz. apply fits_1 in F1. apply fits_3 in F2.
    unfold bind at 1 in Hz. rewrite (parses_map_err _ _ _ _ (parses_read_u8_uint (N.of_nat (length context)) ltac:(lia))) in Hz.
    rewrite to_N_b8, N.mod_small, Nat2N.id in Hz by lia. rewrite at_pos_nil in Hz.
    unfold bind at 1 in Hz. rewrite (parses_map_err _ _ _ _ (parses_slice _ context eq_refl)) in Hz.
    rewrite at_pos_nil, (vec_eq 3), at_pos_assoc in Hz.
    unfold bind at 1 in Hz. rewrite (parses_map_err _ _ _ _ (parses_read_u24 _ F2)) in Hz.
    rewrite Nat2N.id, at_pos_nil in Hz.
    unfold bind at 1 in Hz. rewrite (parses_map_err _ _ _ _ (parses_slice _ raw eq_refl)) in Hz.
    apply bind_ok in Hz as (es & q2 & He & Hz). unfold lift in He. apply pair_equal_spec in He as [He _].
    unfold parse_cert_entries in He. rewrite pb_new_at in He. apply entries_iff in He; [|unfold at_pos; cbn [pb_buf app]; rewrite app_nil_r; lia|cbn; lia].
    destruct He as (ens' & He & Hens & -> & Hlen). cbn [app] in Hlen. rewrite !map_length in Hlen. exists ens'. auto.
  - destruct Hb as (F1 & Hi & ->). apply digestible_iff.
    destruct (runs_certificate_request context items F1 Hi [] []) as [R _]. cbn [frame_body] in R. rewrite Hz in R. cbn [fst] in R.
    destruct (block_result grp_cert_request 6 [] items) eqn:Eb'; try discriminate. cbn [msg_group msg_cap]. eauto.
Qed.

(** What reading a message came across. *)
Lemma read_understood C tr pre bs h tr' q : read_server_handshake C tr (at_pos pre bs []) = (Ok (h, tr'), q) ->
  exists x y sm, bs = x ++ y /\ q = at_pos (pre ++ x) y [] /\ understood C x sm /\ denotes sm h /\ tr' = tr ++ x /\
    (forall f, h = SH_Finished f -> f_hash f = Some (c_hash C tr)).
Proof.
  intros H. apply read_message_inv in H as (x & y & h0 & -> & -> & Hp & -> & ->).
  destruct (parses_understood C x h0 Hp) as (sm & Hu & Hd). exists x, y, sm. repeat (split; [easy|]).
  split; [destruct sm, h0; exact Hd|]. split; [reflexivity|].
  intros f E. destruct h0; cbn in E; try discriminate. injection E as <-. reflexivity.
Qed.
