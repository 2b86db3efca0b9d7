(** * C76: what the crate's encoders write, its parsers read back *)
From Coq Require Import String List NArith Arith Bool Lia ZArith.
From Coq.Strings Require Import Byte.
From Coq Require Import ZifyBool ZifyNat ZifyN.
From Verif Require Import Base Buffer ParseBuffer Codes Extensions Crypto KeySchedule Config Handshake Record
  BaseProofs SpecWire WireProofs BufferProofs SpecCodes SpecMessages ExtProofs AcceptProofs MessageProofs HelloProofs PropCodes PropCert SpecCodec.
Import ListNotations.
Local Open Scope list_scope.
Ltac Zify.zify_post_hook ::= Z.div_mod_to_equations.

Lemma encodes_writes (m : W unit) w : encodes m w tt -> writes m w.
Proof. intros H buf Hl. destruct (H [] buf 0 0 eq_refl) as [H1 _]. exact (H1 Hl). Qed.
Lemma writes_unique m w w' : writes m w -> writes m w' -> w = w'.
Proof.
  intros H H'. set (b := zeros (length w + length w')).
  assert (Hb : length b = length w + length w') by apply zeros_length.
  specialize (H b ltac:(lia)). specialize (H' b ltac:(lia)). rewrite H in H'. injection H' as E El.
  apply (f_equal (firstn (length w))) in E. rewrite firstn_app, firstn_all, Nat.sub_diag in E. cbn [firstn] in E.
  rewrite El, firstn_app, firstn_all, Nat.sub_diag in E. cbn [firstn] in E. rewrite !app_nil_r in E. exact E.
Qed.
Lemma parses_reads {E A} (m : P E A) w x : parses m w x -> reads m w x.
Proof. intros H pre post. specialize (H pre post). unfold at_pos in H. cbn [app] in H. rewrite <- app_assoc in H. exact H. Qed.

(** The payload bytes. *)
Definition image (x : ext_data) : bytes :=
  match x with
  | XD_VersionSH v => uint 2 v
  | XD_KeyShareSH g k => uint 2 (named_group_code g) ++ vec 2 k
  | XD_PskSH v => uint 2 v
  | XD_Unimpl b => b
  | x => data_image [] x
  end.

Lemma encodes_image c t x : sayable c t x -> encodes (enc_ext_data x) (image x) tt.
Proof.
  intros H. destruct H; try (apply (encodes_data _ 0); exact I).
  - cbn [enc_ext_data image]. unfold enc_key_share_entry, enc_named_group. eapply encodes_bind; [apply encodes_enc_err, encodes_uint2|].
    apply encodes_enc_err, encodes_vec2, encodes_extend.
  - apply encodes_enc_err, encodes_uint2.
  - apply encodes_enc_err, encodes_uint2.
  - apply encodes_ret.
  - apply encodes_extend.
Qed.
Lemma encodes_ext c e : sayable c (x_type e) (x_data e) ->
  encodes (ext_encode e) (item_wire (ext_type_code (x_type e), image (x_data e))) tt.
Proof.
  intros H. unfold ext_encode, item_wire. cbn [fst snd]. eapply encodes_bind; [apply encodes_enc_err, encodes_uint2|].
  apply encodes_vec2. eapply encodes_image, H.
Qed.

(** Lists. *)
Section Lists.
Context {T : Type} (read : P parse_error T) (wire : T -> bytes) (ok : T -> Prop).
Context (fwd : forall t, ok t -> parses read (wire t) t).
Context (ne : forall t, wire t <> []).

Lemma loop_fwd cap : forall ts fuel acc0 pre, length (concat (map wire ts)) < fuel -> length acc0 + length ts <= cap -> Forall ok ts ->
  read_list_loop fuel cap read acc0 (at_pos pre (concat (map wire ts)) []) = Ok (acc0 ++ ts).
Proof.
  induction ts as [|t ts IH]; intros fuel acc0 pre Hf Hc Hok; (destruct fuel as [|fuel]; [cbn in Hf; lia|]); cbn [read_list_loop]; rewrite pb_is_empty_at.
  - cbn [map concat length Nat.eqb]. now rewrite app_nil_r.
  - cbn [map concat] in *. rewrite app_length in *. inversion Hok as [|? ? Ht Hts]; subst.
    assert (0 < length (wire t)) by (specialize (ne t); destruct (wire t); [congruence|cbn; lia]).
    rewrite (proj2 (Nat.eqb_neq _ _)) by lia. rewrite at_pos_assoc, (fwd t Ht). cbn [length] in Hc.
    rewrite (proj2 (Nat.ltb_lt _ _)) by lia. rewrite app_nil_r, <- (app_nil_r (concat (map wire ts))), at_pos_move.
    rewrite IH; [now rewrite <- app_assoc|lia|rewrite app_length; cbn [length]; lia|exact Hts].
Qed.

Lemma list16_fwd (g : list T -> ext_data) cap ts : length ts <= cap -> Forall ok ts -> fits 2 (concat (map wire ts)) ->
  fst ((n <- read_u16 ;; l <- read_list cap (N.to_nat n) read ;; ret (g l)) (pb_new (vec 2 (concat (map wire ts))))) = Ok (g ts).
Proof.
  intros Hc Hok Hf. apply fits_2 in Hf. rewrite pb_new_at. unfold vec. rewrite at_pos_assoc. unfold bind at 1. rewrite (parses_read_u16 _ Hf).
  rewrite app_nil_r, <- (app_nil_r (concat (map wire ts))), at_pos_nil. unfold bind at 1, read_list at 1, bind at 1.
  rewrite app_nil_r, Nat2N.id, (parses_slice _ _ eq_refl). unfold lift. rewrite pb_new_at, loop_fwd; [reflexivity|lia|cbn [length]; lia|exact Hok].
Qed.
Lemma list8_fwd (g : list T -> ext_data) cap ts : length ts <= cap -> Forall ok ts -> fits 1 (concat (map wire ts)) ->
  fst ((n <- read_u8 ;; l <- read_list cap (N.to_nat (Byte.to_N n)) read ;; ret (g l)) (pb_new (vec 1 (concat (map wire ts))))) = Ok (g ts).
Proof.
  intros Hc Hok Hf. apply fits_1 in Hf. rewrite pb_new_at. unfold vec. rewrite at_pos_assoc. unfold bind at 1.
  rewrite (parses_read_u8_uint (N.of_nat (length (concat (map wire ts))))) by lia.
  rewrite app_nil_r, <- (app_nil_r (concat (map wire ts))), at_pos_nil. unfold bind at 1, read_list at 1, bind at 1.
  rewrite app_nil_r. rewrite to_N_b8, N.mod_small by lia. rewrite Nat2N.id, (parses_slice _ _ eq_refl). unfold lift. rewrite pb_new_at, loop_fwd; [reflexivity|lia|cbn [length]; lia|exact Hok].
Qed.
End Lists.

Definition parser_of (c : carrier) : ext_group :=
  match c with InClientHello => grp_client_hello | From m => msg_group m end.

Lemma nonempty_uint (k : nat) (n : N) (r : bytes) : 0 < k -> uint k n ++ r <> [].
Proof. intros Hk E. apply (f_equal (@length byte)) in E. rewrite app_length, uint_length in E. cbn in E. lia. Qed.

Lemma ne_uint k n : 0 < k -> uint k n <> [].
Proof. intros Hk E. apply (f_equal (@length byte)) in E. rewrite uint_length in E. cbn in E. lia. Qed.

Lemma parses_group g : parses parse_named_group (uint 2 (named_group_code g)) g.
Proof. exact (proj1 (code_read named_group_of named_group_code _ C03_named_group named_group_small) g I). Qed.
Lemma parses_scheme s : parses parse_sig_scheme (uint 2 (sig_scheme_code s)) s.
Proof. exact (proj1 (code_read sig_scheme_of sig_scheme_code _ C03_signature_scheme sig_scheme_small) s I). Qed.
Lemma parses_entry (e : named_group * bytes) : fits 2 (snd e) ->
  parses parse_key_share_entry (uint 2 (named_group_code (fst e)) ++ vec 2 (snd e)) e.
Proof.
  intros Hf. apply fits_2 in Hf. destruct e as [g k]. cbn [fst snd] in *. unfold parse_key_share_entry.
  eapply parses_bind; [apply parses_group|]. unfold vec. eapply parses_bind; [apply parses_read_u16, Hf|]. rewrite Nat2N.id.
  eapply parses_bind_nil; [apply (parses_slice (length k) k eq_refl)|]. apply parses_ret.
Qed.
Lemma parses_mode m : parses parse_psk_mode (uint 1 (psk_mode_code m)) m.
Proof.
  unfold parse_psk_mode. assert (Hm : (psk_mode_code m < 256)%N) by now destruct m. eapply parses_bind_nil; [apply parses_read_u8_uint, Hm|].
  apply parses_of_code. rewrite to_N_b8, N.mod_small by exact Hm. now destruct m.
Qed.
Lemma ascii_ok n : Forall (fun b => (Byte.to_N b < 128)%N) n -> is_ascii n = true.
Proof. intros H. apply forallb_forall. intros b Hb. rewrite Forall_forall in H. apply N.ltb_lt. exact (H b Hb). Qed.
Lemma parses_name n : fits 2 n -> Forall (fun b => (Byte.to_N b < 128)%N) n -> parses parse_server_name (uint 1 0 ++ vec 2 n) n.
Proof.
  intros Hf Ha. apply fits_2 in Hf. unfold parse_server_name. eapply parses_bind.
  - unfold parse_name_type. eapply parses_bind_nil; [apply parses_read_u8_uint; lia|]. cbn. apply parses_ret.
  - unfold vec. eapply parses_bind; [apply parses_read_u16, Hf|]. rewrite Nat2N.id.
    eapply parses_bind_nil; [apply (parses_slice (length n) n eq_refl)|]. cbn [pb_new pb_as_slice pb_buf]. rewrite (ascii_ok n Ha). apply parses_ret.
Qed.
Lemma parses_fst {A} (m : P parse_error A) b x : parses m b x -> fst (m (pb_new b)) = Ok x.
Proof. intros H. rewrite pb_new_at, (H [] []). reflexivity. Qed.
Lemma in_fits {T} (f : T -> bytes) k l x : In x l -> fits k (vec 2 (concat (map f l))) -> fits k (f x).
Proof.
  intros Hi Hf. pose proof (concat_len_in f l x Hi). unfold fits in *. rewrite vec_length in Hf. lia.
Qed.

Lemma parse_image c t x : sayable c t x -> fits 2 (image x) ->
  exists p, parser_of c t = Some p /\ fst (p (pb_new (image x))) = Ok (match x with XD_Alpn _ => XD_Alpn [] | d => d end).
Proof.
  intros H Hf.
  assert (Hin : forall (l : bytes), fits 2 (vec 2 l) -> fits 2 l) by (intros l Hl; unfold fits in *; rewrite vec_length in Hl; lia).
  destruct H as [l Hl Ha|l Hl Hv|c t l Hl Hc|c l Hl Hc|l Hl|l Hl|c m Hc|c l Hc Hn|g k|v Hv|n Hn| |c t b Ht]; cbn [image data_image] in *.
  - eexists. split; [reflexivity|].
    apply (list16_fwd parse_server_name (fun n => uint 1 0 ++ vec 2 n) (fun n => fits 2 n /\ Forall (fun b => (Byte.to_N b < 128)%N) n)
             (fun n Hn => parses_name n (proj1 Hn) (proj2 Hn)) (fun n => nonempty_uint 1 0 _ (Nat.lt_0_1)) XD_ServerNames); [exact Hl| |exact (Hin _ Hf)].
    apply Forall_forall. intros n Hi. rewrite Forall_forall in Ha. split; [|exact (Ha n Hi)].
    pose proof (in_fits (fun n => uint 1 0 ++ vec 2 n) 2 l n Hi Hf) as Hn. cbn beta in Hn. unfold fits in *. rewrite app_length, vec_length in Hn. lia.
  - eexists. split; [reflexivity|].
    apply (list8_fwd read_u16 (uint 2) (fun v => (v < 65536)%N) parses_read_u16 (fun n => ne_uint 2 n Nat.lt_0_2) XD_VersionsCH);
      [exact Hl|exact Hv|]. apply fits_1. destruct l as [|v [|? ?]]; cbn [map concat length] in *; rewrite ?app_length, ?uint_length; cbn [length] in *; lia.
  - assert (Hg : parser_of c t = Some (parse_sig_algs 25)) by (cbn [In] in Hc; destruct Hc as [E|[E|[E|[]]]]; injection E as <- <-; reflexivity).
    exists (parse_sig_algs 25). split; [exact Hg|].
    apply (list16_fwd parse_sig_scheme (fun s => uint 2 (sig_scheme_code s)) (fun _ => True) (fun s _ => parses_scheme s)
             (fun s => ne_uint 2 _ Nat.lt_0_2) XD_SigAlgs); [exact Hl|apply Forall_forall; auto|exact (Hin _ Hf)].
  - assert (Hg : parser_of c ET_SupportedGroups = Some (parse_groups 13)) by (cbn [In] in Hc; destruct Hc as [<-|[<-|[]]]; reflexivity).
    exists (parse_groups 13). split; [exact Hg|].
    apply (list16_fwd parse_named_group (fun s => uint 2 (named_group_code s)) (fun _ => True) (fun s _ => parses_group s)
             (fun s => ne_uint 2 _ Nat.lt_0_2) XD_Groups); [exact Hl|apply Forall_forall; auto|exact (Hin _ Hf)].
  - eexists. split; [reflexivity|].
    apply (list16_fwd parse_key_share_entry (fun e => uint 2 (named_group_code (fst e)) ++ vec 2 (snd e)) (fun e => fits 2 (snd e)) parses_entry
             (fun e => nonempty_uint 2 _ _ Nat.lt_0_2) XD_KeySharesCH); [exact Hl| |exact (Hin _ Hf)].
    apply Forall_forall. intros e Hi.
    pose proof (in_fits (fun e : named_group * bytes => uint 2 (named_group_code (fst e)) ++ vec 2 (snd e)) 2 l e Hi Hf) as Hn. cbn beta in Hn.
    unfold fits in *. rewrite app_length, vec_length in Hn. lia.
  - eexists. split; [reflexivity|].
    apply (list8_fwd parse_psk_mode (fun m => uint 1 (psk_mode_code m)) (fun _ => True) (fun m _ => parses_mode m)
             (fun m => ne_uint 1 _ Nat.lt_0_1) XD_PskModes); [exact Hl|apply Forall_forall; auto|].
    apply fits_1. assert (Hlen : length (concat (map (fun m => uint 1 (psk_mode_code m)) l)) = length l).
    { clear. induction l as [|m l IH]; [reflexivity|]. cbn [map concat]. rewrite app_length, uint_length, IH. reflexivity. }
    rewrite Hlen. lia.
  - assert (Hg : parser_of c ET_MaxFragmentLength = Some parse_max_frag_ext) by (cbn [In] in Hc; destruct Hc as [<-|[<-|[]]]; reflexivity).
    exists parse_max_frag_ext. split; [exact Hg|]. destruct m; reflexivity.
  - assert (Hg : parser_of c ET_ApplicationLayerProtocolNegotiation = Some parse_alpn) by (cbn [In] in Hc; destruct Hc as [<-|[<-|[]]]; reflexivity).
    exists parse_alpn. split; [exact Hg|]. unfold parse_alpn. pose proof (Hin _ Hf) as Hf'. apply fits_2 in Hf'. rewrite pb_new_at. rewrite (vec_eq 2), at_pos_assoc.
    unfold bind at 1. rewrite (parses_read_u16 _ Hf'). rewrite app_nil_r, <- (app_nil_r (concat (map (vec 1) l))), at_pos_nil. unfold bind at 1.
    rewrite app_nil_r, Nat2N.id, (parses_slice _ _ eq_refl). unfold bind, lift. rewrite pb_new_at, (proj2 (alpn_loop_iff _ [] _ (Nat.lt_succ_diag_r _))); [reflexivity|].
    exists l. split; [reflexivity|]. eapply Forall_impl; [|exact Hn]. cbn beta. intros n Hn'. split; [intros ->; cbn in Hn'; lia|apply fits_1; lia].
  - eexists. split; [reflexivity|]. apply parses_fst. unfold parse_key_share_sh. cbn [grp_server_hello].
    eapply parses_bind_nil; [apply (parses_entry (g, k))|apply parses_ret]. cbn [snd]. unfold fits in *. rewrite app_length, vec_length in Hf. lia.
  - eexists. split; [reflexivity|]. apply parses_fst. eapply parses_bind_nil; [apply parses_read_u16, Hv|apply parses_ret].
  - eexists. split; [reflexivity|]. apply parses_fst. eapply parses_bind_nil; [apply parses_read_u16, Hn|apply parses_ret].
  - eexists. split; [reflexivity|]. reflexivity.
  - assert (Hg : parser_of c t = Some parse_unimpl).
    { destruct c as [|[]]; cbn [opaque_types In] in Ht; repeat (destruct Ht as [<-|Ht]; [reflexivity|]); destruct Ht. }
    exists parse_unimpl. split; [exact Hg|reflexivity].
Qed.

(** ** The theorems *)

(** Every such extension can be written. *)
Theorem C76_writes : forall c e, sayable c (x_type e) (x_data e) -> exists w, writes (ext_encode e) w.
Proof. intros c e H. eexists. apply encodes_writes. eapply encodes_ext, H. Qed.

(** What was written is read back as the same extension, and nothing more or less is consumed. *)
Theorem C76_extension : forall c e w, sayable c (x_type e) (x_data e) -> writes (ext_encode e) w -> (N.of_nat (length w) < 65536)%N ->
  reads (ext_parse (parser_of c)) w (as_read e).
Proof.
  intros c e w Hs Hw Hl. pose proof (encodes_ext c e Hs) as He. apply encodes_writes in He. rewrite (writes_unique _ _ _ Hw He) in *. clear Hw He.
  rewrite item_wire_length in Hl. cbn [snd] in Hl. assert (Hf : fits 2 (image (x_data e))) by (apply fits_2; lia).
  destruct (parse_image c _ _ Hs Hf) as (p & Hp & Hr). apply parses_reads. intros pre post.
  rewrite (ext_parse_item (parser_of c)).
  - rewrite (proj1 (C03_round_trip _ _ _ C03_extension_type)), Hp, Hr. unfold as_read. destruct (x_data e); reflexivity.
  - split; [cbn [fst]; destruct (x_type e); reflexivity|exact Hf].
Qed.

(** The extensions of a whole ClientHello without a pre-shared key. *)
Lemma ch_sayable C h e : length (cfg_schemes (ch_config h)) <= 25 -> length (cfg_groups (ch_config h)) <= 13 ->
  (forall n, cfg_server_name (ch_config h) = Some n -> Forall (fun b => (Byte.to_N b < 128)%N) n) ->
  (forall l, cfg_alpn (ch_config h) = Some l -> Forall (fun n => 1 <= length n <= 255) l) ->
  cfg_psk (ch_config h) = None -> In e (ch_extensions C h) -> sayable InClientHello (x_type e) (x_data e).
Proof.
  intros H1 H2 H3 H4 H5. unfold ch_extensions. rewrite H5, !in_app_iff.
  destruct (cfg_max_frag _) as [m|], (cfg_server_name _) as [n|] eqn:En, (cfg_alpn _) as [l|] eqn:El; cbn [In]; intros H;
    repeat match goal with H : _ \/ _ |- _ => destruct H as [H|H] end; try contradiction; subst e; cbn [x_type x_data];
    first [apply y_versions; [cbn; lia|repeat constructor] | apply y_schemes; [exact H1|now left] | apply y_groups; [exact H2|now left]
          |apply y_shares; cbn; lia|apply y_modes; cbn; lia|apply y_frag; now left|apply y_names; [cbn; lia|repeat constructor; now apply H3]
          |apply y_alpn; [now left|now apply H4]].
Qed.
Lemma block_fwd g cap es : forall acc0, length acc0 + length es <= cap ->
  (forall e, In e es -> exists p, g (x_type e) = Some p /\ fst (p (pb_new (image (x_data e)))) = Ok (x_data (as_read e))) ->
  block_result g cap acc0 (map (fun e => (ext_type_code (x_type e), image (x_data e))) es) = Ok (acc0 ++ map as_read es).
Proof.
  induction es as [|e es IH]; intros acc0 Hl H; [cbn; now rewrite app_nil_r|]. cbn [map block_result].
  rewrite (proj1 (C03_round_trip _ _ _ C03_extension_type)). destruct (H e (or_introl eq_refl)) as (p & -> & ->). cbn [length] in Hl.
  rewrite (proj2 (Nat.ltb_lt _ _)) by lia. rewrite IH; [rewrite <- app_assoc; reflexivity|rewrite app_length; cbn [length]; lia|].
  intros e' He'. apply H. now right.
Qed.

Theorem C76_hello : forall C h w cap, length (cfg_schemes (ch_config h)) <= 25 -> length (cfg_groups (ch_config h)) <= 13 ->
  (forall n, cfg_server_name (ch_config h) = Some n -> Forall (fun b => (Byte.to_N b < 128)%N) n) ->
  (forall l, cfg_alpn (ch_config h) = Some l -> Forall (fun n => 1 <= length n <= 255) l) ->
  cfg_psk (ch_config h) = None -> 8 <= cap ->
  writes (with_u16_length (for_each (ch_extensions C h) ext_encode)) w -> (N.of_nat (length w) < 65536)%N ->
  reads (ext_parse_vector grp_client_hello cap) w (map as_read (ch_extensions C h)).
Proof.
  intros C h w cap H1 H2 H3 H4 H5 Hc Hw Hl.
  set (items := map (fun e => (ext_type_code (x_type e), image (x_data e))) (ch_extensions C h)).
  assert (He : writes (with_u16_length (for_each (ch_extensions C h) ext_encode)) (ext_block items)).
  { apply encodes_writes. apply encodes_vec2. unfold items_wire, items. rewrite map_map. apply encodes_for_each.
    intros e Hi. eapply encodes_ext, (ch_sayable C h e H1 H2 H3 H4 H5 Hi). }
  rewrite (writes_unique _ _ _ Hw He) in *. clear Hw He. unfold ext_block in Hl. rewrite vec_length in Hl.
  assert (Hfit : forall e, In e (ch_extensions C h) -> fits 2 (image (x_data e))).
  { intros e Hi. pose proof (concat_len_in item_wire items (ext_type_code (x_type e), image (x_data e))) as Hk.
    rewrite item_wire_length in Hk. cbn [snd] in Hk. unfold items_wire in Hl. apply fits_2.
    assert (In (ext_type_code (x_type e), image (x_data e)) items) by (unfold items; apply (in_map (fun e => (ext_type_code (x_type e), image (x_data e)))), Hi).
    specialize (Hk H). lia. }
  assert (Hb : block_ok items).
  { split; [|apply fits_2; lia]. apply Forall_forall. intros i Hi. apply in_map_iff in Hi as (e & <- & Hi).
    split; [cbn [fst]; destruct (x_type e); reflexivity|exact (Hfit e Hi)]. }
  apply parses_reads. intros pre post. rewrite (ext_vector_items _ _ _ Hb). unfold items at 1. rewrite block_fwd; [reflexivity| |].
  - cbn [length]. unfold ch_extensions. rewrite H5, !app_length. destruct (cfg_max_frag _), (cfg_server_name _), (cfg_alpn _); cbn [length]; lia.
  - intros e Hi. destruct (parse_image InClientHello _ _ (ch_sayable C h e H1 H2 H3 H4 H5 Hi) (Hfit e Hi)) as (p & Hp & Hr).
    exists p. split; [exact Hp|]. rewrite Hr. unfold as_read. destruct (x_data e); reflexivity.
Qed.

(** With a pre-shared key the parser does not return: it is not written. *)
Theorem C76_psk_refuted : forall ids hs w pre post, writes (ext_encode (mk_ext ET_PreSharedKey (XD_PskCH ids hs))) w -> (N.of_nat (length w) < 65536)%N ->
  fst (ext_parse grp_client_hello (mk_pbuf (length pre) (pre ++ w ++ post))) = Panic PUnimplemented.
Proof.
  intros ids hs w pre post Hw Hl. set (x := XD_PskCH ids hs). set (b := data_image (zeros ((1 + hs) * length ids)) x).
  assert (He : writes (ext_encode (mk_ext ET_PreSharedKey x)) (item_wire (ext_type_code ET_PreSharedKey, b))).
  { apply encodes_writes. unfold ext_encode, item_wire. cbn [fst snd x_type x_data]. eapply encodes_bind; [apply encodes_enc_err, encodes_uint2|].
    apply encodes_vec2. apply encodes_data. reflexivity. }
  rewrite (writes_unique _ _ _ Hw He) in *. clear Hw He. rewrite item_wire_length in Hl. cbn [snd] in Hl.
  change (mk_pbuf (length pre) (pre ++ item_wire (ext_type_code ET_PreSharedKey, b) ++ post)) with (at_pos pre (item_wire (ext_type_code ET_PreSharedKey, b)) post).
  rewrite ext_parse_item; [reflexivity|]. split; [reflexivity|apply fits_2; cbn [snd]; lia].
Qed.

(** A server name that is not ASCII, which the configuration may have, is written as it is and not read. *)
Lemma rejects_name n : fits 2 n -> Exists (fun b => (128 <= Byte.to_N b)%N) n -> rejects parse_server_name (uint 1 0 ++ vec 2 n) PE_InvalidData.
Proof.
  intros Hf Ha. apply fits_2 in Hf. unfold parse_server_name. eapply rejects_bind_r.
  - unfold parse_name_type. eapply parses_bind_nil; [apply parses_read_u8_uint; lia|]. cbn. apply parses_ret.
  - unfold vec. eapply rejects_bind_r; [apply parses_read_u16, Hf|]. rewrite Nat2N.id. rewrite <- (app_nil_r n) at 2.
    eapply rejects_bind_r; [apply (parses_slice (length n) n eq_refl)|]. cbn [pb_new pb_as_slice pb_buf].
    replace (is_ascii n) with false; [apply rejects_fail|]. symmetry. apply Exists_exists in Ha as (b & Hb & H128).
    destruct (is_ascii n) eqn:E; [|reflexivity]. unfold is_ascii in E. rewrite forallb_forall in E. specialize (E b Hb). apply N.ltb_lt in E. lia.
Qed.

Theorem C76_name_refuted : forall n, Exists (fun b => (128 <= Byte.to_N b)%N) n -> exists w, writes (ext_encode (mk_ext ET_ServerName (XD_ServerNames [n]))) w /\
  ((N.of_nat (length w) < 65536)%N -> forall pre post, fst (ext_parse grp_client_hello (mk_pbuf (length pre) (pre ++ w ++ post))) = Err DecodeError).
Proof.
  intros n Hn. set (b := data_image (zeros 0) (XD_ServerNames [n])). exists (item_wire (ext_type_code ET_ServerName, b)). split.
  { apply encodes_writes. unfold ext_encode, item_wire. cbn [fst snd x_type x_data]. eapply encodes_bind; [apply encodes_enc_err, encodes_uint2|].
    apply encodes_vec2. apply encodes_data. reflexivity. }
  intros Hl pre post. rewrite item_wire_length in Hl. cbn [snd] in Hl.
  change (mk_pbuf (length pre) (pre ++ item_wire (ext_type_code ET_ServerName, b) ++ post)) with (at_pos pre (item_wire (ext_type_code ET_ServerName, b)) post).
  rewrite ext_parse_item by (split; [reflexivity|apply fits_2; cbn [snd]; lia]). change (ext_type_of (ext_type_code ET_ServerName)) with (Some ET_ServerName).
  cbn [fst grp_client_hello].
  assert (Hlen : length b = 5 + length n) by (unfold b; cbn [data_image map concat]; rewrite app_nil_r, vec_length, app_length, vec_length; cbn; lia).
  assert (Hf : fits 2 n) by (apply fits_2; lia).
  set (m := uint 1 0 ++ vec 2 n). assert (Hm : length m = 3 + length n) by (unfold m; rewrite app_length, vec_length; reflexivity).
  assert (Hr : rejects (parse_server_names 1) b PE_InvalidData).
  { unfold b. cbn [data_image map concat]. rewrite app_nil_r. fold m. unfold parse_server_names, vec. eapply rejects_bind_r; [apply parses_read_u16; lia|].
    rewrite Nat2N.id. apply rejects_bind_nil. unfold read_list. rewrite <- (app_nil_r m) at 2. eapply rejects_bind_r; [apply (parses_slice (length m) m eq_refl)|].
    apply rejects_lift. cbn [read_list_loop]. unfold pb_is_empty. cbn [pb_new pb_pos pb_buf]. replace (0 =? length m) with false by (symmetry; apply Nat.eqb_neq; lia).
    pose proof (rejects_new _ _ [] _ (rejects_name n Hf Hn)) as Hrj. rewrite app_nil_r in Hrj. fold m in Hrj. change (mk_pbuf 0 m) with (pb_new m).
    destruct (parse_server_name (pb_new m)) as [o d]. cbn [fst] in Hrj. now rewrite Hrj. }
  pose proof (rejects_new _ _ [] _ Hr) as Hn'. rewrite app_nil_r in Hn'. rewrite Hn'. reflexivity.
Qed.

(** What a server name extension of a ClientHello is read from: nothing but a list of at most one name, of type host_name and ASCII.  (What comes
    after the list, within the extension, is not looked at.) *)
Definition name_wire (n : bytes) : bytes := uint 1 0 ++ vec 2 n.
Definition host_name (n : bytes) : Prop := fits 2 n /\ Forall (fun b => (Byte.to_N b < 128)%N) n.

Lemma acc_name : acc parse_server_name (fun n x => host_name n /\ x = name_wire n).
Proof.
  unfold parse_server_name, parse_name_type.
  intros pre bs n p' H. apply bind_ok in H as (u & p1 & H1 & H).
  apply bind_ok in H1 as (b & p2 & H1 & H2). apply acc_u8 in H1 as (x1 & y1 & -> & -> & ->).
  destruct (N.eqb_spec (Byte.to_N b) 0) as [Hb|]; [|discriminate]. injection H2 as _ <-.
  apply bind_ok in H as (k & p2 & H1 & H). apply acc_u16 in H1 as (x2 & y2 & -> & -> & -> & Hk).
  apply bind_ok in H as (d & p3 & H1 & H). apply acc_slice in H1 as (x3 & y3 & -> & -> & -> & Hl).
  change (pb_as_slice (pb_new x3)) with x3 in H. destruct (is_ascii x3) eqn:Ea; [|discriminate]. injection H as <- <-.
  exists (name_wire x3), y3. unfold name_wire. rewrite vec_eq, Hl, N2Nat.id, (b8_uint b), Hb, <- !app_assoc. split; [reflexivity|].
  split; [repeat rewrite <- app_assoc; reflexivity|]. split; [|reflexivity]. split; [apply fits_2; lia|].
  apply Forall_forall. intros c Hc. unfold is_ascii in Ea. rewrite forallb_forall in Ea. apply N.ltb_lt. exact (Ea c Hc).
Qed.

Theorem C76_names_only : forall b x, fits 2 b ->
  fst (ext_parse grp_client_hello (pb_new (uint 2 0 ++ vec 2 b))) = Ok x <->
  exists l junk, b = vec 2 (concat (map name_wire l)) ++ junk /\ fits 2 (concat (map name_wire l)) /\ Forall host_name l /\ length l <= 1 /\
    x = mk_ext ET_ServerName (XD_ServerNames l).
Proof.
  intros b x Hb. change (uint 2 0 ++ vec 2 b) with (item_wire (0%N, b)).
  replace (pb_new (item_wire (0%N, b))) with (at_pos [] (item_wire (0%N, b)) []) by (unfold at_pos, pb_new; cbn [app length]; now rewrite app_nil_r).
  rewrite ext_parse_item by (split; [reflexivity|exact Hb]). change (ext_type_of 0) with (Some ET_ServerName). cbn [fst grp_client_hello].
  assert (Hne : forall n, name_wire n <> []) by (intros n E; apply (f_equal (@length byte)) in E; unfold name_wire in E; rewrite app_length, uint_length in E; discriminate).
  pose proof (read_list_loop_iff parse_server_name host_name name_wire (fun n Hn => parses_name n (proj1 Hn) (proj2 Hn)) acc_name Hne 1) as Hiff.
  assert (H : forall y, fst (parse_server_names 1 (pb_new b)) = Ok y <->
    exists l junk, b = vec 2 (concat (map name_wire l)) ++ junk /\ fits 2 (concat (map name_wire l)) /\ Forall host_name l /\ length l <= 1 /\ y = XD_ServerNames l).
  { intros y. split.
    - intros H. destruct (parse_server_names 1 (pb_new b)) as [o q] eqn:E. cbn [fst] in H. subst o. rewrite pb_new_at in E. unfold parse_server_names in E.
      apply bind_ok in E as (n & q1 & En & E). apply acc_u16 in En as (x1 & y1 & -> & -> & -> & Hn).
      apply bind_ok in E as (l & q2 & El & E). injection E as <- _. unfold read_list in El.
      apply bind_ok in El as (d & q3 & Ed & El). apply acc_slice in Ed as (x2 & y2 & -> & -> & -> & Hl).
      unfold lift in El. apply pair_equal_spec in El as [El _]. rewrite pb_new_at in El.
      apply Hiff in El as (ts & -> & Hts & -> & Hc); [|lia|cbn; lia]. cbn [app] in *.
      exists ts, y2. split; [unfold vec; rewrite Hl, N2Nat.id, <- app_assoc; reflexivity|]. split; [apply fits_2; lia|auto].
    - intros (ts & junk & -> & Hf & Hts & Hc & ->). rewrite pb_new_at. apply fits_2 in Hf. unfold parse_server_names.
      unfold vec. rewrite <- app_assoc, at_pos_assoc. unfold bind at 1. rewrite (parses_read_u16 _ Hf).
      rewrite app_nil_r, at_pos_nil. unfold bind at 1, read_list at 1, bind at 1. rewrite Nat2N.id, (parses_slice _ _ eq_refl).
      unfold lift. rewrite pb_new_at. rewrite (proj2 (Hiff _ [] [] _ (Nat.lt_succ_diag_r _) (Nat.le_0_l 1) ts)); [reflexivity|].
      exists ts. auto. }
  split.
  - intros E. destruct (fst (parse_server_names 1 (pb_new b))) as [y|e|s| |]; try discriminate. injection E as <-.
    destruct (proj1 (H y) eq_refl) as (l & junk & H1 & H2 & H3 & H4 & ->). exists l, junk. auto.
  - intros (l & junk & H1 & H2 & H3 & H4 & ->). rewrite (proj2 (H (XD_ServerNames l))); [reflexivity|]. exists l, junk. auto.
Qed.

(** Alerts. *)
Theorem C76_alert : forall l d w, writes (enc_alert l d) w -> reads parse_alert w (l, d).
Proof.
  intros l d w Hw. assert (He : writes (enc_alert l d) (uint 1 (alert_level_code l) ++ uint 1 (alert_desc_code d))).
  { apply encodes_writes. eapply encodes_bind; apply encodes_enc_err, encodes_uint1. }
  rewrite (writes_unique _ _ _ Hw He). apply parses_reads. unfold parse_alert.
  assert (H1 : (alert_level_code l < 256)%N) by now destruct l. assert (H2 : (alert_desc_code d < 256)%N) by now destruct d.
  eapply parses_bind; [apply parses_pq, parses_read_u8_uint, H1|]. eapply parses_bind_nil; [apply parses_pq, parses_read_u8_uint, H2|].
  rewrite !to_N_b8, !N.mod_small by assumption.
  rewrite (proj1 (C03_round_trip _ _ _ C03_alert_level)), (proj1 (C03_round_trip _ _ _ C03_alert_description)).
  eapply parses_bind_nil; [now apply parses_lift|]. eapply parses_bind_nil; [now apply parses_lift|]. apply parses_ret.
Qed.

(** The messages both sides send: Certificate, CertificateVerify and Finished. *)
Definition same_message (h : client_handshake) (m : server_handshake) : Prop :=
  match h, m with
  | CH_Cert c, SH_Certificate c' => ce_context c' = ce_context c /\ ce_entries c' = ce_entries c
  | CH_CertVerify v, SH_CertificateVerify v' => v' = v
  | CH_Finished f, SH_Finished f' => f_verify f' = f_verify f
  | _, _ => False
  end.
Definition sendable_message (C : crypto) (h : client_handshake) : Prop :=
  match h with
  | CH_Cert c => length (ce_entries c) <= 16 /\ (exists ders, ce_entries c = map CE_X509 ders) /\ length (ce_context c) < 256
  | CH_CertVerify v => (N.of_nat (length (cv_sig v)) < 65536)%N
  | CH_Finished f => length (f_verify f) = hash_len C
  | CH_Hello _ => False
  end.

Theorem C76_message : forall C h w, sendable_message C h -> writes (enc_client_handshake C h) w -> (N.of_nat (length w) < 16777216)%N ->
  exists m, reads (parse_server_handshake C) w m /\ same_message h m.
Proof.
  intros C h w Hs Hw Hl.
  assert (Hk : exists b m, encodes (match h with CH_Hello x => enc_client_hello C x | CH_Finished x => enc_finished x | CH_Cert x => enc_certificate x
       | CH_CertVerify x => enc_certificate_verify x end) b tt /\ same_message h m /\ (fits 3 b ->
       parses (parse_server_handshake C) (uint 1 (handshake_type_code (client_handshake_type h)) ++ vec 3 b) m)).
  { destruct h as [c|v|x|f]; cbn [sendable_message client_handshake_type handshake_type_code] in *; [| |destruct Hs|].
    - destruct c as [raw ctx es]. cbn [ce_entries ce_context] in Hs. destruct Hs as (Hn & [ders ->] & Hx). rewrite map_length in Hn.
      exists (certificate_wire ctx (plain ders)), (SH_Certificate (mk_cert (entries_wire (plain ders)) ctx (map (fun e => CE_X509 (fst e)) (plain ders)))).
      split; [apply encodes_cert|]. split; [cbn; split; [reflexivity|]; unfold plain; rewrite map_map; reflexivity|]. intros Hf.
      eapply parses_bind; [apply parses_map_err; eapply parses_bind_nil; [apply parses_read_u8_uint; reflexivity|now apply parses_of_code]|].
      eapply parses_bind; [apply parses_map_err, parses_read_u24; now apply fits_3|]. eapply parses_bind_nil; [|apply parses_ret].
      apply parses_certificate, wire_ok_plain; [now apply fits_1| |exact Hn]. apply (proj1 (fits_3 _)) in Hf. apply fits_3. unfold certificate_wire in Hf.
      rewrite app_length, !vec_length in Hf. lia.
    - exists (uint 2 (sig_scheme_code (cv_scheme v)) ++ vec 2 (cv_sig v)), (SH_CertificateVerify v).
      split; [eapply encodes_bind; [apply encodes_uint2|apply encodes_vec2, encodes_extend]|]. split; [reflexivity|]. intros Hf.
      eapply parses_bind; [apply parses_map_err; eapply parses_bind_nil; [apply parses_read_u8_uint; reflexivity|now apply parses_of_code]|].
      eapply parses_bind; [apply parses_map_err, parses_read_u24; now apply fits_3|]. eapply parses_bind_nil; [|apply parses_ret].
      unfold parse_certificate_verify. eapply parses_bind; [apply parses_map_err, parses_scheme|]. unfold vec.
      eapply parses_bind; [apply parses_map_err, parses_read_u16, Hs|]. rewrite Nat2N.id.
      eapply parses_bind_nil; [apply parses_map_err, (parses_slice _ _ eq_refl)|]. destruct v as [s g]. apply parses_ret.
    - exists (f_verify f), (SH_Finished (mk_fin (f_verify f) None)).
      split; [apply encodes_enc_err, encodes_extend|]. split; [reflexivity|]. intros Hf.
      eapply parses_bind; [apply parses_map_err; eapply parses_bind_nil; [apply parses_read_u8_uint; reflexivity|now apply parses_of_code]|].
      eapply parses_bind; [apply parses_map_err, parses_read_u24; now apply fits_3|]. eapply parses_bind_nil; [|apply parses_ret].
      unfold parse_finished. eapply parses_bind_nil; [apply parses_pq, parses_fill, Hs|apply parses_ret]. }
  destruct Hk as (b & m & He & Hm & Hp).
  assert (Hw' : writes (enc_client_handshake C h) (uint 1 (handshake_type_code (client_handshake_type h)) ++ vec 3 b)).
  { apply encodes_writes. unfold enc_client_handshake. eapply encodes_bind; [apply encodes_enc_err, encodes_uint1|apply encodes_vec3, He]. }
  rewrite (writes_unique _ _ _ Hw Hw') in *. rewrite app_length, vec_length in Hl. exists m. split; [|exact Hm].
  apply parses_reads, Hp, fits_3. lia.
Qed.

(** A server name; a list of two protocols, of which the parser keeps nothing; a CertificateVerify. *)
Definition name_ab : extension := mk_ext ET_ServerName (XD_ServerNames [[x61; x2e; x62]]).
Definition two_names : extension := mk_ext ET_ApplicationLayerProtocolNegotiation (XD_Alpn [[x68; x32]; [x63]]).
Example C76_case : sayable InClientHello (x_type name_ab) (x_data name_ab) /\
  writes (ext_encode name_ab) [x00; x00; x00; x08; x00; x06; x00; x00; x03; x61; x2e; x62] /\
  reads (ext_parse grp_client_hello) [x00; x00; x00; x08; x00; x06; x00; x00; x03; x61; x2e; x62] name_ab /\
  sayable (From InEncryptedExtensions) (x_type two_names) (x_data two_names) /\ as_read two_names <> two_names /\
  forall C, sendable_message C (CH_CertVerify (mk_cv SS_EcdsaSecp256r1Sha256 [x30; x01; x02])).
Proof.
  assert (Hs : sayable InClientHello (x_type name_ab) (x_data name_ab)) by (apply y_names; [cbn; lia|repeat constructor]).
  assert (Hw : writes (ext_encode name_ab) [x00; x00; x00; x08; x00; x06; x00; x00; x03; x61; x2e; x62]) by (apply encodes_writes; exact (encodes_ext _ _ Hs)).
  split; [exact Hs|]. split; [exact Hw|]. split; [exact (C76_extension _ _ _ Hs Hw eq_refl)|].
  split; [apply y_alpn; [right; now left|repeat constructor; cbn; lia]|]. split; [discriminate|]. reflexivity.
Qed.

(** A name with an umlaut. *)
Example C76_name_case : exists w, writes (ext_encode (mk_ext ET_ServerName (XD_ServerNames [[x61; xc3; xbc]]))) w /\
  ((N.of_nat (length w) < 65536)%N -> forall pre post, fst (ext_parse grp_client_hello (mk_pbuf (length pre) (pre ++ w ++ post))) = Err DecodeError).
Proof. apply C76_name_refuted. right. left. vm_compute. discriminate. Qed.

(** One name is read; an empty list is; two names, or a name of another type, are not. *)
Example C76_names_case :
  fst (ext_parse grp_client_hello (pb_new (uint 2 0 ++ vec 2 (vec 2 (name_wire [x61; x62]))))) = Ok (mk_ext ET_ServerName (XD_ServerNames [[x61; x62]])) /\
  (forall x, fst (ext_parse grp_client_hello (pb_new (uint 2 0 ++ vec 2 (vec 2 (name_wire [x61] ++ name_wire [x62]))))) <> Ok x) /\
  (forall x, fst (ext_parse grp_client_hello (pb_new (uint 2 0 ++ vec 2 (vec 2 (uint 1 1 ++ vec 2 [x61]))))) <> Ok x).
Proof.
  split; [|split].
  - apply C76_names_only; [reflexivity|]. exists [[x61; x62]], []. repeat split; try reflexivity; cbn [length]; try lia.
    repeat constructor.
  - intros x. vm_compute. discriminate.
  - intros x. vm_compute. discriminate.
Qed.

Print Assumptions C76_writes.
Print Assumptions C76_extension.
Print Assumptions C76_hello.
Print Assumptions C76_psk_refuted.
Print Assumptions C76_name_refuted.
Print Assumptions C76_names_only.
Print Assumptions C76_alert.
Print Assumptions C76_message.
