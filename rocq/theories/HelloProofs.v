(** * The ClientHello: byte image of the encoder, binders, and the grammar *)
From Coq Require Import String List NArith Arith Bool Lia ZArith.
From Coq.Strings Require Import Byte.
From Coq Require Import ZifyBool ZifyNat ZifyN.
From Verif Require Import Base Buffer Codes Extensions Crypto KeySchedule Config Handshake Record WriteBuffer
  BaseProofs SpecWire WireProofs BufferProofs SpecKeys KeyProofs WriteProofs SpecCodes SpecHello.
Import ListNotations.
Local Open Scope list_scope.

Ltac Zify.zify_post_hook ::= Z.div_mod_to_equations.

(** ** Byte images *)

Lemma encodes_vec1 {A} (op : W A) bs a : encodes op bs a -> encodes (with_u8_length op) (vec 1 bs) a.
Proof.
  intros H. apply encodes_with_u8 in H. revert H. apply encodes_eq. unfold vec.
  replace (uint 1 (N.of_nat (length bs))) with [b8 (N.of_nat (length bs))] by (symmetry; apply uint_b8).
  reflexivity.
Qed.
Lemma encodes_vec2 {A} (op : W A) bs a : encodes op bs a -> encodes (with_u16_length op) (vec 2 bs) a.
Proof.
  intros H. apply encodes_with_u16 in H. revert H. apply encodes_eq. unfold vec.
  now replace (uint 2 (N.of_nat (length bs))) with (be16 (N.of_nat (length bs))) by (symmetry; apply uint_be16).
Qed.
Lemma encodes_vec3 {A} (op : W A) bs a : encodes op bs a -> encodes (with_u24_length op) (vec 3 bs) a.
Proof.
  intros H. apply encodes_with_u24 in H. revert H. apply encodes_eq. unfold vec.
  now replace (uint 3 (N.of_nat (length bs))) with (be24 (N.of_nat (length bs))) by (symmetry; apply uint_be24).
Qed.
Lemma encodes_uint1 n : encodes (cb_push (b8 n)) (uint 1 n) tt.
Proof. eapply encodes_eq; [symmetry; apply uint_b8|apply encodes_push]. Qed.
Lemma encodes_uint2 n : encodes (cb_push_u16 n) (uint 2 n) tt.
Proof. eapply encodes_eq; [symmetry; apply uint_be16|apply encodes_u16]. Qed.
Lemma encodes_uint4 n : encodes (cb_push_u32 n) (uint 4 n) tt.
Proof. eapply encodes_eq; [symmetry; apply uint_be32|apply encodes_u32]. Qed.

Lemma encodes_zeros n : encodes (for_each (repeat tt n) (fun _ => enc_err (cb_push x00))) (zeros n) tt.
Proof.
  eapply encodes_eq; [|apply encodes_for_each with (g := fun _ => [x00]); intros; apply encodes_enc_err, encodes_push].
  induction n as [|n IH]; [reflexivity|]. cbn. now rewrite IH.
Qed.

(** Extension payloads that a ClientHello can carry; [b] is the content of the binder list. *)
Definition data_image (b : bytes) (x : ext_data) : bytes :=
  match x with
  | XD_ServerNames l => vec 2 (concat (map (fun n => uint 1 0 ++ vec 2 n) l))
  | XD_VersionsCH l => vec 1 (concat (map (uint 2) l))
  | XD_SigAlgs l => vec 2 (concat (map (fun s => uint 2 (sig_scheme_code s)) l))
  | XD_Groups l => vec 2 (concat (map (fun g => uint 2 (named_group_code g)) l))
  | XD_KeySharesCH l => vec 2 (concat (map (fun e => uint 2 (named_group_code (fst e)) ++ vec 2 (snd e)) l))
  | XD_PskCH ids _ => vec 2 (concat (map (fun i => vec 2 i ++ uint 4 0) ids)) ++ vec 2 b
  | XD_PskModes l => vec 1 (concat (map (fun m => uint 1 (psk_mode_code m)) l))
  | XD_MaxFrag m => uint 1 (max_frag_code m)
  | XD_Alpn l => vec 2 (concat (map (vec 1) l))
  | _ => []
  end.
Definition ext_image (b : bytes) (e : extension) : bytes :=
  uint 2 (ext_type_code (x_type e)) ++ vec 2 (data_image b (x_data e)).

Definition ch_payload (x : ext_data) (n : nat) : Prop :=
  match x with
  | XD_ServerNames _ | XD_VersionsCH _ | XD_SigAlgs _ | XD_Groups _ | XD_KeySharesCH _
  | XD_PskModes _ | XD_MaxFrag _ | XD_Alpn _ => True
  | XD_PskCH ids hs => n = (1 + hs) * length ids
  | _ => False
  end.

Lemma encodes_data x n : ch_payload x n -> encodes (enc_ext_data x) (data_image (zeros n) x) tt.
Proof.
  intros H. destruct x; try contradiction; cbn [enc_ext_data data_image].
  - apply encodes_vec2, encodes_for_each. intros nm _. unfold enc_server_name.
    eapply encodes_bind; [apply encodes_enc_err, (encodes_uint1 0)|].
    apply encodes_enc_err, encodes_vec2, encodes_extend.
  - apply encodes_vec1, encodes_for_each. intros v _. apply encodes_enc_err, encodes_uint2.
  - apply encodes_vec2, encodes_for_each. intros v _. apply encodes_enc_err, encodes_uint2.
  - apply encodes_vec2, encodes_for_each. intros v _. apply encodes_enc_err, encodes_uint2.
  - apply encodes_vec2, encodes_for_each. intros v _. unfold enc_key_share_entry, enc_named_group.
    eapply encodes_bind; [apply encodes_enc_err, encodes_uint2|].
    apply encodes_enc_err, encodes_vec2, encodes_extend.
  - cbn [ch_payload] in H. subst n. unfold enc_psk_ch. eapply encodes_bind.
    + apply encodes_enc_err, encodes_vec2.
      apply encodes_for_each with (g := fun i => vec 2 i ++ uint 4 0). intros i _.
      eapply encodes_bind; [apply encodes_enc_err, encodes_vec2, encodes_extend|].
      apply encodes_enc_err, encodes_uint4.
    + cbv zeta. unfold vec at 1. rewrite zeros_length.
      eapply encodes_bind; [|apply encodes_zeros].
      apply encodes_enc_err. eapply encodes_eq; [|apply encodes_u16].
      rewrite be16_mod. symmetry. apply uint_be16.
  - apply encodes_vec1, encodes_for_each. intros v _. apply encodes_enc_err, encodes_uint1.
  - apply encodes_enc_err, encodes_uint1.
  - apply encodes_vec2, encodes_for_each. intros v _. unfold vec.
    eapply encodes_bind; [apply encodes_enc_err, encodes_uint1|apply encodes_extend].
Qed.

Definition binders_room (C : crypto) (h : client_hello) : nat :=
  match cfg_psk (ch_config h) with Some (_, ids) => (1 + hash_len C) * length ids | None => 0 end.

Lemma ch_extensions_payload C h e : In e (ch_extensions C h) -> ch_payload (x_data e) (binders_room C h).
Proof.
  unfold ch_extensions, binders_room. rewrite !in_app_iff.
  destruct (cfg_max_frag _), (cfg_server_name _), (cfg_alpn _), (cfg_psk _) as [[k ids]|];
    cbn [In]; intros H;
    repeat match goal with H : _ \/ _ |- _ => destruct H as [H|H] end; try contradiction; subst; cbn; auto.
Qed.

(** The whole message with binder list content [b]. *)
Definition hello_body (C : crypto) (h : client_hello) (b : bytes) : bytes :=
  uint 2 0x0303 ++ ch_random h ++ vec 1 [] ++ vec 2 (uint 2 (code_point C)) ++ vec 1 [x00] ++
  vec 2 (concat (map (ext_image b) (ch_extensions C h))).
Definition hello_image (C : crypto) (h : client_hello) (b : bytes) : bytes :=
  uint 1 1 ++ vec 3 (hello_body C h b).

Lemma encodes_hello C h :
  encodes (enc_client_handshake C (CH_Hello h)) (hello_image C h (zeros (binders_room C h))) tt.
Proof.
  unfold enc_client_handshake, hello_image, client_handshake_type.
  eapply encodes_bind; [apply encodes_enc_err, (encodes_uint1 1)|].
  apply encodes_vec3. unfold enc_client_hello, hello_body.
  eapply encodes_bind; [apply encodes_enc_err, encodes_uint2|].
  eapply encodes_bind; [apply encodes_enc_err, encodes_extend|].
  eapply encodes_bind; [apply encodes_enc_err; eapply encodes_eq; [|apply encodes_push]; reflexivity|].
  unfold vec at 1. rewrite <- (app_assoc _ (uint 2 (code_point C))).
  eapply encodes_bind; [apply encodes_enc_err, encodes_uint2|].
  eapply encodes_bind; [apply encodes_enc_err, encodes_uint2|].
  change (vec 1 [x00]) with ([x01] ++ [x00]). rewrite <- app_assoc.
  eapply encodes_bind; [apply encodes_enc_err, encodes_push|].
  eapply encodes_bind; [apply encodes_enc_err, encodes_push|].
  apply encodes_vec2, encodes_for_each. intros e He. unfold ext_encode, ext_image.
  eapply encodes_bind; [apply encodes_enc_err, encodes_uint2|].
  apply encodes_vec2, encodes_data, ch_extensions_payload, He.
Qed.

(** ** Binders *)

Lemma ext_image_length b b' e : length b = length b' -> length (ext_image b e) = length (ext_image b' e).
Proof.
  intros H. unfold ext_image. rewrite !app_length, !vec_length. do 2 f_equal.
  destruct (x_data e); cbn [data_image]; auto. rewrite !app_length, !vec_length. lia.
Qed.

Definition other_exts (C : crypto) (h : client_hello) : list extension :=
  ch_extensions C (mk_ch (let g := ch_config h in
     mk_config (cfg_server_name g) (cfg_alpn g) None (cfg_schemes g) (cfg_groups g) (cfg_max_frag g))
     (ch_random h) (ch_secret h)).

Lemma ch_extensions_split C h key ids : cfg_psk (ch_config h) = Some (key, ids) ->
  ch_extensions C h = other_exts C h ++ [mk_ext ET_PreSharedKey (XD_PskCH ids (hash_len C))].
Proof.
  intros H. unfold other_exts, ch_extensions. cbn [ch_config ch_secret cfg_server_name cfg_alpn cfg_psk cfg_schemes cfg_groups cfg_max_frag].
  rewrite H, app_nil_r. rewrite <- !app_assoc. reflexivity.
Qed.

Lemma other_exts_image C h b b' : map (ext_image b) (other_exts C h) = map (ext_image b') (other_exts C h).
Proof.
  unfold other_exts, ch_extensions. cbn [ch_config ch_secret cfg_server_name cfg_alpn cfg_psk cfg_schemes cfg_groups cfg_max_frag].
  rewrite !map_app.
  destruct (cfg_max_frag _), (cfg_server_name _), (cfg_alpn _); reflexivity.
Qed.

(** Everything before the binder list content depends on its length only. *)
Definition hello_prefix (C : crypto) (h : client_hello) (ids : list bytes) (n : nat) : bytes :=
  let ib := vec 2 (concat (map (fun i => vec 2 i ++ uint 4 0) ids)) in
  let ol := concat (map (ext_image []) (other_exts C h)) in
  let el := length ol + (4 + length ib + 2 + n) in
  uint 1 1 ++ uint 3 (N.of_nat (2 + length (ch_random h) + 1 + 4 + 2 + 2 + el)) ++
  uint 2 0x0303 ++ ch_random h ++ vec 1 [] ++ vec 2 (uint 2 (code_point C)) ++ vec 1 [x00] ++
  uint 2 (N.of_nat el) ++ ol ++ uint 2 41 ++ uint 2 (N.of_nat (length ib + 2 + n)) ++ ib.

Ltac lens := repeat (rewrite app_length || rewrite vec_length || rewrite uint_length); cbn [length].

Lemma hello_image_prefix C h key ids b : cfg_psk (ch_config h) = Some (key, ids) ->
  hello_image C h b = hello_prefix C h ids (length b) ++ vec 2 b.
Proof.
  intros H. unfold hello_image, hello_prefix, hello_body.
  rewrite (ch_extensions_split C h key ids H), map_app, concat_app. cbn [map concat].
  rewrite app_nil_r, (other_exts_image C h b []).
  set (ib := vec 2 (concat (map (fun i => vec 2 i ++ uint 4 0) ids))).
  set (ol := concat (map (ext_image []) (other_exts C h))).
  unfold ext_image. cbn [x_type x_data data_image]. fold ib.
  change (ext_type_code ET_PreSharedKey) with 41%N.
  cbv zeta. rewrite <- ?app_assoc. f_equal. unfold vec at 1. rewrite <- ?app_assoc.
  f_equal; [f_equal; lens; lia|].
  do 5 f_equal. unfold vec at 1. rewrite <- ?app_assoc.
  f_equal; [f_equal; lens; lia|]. do 2 f_equal. unfold vec at 1. rewrite <- ?app_assoc.
  f_equal. f_equal. lens. lia.
Qed.

Lemma encodes_binder v : length v < 256 -> encodes (enc_binder v) (vec 1 v) tt.
Proof.
  intros H. unfold enc_binder, vec.
  eapply encodes_bind; [apply encodes_enc_err, encodes_uint1|apply encodes_enc_err, encodes_extend].
Qed.

Lemma encodes_write_binders C w tr v n : create_psk_binder C w tr = Ok v -> length v < 256 ->
  encodes (write_binders C w tr n) (concat (map (vec 1) (repeat v n))) tt.
Proof.
  intros Hv Hl. induction n as [|n IH]; cbn [write_binders repeat map concat]; [apply encodes_ret|].
  eapply encodes_eq; [apply app_nil_l|]. eapply encodes_bind with (a := v).
  - intros Pr R off len Hlen. unfold lift. rewrite Hv. split; [|cbn; lia].
    intros _. cbn. now rewrite Nat.add_0_r.
  - eapply encodes_bind; [apply encodes_binder, Hl|apply IH].
Qed.

Lemma concat_vec1_length (v : bytes) n : length (concat (map (vec 1) (repeat v n))) = n * (1 + length v).
Proof. induction n as [|n IH]; [reflexivity|]. cbn [repeat map concat]. rewrite app_length, vec_length, IH. lia. Qed.

Lemma finalize_psk C h w tr key ids v :
  cfg_psk (ch_config h) = Some (key, ids) ->
  (let p := hello_prefix C h ids ((1 + hash_len C) * length ids) in
   create_psk_binder C w (tr ++ p) = Ok v) ->
  length v = hash_len C -> length v < 256 ->
  finalize_client_hello C h w (hello_image C h (zeros ((1 + hash_len C) * length ids))) tr
  = Ok (hello_image C h (concat (map (vec 1) (repeat v (length ids)))),
        tr ++ hello_image C h (concat (map (vec 1) (repeat v (length ids))))).
Proof.
  intros Hp Hv Hl Hl2. cbv zeta in Hv. unfold finalize_client_hello. rewrite Hp.
  set (n := (1 + hash_len C) * length ids) in *.
  replace (length ids * (1 + hash_len C)) with n by (unfold n; lia).
  rewrite (hello_image_prefix C h key ids (zeros n) Hp), zeros_length.
  rewrite (hello_image_prefix C h key ids _ Hp), concat_vec1_length.
  replace (length ids * (1 + length v)) with n by (unfold n; rewrite Hl; lia).
  set (p := hello_prefix C h ids n) in *. cbv zeta.
  rewrite app_length, vec_length, zeros_length.
  rewrite usize_sub_ok by lia. cbn [obind]. rewrite usize_sub_ok by lia. cbn [obind].
  replace (length p + (2 + n) - n - 2) with (length p) by lia.
  rewrite slice_rng_ok by (rewrite ?app_length; lia). cbn [obind].
  unfold sub. cbn [skipn]. rewrite Nat.sub_0_r, firstn_app, firstn_all, Nat.sub_diag. cbn [firstn].
  rewrite app_nil_r.
  rewrite slice_from_ok by (rewrite app_length, vec_length, zeros_length; lia). cbn [obind].
  replace (length p + (2 + n) - n) with (length p + 2) by lia.
  assert (Hsk : skipn (length p + 2) (p ++ vec 2 (zeros n)) = zeros n).
  { rewrite skipn_app, skipn_all2 by lia. cbn [app].
    replace (length p + 2 - length p) with 2 by lia. unfold vec.
    rewrite skipn_app, skipn_all2 by (rewrite uint_length; lia). rewrite uint_length. reflexivity. }
  rewrite Hsk.
  destruct (encodes_write_binders C w (tr ++ p) v (length ids) Hv Hl2 [] (zeros n) 0 0 eq_refl) as [He _].
  cbn [app] in He. unfold cb_wrap. rewrite He by (rewrite concat_vec1_length, zeros_length; unfold n; rewrite Hl; lia).
  cbn [cb_buf]. rewrite concat_vec1_length.
  replace (length ids * (1 + length v)) with n by (unfold n; rewrite Hl; lia).
  rewrite (@skipn_all2 _ n (zeros n)) by (rewrite zeros_length; lia). rewrite app_nil_r.
  assert (Hfn : firstn (length p + 2) (p ++ vec 2 (zeros n)) = p ++ uint 2 (N.of_nat n)).
  { rewrite firstn_app. rewrite firstn_all2 by lia. f_equal.
    replace (length p + 2 - length p) with 2 by lia. unfold vec. rewrite zeros_length.
    rewrite firstn_app, uint_length, firstn_all2 by (rewrite uint_length; lia). cbn [firstn Nat.sub]. now rewrite app_nil_r. }
  rewrite Hfn. set (bs := concat (map (vec 1) (repeat v (length ids)))).
  assert (Hbs : length bs = n) by (unfold bs, n; rewrite concat_vec1_length, Hl; lia).
  rewrite slice_from_ok by (rewrite !app_length, uint_length; lia). cbn [obind].
  rewrite <- !app_assoc. rewrite skipn_app, skipn_all, Nat.sub_diag. cbn [skipn app].
  unfold vec. rewrite Hbs. rewrite <- ?app_assoc. reflexivity.
Qed.

(** ** The grammar accepts the image *)

Definition accepts {A} (p : grammar A) (bs : bytes) (a : A) : Prop :=
  forall rest, p (bs ++ rest) = Some (a, rest).

Lemma accepts_ret {A} (a : A) : accepts (g_ret a) [] a. Proof. intros r. reflexivity. Qed.
Lemma accepts_bind {A B} (p : grammar A) (f : A -> grammar B) b1 b2 a c :
  accepts p b1 a -> accepts (f a) b2 c -> accepts (g_bind p f) (b1 ++ b2) c.
Proof. intros H1 H2 r. unfold g_bind. rewrite <- app_assoc, H1. apply H2. Qed.
Lemma accepts_last {A B} (p : grammar A) (f : A -> grammar B) b1 a c :
  accepts p b1 a -> accepts (f a) [] c -> accepts (g_bind p f) b1 c.
Proof. intros. rewrite <- (app_nil_r b1). eapply accepts_bind; eauto. Qed.
Lemma accepts_first {A B} (p : grammar A) (f : A -> grammar B) b2 a c :
  accepts p [] a -> accepts (f a) b2 c -> accepts (g_bind p f) b2 c.
Proof. intros. rewrite <- (app_nil_l b2). eapply accepts_bind; eauto. Qed.
Lemma accepts_check b : b = true -> accepts (g_check b) [] tt.
Proof. intros -> r. reflexivity. Qed.
Lemma accepts_some {A} (o : option A) a : o = Some a -> accepts (g_some o) [] a.
Proof. intros -> r. reflexivity. Qed.
Lemma accepts_bytes n bs : N.of_nat (length bs) = n -> accepts (g_bytes n) bs bs.
Proof.
  intros <- r. unfold g_bytes. rewrite app_length, (proj2 (N.leb_le _ _)) by lia. rewrite Nat2N.id.
  rewrite firstn_app, skipn_app, firstn_all, skipn_all, Nat.sub_diag. cbn [firstn skipn app]. now rewrite app_nil_r.
Qed.
Lemma num_be_val bs : num bs = be_val bs. Proof. reflexivity. Qed.
Lemma accepts_uint k n : (n < 256 ^ N.of_nat k)%N -> accepts (g_uint (N.of_nat k)) (uint k n) n.
Proof.
  intros H. unfold g_uint. eapply accepts_last; [apply accepts_bytes; now rewrite uint_length|].
  rewrite num_be_val, be_val_uint_small by assumption. apply accepts_ret.
Qed.
Lemma accepts_opaque k lo hi b : fits k b -> (lo <= N.of_nat (length b) <= hi)%N ->
  accepts (g_opaque (N.of_nat k) lo hi) (vec k b) b.
Proof.
  intros Hf [H1 H2]. unfold g_opaque, vec.
  eapply accepts_bind; [apply accepts_uint, Hf|].
  eapply accepts_last; [apply accepts_bytes; reflexivity|].
  eapply accepts_first; [apply accepts_check|apply accepts_ret].
  now rewrite (proj2 (N.leb_le _ _) H1), (proj2 (N.leb_le _ _) H2).
Qed.
Lemma items_ok {A T} (p : grammar A) (l : list T) (img : T -> bytes) (val : T -> A) fuel :
  (forall x, In x l -> accepts p (img x) (val x) /\ 0 < length (img x)) ->
  length (concat (map img l)) <= fuel ->
  g_items fuel p (concat (map img l)) = Some (map val l).
Proof.
  revert fuel; induction l as [|x l IH]; intros fuel H Hf; cbn [map concat].
  - now destruct fuel.
  - destruct (H x (or_introl eq_refl)) as [Ha Hpos]. cbn [map concat] in Hf. rewrite app_length in Hf.
    destruct fuel as [|fuel]; [lia|]. cbn [g_items].
    destruct (img x ++ concat (map img l)) as [|c r] eqn:E.
    { apply (f_equal (@length _)) in E. rewrite app_length in E. cbn in E. lia. }
    rewrite <- E, Ha, IH; [reflexivity| |lia]. intros y Hy. apply H. now right.
Qed.
Lemma accepts_vector {A T} k lo hi (p : grammar A) (l : list T) (img : T -> bytes) (val : T -> A) :
  (forall x, In x l -> accepts p (img x) (val x) /\ 0 < length (img x)) ->
  fits k (concat (map img l)) ->
  (lo <= N.of_nat (length (concat (map img l))) <= hi)%N ->
  accepts (g_vector (N.of_nat k) lo hi p) (vec k (concat (map img l))) (map val l).
Proof.
  intros Hp Hf Hb. unfold g_vector. eapply accepts_last; [apply accepts_opaque; assumption|].
  apply accepts_some. now apply items_ok.
Qed.
Lemma whole_ok {A} (p : grammar A) bs a : accepts p bs a -> g_whole p bs = Some a.
Proof. intros H. unfold g_whole. rewrite <- (app_nil_r bs). now rewrite H. Qed.

(** Codes. *)
Lemma find_group g : find (fun e => (fst e =? named_group_code g)%N) iana_named_group = Some (named_group_code g, g).
Proof. destruct g; reflexivity. Qed.
Lemma find_scheme s : find (fun e => (fst e =? sig_scheme_code s)%N) iana_sig_scheme = Some (sig_scheme_code s, s).
Proof. destruct s; reflexivity. Qed.
Lemma find_mode s : find (fun e => (fst e =? psk_mode_code s)%N) iana_psk_mode = Some (psk_mode_code s, s).
Proof. destruct s; reflexivity. Qed.
Lemma find_frag s : find (fun e => (fst e =? max_frag_code s)%N) iana_max_frag = Some (max_frag_code s, s).
Proof. destruct s; reflexivity. Qed.
Lemma group_lt g : (named_group_code g < 65536)%N. Proof. destruct g; reflexivity. Qed.
Lemma scheme_lt g : (sig_scheme_code g < 65536)%N. Proof. destruct g; reflexivity. Qed.
Lemma mode_lt g : (psk_mode_code g < 256)%N. Proof. destruct g; reflexivity. Qed.
Lemma frag_lt g : (max_frag_code g < 256)%N. Proof. destruct g; reflexivity. Qed.

Lemma accepts_code {A} k (table : list (N * A)) n a :
  (n < 256 ^ N.of_nat k)%N -> find (fun e => (fst e =? n)%N) table = Some (n, a) ->
  accepts (g_code (N.of_nat k) table) (uint k n) a.
Proof.
  intros Hn Hf. unfold g_code. eapply accepts_last; [apply accepts_uint, Hn|].
  apply accepts_some. now rewrite Hf.
Qed.

Lemma concat_len_in {T} (f : T -> bytes) l x : In x l -> length (f x) <= length (concat (map f l)).
Proof.
  induction l as [|y l IH]; intros H; [contradiction|]. cbn [map concat]. rewrite app_length.
  destruct H as [->|H]; [lia|]. specialize (IH H). lia.
Qed.

Lemma concat_len_lb {T} (f : T -> bytes) l m : (forall x, In x l -> m <= length (f x)) -> l <> [] ->
  m <= length (concat (map f l)).
Proof.
  intros H Hne. destruct l as [|x l]; [contradiction|]. cbn [map concat]. rewrite app_length.
  specialize (H x (or_introl eq_refl)). lia.
Qed.

Definition nonempty {A} (l : list A) := l <> [].

(** What each extension of the ClientHello decodes to. *)
Inductive decodes_to (binders : list bytes) : extension -> N * hello_ext -> Prop :=
| d_versions : decodes_to binders (mk_ext ET_SupportedVersions (XD_VersionsCH [0x0304%N]))
    (43%N, H_supported_versions [0x0304%N])
| d_schemes l : nonempty l -> decodes_to binders (mk_ext ET_SignatureAlgorithms (XD_SigAlgs l))
    (13%N, H_signature_algorithms l)
| d_frag m : decodes_to binders (mk_ext ET_MaxFragmentLength (XD_MaxFrag m)) (1%N, H_max_fragment_length m)
| d_groups l : nonempty l -> decodes_to binders (mk_ext ET_SupportedGroups (XD_Groups l)) (10%N, H_supported_groups l)
| d_modes : decodes_to binders (mk_ext ET_PskKeyExchangeModes (XD_PskModes [PM_PskDheKe])) (45%N, H_psk_modes [PM_PskDheKe])
| d_share g k : nonempty k -> decodes_to binders (mk_ext ET_KeyShare (XD_KeySharesCH [(g, k)])) (51%N, H_key_share [(g, k)])
| d_name n : nonempty n -> decodes_to binders (mk_ext ET_ServerName (XD_ServerNames [n])) (0%N, H_server_name [(0%N, n)])
| d_alpn l : nonempty l -> (forall p, In p l -> p <> [] /\ length p < 256) ->
    decodes_to binders (mk_ext ET_ApplicationLayerProtocolNegotiation (XD_Alpn l)) (16%N, H_alpn l)
| d_psk ids hs : nonempty ids -> (forall i, In i ids -> i <> []) -> length binders = length ids ->
    (forall b, In b binders -> 32 <= length b < 256) ->
    decodes_to binders (mk_ext ET_PreSharedKey (XD_PskCH ids hs))
      (41%N, H_pre_shared_key (map (fun i => (i, 0%N)) ids) binders).

Lemma nonempty_len {A} (l : list A) : nonempty l -> 1 <= length l.
Proof. destruct l; [contradiction|cbn; lia]. Qed.

Lemma accepts_ext binders e v : decodes_to binders e v ->
  (N.of_nat (length (ext_image (concat (map (vec 1) binders)) e)) <= 65535)%N ->
  accepts g_extension (ext_image (concat (map (vec 1) binders)) e) v.
Proof.
  intros Hd Hlen. unfold g_extension. set (B := concat (map (vec 1) binders)) in *.
  assert (Hc : fst v = ext_type_code (x_type e)) by (destruct Hd; reflexivity).
  assert (Hc2 : (fst v < 65536)%N) by (destruct Hd; reflexivity).
  unfold ext_image in *. rewrite app_length, vec_length, uint_length in Hlen. rewrite <- Hc.
  eapply accepts_bind; [apply (accepts_uint 2), Hc2|].
  eapply accepts_last; [apply (accepts_opaque 2); [apply fits_2; lia|lia]|].
  eapply accepts_first with (a := snd v); [apply accepts_some, whole_ok|destruct v; apply accepts_ret].
  destruct Hd; cbn [x_type x_data data_image fst snd] in *; cbn [g_ext_body].
  - eapply accepts_last; [|apply accepts_ret].
    apply (accepts_vector 1 2 254 (g_uint 2) [0x0304%N] (uint 2) (fun x => x)); [|vm_compute; reflexivity|cbn; lia].
    intros x [<-|[]]. split; [apply (accepts_uint 2); reflexivity|rewrite uint_length; lia].
  - eapply accepts_last; [|apply accepts_ret].
    rewrite vec_length in Hlen. set (img := fun s => uint 2 (sig_scheme_code s)) in *.
    rewrite <- (map_id l) at 2. apply (accepts_vector 2 2 65534 _ l img).
    + intros x _. split; [|unfold img; rewrite uint_length; lia].
      apply (accepts_code 2); [apply scheme_lt|apply find_scheme].
    + apply fits_2. lia.
    + assert (2 <= length (concat (map img l))).
      { apply concat_len_lb; [|assumption]. intros x _. unfold img. rewrite uint_length. lia. }
      lia.
  - eapply accepts_last; [|apply accepts_ret].
    apply (accepts_code 1); [apply frag_lt|apply find_frag].
  - eapply accepts_last; [|apply accepts_ret].
    rewrite vec_length in Hlen. set (img := fun s => uint 2 (named_group_code s)) in *.
    rewrite <- (map_id l) at 2. apply (accepts_vector 2 2 65535 _ l img).
    + intros x _. split; [|unfold img; rewrite uint_length; lia].
      apply (accepts_code 2); [apply group_lt|apply find_group].
    + apply fits_2. lia.
    + assert (2 <= length (concat (map img l))).
      { apply concat_len_lb; [|assumption]. intros x _. unfold img. rewrite uint_length. lia. }
      lia.
  - eapply accepts_last; [|apply accepts_ret].
    apply (accepts_vector 1 1 255 (g_code 1 iana_psk_mode) [PM_PskDheKe] (fun m => uint 1 (psk_mode_code m)) (fun x => x));
      [|vm_compute; reflexivity|cbn; lia].
    intros x _. split; [apply (accepts_code 1); [apply mode_lt|apply find_mode]|rewrite uint_length; lia].
  - eapply accepts_last; [|apply accepts_ret].
    rewrite vec_length in Hlen. apply nonempty_len in H.
    set (img := fun e : named_group * bytes => uint 2 (named_group_code (fst e)) ++ vec 2 (snd e)) in *.
    assert (HL : length (concat (map img [(g, k)])) = 4 + length k).
    { cbn [map concat]. rewrite app_nil_r. unfold img. cbn [fst snd]. rewrite app_length, vec_length, uint_length. lia. }
    rewrite <- (map_id [(g, k)]) at 2. apply (accepts_vector 2 0 65535 _ [(g, k)] img).
    + intros x [<-|[]]. unfold img. cbn [fst snd]. split; [|rewrite app_length, uint_length; lia].
      eapply accepts_bind; [apply (accepts_code 2); [apply group_lt|apply find_group]|].
      eapply accepts_last; [apply (accepts_opaque 2); [apply fits_2; lia|lia]|apply accepts_ret].
    + apply fits_2. lia.
    + lia.
  - eapply accepts_last; [|apply accepts_ret].
    rewrite vec_length in Hlen. apply nonempty_len in H.
    set (img := fun n : bytes => uint 1 0 ++ vec 2 n) in *.
    assert (HL : length (concat (map img [n])) = 3 + length n).
    { cbn [map concat]. rewrite app_nil_r. unfold img. rewrite app_length, vec_length, uint_length. lia. }
    apply (accepts_vector 2 1 65535 _ [n] img (fun n => (0%N, n))).
    + intros x [<-|[]]. unfold img. split; [|rewrite app_length, uint_length; lia].
      eapply accepts_bind; [apply (accepts_uint 1); reflexivity|].
      eapply accepts_last; [apply (accepts_opaque 2); [apply fits_2; lia|lia]|apply accepts_ret].
    + apply fits_2. lia.
    + lia.
  - eapply accepts_last; [|apply accepts_ret].
    rewrite vec_length in Hlen. rewrite <- (map_id l) at 2. apply (accepts_vector 2 2 65535 _ l (vec 1)).
    + intros x Hx. destruct (H0 x Hx) as [Hne Hl]. apply nonempty_len in Hne.
      split; [|rewrite vec_length; lia]. apply (accepts_opaque 1); [apply fits_1; lia|lia].
    + apply fits_2. lia.
    + assert (2 <= length (concat (map (vec 1) l))).
      { apply concat_len_lb; [|assumption]. intros x Hx. rewrite vec_length.
        destruct (H0 x Hx) as [Hne _]. apply nonempty_len in Hne. lia. }
      lia.
  - fold B. rewrite app_length, !vec_length in Hlen. set (img := fun i : bytes => vec 2 i ++ uint 4 0) in *.
    eapply accepts_bind.
    { apply (accepts_vector 2 7 65535 _ ids img (fun i => (i, 0%N))).
      - intros x Hx. pose proof (concat_len_in img ids x Hx) as HL. unfold img in HL at 1.
        rewrite app_length, vec_length, uint_length in HL.
        pose proof (nonempty_len x (H0 x Hx)). unfold img. split; [|rewrite app_length, uint_length; lia].
        eapply accepts_bind; [apply (accepts_opaque 2); [apply fits_2; lia|lia]|].
        eapply accepts_last; [apply (accepts_uint 4); reflexivity|apply accepts_ret].
      - apply fits_2. lia.
      - assert (7 <= length (concat (map img ids))).
        { apply concat_len_lb; [|assumption]. intros x Hx. unfold img.
          rewrite app_length, vec_length, uint_length. pose proof (nonempty_len x (H0 x Hx)). lia. }
        lia. }
    eapply accepts_last.
    { apply (accepts_vector 2 33 65535 (g_opaque 1 32 255) binders (vec 1) (fun b => b)).
      - intros x Hx. destruct (H2 x Hx). split; [|rewrite vec_length; lia].
        apply (accepts_opaque 1); [apply fits_1; lia|lia].
      - apply fits_2. fold B. lia.
      - assert (33 <= length (concat (map (vec 1) binders))).
        { apply concat_len_lb.
          - intros x Hx. rewrite vec_length. destruct (H2 x Hx). lia.
          - intros ->. apply nonempty_len in H. cbn in H1. lia. }
        fold B in H3 |- *. lia. }
    eapply accepts_first; [apply accepts_check|rewrite map_id; apply accepts_ret].
    rewrite !map_length, H1. apply Nat.eqb_refl.
Qed.

Lemma items_rel {T A} (p : grammar A) (img : T -> bytes) l vs fuel :
  Forall2 (fun x v => accepts p (img x) v /\ 0 < length (img x)) l vs ->
  length (concat (map img l)) <= fuel ->
  g_items fuel p (concat (map img l)) = Some vs.
Proof.
  intros H. revert fuel. induction H as [|x v l vs [Ha Hpos] H IH]; intros fuel Hf; cbn [map concat] in *.
  - now destruct fuel.
  - rewrite app_length in Hf. destruct fuel as [|fuel]; [lia|]. cbn [g_items].
    destruct (img x ++ concat (map img l)) as [|c r] eqn:E.
    { apply (f_equal (@length _)) in E. rewrite app_length in E. cbn in E. lia. }
    rewrite <- E, Ha, IH; [reflexivity|lia].
Qed.

(** The whole message. *)
Lemma hello_accepted C h binders vs : crypto_ok C -> length (ch_random h) = 32 ->
  Forall2 (decodes_to binders) (ch_extensions C h) vs ->
  distinct (map fst vs) && psk_last (map fst vs) = true ->
  (N.of_nat (length (hello_image C h (concat (map (vec 1) binders)))) <= 65535)%N ->
  g_whole g_handshake (hello_image C h (concat (map (vec 1) binders)))
  = Some (mk_hello 0x0303 (ch_random h) [] [code_point C] [x00] (map snd vs)).
Proof.
  intros HC Hr Hvs Hdl Hlen. set (B := concat (map (vec 1) binders)) in *.
  apply whole_ok. unfold g_handshake, hello_image in *.
  rewrite app_length, vec_length, uint_length in Hlen.
  eapply accepts_bind; [apply (accepts_uint 1); reflexivity|].
  eapply accepts_first; [apply accepts_check; reflexivity|].
  eapply accepts_last; [apply (accepts_opaque 3); [apply fits_3; lia|lia]|].
  apply accepts_some, whole_ok. unfold g_client_hello, hello_body in *.
  rewrite !app_length, !vec_length, !uint_length in Hlen.
  eapply accepts_bind; [apply (accepts_uint 2); reflexivity|].
  eapply accepts_bind; [apply accepts_bytes; rewrite Hr; reflexivity|].
  eapply accepts_bind; [apply (accepts_opaque 1); [reflexivity|cbn; lia]|].
  eapply accepts_bind.
  { replace (uint 2 (code_point C)) with (concat (map (uint 2) [code_point C])) by (cbn [map concat]; apply app_nil_r).
    apply (accepts_vector 2 2 65534 (g_uint 2) [code_point C] (uint 2) (fun x => x)).
    - intros x [<-|[]]. split; [apply (accepts_uint 2), (ok_code_point C HC)|rewrite uint_length; lia].
    - cbn [map concat]. rewrite app_nil_r. apply fits_2. rewrite uint_length. lia.
    - cbn [map concat]. rewrite app_nil_r, uint_length. cbn. lia. }
  eapply accepts_bind; [apply (accepts_opaque 1); [reflexivity|cbn; lia]|].
  eapply accepts_last with (a := vs).
  { unfold g_vector. eapply accepts_last; [apply (accepts_opaque 2)|].
    - apply fits_2. lia.
    - assert (8 <= length (concat (map (ext_image B) (ch_extensions C h)))); [|lia].
      unfold ch_extensions. cbn [app map concat]. rewrite !app_length.
      unfold ext_image at 1 2. rewrite !app_length, !vec_length, !uint_length. lia.
    - apply accepts_some. apply items_rel; [|lia].
      assert (Hall : forall e, In e (ch_extensions C h) ->
                (N.of_nat (length (ext_image B e)) <= 65535)%N).
      { intros e He. pose proof (concat_len_in (ext_image B) _ _ He). lia. }
      revert Hvs Hall. generalize (ch_extensions C h). clear Hdl.
      intros l H. induction H as [|e v l vs Hd H IH]; intros Hall; constructor.
      + split; [apply (accepts_ext binders); [exact Hd|apply Hall; now left]|].
        unfold ext_image. rewrite app_length, uint_length. lia.
      + apply IH. intros e' He'. apply Hall. now right. }
  eapply accepts_first; [apply accepts_check; exact Hdl|]. rewrite ?map_id. apply accepts_ret.
Qed.
