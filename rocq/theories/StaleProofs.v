(** * Runs that differ in what was in the buffers *)
From Coq Require Import String List NArith Arith Bool Lia ZArith.
From Coq.Strings Require Import Byte.
From Coq Require Import ZifyBool ZifyNat ZifyN.
From Verif Require Import Base ParseBuffer Buffer Codes Extensions Crypto KeySchedule Config Handshake Record WriteBuffer
  Transport RecordReader ReadBuffer Connection Api BaseProofs SpecWire SpecRead SpecOpen SpecChunk ChunkProofs.
Import ListNotations.
Local Open Scope list_scope.

(** ** Bytes *)

Definition agree (b1 b2 : bytes) (p : nat) : Prop := nth_error b1 p = nth_error b2 p.

Lemma nth_splice (b : bytes) a bs p : a + length bs <= length b ->
  nth_error (splice b a bs) p = if (a <=? p) && (p <? a + length bs) then nth_error bs (p - a) else nth_error b p.
Proof.
  intros H. unfold splice. assert (La : length (firstn a b) = a) by (apply firstn_length_le; lia).
  destruct (Nat.leb_spec a p) as [H1|H1]; cbn [andb].
  - rewrite nth_error_app2 by lia. rewrite La. destruct (Nat.ltb_spec p (a + length bs)) as [H2|H2].
    + rewrite nth_error_app1 by lia. reflexivity.
    + rewrite nth_error_app2 by lia. rewrite <- (firstn_skipn (a + length bs) b) at 2. rewrite nth_error_app2; rewrite firstn_length_le by lia; [|lia]. f_equal. lia.
  - rewrite nth_error_app1 by lia. rewrite <- (firstn_skipn a b) at 2. rewrite nth_error_app1 by lia. reflexivity.
Qed.

Lemma agree_splice b1 b2 a bs p : length b1 = length b2 -> a + length bs <= length b1 ->
  agree b1 b2 p \/ a <= p < a + length bs -> agree (splice b1 a bs) (splice b2 a bs) p.
Proof.
  intros Hl Ha H. unfold agree in *. rewrite !nth_splice by lia.
  destruct (Nat.leb_spec a p); destruct (Nat.ltb_spec p (a + length bs)); cbn [andb]; try reflexivity; destruct H; try lia; assumption.
Qed.

Lemma sub_step (b : bytes) a n : sub b a (S n) = match nth_error b a with Some x => x :: sub b (S a) n | None => [] end.
Proof.
  unfold sub. revert a. induction b as [|x b IH]; intros a; [destruct a; reflexivity|]. destruct a as [|a]; [reflexivity|]. cbn [skipn nth_error]. rewrite IH. now destruct (nth_error b a).
Qed.
Lemma agree_sub b1 b2 : forall n a, (forall p, a <= p < a + n -> agree b1 b2 p) -> sub b1 a n = sub b2 a n.
Proof.
  induction n as [|n IH]; intros a H; [unfold sub; now rewrite !firstn_O|]. rewrite !sub_step. rewrite (H a) by lia. destruct (nth_error b2 a); [|reflexivity]. f_equal. apply IH. intros p Hp. apply H. lia.
Qed.
Lemma agree_slice {E} b1 b2 a b : length b1 = length b2 -> (forall p, a <= p < b -> agree b1 b2 p) -> @slice_rng E byte b1 a b = slice_rng b2 a b.
Proof.
  intros Hl H. unfold slice_rng. rewrite <- Hl. destruct (Nat.leb_spec a b) as [Hab|]; [|reflexivity]. destruct (b <=? length b1); [|reflexivity]. cbn [andb]. f_equal. apply agree_sub. intros p Hp. apply H. lia.
Qed.

(** Writing the same into both: the same outcome, and nothing gets lost. *)
Lemma set_agree b1 b2 a bs : length b1 = length b2 ->
  (@set_rng tls_error byte b1 a bs = Panic PSlice /\ @set_rng tls_error byte b2 a bs = Panic PSlice) \/
  exists x1 x2, @set_rng tls_error byte b1 a bs = Ok x1 /\ @set_rng tls_error byte b2 a bs = Ok x2 /\ length x1 = length x2 /\
    (forall p, agree b1 b2 p \/ a <= p < a + length bs -> agree x1 x2 p).
Proof.
  intros Hl. unfold set_rng. rewrite <- Hl. destruct (Nat.leb_spec (a + length bs) (length b1)) as [H|H]; [right|left; now split].
  do 2 eexists. split; [reflexivity|]. split; [reflexivity|]. split; [rewrite !splice_length by lia; exact Hl|]. intros p Hp. now apply agree_splice.
Qed.
Lemma index_agree b1 b2 a v : length b1 = length b2 ->
  (@set_index tls_error byte b1 a v = Panic PSlice /\ @set_index tls_error byte b2 a v = Panic PSlice) \/
  exists x1 x2, @set_index tls_error byte b1 a v = Ok x1 /\ @set_index tls_error byte b2 a v = Ok x2 /\ length x1 = length x2 /\
    (forall p, agree b1 b2 p \/ p = a -> agree x1 x2 p).
Proof.
  intros Hl. unfold set_index. rewrite <- Hl. destruct (Nat.ltb_spec a (length b1)) as [H|H]; [right|left; now split].
  do 2 eexists. split; [reflexivity|]. split; [reflexivity|]. split; [rewrite !splice_length by (cbn; lia); exact Hl|]. intros p Hp. apply agree_splice; [exact Hl|cbn; lia|]. cbn. destruct Hp; [now left|right; lia].
Qed.

(** ** The encoders *)

Section Encoders.
Context (P : nat -> Prop).
Definition ca (c1 c2 : cbuf) : Prop := cb_off c1 = cb_off c2 /\ cb_len c1 = cb_len c2 /\ length (cb_buf c1) = length (cb_buf c2) /\
  forall p, P p \/ p < cb_off c1 + cb_len c1 -> agree (cb_buf c1) (cb_buf c2) p.
Notation par := (ChunkProofs.par ca).

Lemma pa_extend x : par (cb_extend x) (cb_extend x).
Proof.
  intros [b1 o n] [b2 o2 n2] (E1 & E2 & Hl & H). cbn [cb_buf cb_off cb_len] in *. subst o2 n2. unfold cb_extend, cb_space, cb_capacity. cbn [cb_buf cb_off cb_len]. rewrite <- Hl.
  unfold usize_sub. destruct (o + n <=? length b1); [|split; [reflexivity|repeat split; assumption]].
  destruct (_ <? length x); [split; [reflexivity|repeat split; assumption]|].
  destruct (set_agree b1 b2 (o + n) x Hl) as [[-> ->]|(x1 & x2 & -> & -> & Hx & Ha)]; (split; [reflexivity|]); [repeat split; assumption|].
  repeat split; [exact Hx|]. cbn [snd cb_buf cb_off cb_len]. intros p Hp. apply Ha. destruct Hp as [Hp|Hp]; [left; apply H; now left|].
  destruct (Nat.lt_ge_cases p (o + n)); [left; apply H; now right|right; lia].
Qed.
Lemma pa_push v : par (cb_push v) (cb_push v).
Proof.
  intros [b1 o n] [b2 o2 n2] (E1 & E2 & Hl & H). cbn [cb_buf cb_off cb_len] in *. subst o2 n2. unfold cb_push, cb_space, cb_capacity. cbn [cb_buf cb_off cb_len]. rewrite <- Hl.
  unfold usize_sub. destruct (o + n <=? length b1); [|split; [reflexivity|repeat split; assumption]].
  destruct (0 <? _); [|split; [reflexivity|repeat split; assumption]].
  destruct (index_agree b1 b2 (o + n) v Hl) as [[-> ->]|(x1 & x2 & -> & -> & Hx & Ha)]; (split; [reflexivity|]); [repeat split; assumption|].
  repeat split; [exact Hx|]. cbn [snd cb_buf cb_off cb_len]. intros p Hp. apply Ha. destruct Hp as [Hp|Hp]; [left; apply H; now left|].
  destruct (Nat.lt_ge_cases p (o + n)); [left; apply H; now right|right; lia].
Qed.
Lemma pa_set i v : par (cb_set i v) (cb_set i v).
Proof.
  intros [b1 o n] [b2 o2 n2] (E1 & E2 & Hl & H). cbn [cb_buf cb_off cb_len] in *. subst o2 n2. unfold cb_set. cbn [cb_buf cb_off cb_len].
  destruct (i <? n); [|split; [reflexivity|repeat split; assumption]].
  destruct (index_agree b1 b2 (o + i) v Hl) as [[-> ->]|(x1 & x2 & -> & -> & Hx & Ha)]; (split; [reflexivity|]); [repeat split; assumption|].
  repeat split; [exact Hx|]. cbn [snd cb_buf cb_off cb_len]. intros p Hp. apply Ha. left. now apply H.
Qed.
Lemma pa_offset i : par (cb_offset i) (cb_offset i).
Proof.
  intros [b1 o n] [b2 o2 n2] (E1 & E2 & Hl & H). cbn [cb_buf cb_off cb_len] in *. subst o2 n2. unfold cb_offset, usize_sub. cbn [cb_buf cb_off cb_len].
  destruct (Nat.leb_spec i (n + o)); (split; [reflexivity|]); [|repeat split; assumption]. repeat split; [exact Hl|]. cbn [snd cb_buf cb_off cb_len]. intros p Hp. apply H. destruct Hp; [now left|right; lia].
Qed.
Lemma pa_forward : par cb_forward cb_forward.
Proof. intros c1 c2 H. unfold cb_forward. pose proof H as (_ & E & _). rewrite <- E. now apply pa_offset. Qed.
Lemma pa_rewind : par cb_rewind cb_rewind. Proof. apply pa_offset. Qed.
Lemma pa_len : par (gets cb_len) (gets cb_len).
Proof. intros c1 c2 H. pose proof H as (_ & E & _). unfold gets. cbn [fst snd]. rewrite E. now split. Qed.
Lemma pa_map {A} f (m : W A) : par m m -> par (map_err f m) (map_err f m).
Proof. intros H c1 c2 Hc. destruct (H c1 c2 Hc) as [E R]. unfold map_err. destruct (m c1), (m c2). cbn [fst snd] in *. subst. now split. Qed.
Lemma pa_err {A} (m : W A) : par m m -> par (enc_err m) (enc_err m). Proof. apply pa_map. Qed.
Lemma pa_each {T} (l : list T) f : (forall x, par (f x) (f x)) -> par (for_each l f) (for_each l f).
Proof. intros H. induction l as [|x l IH]; [apply par_ret|]. apply par_bind; [apply H|intros _; exact IH]. Qed.
Lemma pa_u8 {A} (m : W A) : par m m -> par (with_u8_length m) (with_u8_length m).
Proof.
  intros H. unfold with_u8_length. apply par_bind; [apply pa_len|intros n]. apply par_bind; [apply pa_push|intros _]. apply par_bind; [apply pa_len|intros s].
  apply par_bind; [exact H|intros r]. apply par_bind; [apply pa_len|intros e]. apply par_bind; [apply par_lift|intros d]. apply par_bind; [apply pa_set|intros _; apply par_ret].
Qed.
Lemma pa_u16 {A} (m : W A) : par m m -> par (with_u16_length m) (with_u16_length m).
Proof.
  intros H. unfold with_u16_length. apply par_bind; [apply pa_len|intros n]. apply par_bind; [apply pa_extend|intros _]. apply par_bind; [apply pa_len|intros s].
  apply par_bind; [exact H|intros r]. apply par_bind; [apply pa_len|intros e]. apply par_bind; [apply par_lift|intros d]. apply par_bind; [|intros _; apply par_ret].
  apply par_bind; [apply pa_set|intros _; apply pa_set].
Qed.
Lemma pa_u24 {A} (m : W A) : par m m -> par (with_u24_length m) (with_u24_length m).
Proof.
  intros H. unfold with_u24_length. apply par_bind; [apply pa_len|intros n]. apply par_bind; [apply pa_extend|intros _]. apply par_bind; [apply pa_len|intros s].
  apply par_bind; [exact H|intros r]. apply par_bind; [apply pa_len|intros e]. apply par_bind; [apply par_lift|intros d]. apply par_bind; [|intros _; apply par_ret].
  apply par_bind; [apply pa_set|intros _]. apply par_bind; [apply pa_set|intros _; apply pa_set].
Qed.

Ltac enc := repeat first
  [ apply par_ret | apply par_panic | apply pa_extend | apply pa_push | apply pa_err | apply pa_u8 | apply pa_u16 | apply pa_u24 | apply pa_each; intros ?
  | apply par_bind; [|intros ?] ].

Lemma pa_ext e : par (ext_encode e) (ext_encode e).
Proof.
  unfold ext_encode. apply par_bind; [enc|intros _]. apply pa_u16. destruct (x_data e); cbn [enc_ext_data]; unfold enc_server_name, enc_key_share_entry, enc_named_group, enc_psk_ch; enc.
Qed.
Lemma pa_handshake C h : par (enc_client_handshake C h) (enc_client_handshake C h).
Proof.
  unfold enc_client_handshake. apply par_bind; [enc|intros _]. apply pa_u24. destruct h as [x|x|x|x].
  - unfold enc_certificate. apply par_bind; [enc|intros _]. apply pa_u24, pa_each. intros [d|d]; unfold enc_cert_entry; enc.
  - unfold enc_certificate_verify. enc.
  - unfold enc_client_hello. do 7 (apply par_bind; [enc|intros _]). apply pa_u16, pa_each. intros e. apply pa_ext.
  - unfold enc_finished. enc.
Qed.
Lemma pa_payload C r : par (cr_encode_payload C r) (cr_encode_payload C r).
Proof. destruct r as [h e|l d e]; cbn [cr_encode_payload]; [apply pa_handshake|]. unfold enc_alert. enc. Qed.
Lemma pa_header h : par (rh_encode h) (rh_encode h).
Proof. unfold rh_encode. enc. Qed.

(** Replacing the contents by something of the same place. *)
Lemma pa_replace x : par (c <- get ;; b <- lift (set_rng (cb_buf c) (cb_off c) x) ;; put (mk_cbuf b (cb_off c) (cb_len c)))
                         (c <- get ;; b <- lift (set_rng (cb_buf c) (cb_off c) x) ;; put (mk_cbuf b (cb_off c) (cb_len c))).
Proof.
  intros [b1 o n] [b2 o2 n2] (E1 & E2 & Hl & H). cbn [cb_buf cb_off cb_len] in *. subst o2 n2. unfold bind, get, lift, put. cbn [cb_buf cb_off cb_len].
  destruct (set_agree b1 b2 o x Hl) as [[-> ->]|(x1 & x2 & -> & -> & Hx & Ha)]; (split; [reflexivity|]); [repeat split; assumption|].
  repeat split; [exact Hx|]. cbn [snd cb_buf cb_off cb_len]. intros p Hp. apply Ha. left. now apply H.
Qed.
Lemma ca_slice {E} c1 c2 : ca c1 c2 -> @cb_as_slice E c1 = cb_as_slice c2.
Proof. intros (E1 & E2 & Hl & H). unfold cb_as_slice. rewrite <- E1, <- E2. apply agree_slice; [exact Hl|]. intros p Hp. apply H. right. lia. Qed.

Lemma pa_put x c1 c2 : ca c1 c2 -> par (b <- lift (set_rng (cb_buf c1) (cb_off c1) x) ;; put (mk_cbuf b (cb_off c1) (cb_len c1)))
                         (b <- lift (set_rng (cb_buf c2) (cb_off c2) x) ;; put (mk_cbuf b (cb_off c2) (cb_len c2))).
Proof.
  intros (E1 & E2 & Hl & H) d1 d2 Hd. destruct c1 as [b1 o n]. destruct c2 as [b2 o2 n2]. cbn [cb_buf cb_off cb_len] in *. subst o2 n2. unfold bind, lift, put. 
  destruct (set_agree b1 b2 o x Hl) as [[-> ->]|(x1 & x2 & -> & -> & Hx & Ha)]; (split; [reflexivity|]); [exact Hd|].
  repeat split; [exact Hx|]. cbn [snd cb_buf cb_off cb_len]. intros p Hp. apply Ha. left. now apply H.
Qed.

Lemma bind_assoc {S A B D} (m : M S tls_error A) (f : A -> M S tls_error B) (g : B -> M S tls_error D) s : bind m (fun a => bind (f a) g) s = bind (bind m f) g s.
Proof. unfold bind. now destruct (m s) as [[a|e|x| |] t]. Qed.

Lemma pa_encrypt C k : par (encrypt C k) (encrypt C k).
Proof.
  unfold encrypt. apply par_bind; [apply par_lift|intros nonce]. apply par_get. intros c1 c2 H. pose proof H as (E1 & E2 & Hl & _). unfold cb_capacity.
  rewrite <- Hl, <- E2, (ca_slice c1 c2 H). destruct (_ <? _); [apply par_fail|]. apply par_bind; [apply par_lift|intros pt].
  destruct (c_seal C (k_key k) nonce _ pt) as [ct tag]. rewrite E2.
  intros d1 d2 Hd. rewrite !bind_assoc. revert d1 d2 Hd. apply par_bind; [|intros _; apply pa_map, pa_extend].
  pose proof (pa_put ct c1 c2 H) as K. rewrite E2 in K. exact K.
Qed.
Lemma pa_finish C r w tr : par (wb_finish_payload C r w tr) (wb_finish_payload C r w tr).
Proof.
  unfold wb_finish_payload. apply par_get. intros c1 c2 H. rewrite (ca_slice c1 c2 H). apply par_bind; [apply par_lift|intros pl]. apply par_bind; [apply par_lift|intros [pl' tr']].
  intros d1 d2 Hd. rewrite !bind_assoc. revert d1 d2 Hd. apply par_bind; [now apply pa_put|intros _; apply par_ret].
Qed.
End Encoders.

(** ** The write buffer *)

Definition wa (w1 w2 : wbuf) : Prop := wb_pos w1 = wb_pos w2 /\ wb_hdr w1 = wb_hdr w2 /\ length (wb_buf w1) = length (wb_buf w2) /\
  forall p, p < wb_pos w1 -> agree (wb_buf w1) (wb_buf w2) p.

Lemma pw_with {A} (m : W A) : (forall P, ChunkProofs.par (ca P) m m) -> ChunkProofs.par wa (with_buffer m) (with_buffer m).
Proof.
  intros Hm [b1 n h] [b2 n2 h2] (E1 & E2 & Hl & H). cbn [wb_buf wb_pos wb_hdr] in *. subst n2 h2. unfold with_buffer, cb_wrap_with_pos. cbn [wb_buf wb_pos wb_hdr].
  destruct (Hm (fun p => p < n) (mk_cbuf b1 0 n) (mk_cbuf b2 0 n)) as [E (R1 & R2 & R3 & R4)].
  { repeat split; cbn [cb_buf cb_off cb_len]; [exact Hl|]. intros p Hp. apply H. destruct Hp; lia. }
  destruct (m (mk_cbuf b1 0 n)) as [o1 c1]. destruct (m (mk_cbuf b2 0 n)) as [o2 c2]. cbn [fst snd] in *. subst o2.
  destruct o1; (split; [reflexivity|]); cbn [snd]; repeat split; cbn [wb_buf wb_pos wb_hdr]; try assumption; intros p Hp; apply R4; [right; lia|left; exact Hp..].
Qed.
Lemma pw_hdr h : ChunkProofs.par wa (wb_set_hdr h) (wb_set_hdr h).
Proof. intros w1 w2 (E1 & E2 & Hl & H). split; [reflexivity|]. repeat split; assumption. Qed.
Lemma pw_start h : ChunkProofs.par wa (wb_start_record h) (wb_start_record h).
Proof.
  unfold wb_start_record. apply par_get. intros w1 w2 (E1 & E2 & _). rewrite E2. destruct (wb_hdr w2); [apply par_panic|]. apply par_bind; [apply pw_hdr|intros _].
  apply pw_with. intros P. apply par_bind; [apply pa_header|intros _]. apply par_bind; [apply pa_extend|intros _; apply pa_rewind].
Qed.
Lemma pw_close C k : ChunkProofs.par wa (wb_close_record C k) (wb_close_record C k).
Proof.
  unfold wb_close_record. apply par_get. intros w1 w2 (E1 & E2 & _). rewrite E2. apply par_bind; [apply par_lift|intros h]. apply par_bind; [apply pw_hdr|intros _].
  apply par_bind.
  { apply pw_with. intros P. destruct (negb _); [apply par_ret|]. apply par_bind; [apply pa_err, pa_push|intros _]. apply par_bind; [apply pa_offset|intros _].
    apply par_bind; [apply pa_encrypt|intros _; apply pa_rewind]. }
  intros _ [b1 n h1] [b2 n2 h2] (F1 & F2 & Hl & H). cbn [wb_buf wb_pos wb_hdr] in *. subst n2 h2. unfold bind, get, lift, put, ret. cbn [wb_buf wb_pos wb_hdr].
  assert (G : wa (mk_wbuf b1 n h1) (mk_wbuf b2 n h1)) by (repeat split; assumption).
  unfold usize_sub. destruct (HEADER_LEN <=? n); [|split; [reflexivity|exact G]].
  destruct (index_agree b1 b2 3 (nth 0 (be16 (N.of_nat (n - HEADER_LEN) mod 65536)) x00) Hl) as [[-> ->]|(x1 & x2 & -> & -> & Hx & Ha)]; [split; [reflexivity|exact G]|].
  destruct (index_agree x1 x2 4 (nth 1 (be16 (N.of_nat (n - HEADER_LEN) mod 65536)) x00) Hx) as [[-> ->]|(y1 & y2 & -> & -> & Hy & Hb)]; [split; [reflexivity|exact G]|].
  rewrite (agree_slice y1 y2 0 n Hy). 2:{ intros p Hp. apply Hb. left. apply Ha. left. apply H. lia. }
  destruct (slice_rng y2 0 n); (split; [reflexivity|]); try exact G. repeat split; cbn [snd wb_buf wb_pos wb_hdr]; [exact Hy|]. intros p Hp. lia.
Qed.
Lemma pw_record C r w tr : ChunkProofs.par wa (wb_write_record C r w tr) (wb_write_record C r w tr).
Proof.
  unfold wb_write_record. apply par_get. intros w1 w2 (E1 & E2 & _). rewrite E2. destruct (wb_hdr w2); [apply par_fail|]. apply par_bind; [apply pw_start|intros _].
  apply par_bind; [|intros tr'; apply par_bind; [apply pw_close|intros s; apply par_ret]].
  apply pw_with. intros P. apply par_bind; [apply pa_forward|intros _]. apply par_bind; [apply pa_payload|intros _]. apply par_bind; [apply pa_finish|intros t].
  apply par_bind; [apply pa_rewind|intros _; apply par_ret].
Qed.

(** The sending side. *)
Definition wha (w1 w2 : whalf) : Prop := wa (wh_wb w1) (wh_wb w2) /\ wh_ks w1 = wh_ks w2 /\ wh_tx w1 = wh_tx w2 /\ wh_policy w1 = wh_policy w2.

Lemma ph_wb {A} (m : M wbuf tls_error A) : ChunkProofs.par wa m m -> ChunkProofs.par wha (on_wb m) (on_wb m).
Proof.
  intros Hm w1 w2 (H & E1 & E2 & E3). unfold on_wb. destruct (Hm _ _ H) as [E R]. destruct (m (wh_wb w1)), (m (wh_wb w2)). cbn [fst snd] in *. rewrite E1, E2, E3.
  split; [exact E|]. repeat split; apply R.
Qed.
Lemma ph_tx {A} (m : M txst io_kind A) : ChunkProofs.par wha (on_tx m) (on_tx m).
Proof.
  intros w1 w2 (H & E1 & E2 & E3). unfold on_tx. rewrite E1, E2, E3. destruct (m (wh_tx w2)) as [o t]. split; [reflexivity|]. repeat split; apply H.
Qed.
Lemma ph_increment : ChunkProofs.par wha wh_increment wh_increment.
Proof.
  unfold wh_increment. apply par_get. intros w1 w2 (H & E1 & E2 & E3). rewrite E1, E2, E3. apply par_bind; [apply par_lift|intros k]. intros a b _. split; [reflexivity|]. repeat split; apply H.
Qed.
Lemma ph_respond b : ChunkProofs.par wha (respond b) (respond b).
Proof. unfold respond. apply par_bind; [apply ph_tx|intros _]. apply par_bind; [apply ph_increment|intros _; apply ph_tx]. Qed.
Lemma ph_flush C : ChunkProofs.par wha (wh_flush C) (wh_flush C).
Proof.
  unfold wh_flush. apply par_get. intros w1 w2 (H & E1 & E2 & E3). unfold wb_is_empty. rewrite (proj1 H). destruct (_ =? 0); [apply par_ret|]. rewrite E1, E3.
  apply par_bind; [apply ph_wb, pw_close|intros s]. apply par_bind; [apply ph_tx|intros _]. apply par_bind; [apply ph_increment|intros _]. destruct (policy_flush_transport _); [apply ph_tx|apply par_ret].
Qed.

Lemma par_known {S A B} (R : S -> S -> Prop) (a1 a2 : A) (f1 f2 : A -> M S tls_error B) : ChunkProofs.par R (f1 a1) (f2 a2) ->
  ChunkProofs.par R (bind (lift (Ok a1)) f1) (bind (lift (Ok a2)) f2).
Proof. intros H a b Hab. exact (H a b Hab). Qed.

Lemma append_agree w1 w2 buf : wa w1 w2 ->
  (exists o, wb_append w1 buf = o /\ wb_append w2 buf = o /\ (forall x, o <> Ok x)) \/
  exists n v1 v2, wb_append w1 buf = Ok (n, v1) /\ wb_append w2 buf = Ok (n, v2) /\ wa v1 v2.
Proof.
  destruct w1 as [b1 n h]. destruct w2 as [b2 n2 h2]. intros (E1 & E2 & Hl & H). cbn [wb_buf wb_pos wb_hdr] in *. subst n2 h2.
  unfold wb_append, wb_space, wb_max_block. cbn [wb_buf wb_pos wb_hdr]. rewrite <- Hl. destruct (usize_sub (length b1) TLS_RECORD_OVERHEAD) as [m|e|x| |]; cbn [obind];
    try (left; eexists; split; [reflexivity|]; split; [reflexivity|]; intros y; discriminate).
  destruct (usize_sub m n) as [sp|e|x| |]; cbn [obind]; try (left; eexists; split; [reflexivity|]; split; [reflexivity|]; intros y; discriminate).
  destruct (0 <? _); [|right; do 3 eexists; split; [reflexivity|]; split; [reflexivity|]; repeat split; assumption].
  set (bs := firstn (Nat.min (length buf) sp) buf).
  destruct (set_agree b1 b2 n bs Hl) as [[-> ->]|(x1 & x2 & -> & -> & Hx & Ha)]; cbn [obind].
  - left. eexists. split; [reflexivity|]. split; [reflexivity|]. intros y. discriminate.
  - right. do 3 eexists. split; [reflexivity|]. split; [reflexivity|]. repeat split; cbn [wb_buf wb_pos wb_hdr]; [exact Hx|]. intros p Hp. apply Ha.
    destruct (Nat.lt_ge_cases p n); [left; now apply H|right]. unfold bs. rewrite firstn_length_le by lia. lia.
Qed.

Lemma ph_write C op buf : ChunkProofs.par wha (wh_write C op buf) (wh_write C op buf).
Proof.
  unfold wh_write. destruct op; [|apply par_fail]. apply par_get. intros w1 w2 (H & _). unfold wb_contains. rewrite (proj1 (proj2 H)).
  apply par_bind.
  { destruct (match wb_hdr (wh_wb w2) with Some x => _ | None => false end); [apply par_ret|]. apply par_bind; [apply ph_flush|intros _; apply ph_wb, pw_start]. }
  intros _. apply par_get. clear w1 w2 H. intros w1 w2 (H & _). destruct (append_agree _ _ buf H) as [(o & -> & -> & Ho)|(n & v1 & v2 & -> & -> & Hv)].
  - destruct o as [a|e|x| |]; [exfalso; exact (Ho a eq_refl)|..]; intros a b Hab; (split; [reflexivity|exact Hab]).
  - apply par_known. cbn [fst snd].
    assert (F : wb_is_full v1 = wb_is_full v2) by (unfold wb_is_full, wb_max_block; now rewrite (proj1 Hv), (proj1 (proj2 (proj2 Hv)))). rewrite F. apply par_bind.
    { intros a b (_ & G1 & G2 & G3). unfold on_wb, put. split; [reflexivity|]. cbn [snd]. rewrite G1, G2, G3. split; [exact Hv|]. repeat split. }
    intros _. apply par_bind; [apply par_lift|intros full]. apply par_bind; [destruct full; [apply ph_flush|apply par_ret]|intros _; apply par_ret].
Qed.
Lemma ph_policy p : ChunkProofs.par wha (modify (fun w => mk_whalf (wh_wb w) (wh_ks w) (wh_tx w) p)) (modify (fun w => mk_whalf (wh_wb w) (wh_ks w) (wh_tx w) p)).
Proof. intros w1 w2 (H & E1 & E2 & E3). unfold modify. cbn [fst snd]. rewrite E1, E2. split; [reflexivity|]. split; [exact H|]. repeat split. Qed.

(** ** The reader *)

Lemma from_eq (b : bytes) a : @slice_from tls_error byte b a = if a <=? length b then Ok (skipn a b) else Panic PSlice.
Proof.
  unfold slice_from, slice_rng. rewrite Nat.leb_refl, andb_true_r. destruct (_ <=? _); [|reflexivity]. f_equal. unfold sub. apply firstn_all2. rewrite skipn_length. lia.
Qed.

Definition ra (P : nat -> Prop) (s1 s2 : rdst) : Prop :=
  rd_decoded s1 = rd_decoded s2 /\ rd_pending s1 = rd_pending s2 /\ rd_rx s1 = rd_rx s2 /\ rd_ks s1 = rd_ks s2 /\ length (rd_buf s1) = length (rd_buf s2) /\
  forall p, P p \/ rd_decoded s1 <= p < rd_decoded s1 + rd_pending s1 -> agree (rd_buf s1) (rd_buf s2) p.

Section Reader.
Context (P : nat -> Prop).
Notation par := (ChunkProofs.par (ra P)).

Lemma pr_rx {A} (m : M (list rx_event) tls_error A) : par (on_rx m) (on_rx m).
Proof.
  intros s1 s2 (E1 & E2 & E3 & E4 & Hl & H). unfold on_rx. rewrite E3, <- E1, <- E2, <- E4. destruct (m (rd_rx s2)) as [o rx]. split; [reflexivity|]. repeat split; assumption.
Qed.
Lemma pr_transcript tr : par (set_transcript tr) (set_transcript tr).
Proof. intros s1 s2 (E1 & E2 & E3 & E4 & Hl & H). unfold set_transcript, modify. cbn [fst snd]. rewrite E4. split; [reflexivity|]. repeat split; assumption. Qed.
Lemma pr_increment : par rd_increment rd_increment.
Proof.
  unfold rd_increment. apply par_get. intros s1 s2 (E1 & E2 & E3 & E4 & Hl & H). rewrite E4. apply par_bind; [apply par_lift|intros k]. intros a b _. split; [reflexivity|]. repeat split; assumption.
Qed.
Lemma pr_contiguous n : par (ensure_contiguous n) (ensure_contiguous n).
Proof.
  intros s1 s2 R. pose proof R as (E1 & E2 & E3 & E4 & Hl & H). unfold ensure_contiguous, bind, get, lift, put, ret, fail. rewrite <- E1, <- E2, <- E3, <- E4, <- Hl.
  destruct (_ <? rd_decoded s1 + n); [|split; [reflexivity|exact R]]. destruct (_ <? n); [split; [reflexivity|exact R]|].
  rewrite (agree_slice (rd_buf s1) (rd_buf s2) (rd_decoded s1) (rd_decoded s1 + rd_pending s1) Hl). 2:{ intros p Hp. apply H. now right. }
  destruct (slice_rng (rd_buf s2) (rd_decoded s1) (rd_decoded s1 + rd_pending s1)) as [w|e|x| |] eqn:Es; (split; [reflexivity|]); try exact R.
  assert (Hw : length w = rd_pending s1 /\ length w <= length (rd_buf s1)).
  { unfold slice_rng in Es. destruct (Nat.leb_spec (rd_decoded s1) (rd_decoded s1 + rd_pending s1)); [|discriminate]. destruct (Nat.leb_spec (rd_decoded s1 + rd_pending s1) (length (rd_buf s2))); [|discriminate].
    cbn [andb] in Es. injection Es as <-. rewrite sub_length. split; lia. }
  destruct Hw as [Hw1 Hw2]. cbn [snd]. repeat split; cbn [rd_buf rd_decoded rd_pending]; [rewrite !splice_length by lia; exact Hl|].
  intros p Hp. apply agree_splice; [exact Hl|lia|]. destruct Hp as [Hp|Hp]; [left; apply H; now left|right; lia].
Qed.
Lemma pr_loop : forall fuel amount remain, par (advance_loop fuel amount remain) (advance_loop fuel amount remain).
Proof.
  induction fuel as [|fuel IH]; intros amount remain; cbn [advance_loop]; apply par_get; intros s1 s2 (E1 & E2 & E3 & E4 & Hl & H); rewrite <- E2; (destruct (amount <=? rd_pending s1); [apply par_ret|]); [apply par_lift|].
  rewrite <- E1. set (at_ := rd_decoded s1 + rd_pending s1).
  assert (T : forall b1 b2 : bytes, length b1 = length b2 ->
     (exists t1 t2 : bytes, @slice_from tls_error byte b1 at_ = Ok t1 /\ @slice_from tls_error byte b2 at_ = Ok t2 /\ length t1 = length t2) \/
     (@slice_from tls_error byte b1 at_ = Panic PSlice /\ @slice_from tls_error byte b2 at_ = Panic PSlice)).
  { intros b1 b2 Hb. rewrite ?from_eq. rewrite <- Hb. destruct (Nat.leb_spec at_ (length b1)); [left|right; now split]. do 2 eexists. split; [reflexivity|]. split; [reflexivity|]. rewrite !skipn_length. lia. }
  destruct (T _ _ Hl) as [(t1 & t2 & -> & -> & Ht)|[-> ->]]; [|intros a b Hab; split; [reflexivity|exact Hab]]. apply par_known.
  assert (D : (exists d1 d2 : bytes, @slice_rng tls_error byte t1 0 remain = Ok d1 /\ @slice_rng tls_error byte t2 0 remain = Ok d2 /\ length d1 = length d2) \/
     (@slice_rng tls_error byte t1 0 remain = Panic PSlice /\ @slice_rng tls_error byte t2 0 remain = Panic PSlice)).
  { unfold slice_rng. rewrite <- Ht. destruct (Nat.leb_spec 0 remain); [|lia]. destruct (Nat.leb_spec remain (length t1)); cbn [andb]; [left|right; now split]. do 2 eexists. split; [reflexivity|]. split; [reflexivity|]. rewrite !sub_length. lia. }
  destruct D as [(d1 & d2 & -> & -> & Hd)|[-> ->]]; [|intros a b Hab; split; [reflexivity|exact Hab]]. apply par_known.
  assert (G : par (got <- on_rx (rx_read_some (length d2)) ;; remain' <- lift (usize_sub remain (length got)) ;; s' <- get ;; b <- lift (set_rng (rd_buf s') (rd_decoded s' + rd_pending s') got) ;;
        put (mk_rdst b (rd_decoded s') (rd_pending s' + length got) (rd_rx s') (rd_ks s')) ;;; advance_loop fuel amount remain')
     (got <- on_rx (rx_read_some (length d2)) ;; remain' <- lift (usize_sub remain (length got)) ;; s' <- get ;; b <- lift (set_rng (rd_buf s') (rd_decoded s' + rd_pending s') got) ;;
        put (mk_rdst b (rd_decoded s') (rd_pending s' + length got) (rd_rx s') (rd_ks s')) ;;; advance_loop fuel amount remain')).
  { apply par_bind; [apply pr_rx|intros got]. apply par_bind; [apply par_lift|intros remain']. apply par_get. clear s1 s2 E1 E2 E3 E4 Hl H t1 t2 Ht d1 Hd at_ T.
    intros s1 s2 (E1 & E2 & E3 & E4 & Hl & H). intros a b Hab. rewrite <- E1, <- E2, <- E3, <- E4.
    destruct (set_agree (rd_buf s1) (rd_buf s2) (rd_decoded s1 + rd_pending s1) got Hl) as [[-> ->]|(x1 & x2 & -> & -> & Hx & Ha)]; [split; [reflexivity|exact Hab]|].
    apply IH. repeat split; cbn [rd_buf rd_decoded rd_pending]; [exact Hx|]. intros p Hp. apply Ha.
    destruct Hp as [Hp|Hp]; [left; apply H; now left|]. destruct (Nat.lt_ge_cases p (rd_decoded s1 + rd_pending s1)); [left; apply H; right; lia|right; lia]. }
  rewrite Hd. exact G.
Qed.
Lemma pr_consume C h : par (consume_record C h) (consume_record C h).
Proof.
  assert (X : forall (A B : Type) x (f1 f2 : A -> M rdst tls_error B), par (bind (lift (Panic x)) f1) (bind (lift (Panic x)) f2)) by (intros A B x f1 f2 a b Hab; split; [reflexivity|exact Hab]).
  unfold consume_record. apply par_bind; [apply par_lift|intros n]. apply par_get. intros s1 s2 (E1 & E2 & E3 & E4 & Hl & H). rewrite <- E1, <- E2, <- E3, <- E4, !from_eq, <- Hl.
  destruct (rd_decoded s1 <=? length (rd_buf s1)); [|apply X]. apply par_known.
  unfold slice_rng. rewrite !skipn_length, <- Hl. destruct ((0 <=? n) && _); [|apply X]. apply par_known.
  unfold usize_sub. destruct (Nat.leb_spec n (rd_pending s1)) as [Hn|Hn]; [|apply X]. apply par_known.
  assert (Q : forall b : bytes, sub (skipn (rd_decoded s1) b) 0 (n - 0) = sub b (rd_decoded s1) n) by (intros b; unfold sub; cbn [skipn]; now rewrite Nat.sub_0_r).
  rewrite !Q, (agree_sub (rd_buf s1) (rd_buf s2)). 2:{ intros p Hp. apply H. right. lia. }
  apply par_bind.
  { intros a b _. unfold put. split; [reflexivity|]. cbn [snd]. repeat split; cbn [rd_buf rd_decoded rd_pending]; [exact Hl|]. intros p Hp. apply H. destruct Hp as [Hp|Hp]; [now left|right; lia]. }
  intros _. apply par_bind; [apply par_lift|intros rt]. apply par_bind; [|intros _; apply par_ret].
  intros a b (F1 & F2 & F3 & F4 & Gl & G). unfold modify. cbn [fst snd]. rewrite F4. split; [reflexivity|]. repeat split; assumption.
Qed.
Lemma pr_read C : par (rd_read C) (rd_read C).
Proof.
  unfold rd_read. apply par_bind; [apply pr_rx|intros h]. apply par_bind; [apply par_lift|intros n]. apply par_bind; [|intros _; apply pr_consume].
  unfold advance. apply par_bind; [apply pr_contiguous|intros _; apply pr_loop].
Qed.
End Reader.

(** ** Decryption *)

(** Where the data handed to the callback lies. *)
Definition zone (rec : server_record) (p : nat) : Prop :=
  match rec with
  | SR_AppData _ off data => match @cb_as_slice tls_error data with Ok s => off + cb_off data <= p < off + cb_off data + length s | _ => False end
  | _ => False
  end.

Lemma strip_same c : cb_buf (snd (strip_content_type c)) = cb_buf c /\ cb_off (snd (strip_content_type c)) = cb_off c.
Proof.
  assert (T : forall n d, cb_buf (snd (cb_truncate n d)) = cb_buf d /\ cb_off (snd (cb_truncate n d)) = cb_off d).
  { intros n d. unfold cb_truncate. destruct (usize_sub (cb_capacity d) (cb_off d)) as [room|e|x| |]; try (split; reflexivity). cbn [snd]. destruct (n <=? room); split; reflexivity. }
  assert (B : forall A B (m : W A) (f : A -> W B), (forall d, cb_buf (snd (m d)) = cb_buf d /\ cb_off (snd (m d)) = cb_off d) ->
     (forall a d, cb_buf (snd (f a d)) = cb_buf d /\ cb_off (snd (f a d)) = cb_off d) -> forall d, cb_buf (snd (bind m f d)) = cb_buf d /\ cb_off (snd (bind m f d)) = cb_off d).
  { intros A B m f Hm Hf d. unfold bind. specialize (Hm d). destruct (m d) as [[a|e|x| |] d']; cbn [snd] in Hm; try exact Hm. destruct (Hf a d') as [H1 H2]. rewrite H1, H2. exact Hm. }
  revert c. unfold strip_content_type. apply B; [intros d; split; reflexivity|intros c]. apply B; [intros d; split; reflexivity|intros s].
  apply B; [destruct (rfind_nonzero s); [apply T|intros d; split; reflexivity]|intros _]. apply B; [intros d; split; reflexivity|intros c1]. apply B; [intros d; split; reflexivity|intros s1].
  apply B; [intros d; split; reflexivity|intros b]. apply B; [intros d; split; reflexivity|intros t]. apply B; [intros d; split; reflexivity|intros n]. apply B; [apply T|intros _ d; split; reflexivity].
Qed.

Definition nowhere (p : nat) : Prop := False.

Section Decrypt.
Context {S : Type} (C : crypto) (cb : rks -> server_record -> M S tls_error unit) (W : S -> nat -> Prop).
Context (Hcb : forall k rec s p, W (snd (cb k rec s)) p -> W s p \/ zone rec p).

Definition rq (P : nat -> Prop) (a b : rdst * S) : Prop := snd a = snd b /\ ra (fun p => W (snd a) p \/ P p) (fst a) (fst b).

Lemma rq_less (P P' : nat -> Prop) a b : (forall p, P' p -> P p) -> rq P a b -> rq P' a b.
Proof.
  intros HP (E & E1 & E2 & E3 & E4 & Hl & H). split; [exact E|]. repeat split; try assumption. intros p Hp. apply H. destruct Hp as [[Hp|Hp]|Hp]; [left; now left|left; right; now apply HP|now right].
Qed.
Lemma pq_fst (P : nat -> Prop) {A} (m : M rdst tls_error A) : (forall P, ChunkProofs.par (ra P) m m) -> ChunkProofs.par (rq P) (on_fst m) (on_fst m).
Proof.
  intros Hm [r1 s1] [r2 s2] [E R]. cbn [fst snd] in E, R. subst s2. unfold on_fst. cbn [fst snd]. destruct (Hm _ _ _ R) as [E1 R1]. destruct (m r1), (m r2). cbn [fst snd] in *.
  split; [exact E1|]. split; [reflexivity|exact R1].
Qed.
Lemma pq_cb (P : nat -> Prop) rec : (forall p, zone rec p -> P p) -> ChunkProofs.par (rq P) (call_cb cb rec) (call_cb cb rec).
Proof.
  intros Hz [r1 s1] [r2 s2] [E R]. cbn [fst snd] in E, R. subst s2. unfold call_cb. cbn [fst snd]. pose proof R as (E1 & E2 & E3 & E4 & Hl & H). rewrite E4.
  pose proof (Hcb (rd_ks r2) rec s1) as Hc. destruct (cb (rd_ks r2) rec s1) as [o s']. cbn [snd] in Hc. cbn [fst snd]. split; [reflexivity|]. split; [reflexivity|].
  cbn [fst snd]. repeat split; try assumption. intros p Hp. apply H. destruct Hp as [[Hp|Hp]|Hp]; [|left; now right|now right]. left. destruct (Hc p Hp) as [?|Hq]; [now left|right; now apply Hz].
Qed.
Lemma pq_loop (P : nat -> Prop) : forall fuel q, ChunkProofs.par (rq P) (handshake_loop C cb fuel q) (handshake_loop C cb fuel q).
Proof.
  induction fuel as [|fuel IH]; intros q; cbn [handshake_loop]; (apply par_bind; [apply par_lift|intros n]); destruct (n =? 0); try apply par_ret; try apply par_lift.
  apply par_get. intros x1 x2 (_ & _ & _ & _ & Ek & _). rewrite Ek. destruct (read_server_handshake C (r_transcript (rd_ks (fst x2))) q) as [o q'].
  apply par_bind; [apply par_lift|intros ht]. apply par_bind; [apply pq_fst; intros P'; apply pr_transcript|intros []]. apply par_bind; [apply pq_cb; intros p []|intros []]. apply IH.
Qed.
Lemma write_back_run (k : unit -> M (rdst * S) tls_error unit) off bs r s :
  bind (on_fst (s <- get ;; b <- lift (set_rng (rd_buf s) off bs) ;; put (mk_rdst b (rd_decoded s) (rd_pending s) (rd_rx s) (rd_ks s)))) k (r, s) =
  match set_rng (rd_buf r) off bs with
  | Ok b => k tt (mk_rdst b (rd_decoded r) (rd_pending r) (rd_rx r) (rd_ks r), s)
  | Panic x => (Panic x, (r, s)) | Err x => (Err x, (r, s)) | Diverge => (Diverge, (r, s)) | Cancelled => (Cancelled, (r, s))
  end.
Proof. unfold bind, on_fst, get, lift, put. cbn [fst snd]. now destruct (set_rng (rd_buf r) off bs). Qed.
Lemma pq_decrypt rec : ChunkProofs.par (rq nowhere) (decrypt_record C cb rec) (decrypt_record C cb rec).
Proof.
  destruct rec as [h| |l d|h off data]; cbn [decrypt_record]; try (apply pq_cb; intros p Hp; exact Hp).
  apply par_get. intros x1 x2 (_ & _ & _ & _ & Ek & _). rewrite Ek. apply par_bind; [apply par_lift|intros nonce].
  destruct (decrypt_in_place _ _ _ _ _) as [o data1]. apply par_bind; [apply par_lift|intros []].
  pose proof (strip_same data1) as [Sb So]. destruct (strip_content_type data1) as [o2 data2]. cbn [snd] in Sb, So.
  set (Z := fun p => nowhere p \/ off <= p < off + length (cb_buf data1)).
  match goal with |- ChunkProofs.par _ (bind _ ?k) _ => assert (K : ChunkProofs.par (rq Z) (k tt) (k tt)) end.
  { apply par_bind; [apply par_lift|intros t]. destruct (cb_as_slice data2) as [inner|e|x| |] eqn:Ei; try (apply par_bind; [apply par_lift|intros ?; apply par_ret]); try (intros a b Hab; split; [reflexivity|exact Hab]).
    apply par_known. apply par_bind; [|intros []; apply pq_fst; intros P'; apply pr_increment].
    destruct t; try apply par_fail.
    - apply par_bind; [apply par_lift|intros ?; apply pq_cb; intros p []].
    - apply pq_loop.
    - apply pq_cb. intros p Hp. right. unfold zone in Hp. 
      assert (Ei' : @cb_as_slice tls_error data2 = Ok inner) by exact Ei. rewrite Ei' in Hp. clear Ei. rewrite So in Hp.
      unfold cb_as_slice, slice_rng in Ei'. rewrite So, Sb in Ei'. destruct (Nat.leb_spec (cb_off data1) (cb_off data1 + cb_len data2)); [|discriminate].
      destruct (Nat.leb_spec (cb_off data1 + cb_len data2) (length (cb_buf data1))); [|discriminate]. cbn [andb] in Ei'. injection Ei' as <-. rewrite sub_length in Hp. lia. }
  intros [r1 s1] [r2 s2] R. pose proof R as (E & E1 & E2 & E3 & E4 & Hl & H). cbn [fst snd] in *. subst s2.
  rewrite !write_back_run.
  destruct (set_agree (rd_buf r1) (rd_buf r2) off (cb_buf data1) Hl) as [[-> ->]|(y1 & y2 & -> & -> & Hy & Ha)].
  - split; [reflexivity|exact R].
  - match goal with |- fst (_ ?a) = fst (_ ?b) /\ _ => destruct (K a b) as [K1 K2] end.
    { split; [reflexivity|]. cbn [fst snd]. repeat split; cbn [rd_buf rd_decoded rd_pending rd_rx rd_ks]; try assumption. intros p Hp. apply Ha.
      destruct Hp as [[Hp|[Hp|Hp]]|Hp]; [left; apply H; left; now left|left; apply H; left; now right|now right|left; apply H; now right]. }
    split; [exact K1|]. refine (rq_less Z _ _ _ _ K2). intros p Hp. now left.
Qed.
End Decrypt.

(** ** The connection *)

Definition window (d : dec_info) (p : nat) : Prop := d_offset d + d_consumed d <= p < d_offset d + d_len d.
Notation rr := (rq (fun s : dec_info * bool => window (fst s)) nowhere).
Definition cc (a b : conn) : Prop := rr (cn_rd a, (cn_dec a, cn_opened a)) (cn_rd b, (cn_dec b, cn_opened b)) /\ wha (cn_wh a) (cn_wh b) /\ cn_shared a = cn_shared b.
Notation par := ChunkProofs.par.

Lemma cc_fields a b : cc a b -> cn_dec a = cn_dec b /\ cn_opened a = cn_opened b /\ cn_shared a = cn_shared b /\ rd_ks (cn_rd a) = rd_ks (cn_rd b) /\
  wh_ks (cn_wh a) = wh_ks (cn_wh b) /\ rd_rx (cn_rd a) = rd_rx (cn_rd b) /\ cn_keysched a = cn_keysched b.
Proof.
  intros ((E & _ & _ & Hx & Ek & _) & (_ & Ew & _) & Es). cbn [fst snd] in *. apply pair_equal_spec in E as [E1 E2]. unfold cn_keysched. rewrite Es, Ew, Ek. repeat split; assumption.
Qed.
Lemma ra_same (P Q : nat -> Prop) r1 r2 : (forall p, Q p -> P p) -> ra P r1 r2 -> ra Q r1 r2.
Proof. intros HQ (E1 & E2 & E3 & E4 & Hl & H). repeat split; try assumption. intros p Hp. apply H. destruct Hp; [left; now apply HQ|now right]. Qed.

Lemma pc_wh {A} (m : M whalf tls_error A) : par wha m m -> par cc (on_wh m) (on_wh m).
Proof.
  intros Hm a b (R & Hw & Es). unfold on_wh. destruct (Hm _ _ Hw) as [E R1]. destruct (m (cn_wh a)), (m (cn_wh b)). cbn [fst snd] in *. split; [exact E|]. split; [exact R|]. split; [exact R1|exact Es].
Qed.
Lemma pc_rd {A} (m : M rdst tls_error A) : (forall P, par (ra P) m m) -> par cc (on_rd m) (on_rd m).
Proof.
  intros Hm a b ((E & R) & Hw & Es). cbn [fst snd] in *. unfold on_rd. destruct (Hm _ _ _ R) as [E1 R1]. destruct (m (cn_rd a)), (m (cn_rd b)). cbn [fst snd] in *.
  split; [exact E1|]. split; [split; [exact E|exact R1]|]. split; [exact Hw|exact Es].
Qed.
Lemma pc_rh {A} (m : M rhalf tls_error A) : par rr m m -> par cc (on_rh m) (on_rh m).
Proof.
  intros Hm a b (R & Hw & Es). unfold on_rh. destruct (Hm _ _ R) as [E1 R1]. destruct (m (cn_rd a, (cn_dec a, cn_opened a))) as [o1 [r1 [d1 p1]]].
  destruct (m (cn_rd b, (cn_dec b, cn_opened b))) as [o2 [r2 [d2 p2]]]. cbn [fst snd] in *. split; [exact E1|]. split; [exact R1|]. split; [exact Hw|exact Es].
Qed.
Lemma pc_ks f : par cc (on_ks f) (on_ks f).
Proof.
  intros a b Hc. pose proof Hc as ((E & E1 & E2 & E3 & E4 & Hl & H) & (Hw & W1 & W2 & W3) & Es). destruct (cc_fields a b Hc) as (_ & _ & _ & _ & _ & _ & Ek). unfold on_ks. rewrite Ek.
  destruct (f (cn_keysched b)); (split; [reflexivity|]); try exact Hc. cbn [fst snd] in *. unfold cn_with_keysched, rd_with_ks, wh_with_ks.
  split; [split; [exact E|repeat split; assumption]|]. split; [|reflexivity]. split; [exact Hw|]. repeat split; assumption.
Qed.
Lemma pc_record C r : par cc (cn_write_record C r) (cn_write_record C r).
Proof.
  unfold cn_write_record. apply par_get. intros a b Hc. destruct (cc_fields a b Hc) as (_ & _ & _ & E1 & E2 & _). rewrite E1, E2.
  apply par_bind; [apply pc_wh, ph_wb, pw_record|intros st]. apply par_bind; [apply pc_rd; intros P; apply pr_transcript|intros _; apply par_ret].
Qed.

Section Open.
Context {V : Type} (C : crypto) (p : provider V) (cfg : tls_config).
Definition ch (a b : conn * @hs_data V) : Prop := cc (fst a) (fst b) /\ snd a = snd b.

Lemma po_conn {A} (m : M conn tls_error A) : par cc m m -> par ch (on_conn m) (on_conn m).
Proof.
  intros Hm [c1 h1] [c2 h2] [Hc Hh]. cbn [fst snd] in Hc, Hh. subst h2. unfold on_conn. cbn [fst snd]. destruct (Hm _ _ Hc) as [E R].
  destruct (m c1), (m c2). cbn [fst snd] in *. split; [exact E|]. split; [exact R|reflexivity].
Qed.
Lemma po_mod f : par ch (mod_hs f) (mod_hs f).
Proof. intros [c1 h1] [c2 h2] [Hc Hh]. cbn [fst snd] in Hc, Hh. subst h2. split; [reflexivity|]. split; [exact Hc|reflexivity]. Qed.
Lemma po_respond tx : par ch (on_conn (on_wh (respond tx))) (on_conn (on_wh (respond tx))).
Proof. apply po_conn, pc_wh, ph_respond. Qed.
Lemma po_write r : par ch (on_conn (cn_write_record C r)) (on_conn (cn_write_record C r)).
Proof. apply po_conn, pc_record. Qed.
Lemma po_read : par ch (on_conn (on_rd (rd_read C))) (on_conn (on_rd (rd_read C))).
Proof. apply po_conn, pc_rd. intros P. apply pr_read. Qed.
Lemma po_hpe (m : M (conn * @hs_data V) tls_error hs_state) : par ch m m -> par ch (handle_processing_error C m) (handle_processing_error C m).
Proof.
  intros H. unfold handle_processing_error. apply par_bind; [apply par_attempt, H|intros [s|e]]; [apply par_ret|].
  destruct e; try apply par_fail. apply par_bind; [apply po_write|intros tx]. apply par_bind; [apply po_respond|intros []]. apply par_fail.
Qed.
Lemma po_server_hello rec : par ch (process_server_hello C rec) (process_server_hello C rec).
Proof.
  destruct rec as [[e| | |ce|ctx|v|f]| |l d|hd off data]; cbn [process_server_hello]; try apply par_fail.
  apply par_get. intros x1 x2 [_ Hx]. rewrite Hx. apply par_bind; [apply po_mod|intros []]. apply par_bind; [apply par_lift|intros secret].
  apply par_bind; [apply par_lift|intros shared]. apply par_bind; [apply po_conn, pc_ks|intros []]. apply par_ret.
Qed.
Lemma po_server_verify rec : par ch (process_server_verify C p rec) (process_server_verify C p rec).
Proof.
  intros [c1 h1] [c2 h2] [Hc Hh]. cbn [fst snd] in Hc, Hh. subst h2. pose proof Hc as ((E & R) & Hw & Es). cbn [fst snd] in E, R. unfold process_server_verify.
  destruct (pq_decrypt C (server_verify_cb C p) (fun _ : hs_state * @hs_data V => window (cn_dec c1)) (fun k rc s q Hq => or_introl Hq) rec
              (cn_rd c1, (St_ServerVerify, h1)) (cn_rd c2, (St_ServerVerify, h1))) as [E1 [S1 R1]].
  { split; [reflexivity|exact R]. }
  destruct (decrypt_record C (server_verify_cb C p) rec (cn_rd c1, (St_ServerVerify, h1))) as [o1 [r1 [s1 k1]]].
  destruct (decrypt_record C (server_verify_cb C p) rec (cn_rd c2, (St_ServerVerify, h1))) as [o2 [r2 [s2 k2]]]. cbn [fst snd] in *. apply pair_equal_spec in S1 as [-> ->]. subst o2.
  split; [reflexivity|]. split; [|reflexivity]. split; [split; [exact E|exact R1]|]. split; [exact Hw|exact Es].
Qed.
Lemma ch_fields x1 x2 : ch x1 x2 -> rd_ks (cn_rd (fst x1)) = rd_ks (cn_rd (fst x2)) /\ cn_keysched (fst x1) = cn_keysched (fst x2) /\ snd x1 = snd x2.
Proof. intros [H1 H2]. destruct (cc_fields _ _ H1) as (_ & _ & _ & Ek & _ & _ & E). split; [exact Ek|]. split; [exact E|exact H2]. Qed.

Lemma po_process s : par ch (process C p cfg s) (process C p cfg s).
Proof.
  destruct s; cbn [process].
  - apply par_bind; [|intros tx; apply par_bind; [apply po_respond|intros []; apply par_ret]].
    unfold do_client_hello. apply par_bind; [apply po_conn, pc_ks|intros []]. apply par_bind; [apply po_write|intros tx]. apply par_bind; [apply po_mod|intros []]. apply par_ret.
  - apply par_bind; [apply po_read|intros rec]. apply po_hpe, po_server_hello.
  - apply par_bind; [apply po_read|intros rec]. apply po_hpe, po_server_verify.
  - apply par_bind; [|intros nt; apply par_bind; [apply po_respond|intros []; apply par_ret]].
    unfold do_client_cert. apply par_get. intros x1 x2 Hx. destruct (ch_fields x1 x2 Hx) as (E1 & E2 & E3). rewrite E1, E3.
    apply par_bind; [apply po_mod|intros []]. apply par_bind; [apply par_lift|intros ctx]. destruct (p_client_cert p); (apply par_bind; [apply po_write|intros ?; apply par_ret]).
  - apply par_bind; [|intros rt; apply par_bind; [apply po_respond|intros []; destruct (fst rt); [apply par_ret|apply par_fail]]].
    unfold do_client_cert_verify. apply par_get. intros x1 x2 Hx. destruct (ch_fields x1 x2 Hx) as (E1 & E2 & E3). rewrite E1.
    destruct (p_signer p) as [[sign scheme]|e|x| |]; [|apply par_bind; [apply po_write|intros ?; apply par_ret]|apply par_panic|apply par_lift|apply par_lift].
    apply par_bind; [apply par_lift|intros msg]. destruct (sign msg); [|apply par_panic]. destruct (_ <? _); [apply par_panic|]. apply par_bind; [apply po_write|intros ?; apply par_ret].
  - apply par_bind; [|intros tx; apply par_bind; [apply po_respond|intros []]].
    + unfold do_client_finished. apply par_get. intros x1 x2 Hx. destruct (ch_fields x1 x2 Hx) as (E1 & E2 & E3). rewrite E2.
      apply par_bind; [apply par_lift|intros v]. apply po_write.
    + unfold client_finished_finalize. apply par_get. intros x1 x2 Hx. destruct (ch_fields x1 x2 Hx) as (E1 & E2 & E3). rewrite E3.
      apply par_bind; [apply po_mod|intros []]. apply par_bind; [apply par_lift|intros tr]. apply par_bind; [apply po_conn, pc_rd; intros P; apply pr_transcript|intros []].
      apply par_bind; [apply po_conn, pc_ks|intros []]. apply par_ret.
  - apply par_ret.
Qed.
Lemma po_loop : forall fuel s, par ch (open_loop C p cfg fuel s) (open_loop C p cfg fuel s).
Proof.
  induction fuel as [|fuel IH]; intros s; cbn [open_loop]; [destruct s; try apply par_ret; apply par_lift|].
  pose proof (po_process s) as Hp. destruct s; try apply par_ret; (apply par_bind; [exact Hp|intros s'; apply IH]).
Qed.
Lemma po_open v : par cc (cn_open C p cfg v) (cn_open C p cfg v).
Proof.
  intros c1 c2 Hc. destruct (cc_fields c1 c2 Hc) as (_ & _ & _ & _ & _ & Ex & _). unfold cn_open. rewrite Ex.
  destruct (match p_has_verifier p, cfg_server_name cfg with true, Some n => p_set_hostname p n v | _, _ => (Ok tt, v) end) as [o0 v'].
  assert (K : par ch (lift o0 ;;; open_loop C p cfg (8 + rx_size (rd_rx (cn_rd c2))) St_ClientHello) (lift o0 ;;; open_loop C p cfg (8 + rx_size (rd_rx (cn_rd c2))) St_ClientHello))
    by (apply par_bind; [apply par_lift|intros _; apply po_loop]).
  destruct (K (c1, hs_new v') (c2, hs_new v')) as [E R]; [split; [exact Hc|reflexivity]|].
  destruct ((lift o0 ;;; _) (c1, hs_new v')) as [o1 [d1 h1]]. destruct ((lift o0 ;;; _) (c2, hs_new v')) as [o2 [d2 h2]]. cbn [fst snd] in E, R. subst o2. destruct R as [R _]. cbn [fst] in R.
  destruct o1; (split; [reflexivity|]); try exact R. destruct R as ((E1 & R1) & Hw & Es). cbn [fst snd] in *. apply pair_equal_spec in E1 as [E1 _].
  split; [split; [cbn [snd]; now rewrite E1|exact R1]|]. split; [exact Hw|exact Es].
Qed.
End Open.

(** ** The other calls *)

Lemma pd_rad C : par rr (read_application_data C) (read_application_data C).
Proof.
  unfold read_application_data. apply par_bind; [apply pq_fst; intros P; apply pr_read|intros rec]. apply par_get. intros x1 x2 (_ & _ & _ & _ & _ & Hl & _). rewrite Hl.
  apply pq_decrypt. intros k rc s q Hq. destruct rc as [[e| | |ce|ctx|v|f]| |l d|hd off data]; cbn [read_handler] in Hq; try (now left).
  - destruct d; now left.
  - unfold bind, lift in Hq. unfold zone. destruct (cb_as_slice data) as [sl|e|x| |]; try (now left). destruct (_ && _); [|now left]. unfold modify in Hq. cbn [fst snd] in Hq. unfold window in Hq. cbn [d_offset d_len d_consumed] in Hq. right. lia.
Qed.
Lemma pd_fill C : forall fuel, par rr (fill_loop C fuel) (fill_loop C fuel).
Proof.
  induction fuel as [|fuel IH]; cbn [fill_loop]; apply par_get; intros x1 x2 [E _]; rewrite E; (apply par_bind; [apply par_lift|intros e]); destruct (negb e); try apply par_ret; [apply par_lift|].
  apply par_bind; [apply pd_rad|intros _; exact IH].
Qed.
Lemma rr_create x1 x2 : rr x1 x2 -> create_read_buffer (fst (snd x1)) (rd_buf (fst x1)) = create_read_buffer (fst (snd x2)) (rd_buf (fst x2)).
Proof.
  intros (E & _ & _ & _ & _ & Hl & H). rewrite <- E. unfold create_read_buffer. rewrite (agree_slice (rd_buf (fst x1)) (rd_buf (fst x2))); [reflexivity|exact Hl|].
  intros q Hq. apply H. left. left. unfold window. lia.
Qed.
Lemma pd_buffered C : par rr (rh_read_buffered C) (rh_read_buffered C).
Proof.
  unfold rh_read_buffered. apply par_get. intros [r1 [d1 o1]] [r2 s2] (E & _ & _ & Ex & _). cbn [fst snd] in E, Ex. subst s2. cbn [fst snd]. rewrite Ex. destruct o1; [|apply par_fail].
  apply par_bind; [apply pd_fill|intros _]. apply par_get. intros x1 x2 Hx. rewrite (rr_create x1 x2 Hx). apply par_lift.
Qed.
Lemma pd_set d : forall x1 x2, rr x1 x2 -> (forall p, window d p -> window (fst (snd x1)) p) ->
  fst (rh_set_dec d x1) = fst (rh_set_dec d x2) /\ rr (snd (rh_set_dec d x1)) (snd (rh_set_dec d x2)).
Proof.
  intros x1 x2 (E & R) Hd. split; [reflexivity|]. unfold rh_set_dec, modify. cbn [fst snd]. split; [cbn [snd]; now rewrite E|]. cbn [fst snd]. refine (ra_same _ _ _ _ _ R).
  intros p [Hp|Hp]; [left; now apply Hd|now right].
Qed.
Lemma pd_drop r : par rr (rh_drop r) (rh_drop r).
Proof.
  intros x1 x2 Hx. unfold rh_drop, bind, get. pose proof Hx as [E _]. rewrite <- E. apply pd_set; [exact Hx|]. intros p Hp. unfold window, rb_drop in *. cbn [d_offset d_len d_consumed] in Hp. lia.
Qed.
Lemma pd_revert r : par rr (st <- get ;; rh_set_dec (rb_revert r (fst (snd st)))) (st <- get ;; rh_set_dec (rb_revert r (fst (snd st)))).
Proof. intros x1 x2 Hx. unfold bind, get. pose proof Hx as [E _]. rewrite <- E. apply pd_set; [exact Hx|]. intros p Hp. exact Hp. Qed.

Lemma pd_step C o : par cc (step C o) (step C o).
Proof.
  destruct o as [b| |pol|dst| |n|ops fin|]; cbn [step]; (apply par_bind; [|intros ?; apply par_ret]).
  - unfold cn_write. apply par_get. intros a c H. destruct (cc_fields a c H) as (_ & E & _). rewrite E. apply pc_wh, ph_write.
  - apply pc_wh, ph_flush.
  - apply pc_wh, ph_policy.
  - apply pc_rh. unfold rh_read. destruct (_ =? _); [apply par_ret|]. apply par_bind; [apply pd_buffered|intros r]. apply par_bind; [apply par_lift|intros bnr].
    apply par_bind; [apply pd_drop|intros []]. apply par_ret.
  - apply pc_rh. unfold rh_fill_buf. apply par_bind; [apply pd_buffered|intros r]. apply par_bind; [apply par_lift|intros sr]. apply par_bind; [apply pd_drop|intros []]. apply par_ret.
  - apply pc_rh. unfold rh_consume. apply par_get. intros x1 x2 Hx. rewrite (rr_create x1 x2 Hx). apply par_bind; [apply par_lift|intros r].
    apply par_bind; [apply par_lift|intros sr]. apply pd_drop.
  - apply pc_rh. unfold rh_with_buffer. apply par_bind; [apply pd_buffered|intros r]. apply par_bind; [apply par_lift|intros q]. apply par_bind; [|intros []; apply par_ret].
    destruct fin; [apply pd_drop|apply pd_revert].
  - unfold cn_close. apply par_bind; [apply pc_wh, ph_flush|intros []]. apply par_get. intros a c H. destruct (cc_fields a c H) as (_ & E & _). rewrite E.
    apply par_bind; [apply pc_record|intros s]. apply par_bind; [apply pc_wh, ph_tx|intros []]. apply par_bind; [apply pc_wh, ph_increment|intros []]. apply pc_wh, ph_tx.
Qed.

Theorem session_stale C {V} : forall (l : list (call V)) c1 c2, cc c1 c2 ->
  fst (session C l c1) = fst (session C l c2) /\ cc (snd (session C l c1)) (snd (session C l c2)).
Proof.
  induction l as [|[p cfg v|o] l IH]; intros c1 c2 H; [split; [reflexivity|exact H]|..]; cbn [session].
  - destruct (po_open C p cfg v c1 c2 H) as [E R]. destruct (cn_open C p cfg v c1) as [r d1]. destruct (cn_open C p cfg v c2) as [r2 d2]. cbn [fst snd] in E, R. subst r2.
    specialize (IH d1 d2 R). destruct (session C l d1) as [rs1 e1]. destruct (session C l d2) as [rs2 e2]. cbn [fst snd] in IH. destruct IH as [-> IH].
    destruct r; cbn [fst snd]; (split; [reflexivity|]); assumption.
  - destruct (pd_step C o c1 c2 H) as [E R]. destruct (step C o c1) as [r d1]. destruct (step C o c2) as [r2 d2]. cbn [fst snd] in E, R. subst r2.
    specialize (IH d1 d2 R). destruct (session C l d1) as [rs1 e1]. destruct (session C l d2) as [rs2 e2]. cbn [fst snd] in IH. destruct IH as [-> IH].
    destruct o; destruct r; cbn [fst snd]; (split; [reflexivity|]); assumption.
Qed.

Lemma new_stale C r1 r2 w1 w2 rx tx c1 c2 : length r1 = length r2 -> length w1 = length w2 ->
  cn_new C r1 w1 rx tx = Ok c1 -> cn_new C r2 w2 rx tx = Ok c2 -> cc c1 c2.
Proof.
  intros Hr Hw. unfold cn_new, wb_new. rewrite <- Hw. destruct (_ <? _); [|discriminate]. cbn [obind]. intros E1 E2. injection E1 as <-. injection E2 as <-.
  split; [|split; [|reflexivity]]; cbn [cn_rd cn_dec cn_opened cn_wh].
  - split; [reflexivity|]. cbn [fst snd]. repeat split; [exact Hr|]. intros p [[Hp|[]]|Hp]; [|cbn in Hp; lia]. unfold window in Hp. cbn in Hp. lia.
  - split; [|repeat split]. repeat split; cbn [wh_wb wb_buf wb_pos]; [exact Hw|]. intros p Hp. lia.
Qed.
