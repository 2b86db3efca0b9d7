(** * C64: how the application cuts its data into calls *)
From Coq Require Import String List NArith Arith Bool Lia ZArith.
From Coq.Strings Require Import Byte.
From Coq Require Import ZifyBool ZifyNat ZifyN.
From Verif Require Import Base Buffer Codes Extensions Crypto KeySchedule Config Handshake Record WriteBuffer
  Transport RecordReader ReadBuffer Connection Api Loops
  BaseProofs SpecWire WireProofs SpecKeys KeyProofs SpecRecord RecordProofs SpecSend WriteProofs SendProofs SpecHello HelloProofs PropHello
  HsWrite HsProofs ConnProofs SpecSession FlagProofs PropSession Toy ToyRun PropSend PropWrite
  SpecRead FrameProofs RecvProofs ServeProofs PropRead TermProofs PropOpen SpecReceiver SpecEndpoint EndpointProofs PropEndpoint SpecLoops PropLoops
  SpecCut.
Import ListNotations.
Local Open Scope list_scope.

Ltac Zify.zify_post_hook ::= Z.div_mod_to_equations.

(** ** One [write] of two parts *)

Definition prep (C : crypto) : M whalf tls_error unit :=
  w <- get ;;
  if wb_contains (wh_wb w) RH_AppData then ret tt else wh_flush C ;;; on_wb (wb_start_record RH_AppData).
Definition tail (C : crypto) (buf : bytes) : M whalf tls_error nat :=
  w1 <- get ;;
  nb <- lift (wb_append (wh_wb w1) buf) ;;
  on_wb (put (snd nb)) ;;;
  full <- lift (wb_is_full (snd nb)) ;;
  (if full then wh_flush C else ret tt) ;;;
  ret (fst nb).

Lemma write_parts C buf w : wh_write C true buf w = (prep C ;;; tail C buf) w.
Proof. unfold wh_write, prep, tail, bind, get. destruct (wb_contains (wh_wb w) RH_AppData); reflexivity. Qed.

Lemma with_buffer_hdr {A} (f : W A) w o w' : with_buffer f w = (o, w') -> wb_hdr w' = wb_hdr w.
Proof.
  unfold with_buffer. destruct (f _) as [[a|e|x| |] c]; intros H; apply pair_equal_spec in H as [_ <-]; reflexivity.
Qed.

Lemma prep_done C w u w1 : prep C w = (Ok u, w1) -> wb_contains (wh_wb w1) RH_AppData = true.
Proof.
  unfold prep, bind, get. destruct (wb_contains (wh_wb w) RH_AppData) eqn:E.
  { unfold ret. intros H. apply pair_equal_spec in H as [_ <-]. exact E. }
  destruct (wh_flush C w) as [[v|e|x| |] w2]; try discriminate. clear E.
  unfold on_wb. destruct (wb_start_record RH_AppData (wh_wb w2)) as [[v1|e|x| |] b2] eqn:E2; intros H; try discriminate.
  apply pair_equal_spec in H as [_ <-]. cbn [wh_wb]. unfold wb_start_record in E2. unfold bind at 1, get in E2.
  destruct (wb_hdr (wh_wb w2)); [discriminate|]. unfold bind at 1, wb_set_hdr, modify in E2.
  apply with_buffer_hdr in E2. cbn [wb_hdr] in E2. unfold wb_contains. now rewrite E2.
Qed.

Lemma prep_again C w : wb_contains (wh_wb w) RH_AppData = true -> prep C w = (Ok tt, w).
Proof. intros H. unfold prep, bind, get. now rewrite H. Qed.

Lemma append_eval w b m : wb_max_block w = Ok m -> wb_pos w <= m ->
  let n := Nat.min (length b) (m - wb_pos w) in
  wb_append w b = Ok (n, mk_wbuf (splice (wb_buf w) (wb_pos w) (firstn n b)) (wb_pos w + n) (wb_hdr w)).
Proof.
  intros Hm Hp n. unfold wb_append, wb_space. rewrite Hm. cbn [obind]. unfold usize_sub.
  rewrite (proj2 (Nat.leb_le (wb_pos w) m) Hp). cbn [obind]. fold n.
  unfold wb_max_block, usize_sub in Hm. destruct (Nat.leb_spec TLS_RECORD_OVERHEAD (length (wb_buf w))) as [Hl|Hl]; [|discriminate].
  assert (m = length (wb_buf w) - TLS_RECORD_OVERHEAD) by congruence.
  destruct (Nat.ltb_spec 0 n) as [H0|H0].
  - unfold set_rng. rewrite (proj2 (Nat.leb_le _ _)) by (rewrite firstn_length; lia). reflexivity.
  - assert (n = 0) as -> by lia. cbn [firstn]. rewrite splice_nil, Nat.add_0_r. now rewrite <- wbuf_eta.
Qed.

Definition put_wb (w : whalf) (b : wbuf) : whalf := mk_whalf b (wh_ks w) (wh_tx w) (wh_policy w).

Lemma splice_len_any w m n b : wb_max_block w = Ok m -> wb_pos w + n <= m -> n <= length b ->
  length (splice (wb_buf w) (wb_pos w) (firstn n b)) = length (wb_buf w).
Proof.
  intros Hm Hp Hn. unfold wb_max_block, usize_sub in Hm. destruct (Nat.leb_spec TLS_RECORD_OVERHEAD (length (wb_buf w))) as [Hl|Hl]; [|discriminate].
  assert (m = length (wb_buf w) - TLS_RECORD_OVERHEAD) by congruence. apply splice_length. rewrite firstn_length. lia.
Qed.

(** What [tail] does with the buffer and the transport. *)
Lemma tail_eval C b w m : wb_max_block (wh_wb w) = Ok m -> wb_pos (wh_wb w) <= m ->
  let n := Nat.min (length b) (m - wb_pos (wh_wb w)) in
  let w1 := put_wb w (mk_wbuf (splice (wb_buf (wh_wb w)) (wb_pos (wh_wb w)) (firstn n b)) (wb_pos (wh_wb w) + n) (wb_hdr (wh_wb w))) in
  tail C b w = if wb_pos (wh_wb w) + n =? m then (wh_flush C ;;; ret n) w1 else (Ok n, w1).
Proof.
  intros Hm Hp n w1. unfold tail. unfold bind at 1, get. unfold bind at 1, lift at 1. rewrite (append_eval _ b m Hm Hp).
  fold n. cbn [fst snd]. unfold bind at 1. unfold on_wb, put. change (mk_whalf _ (wh_ks w) (wh_tx w) (wh_policy w)) with w1.
  unfold bind at 1, lift, wb_is_full, wb_max_block. cbn [wb_buf wb_pos].
  rewrite (splice_len_any _ m) by (unfold n; assumption || lia).
  fold (wb_max_block (wh_wb w)). rewrite Hm. cbn [obind].
  destruct (wb_pos (wh_wb w) + n =? m); reflexivity.
Qed.

Lemma tail_panics C b w : (forall m, wb_max_block (wh_wb w) = Ok m -> m < wb_pos (wh_wb w)) -> tail C b w = tail C [] w /\ forall n, fst (tail C b w) <> Ok n.
Proof.
  intros H. assert (G : exists x, forall b, tail C b w = (Panic x, w)); [|destruct G as [x G]; split; [now rewrite !G|intros n; rewrite G; discriminate]].
  assert (G : exists x, forall b, wb_append (wh_wb w) b = Panic x).
  { unfold wb_append, wb_space. destruct (wb_max_block (wh_wb w)) as [m|e|x| |] eqn:E; cbn [obind].
    - specialize (H m eq_refl). unfold usize_sub. rewrite (proj2 (Nat.leb_gt _ _)) by exact H. cbn [obind]. eauto.
    - unfold wb_max_block, usize_sub in E. destruct (_ <=? _); discriminate.
    - eauto.
    - unfold wb_max_block, usize_sub in E. destruct (_ <=? _); discriminate.
    - unfold wb_max_block, usize_sub in E. destruct (_ <=? _); discriminate. }
  destruct G as [x G]. exists x. intros b0. unfold tail, bind, get, lift. rewrite G. reflexivity.
Qed.

(** [a] goes into the record that is being collected and more room is left; or [a] alone decides. *)
Lemma write_two C a b w : 
  (wh_write C true (a ++ b) w = wh_write C true a w /\ forall n w1, wh_write C true a w = (Ok n, w1) -> n <= length a) \/
  exists w1, wh_write C true a w = (Ok (length a), w1) /\
    wh_write C true (a ++ b) w = (let '(o, w2) := wh_write C true b w1 in (omap (fun n => length a + n) o, w2)) /\
    (forall n w2, wh_write C true b w1 = (Ok n, w2) -> n <= length b /\ (b <> [] -> n <> 0)).
Proof.
  rewrite !write_parts. unfold bind. destruct (prep C w) as [[u|e|x| |] w0] eqn:Ep; [|left; split; [reflexivity|discriminate]..].
  assert (Hd : {m | wb_max_block (wh_wb w0) = Ok m /\ wb_pos (wh_wb w0) <= m} + {forall m, wb_max_block (wh_wb w0) = Ok m -> m < wb_pos (wh_wb w0)}).
  { destruct (wb_max_block (wh_wb w0)) as [m|e|x| |]; [|right; discriminate..]. destruct (le_lt_dec (wb_pos (wh_wb w0)) m) as [H|H].
    - left. exists m. auto.
    - right. intros m' E. now injection E as <-. }
  destruct Hd as [(m & Hm & Hp)|Hd].
  2:{ left. destruct (tail_panics C (a ++ b) w0 Hd) as [E1 _]. destruct (tail_panics C a w0 Hd) as [E2 E3]. split; [congruence|].
      intros n w1 E. rewrite E in E3. now destruct (E3 n). }
  pose proof (tail_eval C a w0 m Hm Hp) as Ha. pose proof (tail_eval C (a ++ b) w0 m Hm Hp) as Hab. cbv zeta in Ha, Hab.
  set (p := wb_pos (wh_wb w0)) in *. rewrite app_length in Hab.
  destruct (le_lt_dec (m - p) (length a)) as [Hle|Hlt].
  - left. rewrite Nat.min_r in Ha, Hab by lia. rewrite firstn_app in Hab. replace (m - p - length a) with 0 in Hab by lia. cbn [firstn] in Hab. rewrite app_nil_r in Hab.
    split; [congruence|]. intros n w1. rewrite Ha. rewrite (proj2 (Nat.eqb_eq _ _)) by lia.
    unfold bind. destruct (wh_flush C _) as [[v|e|x| |] w2]; intros E; try discriminate. apply pair_equal_spec in E as [E _]. injection E as <-. exact Hle.
  - right. rewrite Nat.min_l in Ha by lia. rewrite firstn_all in Ha. rewrite (proj2 (Nat.eqb_neq _ _)) in Ha by lia.
    set (w1 := put_wb w0 _) in Ha. exists w1. split; [exact Ha|].
    assert (Hc : wb_contains (wh_wb w1) RH_AppData = true) by exact (prep_done C w u w0 Ep).
    rewrite !write_parts. unfold bind. rewrite (prep_again C w1 Hc).
    assert (Hlen : length (splice (wb_buf (wh_wb w0)) p a) = length (wb_buf (wh_wb w0))).
    { rewrite <- (firstn_all a) at 1. apply (splice_len_any _ m); unfold p in *; assumption || lia. }
    assert (Hm1 : wb_max_block (wh_wb w1) = Ok m).
    { unfold wb_max_block, w1, put_wb. cbn [wh_wb wb_buf]. fold p. rewrite Hlen. exact Hm. }
    pose proof (tail_eval C b w1 m Hm1) as Hb. change (wb_pos (wh_wb w1)) with (p + length a) in Hb. specialize (Hb ltac:(lia)). cbv zeta in Hb.
    set (nb := Nat.min (length b) (m - (p + length a))) in *.
    replace (Nat.min (length a + length b) (m - p)) with (length a + nb) in Hab by lia.
    rewrite firstn_app, (firstn_all2 a) in Hab by lia. replace (length a + nb - length a) with nb in Hab by lia.
    assert (Es : splice (wb_buf (wh_wb w1)) (p + length a) (firstn nb b) = splice (wb_buf (wh_wb w0)) p (a ++ firstn nb b)).
    { unfold w1, put_wb. cbn [wh_wb wb_buf]. fold p. apply splice_app.
      unfold wb_max_block, usize_sub in Hm. destruct (Nat.leb_spec TLS_RECORD_OVERHEAD (length (wb_buf (wh_wb w0)))) as [Hl|Hl]; [|discriminate].
      assert (m = length (wb_buf (wh_wb w0)) - TLS_RECORD_OVERHEAD) by congruence. rewrite ?app_length, ?firstn_length. lia. }
    rewrite Es in Hb. change (wb_hdr (wh_wb w1)) with (wb_hdr (wh_wb w0)) in Hb.
    replace (p + (length a + nb)) with (p + length a + nb) in Hab by lia.
    set (B := mk_wbuf _ (p + length a + nb) (wb_hdr (wh_wb w0))) in *. change (put_wb w1 B) with (put_wb w0 B) in Hb.
    rewrite Hab, Hb. split.
    + destruct (p + length a + nb =? m); [|reflexivity]. unfold bind. destruct (wh_flush C (put_wb w0 B)) as [[v|e|x| |] w2]; reflexivity.
    + intros n w2 E. assert (n = nb) as ->.
      { destruct (p + length a + nb =? m).
        - unfold bind in E. destruct (wh_flush C (put_wb w0 B)) as [[v|e|x| |] w3]; try discriminate. apply pair_equal_spec in E as [E _]. now injection E.
        - apply pair_equal_spec in E as [E _]. now injection E. }
      split; [lia|]. intros Hne. destruct b; [contradiction|]. cbn [length] in nb. lia.
Qed.

(** ** [write_all] *)

Lemma cn_write_eval C b c : cn_write C b c =
  (let '(o, w) := wh_write C (cn_opened c) b (cn_wh c) in (o, mk_conn (cn_rd c) (cn_dec c) w (cn_shared c) (cn_opened c))).
Proof. reflexivity. Qed.

Lemma cn_write_two C a b c : a <> [] ->
  (cn_write C (a ++ b) c = cn_write C a c /\ forall n c1, cn_write C a c = (Ok n, c1) -> n <= length a) \/
  exists c1, cn_write C a c = (Ok (length a), c1) /\
    cn_write C (a ++ b) c = (let '(o, c2) := cn_write C b c1 in (omap (fun n => length a + n) o, c2)) /\
    (forall n c2, cn_write C b c1 = (Ok n, c2) -> n <= length b /\ (b <> [] -> n <> 0)).
Proof.
  intros Hne. rewrite !cn_write_eval. destruct (cn_opened c) eqn:Eo.
  2:{ left. split; [reflexivity|]. intros n c1 E. discriminate E. }
  destruct (write_two C a b (cn_wh c)) as [[E1 E2]|(w1 & E1 & E2 & E3)].
  - left. rewrite E1. split; [reflexivity|]. intros n c1. destruct (wh_write C true a (cn_wh c)) as [o w1] eqn:E. intros H.
    apply pair_equal_spec in H as [-> _]. eapply E2; reflexivity.
  - right. exists (mk_conn (cn_rd c) (cn_dec c) w1 (cn_shared c) true). rewrite E1, E2. split; [reflexivity|].
    rewrite cn_write_eval. cbn [cn_opened cn_wh cn_rd cn_dec cn_shared]. split; [now destruct (wh_write C true b w1)|].
    intros n c2. destruct (wh_write C true b w1) as [o w2] eqn:E. intros H. apply pair_equal_spec in H as [-> _]. eapply E3; reflexivity.
Qed.

Definition wa (C : crypto) (b : bytes) : M conn call_error unit := write_all C (length b) b.

Lemma write_all_step C f x b c : write_all C (S f) (x :: b) c =
  (let bb := x :: b in
   let '(o, c1) := cn_write C bb c in
   match o with
   | Ok n => if n =? 0 then (Panic PAssert, c1) else if n <=? length bb then write_all C f (skipn n bb) c1 else (Panic PSlice, c1)
   | Err e => (Err (Other e), c1)
   | Panic p => (Panic p, c1)
   | Diverge => (Diverge, c1)
   | Cancelled => (Cancelled, c1)
   end).
Proof.
  cbv zeta. cbn [write_all]. set (bb := x :: b). clearbody bb. unfold bind at 1, map_err. destruct (cn_write C bb c) as [[n|e|p| |] c1]; cbn [omap_err]; try reflexivity.
  destruct (n =? 0); [reflexivity|]. unfold bind, lift, slice_from, slice_rng. rewrite Nat.leb_refl, andb_true_r.
  destruct (Nat.leb_spec n (length bb)) as [H|H]; [|reflexivity].
  replace (sub bb n (length bb - n)) with (skipn n bb); [reflexivity|]. unfold sub. symmetry. apply firstn_all2. rewrite skipn_length. lia.
Qed.

Lemma write_all_fuel C : forall f b c, length b <= f -> write_all C f b c = wa C b c.
Proof.
  intros f b. remember (length b) as k eqn:Ek. revert f b Ek. induction k as [k IH] using (well_founded_induction Wf_nat.lt_wf). intros f b -> c Hf.
  destruct b as [|x b]; [now destruct f|]. destruct f as [|f]; [cbn in Hf; lia|]. unfold wa. cbn [length]. rewrite !write_all_step. cbv zeta.
  destruct (cn_write C (x :: b) c) as [[n|e|p| |] c1]; try reflexivity. destruct (Nat.eqb_spec n 0); [reflexivity|].
  destruct (Nat.leb_spec n (length (x :: b))); [|reflexivity].
  assert (Hl : length (skipn n (x :: b)) = length (x :: b) - n) by apply skipn_length. cbn [length] in *.
  rewrite (IH (length (skipn n (x :: b))) ltac:(lia) f _ eq_refl) by lia.
  now rewrite (IH (length (skipn n (x :: b))) ltac:(lia) (length b) _ eq_refl) by lia.
Qed.

Lemma wa_step C b c : b <> [] -> wa C b c =
  (let '(o, c1) := cn_write C b c in
   match o with
   | Ok n => if n =? 0 then (Panic PAssert, c1) else if n <=? length b then wa C (skipn n b) c1 else (Panic PSlice, c1)
   | Err e => (Err (Other e), c1)
   | Panic p => (Panic p, c1)
   | Diverge => (Diverge, c1)
   | Cancelled => (Cancelled, c1)
   end).
Proof.
  intros H. destruct b as [|x b]; [contradiction|]. change (wa C (x :: b) c) with (write_all C (S (length b)) (x :: b) c). rewrite write_all_step. cbv zeta.
  destruct (cn_write C (x :: b) c) as [[n|e|p| |] c1]; try reflexivity. destruct (Nat.eqb_spec n 0); [reflexivity|].
  destruct (n <=? length (x :: b)); [|reflexivity]. apply write_all_fuel. rewrite skipn_length. cbn [length]. lia.
Qed.

Lemma wa_app C a : forall b c, wa C (a ++ b) c = (wa C a ;;; wa C b) c.
Proof.
  remember (length a) as k eqn:Ek. revert a Ek. induction k as [k IH] using (well_founded_induction Wf_nat.lt_wf). intros a -> b c.
  destruct a as [|x a]; [reflexivity|]. set (aa := x :: a) in *. assert (Ha : aa <> []) by discriminate.
  assert (Hla : 0 < length aa) by (cbn; lia). clearbody aa. clear x a.
  assert (Hab : aa ++ b <> []) by (destruct aa; [contradiction|discriminate]).
  rewrite (wa_step C (aa ++ b) c Hab). unfold bind. rewrite (wa_step C aa c Ha).
  destruct (cn_write_two C aa b c Ha) as [[E1 E2]|(c1 & E1 & E2 & E3)].
  - rewrite E1. destruct (cn_write C aa c) as [[n|e|p| |] c1]; try reflexivity. specialize (E2 n c1 eq_refl).
    destruct (Nat.eqb_spec n 0); [reflexivity|]. rewrite (proj2 (Nat.leb_le n (length (aa ++ b)))) by (rewrite app_length; lia).
    rewrite (proj2 (Nat.leb_le n (length aa))) by exact E2. rewrite skipn_app. replace (n - length aa) with 0 by lia. cbn [skipn].
    rewrite (IH (length (skipn n aa)) ltac:(rewrite skipn_length; lia) (skipn n aa) eq_refl b c1). reflexivity.
  - rewrite E1, E2. rewrite (proj2 (Nat.eqb_neq (length aa) 0)) by lia. rewrite Nat.leb_refl, skipn_all. cbn [wa length write_all ret].
    change (wa C [] c1) with (@Ok call_error unit tt, c1). cbv iota beta.
    destruct b as [|y b].
    + rewrite app_nil_r in E2. rewrite E1 in E2. destruct (cn_write C [] c1) as [o c2]. apply pair_equal_spec in E2 as [E2 <-].
      destruct o as [n|e|p| |]; try discriminate E2. cbn [omap obind]. destruct (E3 n c1 eq_refl) as [Hn _]. cbn [length] in Hn. assert (n = 0) as -> by lia.
      rewrite Nat.add_0_r, app_nil_r, (proj2 (Nat.eqb_neq (length aa) 0)), Nat.leb_refl, skipn_all by lia. reflexivity.
    + set (bb := y :: b) in *. assert (Hb : bb <> []) by discriminate. clearbody bb. rewrite (wa_step C bb c1 Hb).
      destruct (cn_write C bb c1) as [[n|e|p| |] c2]; cbn [omap obind]; try reflexivity. destruct (E3 n c2 eq_refl) as [Hn Hz]. specialize (Hz Hb).
      rewrite (proj2 (Nat.eqb_neq (length aa + n) 0)), (proj2 (Nat.eqb_neq n 0)), (proj2 (Nat.leb_le _ (length (aa ++ bb)))), (proj2 (Nat.leb_le n (length bb))) by (rewrite ?app_length; lia).
      rewrite skipn_app, (skipn_all2 aa) by lia. replace (length aa + n - length aa) with n by lia. reflexivity.
Qed.

(** Writing all of [a] and then all of [b] is writing all of [a ++ b]: the same result and the same connection, with the same bytes
    at the transport - whatever the state of the connection, and whatever the transport does. *)
Theorem C64_write_all : forall C a b c,
  io_step C (WriteAll (a ++ b)) c = (io_step C (WriteAll a) ;;; io_step C (WriteAll b)) c.
Proof.
  intros C a b c. cbn [io_step]. fold (wa C (a ++ b)) (wa C a) (wa C b). unfold bind at 1. rewrite wa_app. unfold bind, ret.
  now destruct (wa C a c) as [[u|e|p| |] c1]; [destruct (wa C b c1) as [[u1|e|p| |] c2]|..].
Qed.

(** ** Programs *)

Definition outcome_of (x : list (outcome call_error bytes) * conn) := (failure (fst x), returned (fst x), snd x).

Lemma wa_nil_step C c : io_step C (WriteAll []) c = (Ok [], c).
Proof. reflexivity. Qed.

Definition put_first (o : outcome call_error bytes) (x : option (outcome call_error bytes) * bytes * conn) :=
  match o with Ok d => (fst (fst x), d ++ snd (fst x), snd x) | _ => (Some o, [], snd x) end.

Lemma program_cons C k l c : outcome_of (program C (k :: l) c) =
  (let '(o, c1) := io_step C k c in match o with Ok d => put_first o (outcome_of (program C l c1)) | _ => (Some o, [], c1) end).
Proof.
  cbn [program]. destruct (io_step C k c) as [o c1]. destruct o as [d|e|p| |]; try reflexivity. destruct (program C l c1) as [os c2]. reflexivity.
Qed.

Lemma write_gives C b c d c1 : io_step C (WriteAll b) c = (Ok d, c1) -> d = [].
Proof.
  cbn [io_step]. unfold bind, ret. destruct (write_all C (length b) b c) as [[u|e|p| |] c2]; intros H; try discriminate.
  apply pair_equal_spec in H as [H _]. now injection H.
Qed.

Lemma program_before C b l c : outcome_of (program C (before b l) c) = outcome_of (program C (WriteAll b :: l) c).
Proof.
  destruct b as [|x b].
  { cbn [before]. rewrite program_cons, wa_nil_step. cbn [put_first app]. now destruct (outcome_of (program C l c)) as [[? ?] ?]. }
  destruct l as [|[b'| |dst] l]; try reflexivity. cbn [before]. set (a := x :: b). rewrite !program_cons, C64_write_all. unfold bind.
  destruct (io_step C (WriteAll a) c) as [[d|e|p| |] c1] eqn:E; try reflexivity. rewrite program_cons.
  rewrite (write_gives C a c d c1 E).
  destruct (io_step C (WriteAll b') c1) as [[d'|e|p| |] c2] eqn:E2; reflexivity.
Qed.

Lemma program_joined C : forall l c, outcome_of (program C (joined l) c) = outcome_of (program C l c).
Proof.
  induction l as [|k l IH]; intros c; [reflexivity|]. destruct k as [b| |dst]; cbn [joined].
  - rewrite program_before, !program_cons. destruct (io_step C (WriteAll b) c) as [[d|e|p| |] c1]; try reflexivity. now rewrite IH.
  - rewrite !program_cons. destruct (io_step C Flush c) as [[d|e|p| |] c1]; try reflexivity. now rewrite IH.
  - rewrite !program_cons. destruct (io_step C (ReadExact dst) c) as [[d|e|p| |] c1]; try reflexivity. now rewrite IH.
Qed.

(** Two programs that write the same bytes between the same flushes and reads, however they cut them into calls: the programs
    end with the same failure or none, get the same bytes, and leave the same connection behind, with the same bytes at the
    transport, in the same [write_all] and [flush] calls - whatever the state of the connection, the peer and the transport. *)
Theorem C64_programs : forall C l1 l2 c os1 c1 os2 c2, joined l1 = joined l2 ->
  program C l1 c = (os1, c1) -> program C l2 c = (os2, c2) ->
  c1 = c2 /\ failure os1 = failure os2 /\ SpecLoops.returned os1 = SpecLoops.returned os2.
Proof.
  intros C l1 l2 c os1 c1 os2 c2 Hj H1 H2. pose proof (program_joined C l1 c) as E1. pose proof (program_joined C l2 c) as E2.
  rewrite Hj in E1. rewrite E1 in E2. rewrite H1, H2 in E2. unfold outcome_of in E2. cbn [fst snd] in E2.
  apply pair_equal_spec in E2 as [E2 <-]. apply pair_equal_spec in E2 as [E2 E3]. auto.
Qed.

(** ** The records *)

Lemma emit_ok rec s : tx_ok (t_tx s) -> (t_next s < u64_max)%N -> exists tx', emit rec true s = (Ok tt, mk_sender None (t_next s + 1) (t_policy s) tx') /\
  tx_ok tx' /\ tx_log tx' = tx_log (t_tx s) ++ [TxWrite rec (length rec); TxFlush].
Proof.
  intros [H1 H2] Hn. unfold emit. rewrite (proj2 (N.ltb_lt _ _) Hn). unfold tx_write_all.
  destruct (tx_wr (t_tx s)) as [|a r]; [|inversion H1 as [|? ? <- H1']; subst]; unfold tx_flush; cbn [tx_fl tx_wr tx_log];
    (destruct (tx_fl (t_tx s)) as [|f q]; [|inversion H2 as [|? ? <- H2']; subst]); eexists; (split; [reflexivity|]); (split; [split; cbn; auto; constructor|]); cbn; now rewrite <- app_assoc.
Qed.

(** An open connection over a transport that takes everything. *)
Definition flows (C : crypto) (L : nat) (c : conn) (pend : option bytes) : Prop :=
  sending C L (cn_wh c) pend /\ cn_opened c = true /\ t_policy (sender_of c) = Strict /\ tx_ok (t_tx (sender_of c)).

Lemma flows_data C L c pend : flows C L c pend -> t_data (sender_of c) = pend.
Proof. intros (H & _). rewrite sender_of_half, (sending_sender C L _ _ H). reflexivity. Qed.

Lemma some_data C L c pend : sending C L (cn_wh c) pend -> t_data (sender_of c) = pend.
Proof. intros H. rewrite sender_of_half, (sending_sender C L _ _ H). reflexivity. Qed.

Definition moves (C : crypto) (c c' : conn) (l : list bytes) : Prop :=
  write_key c' = write_key c /\ write_iv c' = write_iv c /\
  sent_log c' = sent_log c ++ flushed_records C (write_key c) (write_iv c) (t_next (sender_of c)) l /\
  t_next (sender_of c') = (t_next (sender_of c) + N.of_nat (length l))%N.

Lemma flushed_app C key iv : forall l1 n l2, flushed_records C key iv n (l1 ++ l2) =
  flushed_records C key iv n l1 ++ flushed_records C key iv (n + N.of_nat (length l1)) l2.
Proof.
  induction l1 as [|p l1 IH]; intros n l2; [cbn; now rewrite N.add_0_r|]. cbn [flushed_records app length]. cbv zeta. rewrite IH.
  replace (n + 1 + N.of_nat (length l1))%N with (n + N.of_nat (S (length l1)))%N by lia. reflexivity.
Qed.

Lemma moves_trans C c1 c2 c3 l1 l2 : moves C c1 c2 l1 -> moves C c2 c3 l2 -> moves C c1 c3 (l1 ++ l2).
Proof.
  intros (K1 & I1 & S1 & N1) (K2 & I2 & S2 & N2). split; [congruence|]. split; [congruence|]. split.
  - rewrite S2, S1, K1, I1, N1, flushed_app. now rewrite app_assoc.
  - rewrite N2, N1, app_length. lia.
Qed.

Lemma moves_refl C c : moves C c c [].
Proof. split; [reflexivity|]. split; [reflexivity|]. cbn. rewrite app_nil_r, N.add_0_r. auto. Qed.

Lemma emit_data_moves C L c pend : crypto_ok C -> flows C L c pend -> (t_next (sender_of c) < u64_max)%N ->
  forall key iv x s, t_data s = Some x -> t_next s = t_next (sender_of c) -> t_policy s = t_policy (sender_of c) -> t_tx s = t_tx (sender_of c) ->
  exists tx', emit_data C key iv s = (Ok tt, mk_sender None (t_next (sender_of c) + 1) Strict tx') /\ tx_ok tx' /\
    tx_log tx' = sent_log c ++ flushed_records C key iv (t_next (sender_of c)) [x].
Proof.
  intros HC (_ & _ & Hp & Ht) Hn key iv x s Ed En Ep Et. unfold emit_data. rewrite Ed, Ep, Hp. cbn [strictly].
  destruct (emit_ok (rfc_record C key iv (t_next s) ty_data x 0) s) as (tx' & E & Hok & Hl); [now rewrite Et|now rewrite En|].
  exists tx'. rewrite E, En, Ep, Hp. split; [reflexivity|]. split; [exact Hok|]. rewrite Hl, Et. cbn [flushed_records]. cbv zeta. now rewrite En.
Qed.

Lemma write_flows C L c pend b : crypto_ok C -> 134 <= L -> flows C L c pend -> (t_next (sender_of c) < u64_max)%N -> b <> [] -> pend <> Some [] ->
  exists n c' l pend', cn_write C b c = (Ok n, c') /\ 0 < n <= length b /\ flows C L c' pend' /\ moves C c c' l /\
    concat l ++ content pend' = content pend ++ firstn n b /\ Forall (fun q => length q = L - 133) l /\ pend' <> Some [] /\ length l <= n.
Proof.
  intros HC HL Hf Hn Hb Hp. pose proof Hf as (Hs & Ho & Hpol & Htx). pose proof (step_write C b c) as Hst.
  destruct (transmit_step C L c (OpWrite b) _ _ pend HC Hs eq_refl Hst) as (Ht & Hk & _ & _ & Hop).
  destruct (Hk eq_refl) as (pend' & Hs' & K1 & K2). rewrite Ho in Ht. cbn [transmit] in Ht. rewrite (some_data C L c pend Hs) in Ht.
  change (match pend with Some x => x | None => [] end) with (content pend) in Ht. cbv zeta in Ht.
  set (n := Nat.min (length b) (L - 133 - length (content pend))) in *.
  assert (Hcp : length (content pend) < L - 133).
  { destruct Hs as (_ & _ & Hpd). destruct pend as [x|]; cbn [content length]; [|lia]. destruct Hpd as (_ & _ & _ & Hpd & _). lia. }
  assert (Hn0 : 0 < n <= length b). { destruct b; [contradiction|]. cbn [length] in *. lia. }
  assert (Hlx : length (content pend ++ firstn n b) = length (content pend) + n) by (rewrite app_length, firstn_length; lia).
  destruct (cn_write C b c) as [o c'] eqn:E. cbn [fst snd] in *.
  destruct (Nat.eqb_spec (length (content pend) + n) (L - 133)) as [Eq|Ne].
  - destruct (emit_data_moves C L c pend HC Hf Hn (write_key c) (write_iv c) (content pend ++ firstn n b)
      (mk_sender (Some (content pend ++ firstn n b)) (t_next (sender_of c)) (t_policy (sender_of c)) (t_tx (sender_of c)))
      eq_refl eq_refl eq_refl eq_refl) as (tx' & Ee & Hok & Hl).
    rewrite Ee in Ht. cbn [result_of] in Ht. apply pair_equal_spec in Ht as [Ho1 Hs1].
    assert (pend' = None) as -> by (rewrite <- (some_data C L c' pend' Hs'), <- Hs1; reflexivity).
    exists n, c', [content pend ++ firstn n b], None. split.
    { destruct o as [k|e|x| |]; cbn [omap obind] in Ho1; try discriminate. injection Ho1 as <-. reflexivity. }
    split; [exact Hn0|]. split; [split; [exact Hs'|]; rewrite Hop, <- Hs1; auto|].
    split. { split; [exact K1|]. split; [exact K2|]. split; [|rewrite <- Hs1; cbn [t_next length]; lia].
      rewrite <- Hl. change (sent_log c') with (tx_log (t_tx (sender_of c'))). now rewrite <- Hs1. }
    cbn [concat content]. rewrite !app_nil_r. split; [reflexivity|]. split; [constructor; [lia|constructor]|]. split; [discriminate|]. cbn [length]. lia.
  - apply pair_equal_spec in Ht as [Ho1 Hs1].
    assert (pend' = Some (content pend ++ firstn n b)) as -> by (rewrite <- (some_data C L c' pend' Hs'), <- Hs1; reflexivity).
    exists n, c', [], (Some (content pend ++ firstn n b)). split.
    { destruct o as [k|e|x| |]; cbn [omap obind] in Ho1; try discriminate. injection Ho1 as <-. reflexivity. }
    split; [exact Hn0|]. split; [split; [exact Hs'|]; rewrite Hop, <- Hs1; auto|].
    split. { split; [exact K1|]. split; [exact K2|]. cbn [flushed_records length]. rewrite app_nil_r, N.add_0_r.
      change (sent_log c') with (tx_log (t_tx (sender_of c'))). now rewrite <- Hs1. }
    cbn [concat content app]. split; [reflexivity|]. split; [constructor|].
    split; [|cbn; lia]. intros F. assert (F' : content pend ++ firstn n b = []) by congruence. rewrite F' in Hlx. cbn [length] in Hlx. lia.
Qed.

Lemma wa_flows C L : crypto_ok C -> 134 <= L -> forall d c pend, flows C L c pend -> (t_next (sender_of c) + N.of_nat (length d) <= u64_max)%N -> pend <> Some [] ->
  exists c' l pend', wa C d c = (Ok tt, c') /\ flows C L c' pend' /\ moves C c c' l /\
    concat l ++ content pend' = content pend ++ d /\ Forall (fun q => length q = L - 133) l /\ pend' <> Some [] /\ length l <= length d.
Proof.
  intros HC HL d. remember (length d) as k eqn:Ek. revert d Ek. induction k as [k IH] using (well_founded_induction Wf_nat.lt_wf). intros d -> c pend Hf Hn Hp.
  destruct d as [|x d].
  { exists c, [], pend. split; [reflexivity|]. split; [exact Hf|]. split; [apply moves_refl|]. cbn [concat app]. rewrite app_nil_r. auto. }
  set (dd := x :: d) in *. assert (Hd : dd <> []) by discriminate. assert (Hld : 0 < length dd) by (cbn; lia). clearbody dd.
  destruct (write_flows C L c pend dd HC HL Hf ltac:(lia) Hd Hp) as (n & c1 & l1 & p1 & E1 & Hn1 & Hf1 & Hm1 & Hc1 & Hl1 & Hp1 & Hx1).
  pose proof Hm1 as (_ & _ & _ & Hnext).
  destruct (IH (length (skipn n dd)) ltac:(rewrite skipn_length; lia) (skipn n dd) eq_refl c1 p1 Hf1 ltac:(rewrite Hnext, skipn_length; lia) Hp1)
    as (c2 & l2 & p2 & E2 & Hf2 & Hm2 & Hc2 & Hl2 & Hp2 & Hx2).
  exists c2, (l1 ++ l2), p2. rewrite (wa_step C dd c Hd), E1. rewrite (proj2 (Nat.eqb_neq n 0)), (proj2 (Nat.leb_le n (length dd))) by lia.
  split; [exact E2|]. split; [exact Hf2|]. split; [eapply moves_trans; eauto|].
  rewrite concat_app, <- app_assoc, Hc2, app_assoc, Hc1, <- app_assoc, firstn_skipn. split; [reflexivity|].
  split; [apply Forall_app; auto|]. split; [exact Hp2|]. rewrite app_length. rewrite skipn_length in Hx2. lia.
Qed.

Lemma flush_flows C L c pend : crypto_ok C -> flows C L c pend -> (t_next (sender_of c) < u64_max)%N ->
  exists c', cn_flush C c = (Ok tt, c') /\ flows C L c' None /\ moves C c c' (match pend with Some x => [x] | None => [] end).
Proof.
  intros HC Hf Hn. pose proof Hf as (Hs & Ho & Hpol & Htx). pose proof (step_flush C c) as Hst.
  destruct (transmit_step C L c OpFlush _ _ pend HC Hs eq_refl Hst) as (Ht & Hk & _ & _ & Hop).
  destruct (Hk eq_refl) as (pend' & Hs' & K1 & K2). cbn [transmit] in Ht. destruct (cn_flush C c) as [o c'] eqn:E. cbn [fst snd] in *.
  destruct pend as [x|].
  - destruct (emit_data_moves C L c (Some x) HC Hf Hn (write_key c) (write_iv c) x (sender_of c) (some_data C L c _ Hs) eq_refl eq_refl eq_refl) as (tx' & Ee & Hok & Hl).
    rewrite Ee in Ht. cbn [result_of] in Ht. apply pair_equal_spec in Ht as [Ho1 Hs1].
    assert (pend' = None) as -> by (rewrite <- (some_data C L c' pend' Hs'), <- Hs1; reflexivity).
    exists c'. split. { destruct o as [[]|e|p| |]; cbn [omap obind] in Ho1; try discriminate. reflexivity. }
    split; [split; [exact Hs'|]; rewrite Hop, <- Hs1; auto|].
    split; [exact K1|]. split; [exact K2|]. split; [|rewrite <- Hs1; cbn [t_next length]; lia].
    rewrite <- Hl. change (sent_log c') with (tx_log (t_tx (sender_of c'))). now rewrite <- Hs1.
  - unfold emit_data in Ht. rewrite (some_data C L c None Hs) in Ht. cbn [result_of] in Ht. apply pair_equal_spec in Ht as [Ho1 Hs1].
    assert (pend' = None) as -> by (rewrite <- (some_data C L c' pend' Hs'), <- Hs1; apply (some_data C L c None Hs)).
    exists c'. split. { destruct o as [[]|e|p| |]; cbn [omap obind] in Ho1; try discriminate. reflexivity. }
    split; [split; [exact Hs'|]; rewrite Hop, <- Hs1; auto|].
    split; [exact K1|]. split; [exact K2|]. cbn [flushed_records length]. rewrite app_nil_r, N.add_0_r.
    change (sent_log c') with (tx_log (t_tx (sender_of c'))). now rewrite <- Hs1.
Qed.

Lemma one_line C L c d : crypto_ok C -> 134 <= L -> flows C L c None -> (t_next (sender_of c) + N.of_nat (length d) < u64_max)%N ->
  exists c' ps, program C [WriteAll d; Flush] c = ([Ok []; Ok []], c') /\ flows C L c' None /\ moves C c c' ps /\ pieces (L - 133) d ps /\ length ps <= length d.
Proof.
  intros HC HL Hf Hn. destruct (wa_flows C L HC HL d c None Hf ltac:(lia) ltac:(discriminate)) as (c1 & l & p & E1 & Hf1 & Hm1 & Hc & Hl & Hp & Hx).
  pose proof Hm1 as (_ & _ & _ & Hnext).
  destruct (flush_flows C L c1 p HC Hf1 ltac:(rewrite Hnext; lia)) as (c2 & E2 & Hf2 & Hm2).
  exists c2, (l ++ match p with Some x => [x] | None => [] end). split.
  { cbn [program io_step]. fold (wa C d). unfold bind, ret, map_err. rewrite E1, E2. reflexivity. }
  split; [exact Hf2|]. split; [eapply moves_trans; eauto|].
  assert (Hpx : Forall (fun q => 0 < length q <= L - 133) (match p with Some x => [x] | None => [] end)).
  { destruct p as [x|]; [|constructor]. constructor; [|constructor]. destruct Hf1 as ((_ & _ & Hpd) & _). destruct Hpd as (_ & _ & _ & Hpd & _).
    destruct x; [contradiction|]. cbn [length] in *. lia. }
  assert (Hlx : Forall (fun q => 0 < length q <= L - 133) l) by (eapply Forall_impl; [|exact Hl]; cbn; intros; lia).
  assert (Hcc : concat (l ++ match p with Some x => [x] | None => [] end) = d).
  { rewrite concat_app. cbn [content app] in Hc. destruct p; cbn [content concat] in *; [now rewrite app_nil_r|exact Hc]. }
  split; [split; [exact Hcc|split; [apply Forall_app; auto|]]|].
  - intros ps1 q Eq. destruct p as [x|].
    + apply app_inj_tail in Eq as [-> _]. exact Hl.
    + rewrite app_nil_r in Eq. subst l. now apply Forall_app in Hl as [Hl _].
  - rewrite <- Hcc. assert (Hall : Forall (fun q => 0 < length q <= L - 133) (l ++ match p with Some x => [x] | None => [] end)) by (apply Forall_app; auto).
    clear - Hall. set (q0 := l ++ _) in *. clearbody q0. induction Hall as [|q l' Hq _ IH]; [cbn; lia|]. cbn [concat length]. rewrite app_length. lia.
Qed.

Lemma lines C L : crypto_ok C -> 134 <= L -> forall ds c, flows C L c None -> (t_next (sender_of c) + N.of_nat (length (concat ds)) < u64_max)%N ->
  exists os c' pss, program C (write_and_flush ds) c = (os, c') /\ Forall (fun o => o = Ok []) os /\ flows C L c' None /\ moves C c c' (concat pss) /\
    Forall2 (pieces (L - 133)) ds pss.
Proof.
  intros HC HL. induction ds as [|d ds IH]; intros c Hf Hn.
  { exists [], c, []. split; [reflexivity|]. split; [constructor|]. split; [exact Hf|]. split; [apply moves_refl|constructor]. }
  cbn [concat] in Hn. rewrite app_length in Hn.
  destruct (one_line C L c d HC HL Hf ltac:(lia)) as (c1 & ps & E1 & Hf1 & Hm1 & Hp1 & Hx).
  pose proof Hm1 as (_ & _ & _ & Hnext).
  destruct (IH c1 Hf1 ltac:(rewrite Hnext; lia)) as (os & c2 & pss & E2 & Ho2 & Hf2 & Hm2 & Hp2).
  exists (Ok [] :: Ok [] :: os), c2, (ps :: pss). split.
  { change (write_and_flush (d :: ds)) with (WriteAll d :: Flush :: write_and_flush ds). cbn [program] in E1 |- *.
    destruct (io_step C (WriteAll d) c) as [[a|e|x| |] cc]; try discriminate E1.
    destruct (io_step C Flush cc) as [[b|e|x| |] cd]; try discriminate E1.
    apply pair_equal_spec in E1 as [E1 <-]. injection E1 as -> ->. now rewrite E2. }
  split; [repeat constructor; exact Ho2|]. split; [exact Hf2|]. split; [cbn [concat]; eapply moves_trans; eauto|]. now constructor.
Qed.

(** On a connection that was just opened, over a transport that takes what it is handed: a program that writes some data,
    flushes, writes some more, flushes, and so on, succeeds.  The transport is handed exactly the protected records, numbered
    0, 1, 2, ..., whose contents are the data of each part cut into pieces of [L - 133] bytes, each record whole and followed by a
    flush. *)
Theorem C64_records : forall C L c ds os c', crypto_ok C -> established C L c -> 134 <= L -> transport_succeeds c ->
  (N.of_nat (length (concat ds)) < u64_max)%N -> program C (write_and_flush ds) c = (os, c') ->
  failure os = None /\
  exists pss, Forall2 (pieces (L - 133)) ds pss /\
    sent_log c' = sent_log c ++ flushed_records C (write_key c) (write_iv c) 0 (concat pss).
Proof.
  intros C L c ds os c' HC He HL [Ht1 Ht2] Hn H. destruct (established_facts C L c HC He) as (_ & Hc & Ho & Hp & _).
  assert (Hf : flows C L c None) by (split; [now apply established_sending; [| lia|]|]; split; [exact Ho|]; split; [exact Hp|]; split; assumption).
  assert (H0 : t_next (sender_of c) = 0%N) by exact Hc.
  destruct (lines C L HC HL ds c Hf ltac:(rewrite H0; lia)) as (os' & c2 & pss & E & Hos & _ & (_ & _ & Hl & _) & Hps).
  rewrite H in E. apply pair_equal_spec in E as [-> ->]. split.
  { clear - Hos. induction Hos as [|o os Ho _ IH]; [reflexivity|]. unfold failure in *. subst o. exact IH. }
  exists pss. split; [exact Hps|]. now rewrite Hl, H0.
Qed.

(** There is only one way to cut, into as many pieces as one expects. *)
Theorem C64_pieces : forall cap d ps, 0 < cap -> pieces cap d ps ->
  length ps = (length d + cap - 1) / cap /\ forall ps', pieces cap d ps' -> ps' = ps.
Proof.
  assert (G : forall cap, 0 < cap -> forall ps d, pieces cap d ps ->
    ps = [] /\ d = [] \/ exists ps', ps = firstn cap d :: ps' /\ d <> [] /\ pieces cap (skipn cap d) ps').
  { intros cap Hcap ps d (Hc & Hf & Hl). destruct ps as [|p ps]; [left; auto|]. right. exists ps. inversion Hf as [|? ? Hp Hf']; subst.
    assert (Hrest : forall ps1 q, ps = ps1 ++ [q] -> Forall (fun q0 => length q0 = cap) ps1).
    { intros ps1 q ->. specialize (Hl (p :: ps1) q eq_refl). now inversion Hl. }
    assert (Hpp : ps = [] \/ length p = cap).
    { destruct ps as [|q ps] using rev_ind; [now left|]. right. specialize (Hl (p :: ps) q eq_refl). now inversion Hl. }
    cbn [concat]. assert (E : firstn cap (p ++ concat ps) = p /\ skipn cap (p ++ concat ps) = concat ps).
    { destruct Hpp as [-> | Hpp].
      - cbn [concat]. rewrite app_nil_r. split; [apply firstn_all2|apply skipn_all2]; lia.
      - subst cap. rewrite firstn_app, skipn_app, firstn_all, skipn_all, Nat.sub_diag. cbn. now rewrite app_nil_r. }
    destruct E as [-> ->]. split; [reflexivity|]. split; [destruct p; [cbn in Hp; lia|discriminate]|]. split; [reflexivity|]. split; assumption. }
  assert (U : forall cap, 0 < cap -> forall n ps ps' d, length d <= n -> pieces cap d ps -> pieces cap d ps' -> ps' = ps /\ length ps = (length d + cap - 1) / cap).
  { intros cap Hcap. induction n as [|n IH]; intros ps ps' d Hn H1 H2;
      destruct (G cap Hcap ps d H1) as [[-> Hd]|(r & -> & Hd & H1')]; destruct (G cap Hcap ps' d H2) as [[-> Hd']|(r' & -> & Hd' & H2')]; try contradiction;
      try (subst d; split; [reflexivity|]; cbn [length]; symmetry; apply Nat.div_small; lia).
    { destruct d; [contradiction|cbn in Hn; lia]. }
    assert (0 < length d) by (destruct d; [contradiction|cbn; lia]).
    destruct (IH r r' (skipn cap d) ltac:(rewrite skipn_length; lia) H1' H2') as [-> E]. split; [reflexivity|]. cbn [length]. rewrite E, skipn_length.
    destruct (le_lt_dec cap (length d)) as [Hle|Hlt].
    - replace (length d + cap - 1) with (length d - cap + cap - 1 + 1 * cap) by lia. rewrite Nat.div_add by lia. lia.
    - replace (length d - cap + cap - 1) with (cap - 1) by lia. rewrite Nat.div_small by lia.
      replace (length d + cap - 1) with (length d - 1 + 1 * cap) by lia. rewrite Nat.div_add by lia. rewrite Nat.div_small by lia. reflexivity. }
  intros cap d ps Hcap H. split; [apply (U cap Hcap (length d) ps ps d (le_n _) H H)|]. intros ps' H'. apply (U cap Hcap (length d) ps ps' d (le_n _) H H').
Qed.

(** What this costs: 22 bytes for each record. *)
Theorem C64_cost : forall C key iv n ps, crypto_ok C ->
  length (wire (flushed_records C key iv n ps)) = length (concat ps) + 22 * length ps.
Proof.
  intros C key iv n ps HC. revert n. induction ps as [|p ps IH]; intros n; [reflexivity|]. cbn [flushed_records]. cbv zeta.
  set (r := rfc_record C key iv n ty_data p 0). assert (Hr : length r = 22 + length p) by (unfold r; rewrite rfc_record_length by exact HC; lia).
  change (wire (TxWrite r (length r) :: TxFlush :: flushed_records C key iv (n + 1) ps)) with (firstn (length r) r ++ wire (flushed_records C key iv (n + 1) ps)).
  rewrite firstn_all, app_length, IH, Hr. cbn [concat length]. rewrite app_length. lia.
Qed.

(** ** Concrete cases *)

Definition one_way : list io_call := [WriteAll (repeat x41 100); WriteAll []; WriteAll (repeat x42 100); Flush; WriteAll [x43]; Flush].
Definition other_way : list io_call := [WriteAll (repeat x41 100 ++ repeat x42 70); WriteAll (repeat x42 30); Flush; WriteAll [x43]; WriteAll []; Flush].

(** C64: 200 bytes and one more over the toy connection with room for 167 bytes in a record; the same over a transport that fails the
    second record. *)
Example C64_case : joined one_way = joined other_way /\ one_way <> other_way /\
  joined one_way = write_and_flush [repeat x41 100 ++ repeat x42 100; [x43]] /\
  established toy 300 conn_300 /\ transport_succeeds conn_300 /\ established toy 300 conn_fail.
Proof.
  split; [reflexivity|]. split; [discriminate|]. split; [reflexivity|]. split; [exact conn_300_established|]. split; [split; constructor|exact conn_fail_established].
Qed.

Lemma pieces_200 : pieces (300 - 133) (repeat x41 100 ++ repeat x42 100) [repeat x41 100 ++ repeat x42 67; repeat x42 33].
Proof.
  split; [reflexivity|]. split; [repeat constructor|]. intros ps1 p E.
  change [repeat x41 100 ++ repeat x42 67; repeat x42 33] with ([repeat x41 100 ++ repeat x42 67] ++ [repeat x42 33]) in E.
  apply app_inj_tail in E as [<- _]. repeat constructor.
Qed.

Print Assumptions C64_write_all.
Print Assumptions C64_programs.
Print Assumptions C64_records.
Print Assumptions C64_pieces.
Print Assumptions C64_cost.
