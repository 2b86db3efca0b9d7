(** * C05, continued: operations on the outgoing buffer that write nothing *)
From Coq Require Import List NArith Arith Bool Lia.
From Coq.Strings Require Import Byte.
From Verif Require Import Base Buffer SpecBuffer BaseProofs.
Import ListNotations.

(** [truncate] changes no byte of the slice.  It sets the length of the window, which may also
    grow, to [n]; if there is no room for [n] bytes nothing happens. *)
Theorem C05_truncate : forall n c, in_bounds c ->
  exists c', cb_truncate n c = (Ok tt, c') /\ in_bounds c' /\ cb_buf c' = cb_buf c /\ before c' = before c /\
    (n <= length (window c ++ after c) ->
       window c' = firstn n (window c ++ after c) /\ after c' = skipn n (window c ++ after c) /\ length (window c') = n) /\
    (length (window c ++ after c) < n -> c' = c).
Proof.
  intros n c Hb. unfold in_bounds in Hb.
  assert (E : window c ++ after c = skipn (cb_off c) (cb_buf c)).
  { unfold window, after. rewrite Nat.add_comm, <- skipn_skipn. apply firstn_skipn. }
  assert (El : length (window c ++ after c) = length (cb_buf c) - cb_off c) by now rewrite E, skipn_length.
  rewrite E in *. unfold cb_truncate, cb_capacity. rewrite usize_sub_ok by lia.
  destruct (Nat.leb_spec n (length (cb_buf c) - cb_off c)) as [H|H]; (eexists; split; [reflexivity|]).
  - unfold in_bounds, before, window, after. cbn [cb_buf cb_off cb_len].
    split; [lia|]. split; [reflexivity|]. split; [reflexivity|]. split.
    + intros Hn. split; [reflexivity|]. split; [now rewrite Nat.add_comm, <- skipn_skipn|]. rewrite firstn_length, skipn_length. lia.
    + intros Hn. lia.
  - split; [exact Hb|]. split; [reflexivity|]. split; [reflexivity|]. split; [lia|reflexivity].
Qed.

(** [forward] on a buffer that starts at the beginning of the slice closes the window behind what
    was written, [rewind] opens it again to all that was written since the beginning; neither
    changes a byte. *)
Theorem C05_views : forall c, in_bounds c ->
  (cb_off c = 0 -> exists c', cb_forward c = (Ok tt, c') /\ in_bounds c' /\ cb_buf c' = cb_buf c /\
     before c' = window c /\ window c' = [] /\ after c' = after c) /\
  (exists c', cb_rewind c = (Ok tt, c') /\ in_bounds c' /\ cb_buf c' = cb_buf c /\
     before c' = [] /\ window c' = before c ++ window c /\ after c' = after c).
Proof.
  intros [b off len] Hb. unfold in_bounds in *. cbn [cb_buf cb_off cb_len] in *. split.
  - intros ->. unfold cb_forward, cb_offset. cbn [cb_buf cb_off cb_len]. rewrite usize_sub_ok by lia. replace (len + 0 - len) with 0 by lia.
    eexists. split; [reflexivity|]. unfold before, window, after. cbn [cb_buf cb_off cb_len].
    split; [lia|]. split; [reflexivity|]. split; [reflexivity|]. split; [reflexivity|]. now rewrite Nat.add_0_r.
  - unfold cb_rewind, cb_offset. cbn [cb_buf cb_off cb_len]. rewrite usize_sub_ok by lia. rewrite Nat.sub_0_r.
    eexists. split; [reflexivity|]. unfold before, window, after. cbn [cb_buf cb_off cb_len].
    split; [lia|]. split; [reflexivity|]. split; [reflexivity|]. split.
    + cbn [skipn]. rewrite Nat.add_comm. rewrite <- (firstn_skipn off b) at 1.
      rewrite firstn_app, firstn_length, firstn_firstn, Nat.min_r by lia. f_equal. f_equal. lia.
    + f_equal. lia.
Qed.

Example views_meet : let c := mk_cbuf [x01; x02; x03; x04; x05] 0 2 in
  in_bounds c /\ window c = [x01; x02] /\
  (exists c', cb_truncate 4 c = (Ok tt, c') /\ window c' = [x01; x02; x03; x04]) /\ cb_truncate 6 c = (Ok tt, c) /\
  exists c', cb_forward c = (Ok tt, c') /\ before c' = [x01; x02] /\ cb_rewind c' = (Ok tt, c).
Proof. cbv zeta. repeat split; try (cbv; lia); eexists; repeat split. Qed.

Print Assumptions C05_truncate.
Print Assumptions C05_views.
