(** * Model of the provided methods of [embedded_io] on an open connection

    [TlsConnection] implements [embedded_io::Read] and [embedded_io::Write] (blocking.rs:264-322) by giving [read],
    [write] and [flush]; [write_all] and [read_exact] (used in examples/blocking/src/main.rs:66,
    tests/early_data_test.rs:81-85) are the methods that these traits provide.  Their source is not in /repo; modelled
    here is what the documentation of embedded-io 0.7 says of them and its code does: the loops below.  The asynchronous
    traits have the same loops. *)
From Coq Require Import List NArith Arith Bool.
From Coq.Strings Require Import Byte.
From Verif Require Import Base Crypto Transport Connection Api.
Import ListNotations.

(** [embedded_io::ReadExactError]; [write_all] and [flush] report the plain error, here also as [Other]. *)
Inductive call_error := UnexpectedEof | Other (e : tls_error).

(** [Write::write_all] (embedded-io, called at examples/blocking/src/main.rs:66):
    [while !buf.is_empty() { match self.write(buf) { Ok(0) => panic!(..), Ok(n) => buf = &buf[n..], Err(e) => return Err(e) } }]. *)
Fixpoint write_all (C : crypto) (fuel : nat) (buf : bytes) : M conn call_error unit :=
  match buf with
  | [] => ret tt
  | _ :: _ =>
      match fuel with
      | O => lift Diverge
      | S fuel' =>
          n <- map_err Other (cn_write C buf) ;;
          if n =? 0 then panic PAssert
          else buf' <- lift (slice_from buf n) ;; write_all C fuel' buf'
      end
  end.

(** [Read::read_exact] (embedded-io, called at tests/early_data_test.rs:85), the buffer already filled being [done]:
    [while !buf.is_empty() { match self.read(buf) { Ok(0) => break, Ok(n) => buf = &mut buf[n..], Err(e) => return Err(Other(e)) } }
     if buf.is_empty() { Ok(()) } else { Err(UnexpectedEof) }].  Returns the filled buffer. *)
Fixpoint read_exact (C : crypto) (fuel : nat) (done buf : bytes) : M conn call_error bytes :=
  match buf with
  | [] => ret done
  | _ :: _ =>
      match fuel with
      | O => lift Diverge
      | S fuel' =>
          nb <- map_err Other (on_rh (rh_read C buf)) ;;
          if fst nb =? 0 then fail UnexpectedEof
          else buf' <- lift (slice_from (snd nb) (fst nb)) ;;
               read_exact C fuel' (done ++ firstn (fst nb) (snd nb)) buf'
      end
  end.

(** The calls of a program that only uses these. *)
Inductive io_call := WriteAll (b : bytes) | Flush | ReadExact (dst : bytes).

Definition io_step (C : crypto) (k : io_call) : M conn call_error bytes :=
  match k with
  | WriteAll b => write_all C (length b) b ;;; ret []
  | Flush => map_err Other (cn_flush C) ;;; ret []
  | ReadExact dst => read_exact C (length dst) [] dst
  end.

(** A program: it ends with the first call that fails (examples/blocking/src/main.rs: [expect]). *)
Fixpoint program (C : crypto) (l : list io_call) (c : conn) : list (outcome call_error bytes) * conn :=
  match l with
  | [] => ([], c)
  | k :: l' =>
      let '(o, c1) := io_step C k c in
      match o with
      | Ok _ => let '(os, c2) := program C l' c1 in (o :: os, c2)
      | _ => ([o], c1)
      end
  end.
