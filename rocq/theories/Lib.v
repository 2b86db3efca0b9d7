(** * Model of src/lib.rs: what [embedded_io] callers see of an error *)
From Coq Require Import NArith.
From Verif Require Import Base.

(** [embedded_io::ErrorKind::Other]; the model numbers the kinds, [Other] is 0. *)
Definition kind_other : io_kind := 0%N.

(** lib.rs:129-138 [impl embedded_io::Error for TlsError], [kind]. *)
Definition err_kind (e : tls_error) : io_kind :=
  match e with
  | Io k => k
  | _ => kind_other
  end.
