(** Python runtime, part 4: computations that read and write files and may raise.  The
    file system after an exception is the one at the point where it was raised. *)
From Verif Require Import PyBase PyFs M_util.

Definition io (A : Type) : Type := fs -> fs * res A.
Definition io_ret {A} (a : A) : io A := fun f => (f, Ok a).
Definition io_raise {A} (e : exn) : io A := fun f => (f, Err e).
Definition io_bind {A B} (m : io A) (k : A -> io B) : io B :=
  fun f => match m f with
           | (f', Ok a) => k a f'
           | (f', Err e) => (f', Err e)
           end.
(** A computation without file access. *)
Definition io_lift {A} (r : res A) : io A := fun f => (f, r).
(** A computation that only reads. *)
Definition io_read {A} (r : fs -> res A) : io A := fun f => (f, r f).
(** One that returns the new file system; if it raises it has written nothing. *)
Definition io_write (w : fs -> res fs) : io unit :=
  fun f => match w f with Ok f' => (f', Ok tt) | Err e => (f, Err e) end.
Notation "'run' x <- r ; k" := (io_bind r (fun x => k))
  (at level 200, x name, r at level 100, k at level 200, right associativity).
