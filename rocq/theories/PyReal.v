(** Python runtime, part 6: numpy arithmetic on numbers and on arrays of three numbers,
    read in the reals.  Definitions only.  Rounding is left out; what is kept is when an
    operation raises and when numpy's result is not a finite number ([NonFinite]: an
    infinity or NaN, with a warning, whatever the caller then makes of it). *)
From Coq Require Export Reals.
From Verif Require Export PyBase.
Local Open Scope R_scope.

Inductive out (A : Type) : Type := Val (a : A) | Raise (e : exn) | NonFinite.
Arguments Val {A} a. Arguments Raise {A} e. Arguments NonFinite {A}.
Definition obind {A B} (r : out A) (k : A -> out B) : out B :=
  match r with Val a => k a | Raise e => Raise e | NonFinite => NonFinite end.
Notation "'get' x <- r ; k" := (obind r (fun x => k)) (at level 200, x name, r at level 100, k at level 200).

(** Division of numpy numbers and of Python numbers. *)
Definition npdiv (x y : R) : out R := if Req_EM_T y 0 then NonFinite else Val (x / y).
Definition pydiv (x y : R) : out R := if Req_EM_T y 0 then Raise ZeroDivisionError else Val (x / y).
Definition npsqrt (x : R) : out R := if Rlt_dec x 0 then NonFinite else Val (sqrt x).
Definition nparccos (x : R) : out R :=
  if Rlt_dec x (-1) then NonFinite else if Rlt_dec 1 x then NonFinite else Val (acos x).

Definition Reqb (x y : R) : bool := if Req_EM_T x y then true else false.
Definition Rltb (x y : R) : bool := if Rlt_dec x y then true else false.

(** Arrays of three numbers. *)
Record vec : Type := Vec { vx : R; vy : R; vz : R }.
Definition vadd (a b : vec) : vec := Vec (vx a + vx b) (vy a + vy b) (vz a + vz b).
Definition vsub (a b : vec) : vec := Vec (vx a - vx b) (vy a - vy b) (vz a - vz b).
Definition vscale (k : R) (a : vec) : vec := Vec (k * vx a) (k * vy a) (k * vz a).
Definition np_dot (a b : vec) : R := vx a * vx b + vy a * vy b + vz a * vz b.
Definition np_norm (a : vec) : R := sqrt (np_dot a a).
Definition np_cross (a b : vec) : vec :=
  Vec (vy a * vz b - vz a * vy b) (vz a * vx b - vx a * vz b) (vx a * vy b - vy a * vx b).
(** Array divided by a numpy number. *)
Definition vdiv (a : vec) (k : R) : out vec :=
  if Req_EM_T k 0 then NonFinite else Val (Vec (vx a / k) (vy a / k) (vz a / k)).
(** [numpy.array_equal] *)
Definition veqb (a b : vec) : bool := Reqb (vx a) (vx b) && Reqb (vy a) (vy b) && Reqb (vz a) (vz b).
(** Matrix (three rows) times array. *)
Definition mat_vec (r1 r2 r3 : vec) (a : vec) : vec := Vec (np_dot r1 a) (np_dot r2 a) (np_dot r3 a).
(** [numpy.linalg.solve] for two equations; the exception LinAlgError is a ValueError. *)
Definition np_solve2 (a11 a12 a21 a22 b1 b2 : R) : out (R * R) :=
  let det := a11 * a22 - a12 * a21 in
  if Req_EM_T det 0 then Raise ValueError
  else Val ((b1 * a22 - a12 * b2) / det, (a11 * b2 - b1 * a21) / det).
