(** Specification for geometry in binary64. *)
From Coq Require Import Reals Floats.SpecFloat.
From Flocq Require Import Core.
From Verif Require Import PyBase PyFloat FloatR M_geomf.
Local Open Scope R_scope.

(** A binary64 number that is neither infinite nor NaN. *)
Definition ordinary (x : float) : Prop := valid x = true /\ is_finite_f x = true.
Definition ordinary_vec (v : fvec) : Prop := ordinary (fx v) /\ ordinary (fy v) /\ ordinary (fz v).
Definition length_f (x : float) : Prop := ordinary x /\ 0 <= FR x.
(** A positive length far from overflow and underflow. *)
Definition moderate (x : float) : Prop := ordinary x /\ bpow radix2 (-300) <= FR x <= bpow radix2 300.
(** [x] is [X] up to [k] units of 2^-53, relatively. *)
Definition within (k : Z) (x X : R) : Prop := Rabs (x - X) <= IZR k * bpow radix2 (-53) * X.
(** The result of a function is near [X]. *)
Definition nearly (k : Z) (o : res float) (X : R) : Prop := exists a, o = Ok a /\ ordinary a /\ within k (FR a) X.
(** Where the second result is a finite number the first is one that is not greater. *)
Definition not_more (o o' : res float) : Prop := forall b, o' = Ok b -> is_finite_f b = true -> exists a, o = Ok a /\ fle a b = true.
(** The difference of two coordinates is far from overflow and underflow, or zero. *)
Definition apart (a b : float) : Prop := FR a - FR b = 0 \/ bpow radix2 (-400) <= Rabs (FR a - FR b) <= bpow radix2 400.

(** The scalar product of the real values, and that of their magnitudes. *)
Definition inner_f (v w : fvec) : R := FR (fx v) * FR (fx w) + FR (fy v) * FR (fy w) + FR (fz v) * FR (fz w).
Definition inner_abs (v w : fvec) : R := Rabs (FR (fx v) * FR (fx w)) + Rabs (FR (fy v) * FR (fy w)) + Rabs (FR (fz v) * FR (fz w)).
Definition dist2 (p q : fvec) : R := (FR (fx p) - FR (fx q)) ^ 2 + (FR (fy p) - FR (fy q)) ^ 2 + (FR (fz p) - FR (fz q)) ^ 2.
(** A product far from overflow and underflow, or zero. *)
Definition tame (x y : float) : Prop := FR x * FR y = 0 \/ bpow radix2 (-1000) <= Rabs (FR x * FR y) <= bpow radix2 1000.
Definition tame_vec (v w : fvec) : Prop := tame (fx v) (fx w) /\ tame (fy v) (fy w) /\ tame (fz v) (fz w).

(** What is assumed of numpy.dot, whatever the order of the sum: an error of at most four
    units, exact results for integers, and no regard to signs in the dot product of a vector with itself. *)
Definition dot_accurate (dot : fvec -> fvec -> float) : Prop := forall v w, ordinary_vec v -> ordinary_vec w -> tame_vec v w ->
  ordinary (dot v w) /\ Rabs (FR (dot v w) - inner_f v w) <= 4 * bpow radix2 (-53) * inner_abs v w.
Definition integral (x : float) (z : Z) : Prop := ordinary x /\ FR x = IZR z.
Definition integral_vec (v : fvec) (x y z : Z) : Prop := integral (fx v) x /\ integral (fy v) y /\ integral (fz v) z.
Definition dot_integers (dot : fvec -> fvec -> float) : Prop := forall v w a b c x y z, integral_vec v a b c -> integral_vec w x y z ->
  (Z.abs (a * x) + Z.abs (b * y) + Z.abs (c * z) < 2 ^ 53)%Z -> integral (dot v w) (a * x + b * y + c * z).
Definition up_to_sign (x y : float) : Prop := y = x \/ y = fopp x.
Definition dot_signs (dot : fvec -> fvec -> float) : Prop := forall v w,
  up_to_sign (fx v) (fx w) -> up_to_sign (fy v) (fy w) -> up_to_sign (fz v) (fz w) -> dot w w = dot v v.
(** The same for powers. *)
Definition power_accurate (power : float -> Z -> float) : Prop := forall x k, (k = 2 \/ k = 3)%Z -> moderate x ->
  ordinary (power x k) /\ within 3 (FR (power x k)) (powerRZ (FR x) k).
Definition power_integers (power : float -> Z -> float) : Prop := forall x z, integral x z -> (z * z < 2 ^ 53)%Z -> integral (power x 2%Z) (z * z).
(** The side of a value: 1 below zero, -1 above. *)
Definition side (x : R) (s : Z) : Prop := (x < 0 /\ s = 1%Z) \/ (x = 0 /\ s = 0%Z) \/ (0 < x /\ s = (-1)%Z).

(** The plain loop, and powers by multiplication. *)
Definition loop_dot (v w : fvec) : float := fadd (fadd (fmul (fx v) (fx w)) (fmul (fy v) (fy w))) (fmul (fz v) (fz w)).
Definition mul_power (x : float) (k : Z) : float := if (k =? 3)%Z then fmul (fmul x x) x else fmul x x.
(** Vectors of integers and powers of two. *)
Definition fv (x y z : Z) : fvec := FV (f_of_Z x) (f_of_Z y) (f_of_Z z).
Definition pow2_f (k : Z) : float := S754_finite false (2 ^ 52) (k - 52).
Definition no_normal (n : fvec) : Prop := FR (fx n) = 0 /\ FR (fy n) = 0 /\ FR (fz n) = 0.
(** The scalar product does not depend on the order; it and the powers are binary64 numbers;
    squares are rounded products. *)
Definition valid_vec (v : fvec) : Prop := valid (fx v) = true /\ valid (fy v) = true /\ valid (fz v) = true.
Definition commutes (dot : fvec -> fvec -> float) : Prop := forall v w, dot v w = dot w v.
Definition gives_floats (dot : fvec -> fvec -> float) (power : float -> Z -> float) : Prop :=
  (forall v w, valid_vec v -> valid_vec w -> valid (dot v w) = true) /\ (forall x k, valid x = true -> valid (power x k) = true).
Definition squares (power : float -> Z -> float) : Prop := forall x, power x 2%Z = fmul x x.
