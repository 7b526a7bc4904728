(** Specification for trigonometry in binary64. *)
From Coq Require Import Reals Floats.SpecFloat.
From Flocq Require Import Core.
From Verif Require Import PyBase PyFloat FloatR M_geomf SpecGeomf.
Local Open Scope R_scope.

(** What is assumed of numpy's cos and sin of an angle: an error of at most two units. *)
Definition two_units (x : float) (X : R) : Prop :=
  ordinary x /\ Rabs (FR x - X) <= 2 * bpow radix2 (-53) * Rabs X /\ (FR x = 0 \/ bpow radix2 (-300) <= Rabs (FR x)).
Definition trig_accurate (cosf sinf : float -> float) (t : float) : Prop := two_units (cosf t) (cos (FR t)) /\ two_units (sinf t) (sin (FR t)).
(** [x] is [X] up to [k] units of the terms it is the sum of, and up to [k] units of itself. *)
Definition off (k : Z) (x : float) (X scale : R) : Prop := ordinary x /\ Rabs (FR x - X) <= IZR k * bpow radix2 (-53) * scale.
Definition close (k : Z) (x : float) (X : R) : Prop := off k x X (Rabs X).
(** half of np.pi *)
Definition half_pi_f : float := fdiv pi_f two_f.
(** One vector of whole numbers is a positive multiple of the other. *)
Definition same_direction (a b c x y z : Z) : Prop := exists m k, (0 < m /\ 0 < k /\ m * a = k * x /\ m * b = k * y /\ m * c = k * z)%Z.
(** A number far from overflow and underflow, or zero. *)
Definition sized (x : float) : Prop := ordinary x /\ (FR x = 0 \/ bpow radix2 (-400) <= Rabs (FR x) <= bpow radix2 400).
