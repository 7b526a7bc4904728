(** Geometry in three dimensions, for the properties of geom_utils.py. *)
From Coq Require Import Reals.
From Verif Require Import PyReal.
Local Open Scope R_scope.

Definition inner (a b : vec) : R := vx a * vx b + vy a * vy b + vz a * vz b.
Definition len (a : vec) : R := sqrt (inner a a).
Definition plus (a b : vec) : vec := Vec (vx a + vx b) (vy a + vy b) (vz a + vz b).
Definition minus (a b : vec) : vec := Vec (vx a - vx b) (vy a - vy b) (vz a - vz b).
Definition times (k : R) (a : vec) : vec := Vec (k * vx a) (k * vy a) (k * vz a).
Definition origin : vec := Vec 0 0 0.
Definition dist (a b : vec) : R := len (minus a b).

(** The plane n.p = d and the sphere with centre c and radius r. *)
Definition on_plane (n : vec) (d : R) (p : vec) : Prop := inner n p = d.
Definition on_sphere (c : vec) (r : R) (p : vec) : Prop := dist p c = r.
(** Same direction; same or opposite direction. *)
Definition same_direction (a b : vec) : Prop := exists k, 0 < k /\ a = times k b.
Definition parallel (a b : vec) : Prop := exists k, k <> 0 /\ a = times k b.
(** The lists have the same length and corresponding points the same distances. *)
Definition all_same_distances (ps qs : list vec) : Prop :=
  List.length ps = List.length qs /\
  forall i j p p' q q', nth_error ps i = Some p -> nth_error ps j = Some p' ->
    nth_error qs i = Some q -> nth_error qs j = Some q' -> dist q q' = dist p p'.
(** [m], [c] minimise the distance of the line y = m x + c to two points (x, y), and
    among the minimisers have the least m^2 + c^2: numpy's contract for lstsq. *)
Definition misfit (x1 y1 x2 y2 m c : R) : R := (m * x1 + c - y1) ^ 2 + (m * x2 + c - y2) ^ 2.
Definition best_fit (x1 y1 x2 y2 m c : R) : Prop :=
  (forall m' c', misfit x1 y1 x2 y2 m c <= misfit x1 y1 x2 y2 m' c') /\
  (forall m' c', misfit x1 y1 x2 y2 m' c' = misfit x1 y1 x2 y2 m c -> m ^ 2 + c ^ 2 <= m' ^ 2 + c' ^ 2).
