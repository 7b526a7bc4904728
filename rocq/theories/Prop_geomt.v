(** * C243-C246, C227: rotations, coordinates, angles and pairs of planes in double precision

    [dot], [power], [cosf], [sinf], [arctanf], [arccosf] and [solve] are numpy's functions: the theorems hold for
    all that meet the stated conditions (SpecGeomf.v, SpecGeomt.v). *)
From Coq Require Import Reals Lra Lia Floats.SpecFloat.
From Flocq Require Import Core.
From Verif Require Import PyBase PyFloat FloatR M_geomf M_geomt SpecGeomf SpecGeomt P_geomf P_geomf4 P_geomf8 P_geomt P_geomt2 P_geomt3 P_geomt4 P_geomt5.
Import ListNotations.
Local Open Scope R_scope.

(** C243: a rotated point is at the rotated place relative to the centre, up to eight units of the terms of
    the sum. *)
Theorem C243_about_x : forall dot cosf sinf ps o theta i p, dot_accurate dot -> trig_accurate cosf sinf theta -> nth_error ps i = Some p -> ordinary_vec p -> ordinary_vec o ->
  apart (fx p) (fx o) -> apart (fy p) (fy o) -> apart (fz p) (fz o) ->
  let X := FR (fx p) - FR (fx o) in let Y := FR (fy p) - FR (fy o) in let Z := FR (fz p) - FR (fz o) in let C := cos (FR theta) in let S := sin (FR theta) in
  exists q, nth_error (rotate_x_f dot cosf sinf ps o theta) i = Some q /\ close 8 (fx q) X /\
    off 8 (fy q) (C * Y - S * Z) (Rabs (C * Y) + Rabs (S * Z)) /\ off 8 (fz q) (S * Y + C * Z) (Rabs (S * Y) + Rabs (C * Z)).
Proof. exact rotate_x_real. Qed.
Print Assumptions C243_about_x.
Theorem C243_about_y : forall dot cosf sinf ps o theta i p, dot_accurate dot -> trig_accurate cosf sinf theta -> nth_error ps i = Some p -> ordinary_vec p -> ordinary_vec o ->
  apart (fx p) (fx o) -> apart (fy p) (fy o) -> apart (fz p) (fz o) ->
  let X := FR (fx p) - FR (fx o) in let Y := FR (fy p) - FR (fy o) in let Z := FR (fz p) - FR (fz o) in let C := cos (FR theta) in let S := sin (FR theta) in
  exists q, nth_error (rotate_y_f dot cosf sinf ps o theta) i = Some q /\ close 8 (fy q) Y /\
    off 8 (fx q) (C * X + S * Z) (Rabs (C * X) + Rabs (S * Z)) /\ off 8 (fz q) (C * Z - S * X) (Rabs (C * Z) + Rabs (S * X)).
Proof. exact rotate_y_real. Qed.
Print Assumptions C243_about_y.
Theorem C243_about_z : forall dot cosf sinf ps o theta i p, dot_accurate dot -> trig_accurate cosf sinf theta -> nth_error ps i = Some p -> ordinary_vec p -> ordinary_vec o ->
  apart (fx p) (fx o) -> apart (fy p) (fy o) -> apart (fz p) (fz o) ->
  let X := FR (fx p) - FR (fx o) in let Y := FR (fy p) - FR (fy o) in let Z := FR (fz p) - FR (fz o) in let C := cos (FR theta) in let S := sin (FR theta) in
  exists q, nth_error (rotate_z_f dot cosf sinf ps o theta) i = Some q /\ close 8 (fz q) Z /\
    off 8 (fx q) (C * X - S * Y) (Rabs (C * X) + Rabs (S * Y)) /\ off 8 (fy q) (S * X + C * Y) (Rabs (S * X) + Rabs (C * Y)).
Proof. exact rotate_z_real. Qed.
Print Assumptions C243_about_z.
(** For whole coordinates the coordinate along the axis is exact. *)
Theorem C243_whole_x : forall dot cosf sinf ps o theta i p x y z a b c, dot_accurate dot -> dot_integers dot -> trig_accurate cosf sinf theta -> nth_error ps i = Some p ->
  integral_vec p x y z -> integral_vec o a b c -> (Z.abs (x - a) < 2 ^ 53)%Z -> (Z.abs (y - b) < 2 ^ 53)%Z -> (Z.abs (z - c) < 2 ^ 53)%Z ->
  let C := cos (FR theta) in let S := sin (FR theta) in let Y := IZR (y - b) in let Z := IZR (z - c) in
  exists q, nth_error (rotate_x_f dot cosf sinf ps o theta) i = Some q /\ integral (fx q) (x - a) /\
    off 7 (fy q) (C * Y - S * Z) (Rabs (C * Y) + Rabs (S * Z)) /\ off 7 (fz q) (S * Y + C * Z) (Rabs (S * Y) + Rabs (C * Z)).
Proof. exact rotate_x_near. Qed.
Print Assumptions C243_whole_x.
Theorem C243_whole_y : forall dot cosf sinf ps o theta i p x y z a b c, dot_accurate dot -> dot_integers dot -> trig_accurate cosf sinf theta -> nth_error ps i = Some p ->
  integral_vec p x y z -> integral_vec o a b c -> (Z.abs (x - a) < 2 ^ 53)%Z -> (Z.abs (y - b) < 2 ^ 53)%Z -> (Z.abs (z - c) < 2 ^ 53)%Z ->
  let C := cos (FR theta) in let S := sin (FR theta) in let X := IZR (x - a) in let Z := IZR (z - c) in
  exists q, nth_error (rotate_y_f dot cosf sinf ps o theta) i = Some q /\ integral (fy q) (y - b) /\
    off 7 (fx q) (C * X + S * Z) (Rabs (C * X) + Rabs (S * Z)) /\ off 7 (fz q) (C * Z - S * X) (Rabs (C * Z) + Rabs (S * X)).
Proof. exact rotate_y_near. Qed.
Print Assumptions C243_whole_y.
Theorem C243_whole_z : forall dot cosf sinf ps o theta i p x y z a b c, dot_accurate dot -> dot_integers dot -> trig_accurate cosf sinf theta -> nth_error ps i = Some p ->
  integral_vec p x y z -> integral_vec o a b c -> (Z.abs (x - a) < 2 ^ 53)%Z -> (Z.abs (y - b) < 2 ^ 53)%Z -> (Z.abs (z - c) < 2 ^ 53)%Z ->
  let C := cos (FR theta) in let S := sin (FR theta) in let X := IZR (x - a) in let Y := IZR (y - b) in
  exists q, nth_error (rotate_z_f dot cosf sinf ps o theta) i = Some q /\ integral (fz q) (z - c) /\
    off 7 (fx q) (C * X - S * Y) (Rabs (C * X) + Rabs (S * Y)) /\ off 7 (fy q) (S * X + C * Y) (Rabs (S * X) + Rabs (C * Y)).
Proof. exact rotate_z_near. Qed.
Print Assumptions C243_whole_z.
Theorem C243_lengths : forall dot cosf sinf ps o theta, length (rotate_x_f dot cosf sinf ps o theta) = length ps /\
  length (rotate_y_f dot cosf sinf ps o theta) = length ps /\ length (rotate_z_f dot cosf sinf ps o theta) = length ps.
Proof. exact rotate_lengths. Qed.
Print Assumptions C243_lengths.
(** The centre of the rotation should stay where it is; it is moved to the origin. *)
Theorem C243_centre_refuted : forall dot cosf sinf o theta, dot_accurate dot -> trig_accurate cosf sinf theta -> ordinary_vec o ->
  (exists q, rotate_x_f dot cosf sinf [o] o theta = [q] /\ no_normal q) /\ (exists q, rotate_y_f dot cosf sinf [o] o theta = [q] /\ no_normal q) /\
  (exists q, rotate_z_f dot cosf sinf [o] o theta = [q] /\ no_normal q).
Proof. exact centre_moved. Qed.
Print Assumptions C243_centre_refuted.
(** A quarter turn, by half of np.pi, does not bring the x axis onto the y axis. *)
Theorem C243_quarter_refuted : forall dot cosf sinf, dot_accurate dot -> dot_integers dot -> trig_accurate cosf sinf half_pi_f ->
  exists q, rotate_z_f dot cosf sinf [fv 1 0 0] (fv 0 0 0) half_pi_f = [q] /\ 0 < FR (fx q).
Proof. exact quarter_off. Qed.
Print Assumptions C243_quarter_refuted.
Example C243_ex : dot_accurate loop_dot /\ dot_integers loop_dot /\ trig_accurate (fun _ => f_of_Z 1) (fun _ => fzero) fzero /\ (exists cosf sinf, trig_accurate cosf sinf half_pi_f) /\ apart (f_of_Z 3) (f_of_Z 1) /\
  rotate_z_f loop_dot (fun _ => fzero) (fun _ => f_of_Z 1) [fv 3 5 7] (fv 1 2 4) half_pi_f = [fv (-3) 2 3].
Proof. split; [exact loop_accurate|]. split; [exact loop_integers|]. split; [exact trig_zero|]. split; [exact half_pi_trig|]. split; [apply apart_ints; lia|]. vm_compute. reflexivity. Qed.

(** C244: from polar coordinates, for every radius far from overflow and underflow. *)
Theorem C244_cylindrical : forall cosf sinf rho phi z, moderate rho -> trig_accurate cosf sinf phi ->
  exists x y, cylindrical_to_cartesian_f cosf sinf rho phi z = Ok (x, y, z) /\ close 4 x (FR rho * cos (FR phi)) /\ close 4 y (FR rho * sin (FR phi)).
Proof. exact cylindrical_near. Qed.
Print Assumptions C244_cylindrical.
Theorem C244_spherical : forall cosf sinf r theta phi, moderate r -> trig_accurate cosf sinf theta -> trig_accurate cosf sinf phi ->
  (exists x y z, spherical_to_cartesian_f cosf sinf r theta phi = Ok (x, y, z) /\ close 8 x (FR r * sin (FR theta) * cos (FR phi)) /\
    close 8 y (FR r * sin (FR theta) * sin (FR phi)) /\ close 4 z (FR r * cos (FR theta))) /\
  (exists rho z, spherical_to_cylindrical_f cosf sinf r theta phi = Ok (rho, phi, z) /\ close 4 rho (FR r * sin (FR theta)) /\ close 4 z (FR r * cos (FR theta))).
Proof. exact spherical_near. Qed.
Print Assumptions C244_spherical.
Theorem C244_refused : forall power cosf sinf arccosf r a b, ordinary r -> FR r < 0 -> cylindrical_to_cartesian_f cosf sinf r a b = Err ValueError /\
  cylindrical_to_spherical_f power arccosf r a b = Err ValueError /\ spherical_to_cartesian_f cosf sinf r a b = Err ValueError /\ spherical_to_cylindrical_f cosf sinf r a b = Err ValueError.
Proof. exact coordinates_refused. Qed.
Print Assumptions C244_refused.
(** To polar coordinates: the radius and what arctan and arccos are applied to are near the true values,
    arccos is applied to numbers between -1 and 1, and pi is added on the side of negative x. *)
Theorem C244_to_cylindrical : forall power arctanf x y z, squares power -> sized x -> sized y -> FR x <> 0 ->
  exists rho w phi, cartesian_to_cylindrical_f power arctanf x y z = Ok (rho, phi, z) /\ ordinary rho /\ within 3 (FR rho) (sqrt (FR x ^ 2 + FR y ^ 2)) /\
    close 1 w (FR y / FR x) /\ (0 < FR x -> phi = arctanf w) /\ (FR x < 0 -> phi = fadd (arctanf w) pi_f).
Proof. exact cylindrical_real. Qed.
Print Assumptions C244_to_cylindrical.
Theorem C244_to_spherical : forall power arctanf arccosf x y z, squares power -> sized x -> sized y -> sized z -> FR x <> 0 ->
  exists r t w phi, cartesian_to_spherical_f power arctanf arccosf x y z = Ok (r, arccosf t, phi) /\ ordinary r /\ within 4 (FR r) (sqrt (FR x ^ 2 + FR y ^ 2 + FR z ^ 2)) /\
    close 6 t (FR z / sqrt (FR x ^ 2 + FR y ^ 2 + FR z ^ 2)) /\ -1 <= FR t <= 1 /\
    close 1 w (FR y / FR x) /\ (0 < FR x -> phi = arctanf w) /\ (FR x < 0 -> phi = fadd (arctanf w) pi_f).
Proof. exact spherical_real. Qed.
Print Assumptions C244_to_spherical.
Theorem C244_between : forall power arccosf rho phi z, squares power -> sized rho -> sized z -> 0 <= FR rho -> FR rho <> 0 \/ FR z <> 0 ->
  exists r t, cylindrical_to_spherical_f power arccosf rho phi z = Ok (r, arccosf t, phi) /\ ordinary r /\ within 3 (FR r) (sqrt (FR rho ^ 2 + FR z ^ 2)) /\
    close 6 t (FR z / sqrt (FR rho ^ 2 + FR z ^ 2)) /\ -1 <= FR t <= 1.
Proof. exact polar_real. Qed.
Print Assumptions C244_between.
(** For whole numbers: the radius is correctly rounded, and so is what arctan
    and arccos are applied to; pi is added on the side of negative x. *)
Theorem C244_whole_cylindrical : forall power arctanf x y z a b, power_integers power -> integral x a -> integral y b -> a <> 0%Z -> (Z.abs a < 2 ^ 25)%Z -> (Z.abs b < 2 ^ 25)%Z ->
  exists rho w, cartesian_to_cylindrical_f power arctanf x y z = Ok (rho, (if (0 <? a)%Z then arctanf w else fadd (arctanf w) pi_f), z) /\
    ordinary rho /\ FR rho = rnd (sqrt (IZR (a * a + b * b))) /\ ordinary w /\ FR w = rnd (IZR b / IZR a).
Proof. exact cylindrical_int. Qed.
Print Assumptions C244_whole_cylindrical.
Theorem C244_whole_spherical : forall power arctanf arccosf x y z a b c, power_integers power -> integral x a -> integral y b -> integral z c -> a <> 0%Z ->
  (Z.abs a < 2 ^ 25)%Z -> (Z.abs b < 2 ^ 25)%Z -> (Z.abs c < 2 ^ 25)%Z ->
  exists r t w, cartesian_to_spherical_f power arctanf arccosf x y z = Ok (r, arccosf t, (if (0 <? a)%Z then arctanf w else fadd (arctanf w) pi_f)) /\
    ordinary r /\ FR r = rnd (sqrt (IZR (a * a + b * b + c * c))) /\ ordinary t /\ FR t = rnd (IZR c / FR r) /\ -1 <= FR t <= 1 /\ ordinary w /\ FR w = rnd (IZR b / IZR a).
Proof. exact spherical_int. Qed.
Print Assumptions C244_whole_spherical.
Theorem C244_whole_between : forall power arccosf rho phi z a c, power_integers power -> integral rho a -> integral z c -> (0 <= a < 2 ^ 25)%Z -> (Z.abs c < 2 ^ 25)%Z -> ~ (a = 0 /\ c = 0)%Z ->
  exists r t, cylindrical_to_spherical_f power arccosf rho phi z = Ok (r, arccosf t, phi) /\
    ordinary r /\ FR r = rnd (sqrt (IZR (a * a + c * c))) /\ ordinary t /\ FR t = rnd (IZR c / FR r) /\ -1 <= FR t <= 1.
Proof. exact polar_int. Qed.
Print Assumptions C244_whole_between.
(** Points in the plane x = 0 have polar coordinates, but an error is raised. *)
Theorem C244_plane_refuted : forall power arctanf arccosf x y z, ordinary x -> FR x = 0 -> cartesian_to_cylindrical_f power arctanf x y z = Err ZeroDivisionError /\
  cartesian_to_spherical_f power arctanf arccosf x y z = Err ZeroDivisionError.
Proof. exact axis_plane_R. Qed.
Print Assumptions C244_plane_refuted.
(** Points near the origin are given the radius zero, and arccos of an infinite number or NaN. *)
Theorem C244_tiny_refuted : forall power arctanf arccosf x y z, squares power -> ordinary x -> ordinary y -> ordinary z -> FR x <> 0 -> FR z <> 0 ->
  Rabs (FR x) <= bpow radix2 (-540) -> Rabs (FR y) <= bpow radix2 (-540) -> Rabs (FR z) <= bpow radix2 (-540) ->
  (exists rho phi, cartesian_to_cylindrical_f power arctanf x y z = Ok (rho, phi, z) /\ FR rho = 0) /\
  (exists r s phi, cartesian_to_spherical_f power arctanf arccosf x y z = Ok (r, arccosf (S754_infinity s), phi) /\ FR r = 0).
Proof. exact tiny_lost. Qed.
Print Assumptions C244_tiny_refuted.
Theorem C244_origin_refuted : forall power arccosf rho phi z, squares power -> ordinary rho -> ordinary z -> FR rho = 0 -> FR z = 0 ->
  exists r, cylindrical_to_spherical_f power arccosf rho phi z = Ok (r, arccosf S754_nan, phi) /\ FR r = 0.
Proof. exact origin_nan. Qed.
Print Assumptions C244_origin_refuted.
Example C244_ex : squares mul_power /\ sized (f_of_Z 2) /\ sized (f_of_Z 4) /\ power_integers mul_power /\ moderate (f_of_Z 2) /\ trig_accurate (fun _ => f_of_Z 1) (fun _ => fzero) fzero /\
  cylindrical_to_cartesian_f (fun _ => f_of_Z 1) (fun _ => fzero) (f_of_Z 2) fzero (f_of_Z 7) = Ok (f_of_Z 2, fzero, f_of_Z 7) /\
  cartesian_to_cylindrical_f mul_power (fun w => w) (f_of_Z 2) (f_of_Z 4) (f_of_Z 7) = Ok (fsqrt (f_of_Z 20), f_of_Z 2, f_of_Z 7).
Proof.
  split; [exact mul_power_squares|]. split; [apply sized_int; lia|]. split; [apply sized_int; lia|]. split; [exact mul_power_integers|]. split; [exact two_moderate|]. split; [exact trig_zero|]. split; vm_compute; reflexivity.
Qed.

(** C227: normals of whole numbers that are said to be parallel have the same direction, and planes whose
    normals have not are at distance zero. *)
Theorem C227_said_parallel : forall dot n1 n2 a b c x y z, dot_integers dot -> integral_vec n1 a b c -> integral_vec n2 x y z ->
  ~ (a = 0 /\ b = 0 /\ c = 0)%Z -> ~ (x = 0 /\ y = 0 /\ z = 0)%Z -> (a * a + b * b + c * c < 2 ^ 50)%Z -> (x * x + y * y + z * z < 2 ^ 50)%Z ->
  check_parallel_planes_f dot n1 n2 = true -> same_direction a b c x y z.
Proof. exact said_parallel. Qed.
Print Assumptions C227_said_parallel.
Theorem C227_crossing : forall dot n1 d1 n2 d2 a b c x y z, dot_integers dot -> integral_vec n1 a b c -> integral_vec n2 x y z ->
  ~ (a = 0 /\ b = 0 /\ c = 0)%Z -> ~ (x = 0 /\ y = 0 /\ z = 0)%Z -> (a * a + b * b + c * c < 2 ^ 50)%Z -> (x * x + y * y + z * z < 2 ^ 50)%Z -> ~ same_direction a b c x y z ->
  dist_between_planes_f dot n1 d1 n2 d2 = Ok (fzero, n2).
Proof. exact planes_cross. Qed.
Print Assumptions C227_crossing.
Example C227_crossing_ex : check_parallel_planes_f loop_dot (fv 1 1 0) (fv 2 2 0) = true /\ same_direction 1 1 0 2 2 0 /\
  ~ same_direction 1000 1 0 1001 1 0 /\ dist_between_planes_f loop_dot (fv 1000 1 0) fzero (fv 1001 1 0) (f_of_Z 5) = Ok (fzero, fv 1001 1 0).
Proof.
  split; [vm_compute; reflexivity|]. split; [exists 2%Z, 1%Z; lia|]. split; [intros (m & k & H); lia|vm_compute; reflexivity].
Qed.

(** C245: what arccos is applied to, for planes whose normals are whole numbers, none a positive multiple
    of the other; it is zero for planes at right angles. *)
Theorem C245_cosine : forall dot power arccosf n1 d1 n2 d2 a b c x y z, dot_integers dot -> power_integers power -> integral_vec n1 a b c -> integral_vec n2 x y z ->
  ~ (a = 0 /\ b = 0 /\ c = 0)%Z -> ~ (x = 0 /\ y = 0 /\ z = 0)%Z -> (a * a + b * b + c * c < 2 ^ 50)%Z -> (x * x + y * y + z * z < 2 ^ 50)%Z ->
  (Z.abs (a * x) + Z.abs (b * y) + Z.abs (c * z) < 2 ^ 26)%Z -> ~ same_direction a b c x y z ->
  exists t, angle_between_planes_f dot power arccosf n1 d1 n2 d2 = Ok (arccosf t) /\ ordinary t /\
    within 6 (FR t) (IZR (Z.abs (a * x + b * y + c * z)) / (sqrt (IZR (a * a + b * b + c * c)) * sqrt (IZR (x * x + y * y + z * z)))).
Proof. exact angle_full. Qed.
Print Assumptions C245_cosine.
Theorem C245_right_angle : forall dot power arccosf n1 d1 n2 d2 a b c x y z, dot_integers dot -> power_integers power -> integral_vec n1 a b c -> integral_vec n2 x y z ->
  ~ (a = 0 /\ b = 0 /\ c = 0)%Z -> ~ (x = 0 /\ y = 0 /\ z = 0)%Z -> (a * a + b * b + c * c < 2 ^ 53)%Z -> (x * x + y * y + z * z < 2 ^ 53)%Z ->
  (Z.abs (a * x) + Z.abs (b * y) + Z.abs (c * z) < 2 ^ 26)%Z -> (a * x + b * y + c * z = 0)%Z ->
  exists t, angle_between_planes_f dot power arccosf n1 d1 n2 d2 = Ok (arccosf t) /\ ordinary t /\ FR t = 0.
Proof. exact angle_right. Qed.
Print Assumptions C245_right_angle.
Theorem C245_same_normal : forall dot power arccosf n d1 d2, dot_accurate dot -> ordinary_vec n -> tame_vec n n -> ~ no_normal n -> angle_between_planes_f dot power arccosf n d1 n d2 = Err ValueError.
Proof. exact angle_same. Qed.
Print Assumptions C245_same_normal.
Theorem C245_no_normal : forall dot power arccosf n1 d1 n2 d2, ordinary_vec n1 -> ordinary_vec n2 -> no_normal n1 \/ no_normal n2 -> angle_between_planes_f dot power arccosf n1 d1 n2 d2 = Err ValueError.
Proof. exact angle_no_plane. Qed.
Print Assumptions C245_no_normal.
(** Planes with opposite normals are parallel; they are not refused, and their distance is said to be
    zero. *)
Theorem C245_opposite_refuted : forall dot power arccosf n1 d1 n2 d2 a b c, dot_integers dot -> power_integers power -> integral_vec n1 a b c -> integral_vec n2 (- a) (- b) (- c) ->
  ~ (a = 0 /\ b = 0 /\ c = 0)%Z -> (a * a + b * b + c * c < 2 ^ 26)%Z ->
  dist_between_planes_f dot n1 d1 n2 d2 = Ok (fzero, n2) /\ exists t, angle_between_planes_f dot power arccosf n1 d1 n2 d2 = Ok (arccosf t) /\ ordinary t /\ within 6 (FR t) 1.
Proof. exact opposite_planes. Qed.
Print Assumptions C245_opposite_refuted.
(** Parallel planes should be refused, whatever the lengths of their normals; here arccos is applied to
    a number greater than one. *)
Theorem C245_parallel_refuted : forall dot power arccosf d1 d2, dot_integers dot -> power_integers power ->
  exists t, angle_between_planes_f dot power arccosf (fv 1 1 2) d1 (fv 5 5 10) d2 = Ok (arccosf t) /\ ordinary t /\ 1 < FR t.
Proof. exact angle_lost. Qed.
Print Assumptions C245_parallel_refuted.
Example C245_ex : dot_integers loop_dot /\ power_integers mul_power /\ angle_between_planes_f loop_dot mul_power (fun t => t) (fv 1 0 0) fzero (fv 0 0 3) fzero = Ok fzero /\
  angle_between_planes_f loop_dot mul_power (fun t => t) (fv 2 0 0) fzero (fv (-5) 0 0) fzero = Ok (f_of_Z 1) /\
  angle_between_planes_f loop_dot mul_power (fun t => t) (fv 2 0 0) fzero (fv 5 0 0) fzero = Err ValueError.
Proof. split; [exact loop_integers|]. split; [exact mul_power_integers|]. repeat split; vm_compute; reflexivity. Qed.

(** C246: planes with whole numbers that meet in a line: [solve] is given the two plane equations at
    z = z_ini, without any rounding, and the direction is near the unit vector along the line. *)
Theorem C246_line : forall dot solve n1 n2 d1 d2 z0 a b c x y z k1 k2 h, dot_integers dot -> integral_vec n1 a b c -> integral_vec n2 x y z -> integral d1 k1 -> integral d2 k2 -> integral z0 h ->
  (Z.abs a < 2 ^ 11)%Z -> (Z.abs b < 2 ^ 11)%Z -> (Z.abs c < 2 ^ 11)%Z -> (Z.abs x < 2 ^ 11)%Z -> (Z.abs y < 2 ^ 11)%Z -> (Z.abs z < 2 ^ 11)%Z ->
  (Z.abs k1 < 2 ^ 40)%Z -> (Z.abs k2 < 2 ^ 40)%Z -> (Z.abs h < 2 ^ 40)%Z ->
  let i := (b * z - c * y)%Z in let j := (c * x - a * z)%Z in let k := (a * y - b * x)%Z in ~ (i = 0 /\ j = 0 /\ k = 0)%Z ->
  exists r1 r2 q, integral r1 (k1 - c * h) /\ integral r2 (k2 - z * h) /\
    plane_plane_intersect_f dot solve n1 d1 n2 d2 z0 = bind (solve ((fx n1, fy n1), (fx n2, fy n2)) (r1, r2)) (fun p => Ok (FV (fst p) (snd p) z0, q)) /\
    let l := sqrt (IZR (i * i + j * j + k * k)) in close 6 (fx q) (IZR i / l) /\ close 6 (fy q) (IZR j / l) /\ close 6 (fz q) (IZR k / l).
Proof. exact line_near. Qed.
Print Assumptions C246_line.
Theorem C246_same_normal : forall dot solve n d1 d2 z0, dot_accurate dot -> ordinary_vec n -> tame_vec n n -> ~ no_normal n -> plane_plane_intersect_f dot solve n d1 n d2 z0 = Err ValueError.
Proof. exact line_refused. Qed.
Print Assumptions C246_same_normal.
Theorem C246_no_normal : forall dot solve n1 d1 n2 d2 z0, ordinary_vec n1 -> ordinary_vec n2 -> no_normal n1 \/ no_normal n2 -> plane_plane_intersect_f dot solve n1 d1 n2 d2 z0 = Err ValueError.
Proof. exact line_no_plane. Qed.
Print Assumptions C246_no_normal.
(** Parallel planes should be refused; with opposite normals it is left to [solve], and a direction that
    is returned is NaN. *)
Theorem C246_opposite_refuted : forall dot solve n1 d1 n2 d2 z0 a b c k1 k2 h p q, dot_integers dot -> integral_vec n1 a b c -> integral_vec n2 (- a) (- b) (- c) ->
  integral d1 k1 -> integral d2 k2 -> integral z0 h -> ~ (a = 0 /\ b = 0 /\ c = 0)%Z ->
  (Z.abs a < 2 ^ 11)%Z -> (Z.abs b < 2 ^ 11)%Z -> (Z.abs c < 2 ^ 11)%Z -> (Z.abs k1 < 2 ^ 40)%Z -> (Z.abs k2 < 2 ^ 40)%Z -> (Z.abs h < 2 ^ 40)%Z ->
  (plane_plane_intersect_f dot solve n1 d1 n2 d2 z0 = Ok (p, q) -> q = FV S754_nan S754_nan S754_nan) /\
  (forall e, plane_plane_intersect_f dot solve n1 d1 n2 d2 z0 = Err e -> exists m r, solve m r = Err e).
Proof. exact line_opposite. Qed.
Print Assumptions C246_opposite_refuted.
Example C246_ex : plane_plane_intersect_f loop_dot (fun _ r => Ok r) (fv 1 0 0) (f_of_Z 2) (fv 0 1 0) (f_of_Z 3) (f_of_Z 7) = Ok (fv 2 3 7, fv 0 0 1) /\
  plane_plane_intersect_f loop_dot (fun _ r => Ok r) (fv 1 2 3) (f_of_Z 2) (fv 1 2 3) (f_of_Z 3) (f_of_Z 7) = Err ValueError.
Proof. split; vm_compute; reflexivity. Qed.
