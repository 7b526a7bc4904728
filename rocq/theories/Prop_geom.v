(** Properties C89-C100, C147-C149: geom_utils.py over the real numbers.  Vocabulary:
    SpecGeom.v; [Val], [Raise] and [NonFinite] (numpy's nan or inf) are in PyReal.v. *)
From Coq Require Import Reals Lra List.
Import ListNotations.
From Verif Require Import PyReal M_geom SpecGeom P_geom P_geom2 P_geom3.
Local Open Scope R_scope.

(** C89 *)
Theorem C89_rotations_keep_distances : forall ps o t, all_same_distances ps (rotate_x ps o t) /\
  all_same_distances ps (rotate_y ps o t) /\ all_same_distances ps (rotate_z ps o t).
Proof. exact (fun ps o t => conj (rotate_x_dist ps o t) (conj (rotate_y_dist ps o t) (rotate_z_dist ps o t))). Qed.
Print Assumptions C89_rotations_keep_distances.
(** A point at radius r and angle u about the axis goes to angle u + t, at the same
    height along the axis; the result is relative to the centre o. *)
Theorem C89_turns_x : forall ps o t i r u a, nth_error ps i = Some (plus o (Vec a (r * cos u) (r * sin u))) ->
  nth_error (rotate_x ps o t) i = Some (Vec a (r * cos (u + t)) (r * sin (u + t))).
Proof. exact rotate_x_turn. Qed.
Print Assumptions C89_turns_x.
Theorem C89_turns_y : forall ps o t i r u a, nth_error ps i = Some (plus o (Vec (r * sin u) a (r * cos u))) ->
  nth_error (rotate_y ps o t) i = Some (Vec (r * sin (u + t)) a (r * cos (u + t))).
Proof. exact rotate_y_turn. Qed.
Print Assumptions C89_turns_y.
Theorem C89_turns_z : forall ps o t i r u a, nth_error ps i = Some (plus o (Vec (r * cos u) (r * sin u) a)) ->
  nth_error (rotate_z ps o t) i = Some (Vec (r * cos (u + t)) (r * sin (u + t)) a).
Proof. exact rotate_z_turn. Qed.
Print Assumptions C89_turns_z.
Theorem C89_angles_add : forall ps o a b, rotate_x (rotate_x ps o a) origin b = rotate_x ps o (a + b) /\
  rotate_y (rotate_y ps o a) origin b = rotate_y ps o (a + b) /\ rotate_z (rotate_z ps o a) origin b = rotate_z ps o (a + b).
Proof. exact (fun ps o a b => conj (rotate_x_compose ps o a b) (conj (rotate_y_compose ps o a b) (rotate_z_compose ps o a b))). Qed.
Print Assumptions C89_angles_add.
Theorem C89_translate : forall ps v, all_same_distances ps (translate ps v) /\
  forall i p, nth_error ps i = Some p -> nth_error (translate ps v) i = Some (plus p v).
Proof. exact (fun ps v => conj (translate_dist ps v) (translate_spec ps v)). Qed.
Print Assumptions C89_translate.
Example C89_ex : nth_error (rotate_z [Vec 3 2 5] (Vec 1 2 3) (PI / 2)) 0 = Some (Vec 0 2 2).
Proof.
  rewrite (rotate_z_turn _ _ (PI / 2) 0 2 0 2).
  - rewrite Rplus_0_l, cos_PI2, sin_PI2. do 2 f_equal; ring.
  - cbn. rewrite cos_0, sin_0. unfold plus. cbn. do 2 f_equal; ring.
Qed.

(** C90: the centre of rotation always goes to the origin, so it moves unless it is the
    origin. *)
Theorem C90_centre_refuted : forall o t, o <> origin ->
  ~ In o (rotate_x [o] o t) /\ ~ In o (rotate_y [o] o t) /\ ~ In o (rotate_z [o] o t).
Proof. exact centre_moves. Qed.
Print Assumptions C90_centre_refuted.
Theorem C90_relative_partial : forall o t, rotate_x [o] o t = [origin] /\ rotate_y [o] o t = [origin] /\ rotate_z [o] o t = [origin].
Proof. exact rotate_centre. Qed.
Print Assumptions C90_relative_partial.
Example C90_ex : Vec 1 2 3 <> origin.
Proof. intros E. injection E. lra. Qed.

(** C91 *)
Theorem C91_distance : forall n d p, n <> origin ->
  exists s, dist_between_point_plane n d p = Val s /\ on_plane n d (plus p (times (s / len n) n)) /\
    (forall q, on_plane n d q -> Rabs s <= dist p q) /\ dist p (plus p (times (s / len n) n)) = Rabs s.
Proof. exact point_plane. Qed.
Print Assumptions C91_distance.
Theorem C91_no_plane : forall d p, dist_between_point_plane origin d p = Raise ValueError.
Proof. exact point_plane_zero. Qed.
Print Assumptions C91_no_plane.
Example C91_ex : dist_between_point_plane (Vec 0 0 2) 10 (Vec 7 8 9) = Val (-4).
Proof.
  rewrite point_plane_val by (intros E; injection E; lra). f_equal. unfold len, inner. cbn [vx vy vz]. replace (0 * 0 + 0 * 0 + 2 * 2) with (2 * 2) by ring.
  rewrite sqrt_square by lra. field.
Qed.

(** C92: the point is on the line through both ends, but on the plane only if d = 0 or
    n.(p1 - p0) = 1. *)
Theorem C92_point_refuted : forall p0 p1 n d, n <> origin -> (inner n p0 - d) * (inner n p1 - d) < 0 ->
  d <> 0 -> inner n (minus p1 p0) <> 1 -> exists q, line_segment_plane_intersection p0 p1 n d = Val q /\ ~ on_plane n d q.
Proof. exact segment_wrong. Qed.
Print Assumptions C92_point_refuted.
Theorem C92_point_partial : forall p0 p1 n d, n <> origin -> (inner n p0 - d) * (inner n p1 - d) < 0 ->
  exists q, line_segment_plane_intersection p0 p1 n d = Val q /\
    (on_plane n d q <-> d = 0 \/ inner n (minus p1 p0) = 1) /\ exists t, q = plus p0 (times t (minus p1 p0)).
Proof. exact segment_value. Qed.
Print Assumptions C92_point_partial.
Theorem C92_raises : forall p0 p1 n d, n = origin \/ 0 <= (inner n p0 - d) * (inner n p1 - d) ->
  line_segment_plane_intersection p0 p1 n d = Raise ValueError.
Proof. exact segment_raises. Qed.
Print Assumptions C92_raises.
Example C92_ex : let p0 := Vec 0 0 0 in let p1 := Vec 4 0 0 in let n := Vec 1 0 0 in
  (inner n p0 - 1) * (inner n p1 - 1) < 0 /\ inner n (minus p1 p0) <> 1 /\ 0 <= (inner n p0 - 5) * (inner n p1 - 5).
Proof. unfold inner, minus. cbn. repeat split; lra. Qed.

(** C93 *)
Theorem C93_circle : forall n d p rad, n <> origin -> 0 <= rad -> Rabs (d - inner n p) <= rad * len n ->
  exists r c, plane_sphere_intersect n d p rad = Val (r, c) /\ 0 <= r /\ on_plane n d c /\
    forall q, on_plane n d q -> (on_sphere p rad q <-> on_sphere c r q).
Proof. exact plane_sphere. Qed.
Print Assumptions C93_circle.
(** A plane that misses the sphere is refused on one side only. *)
Theorem C93_miss_partial : forall n d p rad, n <> origin -> 0 <= rad -> rad * len n < Rabs (d - inner n p) ->
  plane_sphere_intersect n d p rad = if Rlt_dec 0 (d - inner n p) then Raise ValueError else NonFinite.
Proof. exact plane_sphere_miss. Qed.
Print Assumptions C93_miss_partial.
Theorem C93_miss_refuted : exists n d p rad, n <> origin /\ 0 <= rad /\ (forall q, on_plane n d q -> ~ on_sphere p rad q) /\
  plane_sphere_intersect n d p rad = NonFinite.
Proof. exact plane_sphere_below. Qed.
Print Assumptions C93_miss_refuted.
Theorem C93_bad_input : forall n d p rad, n = origin \/ rad < 0 -> plane_sphere_intersect n d p rad = Raise ValueError.
Proof. exact plane_sphere_bad. Qed.
Print Assumptions C93_bad_input.
Example C93_ex : Rabs (3 - inner (Vec 1 0 0) (Vec 0 1 1)) <= 5 * len (Vec 1 0 0).
Proof.
  unfold len, inner. cbn [vx vy vz]. replace (1 * 1 + 0 * 0 + 0 * 0) with 1 by ring. rewrite sqrt_1, Rabs_right; lra.
Qed.

(** C94 *)
Theorem C94_line : forall n1 d1 n2 d2 z, n1 <> origin -> n2 <> origin -> vx n1 * vy n2 - vy n1 * vx n2 <> 0 ->
  exists p q, plane_plane_intersect n1 d1 n2 d2 z = Val (p, q) /\ vz p = z /\ len q = 1 /\
    forall t, on_plane n1 d1 (plus p (times t q)) /\ on_plane n2 d2 (plus p (times t q)).
Proof. exact plane_plane_ok. Qed.
Print Assumptions C94_line.
(** Planes that meet in a line parallel to the plane z = 0 are not solved. *)
Theorem C94_always_solved_refuted : forall n1 d1 n2 d2 z, n1 <> origin -> n2 <> origin -> ~ parallel n1 n2 ->
  vx n1 * vy n2 - vy n1 * vx n2 = 0 -> plane_plane_intersect n1 d1 n2 d2 z = Raise ValueError.
Proof. exact plane_plane_singular. Qed.
Print Assumptions C94_always_solved_refuted.
Theorem C94_parallel : forall n1 d1 n2 d2 z, n2 <> origin -> same_direction n1 n2 -> plane_plane_intersect n1 d1 n2 d2 z = Raise ValueError.
Proof. exact plane_plane_same. Qed.
Print Assumptions C94_parallel.
Theorem C94_opposite_refuted : forall k n d1 d2 z, n <> origin -> k < 0 -> plane_plane_intersect (times k n) d1 n d2 z = NonFinite.
Proof. exact plane_plane_opposite. Qed.
Print Assumptions C94_opposite_refuted.
Example C94_ex : vx (Vec 1 0 1) * vy (Vec 0 1 1) - vy (Vec 1 0 1) * vx (Vec 0 1 1) <> 0 /\ ~ parallel (Vec 1 0 0) (Vec 0 0 1).
Proof. cbn. split; [lra|]. intros (k & _ & E). injection E. lra. Qed.

(** C95 *)
Theorem C95_same_direction_partial : forall n1 n2, n1 <> origin -> n2 <> origin ->
  (check_parallel_planes n1 n2 = Val true <-> same_direction n1 n2) /\ exists b, check_parallel_planes n1 n2 = Val b.
Proof. exact parallel_true. Qed.
Print Assumptions C95_same_direction_partial.
Theorem C95_opposite_refuted : forall n k, n <> origin -> k < 0 -> check_parallel_planes (times k n) n = Val false.
Proof. exact opposite_not_parallel. Qed.
Print Assumptions C95_opposite_refuted.
(** The distance: from any point of the first plane, D along the unit normal leads to the
    second.  The caller's second normal is overwritten by the first. *)
Theorem C95_distance_partial : forall n1 d1 n2 d2, n2 <> origin -> same_direction n1 n2 -> vx n2 <> 0 ->
  exists D n2', dist_between_planes n1 d1 n2 d2 = Val (D, n2') /\ n2' = n1 /\
    forall p, on_plane n1 d1 p -> on_plane n2 d2 (plus p (times (D / len n1) n1)).
Proof. exact planes_distance. Qed.
Print Assumptions C95_distance_partial.
Theorem C95_distance_x0_refuted : forall n1 d1 n2 d2, n2 <> origin -> same_direction n1 n2 -> vx n2 = 0 -> dist_between_planes n1 d1 n2 d2 = NonFinite.
Proof. exact planes_distance_x0. Qed.
Print Assumptions C95_distance_x0_refuted.
Theorem C95_not_parallel : forall n1 d1 n2 d2, n1 <> origin -> n2 <> origin -> ~ same_direction n1 n2 -> dist_between_planes n1 d1 n2 d2 = Val (0, n2).
Proof. exact planes_not_parallel. Qed.
Print Assumptions C95_not_parallel.
Theorem C95_distance_opposite_refuted : forall k n d1 d2, n <> origin -> k < 0 -> dist_between_planes (times k n) d1 n d2 = Val (0, n).
Proof. exact planes_opposite. Qed.
Print Assumptions C95_distance_opposite_refuted.
Example C95_ex : same_direction (Vec 2 4 6) (Vec 1 2 3) /\ same_direction (Vec 0 4 6) (Vec 0 2 3) /\ ~ same_direction (Vec 1 0 0) (Vec 0 1 0).
Proof.
  repeat split.
  - exists 2. split; [lra|]. unfold times. cbn. f_equal; ring.
  - exists 2. split; [lra|]. unfold times. cbn. f_equal; ring.
  - intros (k & _ & E). injection E. lra.
Qed.

(** C96 *)
Theorem C96_cartesian_cylindrical : forall x y z, x <> 0 ->
  exists rho phi, cartesian_to_cylindrical x y z = Val (rho, phi, z) /\ 0 < rho /\ - (PI / 2) < phi < 3 * PI / 2 /\
    cylindrical_to_cartesian rho phi z = Val (x, y, z).
Proof. exact cyl_round_trip. Qed.
Print Assumptions C96_cartesian_cylindrical.
Theorem C96_cartesian_spherical : forall x y z, x <> 0 ->
  exists r theta phi, cartesian_to_spherical x y z = Val (r, theta, phi) /\
    0 < r /\ 0 <= theta <= PI /\ - (PI / 2) < phi < 3 * PI / 2 /\ spherical_to_cartesian r theta phi = Val (x, y, z).
Proof. exact sph_round_trip. Qed.
Print Assumptions C96_cartesian_spherical.
Theorem C96_on_axis_plane : forall y z, cartesian_to_cylindrical 0 y z = Raise ZeroDivisionError /\ cartesian_to_spherical 0 y z = Raise ZeroDivisionError.
Proof. exact (fun y z => conj (cyl_zero y z) (sph_zero y z)). Qed.
Print Assumptions C96_on_axis_plane.
Theorem C96_cylindrical_cartesian : forall rho phi z, 0 < rho -> - (PI / 2) < phi < 3 * PI / 2 -> phi <> PI / 2 ->
  exists x y, cylindrical_to_cartesian rho phi z = Val (x, y, z) /\ cartesian_to_cylindrical x y z = Val (rho, phi, z).
Proof. exact cyl_back. Qed.
Print Assumptions C96_cylindrical_cartesian.
Theorem C96_spherical_cartesian : forall r theta phi, 0 < r -> 0 < theta < PI -> - (PI / 2) < phi < 3 * PI / 2 -> phi <> PI / 2 ->
  exists x y z, spherical_to_cartesian r theta phi = Val (x, y, z) /\ cartesian_to_spherical x y z = Val (r, theta, phi).
Proof. exact sph_back. Qed.
Print Assumptions C96_spherical_cartesian.
Theorem C96_spherical_cylindrical : forall r theta phi, 0 < r -> 0 <= theta <= PI ->
  exists rho z, spherical_to_cylindrical r theta phi = Val (rho, phi, z) /\ 0 <= rho /\ cylindrical_to_spherical rho phi z = Val (r, theta, phi).
Proof. exact sph_cyl_back. Qed.
Print Assumptions C96_spherical_cylindrical.
Theorem C96_cylindrical_spherical : forall rho phi z, 0 <= rho -> (rho <> 0 \/ z <> 0) ->
  exists r theta, cylindrical_to_spherical rho phi z = Val (r, theta, phi) /\ 0 < r /\ 0 <= theta <= PI /\ spherical_to_cylindrical r theta phi = Val (rho, phi, z).
Proof. exact cyl_sph_back. Qed.
Print Assumptions C96_cylindrical_spherical.
Theorem C96_origin_fails : forall phi, cylindrical_to_spherical 0 phi 0 = NonFinite.
Proof. exact cyl_sph_zero. Qed.
Print Assumptions C96_origin_fails.
Theorem C96_negative_radius : forall r a b, r < 0 -> cylindrical_to_cartesian r a b = Raise ValueError /\ cylindrical_to_spherical r a b = Raise ValueError /\
  spherical_to_cartesian r a b = Raise ValueError /\ spherical_to_cylindrical r a b = Raise ValueError.
Proof. exact negative_radius. Qed.
Print Assumptions C96_negative_radius.
(** The two ways from spherical to Cartesian agree. *)
Theorem C96_same_point : forall r theta phi rho z, 0 <= r -> 0 <= theta <= PI -> spherical_to_cylindrical r theta phi = Val (rho, phi, z) ->
  cylindrical_to_cartesian rho phi z = spherical_to_cartesian r theta phi.
Proof. exact sph_via_cyl. Qed.
Print Assumptions C96_same_point.
Example C96_ex : cartesian_to_cylindrical (-2) 0 7 = Val (2, PI, 7) /\ - (PI / 2) < PI < 3 * PI / 2 /\ PI <> PI / 2.
Proof.
  pose proof PI_RGT_0. repeat split; try lra. unfold cartesian_to_cylindrical, azimuth. rewrite pydiv_Val by lra. cbn [obind].
  rewrite (proj2 (Rltb_true _ _)) by lra. replace (0 / -2) with 0 by field. rewrite atan_0. replace ((-2) ^ 2 + 0 ^ 2) with (2 ^ 2) by ring.
  rewrite sqrt_sq_pos by lra. cbn [obind]. do 3 f_equal. ring.
Qed.

(** C97 *)
Theorem C97_hits : forall p u c rad, len u = 1 -> 0 <= rad -> dist p c ^ 2 - rad ^ 2 <= inner (minus p c) u ^ 2 ->
  exists mu1 mu2, sphere_ray_intersect p u c rad = Val (mu1, mu2) /\ mu2 <= mu1 /\
    forall mu, on_sphere c rad (project_ray p u mu) <-> mu = mu1 \/ mu = mu2.
Proof. exact ray_hits. Qed.
Print Assumptions C97_hits.
Theorem C97_misses : forall p u c rad, len u = 1 -> 0 <= rad -> inner (minus p c) u ^ 2 < dist p c ^ 2 - rad ^ 2 ->
  sphere_ray_intersect p u c rad = NonFinite /\ forall mu, ~ on_sphere c rad (project_ray p u mu).
Proof. exact ray_misses. Qed.
Print Assumptions C97_misses.
Theorem C97_negative_radius : forall p u c rad, rad < 0 -> sphere_ray_intersect p u c rad = Raise ValueError.
Proof. exact ray_negative. Qed.
Print Assumptions C97_negative_radius.
Theorem C97_project : forall p u mu, project_ray p u mu = plus p (times mu u).
Proof. exact project_spec. Qed.
Print Assumptions C97_project.
Example C97_ex : let u := Vec (3 / 5) (4 / 5) 0 in len u = 1 /\ dist (Vec 0 0 0) (Vec 3 4 0) ^ 2 - 2 ^ 2 <= inner (minus (Vec 0 0 0) (Vec 3 4 0)) u ^ 2.
Proof.
  cbn zeta. split.
  - apply len_eq_sq; [lra|]. unfold inner. cbn. field.
  - unfold dist. rewrite <- Rsqr_pow2. unfold Rsqr. rewrite len_sq. unfold inner, minus. cbn. lra.
Qed.

(** C98 *)
Theorem C98_plane : forall n d p, n <> origin -> exists s, find_sense_plane n d p = Val s /\
  (s = (-1)%Z <-> d < inner n p) /\ (s = 1%Z <-> inner n p < d) /\ (s = 0%Z <-> on_plane n d p).
Proof. exact sense_plane. Qed.
Print Assumptions C98_plane.
Theorem C98_sphere : forall p c r, 0 <= r -> exists s, find_sense_sphere p c r = Val s /\
  (s = (-1)%Z <-> r < dist p c) /\ (s = 1%Z <-> dist p c < r) /\ (s = 0%Z <-> on_sphere c r p).
Proof. exact sense_sphere. Qed.
Print Assumptions C98_sphere.
Theorem C98_quadric : forall p c k, let v := q0 c * vx p ^ 2 + q1 c * vy p ^ 2 + q2 c * vz p ^ 2 + q3 c * vx p * vy p + q4 c * vy p * vz p
     + q5 c * vx p * vz p + q6 c * vx p + q7 c * vy p + q8 c * vz p in
  (find_sense_gq p c k = (-1)%Z <-> k < v) /\ (find_sense_gq p c k = 1%Z <-> v < k) /\ (find_sense_gq p c k = 0%Z <-> v = k).
Proof. exact sense_gq. Qed.
Print Assumptions C98_quadric.
Theorem C98_sphere_is_quadric : forall p c r, 0 <= r -> find_sense_sphere p c r =
  Val (find_sense_gq p (Coeffs 1 1 1 0 0 0 (-2 * vx c) (-2 * vy c) (-2 * vz c)) (r ^ 2 - vx c ^ 2 - vy c ^ 2 - vz c ^ 2)).
Proof. exact gq_sphere. Qed.
Print Assumptions C98_sphere_is_quadric.
Theorem C98_plane_is_quadric : forall p n d, n <> origin -> find_sense_plane n d p = Val (find_sense_gq p (Coeffs 0 0 0 0 0 0 (vx n) (vy n) (vz n)) d).
Proof. exact gq_plane. Qed.
Print Assumptions C98_plane_is_quadric.
Theorem C98_flip : forall n d p s, n <> origin -> find_sense_plane n d p = Val s -> find_sense_plane (times (-1) n) (- d) p = Val (- s)%Z.
Proof. exact sense_plane_flip. Qed.
Print Assumptions C98_flip.
Theorem C98_bad_input : forall p c d r, r < 0 -> find_sense_sphere p c r = Raise ValueError /\ find_sense_plane origin d p = Raise ValueError.
Proof. exact sense_bad. Qed.
Print Assumptions C98_bad_input.
Example C98_ex : find_sense_plane (Vec 1 2 0) 3 (Vec 1 1 9) = Val 0%Z /\ find_sense_plane (Vec 1 2 0) 3 (Vec 1 2 9) = Val (-1)%Z.
Proof.
  split.
  - destruct (sense_plane (Vec 1 2 0) 3 (Vec 1 1 9)) as (s & E & _ & _ & Z); [intros E; injection E; lra|]. rewrite E, (proj2 Z); [reflexivity|]. unfold on_plane, inner. cbn. lra.
  - destruct (sense_plane (Vec 1 2 0) 3 (Vec 1 2 9)) as (s & E & Z & _); [intros E; injection E; lra|]. rewrite E, (proj2 Z); [reflexivity|]. unfold inner. cbn. lra.
Qed.

(** C99 *)
Theorem C99_shell_sphere : forall a b, 0 <= a <= b -> exists va vb v, volume_sphere a = Val va /\ volume_sphere b = Val vb /\
  volume_spherical_shell a b = Val v /\ volume_spherical_shell b a = Val v /\ v = vb - va /\ 0 <= v.
Proof. exact shell_sphere. Qed.
Print Assumptions C99_shell_sphere.
Theorem C99_shell_circle : forall a b, 0 <= a <= b -> exists va vb v, area_circle a = Val va /\ area_circle b = Val vb /\
  area_cyl_shell a b = Val v /\ area_cyl_shell b a = Val v /\ v = vb - va /\ 0 <= v.
Proof. exact shell_circle. Qed.
Print Assumptions C99_shell_circle.
Theorem C99_shell_cylinder : forall a b h, 0 <= a <= b -> 0 <= h -> exists va vb v, volume_cyl a h = Val va /\ volume_cyl b h = Val vb /\
  volume_cyl_shell a b h = Val v /\ volume_cyl_shell b a h = Val v /\ v = vb - va /\ 0 <= v.
Proof. exact shell_cyl. Qed.
Print Assumptions C99_shell_cylinder.
Theorem C99_additive : forall a b c, 0 <= a <= b -> b <= c ->
  (forall v w, volume_spherical_shell a b = Val v -> volume_spherical_shell b c = Val w -> volume_spherical_shell a c = Val (v + w)) /\
  (forall v w, area_cyl_shell a b = Val v -> area_cyl_shell b c = Val w -> area_cyl_shell a c = Val (v + w)) /\
  (forall h v w, 0 <= h -> volume_cyl_shell a b h = Val v -> volume_cyl_shell b c h = Val w -> volume_cyl_shell a c h = Val (v + w)).
Proof. exact additive. Qed.
Print Assumptions C99_additive.
(** The surface is the rate at which the volume grows, the circumference that of the area;
    with the zero at radius 0 this determines the volume from the surface. *)
Theorem C99_sphere_rate : forall a b sa sb va vb, 0 <= a <= b -> area_sphere a = Val sa -> area_sphere b = Val sb -> volume_sphere a = Val va -> volume_sphere b = Val vb ->
  sa * (b - a) <= vb - va <= sb * (b - a).
Proof. exact sphere_rate. Qed.
Print Assumptions C99_sphere_rate.
Theorem C99_circle_rate : forall a b sa sb va vb, 0 <= a <= b -> perim_circle a = Val sa -> perim_circle b = Val sb -> area_circle a = Val va -> area_circle b = Val vb ->
  sa * (b - a) <= vb - va <= sb * (b - a).
Proof. exact circle_rate. Qed.
Print Assumptions C99_circle_rate.
Theorem C99_anchors : volume_sphere 0 = Val 0 /\ area_circle 0 = Val 0 /\ perim_circle 1 = Val (2 * PI) /\
  forall r, 0 <= r -> exists s c, area_sphere r = Val s /\ area_circle r = Val c /\ s = 4 * c.
Proof. exact (conj (proj1 sphere_zero) (conj (proj2 sphere_zero) (conj perim_unit archimedes))). Qed.
Print Assumptions C99_anchors.
Theorem C99_cylinder : forall r h a p, 0 <= r -> 0 <= h -> area_circle r = Val a -> perim_circle r = Val p ->
  volume_cyl r h = Val (a * h) /\ area_cyl r h = Val (2 * a + p * h).
Proof. exact (fun r h a p Hr Hh E F => conj (cyl_product r h a Hr Hh E) (cyl_surface r h a p Hr Hh E F)). Qed.
Print Assumptions C99_cylinder.
Theorem C99_cone : forall r h v, 0 <= r -> 0 <= h -> volume_cyl r h = Val v -> exists c, volume_cone r h = Val c /\ 3 * c = v.
Proof. exact cone_third. Qed.
Print Assumptions C99_cone.
Theorem C99_cone_surface : forall r h, 0 <= r -> 0 <= h -> exists s c, area_cone_surf r h = Val s /\ area_circle r = Val c /\ 0 <= s /\ s ^ 2 = c ^ 2 + (PI * r * h) ^ 2.
Proof. exact cone_surface. Qed.
Print Assumptions C99_cone_surface.
Theorem C99_negative : forall r h, r < 0 -> perim_circle r = Raise ValueError /\ area_circle r = Raise ValueError /\ area_sphere r = Raise ValueError /\ volume_sphere r = Raise ValueError /\
  area_cyl r h = Raise ValueError /\ area_cyl h r = Raise ValueError /\ area_cone_surf r h = Raise ValueError /\ area_cone_surf h r = Raise ValueError /\
  volume_cyl r h = Raise ValueError /\ volume_cyl h r = Raise ValueError /\ volume_cone r h = Raise ValueError /\ volume_cone h r = Raise ValueError /\
  area_cyl_shell r h = Raise ValueError /\ area_cyl_shell h r = Raise ValueError /\ volume_spherical_shell r h = Raise ValueError /\ volume_spherical_shell h r = Raise ValueError.
Proof. exact negative_raises. Qed.
Print Assumptions C99_negative.
Theorem C99_negative_shell : forall a b h, a < 0 \/ b < 0 \/ h < 0 -> volume_cyl_shell a b h = Raise ValueError.
Proof. exact negative_cyl_shell. Qed.
Print Assumptions C99_negative_shell.
Example C99_ex : volume_spherical_shell 2 1 = Val (28 / 3 * PI).
Proof. destruct (shell_sphere 1 2 ltac:(lra)) as (? & ? & ? & A & B & _ & -> & V & _). rewrite sphere_val in A, B by lra. injection A as <-. injection B as <-. rewrite V. f_equal. field. Qed.

(** C100: the length is 0 as soon as one side is 0. *)
Theorem C100_hypotenuse_partial : forall a b, a <> 0 -> b <> 0 -> 0 < pythag_h a b /\ pythag_h a b ^ 2 = a ^ 2 + b ^ 2.
Proof. exact pythag_ok. Qed.
Print Assumptions C100_hypotenuse_partial.
Theorem C100_zero_side_refuted : forall a, a <> 0 -> pythag_h a 0 ^ 2 <> a ^ 2 + 0 ^ 2 /\ pythag_h 0 a ^ 2 <> 0 ^ 2 + a ^ 2.
Proof. exact pythag_wrong. Qed.
Print Assumptions C100_zero_side_refuted.
Example C100_ex : pythag_h 3 4 = 5.
Proof.
  destruct (pythag_ok 3 4) as (P & E); try lra. set (h := pythag_h 3 4) in *. clearbody h. replace (3 ^ 2 + 4 ^ 2) with (5 * 5) in E by ring.
  apply Rsqr_inj; try lra. unfold Rsqr. rewrite <- E. ring.
Qed.

(** C147 *)
Theorem C147_angle : forall n1 d1 n2 d2, n1 <> origin -> n2 <> origin -> ~ same_direction n1 n2 ->
  exists theta, angle_between_planes n1 d1 n2 d2 = Val theta /\ 0 <= theta <= PI / 2 /\ cos theta * (len n1 * len n2) = Rabs (inner n1 n2).
Proof. exact angle_spec. Qed.
Print Assumptions C147_angle.
Theorem C147_parallel_partial : forall n1 d1 n2 d2, n2 <> origin -> same_direction n1 n2 -> angle_between_planes n1 d1 n2 d2 = Raise ValueError.
Proof. exact angle_parallel. Qed.
Print Assumptions C147_parallel_partial.
(** Parallel planes given with opposite normals are not refused. *)
Theorem C147_opposite_refuted : forall k n d1 d2, n <> origin -> k < 0 -> angle_between_planes (times k n) d1 n d2 = Val 0.
Proof. exact angle_opposite. Qed.
Print Assumptions C147_opposite_refuted.
Example C147_ex : angle_between_planes (Vec 1 0 0) 5 (Vec 0 2 0) 7 = Val (PI / 2).
Proof.
  destruct (angle_spec (Vec 1 0 0) 5 (Vec 0 2 0) 7) as (t & E & B & C).
  - intros E. injection E. lra.
  - intros E. injection E. lra.
  - intros (k & _ & E). injection E. lra.
  - rewrite E. f_equal. unfold inner in C. cbn [vx vy vz] in C. replace (1 * 0 + 0 * 2 + 0 * 0) with 0 in C by ring. rewrite Rabs_R0 in C.
    assert (L1 : len (Vec 1 0 0) = 1) by (apply len_eq_sq; [lra|unfold inner; cbn; ring]). assert (L2 : len (Vec 0 2 0) = 2) by (apply len_eq_sq; [lra|unfold inner; cbn; ring]).
    rewrite L1, L2 in C. apply (cos_inj t (PI / 2)); pose proof PI_RGT_0; try lra. rewrite cos_PI2. lra.
Qed.

(** C148: [lstsq] stands for numpy.linalg.lstsq; [solver] shows that the hypothesis can be met. *)
Theorem C148_line_partial : forall lstsq,
  (forall x1 x2 y1 y2 m c, lstsq ((x1, 1), (x2, 1)) (y1, y2) = (m, c) -> best_fit x1 y1 x2 y2 m c) ->
  forall x1 y1 x2 y2 m c, x1 <> x2 -> coefficients_of_line_from_points lstsq (x1, y1) (x2, y2) = (m, c) ->
  m * x1 + c = y1 /\ m * x2 + c = y2 /\ m = (y2 - y1) / (x2 - x1).
Proof. exact line_through. Qed.
Print Assumptions C148_line_partial.
(** For two points above each other a line through neither of them is returned. *)
Theorem C148_vertical_refuted : forall lstsq,
  (forall x1 x2 y1 y2 m c, lstsq ((x1, 1), (x2, 1)) (y1, y2) = (m, c) -> best_fit x1 y1 x2 y2 m c) ->
  forall x y1 y2 m c, y1 <> y2 -> coefficients_of_line_from_points lstsq (x, y1) (x, y2) = (m, c) ->
  m * x + c = (y1 + y2) / 2 /\ m * x + c <> y1 /\ m * x + c <> y2.
Proof. exact line_vertical. Qed.
Print Assumptions C148_vertical_refuted.
Example C148_ex : forall x1 x2 y1 y2 m c, solver ((x1, 1), (x2, 1)) (y1, y2) = (m, c) -> best_fit x1 y1 x2 y2 m c.
Proof. exact solver_ok. Qed.

(** C149 *)
Theorem C149_midpoint : forall p q, dist (midpoint_bet_points p q) p = dist p q / 2 /\ dist (midpoint_bet_points p q) q = dist p q / 2 /\
  dist_bet_points p q = dist p q.
Proof. exact midpoint_spec. Qed.
Print Assumptions C149_midpoint.
Theorem C149_metric : forall p q r, dist_bet_points p q = dist_bet_points q p /\ 0 <= dist_bet_points p q /\
  (dist_bet_points p q = 0 <-> p = q) /\ dist_bet_points p r <= dist_bet_points p q + dist_bet_points q r.
Proof. exact metric. Qed.
Print Assumptions C149_metric.
Example C149_ex : midpoint_bet_points (Vec 1 2 3) (Vec 3 6 (-3)) = Vec 2 4 0.
Proof. unfold midpoint_bet_points. cbn. f_equal; field. Qed.
