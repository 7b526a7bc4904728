(** Model of geom_utils.py in the reals (PyReal.v).  Vectors are numpy arrays of three
    floats, scalars are Python floats.  Logging is left out. *)
From Verif Require Import PyReal.
Local Open Scope R_scope.

(** geom_utils.py:11-14 *)
Definition check_plane_exists (n : vec) : out unit :=
  if veqb n (Vec 0 0 0) then Raise ValueError else Val tt.
(** geom_utils.py:17-23 *)
Definition check_parallel_planes (n1 n2 : vec) : out bool :=
  get u1 <- vdiv n1 (np_norm n1); get u2 <- vdiv n2 (np_norm n2); Val (veqb u1 u2).
(** geom_utils.py:327-329 *)
Definition check_positive (x : R) : out unit := if Rltb x 0 then Raise ValueError else Val tt.

(** geom_utils.py:26-48 *)
Definition angle_between_planes (n1 : vec) (d1 : R) (n2 : vec) (d2 : R) : out R :=
  get _ <- check_plane_exists n1;
  get _ <- check_plane_exists n2;
  get par <- check_parallel_planes n1 n2;
  if par then Raise ValueError
  else
    get numerator <- npsqrt (np_dot n1 n2 ^ 2);
    get cos_theta <- npdiv numerator (np_norm n1 * np_norm n2);
    nparccos cos_theta.

(** geom_utils.py:51-76.  The array n2 is changed in place: the result is the distance
    and the array n2 of the caller after the call. *)
Definition dist_between_planes (n1 : vec) (d1 : R) (n2 : vec) (d2 : R) : out (R * vec) :=
  get _ <- check_plane_exists n1;
  get _ <- check_plane_exists n2;
  get par <- check_parallel_planes n1 n2;
  if negb par then Val (0, n2)
  else
    get ratio <- npdiv (vx n1) (vx n2);
    let n2' := vscale ratio n2 in
    let d2' := d2 * ratio in
    get D <- npdiv (d2' - d1) (np_norm n2');
    Val (D, n2').

(** geom_utils.py:418-422 *)
Definition evaluate_plane_eq (n : vec) (d : R) (p : vec) : R := np_dot n p - d.

(** geom_utils.py:79-118.  The check of p_0 is only logged. *)
Definition dist_between_point_plane (n : vec) (d : R) (p : vec) : out R :=
  get _ <- check_plane_exists n;
  if Reqb (np_dot n p) d then Val 0
  else
    get p_0 <- (if negb (Reqb (vx n) 0) then get x <- npdiv d (vx n); Val (Vec x 0 0)
                else if negb (Reqb (vy n) 0) then get y <- npdiv d (vy n); Val (Vec 0 y 0)
                else if negb (Reqb (vz n) 0) then get z <- npdiv d (vz n); Val (Vec 0 0 z)
                else Val (Vec 0 0 0));
    npdiv (np_dot (vsub p_0 p) n) (np_norm n).

(** geom_utils.py:121-147 *)
Definition line_segment_plane_intersection (p0 p1 n : vec) (d : R) : out vec :=
  get _ <- check_plane_exists n;
  if Reqb (np_dot (vsub p1 p0) n) 0 then Raise ValueError
  else
    let val := (np_dot p0 n - d) * (np_dot p1 n - d) in
    if Rltb val 0 then
      get q <- npdiv (np_dot p0 n) (np_dot (vsub p1 p0) n);
      let t := d - q in
      Val (vadd p0 (vscale t (vsub p1 p0)))
    else Raise ValueError.

(** geom_utils.py:150-175 *)
Definition plane_sphere_intersect (n : vec) (d : R) (p : vec) (rad : R) : out (R * vec) :=
  get _ <- check_plane_exists n;
  get _ <- check_positive rad;
  get centre_dist <- dist_between_point_plane n d p;
  if Rltb rad centre_dist then Raise ValueError
  else
    get r <- npsqrt (rad ^ 2 - centre_dist ^ 2);
    get shift <- vdiv (vscale centre_dist n) (np_norm n);
    Val (r, vadd p shift).

(** geom_utils.py:178-210 *)
Definition plane_plane_intersect (n1 : vec) (d1 : R) (n2 : vec) (d2 : R) (z_ini : R) : out (vec * vec) :=
  get _ <- check_plane_exists n1;
  get _ <- check_plane_exists n2;
  get par <- check_parallel_planes n1 n2;
  if par then Raise ValueError
  else
    let q := np_cross n1 n2 in
    get q <- vdiv q (np_norm q);
    get x <- np_solve2 (vx n1) (vy n1) (vx n2) (vy n2) (d1 - vz n1 * z_ini) (d2 - vz n2 * z_ini);
    Val (Vec (fst x) (snd x) z_ini, q).

(** geom_utils.py:213-219 *)
Definition dist_bet_points (p1 p2 : vec) : R := np_norm (vsub p2 p1).
(** geom_utils.py:222-228 *)
Definition midpoint_bet_points (p1 p2 : vec) : vec :=
  let s := vadd p1 p2 in Vec (vx s / 2) (vy s / 2) (vz s / 2).

(** geom_utils.py:231-243.  [lstsq] is numpy.linalg.lstsq for the two rows (x_i, 1) and
    right-hand sides y_i; it returns the two coefficients. *)
Section Line.
  Variable lstsq : (R * R) * (R * R) -> R * R -> R * R.
  Definition coefficients_of_line_from_points (p1 p2 : R * R) : R * R :=
    lstsq ((fst p1, 1), (fst p2, 1)) (snd p1, snd p2).
End Line.

(** geom_utils.py:246-300 *)
Definition rotate_x (ps : list vec) (o : vec) (theta : R) : list vec :=
  map (fun p => mat_vec (Vec 1 0 0) (Vec 0 (cos theta) (- sin theta)) (Vec 0 (sin theta) (cos theta)) (vsub p o)) ps.
Definition rotate_y (ps : list vec) (o : vec) (theta : R) : list vec :=
  map (fun p => mat_vec (Vec (cos theta) 0 (sin theta)) (Vec 0 1 0) (Vec (- sin theta) 0 (cos theta)) (vsub p o)) ps.
Definition rotate_z (ps : list vec) (o : vec) (theta : R) : list vec :=
  map (fun p => mat_vec (Vec (cos theta) (- sin theta) 0) (Vec (sin theta) (cos theta) 0) (Vec 0 0 1) (vsub p o)) ps.
(** geom_utils.py:303-314 *)
Definition translate (ps : list vec) (t : vec) : list vec := map (fun p => vadd p t) ps.

(** geom_utils.py:317-324 *)
Definition pythag_h (l1 l2 : R) : R :=
  if Reqb l1 0 || Reqb l2 0 then 0 else sqrt (l1 ^ 2 + l2 ^ 2).

(** geom_utils.py:332-415 *)
Definition perim_circle (r : R) : out R := get _ <- check_positive r; Val (2 * PI * r).
Definition area_circle (r : R) : out R := get _ <- check_positive r; Val (PI * r * r).
Definition area_cyl (r h : R) : out R :=
  get _ <- check_positive r; get _ <- check_positive h;
  get end_area <- area_circle r; get perim <- perim_circle r;
  Val (2 * end_area + perim * h).
Definition area_cyl_shell (r1 r2 : R) : out R :=
  get a1 <- area_circle r1; get a2 <- area_circle r2; Val (Rabs (a1 - a2)).
Definition area_sphere (r : R) : out R := get _ <- check_positive r; Val (4 * PI * r ^ 2).
Definition area_cone_surf (r h : R) : out R :=
  get _ <- check_positive r; get _ <- check_positive h;
  get t1 <- npsqrt (r * r + h * h); Val (PI * r * t1).
Definition volume_sphere (r : R) : out R := get _ <- check_positive r; Val (4 / 3 * PI * r ^ 3).
Definition volume_spherical_shell (r1 r2 : R) : out R :=
  get v1 <- volume_sphere r1; get v2 <- volume_sphere r2; Val (Rabs (v1 - v2)).
Definition volume_cyl (r h : R) : out R :=
  get _ <- check_positive h; get a <- area_circle r; Val (a * h).
Definition volume_cyl_shell (r1 r2 h : R) : out R :=
  get _ <- check_positive h; get a <- area_cyl_shell r1 r2; Val (a * h).
Definition volume_cone (r h : R) : out R := get v <- volume_cyl r h; Val (v * (1 / 3)).

(** geom_utils.py:425-435 *)
Definition evaluate_sphere_eq (p c : vec) (r : R) : R := np_norm (vsub p c) ^ 2 - r ^ 2.
(** geom_utils.py:438-446; [coeffs] are the nine coefficients. *)
Record coeffs9 : Type := Coeffs { q0 : R; q1 : R; q2 : R; q3 : R; q4 : R; q5 : R; q6 : R; q7 : R; q8 : R }.
Definition evaluate_gq_eq (p : vec) (c : coeffs9) (k : R) : R :=
  q0 c * vx p ^ 2 + q1 c * vy p ^ 2 + q2 c * vz p ^ 2 + q3 c * vx p * vy p + q4 c * vy p * vz p
  + q5 c * vx p * vz p + q6 c * vx p + q7 c * vy p + q8 c * vz p - k.
(** geom_utils.py:449-484 *)
Definition sense (val : R) : Z := if Rltb 0 val then (-1)%Z else if Rltb val 0 then 1%Z else 0%Z.
Definition find_sense_plane (n : vec) (d : R) (p : vec) : out Z :=
  get _ <- check_plane_exists n; Val (sense (evaluate_plane_eq n d p)).
Definition find_sense_sphere (p c : vec) (r : R) : out Z :=
  get _ <- check_positive r; Val (sense (evaluate_sphere_eq p c r)).
Definition find_sense_gq (p : vec) (c : coeffs9) (k : R) : Z := sense (evaluate_gq_eq p c k).

(** geom_utils.py:487-494 *)
Definition project_ray (p0 u : vec) (mu : R) : vec := vadd p0 (vscale mu u).
(** geom_utils.py:497-506 *)
Definition sphere_ray_intersect (p u c : vec) (rad : R) : out (R * R) :=
  get _ <- check_positive rad;
  let dp := vsub p c in
  let dp2 := np_norm dp ^ 2 in
  let ddot := np_dot dp u in
  get s <- npsqrt (ddot ^ 2 - dp2 + rad ^ 2);
  Val (-1 * ddot + s, -1 * ddot - s).

(** geom_utils.py:509-531.  For the origin [z / r] is not a number, but then [y / x]
    raises, so the angles are computed in the other order here. *)
Definition azimuth (x y : R) : out R :=
  get q <- pydiv y x;
  if Rltb x 0 then Val (atan q + PI) else Val (atan q).
Definition cartesian_to_cylindrical (x y z : R) : out (R * R * R) :=
  get phi <- azimuth x y; Val (sqrt (x ^ 2 + y ^ 2), phi, z).
Definition cartesian_to_spherical (x y z : R) : out (R * R * R) :=
  let r := sqrt (x ^ 2 + y ^ 2 + z ^ 2) in
  get phi <- azimuth x y;
  get q <- npdiv z r;
  get theta <- nparccos q;
  Val (r, theta, phi).
(** geom_utils.py:534-578 *)
Definition cylindrical_to_cartesian (rho phi z : R) : out (R * R * R) :=
  get _ <- check_positive rho; Val (rho * cos phi, rho * sin phi, z).
Definition cylindrical_to_spherical (rho theta_cyl z : R) : out (R * R * R) :=
  get _ <- check_positive rho;
  let r := sqrt (rho ^ 2 + z ^ 2) in
  get q <- npdiv z r;
  get theta <- nparccos q;
  Val (r, theta, theta_cyl).
Definition spherical_to_cartesian (r theta phi : R) : out (R * R * R) :=
  get _ <- check_positive r; Val (r * sin theta * cos phi, r * sin theta * sin phi, r * cos theta).
Definition spherical_to_cylindrical (r theta phi : R) : out (R * R * R) :=
  get _ <- check_positive r; Val (r * sin theta, phi, r * cos theta).
