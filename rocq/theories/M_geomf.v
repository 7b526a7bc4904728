(** geom_utils.py again, in binary64 instead of the reals (M_geom.v): what the functions
    return for float64 arrays and Python floats.  The functions with trigonometry are in
    M_geomt.v, those with linear solvers in M_geom.v only.  Logging is left out.  numpy's division does not raise. *)
From Coq Require Import Floats.SpecFloat.
From Verif Require Import PyBase PyFloat.

Record fvec : Type := FV { fx : float; fy : float; fz : float }.
Definition vmap (f : float -> float) (v : fvec) : fvec := FV (f (fx v)) (f (fy v)) (f (fz v)).
Definition vmap2 (f : float -> float -> float) (v w : fvec) : fvec := FV (f (fx v) (fx w)) (f (fy v) (fy w)) (f (fz v) (fz w)).
(** np.array_equal of arrays of three numbers. *)
Definition veq_f (v w : fvec) : bool := feq (fx v) (fx w) && feq (fy v) (fy w) && feq (fz v) (fz w).

(** np.pi *)
Definition pi_f : float := S754_finite false 7074237752028440 (-51).
Definition two_f : float := f_of_Z 2.

Section Geom.
  (** numpy.dot of two arrays of three numbers: the order of the sum and the use of fused
      operations are up to the BLAS library. *)
  Variable dot : fvec -> fvec -> float.
  (** [x ** k]: pow of the C library.  Where it overflows Python floats raise OverflowError,
      which is not modelled; numpy's return an infinity. *)
  Variable power : float -> Z -> float.

  (** numpy.linalg.norm *)
  Definition norm_f (v : fvec) : float := fsqrt (dot v v).

  (** geom_utils.py:11-14 *)
  Definition check_plane_exists_f (n : fvec) : res unit :=
    if veq_f n (FV fzero fzero fzero) then Err ValueError else Ok tt.
  (** geom_utils.py:17-23 *)
  Definition check_parallel_planes_f (n1 n2 : fvec) : bool :=
    veq_f (vmap (fun a => fdiv a (norm_f n1)) n1) (vmap (fun a => fdiv a (norm_f n2)) n2).
  (** geom_utils.py:51-76: the distance and the array n2, which is changed in place. *)
  Definition dist_between_planes_f (n1 : fvec) (d1 : float) (n2 : fvec) (d2 : float) : res (float * fvec) :=
    do _ <- check_plane_exists_f n1;
    do _ <- check_plane_exists_f n2;
    if negb (check_parallel_planes_f n1 n2) then Ok (fzero, n2)
    else
      let ratio := fdiv (fx n1) (fx n2) in
      let n2 := vmap (fun a => fmul a ratio) n2 in
      let d2 := fmul d2 ratio in
      Ok (fdiv (fsub d2 d1) (norm_f n2), n2).
  (** geom_utils.py:79-118 *)
  Definition dist_between_point_plane_f (n : fvec) (d : float) (p : fvec) : res float :=
    do _ <- check_plane_exists_f n;
    if feq (dot n p) d then Ok fzero
    else
      let p0 := if negb (feq (fx n) fzero) then FV (fdiv d (fx n)) fzero fzero
                else if negb (feq (fy n) fzero) then FV fzero (fdiv d (fy n)) fzero
                else if negb (feq (fz n) fzero) then FV fzero fzero (fdiv d (fz n))
                else FV fzero fzero fzero in
      Ok (fdiv (dot (vmap2 fsub p0 p) n) (norm_f n)).

  (** geom_utils.py:213-219 *)
  Definition dist_bet_points_f (p1 p2 : fvec) : float := norm_f (vmap2 fsub p2 p1).
  (** geom_utils.py:222-228 *)
  Definition midpoint_bet_points_f (p1 p2 : fvec) : fvec := vmap (fun a => fdiv a two_f) (vmap2 fadd p1 p2).
  (** geom_utils.py:303-314 *)
  Definition translate_f (points : list fvec) (t : fvec) : list fvec := map (fun p => vmap2 fadd p t) points.
  (** geom_utils.py:317-324 *)
  Definition pythag_h_f (l1 l2 : float) : float :=
    if feq l1 fzero || feq l2 fzero then fzero else fsqrt (fadd (power l1 2) (power l2 2)).

  (** geom_utils.py:327-329 *)
  Definition check_positive_f (x : float) : res unit := if flt x fzero then Err ValueError else Ok tt.
  (** geom_utils.py:332-336 *)
  Definition perim_circle_f (r : float) : res float :=
    do _ <- check_positive_f r; Ok (fmul (fmul two_f pi_f) r).
  (** geom_utils.py:339-343 *)
  Definition area_circle_f (r : float) : res float :=
    do _ <- check_positive_f r; Ok (fmul (fmul pi_f r) r).
  (** geom_utils.py:346-353 *)
  Definition area_cyl_f (r h : float) : res float :=
    do _ <- check_positive_f r; do _ <- check_positive_f h;
    do end_area <- area_circle_f r;
    do p <- perim_circle_f r;
    let side_area := fmul p h in
    Ok (fadd (fmul two_f end_area) side_area).
  (** geom_utils.py:356-361 *)
  Definition area_cyl_shell_f (r1 r2 : float) : res float :=
    do a1 <- area_circle_f r1; do a2 <- area_circle_f r2; Ok (fabs (fsub a1 a2)).
  (** geom_utils.py:364-368 *)
  Definition area_sphere_f (r : float) : res float :=
    do _ <- check_positive_f r; Ok (fmul (fmul (f_of_Z 4) pi_f) (power r 2)).
  (** geom_utils.py:371-377 *)
  Definition area_cone_surf_f (r h : float) : res float :=
    do _ <- check_positive_f r; do _ <- check_positive_f h;
    let t1 := fsqrt (fadd (fmul r r) (fmul h h)) in
    Ok (fmul (fmul pi_f r) t1).
  (** geom_utils.py:380-384 *)
  Definition volume_sphere_f (r : float) : res float :=
    do _ <- check_positive_f r; Ok (fmul (fmul (fdiv (f_of_Z 4) (f_of_Z 3)) pi_f) (power r 3)).
  (** geom_utils.py:387-392 *)
  Definition volume_spherical_shell_f (r1 r2 : float) : res float :=
    do v1 <- volume_sphere_f r1; do v2 <- volume_sphere_f r2; Ok (fabs (fsub v1 v2)).
  (** geom_utils.py:395-401 *)
  Definition volume_cyl_f (r h : float) : res float :=
    do _ <- check_positive_f h; do a <- area_circle_f r; Ok (fmul a h).
  (** geom_utils.py:404-409 *)
  Definition volume_cyl_shell_f (r1 r2 h : float) : res float :=
    do _ <- check_positive_f h; do a <- area_cyl_shell_f r1 r2; Ok (fmul a h).
  (** geom_utils.py:412-415 *)
  Definition volume_cone_f (r h : float) : res float :=
    do v <- volume_cyl_f r h; Ok (fmul v (fdiv (f_of_Z 1) (f_of_Z 3))).

  (** geom_utils.py:418-422 *)
  Definition evaluate_plane_eq_f (n : fvec) (d : float) (p : fvec) : float := fsub (dot n p) d.
  (** geom_utils.py:425-435 *)
  Definition evaluate_sphere_eq_f (p c : fvec) (r : float) : float :=
    fsub (power (norm_f (vmap2 fsub p c)) 2) (power r 2).
  (** geom_utils.py:438-446; the coefficients A to J (nine of them) as a list. *)
  Definition evaluate_gq_eq_f (p : fvec) (c : nat -> float) (k : float) : float :=
    let m a b := fmul a b in
    fsub (fadd (fadd (fadd (fadd (fadd (fadd (fadd (fadd
      (m (c 0) (power (fx p) 2)) (m (c 1) (power (fy p) 2))) (m (c 2) (power (fz p) 2)))
      (m (m (c 3) (fx p)) (fy p))) (m (m (c 4) (fy p)) (fz p))) (m (m (c 5) (fx p)) (fz p)))
      (m (c 6) (fx p))) (m (c 7) (fy p))) (m (c 8) (fz p))) k.
  (** geom_utils.py:453-459, 466-472, 478-484: None for NaN. *)
  Definition sense_of (val : float) : option Z :=
    if flt fzero val then Some (-1)%Z else if flt val fzero then Some 1%Z else if feq val fzero then Some 0%Z else None.
  (** geom_utils.py:449-459 *)
  Definition find_sense_plane_f (n : fvec) (d : float) (p : fvec) : res (option Z) :=
    do _ <- check_plane_exists_f n; Ok (sense_of (evaluate_plane_eq_f n d p)).
  (** geom_utils.py:462-472 *)
  Definition find_sense_sphere_f (p c : fvec) (r : float) : res (option Z) :=
    do _ <- check_positive_f r; Ok (sense_of (evaluate_sphere_eq_f p c r)).
  (** geom_utils.py:475-484 *)
  Definition find_sense_gq_f (p : fvec) (c : nat -> float) (k : float) : option Z := sense_of (evaluate_gq_eq_f p c k).
  (** geom_utils.py:487-494 *)
  Definition project_ray_f (p0 u : fvec) (mu : float) : fvec := vmap2 fadd p0 (vmap (fun a => fmul a mu) u).
  (** geom_utils.py:121-147 *)
  Definition line_segment_plane_intersection_f (p0 p1 n : fvec) (d : float) : res fvec :=
    do _ <- check_plane_exists_f n;
    let s := vmap2 fsub p1 p0 in
    if feq (dot s n) fzero then Err ValueError
    else
      let val := fmul (fsub (dot p0 n) d) (fsub (dot p1 n) d) in
      if flt val fzero then
        let t := fsub d (fdiv (dot p0 n) (dot s n)) in
        Ok (vmap2 fadd p0 (vmap (fun a => fmul t a) s))
      else Err ValueError.
  (** geom_utils.py:150-175; numpy.sqrt of a negative number is NaN. *)
  Definition plane_sphere_intersect_f (n : fvec) (d : float) (p : fvec) (rad : float) : res (float * fvec) :=
    do _ <- check_plane_exists_f n;
    do _ <- check_positive_f rad;
    do centre_dist <- dist_between_point_plane_f n d p;
    if flt rad centre_dist then Err ValueError
    else
      let r := fsqrt (fsub (power rad 2) (power centre_dist 2)) in
      let shift := vmap (fun a => fdiv (fmul centre_dist a) (norm_f n)) n in
      Ok (r, vmap2 fadd p shift).
  (** geom_utils.py:497-506 *)
  Definition sphere_ray_intersect_f (p u sphere_centre : fvec) (sphere_rad : float) : res (float * float) :=
    do _ <- check_positive_f sphere_rad;
    let dp := vmap2 fsub p sphere_centre in
    let dp2 := power (norm_f dp) 2 in
    let ddot := dot dp u in
    let s := fsqrt (fadd (fsub (power ddot 2) dp2) (power sphere_rad 2)) in
    Ok (fadd (fmul (f_of_Z (-1)) ddot) s, fsub (fmul (f_of_Z (-1)) ddot) s).
End Geom.
