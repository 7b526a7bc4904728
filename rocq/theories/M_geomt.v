(** geom_utils.py again: the functions with trigonometry and pairs of planes, in binary64.  Arrays are float64, single
    numbers Python floats.  Logging is left out. *)
From Coq Require Import Floats.SpecFloat.
From Verif Require Import PyBase PyFloat M_geomf.

Section Trig.
  (** numpy.dot and [**] as in M_geomf.v; numpy's cos, sin, arctan and arccos. *)
  Variable dot : fvec -> fvec -> float.
  Variable power : float -> Z -> float.
  Variables cosf sinf arctanf arccosf : float -> float.

  (** numpy.dot of a matrix of three rows with an array of three numbers; the order of the sum is taken
      to be the same in each row. *)
  Definition mat_vec_f (r1 r2 r3 v : fvec) : fvec := FV (dot r1 v) (dot r2 v) (dot r3 v).

  (** geom_utils.py:246-262 *)
  Definition rotate_x_f (point_list : list fvec) (o : fvec) (theta : float) : list fvec :=
    let one := f_of_Z 1 in
    map (fun point => mat_vec_f (FV one fzero fzero) (FV fzero (cosf theta) (fopp (sinf theta))) (FV fzero (sinf theta) (cosf theta))
                        (vmap2 fsub point o)) point_list.
  (** geom_utils.py:265-281 *)
  Definition rotate_y_f (point_list : list fvec) (o : fvec) (theta : float) : list fvec :=
    let one := f_of_Z 1 in
    map (fun point => mat_vec_f (FV (cosf theta) fzero (sinf theta)) (FV fzero one fzero) (FV (fopp (sinf theta)) fzero (cosf theta))
                        (vmap2 fsub point o)) point_list.
  (** geom_utils.py:284-300 *)
  Definition rotate_z_f (point_list : list fvec) (o : fvec) (theta : float) : list fvec :=
    let one := f_of_Z 1 in
    map (fun point => mat_vec_f (FV (cosf theta) (fopp (sinf theta)) fzero) (FV (sinf theta) (cosf theta) fzero) (FV fzero fzero one)
                        (vmap2 fsub point o)) point_list.

  (** geom_utils.py:26-48 *)
  Definition angle_between_planes_f (n1 : fvec) (d1 : float) (n2 : fvec) (d2 : float) : res float :=
    do _ <- check_plane_exists_f n1;
    do _ <- check_plane_exists_f n2;
    if check_parallel_planes_f dot n1 n2 then Err ValueError
    else
      let numerator := fsqrt (power (dot n1 n2) 2) in
      let denom := fmul (norm_f dot n1) (norm_f dot n2) in
      Ok (arccosf (fdiv numerator denom)).

  (** geom_utils.py:513-516, 526-529.  Python floats raise when divided by zero. *)
  Definition azimuth_f (x y : float) : res float :=
    do q <- py_fdiv y x;
    if fle fzero x then Ok (arctanf q) else Ok (fadd (arctanf q) pi_f).
  (** geom_utils.py:509-518 *)
  Definition cartesian_to_cylindrical_f (x y z : float) : res (float * float * float) :=
    let rho := fsqrt (fadd (power x 2) (power y 2)) in
    do phi <- azimuth_f x y;
    Ok (rho, phi, z).
  (** geom_utils.py:521-531; [z / r] is a division by a numpy number, which does not raise. *)
  Definition cartesian_to_spherical_f (x y z : float) : res (float * float * float) :=
    let r := fsqrt (fadd (fadd (power x 2) (power y 2)) (power z 2)) in
    let theta := arccosf (fdiv z r) in
    do phi <- azimuth_f x y;
    Ok (r, theta, phi).
  (** geom_utils.py:534-542 *)
  Definition cylindrical_to_cartesian_f (rho phi z : float) : res (float * float * float) :=
    do _ <- check_positive_f rho;
    Ok (fmul rho (cosf phi), fmul rho (sinf phi), z).
  (** geom_utils.py:545-554 *)
  Definition cylindrical_to_spherical_f (rho theta_cyl z : float) : res (float * float * float) :=
    do _ <- check_positive_f rho;
    let r := fsqrt (fadd (power rho 2) (power z 2)) in
    Ok (r, arccosf (fdiv z r), theta_cyl).
  (** geom_utils.py:557-566 *)
  Definition spherical_to_cartesian_f (r theta phi : float) : res (float * float * float) :=
    do _ <- check_positive_f r;
    Ok (fmul (fmul r (sinf theta)) (cosf phi), fmul (fmul r (sinf theta)) (sinf phi), fmul r (cosf theta)).
  (** geom_utils.py:569-578 *)
  Definition spherical_to_cylindrical_f (r theta phi : float) : res (float * float * float) :=
    do _ <- check_positive_f r;
    Ok (fmul r (sinf theta), phi, fmul r (cosf theta)).
End Trig.

Section Solve.
  (** numpy.dot, and numpy.linalg.solve of two equations: the rows of the matrix and the right-hand side. *)
  Variable dot : fvec -> fvec -> float.
  Variable solve : (float * float) * (float * float) -> float * float -> res (float * float).

  (** numpy.cross of arrays of three numbers: two products and a difference for each component. *)
  Definition cross_f (v w : fvec) : fvec :=
    FV (fsub (fmul (fy v) (fz w)) (fmul (fz v) (fy w))) (fsub (fmul (fz v) (fx w)) (fmul (fx v) (fz w))) (fsub (fmul (fx v) (fy w)) (fmul (fy v) (fx w))).
  (** geom_utils.py:178-210: the point and the direction. *)
  Definition plane_plane_intersect_f (n1 : fvec) (d1 : float) (n2 : fvec) (d2 : float) (z_ini : float) : res (fvec * fvec) :=
    do _ <- check_plane_exists_f n1;
    do _ <- check_plane_exists_f n2;
    if check_parallel_planes_f dot n1 n2 then Err ValueError
    else
      let q := cross_f n1 n2 in
      let q := vmap (fun a => fdiv a (norm_f dot q)) q in
      do x <- solve ((fx n1, fy n1), (fx n2, fy n2)) (fsub d1 (fmul (fz n1) z_ini), fsub d2 (fmul (fz n2) z_ini));
      Ok (FV (fst x) (snd x) z_ini, q).
End Solve.
