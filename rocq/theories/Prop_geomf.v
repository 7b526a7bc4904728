(** Properties C222-C230, C236 and C240-C242: geometry in double precision. *)
From Coq Require Import Reals Lra Lia Floats.SpecFloat.
From Flocq Require Import Core.
From Verif Require Import PyBase PyFacts PyFloat FloatR M_geomf SpecGeomf P_geomf P_geomf2 P_geomf3 P_geomf4 P_geomf5 P_geomf6 P_geomf7 P_geomf8 P_geomf9.
Import ListNotations.
Local Open Scope R_scope.

(** C222: areas and volumes keep the order of the lengths. *)
Theorem C222_radius : forall r r', length_f r -> length_f r' -> fle r r' = true ->
  not_more (perim_circle_f r) (perim_circle_f r') /\ not_more (area_circle_f r) (area_circle_f r').
Proof. exact (fun r r' A B C => conj (perim_mono r r' A B C) (circle_mono r r' A B C)). Qed.
Print Assumptions C222_radius.
Theorem C222_radius_height : forall r r' h h', length_f r -> length_f r' -> length_f h -> length_f h' -> fle r r' = true -> fle h h' = true ->
  not_more (area_cyl_f r h) (area_cyl_f r' h') /\ not_more (area_cone_surf_f r h) (area_cone_surf_f r' h') /\
  not_more (volume_cyl_f r h) (volume_cyl_f r' h') /\ not_more (volume_cone_f r h) (volume_cone_f r' h').
Proof. exact (fun r r' h h' A B C D E F => conj (cyl_area_mono r r' h h' A B C D E F) (conj (cone_surf_mono r r' h h' A B C D E F) (conj (cyl_mono r r' h h' A B C D E F) (cone_mono r r' h h' A B C D E F)))). Qed.
Print Assumptions C222_radius_height.
Theorem C222_cone_in_cylinder : forall r h, length_f r -> length_f h -> not_more (volume_cone_f r h) (volume_cyl_f r h).
Proof. exact cone_in_cyl. Qed.
Print Assumptions C222_cone_in_cylinder.
Theorem C222_shells : forall power r1 r2 h, area_cyl_shell_f r1 r2 = area_cyl_shell_f r2 r1 /\ volume_cyl_shell_f r1 r2 h = volume_cyl_shell_f r2 r1 h /\
  volume_spherical_shell_f power r1 r2 = volume_spherical_shell_f power r2 r1.
Proof. exact (fun power r1 r2 h => conj (shell_comm r1 r2) (conj (cyl_shell_comm r1 r2 h) (sphere_shell_comm power r1 r2))). Qed.
Print Assumptions C222_shells.
Theorem C222_shell_in_circle : forall r1 r2, length_f r1 -> length_f r2 -> fle r1 r2 = true -> not_more (area_cyl_shell_f r1 r2) (area_circle_f r2).
Proof. exact shell_bound. Qed.
Print Assumptions C222_shell_in_circle.
Theorem C222_no_shell : forall r a, area_circle_f r = Ok a -> is_finite_f a = true -> area_cyl_shell_f r r = Ok fzero.
Proof. exact shell_same. Qed.
Print Assumptions C222_no_shell.
Example C222_ex : length_f (f_of_Z 2) /\ length_f (f_of_Z 3) /\ fle (f_of_Z 2) (f_of_Z 3) = true /\
  match volume_cone_f (f_of_Z 2) (f_of_Z 3), volume_cyl_f (f_of_Z 2) (f_of_Z 3) with Ok a, Ok b => flt a b && is_finite_f b | _, _ => false end = true.
Proof.
  split; [|split; [|split; [reflexivity|vm_compute; reflexivity]]].
  - split; [split; reflexivity|]. rewrite (proj2 (int_of_Z 2 ltac:(lia))). lra.
  - split; [split; reflexivity|]. rewrite (proj2 (int_of_Z 3 ltac:(lia))). lra.
Qed.

(** C223: areas and volumes are those of the reals up to a few units in the last place. *)
Theorem C223_circles : forall r, moderate r -> nearly 3 (perim_circle_f r) (2 * PI * FR r) /\ nearly 4 (area_circle_f r) (PI * FR r ^ 2).
Proof. exact (fun r M => conj (perim_near r M) (circle_near r M)). Qed.
Print Assumptions C223_circles.
Theorem C223_cylinders : forall r h, moderate r -> moderate h ->
  nearly 6 (area_cyl_f r h) (2 * (PI * FR r ^ 2) + 2 * PI * FR r * FR h) /\ nearly 5 (volume_cyl_f r h) (PI * FR r ^ 2 * FR h).
Proof. exact (fun r h M N => conj (cyl_area_near r h M N) (cyl_near r h M N)). Qed.
Print Assumptions C223_cylinders.
Theorem C223_cones : forall r h, moderate r -> moderate h ->
  nearly 6 (area_cone_surf_f r h) (PI * FR r * sqrt (FR r ^ 2 + FR h ^ 2)) /\ nearly 7 (volume_cone_f r h) (PI * FR r ^ 2 * FR h * (1 / 3)).
Proof. exact (fun r h M N => conj (cone_surf_near r h M N) (cone_near r h M N)). Qed.
Print Assumptions C223_cones.
Theorem C223_spheres : forall power r, power_accurate power -> moderate r ->
  nearly 7 (area_sphere_f power r) (4 * PI * powerRZ (FR r) 2) /\ nearly 8 (volume_sphere_f power r) (4 / 3 * PI * powerRZ (FR r) 3).
Proof. exact (fun power r P M => conj (sphere_area_near power r P M) (sphere_near power r P M)). Qed.
Print Assumptions C223_spheres.
Theorem C223_hypotenuse : forall power a b, power_accurate power -> moderate a -> moderate b ->
  nearly 5 (Ok (pythag_h_f power a b)) (sqrt (powerRZ (FR a) 2 + powerRZ (FR b) 2)).
Proof. exact pythag_near. Qed.
Print Assumptions C223_hypotenuse.
(** Shells, relatively to the whole of both bodies. *)
Theorem C223_shells : forall power r1 r2 h, power_accurate power -> moderate r1 -> moderate r2 -> moderate h ->
  (exists a, area_cyl_shell_f r1 r2 = Ok a /\ ordinary a /\
     Rabs (FR a - Rabs (PI * FR r1 ^ 2 - PI * FR r2 ^ 2)) <= 6 * bpow radix2 (-53) * (PI * FR r1 ^ 2 + PI * FR r2 ^ 2)) /\
  (exists v, volume_cyl_shell_f r1 r2 h = Ok v /\ ordinary v /\
     Rabs (FR v - Rabs (PI * FR r1 ^ 2 - PI * FR r2 ^ 2) * FR h) <= 9 * bpow radix2 (-53) * (PI * FR r1 ^ 2 + PI * FR r2 ^ 2) * FR h) /\
  (exists v, volume_spherical_shell_f power r1 r2 = Ok v /\ ordinary v /\
     Rabs (FR v - Rabs (4 / 3 * PI * powerRZ (FR r1) 3 - 4 / 3 * PI * powerRZ (FR r2) 3)) <= 10 * bpow radix2 (-53) * (4 / 3 * PI * powerRZ (FR r1) 3 + 4 / 3 * PI * powerRZ (FR r2) 3)).
Proof. exact shells_near. Qed.
Print Assumptions C223_shells.
(** A triangle with a leg of length zero. *)
Theorem C223_zero_leg : forall power a b, ordinary a -> ordinary b -> FR a = 0 \/ FR b = 0 -> pythag_h_f power a b = fzero.
Proof. exact zero_leg. Qed.
Print Assumptions C223_zero_leg.
Example C223_ex : moderate (f_of_Z 3) /\ power_accurate mul_power.
Proof.
  split; [|exact mul_power_accurate]. split; [split; reflexivity|]. rewrite (proj2 (int_of_Z 3 ltac:(lia))). split.
  - apply Rle_trans with (bpow radix2 0); [apply bpow_le; lia|cbn; lra].
  - apply Rle_trans with (bpow radix2 2); [cbn; lra|apply bpow_le; lia].
Qed.

(** C224: negative lengths are refused, NaN is not. *)
Theorem C224_radius : forall power r h, ordinary r -> FR r < 0 -> length_f h ->
  perim_circle_f r = Err ValueError /\ area_circle_f r = Err ValueError /\ area_cyl_f r h = Err ValueError /\ area_sphere_f power r = Err ValueError /\
  area_cone_surf_f r h = Err ValueError /\ volume_sphere_f power r = Err ValueError /\ volume_cyl_f r h = Err ValueError /\ volume_cone_f r h = Err ValueError.
Proof. exact negative_radius. Qed.
Print Assumptions C224_radius.
Theorem C224_height : forall r h, length_f r -> ordinary h -> FR h < 0 ->
  area_cyl_f r h = Err ValueError /\ area_cone_surf_f r h = Err ValueError /\ volume_cyl_f r h = Err ValueError /\ volume_cone_f r h = Err ValueError.
Proof. exact negative_height. Qed.
Print Assumptions C224_height.
Theorem C224_shells : forall power a b h, ordinary a -> ordinary b -> FR a < 0 \/ FR b < 0 -> length_f h ->
  area_cyl_shell_f a b = Err ValueError /\ volume_spherical_shell_f power a b = Err ValueError /\ volume_cyl_shell_f a b h = Err ValueError.
Proof. exact negative_shell. Qed.
Print Assumptions C224_shells.
Theorem C224_nan_refuted : perim_circle_f S754_nan = Ok S754_nan /\ area_circle_f S754_nan = Ok S754_nan /\
  (forall h, length_f h -> volume_cyl_f S754_nan h = Ok S754_nan /\ volume_cyl_f h S754_nan = Ok S754_nan).
Proof. exact (never_refused mul_power). Qed.
Print Assumptions C224_nan_refuted.
Example C224_ex : ordinary (f_of_Z (-1)) /\ FR (f_of_Z (-1)) < 0.
Proof. split; [split; reflexivity|]. rewrite (proj2 (int_of_Z (-1) ltac:(lia))). lra. Qed.

(** C225: the distance of two points. *)
Theorem C225_symmetric : forall dot p q, dot_signs dot -> dist_bet_points_f dot p q = dist_bet_points_f dot q p.
Proof. exact dist_comm. Qed.
Print Assumptions C225_symmetric.
Theorem C225_self : forall dot p, dot_integers dot -> ordinary_vec p -> feq (dist_bet_points_f dot p p) fzero = true.
Proof. exact dist_self. Qed.
Print Assumptions C225_self.
Theorem C225_near : forall dot p q, dot_accurate dot -> ordinary_vec p -> ordinary_vec q -> apart (fx p) (fx q) -> apart (fy p) (fy q) -> apart (fz p) (fz q) ->
  ordinary (dist_bet_points_f dot p q) /\ within 6 (FR (dist_bet_points_f dot p q)) (sqrt (dist2 p q)).
Proof. exact dist_near. Qed.
Print Assumptions C225_near.
Theorem C225_range_refuted : dist_bet_points_f loop_dot (FV fzero fzero fzero) (FV (pow2_f (-600)) fzero fzero) = fzero /\
  dist_bet_points_f loop_dot (FV fzero fzero fzero) (FV (pow2_f 600) fzero fzero) = S754_infinity false.
Proof. exact (conj distance_lost distance_inf). Qed.
Print Assumptions C225_range_refuted.
Example C225_ex : dot_signs loop_dot /\ dot_integers loop_dot /\ dot_accurate loop_dot /\ feq (dist_bet_points_f loop_dot (fv 1 2 3) (fv 4 6 3)) (f_of_Z 5) = true.
Proof. exact (conj loop_signs (conj loop_integers (conj loop_accurate eq_refl))). Qed.

(** C226: the midpoint. *)
Theorem C226_symmetric : forall p q, midpoint_bet_points_f p q = midpoint_bet_points_f q p.
Proof. exact midpoint_comm. Qed.
Print Assumptions C226_symmetric.
Theorem C226_between : forall p q, ordinary_vec p -> ordinary_vec q ->
  Rabs (FR (fx p) + FR (fx q)) <= bpow radix2 1023 -> FR (fx p) <= FR (fx q) ->
  ordinary (fx (midpoint_bet_points_f p q)) /\ FR (fx p) <= FR (fx (midpoint_bet_points_f p q)) <= FR (fx q).
Proof. exact (fun p q P Q B L => mid_between (fx p) (fx q) (proj1 P) (proj1 Q) B L). Qed.
Print Assumptions C226_between.
Theorem C226_between_yz : forall p q, ordinary_vec p -> ordinary_vec q ->
  (Rabs (FR (fy p) + FR (fy q)) <= bpow radix2 1023 -> FR (fy p) <= FR (fy q) ->
   ordinary (fy (midpoint_bet_points_f p q)) /\ FR (fy p) <= FR (fy (midpoint_bet_points_f p q)) <= FR (fy q)) /\
  (Rabs (FR (fz p) + FR (fz q)) <= bpow radix2 1023 -> FR (fz p) <= FR (fz q) ->
   ordinary (fz (midpoint_bet_points_f p q)) /\ FR (fz p) <= FR (fz (midpoint_bet_points_f p q)) <= FR (fz q)).
Proof. exact (fun p q P Q => conj (mid_between (fy p) (fy q) (proj1 (proj2 P)) (proj1 (proj2 Q))) (mid_between (fz p) (fz q) (proj2 (proj2 P)) (proj2 (proj2 Q)))). Qed.
Print Assumptions C226_between_yz.
Theorem C226_near : forall p q, ordinary_vec p -> ordinary_vec q ->
  let near m a b := Rabs (FR a + FR b) <= bpow radix2 1023 -> Rabs (FR m - (FR a + FR b) / 2) <= bpow radix2 (-53) * Rabs ((FR a + FR b) / 2) + bpow radix2 (-1075) in
  near (fx (midpoint_bet_points_f p q)) (fx p) (fx q) /\ near (fy (midpoint_bet_points_f p q)) (fy p) (fy q) /\ near (fz (midpoint_bet_points_f p q)) (fz p) (fz q).
Proof. exact (fun p q P Q => conj (mid_near (fx p) (fx q) (proj1 P) (proj1 Q)) (conj (mid_near (fy p) (fy q) (proj1 (proj2 P)) (proj1 (proj2 Q))) (mid_near (fz p) (fz q) (proj2 (proj2 P)) (proj2 (proj2 Q))))). Qed.
Print Assumptions C226_near.
Theorem C226_overflow_refuted : forall y z, fx (midpoint_bet_points_f (FV (pow2_f 1023) y z) (FV (pow2_f 1023) y z)) = S754_infinity false.
Proof. exact midpoint_inf. Qed.
Print Assumptions C226_overflow_refuted.
Example C226_ex : midpoint_bet_points_f (fv 1 2 3) (fv 3 2 4) = FV (f_of_Z 2) (f_of_Z 2) (fdiv (f_of_Z 7) (f_of_Z 2)).
Proof. vm_compute. reflexivity. Qed.

(** C227: parallel planes. *)
Theorem C227_same_normal : forall dot n, dot_accurate dot -> ordinary_vec n -> tame_vec n n -> ~ no_normal n -> check_parallel_planes_f dot n n = true.
Proof. exact parallel_self. Qed.
Print Assumptions C227_same_normal.
Theorem C227_distance : forall dot n d1 d2, dot_accurate dot -> ordinary_vec n -> tame_vec n n -> FR (fx n) <> 0 -> ordinary d1 -> ordinary d2 -> apart d2 d1 ->
  exists a, dist_between_planes_f dot n d1 n d2 = Ok (a, n) /\ ordinary a /\
    Rabs (FR a - (FR d2 - FR d1) / sqrt (inner_f n n)) <= 8 * bpow radix2 (-53) * Rabs ((FR d2 - FR d1) / sqrt (inner_f n n)).
Proof. exact planes_near. Qed.
Print Assumptions C227_distance.
(** Planes across the x axis given with multiples of a normal; the second normal is changed
    in place into the first. *)
Theorem C227_x_planes : forall dot n1 n2 d1 d2 q b x1 x2, dot_integers dot -> (0 < q)%Z -> (0 < b)%Z -> (q * b < 2 ^ 26)%Z ->
  integral_vec n1 (q * b) 0 0 -> integral_vec n2 b 0 0 -> integral d1 (q * b * x1) -> integral d2 (b * x2) ->
  (Z.abs (q * b * x1) < 2 ^ 52)%Z -> (Z.abs (q * b * x2) < 2 ^ 52)%Z ->
  exists r n2', dist_between_planes_f dot n1 d1 n2 d2 = Ok (r, n2') /\ integral r (x2 - x1) /\ integral_vec n2' (q * b) 0 0.
Proof. exact x_planes. Qed.
Print Assumptions C227_x_planes.
Theorem C227_no_plane : forall dot n1 n2 d1 d2, ordinary_vec n1 -> ordinary_vec n2 -> no_normal n1 \/ no_normal n2 -> dist_between_planes_f dot n1 d1 n2 d2 = Err ValueError.
Proof. exact no_normal_distance. Qed.
Print Assumptions C227_no_plane.
(** Normals without a first component: the distance is NaN. *)
Theorem C227_no_x_refuted : forall dot n d1 d2, dot_accurate dot -> ordinary_vec n -> tame_vec n n -> ~ no_normal n -> FR (fx n) = 0 ->
  exists n', dist_between_planes_f dot n d1 n d2 = Ok (S754_nan, n').
Proof. exact planes_nan. Qed.
Print Assumptions C227_no_x_refuted.
Example C227_ex_x : exists r, dist_between_planes_f loop_dot (fv 6 0 0) (f_of_Z 12) (fv 2 0 0) (f_of_Z 10) = Ok (r, fv 6 0 0) /\ r = f_of_Z 3.
Proof. eexists. split; vm_compute; reflexivity. Qed.
Theorem C227_multiple_refuted : forall dot d1 d2, dot_integers dot -> check_parallel_planes_f dot (fv 1 1 0) (fv 3 3 0) = false /\
  dist_between_planes_f dot (fv 1 1 0) d1 (fv 3 3 0) d2 = Ok (fzero, fv 3 3 0).
Proof. exact parallel_missed. Qed.
Print Assumptions C227_multiple_refuted.
Example C227_ex : check_parallel_planes_f loop_dot (fv 1 1 0) (fv 2 2 0) = true /\ check_parallel_planes_f loop_dot (fv 1 1 0) (fv 1 2 0) = false /\ tame_vec (fv 1 1 0) (fv 1 1 0).
Proof.
  split; [vm_compute; reflexivity|]. split; [vm_compute; reflexivity|].
  assert (B : bpow radix2 (-1000) <= Rabs (1 * 1) <= bpow radix2 1000) by (rewrite Rmult_1_r, Rabs_R1; change 1 with (bpow radix2 0); split; apply bpow_le; lia).
  unfold tame_vec, tame, fv. cbn [fx fy fz]. rewrite (proj2 (int_of_Z 1 ltac:(lia))), (proj2 (int_of_Z 0 ltac:(lia))). split; [right; exact B|]. split; [right; exact B|left; ring].
Qed.

(** C228: the sense of a point to a plane. *)
Theorem C228_clear : forall dot n d p, dot_accurate dot -> ordinary_vec n -> ordinary_vec p -> ordinary d -> tame_vec n p ->
  4 * bpow radix2 (-53) * inner_abs n p < Rabs (inner_f n p - FR d) -> ~ no_normal n ->
  exists s, find_sense_plane_f dot n d p = Ok (Some s) /\ side (inner_f n p - FR d) s.
Proof. exact plane_sense. Qed.
Print Assumptions C228_clear.
Theorem C228_integers : forall dot n d p a b c k x y z, dot_integers dot -> integral_vec n a b c -> integral d k -> integral_vec p x y z -> ~ (a = 0 /\ b = 0 /\ c = 0)%Z ->
  (Z.abs (a * x) + Z.abs (b * y) + Z.abs (c * z) < 2 ^ 53)%Z ->
  exists s, find_sense_plane_f dot n d p = Ok (Some s) /\ side (IZR (a * x + b * y + c * z - k)) s.
Proof. exact plane_sense_int. Qed.
Print Assumptions C228_integers.
Theorem C228_no_plane : forall dot n d p, ordinary_vec n -> no_normal n -> find_sense_plane_f dot n d p = Err ValueError.
Proof. exact no_plane_sense. Qed.
Print Assumptions C228_no_plane.
Theorem C228_near_refuted : exists n d p, find_sense_plane_f loop_dot n d p = Ok (Some 0%Z) /\ inner_f n p - FR d = bpow radix2 (-60).
Proof. exact (ex_intro _ tilted (ex_intro _ (f_of_Z 1) (ex_intro _ off_plane (conj off_plane_on off_plane_off)))). Qed.
Print Assumptions C228_near_refuted.
Example C228_ex : find_sense_plane_f loop_dot (fv 1 2 2) (f_of_Z 9) (fv 1 2 2) = Ok (Some 0%Z) /\ find_sense_plane_f loop_dot (fv 1 2 2) (f_of_Z 9) (fv 1 2 3) = Ok (Some (-1)%Z).
Proof. vm_compute. now split. Qed.

(** C229: the sense of points to spheres and quadrics, for whole numbers. *)
Theorem C229_sphere : forall dot power p c r x y z a b d k, dot_integers dot -> power_accurate power -> power_integers power ->
  integral_vec p x y z -> integral_vec c a b d -> integral r k -> (0 <= k)%Z -> (k * k < 2 ^ 53)%Z ->
  ((x - a) * (x - a) + (y - b) * (y - b) + (z - d) * (z - d) < 2 ^ 50)%Z ->
  exists s, find_sense_sphere_f dot power p c r = Ok (Some s) /\ side (IZR ((x - a) * (x - a) + (y - b) * (y - b) + (z - d) * (z - d) - k * k)) s.
Proof. exact sphere_sense. Qed.
Print Assumptions C229_sphere.
Theorem C229_negative_radius : forall dot power p c r, ordinary r -> FR r < 0 -> find_sense_sphere_f dot power p c r = Err ValueError.
Proof. exact negative_sphere. Qed.
Print Assumptions C229_negative_radius.
Theorem C229_quadric : forall power p c k x y z (a : nat -> Z), power_integers power ->
  integral_vec p x y z -> (forall i, (i < 9)%nat -> integral (c i) (a i)) -> ordinary k ->
  (Z.abs x <= 2 ^ 15)%Z -> (Z.abs y <= 2 ^ 15)%Z -> (Z.abs z <= 2 ^ 15)%Z -> (forall i, (i < 9)%nat -> (Z.abs (a i) <= 2 ^ 19)%Z) ->
  exists s, find_sense_gq_f power p c k = Some s /\
    side (IZR (a 0%nat * (x * x) + a 1%nat * (y * y) + a 2%nat * (z * z) + a 3%nat * x * y + a 4%nat * y * z + a 5%nat * x * z + a 6%nat * x + a 7%nat * y + a 8%nat * z) - FR k) s.
Proof. exact gq_sense. Qed.
Print Assumptions C229_quadric.
Example C229_ex : power_integers mul_power /\ find_sense_sphere_f loop_dot mul_power (fv 1 2 2) (fv 0 0 0) (f_of_Z 3) = Ok (Some 0%Z) /\
  find_sense_sphere_f loop_dot mul_power (fv 1 1 1) (fv 0 0 0) (f_of_Z 2) = Ok (Some 1%Z) /\
  find_sense_gq_f mul_power (fv 1 2 3) (fun i => f_of_Z (Z.of_nat i)) (f_of_Z 100) = Some (-1)%Z.
Proof. split; [exact mul_power_integers|]. vm_compute. now repeat split. Qed.

(** C230: translations and distances from axis planes, for whole numbers. *)
Theorem C230_translate : forall ps t a b c i p x y z, integral_vec t a b c -> nth_error ps i = Some p -> integral_vec p x y z ->
  (Z.abs (x + a) < 2 ^ 53)%Z -> (Z.abs (y + b) < 2 ^ 53)%Z -> (Z.abs (z + c) < 2 ^ 53)%Z ->
  length (translate_f ps t) = length ps /\ exists q, nth_error (translate_f ps t) i = Some q /\ integral_vec q (x + a) (y + b) (z + c).
Proof. exact translate_int. Qed.
Print Assumptions C230_translate.
Theorem C230_no_plane : forall dot n d p, ordinary_vec n -> no_normal n -> dist_between_point_plane_f dot n d p = Err ValueError.
Proof. exact no_normal_point. Qed.
Print Assumptions C230_no_plane.
Theorem C230_axis_plane : forall dot n d p a b c k x y z, dot_integers dot -> integral_vec n a b c ->
  (a = 1 /\ b = 0 /\ c = 0 \/ a = 0 /\ b = 1 /\ c = 0 \/ a = 0 /\ b = 0 /\ c = 1)%Z ->
  integral d k -> integral_vec p x y z -> (Z.abs x < 2 ^ 50)%Z -> (Z.abs y < 2 ^ 50)%Z -> (Z.abs z < 2 ^ 50)%Z -> (Z.abs k < 2 ^ 50)%Z ->
  exists r, dist_between_point_plane_f dot n d p = Ok r /\ integral r (k - (a * x + b * y + c * z)).
Proof. exact axis_distance. Qed.
Print Assumptions C230_axis_plane.
(** Normals of any length: the sign of the distance is that of the normal. *)
Theorem C230_scaled_plane : forall dot n p d e a b c k x y z, dot_integers dot -> integral_vec n (e * a) (e * b) (e * c) ->
  (a = 1 /\ b = 0 /\ c = 0 \/ a = 0 /\ b = 1 /\ c = 0 \/ a = 0 /\ b = 0 /\ c = 1)%Z -> e <> 0%Z -> (Z.abs e < 2 ^ 25)%Z ->
  integral d (e * k) -> integral_vec p x y z -> (Z.abs x < 2 ^ 24)%Z -> (Z.abs y < 2 ^ 24)%Z -> (Z.abs z < 2 ^ 24)%Z -> (Z.abs k < 2 ^ 24)%Z ->
  exists r, dist_between_point_plane_f dot n d p = Ok r /\ integral r (Z.sgn e * (k - (a * x + b * y + c * z))).
Proof. exact scaled_distance. Qed.
Print Assumptions C230_scaled_plane.
Theorem C230_undone_refuted : exists t u p, fx u = fopp (fx t) /\ fy u = fopp (fy t) /\ fz u = fopp (fz t) /\ translate_f (translate_f [p] t) u = [fv 0 0 0] /\ p = fv 1 0 0.
Proof. exact (ex_intro _ (FV (pow2_f 60) fzero fzero) (ex_intro _ (FV (fopp (pow2_f 60)) (fopp fzero) (fopp fzero)) (ex_intro _ (fv 1 0 0) (conj eq_refl (conj eq_refl (conj eq_refl (conj translate_lost eq_refl))))))). Qed.
Print Assumptions C230_undone_refuted.
Theorem C230_steep_refuted : dist_between_point_plane_f loop_dot (FV (pow2_f (-1022)) (f_of_Z 1) fzero) (f_of_Z 8) (FV fzero fzero fzero) = Ok (S754_infinity false).
Proof. exact plane_inf. Qed.
Print Assumptions C230_steep_refuted.
Example C230_ex : translate_f [fv 1 2 3; fv 4 5 6] (fv 1 0 (-1)) = [fv 2 2 2; fv 5 5 5] /\ dist_between_point_plane_f loop_dot (fv 0 1 0) (f_of_Z 7) (fv 1 2 3) = Ok (f_of_Z 5).
Proof. vm_compute. now split. Qed.

(** C236: points of a ray. *)
Theorem C236_near : forall p u mu, ordinary_vec p -> ordinary_vec u -> ordinary mu -> tame (fx u) mu -> tame (fy u) mu -> tame (fz u) mu ->
  Rabs (FR (fx p)) <= bpow radix2 1000 -> Rabs (FR (fy p)) <= bpow radix2 1000 -> Rabs (FR (fz p)) <= bpow radix2 1000 ->
  let q := project_ray_f p u mu in
  Rabs (FR (fx q) - (FR (fx p) + FR (fx u) * FR mu)) <= bpow radix2 (-53) * (Rabs (FR (fx p)) + 3 * Rabs (FR (fx u) * FR mu)) /\
  Rabs (FR (fy q) - (FR (fy p) + FR (fy u) * FR mu)) <= bpow radix2 (-53) * (Rabs (FR (fy p)) + 3 * Rabs (FR (fy u) * FR mu)) /\
  Rabs (FR (fz q) - (FR (fz p) + FR (fz u) * FR mu)) <= bpow radix2 (-53) * (Rabs (FR (fz p)) + 3 * Rabs (FR (fz u) * FR mu)).
Proof. exact ray_points. Qed.
Print Assumptions C236_near.
Theorem C236_integers : forall p u mu x y z a b c t, integral_vec p x y z -> integral_vec u a b c -> integral mu t ->
  (Z.abs (a * t) < 2 ^ 53)%Z -> (Z.abs (b * t) < 2 ^ 53)%Z -> (Z.abs (c * t) < 2 ^ 53)%Z ->
  (Z.abs (x + a * t) < 2 ^ 53)%Z -> (Z.abs (y + b * t) < 2 ^ 53)%Z -> (Z.abs (z + c * t) < 2 ^ 53)%Z ->
  integral_vec (project_ray_f p u mu) (x + a * t) (y + b * t) (z + c * t).
Proof. exact ray_int. Qed.
Print Assumptions C236_integers.
Theorem C236_start : forall p u mu, ordinary_vec p -> ordinary_vec u -> ordinary mu -> FR mu = 0 ->
  let q := project_ray_f p u mu in feq (fx q) (fx p) = true /\ feq (fy q) (fy p) = true /\ feq (fz q) (fz p) = true.
Proof. exact ray_start. Qed.
Print Assumptions C236_start.
Example C236_ex : project_ray_f (fv 1 2 3) (fv 0 (-1) 2) (f_of_Z 5) = fv 1 (-3) 13 /\ integral_vec (fv 1 2 3) 1 2 3.
Proof. split; [vm_compute; reflexivity|]. repeat split; apply int_of_Z; lia. Qed.

(** C240: segments and planes. *)
Theorem C240_integers : forall dot p0 p1 n d a b c k x y z u v w, dot_integers dot -> integral_vec n a b c -> ~ (a = 0 /\ b = 0 /\ c = 0)%Z -> integral d k ->
  integral_vec p0 x y z -> integral_vec p1 u v w ->
  (Z.abs k < 2 ^ 51)%Z -> (Z.abs x < 2 ^ 51)%Z -> (Z.abs y < 2 ^ 51)%Z -> (Z.abs z < 2 ^ 51)%Z -> (Z.abs u < 2 ^ 51)%Z -> (Z.abs v < 2 ^ 51)%Z -> (Z.abs w < 2 ^ 51)%Z ->
  (Z.abs (x * a) + Z.abs (y * b) + Z.abs (z * c) < 2 ^ 51)%Z -> (Z.abs (u * a) + Z.abs (v * b) + Z.abs (w * c) < 2 ^ 51)%Z ->
  let s0 := (x * a + y * b + z * c - k)%Z in let s1 := (u * a + v * b + w * c - k)%Z in
  ((s0 < 0 < s1 \/ s1 < 0 < s0)%Z -> exists q, line_segment_plane_intersection_f dot p0 p1 n d = Ok q) /\
  (~ (s0 < 0 < s1 \/ s1 < 0 < s0)%Z -> line_segment_plane_intersection_f dot p0 p1 n d = Err ValueError).
Proof. exact segment_int. Qed.
Print Assumptions C240_integers.
(** Ends that find_sense_plane puts on different sides. *)
Theorem C240_crossing_partial : forall dot p0 p1 n d s, commutes dot -> (s = 1 \/ s = -1)%Z ->
  find_sense_plane_f dot n d p0 = Ok (Some s) -> find_sense_plane_f dot n d p1 = Ok (Some (- s)%Z) ->
  let a := evaluate_plane_eq_f dot n d p0 in let b := evaluate_plane_eq_f dot n d p1 in ordinary a -> ordinary b ->
  bpow radix2 (-1074) <= Rabs (FR a * FR b) -> feq (dot (vmap2 fsub p1 p0) n) fzero = false -> exists q, line_segment_plane_intersection_f dot p0 p1 n d = Ok q.
Proof. exact segment_cross. Qed.
Print Assumptions C240_crossing_partial.
Theorem C240_refused : forall dot p0 p1 n d s0 s1, commutes dot -> find_sense_plane_f dot n d p0 = Ok s0 -> find_sense_plane_f dot n d p1 = Ok s1 ->
  (forall s, s0 = Some s -> s1 = Some (- s)%Z -> s = 0%Z) -> line_segment_plane_intersection_f dot p0 p1 n d = Err ValueError.
Proof. exact segment_refused. Qed.
Print Assumptions C240_refused.
(** Ends on different sides, but so near to the plane that the product of their distances is lost. *)
Theorem C240_near_refuted : forall dot p0 p1 n d s, commutes dot -> (s = 1 \/ s = -1)%Z ->
  find_sense_plane_f dot n d p0 = Ok (Some s) -> find_sense_plane_f dot n d p1 = Ok (Some (- s)%Z) ->
  let a := evaluate_plane_eq_f dot n d p0 in let b := evaluate_plane_eq_f dot n d p1 in ordinary a -> ordinary b ->
  Rabs (FR a * FR b) < bpow radix2 (-1075) -> line_segment_plane_intersection_f dot p0 p1 n d = Err ValueError.
Proof. exact segment_tiny. Qed.
Print Assumptions C240_near_refuted.
Example C240_ex_near : find_sense_plane_f loop_dot (fv 1 0 0) fzero (FV (pow2_f (-600)) fzero fzero) = Ok (Some (-1)%Z) /\
  find_sense_plane_f loop_dot (fv 1 0 0) fzero (FV (fopp (pow2_f (-600))) fzero fzero) = Ok (Some 1%Z) /\
  line_segment_plane_intersection_f loop_dot (FV (pow2_f (-600)) fzero fzero) (FV (fopp (pow2_f (-600))) fzero fzero) (fv 1 0 0) fzero = Err ValueError.
Proof. exact segment_lost. Qed.
Example C240_ex : commutes loop_dot /\ line_segment_plane_intersection_f loop_dot (fv 1 0 0) (fv (-1) 4 0) (fv 3 0 0) fzero = Ok (fv 0 2 0) /\
  line_segment_plane_intersection_f loop_dot (fv 1 0 0) (fv 2 4 0) (fv 3 0 0) fzero = Err ValueError.
Proof. split; [exact loop_commutes|]. vm_compute. now split. Qed.

(** The point, for planes through the origin and ends whose distance is a power of two. *)
Theorem C240_point_partial : forall dot p0 p1 n d a b c k x y z u v w j, dot_integers dot -> integral_vec n a b c -> integral d k -> integral_vec p0 x y z -> integral_vec p1 u v w ->
  (Z.abs k < 2 ^ 16)%Z -> (Z.abs x < 2 ^ 16)%Z -> (Z.abs y < 2 ^ 16)%Z -> (Z.abs z < 2 ^ 16)%Z -> (Z.abs u < 2 ^ 16)%Z -> (Z.abs v < 2 ^ 16)%Z -> (Z.abs w < 2 ^ 16)%Z ->
  (Z.abs (x * a) + Z.abs (y * b) + Z.abs (z * c) < 2 ^ 16)%Z -> (Z.abs (u * a) + Z.abs (v * b) + Z.abs (w * c) < 2 ^ 16)%Z ->
  let h0 := (x * a + y * b + z * c)%Z in let h1 := (u * a + v * b + w * c)%Z in
  k = 0%Z -> (h0 < k < h1 \/ h1 < k < h0)%Z -> (0 <= j)%Z -> (Z.abs (h1 - h0) = 2 ^ j)%Z ->
  exists q t, line_segment_plane_intersection_f dot p0 p1 n d = Ok q /\ ordinary_vec q /\ 0 < t < 1 /\
    FR (fx q) = IZR x + t * (IZR u - IZR x) /\ FR (fy q) = IZR y + t * (IZR v - IZR y) /\ FR (fz q) = IZR z + t * (IZR w - IZR z) /\
    IZR a * FR (fx q) + IZR b * FR (fy q) + IZR c * FR (fz q) = 0.
Proof. exact segment_on. Qed.
Print Assumptions C240_point_partial.
(** For other planes the point is not on the plane. *)
Theorem C240_point_refuted : forall dot p0 p1 n d a b c k x y z u v w j, dot_integers dot -> integral_vec n a b c -> integral d k -> integral_vec p0 x y z -> integral_vec p1 u v w ->
  (Z.abs k < 2 ^ 16)%Z -> (Z.abs x < 2 ^ 16)%Z -> (Z.abs y < 2 ^ 16)%Z -> (Z.abs z < 2 ^ 16)%Z -> (Z.abs u < 2 ^ 16)%Z -> (Z.abs v < 2 ^ 16)%Z -> (Z.abs w < 2 ^ 16)%Z ->
  (Z.abs (x * a) + Z.abs (y * b) + Z.abs (z * c) < 2 ^ 16)%Z -> (Z.abs (u * a) + Z.abs (v * b) + Z.abs (w * c) < 2 ^ 16)%Z ->
  let h0 := (x * a + y * b + z * c)%Z in let h1 := (u * a + v * b + w * c)%Z in
  (h0 < k < h1 \/ h1 < k < h0)%Z -> (0 <= j)%Z -> (Z.abs (h1 - h0) = 2 ^ j)%Z -> k <> 0%Z -> (h1 - h0 <> 1)%Z ->
  exists q, line_segment_plane_intersection_f dot p0 p1 n d = Ok q /\ ordinary_vec q /\ IZR a * FR (fx q) + IZR b * FR (fy q) + IZR c * FR (fz q) <> IZR k.
Proof. exact segment_off. Qed.
Print Assumptions C240_point_refuted.
Example C240_ex_point : line_segment_plane_intersection_f loop_dot (fv (-1) 0 0) (fv 3 4 8) (fv 1 0 0) fzero = Ok (fv 0 1 2) /\
  line_segment_plane_intersection_f loop_dot (fv (-1) 0 0) (fv 3 4 8) (fv 1 0 0) (f_of_Z 1) = Ok (fv 4 5 10).
Proof. vm_compute. now split. Qed.

(** C241: rays and spheres. *)
Theorem C241_order : forall dot power p u c rad mu1 mu2, gives_floats dot power -> valid_vec p -> valid_vec u -> valid_vec c -> valid rad = true ->
  sphere_ray_intersect_f dot power p u c rad = Ok (mu1, mu2) -> is_nan_f mu1 = false -> is_nan_f mu2 = false -> fle mu2 mu1 = true.
Proof. exact ray_order. Qed.
Print Assumptions C241_order.
(** Whole numbers, a start at the whole distance [m] from the centre. *)
Theorem C241_integers_partial : forall dot power p u c rad x y z a b d e f g m k, dot_integers dot -> power_integers power ->
  integral_vec p x y z -> integral_vec c a b d -> integral_vec u e f g -> integral rad k -> (0 <= k < 2 ^ 25)%Z -> (0 <= m < 2 ^ 25)%Z ->
  ((x - a) * (x - a) + (y - b) * (y - b) + (z - d) * (z - d) = m * m)%Z -> (Z.abs ((x - a) * e) + Z.abs ((y - b) * f) + Z.abs ((z - d) * g) < 2 ^ 25)%Z ->
  let h := ((x - a) * e + (y - b) * f + (z - d) * g)%Z in
  (forall s, (0 <= s)%Z -> (h * h - m * m + k * k = s * s)%Z ->
    exists mu1 mu2, sphere_ray_intersect_f dot power p u c rad = Ok (mu1, mu2) /\ integral mu1 (- h + s) /\ integral mu2 (- h - s)) /\
  ((h * h - m * m + k * k < 0)%Z -> sphere_ray_intersect_f dot power p u c rad = Ok (S754_nan, S754_nan)).
Proof. exact ray_hits. Qed.
Print Assumptions C241_integers_partial.
(** Rays that touch a sphere: p - 2^k u is on it, but no hit is found. *)
Theorem C241_tangent_refuted : forall dot power k, dot_integers dot -> squares power -> (0 <= k <= 25)%Z ->
  sphere_ray_intersect_f dot power (fv (2 ^ k) (2 ^ k) 0) (fv 1 0 0) (fv 0 0 0) (f_of_Z (2 ^ k)) = Ok (S754_nan, S754_nan) /\
  (IZR (2 ^ k) + - IZR (2 ^ k) * 1) ^ 2 + IZR (2 ^ k) ^ 2 = IZR (2 ^ k) ^ 2.
Proof. exact (fun dot power k DI SQ B => conj (ray_tangent dot power k DI SQ B) (tangent_real k (proj1 B))). Qed.
Print Assumptions C241_tangent_refuted.
(** A ray that passes a sphere of radius 1/2 at distance 1, but is said to hit it. *)
Theorem C241_missed_refuted : forall dot power, dot_integers dot -> squares power ->
  (exists mu1 mu2, sphere_ray_intersect_f dot power (fv (2 ^ 26) 1 0) (fv 1 0 0) (fv 0 0 0) (fdec 5 (-1)) = Ok (mu1, mu2) /\ FR mu1 = - 2 ^ 26 + / 2 /\ FR mu2 = - 2 ^ 26 - / 2) /\
  (forall mu, (/ 2) ^ 2 < (2 ^ 26 + mu * 1) ^ 2 + 1 ^ 2).
Proof. exact (fun dot power DI SQ => conj (ray_false dot power DI SQ) false_real). Qed.
Print Assumptions C241_missed_refuted.
Example C241_ex : gives_floats loop_dot mul_power /\ squares mul_power /\
  sphere_ray_intersect_f loop_dot mul_power (fv 3 4 0) (fv (-1) 0 0) (fv 0 0 0) (f_of_Z 5) = Ok (f_of_Z 6, f_of_Z 0) /\
  sphere_ray_intersect_f loop_dot mul_power (fv 3 4 0) (fv (-1) 0 0) (fv 0 0 0) (f_of_Z 3) = Ok (S754_nan, S754_nan).
Proof. split; [exact loop_floats|]. split; [exact mul_power_squares|]. vm_compute. now split. Qed.

(** C242: spheres and planes across an axis: e (a, b, c) is the normal, k the place of the plane on
    the axis, t its distance from the centre of the sphere. *)
Theorem C242_axis_partial : forall dot n p d e a b c k x y z power rad r, dot_integers dot -> power_integers power -> integral_vec n (e * a) (e * b) (e * c) ->
  (a = 1 /\ b = 0 /\ c = 0 \/ a = 0 /\ b = 1 /\ c = 0 \/ a = 0 /\ b = 0 /\ c = 1)%Z -> e <> 0%Z -> (Z.abs e < 2 ^ 25)%Z ->
  integral d (e * k) -> integral_vec p x y z -> (Z.abs x < 2 ^ 24)%Z -> (Z.abs y < 2 ^ 24)%Z -> (Z.abs z < 2 ^ 24)%Z -> (Z.abs k < 2 ^ 24)%Z -> integral rad r -> (0 <= r < 2 ^ 25)%Z ->
  let t := (k - (a * x + b * y + c * z))%Z in
  ((r < Z.sgn e * t)%Z -> plane_sphere_intersect_f dot power n d p rad = Err ValueError) /\
  ((- r <= t <= r)%Z -> exists rho q, plane_sphere_intersect_f dot power n d p rad = Ok (rho, q) /\ integral_vec q (x + t * a) (y + t * b) (z + t * c) /\
     ordinary rho /\ FR rho = rnd (sqrt (IZR (r * r - t * t)))).
Proof. exact sphere_meet. Qed.
Print Assumptions C242_axis_partial.
(** Planes that miss the sphere on the other side: a circle of radius NaN. *)
Theorem C242_missed_refuted : forall dot n p d e a b c k x y z power rad r, dot_integers dot -> power_integers power -> integral_vec n (e * a) (e * b) (e * c) ->
  (a = 1 /\ b = 0 /\ c = 0 \/ a = 0 /\ b = 1 /\ c = 0 \/ a = 0 /\ b = 0 /\ c = 1)%Z -> e <> 0%Z -> (Z.abs e < 2 ^ 25)%Z ->
  integral d (e * k) -> integral_vec p x y z -> (Z.abs x < 2 ^ 24)%Z -> (Z.abs y < 2 ^ 24)%Z -> (Z.abs z < 2 ^ 24)%Z -> (Z.abs k < 2 ^ 24)%Z -> integral rad r -> (0 <= r < 2 ^ 25)%Z ->
  let t := (k - (a * x + b * y + c * z))%Z in (Z.sgn e * t < - r)%Z -> exists q, plane_sphere_intersect_f dot power n d p rad = Ok (S754_nan, q).
Proof. exact sphere_below. Qed.
Print Assumptions C242_missed_refuted.
Theorem C242_refused : forall dot power n d p rad, ordinary_vec n -> ordinary rad -> no_normal n \/ FR rad < 0 -> plane_sphere_intersect_f dot power n d p rad = Err ValueError.
Proof. exact plane_sphere_refused. Qed.
Print Assumptions C242_refused.
Example C242_ex : plane_sphere_intersect_f loop_dot mul_power (fv 0 (-3) 0) (f_of_Z (-15)) (fv 1 2 1) (f_of_Z 5) = Ok (f_of_Z 4, fv 1 5 1) /\
  plane_sphere_intersect_f loop_dot mul_power (fv 0 0 1) (f_of_Z 4) (fv 1 2 1) (f_of_Z 5) = Ok (f_of_Z 4, fv 1 2 4) /\
  plane_sphere_intersect_f loop_dot mul_power (fv 0 0 1) (f_of_Z 7) (fv 1 2 1) (f_of_Z 5) = Err ValueError /\
  plane_sphere_intersect_f loop_dot mul_power (fv 0 0 1) (f_of_Z (-5)) (fv 1 2 1) (f_of_Z 5) = Ok (S754_nan, fv 1 2 (-5)).
Proof. vm_compute. now repeat split. Qed.
