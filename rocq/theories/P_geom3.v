(** Proofs about M_geom.v: coordinates, rays, senses, areas and volumes. *)
From Coq Require Import Reals Lra Psatz.
From Verif Require Import PyReal M_geom SpecGeom P_geom.
Local Open Scope R_scope.

(** * Coordinates *)
Lemma sqrt_sq_pos x : 0 <= x -> sqrt (x ^ 2) = x.
Proof. intros. replace (x ^ 2) with (x * x) by ring. apply sqrt_square. assumption. Qed.
Lemma hyp_pos x y : x <> 0 -> 0 < x ^ 2 + y ^ 2.
Proof. intros H. pose proof (pow2_ge_0 y). assert (0 < x ^ 2) by (rewrite <- Rsqr_pow2; apply Rsqr_pos_lt, H). lra. Qed.
Lemma sqrt_quotient x y : x <> 0 -> sqrt (1 + Rsqr (y / x)) = sqrt (x ^ 2 + y ^ 2) / Rabs x.
Proof.
  intros H. assert (P : 0 < Rabs x) by (apply Rabs_pos_lt, H).
  replace (1 + Rsqr (y / x)) with ((x ^ 2 + y ^ 2) / (Rabs x * Rabs x)).
  - rewrite sqrt_div; [|pose proof (hyp_pos x y H); lra|apply Rmult_lt_0_compat; assumption]. rewrite sqrt_square by lra. reflexivity.
  - rewrite <- Rabs_mult, (Rabs_right (x * x)) by (pose proof (Rle_0_sqr x) as K; unfold Rsqr in K; lra). unfold Rsqr. field. exact H.
Qed.
Lemma azimuth_spec x y : x <> 0 -> exists phi, azimuth x y = Val phi /\ - (PI / 2) < phi < 3 * PI / 2 /\
  sqrt (x ^ 2 + y ^ 2) * cos phi = x /\ sqrt (x ^ 2 + y ^ 2) * sin phi = y.
Proof.
  intros H. unfold azimuth. rewrite pydiv_Val by exact H. cbn [obind]. pose proof (atan_bound (y / x)) as B. pose proof PI_RGT_0 as P0.
  assert (S : 0 < sqrt (x ^ 2 + y ^ 2)) by (apply sqrt_lt_R0, hyp_pos, H).
  destruct (Rltb x 0) eqn:E.
  - apply Rltb_true in E. eexists. split; [reflexivity|]. split; [lra|]. rewrite neg_cos, neg_sin, cos_atan, sin_atan, sqrt_quotient by exact H.
    rewrite Rabs_left by exact E. split; field; repeat split; lra.
  - apply Rltb_false in E. assert (0 < x) by lra. eexists. split; [reflexivity|]. split; [lra|]. rewrite cos_atan, sin_atan, sqrt_quotient by exact H.
    rewrite Rabs_right by lra. split; field; repeat split; lra.
Qed.
Lemma azimuth_zero y : azimuth 0 y = Raise ZeroDivisionError.
Proof. unfold azimuth. rewrite pydiv_0. reflexivity. Qed.
Lemma cyl_round_trip x y z : x <> 0 -> exists rho phi, cartesian_to_cylindrical x y z = Val (rho, phi, z) /\ 0 < rho /\ - (PI / 2) < phi < 3 * PI / 2 /\
  cylindrical_to_cartesian rho phi z = Val (x, y, z).
Proof.
  intros H. destruct (azimuth_spec x y H) as (phi & E & B & C & S). unfold cartesian_to_cylindrical. rewrite E. cbn [obind].
  assert (P : 0 < sqrt (x ^ 2 + y ^ 2)) by (apply sqrt_lt_R0, hyp_pos, H).
  eexists. eexists. split; [reflexivity|]. split; [exact P|]. split; [exact B|]. unfold cylindrical_to_cartesian. rewrite check_positive_Val by lra. cbn [obind]. rewrite C, S. reflexivity.
Qed.
Lemma cos_pos_range phi : - (PI / 2) < phi < PI / 2 -> 0 < cos phi.
Proof. intros. apply cos_gt_0; lra. Qed.
Lemma azimuth_back rho phi : 0 < rho -> - (PI / 2) < phi < 3 * PI / 2 -> phi <> PI / 2 -> azimuth (rho * cos phi) (rho * sin phi) = Val phi.
Proof.
  intros Hr B N. unfold azimuth. destruct (Rlt_dec phi (PI / 2)) as [L|L].
  - assert (C : 0 < cos phi) by (apply cos_pos_range; lra). assert (X : 0 < rho * cos phi) by (apply Rmult_lt_0_compat; assumption).
    rewrite pydiv_Val by lra. cbn [obind]. rewrite (proj2 (Rltb_false _ _)) by lra. f_equal.
    replace (rho * sin phi / (rho * cos phi)) with (tan phi) by (unfold tan; field; lra). apply atan_tan. lra.
  - assert (C : 0 < cos (phi - PI)) by (apply cos_pos_range; lra). replace (cos phi) with (- cos (phi - PI)) by (rewrite <- neg_cos; f_equal; ring).
    replace (sin phi) with (- sin (phi - PI)) by (rewrite <- neg_sin; f_equal; ring).
    assert (X : 0 < rho * cos (phi - PI)) by (apply Rmult_lt_0_compat; assumption). rewrite pydiv_Val by lra. cbn [obind].
    rewrite (proj2 (Rltb_true _ _)) by lra. f_equal. replace (rho * - sin (phi - PI) / (rho * - cos (phi - PI))) with (tan (phi - PI)) by (unfold tan; field; lra).
    rewrite atan_tan by lra. ring.
Qed.
Lemma cyl_back rho phi z : 0 < rho -> - (PI / 2) < phi < 3 * PI / 2 -> phi <> PI / 2 ->
  exists x y, cylindrical_to_cartesian rho phi z = Val (x, y, z) /\ cartesian_to_cylindrical x y z = Val (rho, phi, z).
Proof.
  intros Hr B N. unfold cylindrical_to_cartesian. rewrite check_positive_Val by lra. cbn [obind]. eexists. eexists. split; [reflexivity|].
  unfold cartesian_to_cylindrical. rewrite azimuth_back by assumption. cbn [obind]. do 3 f_equal.
  replace ((rho * cos phi) ^ 2 + (rho * sin phi) ^ 2) with (rho ^ 2 * (Rsqr (sin phi) + Rsqr (cos phi))) by (unfold Rsqr; ring).
  rewrite sin2_cos2, Rmult_1_r. apply sqrt_sq_pos. lra.
Qed.
Lemma cyl_pole phi z rho : 0 <= rho -> cos phi = 0 -> exists y, cylindrical_to_cartesian rho phi z = Val (0, y, z) /\ cartesian_to_cylindrical 0 y z = Raise ZeroDivisionError.
Proof.
  intros Hr H. unfold cylindrical_to_cartesian. rewrite check_positive_Val by exact Hr. cbn [obind]. rewrite H, Rmult_0_r. eexists. split; [reflexivity|].
  unfold cartesian_to_cylindrical. rewrite azimuth_zero. reflexivity.
Qed.
Lemma ratio_bound z s r : 0 < r -> r ^ 2 = s + z ^ 2 -> 0 <= s -> -1 <= z / r <= 1.
Proof.
  intros Hr E Hs. assert (K : z ^ 2 <= r ^ 2) by lra. assert (A : Rabs z <= r).
  { apply Rsqr_incr_0_var; [|lra]. rewrite <- Rsqr_abs. unfold Rsqr. lra. }
  assert (- r <= z <= r) by (unfold Rabs in A; destruct (Rcase_abs z); lra).
  split; apply (Rmult_le_reg_r r); try exact Hr; unfold Rdiv; rewrite Rmult_assoc, Rinv_l, ?Rmult_1_r by lra; lra.
Qed.
Lemma sin_acos_ratio z s r : 0 < r -> r ^ 2 = s + z ^ 2 -> 0 <= s -> r * sin (acos (z / r)) = sqrt s.
Proof.
  intros Hr E Hs. rewrite sin_acos by (eapply ratio_bound; eassumption). replace (1 - Rsqr (z / r)) with (s / (r * r)).
  - rewrite sqrt_div by (try assumption; apply Rmult_lt_0_compat; assumption). rewrite sqrt_square by lra. field. lra.
  - unfold Rsqr. replace s with (r ^ 2 - z ^ 2) by lra. field. lra.
Qed.
Lemma sph_round_trip x y z : x <> 0 -> exists r theta phi, cartesian_to_spherical x y z = Val (r, theta, phi) /\
  0 < r /\ 0 <= theta <= PI /\ - (PI / 2) < phi < 3 * PI / 2 /\ spherical_to_cartesian r theta phi = Val (x, y, z).
Proof.
  intros H. destruct (azimuth_spec x y H) as (phi & E & B & C & S). unfold cartesian_to_spherical. rewrite E. cbn [obind].
  pose proof (hyp_pos x y H) as Q. pose proof (pow2_ge_0 z) as Z. set (r := sqrt (x ^ 2 + y ^ 2 + z ^ 2)). assert (P : 0 < r) by (apply sqrt_lt_R0; lra).
  assert (R2 : r ^ 2 = (x ^ 2 + y ^ 2) + z ^ 2) by (unfold r; rewrite pow2_sqrt; lra).
  rewrite npdiv_Val by lra. cbn [obind]. pose proof (ratio_bound z (x ^ 2 + y ^ 2) r P R2 ltac:(lra)) as D. rewrite nparccos_Val by exact D. cbn [obind].
  eexists. eexists. eexists. split; [reflexivity|]. split; [exact P|]. split; [apply acos_bound|]. split; [exact B|].
  unfold spherical_to_cartesian. rewrite check_positive_Val by lra. cbn [obind]. rewrite (sin_acos_ratio z (x ^ 2 + y ^ 2) r P R2) by lra. rewrite C, S, cos_acos by exact D.
  do 2 f_equal. field. lra.
Qed.
Lemma sph_zero y z : cartesian_to_spherical 0 y z = Raise ZeroDivisionError.
Proof. unfold cartesian_to_spherical. rewrite azimuth_zero. reflexivity. Qed.
Lemma sph_cyl_back r theta phi : 0 < r -> 0 <= theta <= PI ->
  exists rho z, spherical_to_cylindrical r theta phi = Val (rho, phi, z) /\ 0 <= rho /\ cylindrical_to_spherical rho phi z = Val (r, theta, phi).
Proof.
  intros Hr B. unfold spherical_to_cylindrical. rewrite check_positive_Val by lra. cbn [obind]. eexists. eexists. split; [reflexivity|].
  assert (S : 0 <= sin theta) by (apply sin_ge_0; lra). assert (P : 0 <= r * sin theta) by (apply Rmult_le_pos; lra). split; [exact P|].
  unfold cylindrical_to_spherical. rewrite check_positive_Val by exact P. cbn [obind].
  replace ((r * sin theta) ^ 2 + (r * cos theta) ^ 2) with (r ^ 2 * (Rsqr (sin theta) + Rsqr (cos theta))) by (unfold Rsqr; ring).
  rewrite sin2_cos2, Rmult_1_r, sqrt_sq_pos by lra. rewrite npdiv_Val by lra. cbn [obind]. replace (r * cos theta / r) with (cos theta) by (field; lra).
  pose proof (COS_bound theta). rewrite nparccos_Val by lra. cbn [obind]. rewrite acos_cos by lra. reflexivity.
Qed.
Lemma cyl_sph_back rho phi z : 0 <= rho -> (rho <> 0 \/ z <> 0) ->
  exists r theta, cylindrical_to_spherical rho phi z = Val (r, theta, phi) /\ 0 < r /\ 0 <= theta <= PI /\ spherical_to_cylindrical r theta phi = Val (rho, phi, z).
Proof.
  intros Hr N. unfold cylindrical_to_spherical. rewrite check_positive_Val by exact Hr. cbn [obind]. set (r := sqrt (rho ^ 2 + z ^ 2)).
  assert (Q : 0 < rho ^ 2 + z ^ 2) by (destruct N as [N|N]; [apply hyp_pos, N|rewrite Rplus_comm; apply hyp_pos, N]).
  assert (P : 0 < r) by (apply sqrt_lt_R0, Q). assert (R2 : r ^ 2 = rho ^ 2 + z ^ 2) by (unfold r; rewrite pow2_sqrt; lra).
  rewrite npdiv_Val by lra. cbn [obind]. pose proof (ratio_bound z (rho ^ 2) r P R2 (pow2_ge_0 rho)) as D. rewrite nparccos_Val by exact D. cbn [obind].
  eexists. eexists. split; [reflexivity|]. split; [exact P|]. split; [apply acos_bound|]. unfold spherical_to_cylindrical. rewrite check_positive_Val by lra. cbn [obind].
  rewrite (sin_acos_ratio z (rho ^ 2) r P R2 (pow2_ge_0 rho)), sqrt_sq_pos, cos_acos by assumption. do 2 f_equal. field. lra.
Qed.
Lemma cyl_sph_zero phi : cylindrical_to_spherical 0 phi 0 = NonFinite.
Proof.
  unfold cylindrical_to_spherical. rewrite check_positive_Val by lra. cbn [obind]. replace (0 ^ 2 + 0 ^ 2) with 0 by ring. rewrite sqrt_0, npdiv_0. reflexivity.
Qed.
Lemma negative_radius r a b : r < 0 -> cylindrical_to_cartesian r a b = Raise ValueError /\ cylindrical_to_spherical r a b = Raise ValueError /\
  spherical_to_cartesian r a b = Raise ValueError /\ spherical_to_cylindrical r a b = Raise ValueError.
Proof.
  intros H. unfold cylindrical_to_cartesian, cylindrical_to_spherical, spherical_to_cartesian, spherical_to_cylindrical. rewrite check_positive_neg by exact H. auto.
Qed.

(** * Rays *)
Lemma sphere_eq_sq c r p : 0 <= r -> on_sphere c r p <-> inner (minus p c) (minus p c) = r ^ 2.
Proof.
  intros H. unfold on_sphere, dist. split; intros E.
  - pose proof (len_sq (minus p c)) as L. rewrite E in L. rewrite <- L. ring.
  - apply len_eq_sq; [exact H|]. rewrite E. ring.
Qed.
Lemma ray_inner p u c mu : inner u u = 1 ->
  inner (minus (plus p (times mu u)) c) (minus (plus p (times mu u)) c) =
  inner (minus p c) (minus p c) + 2 * mu * inner (minus p c) u + mu ^ 2.
Proof.
  intros H. replace (mu ^ 2) with (mu ^ 2 * inner u u) by (rewrite H; ring). unfold inner, minus, plus, times. cbn. ring.
Qed.
Lemma unit_inner u : len u = 1 -> inner u u = 1.
Proof. intros H. rewrite <- len_sq, H. ring. Qed.
Lemma ray_hits p u c rad : len u = 1 -> 0 <= rad -> dist p c ^ 2 - rad ^ 2 <= inner (minus p c) u ^ 2 ->
  exists mu1 mu2, sphere_ray_intersect p u c rad = Val (mu1, mu2) /\ mu2 <= mu1 /\
    forall mu, on_sphere c rad (plus p (times mu u)) <-> mu = mu1 \/ mu = mu2.
Proof.
  intros Hu Hr HD. pose proof (unit_inner u Hu) as U. unfold sphere_ray_intersect. rewrite check_positive_Val by exact Hr. cbn [obind].
  change (np_norm (vsub p c)) with (dist p c). change (np_dot (vsub p c) u) with (inner (minus p c) u). set (b := inner (minus p c) u) in *.
  assert (D2 : dist p c ^ 2 = inner (minus p c) (minus p c)) by (rewrite <- len_sq; unfold dist; ring).
  assert (Q : 0 <= b ^ 2 - dist p c ^ 2 + rad ^ 2) by lra. rewrite npsqrt_Val by exact Q. cbn [obind]. set (s := sqrt _).
  assert (S0 : 0 <= s) by apply sqrt_pos. assert (S2 : s ^ 2 = b ^ 2 - dist p c ^ 2 + rad ^ 2) by (unfold s; apply pow2_sqrt, Q).
  eexists. eexists. split; [reflexivity|]. split; [lra|]. intros mu. rewrite sphere_eq_sq, ray_inner by assumption. fold b. rewrite <- D2. split.
  - intros E. assert (K : (mu - (-1 * b + s)) * (mu - (-1 * b - s)) = 0).
    { replace ((mu - (-1 * b + s)) * (mu - (-1 * b - s))) with (mu ^ 2 + 2 * mu * b + b ^ 2 - s ^ 2) by ring. lra. }
    apply Rmult_integral in K. destruct K; [left|right]; lra.
  - intros [->| ->].
    + replace (dist p c ^ 2 + 2 * (-1 * b + s) * b + (-1 * b + s) ^ 2) with (dist p c ^ 2 - b ^ 2 + s ^ 2) by ring. lra.
    + replace (dist p c ^ 2 + 2 * (-1 * b - s) * b + (-1 * b - s) ^ 2) with (dist p c ^ 2 - b ^ 2 + s ^ 2) by ring. lra.
Qed.
Lemma ray_misses p u c rad : len u = 1 -> 0 <= rad -> inner (minus p c) u ^ 2 < dist p c ^ 2 - rad ^ 2 ->
  sphere_ray_intersect p u c rad = NonFinite /\ forall mu, ~ on_sphere c rad (plus p (times mu u)).
Proof.
  intros Hu Hr HD. pose proof (unit_inner u Hu) as U. unfold sphere_ray_intersect. rewrite check_positive_Val by exact Hr. cbn [obind].
  change (np_norm (vsub p c)) with (dist p c). change (np_dot (vsub p c) u) with (inner (minus p c) u). set (b := inner (minus p c) u) in *.
  assert (D2 : dist p c ^ 2 = inner (minus p c) (minus p c)) by (rewrite <- len_sq; unfold dist; ring).
  rewrite npsqrt_neg by lra. split; [reflexivity|]. intros mu. rewrite sphere_eq_sq, ray_inner by assumption. fold b. rewrite <- D2. intros E.
  pose proof (pow2_ge_0 (mu + b)) as K. replace ((mu + b) ^ 2) with (mu ^ 2 + 2 * mu * b + b ^ 2) in K by ring. lra.
Qed.
Lemma ray_negative p u c rad : rad < 0 -> sphere_ray_intersect p u c rad = Raise ValueError.
Proof. intros H. unfold sphere_ray_intersect. rewrite check_positive_neg by exact H. reflexivity. Qed.
Lemma project_spec p u mu : project_ray p u mu = plus p (times mu u).
Proof. reflexivity. Qed.

(** * Senses *)
Lemma sense_spec v : (sense v = (-1)%Z <-> 0 < v) /\ (sense v = 1%Z <-> v < 0) /\ (sense v = 0%Z <-> v = 0).
Proof.
  unfold sense. destruct (Rltb 0 v) eqn:E1; [apply Rltb_true in E1|apply Rltb_false in E1].
  - repeat split; intros; try discriminate; try reflexivity; lra.
  - destruct (Rltb v 0) eqn:E2; [apply Rltb_true in E2|apply Rltb_false in E2]; repeat split; intros; try discriminate; try reflexivity; lra.
Qed.
Lemma sense_plane n d p : n <> origin -> exists s, find_sense_plane n d p = Val s /\
  (s = (-1)%Z <-> d < inner n p) /\ (s = 1%Z <-> inner n p < d) /\ (s = 0%Z <-> on_plane n d p).
Proof.
  intros H. unfold find_sense_plane. rewrite check_plane_Val by exact H. eexists. split; [reflexivity|]. unfold evaluate_plane_eq. change (np_dot n p) with (inner n p).
  destruct (sense_spec (inner n p - d)) as (A & B & C). rewrite A, B, C. unfold on_plane. repeat split; intros; lra.
Qed.
Lemma sense_sphere p c r : 0 <= r -> exists s, find_sense_sphere p c r = Val s /\
  (s = (-1)%Z <-> r < dist p c) /\ (s = 1%Z <-> dist p c < r) /\ (s = 0%Z <-> on_sphere c r p).
Proof.
  intros H. unfold find_sense_sphere. rewrite check_positive_Val by exact H. eexists. split; [reflexivity|]. unfold evaluate_sphere_eq. change (np_norm (vsub p c)) with (dist p c).
  assert (D : 0 <= dist p c) by apply len_nonneg. destruct (sense_spec (dist p c ^ 2 - r ^ 2)) as (A & B & C). rewrite A, B, C. unfold on_sphere.
  set (x := dist p c) in *. clearbody x. repeat split; intros K.
  - destruct (Rle_lt_dec x r); [exfalso; nra|assumption].
  - nra.
  - destruct (Rle_lt_dec r x); [exfalso; nra|assumption].
  - nra.
  - destruct (Rlt_le_dec x r); [exfalso; nra|]. destruct (Rlt_le_dec r x); [exfalso; nra|]. lra.
  - rewrite K. ring.
Qed.
Lemma sense_gq p c k : let v := q0 c * vx p ^ 2 + q1 c * vy p ^ 2 + q2 c * vz p ^ 2 + q3 c * vx p * vy p + q4 c * vy p * vz p
     + q5 c * vx p * vz p + q6 c * vx p + q7 c * vy p + q8 c * vz p in
  (find_sense_gq p c k = (-1)%Z <-> k < v) /\ (find_sense_gq p c k = 1%Z <-> v < k) /\ (find_sense_gq p c k = 0%Z <-> v = k).
Proof.
  intros v. unfold find_sense_gq, evaluate_gq_eq. fold v. destruct (sense_spec (v - k)) as (A & B & C). rewrite A, B, C. repeat split; intros; lra.
Qed.
Lemma gq_sphere p c r : 0 <= r -> find_sense_sphere p c r =
  Val (find_sense_gq p (Coeffs 1 1 1 0 0 0 (-2 * vx c) (-2 * vy c) (-2 * vz c)) (r ^ 2 - vx c ^ 2 - vy c ^ 2 - vz c ^ 2)).
Proof.
  intros H. unfold find_sense_sphere, find_sense_gq. rewrite check_positive_Val by exact H. cbn [obind]. do 2 f_equal. unfold evaluate_sphere_eq, evaluate_gq_eq.
  replace (np_norm (vsub p c) ^ 2) with (inner (minus p c) (minus p c)) by (rewrite <- len_sq; change (np_norm (vsub p c)) with (len (minus p c)); ring).
  unfold inner, minus. cbn [vx vy vz q0 q1 q2 q3 q4 q5 q6 q7 q8]. ring.
Qed.
Lemma gq_plane p n d : n <> origin -> find_sense_plane n d p = Val (find_sense_gq p (Coeffs 0 0 0 0 0 0 (vx n) (vy n) (vz n)) d).
Proof.
  intros H. unfold find_sense_plane, find_sense_gq. rewrite check_plane_Val by exact H. cbn [obind]. do 2 f_equal. unfold evaluate_plane_eq, evaluate_gq_eq, np_dot.
  cbn [q0 q1 q2 q3 q4 q5 q6 q7 q8]. ring.
Qed.
Lemma sense_opp v : sense (- v) = (- sense v)%Z.
Proof.
  destruct (Rtotal_order v 0) as [L|[E|L]].
  - rewrite (proj2 (proj1 (sense_spec (- v)))), (proj2 (proj1 (proj2 (sense_spec v)))) by lra. reflexivity.
  - subst. replace (- 0) with 0 by ring. rewrite (proj2 (proj2 (proj2 (sense_spec 0))) eq_refl). reflexivity.
  - rewrite (proj2 (proj1 (proj2 (sense_spec (- v))))), (proj2 (proj1 (sense_spec v))) by lra. reflexivity.
Qed.
Lemma sense_plane_flip n d p s : n <> origin -> find_sense_plane n d p = Val s -> find_sense_plane (times (-1) n) (- d) p = Val (- s)%Z.
Proof.
  intros H. assert (times (-1) n <> origin). { intros E. apply H. injection E as Ex Ey Ez. apply vec_eq; cbn; lra. }
  unfold find_sense_plane. rewrite !check_plane_Val by assumption. cbn [obind]. intros [= <-]. f_equal. rewrite <- sense_opp. f_equal.
  unfold evaluate_plane_eq, np_dot, times. cbn. ring.
Qed.

(** * Areas and volumes *)
Lemma negative_circle r : r < 0 -> area_circle r = Raise ValueError.
Proof. intros H. unfold area_circle. rewrite check_positive_neg by exact H. reflexivity. Qed.
Lemma circle_val r : 0 <= r -> area_circle r = Val (PI * r * r).
Proof. intros H. unfold area_circle. rewrite check_positive_Val by exact H. reflexivity. Qed.
Lemma sphere_val r : 0 <= r -> volume_sphere r = Val (4 / 3 * PI * r ^ 3).
Proof. intros H. unfold volume_sphere. rewrite check_positive_Val by exact H. reflexivity. Qed.
Ltac vals := rewrite ?sphere_val, ?circle_val, ?check_positive_Val by lra; cbn [obind].
Lemma rabs_minus_r a b : a <= b -> Rabs (a - b) = b - a.
Proof. intros. rewrite Rabs_left1 by lra. ring. Qed.
Lemma pi_mono k f g : 0 <= k -> f <= g -> k * f <= k * g.
Proof. intros. apply Rmult_le_compat_l; assumption. Qed.
Lemma cube_mono a b : 0 <= a <= b -> 4 / 3 * PI * a ^ 3 <= 4 / 3 * PI * b ^ 3.
Proof. intros. pose proof PI_RGT_0. apply pi_mono; [lra|]. apply pow_incr. lra. Qed.
Lemma square_mono a b : 0 <= a <= b -> PI * a * a <= PI * b * b.
Proof. intros. pose proof PI_RGT_0. rewrite !Rmult_assoc. apply pi_mono; [lra|]. nra. Qed.
Lemma shell_sphere a b : 0 <= a <= b -> exists va vb v, volume_sphere a = Val va /\ volume_sphere b = Val vb /\ volume_spherical_shell a b = Val v /\
  volume_spherical_shell b a = Val v /\ v = vb - va /\ 0 <= v.
Proof.
  intros H. pose proof (cube_mono a b H) as M. unfold volume_spherical_shell. vals. do 3 eexists. split; [reflexivity|]. split; [reflexivity|].
  rewrite (Rabs_minus_sym (4 / 3 * PI * b ^ 3)), rabs_minus_r by exact M. repeat split. lra.
Qed.
Lemma shell_circle a b : 0 <= a <= b -> exists va vb v, area_circle a = Val va /\ area_circle b = Val vb /\ area_cyl_shell a b = Val v /\
  area_cyl_shell b a = Val v /\ v = vb - va /\ 0 <= v.
Proof.
  intros H. pose proof (square_mono a b H) as M. unfold area_cyl_shell. vals. do 3 eexists. split; [reflexivity|]. split; [reflexivity|].
  rewrite (Rabs_minus_sym (PI * b * b)), rabs_minus_r by exact M. repeat split. lra.
Qed.
Lemma shell_cyl a b h : 0 <= a <= b -> 0 <= h -> exists va vb v, volume_cyl a h = Val va /\ volume_cyl b h = Val vb /\ volume_cyl_shell a b h = Val v /\
  volume_cyl_shell b a h = Val v /\ v = vb - va /\ 0 <= v.
Proof.
  intros H Hh. destruct (shell_circle a b H) as (ca & cb & c & Ea & Eb & E & E' & V & P). unfold volume_cyl, volume_cyl_shell. vals.
  rewrite circle_val in Ea, Eb by lra. injection Ea as Ea. injection Eb as Eb. rewrite E, E'. cbn [obind]. do 3 eexists. repeat split; rewrite ?V, <- ?Ea, <- ?Eb; [ring|]. rewrite <- Ea, <- Eb, V in *. nra.
Qed.
Lemma shell_additive a b c v w : 0 <= a <= b -> b <= c -> volume_spherical_shell a b = Val v -> volume_spherical_shell b c = Val w -> volume_spherical_shell a c = Val (v + w).
Proof.
  intros H1 H2 E F. destruct (shell_sphere a b H1) as (? & ? & ? & A1 & A2 & A3 & _ & A4 & _). destruct (shell_sphere b c ltac:(lra)) as (? & ? & ? & B1 & B2 & B3 & _ & B4 & _).
  destruct (shell_sphere a c ltac:(lra)) as (? & ? & ? & C1 & C2 & C3 & _ & C4 & _). rewrite C3. f_equal.
  rewrite A3 in E. injection E as <-. rewrite B3 in F. injection F as <-. rewrite A2 in B1. rewrite A1 in C1. rewrite B2 in C2. injection B1 as <-. injection C1 as <-. injection C2 as <-. lra.
Qed.
Lemma circle_additive a b c v w : 0 <= a <= b -> b <= c -> area_cyl_shell a b = Val v -> area_cyl_shell b c = Val w -> area_cyl_shell a c = Val (v + w).
Proof.
  intros H1 H2 E F. destruct (shell_circle a b H1) as (? & ? & ? & A1 & A2 & A3 & _ & A4 & _). destruct (shell_circle b c ltac:(lra)) as (? & ? & ? & B1 & B2 & B3 & _ & B4 & _).
  destruct (shell_circle a c ltac:(lra)) as (? & ? & ? & C1 & C2 & C3 & _ & C4 & _). rewrite C3. f_equal.
  rewrite A3 in E. injection E as <-. rewrite B3 in F. injection F as <-. rewrite A2 in B1. rewrite A1 in C1. rewrite B2 in C2. injection B1 as <-. injection C1 as <-. injection C2 as <-. lra.
Qed.
Lemma cyl_additive a b c h v w : 0 <= a <= b -> b <= c -> 0 <= h -> volume_cyl_shell a b h = Val v -> volume_cyl_shell b c h = Val w -> volume_cyl_shell a c h = Val (v + w).
Proof.
  intros H1 H2 Hh E F. destruct (shell_cyl a b h H1 Hh) as (? & ? & ? & A1 & A2 & A3 & _ & A4 & _). destruct (shell_cyl b c h ltac:(lra) Hh) as (? & ? & ? & B1 & B2 & B3 & _ & B4 & _).
  destruct (shell_cyl a c h ltac:(lra) Hh) as (? & ? & ? & C1 & C2 & C3 & _ & C4 & _). rewrite C3. f_equal.
  rewrite A3 in E. injection E as <-. rewrite B3 in F. injection F as <-. rewrite A2 in B1. rewrite A1 in C1. rewrite B2 in C2. injection B1 as <-. injection C1 as <-. injection C2 as <-. lra.
Qed.
(** The surface is the rate of change of the volume. *)
Lemma sphere_rate a b sa sb va vb : 0 <= a <= b -> area_sphere a = Val sa -> area_sphere b = Val sb -> volume_sphere a = Val va -> volume_sphere b = Val vb ->
  sa * (b - a) <= vb - va <= sb * (b - a).
Proof.
  intros H. unfold area_sphere. vals. intros [= <-] [= <-] [= <-] [= <-]. pose proof PI_RGT_0 as P.
  assert (P2 : 0 <= PI / 3) by lra.
  change (4 * PI * a ^ 2 * (b - a) <= 4 / 3 * PI * b ^ 3 - 4 / 3 * PI * a ^ 3 <= 4 * PI * b ^ 2 * (b - a)).
  replace (4 * PI * a ^ 2 * (b - a)) with (PI / 3 * (12 * a ^ 2 * (b - a))) by field.
  replace (4 * PI * b ^ 2 * (b - a)) with (PI / 3 * (12 * b ^ 2 * (b - a))) by field.
  replace (4 / 3 * PI * b ^ 3 - 4 / 3 * PI * a ^ 3) with (PI / 3 * (4 * (b ^ 3 - a ^ 3))) by field.
  split; apply pi_mono; try exact P2.
  - apply Rminus_le. replace (12 * a ^ 2 * (b - a) - 4 * (b ^ 3 - a ^ 3)) with (- (4 * (b - a) ^ 2 * (b + 2 * a))) by ring.
    pose proof (pow2_ge_0 (b - a)). assert (0 <= (b - a) ^ 2 * (b + 2 * a)) by (apply Rmult_le_pos; lra). lra.
  - apply Rminus_le. replace (4 * (b ^ 3 - a ^ 3) - 12 * b ^ 2 * (b - a)) with (- (4 * (b - a) ^ 2 * (2 * b + a))) by ring.
    pose proof (pow2_ge_0 (b - a)). assert (0 <= (b - a) ^ 2 * (2 * b + a)) by (apply Rmult_le_pos; lra). lra.
Qed.
Lemma circle_rate a b sa sb va vb : 0 <= a <= b -> perim_circle a = Val sa -> perim_circle b = Val sb -> area_circle a = Val va -> area_circle b = Val vb ->
  sa * (b - a) <= vb - va <= sb * (b - a).
Proof.
  intros H. unfold perim_circle. vals. intros [= <-] [= <-] [= <-] [= <-]. pose proof PI_RGT_0 as P.
  replace (2 * PI * a * (b - a)) with (PI * (2 * a * (b - a))) by ring. replace (2 * PI * b * (b - a)) with (PI * (2 * b * (b - a))) by ring.
  replace (PI * b * b - PI * a * a) with (PI * (b * b - a * a)) by ring.
  split; apply pi_mono; try lra; apply Rminus_le.
  - replace (2 * a * (b - a) - (b * b - a * a)) with (- (b - a) ^ 2) by ring. pose proof (pow2_ge_0 (b - a)). lra.
  - replace (b * b - a * a - 2 * b * (b - a)) with (- (b - a) ^ 2) by ring. pose proof (pow2_ge_0 (b - a)). lra.
Qed.
Lemma sphere_zero : volume_sphere 0 = Val 0 /\ area_circle 0 = Val 0.
Proof. vals. split; f_equal; ring. Qed.
Lemma perim_unit : perim_circle 1 = Val (2 * PI).
Proof. unfold perim_circle. vals. f_equal. ring. Qed.
Lemma archimedes r : 0 <= r -> exists s c, area_sphere r = Val s /\ area_circle r = Val c /\ s = 4 * c.
Proof. intros H. unfold area_sphere. vals. do 2 eexists. repeat split. ring. Qed.
Lemma cone_third r h v : 0 <= r -> 0 <= h -> volume_cyl r h = Val v -> exists c, volume_cone r h = Val c /\ 3 * c = v.
Proof. intros Hr Hh E. unfold volume_cone. rewrite E. cbn [obind]. eexists. split; [reflexivity|]. field. Qed.
Lemma cyl_product r h a : 0 <= r -> 0 <= h -> area_circle r = Val a -> volume_cyl r h = Val (a * h).
Proof. intros Hr Hh E. unfold volume_cyl. rewrite check_positive_Val, E by exact Hh. reflexivity. Qed.
Lemma cyl_surface r h a p : 0 <= r -> 0 <= h -> area_circle r = Val a -> perim_circle r = Val p -> area_cyl r h = Val (2 * a + p * h).
Proof. intros Hr Hh E F. unfold area_cyl. rewrite E, F. vals. reflexivity. Qed.
Lemma cone_surface r h : 0 <= r -> 0 <= h -> exists s c, area_cone_surf r h = Val s /\ area_circle r = Val c /\ 0 <= s /\ s ^ 2 = c ^ 2 + (PI * r * h) ^ 2.
Proof.
  intros Hr Hh. pose proof PI_RGT_0 as P. unfold area_cone_surf. vals. assert (Q : 0 <= r * r + h * h) by nra. rewrite npsqrt_Val by exact Q. cbn [obind].
  do 2 eexists. split; [reflexivity|]. split; [reflexivity|]. split; [apply Rmult_le_pos; [nra|apply sqrt_pos]|].
  replace ((PI * r * sqrt (r * r + h * h)) ^ 2) with ((PI * r) ^ 2 * sqrt (r * r + h * h) ^ 2) by ring. rewrite pow2_sqrt by exact Q. ring.
Qed.
Lemma negative_raises r h : r < 0 -> perim_circle r = Raise ValueError /\ area_circle r = Raise ValueError /\ area_sphere r = Raise ValueError /\ volume_sphere r = Raise ValueError /\
  area_cyl r h = Raise ValueError /\ area_cyl h r = Raise ValueError /\ area_cone_surf r h = Raise ValueError /\ area_cone_surf h r = Raise ValueError /\
  volume_cyl r h = Raise ValueError /\ volume_cyl h r = Raise ValueError /\ volume_cone r h = Raise ValueError /\ volume_cone h r = Raise ValueError /\
  area_cyl_shell r h = Raise ValueError /\ area_cyl_shell h r = Raise ValueError /\ volume_spherical_shell r h = Raise ValueError /\ volume_spherical_shell h r = Raise ValueError.
Proof.
  intros H. assert (C : forall x, check_positive x = Val tt \/ check_positive x = Raise ValueError) by (intros x; unfold check_positive; destruct (Rltb x 0); auto).
  unfold perim_circle, area_sphere, area_cyl, area_cone_surf, volume_cone, volume_cyl, area_cyl_shell, volume_spherical_shell, volume_sphere, area_circle.
  rewrite !(check_positive_neg r) by exact H. cbn [obind]. destruct (C h) as [->| ->]; cbn [obind]; repeat split; reflexivity.
Qed.

(** * pythag_h *)
Lemma pythag_ok a b : a <> 0 -> b <> 0 -> 0 < pythag_h a b /\ pythag_h a b ^ 2 = a ^ 2 + b ^ 2.
Proof.
  intros Ha Hb. unfold pythag_h. rewrite (proj2 (Reqb_false a 0) Ha), (proj2 (Reqb_false b 0) Hb). cbn [orb]. pose proof (hyp_pos a b Ha) as P.
  split; [apply sqrt_lt_R0, P|apply pow2_sqrt; lra].
Qed.
Lemma pythag_zero a : pythag_h a 0 = 0 /\ pythag_h 0 a = 0.
Proof. unfold pythag_h. rewrite (proj2 (Reqb_true 0 0) eq_refl), Bool.orb_true_r. auto. Qed.
Lemma pythag_wrong a : a <> 0 -> pythag_h a 0 ^ 2 <> a ^ 2 + 0 ^ 2 /\ pythag_h 0 a ^ 2 <> 0 ^ 2 + a ^ 2.
Proof.
  intros Ha. destruct (pythag_zero a) as (-> & ->). pose proof (hyp_pos a 0 Ha) as P. split; lra.
Qed.

(** * Remaining facts used by the properties *)
Lemma plane_sphere_below : exists n d p rad, n <> origin /\ 0 <= rad /\ (forall q, on_plane n d q -> ~ on_sphere p rad q) /\
  plane_sphere_intersect n d p rad = NonFinite.
Proof.
  assert (L : len (Vec 1 0 0) = 1) by (apply len_eq_sq; [lra|unfold inner; cbn; ring]).
  assert (N : Vec 1 0 0 <> origin) by (intros E; injection E; lra).
  exists (Vec 1 0 0), (-5), origin, 2. split; [exact N|]. split; [lra|]. split.
  - intros q. unfold on_plane, on_sphere, dist, inner. cbn [vx vy vz]. intros E K. pose proof (len_sq (minus q origin)) as S. rewrite K in S.
    unfold inner, minus, origin in S. cbn [vx vy vz] in S. assert (X : vx q = -5) by lra. rewrite X in S.
    pose proof (Rle_0_sqr (vy q - 0)) as Y. pose proof (Rle_0_sqr (vz q - 0)) as Z. unfold Rsqr in *. lra.
  - rewrite plane_sphere_miss; [|exact N|lra|].
    + destruct (Rlt_dec _ _) as [K|]; [|reflexivity]. unfold inner, origin in K. cbn in K. lra.
    + rewrite L. unfold inner, origin. cbn [vx vy vz]. rewrite Rabs_left; lra.
Qed.
Lemma cyl_zero y z : cartesian_to_cylindrical 0 y z = Raise ZeroDivisionError.
Proof. unfold cartesian_to_cylindrical. rewrite azimuth_zero. reflexivity. Qed.
Lemma sph_back r theta phi : 0 < r -> 0 < theta < PI -> - (PI / 2) < phi < 3 * PI / 2 -> phi <> PI / 2 ->
  exists x y z, spherical_to_cartesian r theta phi = Val (x, y, z) /\ cartesian_to_spherical x y z = Val (r, theta, phi).
Proof.
  intros Hr T B N. unfold spherical_to_cartesian. rewrite check_positive_Val by lra. cbn [obind]. do 3 eexists. split; [reflexivity|].
  assert (S : 0 < sin theta) by (apply sin_gt_0; lra). assert (P : 0 < r * sin theta) by (apply Rmult_lt_0_compat; lra).
  unfold cartesian_to_spherical. rewrite azimuth_back by assumption. cbn [obind].
  replace ((r * sin theta * cos phi) ^ 2 + (r * sin theta * sin phi) ^ 2 + (r * cos theta) ^ 2)
    with (r ^ 2 * (Rsqr (sin theta) * (Rsqr (sin phi) + Rsqr (cos phi)) + Rsqr (cos theta))) by (unfold Rsqr; ring).
  rewrite sin2_cos2, Rmult_1_r, sin2_cos2, Rmult_1_r, sqrt_sq_pos by lra. rewrite npdiv_Val by lra. cbn [obind].
  replace (r * cos theta / r) with (cos theta) by (field; lra). pose proof (COS_bound theta). rewrite nparccos_Val by lra. cbn [obind].
  rewrite acos_cos by lra. reflexivity.
Qed.
Lemma sph_via_cyl r theta phi rho z : 0 <= r -> 0 <= theta <= PI -> spherical_to_cylindrical r theta phi = Val (rho, phi, z) ->
  cylindrical_to_cartesian rho phi z = spherical_to_cartesian r theta phi.
Proof.
  intros Hr T. assert (S : 0 <= sin theta) by (apply sin_ge_0; lra). unfold spherical_to_cylindrical, spherical_to_cartesian, cylindrical_to_cartesian.
  rewrite (check_positive_Val r) by exact Hr. cbn [obind]. intros [= <- <-]. rewrite check_positive_Val by (apply Rmult_le_pos; assumption). reflexivity.
Qed.
Lemma sense_bad p c d r : r < 0 -> find_sense_sphere p c r = Raise ValueError /\ find_sense_plane origin d p = Raise ValueError.
Proof. intros H. unfold find_sense_sphere, find_sense_plane. rewrite check_positive_neg, check_plane_zero by exact H. auto. Qed.
Lemma additive a b c : 0 <= a <= b -> b <= c ->
  (forall v w, volume_spherical_shell a b = Val v -> volume_spherical_shell b c = Val w -> volume_spherical_shell a c = Val (v + w)) /\
  (forall v w, area_cyl_shell a b = Val v -> area_cyl_shell b c = Val w -> area_cyl_shell a c = Val (v + w)) /\
  (forall h v w, 0 <= h -> volume_cyl_shell a b h = Val v -> volume_cyl_shell b c h = Val w -> volume_cyl_shell a c h = Val (v + w)).
Proof.
  intros H K. split; [|split]; intros.
  - eapply shell_additive with (b := b); eassumption.
  - eapply circle_additive with (b := b); eassumption.
  - eapply cyl_additive with (b := b); eassumption.
Qed.
Lemma negative_cyl_shell a b h : a < 0 \/ b < 0 \/ h < 0 -> volume_cyl_shell a b h = Raise ValueError.
Proof.
  intros H. assert (C : forall x, (0 <= x /\ check_positive x = Val tt) \/ check_positive x = Raise ValueError).
  { intros x. destruct (Rle_lt_dec 0 x); [left; split; [assumption|apply check_positive_Val; assumption]|right; apply check_positive_neg; assumption]. }
  unfold volume_cyl_shell, area_cyl_shell, area_circle.
  destruct (C h) as [(Hh & ->)| ->]; cbn [obind]; try reflexivity; destruct (C a) as [(Ha & ->)| ->]; cbn [obind]; try reflexivity;
  destruct (C b) as [(Hb & ->)| ->]; cbn [obind]; try reflexivity. exfalso. lra.
Qed.
Lemma triangle a b : len (plus a b) <= len a + len b.
Proof.
  pose proof (len_nonneg a) as A. pose proof (len_nonneg b) as B. pose proof (abs_inner_le a b) as K. pose proof (Rle_abs (inner a b)) as K2.
  apply Rsqr_incr_0_var; [|lra]. unfold Rsqr. rewrite len_sq. replace (inner (plus a b) (plus a b)) with (inner a a + 2 * inner a b + inner b b) by (unfold inner, plus; cbn; ring).
  rewrite <- !len_sq. replace ((len a + len b) * (len a + len b)) with (len a * len a + 2 * (len a * len b) + len b * len b) by ring. lra.
Qed.
Lemma metric p q r : dist_bet_points p q = dist_bet_points q p /\ 0 <= dist_bet_points p q /\
  (dist_bet_points p q = 0 <-> p = q) /\ dist_bet_points p r <= dist_bet_points p q + dist_bet_points q r.
Proof.
  unfold dist_bet_points. change (fun a b => np_norm (vsub a b)) with (fun a b => len (minus a b)).
  change (np_norm (vsub q p)) with (len (minus q p)). change (np_norm (vsub p q)) with (len (minus p q)).
  change (np_norm (vsub r p)) with (len (minus r p)). change (np_norm (vsub r q)) with (len (minus r q)).
  split; [apply len_inj_sq; unfold inner, minus; cbn; ring|]. split; [apply len_nonneg|]. split.
  - split.
    + intros E. destruct (Rtotal_order 0 (inner (minus q p) (minus q p))) as [L|[Z|L]].
      * exfalso. rewrite <- len_sq, E in L. lra.
      * unfold inner, minus in Z. cbn in Z. pose proof (Rle_0_sqr (vx q - vx p)) as X. pose proof (Rle_0_sqr (vy q - vy p)) as Y. pose proof (Rle_0_sqr (vz q - vz p)) as W.
        assert (K : forall t, Rsqr t = 0 -> t = 0) by (intros; apply Rsqr_0_uniq; assumption). unfold Rsqr in X, Y, W.
        pose proof (K (vx q - vx p) ltac:(unfold Rsqr; lra)). pose proof (K (vy q - vy p) ltac:(unfold Rsqr; lra)). pose proof (K (vz q - vz p) ltac:(unfold Rsqr; lra)).
        apply vec_eq; lra.
      * exfalso. pose proof (inner_self (minus q p)). lra.
    + intros ->. apply len_eq_sq; [lra|]. unfold inner, minus. cbn. ring.
  - replace (minus r p) with (plus (minus q p) (minus r q)) by (unfold plus, minus; cbn; f_equal; ring). apply triangle.
Qed.
Lemma segment_wrong p0 p1 n d : n <> origin -> (inner n p0 - d) * (inner n p1 - d) < 0 ->
  d <> 0 -> inner n (minus p1 p0) <> 1 -> exists q, line_segment_plane_intersection p0 p1 n d = Val q /\ ~ on_plane n d q.
Proof.
  intros Hn Hv Hd H1. destruct (segment_value p0 p1 n d Hn Hv) as (q & E & K & _). exists q. split; [exact E|]. rewrite K. intros [?|?]; contradiction.
Qed.
