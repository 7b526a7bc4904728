(** Proofs about M_geom.v, continued. *)
From Coq Require Import Reals Lra Psatz.
From Verif Require Import PyReal M_geom SpecGeom P_geom.
Local Open Scope R_scope.

(** * plane_plane_intersect *)
Lemma cross_zero a b : a <> origin -> b <> origin -> np_cross a b = origin -> parallel a b.
Proof.
  intros Ha Hb E. injection E as E1 E2 E3. pose proof (inner_pos b Hb) as Pb. exists (inner a b / inner b b). split.
  - intros K. assert (Z : inner a b = 0).
    { replace (inner a b) with (inner a b / inner b b * inner b b) by (field; lra). rewrite K. ring. }
    pose proof (inner_pos a Ha) as Pa.
    assert (H : inner a a * inner b b = inner a b ^ 2 + (vx a * vy b - vy a * vx b) ^ 2 + (vy a * vz b - vz a * vy b) ^ 2 + (vz a * vx b - vx a * vz b) ^ 2)
      by (unfold inner; ring).
    rewrite Z, E1, E2, E3 in H. assert (0 < inner a a * inner b b) by (apply Rmult_lt_0_compat; assumption). lra.
  - apply vec_eq; cbn; apply (Rmult_eq_reg_r (inner b b)); try lra; unfold Rdiv; rewrite (Rmult_comm (inner a b * / inner b b)), Rmult_assoc, (Rmult_assoc (inner a b)), Rinv_l, Rmult_1_r by lra; unfold inner.
    + replace (vx a * (vx b * vx b + vy b * vy b + vz b * vz b)) with (vx b * (vx a * vx b + vy a * vy b + vz a * vz b) + vy b * (vx a * vy b - vy a * vx b) - vz b * (vz a * vx b - vx a * vz b)) by ring. rewrite E2, E3. ring.
    + replace (vy a * (vx b * vx b + vy b * vy b + vz b * vz b)) with (vy b * (vx a * vx b + vy a * vy b + vz a * vz b) - vx b * (vx a * vy b - vy a * vx b) + vz b * (vy a * vz b - vz a * vy b)) by ring. rewrite E1, E3. ring.
    + replace (vz a * (vx b * vx b + vy b * vy b + vz b * vz b)) with (vz b * (vx a * vx b + vy a * vy b + vz a * vz b) + vx b * (vz a * vx b - vx a * vz b) - vy b * (vy a * vz b - vz a * vy b)) by ring. rewrite E1, E2. ring.
Qed.
Lemma cross_parallel k b : np_cross (times k b) b = origin.
Proof. apply vec_eq; cbn; ring. Qed.
Lemma same_is_parallel a b : same_direction a b -> parallel a b.
Proof. intros (k & Hk & E). exists k. split; [lra|exact E]. Qed.

Lemma plane_plane_ok n1 d1 n2 d2 z : n1 <> origin -> n2 <> origin -> vx n1 * vy n2 - vy n1 * vx n2 <> 0 ->
  exists p q, plane_plane_intersect n1 d1 n2 d2 z = Val (p, q) /\ vz p = z /\ len q = 1 /\
    forall t, on_plane n1 d1 (plus p (times t q)) /\ on_plane n2 d2 (plus p (times t q)).
Proof.
  intros H1 H2 HD. unfold plane_plane_intersect. rewrite !check_plane_Val by assumption. cbn [obind].
  assert (HC : np_cross n1 n2 <> origin) by (intros E; apply HD; injection E; auto).
  destruct (parallel_cases n1 n2 H1 H2) as [((k & Hk & E) & _)|(_ & ->)].
  { elim HC. rewrite E. apply cross_parallel. }
  cbn [obind]. pose proof (len_pos _ HC) as L. change (np_norm (np_cross n1 n2)) with (len (np_cross n1 n2)). rewrite vdiv_Val by lra. cbn [obind].
  unfold np_solve2. destruct (Req_EM_T _ 0) as [K|_]; [contradiction|]. cbn [obind fst snd]. eexists. eexists. split; [reflexivity|]. split; [reflexivity|].
  split.
  { rewrite len_times, Rabs_right; [field; lra|]. apply Rle_ge, Rlt_le, Rinv_0_lt_compat, L. }
  intros t. set (l := len (np_cross n1 n2)) in *. clearbody l. assert (l <> 0) by lra. unfold on_plane, inner, plus, times, np_cross. cbn. split; field; auto.
Qed.
Lemma plane_plane_singular n1 d1 n2 d2 z : n1 <> origin -> n2 <> origin -> ~ parallel n1 n2 -> vx n1 * vy n2 - vy n1 * vx n2 = 0 ->
  plane_plane_intersect n1 d1 n2 d2 z = Raise ValueError.
Proof.
  intros H1 H2 HP HD. unfold plane_plane_intersect. rewrite !check_plane_Val by assumption. cbn [obind].
  destruct (parallel_cases n1 n2 H1 H2) as [(K & _)|(_ & ->)]; [elim (HP (same_is_parallel _ _ K))|]. cbn [obind].
  assert (HC : np_cross n1 n2 <> origin) by (intros E; apply HP, cross_zero; assumption).
  pose proof (len_pos _ HC) as L. change (np_norm (np_cross n1 n2)) with (len (np_cross n1 n2)). rewrite vdiv_Val by lra. cbn [obind].
  unfold np_solve2. destruct (Req_EM_T _ 0) as [K|K]; [reflexivity|contradiction].
Qed.
Lemma plane_plane_same n1 d1 n2 d2 z : n2 <> origin -> same_direction n1 n2 -> plane_plane_intersect n1 d1 n2 d2 z = Raise ValueError.
Proof.
  intros H2 HS. assert (H1 : n1 <> origin).
  { destruct HS as (k & Hk & ->). intros E. apply H2. injection E as Ex Ey Ez. apply vec_eq; cbn; nra. }
  unfold plane_plane_intersect. rewrite !check_plane_Val by assumption. cbn [obind].
  rewrite (proj2 (proj1 (parallel_true n1 n2 H1 H2)) HS). reflexivity.
Qed.
Lemma plane_plane_opposite k n d1 d2 z : n <> origin -> k < 0 -> plane_plane_intersect (times k n) d1 n d2 z = NonFinite.
Proof.
  intros Hn Hk. assert (H1 : times k n <> origin).
  { intros E. apply Hn. injection E as Ex Ey Ez. apply vec_eq; cbn; nra. }
  unfold plane_plane_intersect. rewrite !check_plane_Val by assumption. cbn [obind]. rewrite opposite_not_parallel by assumption. cbn [obind].
  rewrite cross_parallel. replace (np_norm origin) with 0; [rewrite vdiv_0; reflexivity|]. unfold np_norm, np_dot, origin. cbn. replace (0 * 0 + 0 * 0 + 0 * 0) with 0 by ring. symmetry. apply sqrt_0.
Qed.

(** * dist_between_planes *)
Lemma planes_distance n1 d1 n2 d2 : n2 <> origin -> same_direction n1 n2 -> vx n2 <> 0 ->
  exists D n2', dist_between_planes n1 d1 n2 d2 = Val (D, n2') /\ n2' = n1 /\
    forall p, on_plane n1 d1 p -> on_plane n2 d2 (plus p (times (D / len n1) n1)).
Proof.
  intros H2 (k & Hk & ->) Hx. assert (H1 : times k n2 <> origin). { intros E. apply H2. injection E as Ex Ey Ez. apply vec_eq; cbn; nra. }
  unfold dist_between_planes. rewrite !check_plane_Val by assumption. cbn [obind].
  rewrite (proj2 (proj1 (parallel_true _ n2 H1 H2))) by (exists k; auto). cbn [obind negb]. rewrite npdiv_Val by exact Hx. cbn [obind].
  replace (vx (times k n2) / vx n2) with k by (cbn; field; exact Hx). change (vscale k n2) with (times k n2).
  pose proof (len_pos _ H1) as L. change (np_norm (times k n2)) with (len (times k n2)). rewrite npdiv_Val by lra. cbn [obind]. eexists. eexists. split; [reflexivity|].
  split; [reflexivity|]. intros p Hp. unfold on_plane in *. set (l := len (times k n2)) in *.
  apply (Rmult_eq_reg_l k); [|lra].
  replace (k * inner n2 (plus p (times ((d2 * k - d1) / l / l) (times k n2)))) with (inner (times k n2) p + (d2 * k - d1) / l / l * inner (times k n2) (times k n2))
    by (unfold inner, plus, times; cbn; ring).
  rewrite Hp, <- len_sq. fold l. field. lra.
Qed.
Lemma planes_distance_x0 n1 d1 n2 d2 : n2 <> origin -> same_direction n1 n2 -> vx n2 = 0 -> dist_between_planes n1 d1 n2 d2 = NonFinite.
Proof.
  intros H2 (k & Hk & ->) Hx. assert (H1 : times k n2 <> origin). { intros E. apply H2. injection E as Ex Ey Ez. apply vec_eq; cbn; nra. }
  unfold dist_between_planes. rewrite !check_plane_Val by assumption. cbn [obind].
  rewrite (proj2 (proj1 (parallel_true _ n2 H1 H2))) by (exists k; auto). cbn [obind negb]. rewrite Hx, npdiv_0. reflexivity.
Qed.
Lemma planes_not_parallel n1 d1 n2 d2 : n1 <> origin -> n2 <> origin -> ~ same_direction n1 n2 -> dist_between_planes n1 d1 n2 d2 = Val (0, n2).
Proof.
  intros H1 H2 H. unfold dist_between_planes. rewrite !check_plane_Val by assumption. cbn [obind].
  destruct (parallel_cases n1 n2 H1 H2) as [(K & _)|(_ & ->)]; [contradiction|reflexivity].
Qed.
Lemma planes_opposite k n d1 d2 : n <> origin -> k < 0 -> dist_between_planes (times k n) d1 n d2 = Val (0, n).
Proof.
  intros Hn Hk. apply planes_not_parallel; [|exact Hn|apply opposite_not_same; assumption].
  intros E. apply Hn. injection E as Ex Ey Ez. apply vec_eq; cbn; nra.
Qed.

(** * angle_between_planes *)
Lemma abs_quotient a b : a <> origin -> b <> origin -> 0 <= Rabs (inner a b) / (len a * len b) <= 1.
Proof.
  intros Ha Hb. pose proof (len_pos _ Ha) as La. pose proof (len_pos _ Hb) as Lb. assert (P : 0 < len a * len b) by (apply Rmult_lt_0_compat; assumption). split.
  - apply Rmult_le_pos; [apply Rabs_pos|apply Rlt_le, Rinv_0_lt_compat, P].
  - apply (Rmult_le_reg_r (len a * len b)); [exact P|]. unfold Rdiv. rewrite Rmult_assoc, Rinv_l, Rmult_1_r, Rmult_1_l by lra. apply abs_inner_le.
Qed.
Lemma angle_spec n1 d1 n2 d2 : n1 <> origin -> n2 <> origin -> ~ same_direction n1 n2 ->
  exists theta, angle_between_planes n1 d1 n2 d2 = Val theta /\ 0 <= theta <= PI / 2 /\ cos theta * (len n1 * len n2) = Rabs (inner n1 n2).
Proof.
  intros H1 H2 H. pose proof (len_pos _ H1) as La. pose proof (len_pos _ H2) as Lb. unfold angle_between_planes. rewrite !check_plane_Val by assumption. cbn [obind].
  destruct (parallel_cases n1 n2 H1 H2) as [(K & _)|(_ & ->)]; [contradiction|]. cbn [obind].
  rewrite npsqrt_Val by apply pow2_ge_0. cbn [obind]. change (np_dot n1 n2) with (inner n1 n2). change (np_norm n1) with (len n1). change (np_norm n2) with (len n2).
  replace (sqrt (inner n1 n2 ^ 2)) with (Rabs (inner n1 n2)) by (rewrite <- sqrt_Rsqr_abs; f_equal; unfold Rsqr; ring).
  assert (P : 0 < len n1 * len n2) by (apply Rmult_lt_0_compat; assumption). rewrite npdiv_Val by lra. cbn [obind].
  pose proof (abs_quotient n1 n2 H1 H2) as Q. rewrite nparccos_Val by lra. eexists. split; [reflexivity|]. set (c := Rabs (inner n1 n2) / (len n1 * len n2)) in *. split.
  - pose proof (acos_bound c) as (A & _). split; [exact A|]. destruct (Req_dec c 0) as [->|Hc]; [rewrite acos_0; lra|].
    destruct (Rle_lt_dec (acos c) (PI / 2)) as [L|L]; [exact L|exfalso]. pose proof (acos_bound c) as (_ & B).
    assert (cos (acos c) < 0) by (apply cos_lt_0; lra). rewrite cos_acos in H0 by lra. lra.
  - rewrite cos_acos by lra. unfold c. field. lra.
Qed.
Lemma angle_parallel n1 d1 n2 d2 : n2 <> origin -> same_direction n1 n2 -> angle_between_planes n1 d1 n2 d2 = Raise ValueError.
Proof.
  intros H2 HS. assert (H1 : n1 <> origin).
  { destruct HS as (k & Hk & ->). intros E. apply H2. injection E as Ex Ey Ez. apply vec_eq; cbn; nra. }
  unfold angle_between_planes. rewrite !check_plane_Val by assumption. cbn [obind].
  rewrite (proj2 (proj1 (parallel_true n1 n2 H1 H2)) HS). reflexivity.
Qed.
Lemma angle_opposite k n d1 d2 : n <> origin -> k < 0 -> angle_between_planes (times k n) d1 n d2 = Val 0.
Proof.
  intros Hn Hk. assert (H1 : times k n <> origin). { intros E. apply Hn. injection E as Ex Ey Ez. apply vec_eq; cbn; nra. }
  destruct (angle_spec (times k n) d1 n d2 H1 Hn (opposite_not_same n k Hn Hk)) as (t & E & B & C). rewrite E. f_equal.
  pose proof (len_pos n Hn) as L. rewrite len_times in C. replace (inner (times k n) n) with (k * inner n n) in C by (unfold inner, times; cbn; ring).
  rewrite <- len_sq, Rabs_mult, (Rabs_right (len n * len n)) in C by nra. assert (0 < Rabs k) by (apply Rabs_pos_lt; lra).
  assert (K : cos t = 1). { apply (Rmult_eq_reg_r (Rabs k * len n * len n)); [lra|]. assert (0 < Rabs k * len n) by (apply Rmult_lt_0_compat; assumption). assert (0 < Rabs k * len n * len n) by (apply Rmult_lt_0_compat; assumption). lra. }
  destruct (Req_dec t 0) as [|N]; [assumption|exfalso]. assert (cos t < cos 0) by (pose proof PI_RGT_0; apply cos_decreasing_1; lra). rewrite cos_0 in *. lra.
Qed.

(** * Rotations *)
Lemma nth_error_map_some {A B} (f : A -> B) l i y : nth_error (map f l) i = Some y -> exists x, nth_error l i = Some x /\ y = f x.
Proof. rewrite nth_error_map. destruct (nth_error l i) as [x|]; [|discriminate]. intros [= <-]. eauto. Qed.
Lemma map_same_distances f ps : (forall p q, dist (f p) (f q) = dist p q) -> all_same_distances ps (map f ps).
Proof.
  intros H. split; [symmetry; apply map_length|]. intros i j p p' q q' Hp Hp' Hq Hq'.
  rewrite nth_error_map, Hp in Hq. rewrite nth_error_map, Hp' in Hq'. injection Hq as <-. injection Hq' as <-. apply H.
Qed.
Lemma sc1 t : sin t * sin t + cos t * cos t = 1.
Proof. exact (sin2_cos2 t). Qed.
Lemma rotate_x_dist ps o t : all_same_distances ps (rotate_x ps o t).
Proof.
  apply map_same_distances. intros p q. apply len_inj_sq. unfold inner, minus, mat_vec, np_dot, vsub. cbn.
  pose proof (sc1 t) as S. set (s := sin t) in *. set (c := cos t) in *.
  replace (_ + _ + _) with ((vx p - vx q) ^ 2 + (s * s + c * c) * ((vy p - vy q) ^ 2 + (vz p - vz q) ^ 2)) by ring. rewrite S. ring.
Qed.
Lemma rotate_y_dist ps o t : all_same_distances ps (rotate_y ps o t).
Proof.
  apply map_same_distances. intros p q. apply len_inj_sq. unfold inner, minus, mat_vec, np_dot, vsub. cbn.
  pose proof (sc1 t) as S. set (s := sin t) in *. set (c := cos t) in *.
  replace (_ + _ + _) with ((vy p - vy q) ^ 2 + (s * s + c * c) * ((vx p - vx q) ^ 2 + (vz p - vz q) ^ 2)) by ring. rewrite S. ring.
Qed.
Lemma rotate_z_dist ps o t : all_same_distances ps (rotate_z ps o t).
Proof.
  apply map_same_distances. intros p q. apply len_inj_sq. unfold inner, minus, mat_vec, np_dot, vsub. cbn.
  pose proof (sc1 t) as S. set (s := sin t) in *. set (c := cos t) in *.
  replace (_ + _ + _) with ((vz p - vz q) ^ 2 + (s * s + c * c) * ((vx p - vx q) ^ 2 + (vy p - vy q) ^ 2)) by ring. rewrite S. ring.
Qed.
Lemma translate_dist ps v : all_same_distances ps (translate ps v).
Proof. apply map_same_distances. intros p q. apply len_inj_sq. unfold inner, minus, vadd. cbn. ring. Qed.
Lemma rotate_x_turn ps o t i r u a : nth_error ps i = Some (plus o (Vec a (r * cos u) (r * sin u))) ->
  nth_error (rotate_x ps o t) i = Some (Vec a (r * cos (u + t)) (r * sin (u + t))).
Proof. intros H. unfold rotate_x. rewrite nth_error_map, H. cbn [option_map]. f_equal. apply vec_eq; unfold mat_vec, vsub, origin, np_dot, plus; cbn [vx vy vz]; rewrite ?cos_plus, ?sin_plus; ring. Qed.
Lemma rotate_y_turn ps o t i r u a : nth_error ps i = Some (plus o (Vec (r * sin u) a (r * cos u))) ->
  nth_error (rotate_y ps o t) i = Some (Vec (r * sin (u + t)) a (r * cos (u + t))).
Proof. intros H. unfold rotate_y. rewrite nth_error_map, H. cbn [option_map]. f_equal. apply vec_eq; unfold mat_vec, vsub, origin, np_dot, plus; cbn [vx vy vz]; rewrite ?cos_plus, ?sin_plus; ring. Qed.
Lemma rotate_z_turn ps o t i r u a : nth_error ps i = Some (plus o (Vec (r * cos u) (r * sin u) a)) ->
  nth_error (rotate_z ps o t) i = Some (Vec (r * cos (u + t)) (r * sin (u + t)) a).
Proof. intros H. unfold rotate_z. rewrite nth_error_map, H. cbn [option_map]. f_equal. apply vec_eq; unfold mat_vec, vsub, origin, np_dot, plus; cbn [vx vy vz]; rewrite ?cos_plus, ?sin_plus; ring. Qed.
Lemma rotate_x_compose ps o a b : rotate_x (rotate_x ps o a) origin b = rotate_x ps o (a + b).
Proof.
  unfold rotate_x. rewrite map_map. apply map_ext. intros p. apply vec_eq; unfold mat_vec, vsub, origin, np_dot, plus; cbn [vx vy vz]; rewrite ?cos_plus, ?sin_plus; ring.
Qed.
Lemma rotate_y_compose ps o a b : rotate_y (rotate_y ps o a) origin b = rotate_y ps o (a + b).
Proof.
  unfold rotate_y. rewrite map_map. apply map_ext. intros p. apply vec_eq; unfold mat_vec, vsub, origin, np_dot, plus; cbn [vx vy vz]; rewrite ?cos_plus, ?sin_plus; ring.
Qed.
Lemma rotate_z_compose ps o a b : rotate_z (rotate_z ps o a) origin b = rotate_z ps o (a + b).
Proof.
  unfold rotate_z. rewrite map_map. apply map_ext. intros p. apply vec_eq; unfold mat_vec, vsub, origin, np_dot, plus; cbn [vx vy vz]; rewrite ?cos_plus, ?sin_plus; ring.
Qed.
Lemma rotate_centre o t : rotate_x [o] o t = [origin] /\ rotate_y [o] o t = [origin] /\ rotate_z [o] o t = [origin].
Proof. repeat split; cbn; f_equal; apply vec_eq; cbn; unfold np_dot; cbn; ring. Qed.
Lemma centre_moves o t : o <> origin -> ~ In o (rotate_x [o] o t) /\ ~ In o (rotate_y [o] o t) /\ ~ In o (rotate_z [o] o t).
Proof. intros H. destruct (rotate_centre o t) as (-> & -> & ->). cbn. repeat split; intros [K|[]]; congruence. Qed.
Lemma translate_spec ps v i p : nth_error ps i = Some p -> nth_error (translate ps v) i = Some (plus p v).
Proof. intros H. unfold translate. rewrite nth_error_map, H. reflexivity. Qed.

(** * Mid point and line *)
Lemma midpoint_spec p q : dist (midpoint_bet_points p q) p = dist p q / 2 /\ dist (midpoint_bet_points p q) q = dist p q / 2 /\
  dist_bet_points p q = dist p q.
Proof.
  assert (K : forall a b, len (times (1 / 2) (minus a b)) = dist a b / 2).
  { intros a b. rewrite len_times, Rabs_right by lra. unfold dist. lra. }
  split; [|split].
  - rewrite <- K. apply len_inj_sq. unfold inner, minus, times, midpoint_bet_points, vadd. cbn. field.
  - rewrite <- K. apply len_inj_sq. unfold inner, minus, times, midpoint_bet_points, vadd. cbn. field.
  - apply len_inj_sq. unfold inner, minus, vsub. cbn. ring.
Qed.
Section Line.
Variable lstsq : (R * R) * (R * R) -> R * R -> R * R.
Hypothesis lstsq_ok : forall x1 x2 y1 y2 m c, lstsq ((x1, 1), (x2, 1)) (y1, y2) = (m, c) -> best_fit x1 y1 x2 y2 m c.
Lemma line_through x1 y1 x2 y2 m c : x1 <> x2 -> coefficients_of_line_from_points lstsq (x1, y1) (x2, y2) = (m, c) ->
  m * x1 + c = y1 /\ m * x2 + c = y2 /\ m = (y2 - y1) / (x2 - x1).
Proof.
  intros Hx E. apply lstsq_ok in E. destruct E as (H & _). set (m' := (y2 - y1) / (x2 - x1)).
  specialize (H m' (y1 - m' * x1)). unfold misfit in H. cbn [fst snd] in H.
  assert (Z1 : m' * x1 + (y1 - m' * x1) - y1 = 0) by ring.
  assert (Z2 : m' * x2 + (y1 - m' * x1) - y2 = 0) by (unfold m'; field; lra).
  rewrite Z1, Z2 in H. pose proof (pow2_ge_0 (m * x1 + c - y1)) as P1. pose proof (pow2_ge_0 (m * x2 + c - y2)) as P2.
  assert (K : forall t, t ^ 2 = 0 -> t = 0) by (intros t Ht; apply Rsqr_0_uniq; unfold Rsqr; rewrite <- Ht; ring).
  assert (E1 : m * x1 + c - y1 = 0) by (apply K; lra). assert (E2 : m * x2 + c - y2 = 0) by (apply K; lra).
  split; [lra|]. split; [lra|]. apply (Rmult_eq_reg_r (x2 - x1)); [|lra]. unfold m'. unfold Rdiv. rewrite Rmult_assoc, Rinv_l, Rmult_1_r by lra. lra.
Qed.
Lemma line_vertical x y1 y2 m c : y1 <> y2 -> coefficients_of_line_from_points lstsq (x, y1) (x, y2) = (m, c) ->
  m * x + c = (y1 + y2) / 2 /\ m * x + c <> y1 /\ m * x + c <> y2.
Proof.
  intros Hy E. apply lstsq_ok in E. destruct E as (H & _). specialize (H 0 ((y1 + y2) / 2)). unfold misfit in H. cbn [fst snd] in H.
  assert (K : (m * x + c - (y1 + y2) / 2) ^ 2 <= 0).
  { replace ((m * x + c - y1) ^ 2 + (m * x + c - y2) ^ 2) with (2 * (m * x + c - (y1 + y2) / 2) ^ 2 + (y1 - y2) ^ 2 / 2) in H by field.
    replace ((0 * x + (y1 + y2) / 2 - y1) ^ 2 + (0 * x + (y1 + y2) / 2 - y2) ^ 2) with ((y1 - y2) ^ 2 / 2) in H by field. lra. }
  pose proof (pow2_ge_0 (m * x + c - (y1 + y2) / 2)) as P.
  assert (E : m * x + c - (y1 + y2) / 2 = 0) by (apply Rsqr_0_uniq; unfold Rsqr; lra). clear - E Hy. split; [|split]; lra.
Qed.
End Line.
(** Such a least squares solver exists. *)
Definition solver (a : (R * R) * (R * R)) (b : R * R) : R * R :=
  let x1 := fst (fst a) in let x2 := fst (snd a) in let y1 := fst b in let y2 := snd b in
  if Req_EM_T x1 x2 then let s := (y1 + y2) / 2 / (x1 ^ 2 + 1) in (x1 * s, s)
  else let m := (y2 - y1) / (x2 - x1) in (m, y1 - m * x1).
Lemma solver_ok x1 x2 y1 y2 m c : solver ((x1, 1), (x2, 1)) (y1, y2) = (m, c) -> best_fit x1 y1 x2 y2 m c.
Proof.
  unfold solver. cbn [fst snd]. destruct (Req_EM_T x1 x2) as [<-|N].
  - intros [= <- <-]. change (x1 * (x1 * 1) + 1) with (x1 ^ 2 + 1). pose proof (pow2_ge_0 x1) as X0.
    set (s := (y1 + y2) / 2 / (x1 ^ 2 + 1)). assert (S1 : x1 * s * x1 + s = (y1 + y2) / 2) by (unfold s; field; lra).
    assert (M : forall m c, misfit x1 y1 x1 y2 m c = 2 * (m * x1 + c - (y1 + y2) / 2) ^ 2 + (y1 - y2) ^ 2 / 2) by (intros; unfold misfit; field).
    split; intros m' c'; rewrite !M, S1.
    + pose proof (pow2_ge_0 (m' * x1 + c' - (y1 + y2) / 2)). replace ((y1 + y2) / 2 - (y1 + y2) / 2) with 0 by ring. lra.
    + intros E. assert (K : m' * x1 + c' - (y1 + y2) / 2 = 0) by (apply Rsqr_0_uniq; unfold Rsqr; lra).
      rewrite <- S1 in K. pose proof (pow2_ge_0 (m' - x1 * s)) as P1. pose proof (pow2_ge_0 (c' - s)) as P2.
      assert (m' ^ 2 + c' ^ 2 = (x1 * s) ^ 2 + s ^ 2 + (m' - x1 * s) ^ 2 + (c' - s) ^ 2 + 2 * s * (m' * x1 + c' - (x1 * s * x1 + s))) by ring. rewrite K in H. lra.
  - intros [= <- <-]. set (m := (y2 - y1) / (x2 - x1)). assert (Z : misfit x1 y1 x2 y2 m (y1 - m * x1) = 0) by (unfold misfit, m; field; lra).
    split; intros m' c'; rewrite Z.
    + unfold misfit. pose proof (pow2_ge_0 (m' * x1 + c' - y1)). pose proof (pow2_ge_0 (m' * x2 + c' - y2)). lra.
    + unfold misfit. intros E. pose proof (pow2_ge_0 (m' * x1 + c' - y1)) as P1. pose proof (pow2_ge_0 (m' * x2 + c' - y2)) as P2.
      assert (K : forall t, t ^ 2 = 0 -> t = 0) by (intros t Ht; apply Rsqr_0_uniq; unfold Rsqr; rewrite <- Ht; ring).
      assert (E1 : m' * x1 + c' - y1 = 0) by (apply K; lra). assert (E2 : m' * x2 + c' - y2 = 0) by (apply K; lra).
      assert (EM : m' = m). { apply (Rmult_eq_reg_r (x2 - x1)); [|lra]. unfold m, Rdiv. rewrite Rmult_assoc, Rinv_l, Rmult_1_r by lra. lra. }
      rewrite <- EM. replace (y1 - m' * x1) with c' by lra. lra.
Qed.
