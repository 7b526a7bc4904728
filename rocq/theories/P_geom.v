(** Proofs about M_geom.v. *)
From Coq Require Import Reals Lra Psatz.
From Verif Require Import PyReal M_geom SpecGeom.
Local Open Scope R_scope.

Lemma Reqb_true x y : Reqb x y = true <-> x = y.
Proof. unfold Reqb. destruct (Req_EM_T x y); split; congruence. Qed.
Lemma Reqb_false x y : Reqb x y = false <-> x <> y.
Proof. unfold Reqb. destruct (Req_EM_T x y); split; congruence. Qed.
Lemma Rltb_true x y : Rltb x y = true <-> x < y.
Proof. unfold Rltb. destruct (Rlt_dec x y); split; congruence. Qed.
Lemma Rltb_false x y : Rltb x y = false <-> y <= x.
Proof. unfold Rltb. destruct (Rlt_dec x y); split; try congruence; intros; try lra. Qed.
Lemma vec_eq a b : vx a = vx b -> vy a = vy b -> vz a = vz b -> a = b.
Proof. destruct a, b. cbn. congruence. Qed.
Lemma veqb_true a b : veqb a b = true <-> a = b.
Proof.
  unfold veqb. rewrite !Bool.andb_true_iff, !Reqb_true. split; [intros ((A & B) & C); apply vec_eq; assumption|intros ->; auto].
Qed.
Lemma npdiv_Val x y : y <> 0 -> npdiv x y = Val (x / y).
Proof. intros. unfold npdiv. destruct (Req_EM_T y 0); [contradiction|reflexivity]. Qed.
Lemma npdiv_0 x : npdiv x 0 = NonFinite.
Proof. unfold npdiv. destruct (Req_EM_T 0 0); [reflexivity|contradiction]. Qed.
Lemma pydiv_Val x y : y <> 0 -> pydiv x y = Val (x / y).
Proof. intros. unfold pydiv. destruct (Req_EM_T y 0); [contradiction|reflexivity]. Qed.
Lemma pydiv_0 x : pydiv x 0 = Raise ZeroDivisionError.
Proof. unfold pydiv. destruct (Req_EM_T 0 0); [reflexivity|contradiction]. Qed.
Lemma npsqrt_Val x : 0 <= x -> npsqrt x = Val (sqrt x).
Proof. intros. unfold npsqrt. destruct (Rlt_dec x 0); [lra|reflexivity]. Qed.
Lemma npsqrt_neg x : x < 0 -> npsqrt x = NonFinite.
Proof. intros. unfold npsqrt. destruct (Rlt_dec x 0); [reflexivity|lra]. Qed.
Lemma nparccos_Val x : -1 <= x <= 1 -> nparccos x = Val (acos x).
Proof. intros. unfold nparccos. destruct (Rlt_dec x (-1)); [lra|]. destruct (Rlt_dec 1 x); [lra|reflexivity]. Qed.
Lemma vdiv_Val a k : k <> 0 -> vdiv a k = Val (times (/ k) a).
Proof.
  intros. unfold vdiv. destruct (Req_EM_T k 0); [contradiction|]. unfold times. unfold Rdiv. rewrite !(Rmult_comm _ (/ k)). reflexivity.
Qed.
Lemma vdiv_0 a : vdiv a 0 = NonFinite.
Proof. unfold vdiv. destruct (Req_EM_T 0 0); [reflexivity|contradiction]. Qed.
Lemma check_positive_Val x : 0 <= x -> check_positive x = Val tt.
Proof. intros. unfold check_positive. rewrite (proj2 (Rltb_false x 0)); [reflexivity|lra]. Qed.
Lemma check_positive_neg x : x < 0 -> check_positive x = Raise ValueError.
Proof. intros. unfold check_positive. rewrite (proj2 (Rltb_true x 0)); [reflexivity|lra]. Qed.
Lemma check_plane_Val n : n <> origin -> check_plane_exists n = Val tt.
Proof.
  intros H. unfold check_plane_exists. destruct (veqb n (Vec 0 0 0)) eqn:E; [|reflexivity]. apply veqb_true in E. contradiction.
Qed.
Lemma check_plane_zero : check_plane_exists origin = Raise ValueError.
Proof. unfold check_plane_exists. rewrite (proj2 (veqb_true origin (Vec 0 0 0)) eq_refl). reflexivity. Qed.

(** * Lengths *)
Lemma inner_self a : 0 <= inner a a.
Proof. unfold inner. nra. Qed.
Lemma len_sq a : len a * len a = inner a a.
Proof. apply sqrt_def, inner_self. Qed.
Lemma len_nonneg a : 0 <= len a.
Proof. apply sqrt_pos. Qed.
Lemma inner_pos a : a <> origin -> 0 < inner a a.
Proof.
  intros H. destruct (Rle_lt_dec (inner a a) 0) as [L|L]; [|exact L]. exfalso. apply H. unfold inner in L.
  pose proof (Rle_0_sqr (vx a)) as X. pose proof (Rle_0_sqr (vy a)) as Y. pose proof (Rle_0_sqr (vz a)) as Z. unfold Rsqr in *.
  assert (K : forall t, t * t = 0 -> t = 0) by (intros t Ht; destruct (Rmult_integral _ _ Ht); assumption).
  apply vec_eq; cbn; apply K; lra.
Qed.
Lemma len_pos a : a <> origin -> 0 < len a.
Proof. intros H. apply sqrt_lt_R0, inner_pos, H. Qed.
Lemma len_times k a : len (times k a) = Rabs k * len a.
Proof.
  unfold len. replace (inner (times k a) (times k a)) with (Rsqr k * inner a a) by (unfold inner, times, Rsqr; cbn; ring).
  rewrite sqrt_mult; [|apply Rle_0_sqr|apply inner_self]. rewrite sqrt_Rsqr_abs. reflexivity.
Qed.
Lemma cauchy_schwarz a b : inner a b ^ 2 <= inner a a * inner b b.
Proof.
  assert (H : inner a a * inner b b - inner a b ^ 2 =
    (vx a * vy b - vy a * vx b) ^ 2 + (vy a * vz b - vz a * vy b) ^ 2 + (vz a * vx b - vx a * vz b) ^ 2) by (unfold inner; ring).
  pose proof (pow2_ge_0 (vx a * vy b - vy a * vx b)). pose proof (pow2_ge_0 (vy a * vz b - vz a * vy b)). pose proof (pow2_ge_0 (vz a * vx b - vx a * vz b)). lra.
Qed.
Lemma abs_inner_le a b : Rabs (inner a b) <= len a * len b.
Proof.
  pose proof (cauchy_schwarz a b) as H. rewrite <- !len_sq in H.
  pose proof (len_nonneg a). pose proof (len_nonneg b).
  assert (0 <= len a * len b) by (apply Rmult_le_pos; assumption).
  destruct (Rle_lt_dec 0 (inner a b)); [rewrite Rabs_right by lra|rewrite Rabs_left by lra]; nra.
Qed.
Lemma len_eq_sq a r : 0 <= r -> inner a a = r * r -> len a = r.
Proof. intros Hr H. unfold len. rewrite H. apply sqrt_square, Hr. Qed.
Lemma len_inj_sq a b : inner a a = inner b b -> len a = len b.
Proof. intros H. unfold len. rewrite H. reflexivity. Qed.

(** * Planes *)
Lemma parallel_true n1 n2 : n1 <> origin -> n2 <> origin ->
  (check_parallel_planes n1 n2 = Val true <-> same_direction n1 n2) /\ exists b, check_parallel_planes n1 n2 = Val b.
Proof.
  intros H1 H2. pose proof (len_pos _ H1) as L1. pose proof (len_pos _ H2) as L2. unfold check_parallel_planes.
  change (np_norm n1) with (len n1). change (np_norm n2) with (len n2). rewrite !vdiv_Val by lra. cbn [obind]. split; [|eexists; reflexivity].
  split.
  - intros [= E]. apply veqb_true in E. exists (len n1 / len n2). split; [apply Rdiv_lt_0_compat; assumption|].
    injection E as Ex Ey Ez. apply vec_eq; cbn.
    + replace (vx n1) with (len n1 * (/ len n1 * vx n1)) by (field; lra). rewrite Ex. field. lra.
    + replace (vy n1) with (len n1 * (/ len n1 * vy n1)) by (field; lra). rewrite Ey. field. lra.
    + replace (vz n1) with (len n1 * (/ len n1 * vz n1)) by (field; lra). rewrite Ez. field. lra.
  - intros (k & Hk & ->). f_equal. apply veqb_true. rewrite len_times, Rabs_right by lra. apply vec_eq; cbn; field; lra.
Qed.
Lemma parallel_cases n1 n2 : n1 <> origin -> n2 <> origin ->
  (same_direction n1 n2 /\ check_parallel_planes n1 n2 = Val true) \/ (~ same_direction n1 n2 /\ check_parallel_planes n1 n2 = Val false).
Proof.
  intros H1 H2. destruct (parallel_true n1 n2 H1 H2) as (I & [|] & E).
  - left. split; [apply I, E|exact E].
  - right. split; [intros K; apply I in K; congruence|exact E].
Qed.
Lemma opposite_not_same n k : n <> origin -> k < 0 -> ~ same_direction (times k n) n.
Proof.
  intros Hn Hk (j & Hj & E). apply Hn. injection E as Ex Ey Ez. apply vec_eq; cbn; nra.
Qed.
Lemma opposite_not_parallel n k : n <> origin -> k < 0 -> check_parallel_planes (times k n) n = Val false.
Proof.
  intros Hn Hk. assert (times k n <> origin). { intros E. apply Hn. injection E as Ex Ey Ez. apply vec_eq; cbn; nra. }
  destruct (parallel_cases (times k n) n) as [(K & _)|(_ & K)]; try assumption. elim (opposite_not_same n k Hn Hk K).
Qed.

(** dist_between_point_plane *)
Lemma point_plane_val n d p : n <> origin -> dist_between_point_plane n d p = Val ((d - inner n p) / len n).
Proof.
  intros Hn. pose proof (len_pos _ Hn) as L. unfold dist_between_point_plane. rewrite check_plane_Val by exact Hn. cbn [obind].
  change (np_dot n p) with (inner n p). destruct (Reqb (inner n p) d) eqn:E.
  { apply Reqb_true in E. f_equal. rewrite E. field. lra. }
  change (np_norm n) with (len n).
  destruct (Reqb (vx n) 0) eqn:Ex; cbn [negb].
  - apply Reqb_true in Ex. destruct (Reqb (vy n) 0) eqn:Ey; cbn [negb].
    + apply Reqb_true in Ey. destruct (Reqb (vz n) 0) eqn:Ez; cbn [negb].
      * apply Reqb_true in Ez. elim Hn. apply vec_eq; assumption.
      * apply Reqb_false in Ez. rewrite npdiv_Val by exact Ez. cbn [obind]. rewrite npdiv_Val by lra. f_equal. unfold np_dot, vsub, inner. cbn. rewrite Ex, Ey. field. lra.
    + apply Reqb_false in Ey. rewrite npdiv_Val by exact Ey. cbn [obind]. rewrite npdiv_Val by lra. f_equal. unfold np_dot, vsub, inner. cbn. rewrite Ex. field. lra.
  - apply Reqb_false in Ex. rewrite npdiv_Val by exact Ex. cbn [obind]. rewrite npdiv_Val by lra. f_equal. unfold np_dot, vsub, inner. cbn. field. lra.
Qed.
Lemma point_plane n d p : n <> origin ->
  exists s, dist_between_point_plane n d p = Val s /\ on_plane n d (plus p (times (s / len n) n)) /\
    (forall q, on_plane n d q -> Rabs s <= dist p q) /\ dist p (plus p (times (s / len n) n)) = Rabs s.
Proof.
  intros Hn. pose proof (len_pos _ Hn) as L. pose proof (len_sq n) as LL. exists ((d - inner n p) / len n). split; [apply point_plane_val, Hn|].
  set (s := (d - inner n p) / len n). assert (Hs : s * len n = d - inner n p) by (unfold s; field; lra). split; [|split].
  - unfold on_plane. replace (inner n (plus p (times (s / len n) n))) with (inner n p + s / len n * inner n n) by (unfold inner, plus, times; cbn; ring).
    rewrite <- LL. replace (s / len n * (len n * len n)) with (s * len n) by (field; lra). rewrite Hs. ring.
  - intros q Hq. unfold on_plane in Hq. apply (Rmult_le_reg_r (len n)); [exact L|].
    replace (Rabs s * len n) with (Rabs (inner (minus p q) n)).
    { unfold dist. apply abs_inner_le. }
    replace (len n) with (Rabs (len n)) by (apply Rabs_right; lra). rewrite <- Rabs_mult, Hs, <- (Rabs_Ropp (d - _)). f_equal. rewrite <- Hq. unfold inner, minus. cbn. ring.
  - unfold dist. replace (minus p (plus p (times (s / len n) n))) with (times (- (s / len n)) n) by (apply vec_eq; cbn; ring).
    rewrite len_times, Rabs_Ropp. unfold Rdiv. rewrite Rabs_mult, (Rabs_right (/ len n)); [field; lra|]. apply Rle_ge, Rlt_le, Rinv_0_lt_compat, L.
Qed.
Lemma point_plane_zero d p : dist_between_point_plane origin d p = Raise ValueError.
Proof. unfold dist_between_point_plane. rewrite check_plane_zero. reflexivity. Qed.

(** line_segment_plane_intersection *)
Lemma inner_comm a b : inner a b = inner b a.
Proof. unfold inner. ring. Qed.
Lemma segment_value p0 p1 n d : n <> origin -> (inner n p0 - d) * (inner n p1 - d) < 0 ->
  exists q, line_segment_plane_intersection p0 p1 n d = Val q /\
    (on_plane n d q <-> d = 0 \/ inner n (minus p1 p0) = 1) /\ exists t, q = plus p0 (times t (minus p1 p0)).
Proof.
  intros Hn Hv. unfold line_segment_plane_intersection. rewrite check_plane_Val by exact Hn. cbn [obind].
  set (w := inner n (minus p1 p0)).
  assert (W : np_dot (vsub p1 p0) n = w) by (unfold w, np_dot, inner, vsub, minus; cbn; ring).
  assert (W' : inner n p1 = inner n p0 + w) by (unfold w, inner, minus; cbn; ring).
  assert (W0 : w <> 0) by (intros E; rewrite W', E, Rplus_0_r in Hv; pose proof (Rle_0_sqr (inner n p0 - d)) as K; unfold Rsqr in K; lra).
  rewrite W. destruct (Reqb w 0) eqn:E; [apply Reqb_true in E; contradiction|].
  change (np_dot p0 n) with (inner p0 n). change (np_dot p1 n) with (inner p1 n). rewrite !(inner_comm _ n).
  rewrite (proj2 (Rltb_true _ _) Hv). rewrite npdiv_Val by exact W0. cbn [obind]. eexists. split; [reflexivity|]. split; [|eexists; reflexivity].
  unfold on_plane. replace (inner n (vadd p0 (vscale (d - inner n p0 / w) (vsub p1 p0)))) with (inner n p0 + (d - inner n p0 / w) * w)
    by (set (t := d - inner n p0 / w); unfold w, inner, vadd, vscale, vsub, minus; cbn; ring).
  replace (inner n p0 + (d - inner n p0 / w) * w) with (d * w) by (field; exact W0). split.
  - intros K. destruct (Req_dec d 0) as [D|D]; [left; exact D|right]. apply (Rmult_eq_reg_l d); [|exact D]. rewrite K. ring.
  - intros [->| ->]; ring.
Qed.
Lemma segment_raises p0 p1 n d : n = origin \/ 0 <= (inner n p0 - d) * (inner n p1 - d) ->
  line_segment_plane_intersection p0 p1 n d = Raise ValueError.
Proof.
  intros H. unfold line_segment_plane_intersection. destruct (veqb n (Vec 0 0 0)) eqn:E.
  { apply veqb_true in E. subst n. change (Vec 0 0 0) with origin. rewrite check_plane_zero. reflexivity. }
  assert (Hn : n <> origin) by (intros K; apply veqb_true in K; unfold origin in K; congruence). destruct H as [H|H]; [contradiction|].
  rewrite check_plane_Val by exact Hn. cbn [obind]. destruct (Reqb _ 0); [reflexivity|].
  change (np_dot p0 n) with (inner p0 n). change (np_dot p1 n) with (inner p1 n). rewrite !(inner_comm _ n).
  rewrite (proj2 (Rltb_false _ _) H). reflexivity.
Qed.

(** plane_sphere_intersect *)
Lemma plane_sphere n d p rad : n <> origin -> 0 <= rad -> Rabs (d - inner n p) <= rad * len n ->
  exists r c, plane_sphere_intersect n d p rad = Val (r, c) /\ 0 <= r /\ on_plane n d c /\
    forall q, on_plane n d q -> (on_sphere p rad q <-> on_sphere c r q).
Proof.
  intros Hn Hr HD. pose proof (len_pos _ Hn) as L. pose proof (len_sq n) as LL. unfold plane_sphere_intersect.
  rewrite check_plane_Val, check_positive_Val, point_plane_val by assumption. cbn [obind]. set (s := (d - inner n p) / len n).
  assert (Hs : s * len n = d - inner n p) by (unfold s; field; lra).
  assert (HA : Rabs s <= rad). { apply (Rmult_le_reg_r (len n)); [exact L|]. replace (Rabs s * len n) with (Rabs (s * len n)) by (rewrite Rabs_mult, (Rabs_right (len n)); [reflexivity|lra]). rewrite Hs. exact HD. }
  assert (HB : - rad <= s <= rad) by (unfold Rabs in HA; destruct (Rcase_abs s); lra).
  rewrite (proj2 (Rltb_false _ _)) by lra. assert (Hq : 0 <= rad ^ 2 - s ^ 2) by nra. rewrite npsqrt_Val by exact Hq. cbn [obind].
  change (np_norm n) with (len n). rewrite vdiv_Val by lra. cbn [obind]. eexists. eexists. split; [reflexivity|]. split; [apply sqrt_pos|].
  set (c := vadd p (times (/ len n) (vscale s n))).
  assert (Hc : on_plane n d c).
  { unfold on_plane. replace (inner n c) with (inner n p + s * / len n * inner n n) by (unfold c, inner, vadd, times, vscale; cbn; ring).
    rewrite <- LL. replace (s * / len n * (len n * len n)) with (s * len n) by (field; lra). rewrite Hs. ring. }
  split; [exact Hc|]. intros q Hqp. unfold on_plane in *.
  assert (K : inner (minus q p) (minus q p) = inner (minus q c) (minus q c) + s ^ 2).
  { replace (inner (minus q p) (minus q p)) with (inner (minus q c) (minus q c) + 2 * (s * / len n) * (inner n q - inner n c) + (s * / len n) ^ 2 * inner n n)
      by (unfold c, inner, minus, vadd, times, vscale; cbn; ring).
    rewrite Hqp, Hc, <- LL. field. lra. }
  unfold on_sphere, dist. split; intros E.
  - apply len_eq_sq; [apply sqrt_pos|]. rewrite sqrt_def by exact Hq. pose proof (len_sq (minus q p)) as Q. rewrite E, K in Q. lra.
  - apply len_eq_sq; [exact Hr|]. pose proof (len_sq (minus q c)) as Q. rewrite E, sqrt_def in Q by exact Hq. rewrite K. lra.
Qed.
Lemma plane_sphere_miss n d p rad : n <> origin -> 0 <= rad -> rad * len n < Rabs (d - inner n p) ->
  plane_sphere_intersect n d p rad = if Rlt_dec 0 (d - inner n p) then Raise ValueError else NonFinite.
Proof.
  intros Hn Hr HD. pose proof (len_pos _ Hn) as L. unfold plane_sphere_intersect.
  rewrite check_plane_Val, check_positive_Val, point_plane_val by assumption. cbn [obind]. set (s := (d - inner n p) / len n).
  assert (Hs : s * len n = d - inner n p) by (unfold s; field; lra). rewrite <- Hs in *. destruct (Rlt_dec 0 (s * len n)) as [P|P].
  - rewrite Rabs_right in HD by lra. rewrite (proj2 (Rltb_true _ _)) by nra. reflexivity.
  - assert (s * len n <= 0) by lra. assert (s <= 0) by nra. rewrite Rabs_left1 in HD by lra. assert (rad < - s) by nra.
    rewrite (proj2 (Rltb_false _ _)) by lra. rewrite npsqrt_neg by nra. reflexivity.
Qed.
Lemma plane_sphere_bad n d p rad : n = origin \/ rad < 0 -> plane_sphere_intersect n d p rad = Raise ValueError.
Proof.
  intros H. unfold plane_sphere_intersect. destruct (veqb n (Vec 0 0 0)) eqn:E.
  { apply veqb_true in E. subst n. change (Vec 0 0 0) with origin. rewrite check_plane_zero. reflexivity. }
  assert (Hn : n <> origin) by (intros K; apply veqb_true in K; unfold origin in K; congruence). destruct H as [H|H]; [contradiction|].
  rewrite check_plane_Val, check_positive_neg by assumption. reflexivity.
Qed.
