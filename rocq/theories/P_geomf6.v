(** Lemmas about planes across the x axis, planes without a normal, and rays in binary64. *)
From Coq Require Import Reals Lra Lia Floats.SpecFloat.
From Flocq Require Import Core BinarySingleNaN.
From Verif Require Import PyBase PyFacts PyFloat FloatFacts FloatR FloatZ PyFrame Float32 PyArith PyArithR M_const SpecConst P_const M_geomf SpecGeomf P_geomf P_geomf2 P_geomf3 P_geomf4 P_geomf5.
Local Open Scope R_scope.

Lemma int_div x y a b : integral x (a * b) -> integral y b -> b <> 0%Z -> (Z.abs a < 2 ^ 53)%Z -> integral (fdiv x y) a.
Proof.
  intros [[V F] E] [[V1 F1] E1] N B. apply not_0_IZR in N.
  destruct (fdiv_R x y V V1 F F1 ltac:(now rewrite E1)) as (V' & G & _). rewrite E1, E, mult_IZR in G. replace (IZR a * IZR b / IZR b) with (IZR a) in G by (now field).
  rewrite rnd_IZR in G by exact B. destruct (G (fmax_big a B)) as [G1 G2]. repeat split; assumption.
Qed.
Lemma int_sqrt x a : integral x (a * a) -> (0 <= a < 2 ^ 53)%Z -> integral (fsqrt x) a.
Proof.
  intros [[V F] E] B. assert (P : 0 <= FR x) by (rewrite E; apply IZR_le; nia). destruct (fsqrt_R x V F P) as (V' & S & F').
  split; [now split|]. rewrite S, E, mult_IZR, sqrt_square by (apply IZR_le; lia). apply rnd_IZR. lia.
Qed.
Lemma int_vec_ok v a b c : integral_vec v a b c -> ordinary_vec v.
Proof. intros ((? & _) & (? & _) & (? & _)). now repeat split; try apply H; try apply H0; try apply H1. Qed.
Lemma x_norm dot v a : dot_integers dot -> integral_vec v a 0 0 -> (0 < a)%Z -> (a * a < 2 ^ 53)%Z -> integral (norm_f dot v) a.
Proof.
  intros DI I P B. unfold norm_f. apply int_sqrt; [|nia]. replace (a * a)%Z with (a * a + 0 * 0 + 0 * 0)%Z by ring. apply DI; [exact I|exact I|]. rewrite Z.abs_eq; lia.
Qed.
Lemma x_exists v a : integral_vec v a 0 0 -> (0 < a)%Z -> check_plane_exists_f v = Ok tt.
Proof. intros I P. apply plane_exists; [now apply (int_vec_ok v a 0 0)|]. destruct I as ((_ & E) & _). intros (Q & _). rewrite E in Q. apply eq_IZR in Q. lia. Qed.
Lemma x_unit dot v a : dot_integers dot -> integral_vec v a 0 0 -> (0 < a)%Z -> (a * a < 2 ^ 53)%Z -> integral_vec (vmap (fun x => fdiv x (norm_f dot v)) v) 1 0 0.
Proof.
  intros DI I P B. pose proof (x_norm dot v a DI I P B) as N. destruct I as (A & C & D). assert (a <> 0)%Z by lia. unfold vmap.
  split; [|split]; cbn [fx fy fz]; apply (int_div _ _ _ a); try assumption; lia || (rewrite Z.mul_1_l; assumption).
Qed.
Lemma x_planes dot n1 n2 d1 d2 q b x1 x2 : dot_integers dot -> (0 < q)%Z -> (0 < b)%Z -> (q * b < 2 ^ 26)%Z ->
  integral_vec n1 (q * b) 0 0 -> integral_vec n2 b 0 0 -> integral d1 (q * b * x1) -> integral d2 (b * x2) ->
  (Z.abs (q * b * x1) < 2 ^ 52)%Z -> (Z.abs (q * b * x2) < 2 ^ 52)%Z ->
  exists r n2', dist_between_planes_f dot n1 d1 n2 d2 = Ok (r, n2') /\ integral r (x2 - x1) /\ integral_vec n2' (q * b) 0 0.
Proof.
  intros DI Q B QB I1 I2 D1 D2 B1 B2. unfold dist_between_planes_f. assert (P : (0 < q * b)%Z) by nia. rewrite (x_exists n1 _ I1 P), (x_exists n2 _ I2 B). cbn [bind].
  assert (S1 : (q * b * (q * b) < 2 ^ 53)%Z) by nia. assert (Lb : (b <= q * b)%Z) by nia. assert (S2 : (b * b < 2 ^ 53)%Z) by nia.
  pose proof (x_unit dot n1 _ DI I1 P S1) as (U1 & U2 & U3). pose proof (x_unit dot n2 _ DI I2 B S2) as (W1 & W2 & W3).
  unfold check_parallel_planes_f, veq_f. rewrite (feq_int _ _ _ _ U1 W1), (feq_int _ _ _ _ U2 W2), (feq_int _ _ _ _ U3 W3). cbn [Z.eqb Pos.eqb andb negb].
  pose proof I1 as (I1x & _). pose proof I2 as (I2x & I2y & I2z). assert (R : integral (fdiv (fx n1) (fx n2)) q) by (apply (int_div _ _ _ b); [exact I1x|exact I2x|lia|lia]).
  set (ratio := fdiv (fx n1) (fx n2)) in *. assert (V : integral_vec (vmap (fun a => fmul a ratio) n2) (q * b) 0 0).
  { unfold vmap. split; [|split]; cbn [fx fy fz].
    - replace (q * b)%Z with (b * q)%Z by ring. apply int_mul; try assumption. lia.
    - apply (int_mul _ _ 0 q); try assumption. cbn. lia.
    - apply (int_mul _ _ 0 q); try assumption. cbn. lia. }
  do 2 eexists. split; [reflexivity|]. split; [|exact V].
  assert (E2 : integral (fmul d2 ratio) (q * b * x2)) by (replace (q * b * x2)%Z with (b * x2 * q)%Z by ring; apply int_mul; try assumption; replace (b * x2 * q)%Z with (q * b * x2)%Z by ring; lia).
  apply (int_div _ _ _ (q * b)); [|now apply x_norm|lia|].
  - replace ((x2 - x1) * (q * b))%Z with (q * b * x2 - q * b * x1)%Z by ring. apply int_sub; try assumption. lia.
  - assert (K : forall t, (Z.abs t <= Z.abs (q * b * t))%Z) by (intros t; rewrite Z.abs_mul, (Z.abs_eq (q * b)) by lia; nia). pose proof (K x1). pose proof (K x2). lia.
Qed.
Lemma no_normal_distance dot n1 n2 d1 d2 : ordinary_vec n1 -> ordinary_vec n2 -> no_normal n1 \/ no_normal n2 -> dist_between_planes_f dot n1 d1 n2 d2 = Err ValueError.
Proof.
  intros O1 O2 H. unfold dist_between_planes_f. assert (E : forall n, check_plane_exists_f n = Ok tt \/ check_plane_exists_f n = Err ValueError) by (intros n; unfold check_plane_exists_f; destruct (veq_f _ _); auto).
  destruct H as [H|H].
  - now rewrite (no_plane n1 O1 H).
  - rewrite (no_plane n2 O2 H). now destruct (E n1) as [-> | ->].
Qed.
Lemma no_normal_point dot n d p : ordinary_vec n -> no_normal n -> dist_between_point_plane_f dot n d p = Err ValueError.
Proof. intros O N. unfold dist_between_point_plane_f. now rewrite (no_plane n O N). Qed.
Lemma zero_shape x : ordinary x -> FR x = 0 -> exists s, x = S754_zero s.
Proof.
  intros [V F] E. destruct x as [s|s| |s m e]; try discriminate; [now exists s|]. exfalso. unfold FR, SF2R in E. apply eq_0_F2R in E. now destruct s.
Qed.
Lemma planes_nan dot n d1 d2 : dot_accurate dot -> ordinary_vec n -> tame_vec n n -> ~ no_normal n -> FR (fx n) = 0 ->
  exists n', dist_between_planes_f dot n d1 n d2 = Ok (S754_nan, n').
Proof.
  intros DA O T N Z. unfold dist_between_planes_f. rewrite (plane_exists n O N), (parallel_self dot n DA O T N). cbn [bind negb].
  destruct O as (Ox & _). destruct (zero_shape _ Ox Z) as (s & ->). change (fdiv (S754_zero s) (S754_zero s)) with S754_nan. eexists. do 2 f_equal.
  replace (fmul d2 S754_nan) with S754_nan by (destruct d2; reflexivity). replace (fsub S754_nan d1) with S754_nan by (destruct d1; reflexivity).
  destruct (norm_f _ _); reflexivity.
Qed.

(** * Rays *)
Lemma ray_int p u mu x y z a b c t : integral_vec p x y z -> integral_vec u a b c -> integral mu t ->
  (Z.abs (a * t) < 2 ^ 53)%Z -> (Z.abs (b * t) < 2 ^ 53)%Z -> (Z.abs (c * t) < 2 ^ 53)%Z ->
  (Z.abs (x + a * t) < 2 ^ 53)%Z -> (Z.abs (y + b * t) < 2 ^ 53)%Z -> (Z.abs (z + c * t) < 2 ^ 53)%Z ->
  integral_vec (project_ray_f p u mu) (x + a * t) (y + b * t) (z + c * t).
Proof.
  intros (P1 & P2 & P3) (U1 & U2 & U3) M A1 A2 A3 B1 B2 B3. unfold project_ray_f, vmap2, vmap. split; [|split]; cbn [fx fy fz]; apply int_add; try assumption; apply int_mul; assumption.
Qed.
Lemma ray_start p u mu : ordinary_vec p -> ordinary_vec u -> ordinary mu -> FR mu = 0 ->
  let q := project_ray_f p u mu in feq (fx q) (fx p) = true /\ feq (fy q) (fy p) = true /\ feq (fz q) (fz p) = true.
Proof.
  intros (P1 & P2 & P3) (U1 & U2 & U3) M Z. destruct (zero_shape mu M Z) as (s & ->).
  assert (G : forall x a, ordinary x -> ordinary a -> feq (fadd x (fmul a (S754_zero s))) x = true).
  { intros x a [V F] [V' F']. assert (K : exists s', fmul a (S754_zero s) = S754_zero s') by (destruct a; try discriminate; eexists; reflexivity). destruct K as (s' & ->).
    destruct x as [sx|sx| |sx m e]; try discriminate; [destruct sx, s'; reflexivity|]. cbn [fadd SFadd]. apply feq_self. reflexivity. }
  cbn. now rewrite !G.
Qed.
Lemma negative_sphere dot power p c r : ordinary r -> FR r < 0 -> find_sense_sphere_f dot power p c r = Err ValueError.
Proof. intros O L. unfold find_sense_sphere_f. now rewrite (neg_refused r O L). Qed.
Lemma zero_leg power a b : ordinary a -> ordinary b -> FR a = 0 \/ FR b = 0 -> pythag_h_f power a b = fzero.
Proof.
  intros Oa Ob H. unfold pythag_h_f. assert (Z : forall x, ordinary x -> FR x = 0 -> feq x fzero = true) by (intros x O E; destruct (zero_shape x O E) as ([] & ->); reflexivity).
  destruct H as [H|H]; [rewrite (Z a Oa H)|rewrite (Z b Ob H), Bool.orb_true_r]; reflexivity.
Qed.
(** A coordinate of a point of a ray, against the exact one. *)
Lemma ray_near x a t : ordinary x -> ordinary a -> ordinary t -> tame a t -> Rabs (FR x) <= bpow radix2 1000 ->
  ordinary (fadd x (fmul a t)) /\ Rabs (FR (fadd x (fmul a t)) - (FR x + FR a * FR t)) <= bpow radix2 (-53) * (Rabs (FR x) + 3 * Rabs (FR a * FR t)).
Proof.
  intros Ox Oa Ot T B. destruct (tame_mul a t Oa Ot T) as (O1 & e1 & H1 & E1). apply tame_big in T. pose proof (scaled_abs (FR a * FR t) e1 H1) as S1. rewrite <- E1 in S1.
  pose proof (bpow_gt_0 radix2 1000) as P. destruct (small_add x _ (4 * bpow radix2 1000) Ox O1 ltac:(lra)) as (O2 & e2 & H2 & E2).
  { change 4 with (bpow radix2 2). rewrite <- bpow_plus. apply bpow_le. lia. }
  split; [exact O2|]. rewrite E2, E1. set (m := FR a * FR t) in *. change (bpow radix2 (-53)) with u53.
  replace ((FR x + m * (1 + e1)) * (1 + e2) - (FR x + m)) with (FR x * e2 + (m * (1 + e1) * (1 + e2) - m)) by ring.
  pose proof (dev m e1 e2 H1 H2) as D. pose proof (Rabs_triang (FR x * e2) (m * (1 + e1) * (1 + e2) - m)) as Q. rewrite (Rabs_mult (FR x)) in Q.
  pose proof (Rabs_pos (FR x)). pose proof (Rabs_pos e2). pose proof u_pos. pose proof u_small. assert (U : u53 * u53 <= u53) by nra.
  assert (Rabs (FR x) * Rabs e2 <= Rabs (FR x) * u53) by (apply Rmult_le_compat_l; assumption). pose proof (Rabs_pos m). assert (u53 * u53 * Rabs m <= u53 * Rabs m) by (apply Rmult_le_compat_r; lra). lra.
Qed.
Lemma ray_points p u mu : ordinary_vec p -> ordinary_vec u -> ordinary mu -> tame (fx u) mu -> tame (fy u) mu -> tame (fz u) mu ->
  Rabs (FR (fx p)) <= bpow radix2 1000 -> Rabs (FR (fy p)) <= bpow radix2 1000 -> Rabs (FR (fz p)) <= bpow radix2 1000 ->
  let q := project_ray_f p u mu in
  Rabs (FR (fx q) - (FR (fx p) + FR (fx u) * FR mu)) <= bpow radix2 (-53) * (Rabs (FR (fx p)) + 3 * Rabs (FR (fx u) * FR mu)) /\
  Rabs (FR (fy q) - (FR (fy p) + FR (fy u) * FR mu)) <= bpow radix2 (-53) * (Rabs (FR (fy p)) + 3 * Rabs (FR (fy u) * FR mu)) /\
  Rabs (FR (fz q) - (FR (fz p) + FR (fz u) * FR mu)) <= bpow radix2 (-53) * (Rabs (FR (fz p)) + 3 * Rabs (FR (fz u) * FR mu)).
Proof. intros (P1 & P2 & P3) (U1 & U2 & U3) M T1 T2 T3 B1 B2 B3. cbn. split; [|split]; now apply ray_near. Qed.
