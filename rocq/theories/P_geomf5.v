(** Lemmas about distances from axis planes, and the cases where binary64 falls short. *)
From Coq Require Import Reals Lra Lia Floats.SpecFloat.
From Flocq Require Import Core BinarySingleNaN.
From Verif Require Import PyBase PyFacts PyFloat FloatFacts FloatR FloatZ PyFrame Float32 PyArith PyArithR M_const SpecConst P_const M_geomf SpecGeomf P_geomf P_geomf2 P_geomf3 P_geomf4.
Local Open Scope R_scope.

Lemma div_one x k : integral x k -> (Z.abs k < 2 ^ 53)%Z -> integral (fdiv x (f_of_Z 1)) k.
Proof.
  intros [[V F] E] B. destruct (int_of_Z 1 ltac:(lia)) as [[V1 F1] E1].
  destruct (fdiv_R x (f_of_Z 1) V V1 F F1 ltac:(rewrite E1; lra)) as (V' & G & _). rewrite E1, E in G. replace (IZR k / 1) with (IZR k) in G by field. rewrite rnd_IZR in G by exact B.
  destruct (G (fmax_big k B)) as [G1 G2]. repeat split; assumption.
Qed.
Lemma unit_norm dot n a b c : dot_integers dot -> integral_vec n a b c -> (a * a + b * b + c * c = 1)%Z -> norm_f dot n = f_of_Z 1.
Proof.
  intros DI I U. pose proof (DI _ _ _ _ _ _ _ _ I I) as D. rewrite U in D. unfold norm_f.
  rewrite (int_unique (dot n n) 1); [vm_compute; reflexivity| |lia|lia]. apply D. rewrite !Z.abs_eq by apply Z.square_nonneg. lia.
Qed.
Lemma feq_int x y a b : integral x a -> integral y b -> feq x y = (a =? b)%Z.
Proof.
  intros [[Vx Fx] Ex] [[Vy Fy] Ey]. destruct (Z.eqb_spec a b) as [->|N]; [apply feq_R; try assumption; congruence|].
  destruct (feq x y) eqn:Q; [|reflexivity]. apply feq_R in Q; try assumption. rewrite Ex, Ey in Q. now apply eq_IZR in Q.
Qed.
Lemma zero_integral : integral fzero 0.
Proof. repeat split. Qed.
Lemma axis_tail dot n p q a b c x y z u v w : dot_integers dot -> integral_vec n a b c -> (a * a + b * b + c * c = 1)%Z -> integral_vec p x y z -> integral_vec q u v w ->
  (Z.abs x < 2 ^ 50)%Z -> (Z.abs y < 2 ^ 50)%Z -> (Z.abs z < 2 ^ 50)%Z -> (Z.abs u < 2 ^ 50)%Z -> (Z.abs v < 2 ^ 50)%Z -> (Z.abs w < 2 ^ 50)%Z ->
  integral (fdiv (dot (vmap2 fsub q p) n) (norm_f dot n)) ((u - x) * a + (v - y) * b + (w - z) * c).
Proof.
  intros DI N U (P1 & P2 & P3) (Q1 & Q2 & Q3) Bx By Bz Bu Bv Bw. rewrite (unit_norm dot n a b c DI N U).
  assert (A : (Z.abs a <= 1 /\ Z.abs b <= 1 /\ Z.abs c <= 1)%Z) by (repeat split; nia). destruct A as (A1 & A2 & A3).
  assert (M : forall s t, (Z.abs s <= 2 ^ 51)%Z -> (Z.abs t <= 1)%Z -> (Z.abs (s * t) <= 2 ^ 51)%Z).
  { intros s t Hs Ht. rewrite Z.abs_mul. replace (2 ^ 51)%Z with (2 ^ 51 * 1)%Z by reflexivity. apply Z.mul_le_mono_nonneg; lia. }
  pose proof (M (u - x)%Z a ltac:(lia) A1). pose proof (M (v - y)%Z b ltac:(lia) A2). pose proof (M (w - z)%Z c ltac:(lia) A3).
  apply div_one; [|clear -H H0 H1; lia]. apply DI; [|exact N|clear -H H0 H1; lia]. unfold vmap2. split; [|split]; cbn [fx fy fz]; apply int_sub; try assumption; lia.
Qed.
Lemma axis_exists n a b c : integral_vec n a b c -> (a * a + b * b + c * c = 1)%Z -> check_plane_exists_f n = Ok tt.
Proof.
  intros ((O1 & E1) & (O2 & E2) & (O3 & E3)) U. apply plane_exists; [now split; [|split]|]. rewrite E1, E2, E3. intros (A & B & C).
  apply eq_IZR in A, B, C. subst. discriminate.
Qed.
Lemma axis_distance dot n d p a b c k x y z : dot_integers dot -> integral_vec n a b c -> (a = 1 /\ b = 0 /\ c = 0 \/ a = 0 /\ b = 1 /\ c = 0 \/ a = 0 /\ b = 0 /\ c = 1)%Z ->
  integral d k -> integral_vec p x y z -> (Z.abs x < 2 ^ 50)%Z -> (Z.abs y < 2 ^ 50)%Z -> (Z.abs z < 2 ^ 50)%Z -> (Z.abs k < 2 ^ 50)%Z ->
  exists r, dist_between_point_plane_f dot n d p = Ok r /\ integral r (k - (a * x + b * y + c * z)).
Proof.
  intros DI N AX D P Bx By Bz Bk. assert (U : (a * a + b * b + c * c = 1)%Z) by (destruct AX as [(-> & -> & ->)|[(-> & -> & ->)|(-> & -> & ->)]]; reflexivity).
  unfold dist_between_point_plane_f. rewrite (axis_exists n a b c N U). cbn [bind].
  assert (DP : integral (dot n p) (a * x + b * y + c * z)) by (apply DI; [exact N|exact P|]; destruct AX as [(-> & -> & ->)|[(-> & -> & ->)|(-> & -> & ->)]]; lia).
  rewrite (feq_int _ _ _ _ DP D). destruct (Z.eqb_spec (a * x + b * y + c * z) k) as [Q|Q].
  - exists fzero. split; [reflexivity|]. rewrite Q, Z.sub_diag. exact zero_integral.
  - pose proof N as (N1 & N2 & N3). rewrite (feq_int _ _ _ _ N1 zero_integral), (feq_int _ _ _ _ N2 zero_integral), (feq_int _ _ _ _ N3 zero_integral). eexists. split; [reflexivity|].
    destruct AX as [(-> & -> & ->)|[(-> & -> & ->)|(-> & -> & ->)]]; cbn [Z.eqb negb].
    + rewrite (int_unique _ _ N1) by lia. pose proof (div_one d k D ltac:(lia)) as DK.
      replace (k - (1 * x + 0 * y + 0 * z))%Z with ((k - x) * 1 + (0 - y) * 0 + (0 - z) * 0)%Z by ring. apply axis_tail; try assumption; try (cbn; lia). split; [exact DK|split; exact zero_integral].
    + rewrite (int_unique _ _ N2) by lia. pose proof (div_one d k D ltac:(lia)) as DK.
      replace (k - (0 * x + 1 * y + 0 * z))%Z with ((0 - x) * 0 + (k - y) * 1 + (0 - z) * 0)%Z by ring. apply axis_tail; try assumption; try (cbn; lia). split; [exact zero_integral|split; [exact DK|exact zero_integral]].
    + rewrite (int_unique _ _ N3) by lia. pose proof (div_one d k D ltac:(lia)) as DK.
      replace (k - (0 * x + 0 * y + 1 * z))%Z with ((0 - x) * 0 + (0 - y) * 0 + (k - z) * 1)%Z by ring. apply axis_tail; try assumption; try (cbn; lia). split; [exact zero_integral|split; [exact zero_integral|exact DK]].
Qed.

(** * Where binary64 falls short *)
Lemma pow2_R k : FR (pow2_f k) = bpow radix2 k.
Proof. unfold pow2_f, FR. cbn -[Z.sub]. unfold F2R. cbn -[Z.sub bpow]. change 4503599627370496 with (bpow radix2 52). rewrite <- bpow_plus. f_equal. lia. Qed.
Lemma distance_lost : dist_bet_points_f loop_dot (FV fzero fzero fzero) (FV (pow2_f (-600)) fzero fzero) = fzero.
Proof. vm_compute. reflexivity. Qed.
Lemma distance_inf : dist_bet_points_f loop_dot (FV fzero fzero fzero) (FV (pow2_f 600) fzero fzero) = S754_infinity false.
Proof. vm_compute. reflexivity. Qed.
Lemma midpoint_inf y z : fx (midpoint_bet_points_f (FV (pow2_f 1023) y z) (FV (pow2_f 1023) y z)) = S754_infinity false.
Proof. vm_compute. reflexivity. Qed.
Definition off_plane : fvec := FV (f_of_Z 1) (f_of_Z 1) fzero.
Definition tilted : fvec := FV (f_of_Z 1) (pow2_f (-60)) fzero.
Lemma off_plane_on : find_sense_plane_f loop_dot tilted (f_of_Z 1) off_plane = Ok (Some 0%Z).
Proof. vm_compute. reflexivity. Qed.
Lemma off_plane_off : inner_f tilted off_plane - FR (f_of_Z 1) = bpow radix2 (-60).
Proof.
  unfold inner_f, tilted, off_plane. cbn [fx fy fz]. rewrite pow2_R, (proj2 (int_of_Z 1 ltac:(lia))). change (FR fzero) with 0. ring.
Qed.
Lemma plane_inf : dist_between_point_plane_f loop_dot (FV (pow2_f (-1022)) (f_of_Z 1) fzero) (f_of_Z 8) (FV fzero fzero fzero) = Ok (S754_infinity false).
Proof. vm_compute. reflexivity. Qed.
Lemma translate_lost : translate_f (translate_f [fv 1 0 0] (FV (pow2_f 60) fzero fzero)) (FV (fopp (pow2_f 60)) (fopp fzero) (fopp fzero)) = [fv 0 0 0].
Proof. vm_compute. reflexivity. Qed.

(** * Sums in either order, and the refusal of negative lengths *)
Lemma add_comm x y : fadd x y = fadd y x.
Proof.
  unfold fadd. destruct x as [[]|[]| |s m e], y as [[]|[]| |s' m' e']; try reflexivity. cbn [SFadd].
  rewrite (Z.min_comm e e'), Z.add_comm. reflexivity.
Qed.
Lemma midpoint_comm p q : midpoint_bet_points_f p q = midpoint_bet_points_f q p.
Proof. unfold midpoint_bet_points_f, vmap2, vmap. cbn [fx fy fz]. now rewrite (add_comm (fx p)), (add_comm (fy p)), (add_comm (fz p)). Qed.
Lemma neg_refused x : ordinary x -> FR x < 0 -> check_positive_f x = Err ValueError.
Proof. intros [V F] L. apply refused. apply flt_R; try assumption; reflexivity. Qed.
Lemma negative_radius (power : float -> Z -> float) r h : ordinary r -> FR r < 0 -> length_f h ->
  perim_circle_f r = Err ValueError /\ area_circle_f r = Err ValueError /\ area_cyl_f r h = Err ValueError /\ area_sphere_f power r = Err ValueError /\
  area_cone_surf_f r h = Err ValueError /\ volume_sphere_f power r = Err ValueError /\ volume_cyl_f r h = Err ValueError /\ volume_cone_f r h = Err ValueError.
Proof.
  intros O L H. pose proof (neg_refused r O L) as N. pose proof (length_ok h H) as Hh.
  unfold volume_cone_f, volume_cyl_f, perim_circle_f, area_cyl_f, area_sphere_f, area_cone_surf_f, volume_sphere_f, area_circle_f. rewrite N, Hh. cbn [bind]. repeat split.
Qed.
Lemma negative_height r h : length_f r -> ordinary h -> FR h < 0 ->
  area_cyl_f r h = Err ValueError /\ area_cone_surf_f r h = Err ValueError /\ volume_cyl_f r h = Err ValueError /\ volume_cone_f r h = Err ValueError.
Proof.
  intros H O L. pose proof (neg_refused h O L) as N. pose proof (length_ok r H) as Hr.
  unfold volume_cone_f, volume_cyl_f, area_cyl_f, area_cone_surf_f. rewrite N, Hr. cbn [bind]. repeat split.
Qed.
Lemma negative_shell (power : float -> Z -> float) a b h : ordinary a -> ordinary b -> FR a < 0 \/ FR b < 0 -> length_f h ->
  area_cyl_shell_f a b = Err ValueError /\ volume_spherical_shell_f power a b = Err ValueError /\ volume_cyl_shell_f a b h = Err ValueError.
Proof.
  intros Oa Ob L H. pose proof (length_ok h H) as Hh. unfold volume_cyl_shell_f, volume_spherical_shell_f, area_cyl_shell_f, area_circle_f, volume_sphere_f. rewrite Hh. cbn [bind].
  assert (E : forall x, check_positive_f x = Ok tt \/ check_positive_f x = Err ValueError) by (intros; unfold check_positive_f; destruct (flt x fzero); auto).
  destruct L as [L|L].
  - rewrite (neg_refused a Oa L). repeat split.
  - destruct (E a) as [-> | ->]; cbn [bind]; rewrite ?(neg_refused b Ob L); repeat split.
Qed.
Lemma never_refused (power : float -> Z -> float) : perim_circle_f S754_nan = Ok S754_nan /\ area_circle_f S754_nan = Ok S754_nan /\
  (forall h, length_f h -> volume_cyl_f S754_nan h = Ok S754_nan /\ volume_cyl_f h S754_nan = Ok S754_nan).
Proof.
  split; [reflexivity|]. split; [reflexivity|]. intros h H. unfold volume_cyl_f, area_circle_f. rewrite (length_ok h H). cbn [bind].
  split; [reflexivity|]. cbn [check_positive_f]. unfold check_positive_f. change (flt S754_nan fzero) with false. cbn [bind]. f_equal. destruct (fmul (fmul pi_f h) h) as [[]|[]| |[] m e]; reflexivity.
Qed.
Lemma no_plane_sense dot n d p : ordinary_vec n -> no_normal n -> find_sense_plane_f dot n d p = Err ValueError.
Proof. intros O N. unfold find_sense_plane_f. now rewrite (no_plane n O N). Qed.
Lemma translate_int ps t a b c i p x y z : integral_vec t a b c -> nth_error ps i = Some p -> integral_vec p x y z ->
  (Z.abs (x + a) < 2 ^ 53)%Z -> (Z.abs (y + b) < 2 ^ 53)%Z -> (Z.abs (z + c) < 2 ^ 53)%Z ->
  length (translate_f ps t) = length ps /\ exists q, nth_error (translate_f ps t) i = Some q /\ integral_vec q (x + a) (y + b) (z + c).
Proof.
  intros T N P A B C. split; [apply map_length|]. exists (vmap2 fadd p t). split; [now rewrite translate_nth, N|now apply shift_int].
Qed.
