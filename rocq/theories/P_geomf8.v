(** Lemmas about segments, rays and spheres in binary64. *)
From Coq Require Import Reals Lra Lia Floats.SpecFloat.
From Flocq Require Import Core BinarySingleNaN.
From Verif Require Import PyBase PyFacts PyFloat FloatFacts FloatR FloatZ PyFrame Float32 PyArith PyArithR M_const SpecConst P_const M_geomf SpecGeomf P_geomf P_geomf2 P_geomf3 P_geomf4 P_geomf5 P_geomf6.
Local Open Scope R_scope.

(** * Signs *)
Lemma aux_sign s m e l : flt (SpecFloat.binary_round_aux prec emax s m e l) fzero = true -> s = true.
Proof.
  unfold SpecFloat.binary_round_aux. destruct (SpecFloat.shr_fexp prec emax m e l) as [a b]. destruct (SpecFloat.shr_fexp prec emax _ b SpecFloat.loc_Exact) as [c d].
  destruct (SpecFloat.shr_m c); try discriminate. destruct (d <=? emax - prec)%Z; destruct s; try discriminate; reflexivity.
Qed.
Lemma mul_neg a b : flt (fmul a b) fzero = true -> (flt a fzero = true /\ flt fzero b = true) \/ (flt fzero a = true /\ flt b fzero = true).
Proof.
  destruct a as [sa|sa| |sa ma ea], b as [sb|sb| |sb mb eb]; try (destruct sa; destruct sb; cbn; intuition discriminate); try (destruct sa; cbn; intuition discriminate); try (destruct sb; cbn; intuition discriminate); try discriminate.
  intros H. unfold fmul, SFmul in H. apply aux_sign in H. destruct sa, sb; try discriminate; cbn; intuition.
Qed.
Lemma sense_neg x : flt x fzero = true -> sense_of x = Some 1%Z.
Proof. unfold sense_of. destruct x as [[]|[]| |[] m e]; cbn; intros H; try discriminate; reflexivity. Qed.
Lemma sense_pos x : flt fzero x = true -> sense_of x = Some (-1)%Z.
Proof. unfold sense_of. intros ->. reflexivity. Qed.
Lemma mul_neg_R a b : ordinary a -> ordinary b -> FR a * FR b <= - bpow radix2 (-1074) -> flt (fmul a b) fzero = true.
Proof.
  intros [Va Fa] [Vb Fb] L. destruct (mul64_R a b Va Vb Fa Fb) as (V & G & H).
  assert (N : rnd (FR a * FR b) <= - bpow radix2 (-1074)).
  { apply rnd_le in L. apply Rle_trans with (1 := L). apply Req_le. unfold rnd. rewrite round_NE_opp. f_equal. apply (rnd_bpow (-1074)). lia. }
  pose proof (bpow_gt_0 radix2 (-1074)) as P. destruct (Rlt_le_dec (Rabs (rnd (FR a * FR b))) fmax_bound) as [Q|Q].
  - destruct (G Q) as [E F]. apply flt_R; try assumption; try reflexivity. rewrite E. change (FR fzero) with 0. lra.
  - rewrite (H Q), Rlt_bool_true by lra. reflexivity.
Qed.
Lemma rnd_tiny x : Rabs x < bpow radix2 (-1075) -> rnd x = 0.
Proof.
  intros L. destruct (Req_dec x 0) as [->|N]; [apply rnd_0|]. destruct (mag radix2 x) as [ex E]. specialize (E N).
  apply (round_N_small radix2 (FLT_exp (-1074) 53) _ x ex E). assert (ex <= -1075)%Z.
  { destruct (Z_lt_le_dec (-1075) ex) as [H|H]; [|exact H]. exfalso. apply (Rlt_irrefl (Rabs x)). apply Rlt_le_trans with (1 := L). apply Rle_trans with (2 := proj1 E). apply bpow_le. lia. }
  unfold FLT_exp. lia.
Qed.
Lemma mul_tiny a b : ordinary a -> ordinary b -> Rabs (FR a * FR b) < bpow radix2 (-1075) -> flt (fmul a b) fzero = false.
Proof.
  intros [Va Fa] [Vb Fb] L. destruct (mul64_R a b Va Vb Fa Fb) as (V & G & _). rewrite (rnd_tiny _ L), Rabs_R0 in G. destruct (G (bpow_gt_0 _ _)) as [E F].
  destruct (flt (fmul a b) fzero) eqn:Q; [|reflexivity]. apply flt_R in Q; try assumption; try reflexivity. rewrite E in Q. change (FR fzero) with 0 in Q. lra.
Qed.
Lemma flt_zero_R a : ordinary a -> flt a fzero = true <-> FR a < 0.
Proof. intros [V F]. rewrite flt_R by (assumption || reflexivity). reflexivity. Qed.
Lemma zero_flt_R a : ordinary a -> flt fzero a = true <-> 0 < FR a.
Proof. intros [V F]. rewrite flt_R by (assumption || reflexivity). reflexivity. Qed.

(** * Segments and planes *)
Lemma segment_same dot p0 p1 n d s0 s1 : commutes dot -> find_sense_plane_f dot n d p0 = Ok s0 -> find_sense_plane_f dot n d p1 = Ok s1 ->
  ~ (s0 = Some 1%Z /\ s1 = Some (-1)%Z \/ s0 = Some (-1)%Z /\ s1 = Some 1%Z) -> line_segment_plane_intersection_f dot p0 p1 n d = Err ValueError.
Proof.
  intros C. unfold find_sense_plane_f, line_segment_plane_intersection_f, evaluate_plane_eq_f. destruct (check_plane_exists_f n) as [[]|]; cbn [bind]; [|discriminate].
  intros E0 E1 N. apply Ok_eq in E0, E1. destruct (feq (dot (vmap2 fsub p1 p0) n) fzero); [reflexivity|]. rewrite (C p0 n), (C p1 n).
  destruct (flt (fmul (fsub (dot n p0) d) (fsub (dot n p1) d)) fzero) eqn:Q; [|reflexivity]. exfalso. apply N. rewrite <- E0, <- E1.
  destruct (mul_neg _ _ Q) as [[A B]|[A B]]; [left|right]; split; now (apply sense_neg || apply sense_pos).
Qed.
Lemma sense_1 x : sense_of x = Some 1%Z -> flt x fzero = true.
Proof. unfold sense_of. destruct (flt fzero x); [discriminate|]. destruct (flt x fzero); [reflexivity|]. destruct (feq x fzero); discriminate. Qed.
Lemma sense_m1 x : sense_of x = Some (-1)%Z -> flt fzero x = true.
Proof. unfold sense_of. destruct (flt fzero x); [reflexivity|]. destruct (flt x fzero); [discriminate|]. destruct (feq x fzero); discriminate. Qed.
Lemma segment_opposite dot p0 p1 n d s0 s1 : commutes dot -> find_sense_plane_f dot n d p0 = Ok s0 -> find_sense_plane_f dot n d p1 = Ok s1 ->
  (s0 = Some 1%Z /\ s1 = Some (-1)%Z \/ s0 = Some (-1)%Z /\ s1 = Some 1%Z) ->
  let a := evaluate_plane_eq_f dot n d p0 in let b := evaluate_plane_eq_f dot n d p1 in ordinary a -> ordinary b ->
  (bpow radix2 (-1074) <= Rabs (FR a * FR b) -> feq (dot (vmap2 fsub p1 p0) n) fzero = false -> exists q, line_segment_plane_intersection_f dot p0 p1 n d = Ok q) /\
  (Rabs (FR a * FR b) < bpow radix2 (-1075) -> line_segment_plane_intersection_f dot p0 p1 n d = Err ValueError).
Proof.
  intros C. unfold find_sense_plane_f, line_segment_plane_intersection_f, evaluate_plane_eq_f. destruct (check_plane_exists_f n) as [[]|]; cbn [bind]; [|discriminate].
  intros E0 E1 N. cbv zeta. intros Oa Ob. apply Ok_eq in E0, E1. subst s0 s1. rewrite (C p0 n), (C p1 n). set (a := fsub (dot n p0) d) in *. set (b := fsub (dot n p1) d) in *.
  assert (S : FR a * FR b < 0).
  { destruct N as [[A B]|[A B]].
    - apply sense_1, flt_zero_R in A; [|exact Oa]. apply sense_m1, zero_flt_R in B; [|exact Ob]. nra.
    - apply sense_m1, zero_flt_R in A; [|exact Oa]. apply sense_1, flt_zero_R in B; [|exact Ob]. nra. }
  split.
  - intros L F. rewrite F. rewrite Rabs_left in L by exact S. rewrite mul_neg_R by (assumption || lra). eexists. reflexivity.
  - intros L. destruct (feq (dot (vmap2 fsub p1 p0) n) fzero); [reflexivity|]. rewrite (mul_tiny a b Oa Ob L). reflexivity.
Qed.
Lemma segment_int dot p0 p1 n d a b c k x y z u v w : dot_integers dot -> integral_vec n a b c -> ~ (a = 0 /\ b = 0 /\ c = 0)%Z -> integral d k -> integral_vec p0 x y z -> integral_vec p1 u v w ->
  (Z.abs k < 2 ^ 51)%Z -> (Z.abs x < 2 ^ 51)%Z -> (Z.abs y < 2 ^ 51)%Z -> (Z.abs z < 2 ^ 51)%Z -> (Z.abs u < 2 ^ 51)%Z -> (Z.abs v < 2 ^ 51)%Z -> (Z.abs w < 2 ^ 51)%Z ->
  (Z.abs (x * a) + Z.abs (y * b) + Z.abs (z * c) < 2 ^ 51)%Z -> (Z.abs (u * a) + Z.abs (v * b) + Z.abs (w * c) < 2 ^ 51)%Z ->
  let s0 := (x * a + y * b + z * c - k)%Z in let s1 := (u * a + v * b + w * c - k)%Z in
  ((s0 < 0 < s1 \/ s1 < 0 < s0)%Z -> exists q, line_segment_plane_intersection_f dot p0 p1 n d = Ok q) /\
  (~ (s0 < 0 < s1 \/ s1 < 0 < s0)%Z -> line_segment_plane_intersection_f dot p0 p1 n d = Err ValueError).
Proof.
  intros DI N NZ D P Q Bk Bx By Bz Bu Bv Bw S0 S1 s0 s1. unfold line_segment_plane_intersection_f.
  rewrite plane_exists; [|now apply (int_vec_ok n a b c)|destruct N as ((_ & E1) & (_ & E2) & (_ & E3)); rewrite E1, E2, E3; intros (A & B & C); apply eq_IZR in A, B, C; tauto]. cbn [bind].
  assert (I0 : integral (fsub (dot p0 n) d) s0) by (apply int_sub; [apply DI; [exact P|exact N|lia]|exact D|lia]).
  assert (I1 : integral (fsub (dot p1 n) d) s1) by (apply int_sub; [apply DI; [exact Q|exact N|lia]|exact D|lia]).
  assert (IS : integral (dot (vmap2 fsub p1 p0) n) ((u - x) * a + (v - y) * b + (w - z) * c)).
  { assert (T : forall p q r, (Z.abs ((p - q) * r) <= Z.abs (p * r) + Z.abs (q * r))%Z) by (clear; intros; rewrite Z.mul_sub_distr_r; lia).
    pose proof (T u x a) as T1. pose proof (T v y b) as T2. pose proof (T w z c) as T3.
    apply DI; [|exact N|clear -T1 T2 T3 S0 S1; lia]. destruct P as (P1 & P2 & P3), Q as (Q1 & Q2 & Q3). unfold vmap2. split; [|split]; cbn [fx fy fz]; apply int_sub; try assumption; clear -Bx By Bz Bu Bv Bw; lia. }
  rewrite (feq_int _ _ _ _ IS zero_integral).
  assert (EQ : ((u - x) * a + (v - y) * b + (w - z) * c = s1 - s0)%Z) by (unfold s0, s1; ring). rewrite EQ.
  destruct I0 as [O0 E0], I1 as [O1 E1]. set (A := fsub (dot p0 n) d) in *. set (B := fsub (dot p1 n) d) in *. split.
  - intros H. destruct (Z.eqb_spec (s1 - s0) 0) as [Z0|_]; [exfalso; clear -H Z0; clearbody s0 s1; lia|]. rewrite mul_neg_R; [eexists; reflexivity|exact O0|exact O1|]. rewrite E0, E1, <- mult_IZR.
    assert (K : (s0 * s1 <= -1)%Z) by (clear -H; clearbody s0 s1; destruct H; nia). apply Rle_trans with (-1); [exact (IZR_le _ _ K)|]. replace (-1) with (- bpow radix2 0) by (cbn; lra). apply Ropp_le_contravar, bpow_le. clear; lia.
  - intros H. destruct (s1 - s0 =? 0)%Z; [reflexivity|]. destruct (flt (fmul A B) fzero) eqn:F; [|reflexivity]. exfalso. apply H.
    destruct (mul_neg _ _ F) as [[G1 G2]|[G1 G2]].
    + apply flt_zero_R in G1; [|exact O0]. apply zero_flt_R in G2; [|exact O1]. rewrite E0 in G1. rewrite E1 in G2. apply lt_IZR in G1, G2. tauto.
    + apply zero_flt_R in G1; [|exact O0]. apply flt_zero_R in G2; [|exact O1]. rewrite E0 in G1. rewrite E1 in G2. apply lt_IZR in G1, G2. tauto.
Qed.

(** * Rays and spheres *)
Lemma valid_add x y : valid x = true -> valid y = true -> valid (fadd x y) = true.
Proof.
  intros V W. destruct (is_finite_f x) eqn:F, (is_finite_f y) eqn:G; [exact (proj1 (add64_R x y V W F G))| | |];
  destruct x as [[]|[]| |], y as [[]|[]| |]; try discriminate; reflexivity.
Qed.
Lemma valid_sub x y : valid x = true -> valid y = true -> valid (fsub x y) = true.
Proof.
  intros V W. destruct (is_finite_f x) eqn:F, (is_finite_f y) eqn:G; [exact (proj1 (sub64_R x y V W F G))| | |];
  destruct x as [[]|[]| |], y as [[]|[]| |]; try discriminate; reflexivity.
Qed.
Lemma valid_mul x y : valid x = true -> valid y = true -> valid (fmul x y) = true.
Proof.
  intros V W. destruct (is_finite_f x) eqn:F, (is_finite_f y) eqn:G; [exact (proj1 (mul64_R x y V W F G))| | |];
  destruct x as [[]|[]| |[]], y as [[]|[]| |[]]; try discriminate; reflexivity.
Qed.
Lemma sqrt_shape x : valid x = true -> fsqrt x = S754_nan \/ fsqrt x = S754_infinity false \/ (ordinary (fsqrt x) /\ 0 <= FR (fsqrt x)).
Proof.
  intros V. destruct x as [s|[]| |[] m e]; try (left; reflexivity); try (right; left; reflexivity).
  - right; right. split; [split; destruct s; reflexivity|]. cbn. lra.
  - right; right. assert (P : 0 <= FR (S754_finite false m e)). { change (FR _) with (IZR (Zpos m) * bpow radix2 e). apply Rmult_le_pos; [apply IZR_le; lia|apply bpow_ge_0]. }
    destruct (fsqrt_R _ V eq_refl P) as (V' & E & F). split; [now split|]. rewrite E. apply rnd_nonneg, sqrt_pos.
Qed.
Lemma add_nan x : fadd x S754_nan = S754_nan.
Proof. destruct x as [[]|[]| |[]]; reflexivity. Qed.
Lemma sub_nan x : fsub x S754_nan = S754_nan.
Proof. destruct x as [[]|[]| |[]]; reflexivity. Qed.
Lemma add_sub_order x s : valid x = true -> (s = S754_infinity false \/ (ordinary s /\ 0 <= FR s)) -> is_nan_f (fadd x s) = false -> is_nan_f (fsub x s) = false -> fle (fsub x s) (fadd x s) = true.
Proof.
  intros V [->|[[Vs Fs] P]].
  - destruct x as [[]|[]| |[]]; try discriminate; reflexivity.
  - destruct (is_finite_f x) eqn:F; [|destruct x as [|[]| |], s as [[]|[]| |[]]; try discriminate; reflexivity]. intros _ _.
    destruct (sub64_R x s V Vs F Fs) as (V1 & G1 & H1). destruct (add64_R x s V Vs F Fs) as (V2 & G2 & H2).
    assert (M : rnd (FR x - FR s) <= rnd (FR x + FR s)) by (apply rnd_le; lra).
    assert (MX : forall z, valid z = true -> is_finite_f z = true -> fle (S754_infinity true) z = true /\ fle z (S754_infinity false) = true) by (intros [[]|[]| |[]]; try discriminate; intros _ _; split; reflexivity).
    destruct (Rlt_le_dec (Rabs (rnd (FR x - FR s))) fmax_bound) as [Q1|Q1], (Rlt_le_dec (Rabs (rnd (FR x + FR s))) fmax_bound) as [Q2|Q2].
    + destruct (G1 Q1) as [E1 F1], (G2 Q2) as [E2 F2]. apply fle_R; try assumption. now rewrite E1, E2.
    + rewrite (H2 Q2). destruct (G1 Q1) as [E1 F1]. unfold Rlt_bool. destruct (Rcompare_spec (FR x + FR s) 0) as [L|L|L]; [|now apply MX|now apply MX].
      exfalso. apply Rlt_le, rnd_le in L. rewrite rnd_0 in L. rewrite Rabs_left1 in Q2 by exact L. rewrite Rabs_left1 in Q1 by lra. lra.
    + rewrite (H1 Q1). destruct (G2 Q2) as [E2 F2]. unfold Rlt_bool. destruct (Rcompare_spec (FR x - FR s) 0) as [L|L|L]; [now apply MX| |].
      * exfalso. rewrite L, rnd_0, Rabs_R0 in Q1. pose proof (bpow_gt_0 radix2 1024). unfold fmax_bound in Q1. cbn in Q1. lra.
      * exfalso. apply Rlt_le, rnd_le in L. rewrite rnd_0 in L. rewrite Rabs_pos_eq in Q1 by exact L. rewrite Rabs_pos_eq in Q2 by lra. lra.
    + rewrite (H1 Q1), (H2 Q2). unfold Rlt_bool. destruct (Rcompare_spec (FR x - FR s) 0), (Rcompare_spec (FR x + FR s) 0); try reflexivity; exfalso; lra.
Qed.
Lemma valid_sqrt x : valid x = true -> valid (fsqrt x) = true.
Proof. intros V. destruct (sqrt_shape x V) as [->|[->|[[H _] _]]]; [reflexivity|reflexivity|exact H]. Qed.
Lemma ray_order dot power p u c rad mu1 mu2 : gives_floats dot power -> valid_vec p -> valid_vec u -> valid_vec c -> valid rad = true ->
  sphere_ray_intersect_f dot power p u c rad = Ok (mu1, mu2) -> is_nan_f mu1 = false -> is_nan_f mu2 = false -> fle mu2 mu1 = true.
Proof.
  intros [VD VP] (P1 & P2 & P3) Vu (C1 & C2 & C3) Vr. unfold sphere_ray_intersect_f. destruct (check_positive_f rad); cbn [bind]; [|discriminate]. intros E. apply Ok_eq in E. injection E as <- <-.
  assert (VV : valid_vec (vmap2 fsub p c)) by (unfold vmap2; split; [|split]; cbn [fx fy fz]; now apply valid_sub).
  match goal with |- context[fsqrt ?d] => set (D := d) end.
  assert (V : valid D = true) by (apply valid_add; [apply valid_sub; apply VP; [now apply VD|apply valid_sqrt; now apply VD]|now apply VP]).
  assert (VX : valid (fmul (f_of_Z (-1)) (dot (vmap2 fsub p c) u)) = true) by (apply valid_mul; [reflexivity|now apply VD]).
  destruct (sqrt_shape D V) as [->|S]; [|now apply add_sub_order]. intros N _. rewrite add_nan in N. discriminate N.
Qed.
Lemma sqrt_negative x : ordinary x -> FR x < 0 -> fsqrt x = S754_nan.
Proof.
  intros [V F] N. destruct x as [s|s| |[] m e]; try discriminate F; [cbn in N; lra|reflexivity|].
  exfalso. revert N. change (FR (S754_finite false m e)) with (IZR (Zpos m) * bpow radix2 e). apply Rle_not_lt, Rmult_le_pos; [apply IZR_le; lia|apply bpow_ge_0].
Qed.
Lemma int_diff p c x y z a b d : integral_vec p x y z -> integral_vec c a b d -> (Z.abs (x - a) < 2 ^ 53)%Z -> (Z.abs (y - b) < 2 ^ 53)%Z -> (Z.abs (z - d) < 2 ^ 53)%Z ->
  integral_vec (vmap2 fsub p c) (x - a) (y - b) (z - d).
Proof. intros (P1 & P2 & P3) (C1 & C2 & C3) B1 B2 B3. unfold vmap2. split; [|split]; cbn [fx fy fz]; now apply int_sub. Qed.
Lemma square_small m : (0 <= m < 2 ^ 25)%Z -> (m * m < 2 ^ 50)%Z.
Proof. intros [A B]. change (2 ^ 50)%Z with (2 ^ 25 * 2 ^ 25)%Z. apply Z.mul_lt_mono_nonneg; assumption. Qed.
Lemma abs_small g m : (g * g <= m * m)%Z -> (0 <= m)%Z -> (Z.abs g <= m)%Z.
Proof. intros A B. apply Z.square_le_simpl_nonneg; [exact B|]. rewrite Z.abs_square. exact A. Qed.
(** the value under the root *)
Lemma ray_root dot power p u c rad x y z a b d e f g m k : dot_integers dot -> power_integers power ->
  integral_vec p x y z -> integral_vec c a b d -> integral_vec u e f g -> integral rad k -> (0 <= k < 2 ^ 25)%Z -> (0 <= m < 2 ^ 25)%Z ->
  ((x - a) * (x - a) + (y - b) * (y - b) + (z - d) * (z - d) = m * m)%Z -> (Z.abs ((x - a) * e) + Z.abs ((y - b) * f) + Z.abs ((z - d) * g) < 2 ^ 25)%Z ->
  let h := ((x - a) * e + (y - b) * f + (z - d) * g)%Z in
  let D := fadd (fsub (power (dot (vmap2 fsub p c) u) 2%Z) (power (norm_f dot (vmap2 fsub p c)) 2%Z)) (power rad 2%Z) in
  integral (dot (vmap2 fsub p c) u) h /\ integral D (h * h - m * m + k * k).
Proof.
  intros DI PI P C U K Bk Bm M BH h D.
  assert (X : (Z.abs (x - a) <= m /\ Z.abs (y - b) <= m /\ Z.abs (z - d) <= m)%Z).
  { pose proof (Z.square_nonneg (x - a)). pose proof (Z.square_nonneg (y - b)). pose proof (Z.square_nonneg (z - d)). repeat split; apply abs_small; lia. }
  assert (IV : integral_vec (vmap2 fsub p c) (x - a) (y - b) (z - d)) by (apply int_diff; try assumption; lia).
  assert (IH : integral (dot (vmap2 fsub p c) u) h) by (apply DI; [exact IV|exact U|lia]).
  assert (HB : (Z.abs h < 2 ^ 25)%Z) by (unfold h; lia). split; [exact IH|].
  pose proof (square_small m Bm) as Sm. pose proof (square_small k Bk) as Sk. pose proof (square_small (Z.abs h) ltac:(lia)) as Sh. rewrite Z.abs_square in Sh.
  assert (IN : integral (norm_f dot (vmap2 fsub p c)) m).
  { unfold norm_f. apply int_sqrt; [|lia]. rewrite <- M. apply DI; [exact IV|exact IV|]. rewrite !Z.abs_eq by apply Z.square_nonneg. rewrite M. lia. }
  pose proof (Z.square_nonneg h). pose proof (Z.square_nonneg m). pose proof (Z.square_nonneg k).
  apply int_add; [apply int_sub; [apply PI; [exact IH|lia]|apply PI; [exact IN|lia]|lia]|apply PI; [exact K|lia]|lia].
Qed.
Lemma ray_hits dot power p u c rad x y z a b d e f g m k : dot_integers dot -> power_integers power ->
  integral_vec p x y z -> integral_vec c a b d -> integral_vec u e f g -> integral rad k -> (0 <= k < 2 ^ 25)%Z -> (0 <= m < 2 ^ 25)%Z ->
  ((x - a) * (x - a) + (y - b) * (y - b) + (z - d) * (z - d) = m * m)%Z -> (Z.abs ((x - a) * e) + Z.abs ((y - b) * f) + Z.abs ((z - d) * g) < 2 ^ 25)%Z ->
  let h := ((x - a) * e + (y - b) * f + (z - d) * g)%Z in
  (forall s, (0 <= s)%Z -> (h * h - m * m + k * k = s * s)%Z ->
    exists mu1 mu2, sphere_ray_intersect_f dot power p u c rad = Ok (mu1, mu2) /\ integral mu1 (- h + s) /\ integral mu2 (- h - s)) /\
  ((h * h - m * m + k * k < 0)%Z -> sphere_ray_intersect_f dot power p u c rad = Ok (S754_nan, S754_nan)).
Proof.
  intros DI PI P C U K Bk Bm M BH h. destruct (ray_root dot power p u c rad _ _ _ _ _ _ _ _ _ _ _ DI PI P C U K Bk Bm M BH) as [IH ID]. fold h in IH, ID.
  unfold sphere_ray_intersect_f. rewrite (check_length rad) by (destruct K as [O E]; split; [exact O|rewrite E; apply IZR_le; lia]). cbn [bind].
  set (D := fadd _ _) in *. set (G := dot _ u) in *. assert (HB : (Z.abs h < 2 ^ 25)%Z) by (unfold h; lia).
  assert (IG : integral (fmul (f_of_Z (-1)) G) (- h)) by (replace (- h)%Z with (-1 * h)%Z by ring; apply int_mul; [apply int_of_Z; lia|exact IH|clearbody h; lia]).
  pose proof (square_small k Bk) as Sk. pose proof (square_small (Z.abs h) ltac:(lia)) as Sh. rewrite Z.abs_square in Sh. pose proof (Z.square_nonneg m) as Pm. clearbody D G h. split.
  - intros s S0 S. assert (SB : (s < 2 ^ 26)%Z).
    { apply Z.square_lt_simpl_nonneg; [lia|]. change (2 ^ 26 * 2 ^ 26)%Z with (2 ^ 52)%Z. lia. }
    rewrite S in ID. pose proof (int_sqrt D s ID ltac:(lia)) as IS. eexists _, _. split; [reflexivity|]. split; [apply int_add|apply int_sub]; try assumption; lia.
  - intros N. rewrite (sqrt_negative D); [|exact (proj1 ID)|rewrite (proj2 ID); apply IZR_lt; exact N].
    now rewrite add_nan, sub_nan.
Qed.

(** * Where binary64 falls short *)
Lemma ray_tangent dot power k : dot_integers dot -> squares power -> (0 <= k <= 25)%Z ->
  sphere_ray_intersect_f dot power (fv (2 ^ k) (2 ^ k) 0) (fv 1 0 0) (fv 0 0 0) (f_of_Z (2 ^ k)) = Ok (S754_nan, S754_nan).
Proof.
  intros DI SQ B. unfold sphere_ray_intersect_f.
  assert (S : forall j, (0 <= j <= 25)%Z -> check_positive_f (f_of_Z (2 ^ j)) = Ok tt /\ vmap2 fsub (fv (2 ^ j) (2 ^ j) 0) (fv 0 0 0) = fv (2 ^ j) (2 ^ j) 0 /\
    let D := fadd (fsub (fmul (f_of_Z (2 ^ j)) (f_of_Z (2 ^ j))) (fmul (fsqrt (f_of_Z (2 * (2 ^ j * 2 ^ j)))) (fsqrt (f_of_Z (2 * (2 ^ j * 2 ^ j)))))) (fmul (f_of_Z (2 ^ j)) (f_of_Z (2 ^ j))) in
    fsqrt D = S754_nan).
  { intros j Bj. assert (H : In j (map Z.of_nat (seq 0 26))) by (apply in_map_iff; exists (Z.to_nat j); split; [lia|apply in_seq; lia]).
    cbn [map seq Z.of_nat] in H. repeat (destruct H as [<-|H]; [split; [reflexivity|split; vm_compute; reflexivity]|]). destruct H. }
  destruct (S k B) as (S1 & S2 & S3). rewrite S1, S2. cbn [bind]. cbv zeta in S3.
  assert (P2 : (0 < 2 ^ k <= 2 ^ 25)%Z) by (split; [apply Z.pow_pos_nonneg; lia|apply Z.pow_le_mono_r; lia]). set (q := (2 ^ k)%Z) in *. clearbody q.
  assert (IV : integral_vec (fv q q 0) q q 0) by (apply fv_int; lia). assert (QQ : (q * q <= 2 ^ 50)%Z) by (change (2 ^ 50)%Z with (2 ^ 25 * 2 ^ 25)%Z; apply Z.mul_le_mono_nonneg; lia).
  assert (QP : (0 < q * q)%Z) by (apply Z.mul_pos_pos; lia).
  assert (E1 : dot (fv q q 0) (fv 1 0 0) = f_of_Z q).
  { apply int_unique; [|lia|lia]. replace q with (q * 1 + q * 0 + 0 * 0)%Z at 3 by ring. apply DI; [exact IV|apply fv_int; lia|lia]. }
  assert (E2 : dot (fv q q 0) (fv q q 0) = f_of_Z (2 * (q * q))).
  { apply int_unique; [|lia|lia]. replace (2 * (q * q))%Z with (q * q + q * q + 0 * 0)%Z by ring. apply DI; [exact IV|exact IV|]. rewrite !Z.abs_eq by lia. lia. }
  unfold norm_f. rewrite !SQ, E1, E2, S3. now rewrite add_nan, sub_nan.
Qed.
Lemma ray_false dot power : dot_integers dot -> squares power ->
  exists mu1 mu2, sphere_ray_intersect_f dot power (fv (2 ^ 26) 1 0) (fv 1 0 0) (fv 0 0 0) (fdec 5 (-1)) = Ok (mu1, mu2) /\ FR mu1 = - 2 ^ 26 + / 2 /\ FR mu2 = - 2 ^ 26 - / 2.
Proof.
  intros DI SQ. unfold sphere_ray_intersect_f. change (check_positive_f (fdec 5 (-1))) with (@Ok unit tt). cbn [bind].
  assert (E0 : vmap2 fsub (fv (2 ^ 26) 1 0) (fv 0 0 0) = fv (2 ^ 26) 1 0) by (vm_compute; reflexivity). rewrite E0.
  assert (IV : integral_vec (fv (2 ^ 26) 1 0) (2 ^ 26) 1 0) by (apply fv_int; lia).
  assert (E1 : dot (fv (2 ^ 26) 1 0) (fv 1 0 0) = f_of_Z (2 ^ 26)).
  { apply int_unique; [|lia|lia]. change (2 ^ 26)%Z with (2 ^ 26 * 1 + 1 * 0 + 0 * 0)%Z at 2. apply DI; [exact IV|apply fv_int; lia|lia]. }
  assert (E2 : dot (fv (2 ^ 26) 1 0) (fv (2 ^ 26) 1 0) = f_of_Z (2 ^ 52 + 1)).
  { apply int_unique; [|lia|lia]. change (2 ^ 52 + 1)%Z with (2 ^ 26 * 2 ^ 26 + 1 * 1 + 0 * 0)%Z. apply DI; [exact IV|exact IV|lia]. }
  unfold norm_f. rewrite !SQ, E1, E2.
  eexists _, _. split; [reflexivity|].
  match goal with |- FR ?a = _ /\ FR ?b = _ => assert (A : a = S754_finite true (2 ^ 53 - 2 ^ 26) (-27)) by (vm_compute; reflexivity); assert (B : b = S754_finite true (2 ^ 52 + 2 ^ 25) (-26)) by (vm_compute; reflexivity); rewrite A, B end.
  split.
  - change (FR _) with (IZR (-(2 ^ 53 - 2 ^ 26)) * / IZR (2 ^ 27)). cbn -[IZR]. lra.
  - change (FR _) with (IZR (-(2 ^ 52 + 2 ^ 25)) * / IZR (2 ^ 26)). cbn -[IZR]. lra.
Qed.

(** * Planes and spheres *)
Lemma flt_int x y a b : integral x a -> integral y b -> flt x y = (a <? b)%Z.
Proof.
  intros [[Vx Fx] Ex] [[Vy Fy] Ey]. destruct (Z.ltb_spec a b) as [L|L].
  - apply flt_R; try assumption. rewrite Ex, Ey. now apply IZR_lt.
  - destruct (flt x y) eqn:Q; [|reflexivity]. apply flt_R in Q; try assumption. rewrite Ex, Ey in Q. apply lt_IZR in Q. lia.
Qed.

(** * The plain loop *)
Lemma mul_comm_f x y : fmul x y = fmul y x.
Proof. destruct x as [[]|[]| |[] m e], y as [[]|[]| |[] m' e']; try reflexivity; unfold fmul, SFmul; f_equal; try apply Z.add_comm; f_equal; apply Pos.mul_comm. Qed.
Lemma loop_commutes : commutes loop_dot.
Proof. intros v w. unfold loop_dot. now rewrite (mul_comm_f (fx v)), (mul_comm_f (fy v)), (mul_comm_f (fz v)). Qed.
Lemma loop_floats : gives_floats loop_dot mul_power.
Proof.
  split.
  - intros v w (A & B & C) (A' & B' & C'). unfold loop_dot. repeat (apply valid_add || apply valid_mul); assumption.
  - intros x k V. unfold mul_power. destruct (k =? 3)%Z; repeat apply valid_mul; assumption.
Qed.
Lemma mul_power_squares : squares mul_power.
Proof. intros x. reflexivity. Qed.
Lemma segment_lost : find_sense_plane_f loop_dot (fv 1 0 0) fzero (FV (pow2_f (-600)) fzero fzero) = Ok (Some (-1)%Z) /\
  find_sense_plane_f loop_dot (fv 1 0 0) fzero (FV (fopp (pow2_f (-600))) fzero fzero) = Ok (Some 1%Z) /\
  line_segment_plane_intersection_f loop_dot (FV (pow2_f (-600)) fzero fzero) (FV (fopp (pow2_f (-600))) fzero fzero) (fv 1 0 0) fzero = Err ValueError.
Proof. vm_compute. now repeat split. Qed.
Lemma segment_tiny dot p0 p1 n d s : commutes dot -> (s = 1 \/ s = -1)%Z -> find_sense_plane_f dot n d p0 = Ok (Some s) -> find_sense_plane_f dot n d p1 = Ok (Some (- s)%Z) ->
  let a := evaluate_plane_eq_f dot n d p0 in let b := evaluate_plane_eq_f dot n d p1 in ordinary a -> ordinary b ->
  Rabs (FR a * FR b) < bpow radix2 (-1075) -> line_segment_plane_intersection_f dot p0 p1 n d = Err ValueError.
Proof. intros C S E0 E1 a b Oa Ob. apply (segment_opposite dot p0 p1 n d _ _ C E0 E1); try assumption. destruct S as [-> | ->]; [left|right]; split; reflexivity. Qed.
Lemma segment_cross dot p0 p1 n d s : commutes dot -> (s = 1 \/ s = -1)%Z -> find_sense_plane_f dot n d p0 = Ok (Some s) -> find_sense_plane_f dot n d p1 = Ok (Some (- s)%Z) ->
  let a := evaluate_plane_eq_f dot n d p0 in let b := evaluate_plane_eq_f dot n d p1 in ordinary a -> ordinary b ->
  bpow radix2 (-1074) <= Rabs (FR a * FR b) -> feq (dot (vmap2 fsub p1 p0) n) fzero = false -> exists q, line_segment_plane_intersection_f dot p0 p1 n d = Ok q.
Proof. intros C S E0 E1 a b Oa Ob. apply (segment_opposite dot p0 p1 n d _ _ C E0 E1); try assumption. destruct S as [-> | ->]; [left|right]; split; reflexivity. Qed.
Lemma segment_refused dot p0 p1 n d s0 s1 : commutes dot -> find_sense_plane_f dot n d p0 = Ok s0 -> find_sense_plane_f dot n d p1 = Ok s1 ->
  (forall s, s0 = Some s -> s1 = Some (- s)%Z -> s = 0%Z) -> line_segment_plane_intersection_f dot p0 p1 n d = Err ValueError.
Proof.
  intros C E0 E1 N. apply (segment_same dot p0 p1 n d s0 s1 C E0 E1). intros [[A B]|[A B]]; [specialize (N 1%Z A B)|specialize (N (-1)%Z A B)]; discriminate N.
Qed.
Lemma tangent_real k : (0 <= k)%Z -> (IZR (2 ^ k) + - IZR (2 ^ k) * 1) ^ 2 + IZR (2 ^ k) ^ 2 = IZR (2 ^ k) ^ 2.
Proof. intros _. ring. Qed.
Lemma false_real mu : (/ 2) ^ 2 < (2 ^ 26 + mu * 1) ^ 2 + 1 ^ 2.
Proof. pose proof (pow2_ge_0 (2 ^ 26 + mu * 1)). lra. Qed.
Lemma plane_sphere_refused dot power n d p rad : ordinary_vec n -> ordinary rad -> no_normal n \/ FR rad < 0 -> plane_sphere_intersect_f dot power n d p rad = Err ValueError.
Proof.
  intros ON OR H. unfold plane_sphere_intersect_f. destruct (check_plane_exists_f n) as [[]|e] eqn:E; cbn [bind].
  - destruct H as [H|H]; [rewrite (no_plane n ON H) in E; discriminate|]. rewrite neg_refused by assumption. reflexivity.
  - unfold check_plane_exists_f in E. destruct (veq_f n _); [now injection E as <-|discriminate].
Qed.
