(** Lemmas about planes that are not parallel, in binary64. *)
From Coq Require Import Reals Lra Lia Floats.SpecFloat.
From Flocq Require Import Core BinarySingleNaN.
From Verif Require Import PyBase PyFacts PyFloat FloatFacts FloatR FloatZ Float32 P_const M_geomf SpecGeomf P_geomf P_geomf2 P_geomf3 P_geomf4 P_geomf5 P_geomf6 P_geomf8 P_geomf9 M_geomt SpecGeomt P_geomt.
Import ListNotations.
Local Open Scope R_scope.

Lemma norm_bounds dot n p q r : dot_integers dot -> integral_vec n p q r -> ~ (p = 0 /\ q = 0 /\ r = 0)%Z -> (p * p + q * q + r * r < 2 ^ 50)%Z ->
  ordinary (norm_f dot n) /\ 1 <= FR (norm_f dot n) <= bpow radix2 25 /\ IZR (Z.abs p) <= FR (norm_f dot n) /\ IZR (Z.abs q) <= FR (norm_f dot n) /\ IZR (Z.abs r) <= FR (norm_f dot n).
Proof.
  intros DI I N B. pose proof (Z.square_nonneg p) as Pp. pose proof (Z.square_nonneg q) as Pq. pose proof (Z.square_nonneg r) as Pr. destruct (norm_int dot n p q r DI I N ltac:(lia)) as (O & [L _] & _).
  assert (J : integral (dot n n) (p * p + q * q + r * r)) by (apply DI; [exact I|exact I|rewrite !Z.abs_eq by apply Z.square_nonneg; lia]).
  destruct (root_int _ _ J ltac:(lia)) as [_ R]. fold (norm_f dot n) in R. split; [exact O|]. split; [split; [exact L|]|].
  - rewrite R, <- (rnd_bpow 25) by lia. apply rnd_le. rewrite <- (sqrt_square (bpow radix2 25)) by apply bpow_ge_0. apply sqrt_le_1_alt. rewrite <- bpow_plus. change (bpow radix2 (25 + 25)) with (IZR (2 ^ 50)). apply IZR_le. lia.
  - assert (G : forall k, (k * k <= p * p + q * q + r * r)%Z -> IZR (Z.abs k) <= FR (norm_f dot n)).
    { intros k K. assert (BK : (Z.abs k < 2 ^ 53)%Z) by (apply (square_abs k 0); lia). rewrite R. rewrite <- (rnd_IZR (Z.abs k)) by lia. apply rnd_le.
      rewrite <- (sqrt_square (IZR (Z.abs k))) by (apply IZR_le; lia). apply sqrt_le_1_alt. rewrite <- mult_IZR, Z.abs_square. now apply IZR_le. }
    repeat split; apply G; lia.
Qed.
Lemma part_near v k n : integral v k -> ordinary n -> 1 <= FR n <= bpow radix2 25 -> IZR (Z.abs k) <= FR n ->
  ordinary (fdiv v n) /\ Rabs (FR (fdiv v n)) <= 1 /\ exists e, Rabs e <= bpow radix2 (-53) /\ IZR k = FR n * (FR (fdiv v n) + e).
Proof.
  intros [Ov Ev] On [L U] K. assert (Q : Rabs (IZR k / FR n) <= 1).
  { unfold Rdiv. rewrite Rabs_mult, Rabs_inv, (Rabs_pos_eq (FR n)) by lra. rewrite <- abs_IZR. apply Rmult_le_reg_r with (FR n); [lra|]. rewrite Rmult_assoc, Rinv_l by lra. lra. }
  destruct (div_small v n 0 Ov On) as [O E]; [lra|lia|lia|rewrite Ev; exact Q|]. rewrite Ev in E. split; [exact O|]. split.
  - rewrite E, <- rnd_abs. replace 1 with (rnd (IZR 1)) by (apply rnd_IZR; lia). now apply rnd_le.
  - destruct (Z.eq_dec k 0) as [->|N].
    + exists 0. rewrite Rabs_R0. split; [apply bpow_ge_0|]. rewrite E. unfold Rdiv. rewrite Rmult_0_l, rnd_0. ring.
    + destruct (rnd_rel (IZR k / FR n)) as (e & Le & R).
      * rewrite <- rnd_abs. apply Rle_trans with (rnd (bpow radix2 (-25))); [rewrite rnd_bpow by lia; apply bpow_le; lia|]. apply rnd_le.
        unfold Rdiv. rewrite Rabs_mult, Rabs_inv, (Rabs_pos_eq (FR n)) by lra. rewrite <- abs_IZR. replace (bpow radix2 (-25)) with (1 * / bpow radix2 25) by (rewrite Rmult_1_l; reflexivity).
        apply Rmult_le_compat; [lra|apply Rlt_le, Rinv_0_lt_compat, bpow_gt_0|apply IZR_le; lia|apply Rinv_le_contravar; lra].
      * exists (- (IZR k / FR n * e)). split; [|rewrite E, R; field; lra]. rewrite Rabs_Ropp, Rabs_mult. unfold u53 in Le. pose proof (Rabs_pos e). pose proof (Rabs_pos (IZR k / FR n)). nra.
Qed.
Lemma cross_zero P Q f g e1 e2 e3 e4 a b x y : 1 <= P <= bpow radix2 25 -> 1 <= Q <= bpow radix2 25 -> Rabs f <= 1 -> Rabs g <= 1 ->
  Rabs e1 <= bpow radix2 (-53) -> Rabs e2 <= bpow radix2 (-53) -> Rabs e3 <= bpow radix2 (-53) -> Rabs e4 <= bpow radix2 (-53) ->
  IZR a = P * (f + e1) -> IZR b = P * (g + e2) -> IZR x = Q * (f + e3) -> IZR y = Q * (g + e4) -> (a * y = b * x)%Z.
Proof.
  intros BP BQ F G E1 E2 E3 E4 Ea Eb Ex Ey. assert (D : IZR (a * y - b * x) = P * Q * (f * e4 + e1 * g + e1 * e4 - g * e3 - e2 * f - e2 * e3)) by (rewrite minus_IZR, !mult_IZR, Ea, Eb, Ex, Ey; ring).
  assert (M : 0 < P * Q <= bpow radix2 50). { split; [nra|]. replace 50%Z with (25 + 25)%Z by reflexivity. rewrite bpow_plus. apply Rmult_le_compat; lra. }
  assert (U : bpow radix2 50 * bpow radix2 (-53) = / 8) by (rewrite <- bpow_plus; cbn; lra). pose proof u_tiny as UT.
  set (u := bpow radix2 (-53)) in *. assert (T : Rabs (f * e4 + e1 * g + e1 * e4 - g * e3 - e2 * f - e2 * e3) <= 5 * u).
  { assert (P1 : forall s t, Rabs s <= 1 -> Rabs t <= u -> - u <= s * t <= u). { intros s t S1 T1. apply Rabs_le_inv. rewrite Rabs_mult. pose proof (Rabs_pos s). pose proof (Rabs_pos t). nra. }
    assert (P2 : forall s t, Rabs s <= u -> Rabs t <= u -> - (u / 2) <= s * t <= u / 2). { intros s t S1 T1. apply Rabs_le_inv. rewrite Rabs_mult. pose proof (Rabs_pos s). pose proof (Rabs_pos t). nra. }
    pose proof (P1 f e4 F E4). pose proof (P1 g e1 G E1). pose proof (P2 e1 e4 E1 E4). pose proof (P1 g e3 G E3). pose proof (P1 f e2 F E2). pose proof (P2 e2 e3 E2 E3).
    apply Rabs_le. rewrite (Rmult_comm e1 g), (Rmult_comm e2 f). lra. }
  assert (S : Rabs (IZR (a * y - b * x)) < 1).
  { rewrite D, Rabs_mult, (Rabs_pos_eq (P * Q)) by lra. apply Rle_lt_trans with (bpow radix2 50 * (5 * u)); [|lra]. apply Rmult_le_compat; try lra. apply Rabs_pos. }
  rewrite <- abs_IZR in S. apply lt_IZR in S. lia.
Qed.
(** Normals that are said to have the same direction have it. *)
Lemma said_parallel dot n1 n2 a b c x y z : dot_integers dot -> integral_vec n1 a b c -> integral_vec n2 x y z ->
  ~ (a = 0 /\ b = 0 /\ c = 0)%Z -> ~ (x = 0 /\ y = 0 /\ z = 0)%Z -> (a * a + b * b + c * c < 2 ^ 50)%Z -> (x * x + y * y + z * z < 2 ^ 50)%Z ->
  check_parallel_planes_f dot n1 n2 = true -> same_direction a b c x y z.
Proof.
  intros DI I1 I2 N1 N2 B1 B2 CP. destruct (same_signs dot n1 n2 a b c x y z DI I1 I2 N1 N2 ltac:(lia) ltac:(lia) CP) as (S1 & S2 & S3).
  destruct (norm_bounds dot n1 a b c DI I1 N1 B1) as (O1 & L1 & A1 & A2 & A3). destruct (norm_bounds dot n2 x y z DI I2 N2 B2) as (O2 & L2 & X1 & X2 & X3).
  destruct I1 as (I11 & I12 & I13), I2 as (I21 & I22 & I23).
  destruct (part_near _ _ _ I11 O1 L1 A1) as (Oa & La & ea & Ua & Ea). destruct (part_near _ _ _ I12 O1 L1 A2) as (Ob & Lb & eb & Ub & Eb). destruct (part_near _ _ _ I13 O1 L1 A3) as (Oc & Lc & ec & Uc & Ec).
  destruct (part_near _ _ _ I21 O2 L2 X1) as (Ox & Lx & ex & Ux & Ex). destruct (part_near _ _ _ I22 O2 L2 X2) as (Oy & Ly & ey & Uy & Ey). destruct (part_near _ _ _ I23 O2 L2 X3) as (Oz & Lz & ez & Uz & Ez).
  unfold check_parallel_planes_f, veq_f, vmap in CP. cbn [fx fy fz] in CP. apply andb_prop in CP. destruct CP as [CP C3]. apply andb_prop in CP. destruct CP as [C1 C2].
  apply feq_R in C1; [|apply Oa|apply Ox|apply Oa|apply Ox]. apply feq_R in C2; [|apply Ob|apply Oy|apply Ob|apply Oy]. apply feq_R in C3; [|apply Oc|apply Oz|apply Oc|apply Oz].
  rewrite <- C1 in Ex. rewrite <- C2 in Ey. rewrite <- C3 in Ez.
  pose proof (cross_zero _ _ _ _ _ _ _ _ _ _ _ _ L1 L2 La Lb Ua Ub Ux Uy Ea Eb Ex Ey) as K1.
  pose proof (cross_zero _ _ _ _ _ _ _ _ _ _ _ _ L1 L2 La Lc Ua Uc Ux Uz Ea Ec Ex Ez) as K2.
  pose proof (cross_zero _ _ _ _ _ _ _ _ _ _ _ _ L1 L2 Lb Lc Ub Uc Uy Uz Eb Ec Ey Ez) as K3.
  clear -N1 S1 S2 S3 K1 K2 K3.
  assert (W : forall j k l m, Z.sgn j = Z.sgn k -> (j * m = l * k)%Z -> (Z.abs k * l = Z.abs j * m)%Z).
  { clear. intros j k l m S H. rewrite <- (Z.sgn_abs k), <- (Z.sgn_abs j), S. replace (k * Z.sgn k * l)%Z with (l * k * Z.sgn k)%Z by ring. rewrite <- H. ring. }
  assert (V : forall j k, Z.sgn j = Z.sgn k -> (Z.abs k * j = Z.abs j * k)%Z). { clear. intros j k S. rewrite <- (Z.sgn_abs k), <- (Z.sgn_abs j), S. ring. }
  assert (NZ : forall j k, Z.sgn j = Z.sgn k -> j <> 0%Z -> (0 < Z.abs k /\ 0 < Z.abs j)%Z). { clear. intros j k S H. destruct j, k; cbn in *; lia. }
  destruct (Z.eq_dec a 0) as [A|A]; [destruct (Z.eq_dec b 0) as [B|B]; [destruct (Z.eq_dec c 0) as [C|C]; [tauto|]|]|].
  - exists (Z.abs z), (Z.abs c). destruct (NZ c z S3 C). repeat split; try assumption; [apply (W _ _ _ _ S3); rewrite K2; ring|apply (W _ _ _ _ S3); rewrite K3; ring|exact (V _ _ S3)].
  - exists (Z.abs y), (Z.abs b). destruct (NZ b y S2 B). repeat split; try assumption; [apply (W _ _ _ _ S2); rewrite K1; ring|exact (V _ _ S2)|apply (W _ _ _ _ S2); rewrite K3; ring].
  - exists (Z.abs x), (Z.abs a). destruct (NZ a x S1 A). repeat split; try assumption; [exact (V _ _ S1)|apply (W _ _ _ _ S1); rewrite K1; ring|apply (W _ _ _ _ S1); rewrite K2; ring].
Qed.
Lemma angle_full dot power arccosf n1 d1 n2 d2 a b c x y z : dot_integers dot -> power_integers power -> integral_vec n1 a b c -> integral_vec n2 x y z ->
  ~ (a = 0 /\ b = 0 /\ c = 0)%Z -> ~ (x = 0 /\ y = 0 /\ z = 0)%Z -> (a * a + b * b + c * c < 2 ^ 50)%Z -> (x * x + y * y + z * z < 2 ^ 50)%Z ->
  (Z.abs (a * x) + Z.abs (b * y) + Z.abs (c * z) < 2 ^ 26)%Z -> ~ same_direction a b c x y z ->
  exists t, angle_between_planes_f dot power arccosf n1 d1 n2 d2 = Ok (arccosf t) /\ ordinary t /\
    within 6 (FR t) (IZR (Z.abs (a * x + b * y + c * z)) / (sqrt (IZR (a * a + b * b + c * c)) * sqrt (IZR (x * x + y * y + z * z)))).
Proof.
  intros DI PI I1 I2 N1 N2 B1 B2 B3 S. apply angle_near; try assumption; try lia. destruct (check_parallel_planes_f dot n1 n2) eqn:E; [|reflexivity].
  exfalso. apply S. exact (said_parallel dot n1 n2 a b c x y z DI I1 I2 N1 N2 B1 B2 E).
Qed.
Lemma planes_cross dot n1 d1 n2 d2 a b c x y z : dot_integers dot -> integral_vec n1 a b c -> integral_vec n2 x y z ->
  ~ (a = 0 /\ b = 0 /\ c = 0)%Z -> ~ (x = 0 /\ y = 0 /\ z = 0)%Z -> (a * a + b * b + c * c < 2 ^ 50)%Z -> (x * x + y * y + z * z < 2 ^ 50)%Z -> ~ same_direction a b c x y z ->
  dist_between_planes_f dot n1 d1 n2 d2 = Ok (fzero, n2).
Proof.
  intros DI I1 I2 N1 N2 B1 B2 S. unfold dist_between_planes_f.
  rewrite plane_exists; [|now apply (int_vec_ok n1 a b c)|destruct I1 as ((_ & E1) & (_ & E2) & (_ & E3)); rewrite E1, E2, E3; intros (A & B & C); apply eq_IZR in A, B, C; tauto]. cbn [bind].
  rewrite plane_exists; [|now apply (int_vec_ok n2 x y z)|destruct I2 as ((_ & E1) & (_ & E2) & (_ & E3)); rewrite E1, E2, E3; intros (A & B & C); apply eq_IZR in A, B, C; tauto]. cbn [bind].
  destruct (check_parallel_planes_f dot n1 n2) eqn:E; [|reflexivity]. exfalso. apply S. exact (said_parallel dot n1 n2 a b c x y z DI I1 I2 N1 N2 B1 B2 E).
Qed.
Lemma opposite_direction a b c : ~ (a = 0 /\ b = 0 /\ c = 0)%Z -> ~ same_direction a b c (- a) (- b) (- c).
Proof.
  intros N (m & k & M & K & E1 & E2 & E3). apply N. assert (Q : forall j, (m * j = k * - j)%Z -> j = 0%Z) by (intros j H; assert (P : ((m + k) * j = 0)%Z) by lia; apply Zmult_integral in P; lia).
  repeat split; now apply Q.
Qed.
(** Planes whose normals are opposite are parallel. *)
Lemma opposite_planes dot power arccosf n1 d1 n2 d2 a b c : dot_integers dot -> power_integers power -> integral_vec n1 a b c -> integral_vec n2 (- a) (- b) (- c) ->
  ~ (a = 0 /\ b = 0 /\ c = 0)%Z -> (a * a + b * b + c * c < 2 ^ 26)%Z ->
  dist_between_planes_f dot n1 d1 n2 d2 = Ok (fzero, n2) /\ exists t, angle_between_planes_f dot power arccosf n1 d1 n2 d2 = Ok (arccosf t) /\ ordinary t /\ within 6 (FR t) 1.
Proof.
  intros DI PI I1 I2 N B. assert (N2 : ~ (- a = 0 /\ - b = 0 /\ - c = 0)%Z) by lia. pose proof (opposite_direction a b c N) as S.
  pose proof (Z.square_nonneg a). pose proof (Z.square_nonneg b). pose proof (Z.square_nonneg c).
  assert (B2 : (- a * - a + - b * - b + - c * - c < 2 ^ 50)%Z) by (rewrite !Z.mul_opp_opp; lia). split.
  - apply (planes_cross dot n1 d1 n2 d2 a b c (- a) (- b) (- c)); try assumption. lia.
  - destruct (angle_full dot power arccosf n1 d1 n2 d2 a b c (- a) (- b) (- c) DI PI I1 I2 N N2 ltac:(lia) B2) as (t & E & O & W); [|exact S|].
    + rewrite !Z.mul_opp_r, !Z.abs_opp, !Z.abs_eq by apply Z.square_nonneg. exact B.
    + exists t. split; [exact E|]. split; [exact O|]. rewrite !Z.mul_opp_opp, !Z.mul_opp_r, <- !Z.opp_add_distr, Z.abs_opp, Z.abs_eq in W by lia.
      set (A := (a * a + b * b + c * c)%Z) in *. assert (PA : (0 < A)%Z) by (unfold A; nia). clearbody A. rewrite sqrt_sqrt in W by (apply IZR_le; lia). unfold Rdiv in W. rewrite Rinv_r in W; [exact W|]. apply not_0_IZR. lia.
Qed.
