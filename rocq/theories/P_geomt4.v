(** Lemmas about polar coordinates of points that are not whole numbers. *)
From Coq Require Import Reals Lra Lia Floats.SpecFloat.
From Flocq Require Import Core BinarySingleNaN.
From Verif Require Import PyBase PyFacts PyFloat FloatFacts FloatR FloatZ Float32 P_const M_geomf SpecGeomf P_geomf P_geomf2 P_geomf3 P_geomf4 P_geomf5 P_geomf6 P_geomf8 P_geomf9 M_geomt SpecGeomt P_geomt.
Import ListNotations.
Local Open Scope R_scope.

(** The root of a rounded square is not less than the number. *)
Lemma root_of_square x : generic_format radix2 (FLT_exp (-1074) 53) x -> bpow radix2 (-400) <= x <= bpow radix2 400 -> x <= rnd (sqrt (rnd (x * x))).
Proof.
  intros F [L H]. pose proof (bpow_gt_0 radix2 (-400)) as P0. assert (Px : 0 < x) by lra.
  assert (ML : (-399 <= mag radix2 x)%Z) by (apply mag_ge_bpow; rewrite Rabs_pos_eq by lra; exact L).
  destruct (Req_dec x (bpow radix2 (mag radix2 x - 1))) as [E|N].
  - rewrite E at 2 3. rewrite <- bpow_plus.
    assert (MH : (mag radix2 x <= 401)%Z) by (apply mag_le_bpow; [lra|]; rewrite Rabs_pos_eq by lra; apply Rle_lt_trans with (bpow radix2 400); [exact H|apply bpow_lt; lia]).
    rewrite rnd_bpow by lia. rewrite bpow_plus, sqrt_square by apply bpow_ge_0. rewrite rnd_bpow by lia. rewrite <- E. lra.
  - apply round_N_ge_midp; [apply FLT_exp_valid; reflexivity|exact F|]. rewrite pred_eq_pos by lra. unfold pred_pos. rewrite Req_bool_false by exact N.
    assert (UV : ulp radix2 (FLT_exp (-1074) 53) x = bpow radix2 (mag radix2 x - 53)) by (rewrite ulp_neq_0 by lra; unfold cexp, FLT_exp; f_equal; lia).
    assert (UB : x + ulp radix2 (FLT_exp (-1074) 53) x <= bpow radix2 (mag radix2 x)).
    { apply id_p_ulp_le_bpow; [exact Px|exact F|]. pose proof (bpow_mag_gt radix2 x) as Q. rewrite Rabs_pos_eq in Q by lra. exact Q. }
    assert (LB : bpow radix2 (mag radix2 x - 1) <= x). { pose proof (bpow_mag_le radix2 x ltac:(lra)) as Q. now rewrite Rabs_pos_eq in Q by lra. }
    rewrite UV in *. set (U := bpow radix2 (mag radix2 x - 53)) in *. pose proof (bpow_gt_0 radix2 (mag radix2 x - 53)) as PU. fold U in PU.
    assert (B1 : bpow radix2 (mag radix2 x) * bpow radix2 (-53) = U) by (unfold U; rewrite <- bpow_plus; f_equal; lia).
    assert (B2 : bpow radix2 (mag radix2 x - 1) * bpow radix2 (-53) = U / 2).
    { unfold U. rewrite <- bpow_plus. replace (mag radix2 x - 53)%Z with (mag radix2 x - 1 + -53 + 1)%Z by lia. rewrite (bpow_plus radix2 _ 1). change (bpow radix2 1) with 2. field. }
    destruct (rnd_rel (x * x)) as (e & Le & E).
    { rewrite <- rnd_abs, Rabs_pos_eq by nra. apply Rle_trans with (rnd (bpow radix2 (-800))); [rewrite rnd_bpow by lia; apply bpow_le; lia|]. apply rnd_le.
      replace (-800)%Z with (-400 + -400)%Z by reflexivity. rewrite bpow_plus. apply Rmult_le_compat; lra. }
    rewrite E. unfold u53 in Le. pose proof u_tiny as UT. set (u := bpow radix2 (-53)) in *. apply Rabs_le_inv in Le.
    assert (C1 : u * x <= U - u * U) by nra. assert (C2 : U / 2 <= u * x) by nra.
    assert (XU : U <= x). { assert (u * U <= u * x) by nra. nra. }
    apply Rsqr_incrst_0; [|lra|apply sqrt_pos]. rewrite Rsqr_sqrt by nra. unfold Rsqr.
    assert (D : u * x * x <= (U - u * U) * x) by (apply Rmult_le_compat_r; lra). assert (D2 : U / 2 * U <= u * x * U) by (apply Rmult_le_compat_r; lra).
    assert (D3 : - (u * x * x) <= e * (x * x)) by nra. assert (0 < U * U) by nra.
    replace ((x + (x - U)) / 2 * ((x + (x - U)) / 2)) with (x * x - x * U + U * U / 4) by field. nra.
Qed.
(** A sum of squares: its error, and bounds far from overflow and underflow. *)
Definition nn (n : nat) (k : Z) (a : float) (A : R) : Prop := ordinary a /\ rel n (FR a) A /\ FR a <= bpow radix2 k /\ (FR a = 0 \/ bpow radix2 (-800) <= FR a).
Lemma nn_square power x : squares power -> sized x -> nn 1 800 (power x 2%Z) (FR x * FR x) /\ FR (power x 2%Z) = rnd (FR x * FR x).
Proof.
  intros SQ [[V F] S]. rewrite SQ. destruct (mul64_R x x V V F F) as (V' & G & _). destruct S as [Z0|[L H]].
  - rewrite Z0, Rmult_0_l, rnd_0, Rabs_R0 in *. destruct (G (bpow_gt_0 _ _)) as [E F']. rewrite E. split; [|reflexivity]. split; [now split|]. rewrite E. split; [apply (rel_weaken 0); [lia|]; apply rel_refl; lra|]. split; [apply bpow_ge_0|now left].
  - assert (P : bpow radix2 (-800) <= FR x * FR x <= bpow radix2 800).
    { assert (Q : FR x * FR x = Rabs (FR x) * Rabs (FR x)) by (rewrite <- Rabs_mult; symmetry; apply Rabs_pos_eq; nra). rewrite Q. replace (-800)%Z with (-400 + -400)%Z by reflexivity. replace 800%Z with (400 + 400)%Z by reflexivity. rewrite !bpow_plus.
      pose proof (bpow_gt_0 radix2 (-400)). split; apply Rmult_le_compat; lra. }
    pose proof (bpow_gt_0 radix2 (-800)) as P0. assert (R : bpow radix2 (-800) <= rnd (FR x * FR x) <= bpow radix2 800) by (split; [rewrite <- (rnd_bpow (-800)) by lia|rewrite <- (rnd_bpow 800) by lia]; apply rnd_le; lra).
    destruct G as [E F']; [rewrite Rabs_pos_eq by lra; eapply Rle_lt_trans; [apply R|apply bpow_lt; lia]|]. split; [|exact E]. split; [now split|]. rewrite E. split; [|split; [apply R|right; apply R]].
    destruct (rnd_rel (FR x * FR x)) as (e & Le & Q); [rewrite Rabs_pos_eq by lra; eapply Rle_trans; [|apply R]; apply bpow_le; lia|]. apply (rel_scale _ _ e); [lra|exact Le|exact Q].
Qed.
Lemma nn_add n k a A b B : (800 <= k <= 900)%Z -> nn n k a A -> nn n k b B -> nn (S n) (k + 1) (fadd a b) (A + B) /\ FR (fadd a b) = rnd (FR a + FR b).
Proof.
  intros K (Oa & Ra & Ha & La) (Ob & Rb & Hb & Lb). pose proof (rel_nonneg _ _ _ Ra) as Na. pose proof (rel_nonneg _ _ _ Rb) as Nb. pose proof (rel_add n _ _ _ _ Ra Rb) as Rs.
  destruct Oa as [Va Fa], Ob as [Vb Fb]. destruct (add64_R a b Va Vb Fa Fb) as (V & G & _).
  assert (H : rnd (FR a + FR b) <= bpow radix2 (k + 1)). { rewrite <- (rnd_bpow (k + 1)) by lia. apply rnd_le. rewrite bpow_plus. change (bpow radix2 1) with 2. lra. }
  assert (N : 0 <= rnd (FR a + FR b)) by (rewrite <- rnd_0; apply rnd_le; lra).
  destruct G as [E F]; [rewrite Rabs_pos_eq by exact N; eapply Rle_lt_trans; [exact H|apply bpow_lt; lia]|]. split; [|exact E]. split; [now split|]. rewrite E.
  assert (C : FR a + FR b = 0 \/ bpow radix2 (-800) <= FR a + FR b) by (destruct La, Lb; lra). destruct C as [C|C].
  - rewrite C, rnd_0. split; [|split; [apply bpow_ge_0|now left]]. apply (rel_weaken n); [lia|]. now rewrite C in Rs.
  - apply rnd_le in C as C'. rewrite rnd_bpow in C' by lia. split; [|split; [exact H|now right]].
    destruct (rnd_rel (FR a + FR b)) as (e & Le & Q); [rewrite Rabs_pos_eq by exact N; eapply Rle_trans; [|exact C']; apply bpow_le; lia|].
    change (S n) with (1 + n)%nat. eapply rel_trans; [|exact Rs]. apply (rel_scale _ _ e); [lra|exact Le|exact Q].
Qed.
Lemma nn_weaken n m k l a A : (n <= m)%nat -> (k <= l)%Z -> nn n k a A -> nn m l a A.
Proof. intros N K (O & R & H & L). split; [exact O|]. split; [now apply (rel_weaken n)|]. split; [eapply Rle_trans; [exact H|now apply bpow_le]|exact L]. Qed.
Lemma nn_root n a A : nn (n + n) 802 a A -> ordinary (fsqrt a) /\ FR (fsqrt a) = rnd (sqrt (FR a)) /\ rel (S n) (FR (fsqrt a)) (sqrt A) /\ FR (fsqrt a) <= bpow radix2 401.
Proof.
  intros ([V F] & R & H & L). pose proof (rel_nonneg _ _ _ R) as N. destruct (fsqrt_R a V F N) as (V' & SR & F'). split; [now split|]. rewrite SR. split; [reflexivity|].
  pose proof (rel_sqrt n _ _ R) as RS. split.
  - destruct L as [L|L]; [rewrite L, sqrt_0, rnd_0; rewrite L, sqrt_0 in RS; apply (rel_weaken n); [lia|exact RS]|].
    assert (Q : bpow radix2 (-400) <= sqrt (FR a)). { rewrite <- (sqrt_square (bpow radix2 (-400))) by apply bpow_ge_0. apply sqrt_le_1_alt. rewrite <- bpow_plus. exact L. }
    pose proof (rnd_le _ _ Q) as Q'. rewrite rnd_bpow in Q' by lia. pose proof (bpow_gt_0 radix2 (-400)).
    destruct (rnd_rel (sqrt (FR a))) as (e & Le & E); [rewrite Rabs_pos_eq by lra; eapply Rle_trans; [|exact Q']; apply bpow_le; lia|].
    change (S n) with (1 + n)%nat. eapply rel_trans; [|exact RS]. apply (rel_scale _ _ e); [apply sqrt_pos|exact Le|exact E].
  - rewrite <- (rnd_bpow 401) by lia. apply rnd_le. rewrite <- (sqrt_square (bpow radix2 401)) by apply bpow_ge_0. apply sqrt_le_1_alt. rewrite <- bpow_plus. exact H.
Qed.
(** A coordinate divided by the radius. *)
Lemma cosine_near z r R : sized z -> ordinary r -> Rabs (FR z) <= FR r -> 0 < FR r <= bpow radix2 401 -> 0 < R -> rel 3 (FR r) R ->
  ordinary (fdiv z r) /\ close 6 (fdiv z r) (FR z / R) /\ -1 <= FR (fdiv z r) <= 1.
Proof.
  intros [Oz Sz] Or ZR [P H] PR RR. assert (Q : Rabs (FR z / FR r) <= 1).
  { unfold Rdiv. rewrite Rabs_mult, Rabs_inv, (Rabs_pos_eq (FR r)) by lra. apply Rmult_le_reg_r with (FR r); [lra|]. rewrite Rmult_assoc, Rinv_l by lra. lra. }
  destruct (div_small z r 0 Oz Or) as [O E]; [lra|lia|lia|exact Q|]. split; [exact O|]. split.
  - split; [exact O|]. assert (X : exists e, Rabs e <= u53 /\ FR (fdiv z r) = FR z / FR r * (1 + e)).
    { rewrite E. destruct Sz as [Z0|[L _]]; [exists 0; rewrite Rabs_R0, Z0; unfold Rdiv; rewrite !Rmult_0_l, rnd_0; split; [apply Rlt_le, u_pos|ring]|].
      apply rnd_rel. rewrite <- rnd_abs. apply Rle_trans with (rnd (bpow radix2 (-801))); [rewrite rnd_bpow by lia; apply bpow_le; lia|]. apply rnd_le.
      unfold Rdiv. rewrite Rabs_mult, Rabs_inv, (Rabs_pos_eq (FR r)) by lra. replace (-801)%Z with (-400 + - (401))%Z by reflexivity. rewrite bpow_plus, bpow_opp.
      apply Rmult_le_compat; [apply bpow_ge_0|apply Rlt_le, Rinv_0_lt_compat, bpow_gt_0|exact L|apply Rinv_le_contravar; lra]. }
    destruct X as (e & Le & X). pose proof (rel_inv 3 _ _ ltac:(lia) PR RR) as RI.
    assert (S : rel 1 (/ FR r * (1 + e)) (/ FR r)) by (apply (rel_scale _ _ e); [apply Rlt_le, Rinv_0_lt_compat; lra|exact Le|reflexivity]).
    pose proof (rel_within 5 _ _ ltac:(lia) (rel_trans _ _ _ _ _ S RI)) as W. unfold within in W. change (IZR (Z.of_nat 5 + 1)) with 6 in W.
    rewrite X. replace (FR z / FR r * (1 + e) - FR z / R) with (FR z * (/ FR r * (1 + e) - / R)) by (unfold Rdiv; ring). unfold Rdiv. rewrite !Rabs_mult, (Rabs_pos_eq (/ R)) by (apply Rlt_le, Rinv_0_lt_compat; lra).
    apply Rle_trans with (Rabs (FR z) * (6 * bpow radix2 (-53) * / R)); [apply Rmult_le_compat_l; [apply Rabs_pos|exact W]|]. apply Req_le. ring.
  - apply Rabs_le_inv in Q. rewrite E. split; [replace (-1) with (rnd (IZR (-1))) by (apply rnd_IZR; lia)|replace 1 with (rnd (IZR 1)) by (apply rnd_IZR; lia)]; apply rnd_le; apply Q.
Qed.
Lemma root_dominates power z a b : squares power -> sized z -> ordinary b -> 0 <= a -> FR b = rnd (a + FR (power z 2%Z)) -> Rabs (FR z) <= rnd (sqrt (FR b)).
Proof.
  intros SQ S Ob A E. destruct (nn_square power z SQ S) as [_ Q]. destruct S as [[V F] [Z0|L]].
  - rewrite Z0, Rabs_R0. rewrite <- rnd_0. apply rnd_le, sqrt_pos.
  - eapply Rle_trans; [apply (root_of_square (Rabs (FR z)) ltac:(apply generic_format_abs; now apply FR_format) L)|]. apply rnd_le, sqrt_le_1_alt. rewrite E, Q.
    rewrite <- Rabs_mult, (Rabs_pos_eq (FR z * FR z)) by nra. apply Rle_trans with (rnd (rnd (FR z * FR z))); [apply Req_le; symmetry; apply round_generic; [apply valid_rnd_N|apply generic_format_round; [apply FLT_exp_valid; reflexivity|apply valid_rnd_N]]|apply rnd_le; lra].
Qed.
Lemma azimuth_real arctanf x y : sized x -> sized y -> FR x <> 0 ->
  exists w phi, azimuth_f arctanf x y = Ok phi /\ close 1 w (FR y / FR x) /\ (0 < FR x -> phi = arctanf w) /\ (FR x < 0 -> phi = fadd (arctanf w) pi_f).
Proof.
  intros [Ox Sx] [Oy Sy] N. destruct Sx as [Z0|[Lx Hx]]; [contradiction|]. exists (fdiv y x).
  assert (PX : 0 < Rabs (FR x)) by now apply Rabs_pos_lt.
  assert (UB : Rabs (FR y / FR x) <= bpow radix2 800).
  { unfold Rdiv. rewrite Rabs_mult, Rabs_inv. destruct Sy as [Z0|[_ Hy]]; [rewrite Z0, Rabs_R0, Rmult_0_l; apply bpow_ge_0|].
    replace 800%Z with (400 + - (-400))%Z by reflexivity. rewrite bpow_plus, bpow_opp. apply Rmult_le_compat; [apply Rabs_pos|apply Rlt_le, Rinv_0_lt_compat; exact PX|exact Hy|apply Rinv_le_contravar; [apply bpow_gt_0|exact Lx]]. }
  destruct (div_small y x 800 Oy Ox N ltac:(lia) ltac:(lia) UB) as [O E].
  assert (C : close 1 (fdiv y x) (FR y / FR x)).
  { split; [exact O|]. rewrite E. destruct Sy as [Z0|[Ly _]].
    - rewrite Z0. unfold Rdiv. rewrite Rmult_0_l, rnd_0, Rminus_0_r, Rabs_R0. lra.
    - destruct (rnd_rel (FR y / FR x)) as (e & Le & Q).
      + rewrite <- rnd_abs. apply Rle_trans with (rnd (bpow radix2 (-800))); [rewrite rnd_bpow by lia; apply bpow_le; lia|]. apply rnd_le.
        unfold Rdiv. rewrite Rabs_mult, Rabs_inv. replace (-800)%Z with (-400 + - (400))%Z by reflexivity. rewrite bpow_plus, bpow_opp. apply Rmult_le_compat; [apply bpow_ge_0|apply Rlt_le, Rinv_0_lt_compat, bpow_gt_0|exact Ly|apply Rinv_le_contravar; [exact PX|exact Hx]].
      + rewrite Q. replace (FR y / FR x * (1 + e) - FR y / FR x) with (e * (FR y / FR x)) by ring. rewrite Rabs_mult, Rmult_1_l. apply Rmult_le_compat_r; [apply Rabs_pos|exact Le]. }
  unfold azimuth_f, py_fdiv. rewrite (not_zero x N). cbn [bind]. destruct (fle fzero x) eqn:FL.
  - exists (arctanf (fdiv y x)). split; [reflexivity|]. split; [exact C|]. split; [reflexivity|]. intros NX. apply fle_R in FL; try reflexivity; try apply Ox. change (FR fzero) with 0 in FL. lra.
  - exists (fadd (arctanf (fdiv y x)) pi_f). split; [reflexivity|]. split; [exact C|]. split; [|reflexivity]. intros PX'. assert (T : fle fzero x = true) by (apply fle_R; try reflexivity; try apply Ox; change (FR fzero) with 0; lra). congruence.
Qed.
Lemma cylindrical_real power arctanf x y z : squares power -> sized x -> sized y -> FR x <> 0 ->
  exists rho w phi, cartesian_to_cylindrical_f power arctanf x y z = Ok (rho, phi, z) /\ ordinary rho /\ within 3 (FR rho) (sqrt (FR x ^ 2 + FR y ^ 2)) /\
    close 1 w (FR y / FR x) /\ (0 < FR x -> phi = arctanf w) /\ (FR x < 0 -> phi = fadd (arctanf w) pi_f).
Proof.
  intros SQ Sx Sy N. destruct (azimuth_real arctanf x y Sx Sy N) as (w & phi & E & C & P1 & P2). unfold cartesian_to_cylindrical_f. rewrite E. cbn [bind].
  destruct (nn_square power x SQ Sx) as [Nx _]. destruct (nn_square power y SQ Sy) as [Ny _]. destruct (nn_add 1 800 _ _ _ _ ltac:(lia) Nx Ny) as [Ns _].
  apply (nn_weaken 2 (1 + 1) (800 + 1) 802) in Ns; [|lia|lia]. destruct (nn_root 1 _ _ Ns) as (O & _ & R & _). eexists _, w, phi. split; [reflexivity|]. split; [exact O|]. split; [|tauto].
  replace (FR x ^ 2 + FR y ^ 2) with (FR x * FR x + FR y * FR y) by ring. exact (rel_within 2 _ _ ltac:(lia) R).
Qed.
Lemma spherical_real power arctanf arccosf x y z : squares power -> sized x -> sized y -> sized z -> FR x <> 0 ->
  exists r t w phi, cartesian_to_spherical_f power arctanf arccosf x y z = Ok (r, arccosf t, phi) /\ ordinary r /\ within 4 (FR r) (sqrt (FR x ^ 2 + FR y ^ 2 + FR z ^ 2)) /\
    close 6 t (FR z / sqrt (FR x ^ 2 + FR y ^ 2 + FR z ^ 2)) /\ -1 <= FR t <= 1 /\
    close 1 w (FR y / FR x) /\ (0 < FR x -> phi = arctanf w) /\ (FR x < 0 -> phi = fadd (arctanf w) pi_f).
Proof.
  intros SQ Sx Sy Sz N. destruct (azimuth_real arctanf x y Sx Sy N) as (w & phi & E & C & P1 & P2). unfold cartesian_to_spherical_f. rewrite E. cbn [bind].
  destruct (nn_square power x SQ Sx) as [Nx _]. destruct (nn_square power y SQ Sy) as [Ny _]. destruct (nn_square power z SQ Sz) as [Nz _].
  destruct (nn_add 1 800 _ _ _ _ ltac:(lia) Nx Ny) as [Ns _]. pose proof Ns as (_ & RS & _). pose proof (rel_nonneg _ _ _ RS) as NS.
  apply (nn_weaken 1 2 800 (800 + 1)) in Nz; [|lia|lia]. destruct (nn_add 2 (800 + 1) _ _ _ _ ltac:(lia) Ns Nz) as [Nt Et]. pose proof Nt as (Ot & _).
  apply (nn_weaken 3 (2 + 2) (800 + 1 + 1) 802) in Nt; [|lia|lia]. destruct (nn_root 2 _ _ Nt) as (O & Er & R & H).
  pose proof (root_dominates power z _ _ SQ Sz Ot NS Et) as D. rewrite <- Er in D. set (r := fsqrt _) in *. replace (FR x ^ 2 + FR y ^ 2 + FR z ^ 2) with (FR x * FR x + FR y * FR y + FR z * FR z) by ring.
  set (A := FR x * FR x + FR y * FR y + FR z * FR z) in *. assert (PA : 0 < sqrt A) by (apply sqrt_lt_R0; unfold A; nra).
  assert (PR : 0 < FR r). { destruct R as (_ & R & _). eapply Rlt_le_trans; [|exact R]. apply Rmult_lt_0_compat; [exact PA|apply dn_pos]. }
  destruct (cosine_near z r (sqrt A) Sz O D ltac:(lra) PA R) as (Oc & Cc & Bc). exists r, (fdiv z r), w, phi. split; [reflexivity|]. split; [exact O|]. split; [exact (rel_within 3 _ _ ltac:(lia) R)|]. tauto.
Qed.
Lemma polar_real power arccosf rho phi z : squares power -> sized rho -> sized z -> 0 <= FR rho -> FR rho <> 0 \/ FR z <> 0 ->
  exists r t, cylindrical_to_spherical_f power arccosf rho phi z = Ok (r, arccosf t, phi) /\ ordinary r /\ within 3 (FR r) (sqrt (FR rho ^ 2 + FR z ^ 2)) /\
    close 6 t (FR z / sqrt (FR rho ^ 2 + FR z ^ 2)) /\ -1 <= FR t <= 1.
Proof.
  intros SQ Sx Sz P N. unfold cylindrical_to_spherical_f. rewrite check_length by (split; [apply Sx|exact P]). cbn [bind].
  destruct (nn_square power rho SQ Sx) as [Nx _]. destruct (nn_square power z SQ Sz) as [Nz _]. pose proof Nx as (_ & RS & _). pose proof (rel_nonneg _ _ _ RS) as NS.
  destruct (nn_add 1 800 _ _ _ _ ltac:(lia) Nx Nz) as [Nt Et]. pose proof Nt as (Ot & _).
  apply (nn_weaken 2 (1 + 1) (800 + 1) 802) in Nt; [|lia|lia]. destruct (nn_root 1 _ _ Nt) as (O & Er & R & H).
  pose proof (root_dominates power z _ _ SQ Sz Ot NS Et) as D. rewrite <- Er in D. set (r := fsqrt _) in *. replace (FR rho ^ 2 + FR z ^ 2) with (FR rho * FR rho + FR z * FR z) by ring.
  set (A := FR rho * FR rho + FR z * FR z) in *. assert (PA : 0 < sqrt A) by (apply sqrt_lt_R0; unfold A; destruct N; nra).
  assert (PR : 0 < FR r). { destruct R as (_ & R & _). eapply Rlt_le_trans; [|exact R]. apply Rmult_lt_0_compat; [exact PA|apply dn_pos]. }
  destruct (cosine_near z r (sqrt A) Sz O D ltac:(lra) PA (rel_weaken 2 3 _ _ ltac:(lia) R)) as (Oc & Cc & Bc). exists r, (fdiv z r). split; [reflexivity|]. split; [exact O|]. split; [exact (rel_within 2 _ _ ltac:(lia) R)|]. tauto.
Qed.
Lemma sized_int k : (Z.abs k < 2 ^ 53)%Z -> sized (f_of_Z k).
Proof.
  intros A. destruct (int_of_Z k A) as [O E]. split; [exact O|]. rewrite E. destruct (Z.eq_dec k 0) as [->|N]; [now left|right]. rewrite <- abs_IZR. split.
  - apply Rle_trans with 1; [change 1 with (bpow radix2 0); apply bpow_le; lia|apply IZR_le; lia].
  - apply Rle_trans with (bpow radix2 53); [change (bpow radix2 53) with (IZR (2 ^ 53)); apply IZR_le; lia|apply bpow_le; lia].
Qed.
