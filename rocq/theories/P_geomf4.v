(** Lemmas about planes, senses and translations in binary64, and the plain loop as an instance. *)
From Coq Require Import Reals Lra Lia Floats.SpecFloat.
From Flocq Require Import Core Plus_error Mult_error Relative BinarySingleNaN.
From Verif Require Import PyBase PyFacts PyFloat FloatFacts FloatR FloatZ PyFrame Float32 PyArith PyArithR M_const SpecConst P_const M_geomf SpecGeomf P_geomf P_geomf2 P_geomf3.
Local Open Scope R_scope.
#[local] Instance prec53 : Prec_gt_0 53 := eq_refl.

(** * Instances *)
Lemma plus_rel x y : ordinary x -> ordinary y -> exists e, Rabs e <= u53 /\ rnd (FR x + FR y) = (FR x + FR y) * (1 + e).
Proof.
  intros [Vx _] [Vy _].
  destruct (FLT_plus_error_N_ex radix2 (-1074) 53 (fun x => negb (Z.even x)) (FR x) (FR y) (FR_format x Vx) (FR_format y Vy)) as (e & He & E).
  exists e. split; [|exact E]. apply Rle_trans with (1 := He). pose proof (u_rod1pu_ro_le_u_ro radix2 53) as Q. apply Rle_trans with (1 := Q).
  unfold u_ro, u53. change (- (53) + 1)%Z with (1 + -53)%Z. rewrite bpow_plus. change (bpow radix2 1) with 2. lra.
Qed.
Lemma tame_mul x y : ordinary x -> ordinary y -> tame x y -> ordinary (fmul x y) /\ exists e, Rabs e <= u53 /\ FR (fmul x y) = FR x * FR y * (1 + e).
Proof.
  intros [Vx Fx] [Vy Fy] T. destruct (mul64_R x y Vx Vy Fx Fy) as (V & F & _). destruct T as [T|T].
  - rewrite T, rnd_0, Rabs_R0 in F. destruct (F (bpow_gt_0 _ _)) as [E1 E2]. split; [now split|]. exists 0. rewrite Rabs_R0. split; [apply Rlt_le, u_pos|]. rewrite T, E1. ring.
  - destruct (rnd_range _ (-1000) 1000 ltac:(lia) ltac:(lia) T) as (A & B & _). rewrite rnd_abs in A, B. rewrite Rabs_Rabsolu in B. destruct (F B) as [E1 E2]. split; [now split|].
    destruct (rnd_rel (FR x * FR y)) as (e & He & E); [apply Rle_trans with (2 := proj1 A); apply bpow_le; lia|]. exists e. split; [exact He|congruence].
Qed.
Lemma small_add x y B : ordinary x -> ordinary y -> Rabs (FR x) + Rabs (FR y) <= B -> B <= bpow radix2 1022 ->
  ordinary (fadd x y) /\ exists e, Rabs e <= u53 /\ FR (fadd x y) = (FR x + FR y) * (1 + e).
Proof.
  intros Ox Oy HB L. pose proof (Rabs_triang (FR x) (FR y)) as T. destruct (mid_sum x y Ox Oy) as [O E].
  - apply Rle_trans with (bpow radix2 1022); [lra|apply bpow_le; lia].
  - split; [exact O|]. destruct (plus_rel x y Ox Oy) as (e & He & Q). exists e. split; [exact He|congruence].
Qed.
Lemma tame_big x y : tame x y -> Rabs (FR x * FR y) <= bpow radix2 1000.
Proof. intros [->|T]; [rewrite Rabs_R0; apply bpow_ge_0|apply T]. Qed.
Lemma scaled_abs x e : Rabs e <= u53 -> Rabs (x * (1 + e)) <= 2 * Rabs x.
Proof. intros H. rewrite Rabs_mult. pose proof (Rabs_pos x). pose proof u_small. apply Rabs_le_inv in H. rewrite (Rabs_pos_eq (1 + e)) by lra. nra. Qed.
Lemma dev x e d : Rabs e <= u53 -> Rabs d <= u53 -> Rabs (x * (1 + e) * (1 + d) - x) <= (2 * u53 + u53 * u53) * Rabs x.
Proof.
  intros A B. replace (x * (1 + e) * (1 + d) - x) with (x * (e + d + e * d)) by ring. rewrite Rabs_mult, Rmult_comm. apply Rmult_le_compat_r; [apply Rabs_pos|].
  pose proof (Rabs_triang (e + d) (e * d)). pose proof (Rabs_triang e d). rewrite Rabs_mult in *. pose proof (Rabs_pos e). pose proof (Rabs_pos d). nra.
Qed.
Lemma dev3 x e d f : Rabs e <= u53 -> Rabs d <= u53 -> Rabs f <= u53 -> Rabs (x * (1 + e) * (1 + d) * (1 + f) - x) <= 4 * u53 * Rabs x.
Proof.
  intros A B C. pose proof (dev x e d A B) as D. set (y := x * (1 + e) * (1 + d)) in *. replace (y * (1 + f) - x) with ((y - x) + y * f) by ring.
  pose proof (Rabs_triang (y - x) (y * f)) as T. rewrite Rabs_mult in T. pose proof u_pos. pose proof u_small.
  assert (Y : Rabs y <= Rabs x * (1 + 3 * u53)).
  { replace y with ((y - x) + x) by ring. pose proof (Rabs_triang (y - x) x). pose proof (Rabs_pos x). assert (u53 * u53 <= u53) by nra. assert (u53 * u53 * Rabs x <= u53 * Rabs x) by (apply Rmult_le_compat_r; lra). lra. }
  pose proof (Rabs_pos x). pose proof (Rabs_pos f). pose proof (Rabs_pos y). assert (Rabs y * Rabs f <= Rabs x * (1 + 3 * u53) * u53) by (apply Rmult_le_compat; assumption || lra).
  assert (U : 4 * (u53 * u53) <= u53) by nra. assert (4 * (u53 * u53) * Rabs x <= u53 * Rabs x) by (apply Rmult_le_compat_r; lra). lra.
Qed.
Lemma loop_accurate : dot_accurate loop_dot.
Proof.
  intros v w (V1 & V2 & V3) (W1 & W2 & W3) (T1 & T2 & T3). unfold loop_dot.
  destruct (tame_mul _ _ V1 W1 T1) as (O1 & e1 & H1 & E1). destruct (tame_mul _ _ V2 W2 T2) as (O2 & e2 & H2 & E2). destruct (tame_mul _ _ V3 W3 T3) as (O3 & e3 & H3 & E3).
  apply tame_big in T1, T2, T3. pose proof (scaled_abs (FR (fx v) * FR (fx w)) e1 H1) as S1. pose proof (scaled_abs (FR (fy v) * FR (fy w)) e2 H2) as S2. pose proof (scaled_abs (FR (fz v) * FR (fz w)) e3 H3) as S3.
  rewrite <- E1 in S1. rewrite <- E2 in S2. rewrite <- E3 in S3. pose proof (bpow_gt_0 radix2 1000) as P.
  destruct (small_add _ _ (4 * bpow radix2 1000) O1 O2 ltac:(lra)) as (O4 & e4 & H4 & E4).
  { change 4 with (bpow radix2 2). rewrite <- bpow_plus. apply bpow_le. lia. }
  pose proof (scaled_abs (FR (fmul (fx v) (fx w)) + FR (fmul (fy v) (fy w))) e4 H4) as S4. rewrite <- E4 in S4.
  pose proof (Rabs_triang (FR (fmul (fx v) (fx w))) (FR (fmul (fy v) (fy w)))) as T4.
  destruct (small_add _ _ (16 * bpow radix2 1000) O4 O3 ltac:(lra)) as (O5 & e5 & H5 & E5).
  { change 16 with (bpow radix2 4). rewrite <- bpow_plus. apply bpow_le. lia. }
  split; [exact O5|]. rewrite E5, E4, E1, E2, E3. unfold inner_f, inner_abs. change (bpow radix2 (-53)) with u53.
  set (a := FR (fx v) * FR (fx w)). set (b := FR (fy v) * FR (fy w)). set (c := FR (fz v) * FR (fz w)).
  pose proof (dev3 a e1 e4 e5 H1 H4 H5) as Da. pose proof (dev3 b e2 e4 e5 H2 H4 H5) as Db. pose proof (dev c e3 e5 H3 H5) as Dc.
  replace (((a * (1 + e1) + b * (1 + e2)) * (1 + e4) + c * (1 + e3)) * (1 + e5) - (a + b + c))
    with ((a * (1 + e1) * (1 + e4) * (1 + e5) - a) + (b * (1 + e2) * (1 + e4) * (1 + e5) - b) + (c * (1 + e3) * (1 + e5) - c)) by ring.
  set (x := a * (1 + e1) * (1 + e4) * (1 + e5) - a) in *. set (y := b * (1 + e2) * (1 + e4) * (1 + e5) - b) in *. set (z := c * (1 + e3) * (1 + e5) - c) in *.
  pose proof (Rabs_triang (x + y) z). pose proof (Rabs_triang x y). pose proof u_pos. pose proof u_small. pose proof (Rabs_pos c).
  assert (U : u53 * u53 <= u53) by nra. assert (u53 * u53 * Rabs c <= u53 * Rabs c) by (apply Rmult_le_compat_r; lra). assert (0 <= u53 * Rabs c) by nra. lra.
Qed.
Lemma loop_integers : dot_integers loop_dot.
Proof.
  intros v w a b c x y z (A & B & C) (X & Y & Z) L. unfold loop_dot. apply int_add; [apply int_add; [apply int_mul|apply int_mul|]|apply int_mul|]; try assumption; lia.
Qed.
Lemma square_sign x y : up_to_sign x y -> fmul y y = fmul x x.
Proof. intros [->| ->]; [reflexivity|]. destruct x as [[]|[]| |[] m e]; reflexivity. Qed.
Lemma loop_signs : dot_signs loop_dot.
Proof. intros v w A B C. unfold loop_dot. now rewrite (square_sign _ _ A), (square_sign _ _ B), (square_sign _ _ C). Qed.
Lemma mul_power_accurate : power_accurate mul_power.
Proof.
  intros x k K M. pose proof (moderate_approx x M) as A. pose proof (approx_mul _ _ _ _ _ _ _ _ _ _ A A ltac:(lia) ltac:(lia)) as B. cbn [Nat.add] in B.
  destruct K as [-> | ->]; unfold mul_power; cbn [Z.eqb Pos.eqb].
  - split; [apply B|]. apply (approx_weaken _ _ _ _ _ 2 (-600) 600) in B; [|lia|lia|lia]. replace (powerRZ (FR x) 2) with (FR x * FR x) by (change (powerRZ (FR x) 2) with (FR x ^ 2); ring). exact (proj2 (approx_out _ _ _ _ _ B ltac:(lia))).
  - pose proof (approx_mul _ _ _ _ _ _ _ _ _ _ B A ltac:(lia) ltac:(lia)) as C. split; [apply C|]. replace (powerRZ (FR x) 3) with (FR x * FR x * FR x) by (change (powerRZ (FR x) 3) with (FR x ^ 3); ring). exact (proj2 (approx_out _ _ _ _ _ C ltac:(lia))).
Qed.
Lemma mul_power_integers : power_integers mul_power.
Proof. intros x z I B. unfold mul_power. cbn [Z.eqb Pos.eqb]. apply int_mul; try assumption. rewrite Z.abs_eq; [exact B|apply Z.square_nonneg]. Qed.

(** * Translations *)
Lemma shift_int p t x y z a b c : integral_vec p x y z -> integral_vec t a b c -> (Z.abs (x + a) < 2 ^ 53)%Z -> (Z.abs (y + b) < 2 ^ 53)%Z -> (Z.abs (z + c) < 2 ^ 53)%Z ->
  integral_vec (vmap2 fadd p t) (x + a) (y + b) (z + c).
Proof. intros (P1 & P2 & P3) (T1 & T2 & T3) B1 B2 B3. unfold vmap2. split; [|split]; cbn [fx fy fz]; now apply int_add. Qed.
Lemma translate_nth ps t i : nth_error (translate_f ps t) i = option_map (fun p => vmap2 fadd p t) (nth_error ps i).
Proof. apply nth_error_map. Qed.

(** * Spheres *)
Lemma sqrt_int k : (0 <= k)%Z -> (k < 2 ^ 53)%Z -> rnd (sqrt (IZR (k * k))) = IZR k.
Proof. intros P B. rewrite mult_IZR, sqrt_square by (now apply IZR_le). apply rnd_IZR. lia. Qed.
Lemma sphere_value (dot : fvec -> fvec -> float) (power : float -> Z -> float) v s : dot_integers dot -> power_accurate power -> power_integers power ->
  integral (dot v v) s -> (0 <= s < 2 ^ 50)%Z ->
  let t := power (norm_f dot v) 2%Z in ordinary t /\ Rabs (FR t - IZR s) < 1 /\ ((exists k, s = k * k)%Z -> FR t = IZR s).
Proof.
  intros DI PA PI [[V F] E] B t. subst t. unfold norm_f.
  assert (P : 0 <= FR (dot v v)) by (rewrite E; now apply IZR_le). destruct (fsqrt_R _ V F P) as (V' & S & F'). rewrite E in S.
  assert (SQ : forall k, (s = k * k)%Z -> ordinary (power (fsqrt (dot v v)) 2%Z) /\ FR (power (fsqrt (dot v v)) 2%Z) = IZR s).
  { intros k ->. assert (I : integral (fsqrt (dot v v)) (Z.abs k)).
    { split; [now split|]. rewrite S. rewrite <- Z.abs_square. apply sqrt_int; [lia|]. nia. }
    destruct (PI _ _ I) as [O Q]; [rewrite Z.abs_square; lia|]. split; [exact O|]. now rewrite Q, Z.abs_square. }
  destruct (Z.eq_dec s 0) as [->|N].
  { destruct (SQ 0%Z eq_refl) as [O Q]. split; [exact O|]. rewrite Q, Rminus_diag_eq, Rabs_R0 by reflexivity. split; [lra|auto]. }
  assert (S1 : 1 <= IZR s) by (apply IZR_le; lia). assert (S2 : IZR s <= bpow radix2 50) by (change (bpow radix2 50) with (IZR (2 ^ 50)); apply IZR_le; lia).
  assert (L : bpow radix2 0 <= sqrt (IZR s)) by (change (bpow radix2 0) with 1; rewrite <- sqrt_1 at 1; now apply sqrt_le_1_alt).
  assert (H : sqrt (IZR s) <= bpow radix2 25) by (rewrite <- (sqrt_square (bpow radix2 25)) by apply bpow_ge_0; rewrite <- bpow_plus; now apply sqrt_le_1_alt).
  destruct (rnd_range _ 0 25 ltac:(lia) ltac:(lia) (conj L H)) as (R1 & _ & R2). rewrite <- S in R1, R2.
  assert (M : moderate (fsqrt (dot v v))).
  { split; [now split|]. split; [apply Rle_trans with (2 := proj1 R1)|apply Rle_trans with (1 := proj2 R1)]; apply bpow_le; lia. }
  destruct (PA _ 2%Z (or_introl eq_refl) M) as [O W]. split; [exact O|].
  change (powerRZ (FR (fsqrt (dot v v))) 2) with (FR (fsqrt (dot v v)) * (FR (fsqrt (dot v v)) * 1)) in W; rewrite Rmult_1_r in W.
  pose proof (rel_mul _ _ _ _ _ _ R2 R2) as R3. rewrite sqrt_sqrt in R3 by lra. cbn [Nat.add] in R3. pose proof (rel_within 2 _ _ ltac:(lia) R3) as W2. change (Z.of_nat 2 + 1)%Z with 3%Z in W2.
  split.
  - unfold within in W, W2. fold u53 in W, W2. set (q := FR (fsqrt (dot v v)) * FR (fsqrt (dot v v))) in *. change (bpow radix2 (-53)) with u53 in *.
    assert (U : u53 * IZR s <= / 8). { unfold u53. apply Rle_trans with (bpow radix2 (-53) * bpow radix2 50); [apply Rmult_le_compat_l; [apply bpow_ge_0|exact S2]|]. rewrite <- bpow_plus. apply Req_le. change (/ 8) with (/ IZR (2 ^ 3)). reflexivity. }
    apply Rabs_le_inv in W, W2. pose proof u_pos; pose proof u_small.
    assert (UQ : u53 * q <= u53 * (IZR s + 3 / 8)) by (apply Rmult_le_compat_l; [lra|]; lra). apply Rabs_def1; lra.
  - intros [k K]. exact (proj2 (SQ k K)).
Qed.
Lemma check_length r : length_f r -> check_positive_f r = Ok tt.
Proof. apply length_ok. Qed.
Lemma sphere_sense dot power p c r x y z a b d k : dot_integers dot -> power_accurate power -> power_integers power ->
  integral_vec p x y z -> integral_vec c a b d -> integral r k -> (0 <= k)%Z -> (k * k < 2 ^ 53)%Z ->
  ((x - a) * (x - a) + (y - b) * (y - b) + (z - d) * (z - d) < 2 ^ 50)%Z ->
  exists s, find_sense_sphere_f dot power p c r = Ok (Some s) /\ side (IZR ((x - a) * (x - a) + (y - b) * (y - b) + (z - d) * (z - d) - k * k)) s.
Proof.
  intros DI PA PI (P1 & P2 & P3) (C1 & C2 & C3) [Or Er] K0 K1 B. unfold find_sense_sphere_f, evaluate_sphere_eq_f.
  rewrite (check_length r) by (split; [exact Or|rewrite Er; now apply IZR_le]). cbn [bind].
  assert (IV : integral_vec (vmap2 fsub p c) (x - a) (y - b) (z - d)).
  { assert (SQ : forall u, (u * u < 2 ^ 50)%Z -> (Z.abs u < 2 ^ 53)%Z).
    { intros u Hu. apply Z.lt_trans with (2 ^ 25)%Z; [|lia]. apply Z.square_lt_simpl_nonneg; [lia|]. rewrite Z.abs_square. exact Hu. }
    pose proof (Z.square_nonneg (x - a)). pose proof (Z.square_nonneg (y - b)). pose proof (Z.square_nonneg (z - d)).
    unfold vmap2. split; [|split]; cbn [fx fy fz]; apply int_sub; try assumption; apply SQ; lia. }
  pose proof (DI _ _ _ _ _ _ _ _ IV IV ltac:(rewrite !Z.abs_eq by apply Z.square_nonneg; lia)) as I.
  destruct (sphere_value dot power _ _ DI PA PI I ltac:(pose proof (Z.square_nonneg (x - a)); pose proof (Z.square_nonneg (y - b)); pose proof (Z.square_nonneg (z - d)); lia)) as (O & N & SQ). destruct (PI r k (conj Or Er) K1) as [O2 E2].
  destruct (sense_sub _ _ O O2) as (s & A & S). exists s. split; [now rewrite A|]. rewrite E2 in S.
  set (t := FR (power (norm_f dot (vmap2 fsub p c)) 2%Z)) in *. set (q := ((x - a) * (x - a) + (y - b) * (y - b) + (z - d) * (z - d))%Z) in *.
  rewrite minus_IZR. destruct (Z.eq_dec q (k * k)) as [Q|Q].
  - rewrite (SQ (ex_intro _ k Q)) in S. exact S.
  - apply Rabs_def2 in N. revert S. assert (D : IZR q - IZR (k * k) <= -1 \/ 1 <= IZR q - IZR (k * k)).
    { rewrite <- minus_IZR. destruct (Z_lt_le_dec q (k * k)); [left|right]; apply IZR_le; lia. }
    apply side_like; destruct D; split; intros; lra.
Qed.

(** * General quadrics *)
Definition bounded (x : float) (z B : Z) : Prop := integral x z /\ (Z.abs z <= B)%Z.
Lemma b_mul x y u v A B : bounded x u A -> bounded y v B -> (A * B < 2 ^ 53)%Z -> bounded (fmul x y) (u * v) (A * B).
Proof.
  intros [I H] [J K] L. assert (Q : (Z.abs (u * v) <= A * B)%Z) by (rewrite Z.abs_mul; apply Z.mul_le_mono_nonneg; lia).
  split; [|exact Q]. apply int_mul; try assumption. lia.
Qed.
Lemma b_add x y u v A B : bounded x u A -> bounded y v B -> (A + B < 2 ^ 53)%Z -> bounded (fadd x y) (u + v) (A + B).
Proof. intros [I H] [J K] L. split; [apply int_add; try assumption; lia|lia]. Qed.
Lemma gq_sense power p c k x y z (a : nat -> Z) : power_integers power ->
  integral_vec p x y z -> (forall i, (i < 9)%nat -> integral (c i) (a i)) -> ordinary k ->
  (Z.abs x <= 2 ^ 15)%Z -> (Z.abs y <= 2 ^ 15)%Z -> (Z.abs z <= 2 ^ 15)%Z -> (forall i, (i < 9)%nat -> (Z.abs (a i) <= 2 ^ 19)%Z) ->
  exists s, find_sense_gq_f power p c k = Some s /\
    side (IZR (a 0%nat * (x * x) + a 1%nat * (y * y) + a 2%nat * (z * z) + a 3%nat * x * y + a 4%nat * y * z + a 5%nat * x * z + a 6%nat * x + a 7%nat * y + a 8%nat * z) - FR k) s.
Proof.
  intros PI (P1 & P2 & P3) C Ok Bx By Bz Ba.
  assert (SQ : forall q u, integral q u -> (Z.abs u <= 2 ^ 15)%Z -> bounded (power q 2%Z) (u * u) (2 ^ 30)).
  { intros q u I B. assert (Q : (Z.abs (u * u) <= 2 ^ 15 * 2 ^ 15)%Z) by (rewrite Z.abs_mul; apply Z.mul_le_mono_nonneg; lia).
    split; [apply PI; [exact I|]; lia|exact Q]. }
  unfold find_sense_gq_f, evaluate_gq_eq_f. match goal with |- exists s, sense_of (fsub ?v k) = _ /\ side (IZR ?w - _) s => assert (I : integral v w) end.
  { assert (D : forall i, (i < 9)%nat -> bounded (c i) (a i) (2 ^ 19)) by (intros i Hi; split; auto).
    assert (C0 := D 0%nat ltac:(lia)). assert (C1 := D 1%nat ltac:(lia)). assert (C2 := D 2%nat ltac:(lia)). assert (C3 := D 3%nat ltac:(lia)). assert (C4 := D 4%nat ltac:(lia)).
    assert (C5 := D 5%nat ltac:(lia)). assert (C6 := D 6%nat ltac:(lia)). assert (C7 := D 7%nat ltac:(lia)). assert (C8 := D 8%nat ltac:(lia)).
    pose proof (SQ _ _ P1 Bx) as S1. pose proof (SQ _ _ P2 By) as S2. pose proof (SQ _ _ P3 Bz) as S3.
    pose proof (conj P1 Bx : bounded _ _ _) as X. pose proof (conj P2 By : bounded _ _ _) as Y. pose proof (conj P3 Bz : bounded _ _ _) as Z. clear SQ C D Ba.
    pose proof (b_mul _ _ _ _ _ _ C0 S1 eq_refl) as T0. pose proof (b_mul _ _ _ _ _ _ C1 S2 eq_refl) as T1. pose proof (b_mul _ _ _ _ _ _ C2 S3 eq_refl) as T2.
    pose proof (b_mul _ _ _ _ _ _ (b_mul _ _ _ _ _ _ C3 X eq_refl) Y eq_refl) as T3. pose proof (b_mul _ _ _ _ _ _ (b_mul _ _ _ _ _ _ C4 Y eq_refl) Z eq_refl) as T4.
    pose proof (b_mul _ _ _ _ _ _ (b_mul _ _ _ _ _ _ C5 X eq_refl) Z eq_refl) as T5.
    pose proof (b_mul _ _ _ _ _ _ C6 X eq_refl) as T6. pose proof (b_mul _ _ _ _ _ _ C7 Y eq_refl) as T7. pose proof (b_mul _ _ _ _ _ _ C8 Z eq_refl) as T8.
    pose proof (b_add _ _ _ _ _ _ T0 T1 eq_refl) as U1. pose proof (b_add _ _ _ _ _ _ U1 T2 eq_refl) as U2. pose proof (b_add _ _ _ _ _ _ U2 T3 eq_refl) as U3.
    pose proof (b_add _ _ _ _ _ _ U3 T4 eq_refl) as U4. pose proof (b_add _ _ _ _ _ _ U4 T5 eq_refl) as U5. pose proof (b_add _ _ _ _ _ _ U5 T6 eq_refl) as U6.
    pose proof (b_add _ _ _ _ _ _ U6 T7 eq_refl) as U7. pose proof (b_add _ _ _ _ _ _ U7 T8 eq_refl) as U8. exact (proj1 U8). }
  destruct I as [O E]. destruct (sense_sub _ _ O Ok) as (s & A & S). exists s. split; [exact A|]. now rewrite E in S.
Qed.

(** * Parallel planes *)
Lemma fv_int x y z : (Z.abs x < 2 ^ 53)%Z -> (Z.abs y < 2 ^ 53)%Z -> (Z.abs z < 2 ^ 53)%Z -> integral_vec (fv x y z) x y z.
Proof. intros A B C. split; [|split]; now apply int_of_Z. Qed.
Lemma parallel_missed dot d1 d2 : dot_integers dot -> check_parallel_planes_f dot (fv 1 1 0) (fv 3 3 0) = false /\
  dist_between_planes_f dot (fv 1 1 0) d1 (fv 3 3 0) d2 = Ok (fzero, fv 3 3 0).
Proof.
  intros DI. pose proof (fv_int 1 1 0 ltac:(lia) ltac:(lia) ltac:(lia)) as I1. pose proof (fv_int 3 3 0 ltac:(lia) ltac:(lia) ltac:(lia)) as I3.
  pose proof (DI _ _ _ _ _ _ _ _ I1 I1 ltac:(cbn; lia)) as D1. pose proof (DI _ _ _ _ _ _ _ _ I3 I3 ltac:(cbn; lia)) as D3.
  apply int_unique in D1; [|lia|lia]. apply int_unique in D3; [|lia|lia].
  assert (E : check_parallel_planes_f dot (fv 1 1 0) (fv 3 3 0) = false) by (unfold check_parallel_planes_f, norm_f; rewrite D1, D3; vm_compute; reflexivity).
  split; [exact E|]. unfold dist_between_planes_f. rewrite E. reflexivity.
Qed.
Lemma div_self x : ordinary x -> FR x <> 0 -> fdiv x x = f_of_Z 1.
Proof.
  intros [V F] N. destruct (fdiv_R x x V V F F N) as (V' & G & _). replace (FR x / FR x) with 1 in G by (field; exact N). rewrite (rnd_IZR 1) in G by lia.
  destruct (G (fmax_big 1 ltac:(lia))) as [E1 E2]. apply int_unique; [|lia|lia]. repeat split; assumption.
Qed.
Lemma mul_one x : ordinary x -> fmul x (f_of_Z 1) = x.
Proof.
  intros O. pose proof O as [V F]. destruct (int_of_Z 1 ltac:(lia)) as [[V1 F1] E1].
  destruct (Req_dec (FR x) 0) as [Z|Z].
  - destruct x as [s| | |s m e]; try discriminate; [destruct s; reflexivity|]. exfalso. revert Z. unfold FR. cbn. destruct s; apply F2R_neq_0; discriminate.
  - destruct (mul64_R x (f_of_Z 1) V V1 F F1) as (V' & G & _). rewrite E1, Rmult_1_r, rnd_FR in G by exact V. destruct (G (FR_lt_max x V)) as [E2 E3].
    apply FR_inj; try assumption; [now split|congruence].
Qed.
Lemma planes_same dot n d1 d2 : dot_accurate dot -> ordinary_vec n -> tame_vec n n -> FR (fx n) <> 0 -> ordinary d2 ->
  dist_between_planes_f dot n d1 n d2 = Ok (fdiv (fsub d2 d1) (norm_f dot n), n).
Proof.
  intros DA O T N Od. assert (NZ : ~ (FR (fx n) = 0 /\ FR (fy n) = 0 /\ FR (fz n) = 0)) by tauto. unfold dist_between_planes_f.
  rewrite (plane_exists n O NZ), (parallel_self dot n DA O T NZ). cbn [bind negb]. destruct O as (Ox & Oy & Oz). rewrite (div_self _ Ox N), (mul_one d2 Od).
  unfold vmap. rewrite !mul_one by assumption. destruct n; reflexivity.
Qed.
Lemma rel_inv n x X : (n <= 20)%nat -> 0 < X -> rel n x X -> rel (S n) (/ x) (/ X).
Proof.
  intros L P (_ & A & B). pose proof (dn_pos n) as D. pose proof (up_pos n) as U. pose proof u_pos as UP. pose proof u_small as US.
  assert (XP : 0 < x) by (apply Rlt_le_trans with (2 := A); now apply Rmult_lt_0_compat).
  assert (IX : 0 < / X) by (now apply Rinv_0_lt_compat). split; [lra|].
  assert (NU : INR n <= 20) by (replace 20 with (INR 20) by (simpl; lra); now apply le_INR).
  assert (Q1 : 1 <= (1 - u53) ^ n * (1 + u53) ^ S n).
  { cbn [pow]. replace ((1 - u53) ^ n * ((1 + u53) * (1 + u53) ^ n)) with (((1 - u53) * (1 + u53)) ^ n * (1 + u53)) by (rewrite Rpow_mult_distr; ring).
    assert (B1 : 1 - INR n * (u53 * u53) <= ((1 - u53) * (1 + u53)) ^ n).
    { clear -UP US. induction n as [|n IH]; [cbn; lra|]. rewrite S_INR. cbn [pow]. pose proof (pos_INR n).
      replace ((1 - u53) * (1 + u53)) with (1 - u53 * u53) in * by ring. set (e := u53 * u53) in *. assert (E0 : 0 <= e <= 1) by (unfold e; nra).
      assert (M : (1 - e) * (1 - INR n * e) <= (1 - e) * (1 - e) ^ n) by (apply Rmult_le_compat_l; lra). nra. }
    assert (B2 : INR n * (u53 * u53) <= 20 * (u53 * u53)) by (apply Rmult_le_compat_r; nra).
    apply Rle_trans with ((1 - 20 * (u53 * u53)) * (1 + u53)); [nra|]. apply Rmult_le_compat_r; lra. }
  assert (Q2 : (1 - u53) ^ S n * (1 + u53) ^ n <= 1).
  { cbn [pow]. replace ((1 - u53) * (1 - u53) ^ n * (1 + u53) ^ n) with (((1 - u53) * (1 + u53)) ^ n * (1 - u53)) by (rewrite Rpow_mult_distr; ring).
    assert (B1 : ((1 - u53) * (1 + u53)) ^ n <= 1) by (rewrite <- (pow1 n); apply pow_incr; rewrite pow1; nra).
    pose proof (pow_le ((1 - u53) * (1 + u53)) n ltac:(nra)). nra. }
  split.
  - apply Rmult_le_reg_l with (x * X); [nra|]. replace (x * X * (/ X * (1 - u53) ^ S n)) with (x * (1 - u53) ^ S n) by (field; lra). replace (x * X * / x) with X by (field; lra).
    pose proof (dn_pos (S n)). apply Rle_trans with (X * (1 + u53) ^ n * (1 - u53) ^ S n); [apply Rmult_le_compat_r; lra|]. nra.
  - apply Rmult_le_reg_l with (x * X); [nra|]. replace (x * X * (/ X * (1 + u53) ^ S n)) with (x * (1 + u53) ^ S n) by (field; lra). replace (x * X * / x) with X by (field; lra).
    pose proof (up_pos (S n)). apply Rle_trans with (X * (1 - u53) ^ n * (1 + u53) ^ S n); [nra|]. apply Rmult_le_compat_r; lra.
Qed.
Lemma norm_rel dot n : dot_accurate dot -> ordinary_vec n -> tame_vec n n -> FR (fx n) <> 0 ->
  ordinary (norm_f dot n) /\ rel 4 (FR (norm_f dot n)) (sqrt (inner_f n n)) /\ bpow radix2 (-502) <= FR (norm_f dot n) <= bpow radix2 502 /\ 0 < sqrt (inner_f n n).
Proof.
  intros DA O T N. destruct (DA n n O O T) as [[Vd Fd] E].
  assert (NZ : ~ (FR (fx n) = 0 /\ FR (fy n) = 0 /\ FR (fz n) = 0)) by tauto. destruct (norm_ok dot n DA O T NZ) as [ON PN].
  assert (Q : inner_abs n n = inner_f n n) by (unfold inner_abs, inner_f; rewrite !Rabs_pos_eq by nra; reflexivity).
  rewrite Q in E. assert (P : 0 < inner_f n n) by (unfold inner_f; nra).
  pose proof (within4_rel _ _ (Rlt_le _ _ P) E) as R5. apply (rel_weaken _ (3 + 3)) in R5; [|lia]. pose proof (rel_nonneg _ _ _ R5) as N0. apply rel_sqrt in R5.
  destruct (fsqrt_R _ Vd Fd N0) as (V & S & F). split; [now split|].
  assert (L : bpow radix2 (-1000) <= inner_f n n).
  { destruct T as (T1 & _). unfold tame in T1. destruct T1 as [T1|T1]; [exfalso; nra|]. rewrite Rabs_pos_eq in T1 by nra. unfold inner_f. nra. }
  assert (H : inner_f n n <= bpow radix2 1002).
  { destruct T as (T1 & T2 & T3). apply tame_big in T1, T2, T3. rewrite Rabs_pos_eq in T1, T2, T3 by nra. change 1002%Z with (1000 + 2)%Z. rewrite bpow_plus. change (bpow radix2 2) with 4. unfold inner_f. pose proof (bpow_gt_0 radix2 1000). lra. }
  fold u53 in E. apply Rabs_le_inv in E. pose proof u_pos. pose proof u_small. change (bpow radix2 (-53)) with u53 in E.
  assert (L2 : bpow radix2 (-1002) <= FR (dot n n)) by (change (-1002)%Z with (-1000 + -2)%Z; rewrite bpow_plus; change (bpow radix2 (-2)) with (/ 4); nra).
  assert (H2 : FR (dot n n) <= bpow radix2 1004) by (change 1004%Z with (1002 + 2)%Z; rewrite bpow_plus; change (bpow radix2 2) with 4; nra).
  assert (LS : bpow radix2 (-501) <= sqrt (FR (dot n n))) by (rewrite <- (sqrt_square (bpow radix2 (-501))) by apply bpow_ge_0; rewrite <- bpow_plus; now apply sqrt_le_1_alt).
  assert (HS : sqrt (FR (dot n n)) <= bpow radix2 502) by (rewrite <- (sqrt_square (bpow radix2 502)) by apply bpow_ge_0; rewrite <- bpow_plus; now apply sqrt_le_1_alt).
  destruct (rnd_range _ (-501) 502 ltac:(lia) ltac:(lia) (conj LS HS)) as (RR & _ & R1). unfold norm_f. rewrite S.
  split; [exact (rel_trans 1 3 _ _ _ R1 R5)|]. split; [|now apply sqrt_lt_R0]. split; [|apply RR]. apply Rle_trans with (2 := proj1 RR). apply bpow_le. lia.
Qed.
Lemma planes_near dot n d1 d2 : dot_accurate dot -> ordinary_vec n -> tame_vec n n -> FR (fx n) <> 0 -> ordinary d1 -> ordinary d2 ->
  FR d2 - FR d1 = 0 \/ bpow radix2 (-400) <= Rabs (FR d2 - FR d1) <= bpow radix2 400 ->
  exists a, dist_between_planes_f dot n d1 n d2 = Ok (a, n) /\ ordinary a /\
    Rabs (FR a - (FR d2 - FR d1) / sqrt (inner_f n n)) <= 8 * bpow radix2 (-53) * Rabs ((FR d2 - FR d1) / sqrt (inner_f n n)).
Proof.
  intros DA O T N O1 O2 D. eexists. split; [now apply planes_same|]. destruct (norm_rel dot n DA O T N) as ((Vn & Fn) & R4 & B4 & P4).
  pose proof O1 as [V1 F1]. pose proof O2 as [V2 F2]. destruct (sub64_R d2 d1 V2 V1 F2 F1) as (Vs & Fs & _).
  pose proof (bpow_gt_0 radix2 (-502)) as PB. assert (NN : FR (norm_f dot n) <> 0) by lra.
  destruct D as [D|D].
  - rewrite D, rnd_0, Rabs_R0 in Fs. destruct (Fs (bpow_gt_0 _ _)) as [E1 E2]. destruct (fdiv_R _ _ Vs Vn E2 Fn NN) as (V & G & _).
    rewrite E1 in G. replace (0 / FR (norm_f dot n)) with 0 in G by (field; exact NN). rewrite rnd_0, Rabs_R0 in G. destruct (G (bpow_gt_0 _ _)) as [E3 E4].
    split; [now split|]. rewrite E3, D. replace (0 / sqrt (inner_f n n)) with 0 by (field; lra). rewrite Rminus_0_r, Rabs_R0. lra.
  - destruct (rnd_range _ (-400) 400 ltac:(discriminate) ltac:(discriminate) D) as (A & B & C). rewrite rnd_abs in A, B, C. rewrite Rabs_Rabsolu in B. destruct (Fs B) as [E1 E2].
    destruct (fdiv_R _ _ Vs Vn E2 Fn NN) as (V & G & _). rewrite E1 in G. set (s := FR d2 - FR d1) in *. set (m := FR (norm_f dot n)) in *. set (M := sqrt (inner_f n n)) in *.
    pose proof (rel_mul _ _ _ _ _ _ C (rel_inv 4 m M ltac:(repeat constructor) P4 R4)) as R6. cbn [Nat.add] in R6.
    assert (AB : Rabs (rnd s) * / m = Rabs (rnd s / m)) by (unfold Rdiv; rewrite Rabs_mult, (Rabs_pos_eq (/ m)); [reflexivity|left; apply Rinv_0_lt_compat; lra]).
    assert (AB2 : Rabs s * / M = Rabs (s / M)) by (unfold Rdiv; rewrite Rabs_mult, (Rabs_pos_eq (/ M)); [reflexivity|left; apply Rinv_0_lt_compat; lra]).
    rewrite AB, AB2 in R6.
    assert (LO : bpow radix2 (-902) <= Rabs (rnd s / m)).
    { rewrite <- AB. replace (bpow radix2 (-902)) with (bpow radix2 (-400) * / bpow radix2 502) by (rewrite <- bpow_opp, <- bpow_plus; reflexivity).
      apply Rmult_le_compat; [apply bpow_ge_0|left; apply Rinv_0_lt_compat, bpow_gt_0|apply A|apply Rinv_le; [lra|apply B4]]. }
    assert (HI : Rabs (rnd s / m) <= bpow radix2 902).
    { rewrite <- AB. replace (bpow radix2 902) with (bpow radix2 400 * / bpow radix2 (-502)) by (rewrite <- bpow_opp, <- bpow_plus; reflexivity).
      apply Rmult_le_compat; [apply Rabs_pos|left; apply Rinv_0_lt_compat; lra|apply A|apply Rinv_le; [lra|apply B4]]. }
    destruct (rnd_range _ (-902) 902 ltac:(discriminate) ltac:(discriminate) (conj LO HI)) as (_ & B' & C'). rewrite rnd_abs in B', C'. rewrite Rabs_Rabsolu in B'. destruct (G B') as [E3 E4]. split; [now split|].
    rewrite E3. pose proof (rel_within 7 _ _ ltac:(repeat constructor) (rel_trans 1 6 _ _ _ C' R6)) as W. unfold within in W. change (IZR (Z.of_nat 7 + 1)) with 8 in W.
    assert (SG : forall x y, 0 <= x * y -> Rabs (x - y) = Rabs (Rabs x - Rabs y)).
    { intros x y H. unfold Rabs. repeat destruct Rcase_abs; nra. }
    rewrite SG; [exact W|].
    assert (IP : 0 < / m) by (apply Rinv_0_lt_compat; lra). assert (IP' : 0 < / M) by (apply Rinv_0_lt_compat; lra).
    destruct (Rle_or_lt 0 s) as [Z|Z].
    + pose proof (rnd_nonneg _ Z) as Z1. assert (Z2 : 0 <= rnd s / m) by (unfold Rdiv; nra). pose proof (rnd_nonneg _ Z2) as Z3. assert (Z4 : 0 <= s / M) by (unfold Rdiv; nra). nra.
    + assert (Z1 : rnd s <= 0) by (rewrite <- rnd_0; apply rnd_le; lra). assert (Z2 : rnd s / m <= 0) by (unfold Rdiv; nra).
      assert (Z3 : rnd (rnd s / m) <= 0) by (rewrite <- rnd_0; now apply rnd_le). assert (Z4 : s / M <= 0) by (unfold Rdiv; nra). nra.
Qed.
