(** Lemmas about the line where two planes meet, in binary64. *)
From Coq Require Import Reals Lra Lia Floats.SpecFloat.
From Flocq Require Import Core BinarySingleNaN.
From Verif Require Import PyBase PyFacts PyFloat FloatFacts FloatR FloatZ Float32 P_const M_geomf SpecGeomf P_geomf P_geomf2 P_geomf3 P_geomf4 P_geomf5 P_geomf6 P_geomf8 P_geomf9 M_geomt SpecGeomt P_geomt P_geomt2 P_geomt4.
Import ListNotations.
Local Open Scope R_scope.

Lemma small_prod a b : (Z.abs a < 2 ^ 11)%Z -> (Z.abs b < 2 ^ 11)%Z -> (Z.abs (a * b) < 2 ^ 22)%Z.
Proof. intros A B. exact (abs_mul_lt a b (2 ^ 11) (2 ^ 11) A B). Qed.
Lemma det_int v w v' w' a b c d : integral v a -> integral w b -> integral v' c -> integral w' d -> (Z.abs a < 2 ^ 11)%Z -> (Z.abs b < 2 ^ 11)%Z -> (Z.abs c < 2 ^ 11)%Z -> (Z.abs d < 2 ^ 11)%Z ->
  integral (fsub (fmul v w) (fmul v' w')) (a * b - c * d) /\ (Z.abs (a * b - c * d) < 2 ^ 23)%Z.
Proof.
  intros I1 I2 I3 I4 A B C D. pose proof (small_prod a b A B) as P. pose proof (small_prod c d C D) as Q. assert (X : (Z.abs (a * b - c * d) < 2 ^ 23)%Z) by (clear -P Q; lia). split; [|exact X].
  apply int_sub; [apply int_mul; [exact I1|exact I2|clear -P; lia]|apply int_mul; [exact I3|exact I4|clear -Q; lia]|clear -X; lia].
Qed.
Lemma int_sized v k : integral v k -> (Z.abs k < 2 ^ 53)%Z -> sized v.
Proof.
  intros [O E] A. split; [exact O|]. rewrite E. destruct (Z.eq_dec k 0) as [->|N]; [now left|right]. rewrite <- abs_IZR. split.
  - apply Rle_trans with 1; [change 1 with (bpow radix2 0); apply bpow_le; lia|apply IZR_le; lia].
  - apply Rle_trans with (bpow radix2 53); [change (bpow radix2 53) with (IZR (2 ^ 53)); apply IZR_le; lia|apply bpow_le; lia].
Qed.
Lemma square23 k : (Z.abs k < 2 ^ 23)%Z -> (0 <= k * k < 2 ^ 46)%Z.
Proof. intros H. split; [apply Z.square_nonneg|]. pose proof (abs_mul_lt k k (2 ^ 23) (2 ^ 23) H H) as Q. rewrite Z.abs_eq in Q by apply Z.square_nonneg. exact Q. Qed.
Lemma unit_near dot q i j k : dot_integers dot -> integral_vec q i j k -> ~ (i = 0 /\ j = 0 /\ k = 0)%Z -> (Z.abs i < 2 ^ 23)%Z -> (Z.abs j < 2 ^ 23)%Z -> (Z.abs k < 2 ^ 23)%Z ->
  let l := sqrt (IZR (i * i + j * j + k * k)) in
  close 6 (fdiv (fx q) (norm_f dot q)) (IZR i / l) /\ close 6 (fdiv (fy q) (norm_f dot q)) (IZR j / l) /\ close 6 (fdiv (fz q) (norm_f dot q)) (IZR k / l).
Proof.
  intros DI I N A B C l. pose proof (square23 i A) as SA. pose proof (square23 j B) as SB. pose proof (square23 k C) as SC. assert (S : (i * i + j * j + k * k < 2 ^ 50)%Z) by (clear -SA SB SC; lia).
  destruct (norm_bounds dot q i j k DI I N S) as (O & [L U] & X & Y & W). destruct (norm_int dot q i j k DI I N ltac:(clear -S; lia)) as (_ & _ & R). fold l in R.
  assert (PL : 0 < l) by (apply sqrt_lt_R0, IZR_lt; clear -N SA SB SC; nia). apply (rel_weaken 1 3) in R; [|lia].
  assert (H : 0 < FR (norm_f dot q) <= bpow radix2 401) by (split; [lra|eapply Rle_trans; [exact U|apply bpow_le; lia]]).
  destruct I as (I1 & I2 & I3). rewrite <- (proj2 I1), <- (proj2 I2), <- (proj2 I3). rewrite abs_IZR in X, Y, W. rewrite <- (proj2 I1) in X. rewrite <- (proj2 I2) in Y. rewrite <- (proj2 I3) in W.
  split; [|split]; [apply (cosine_near _ _ l (int_sized _ _ I1 ltac:(lia)) O X H PL R)|apply (cosine_near _ _ l (int_sized _ _ I2 ltac:(lia)) O Y H PL R)|apply (cosine_near _ _ l (int_sized _ _ I3 ltac:(lia)) O W H PL R)].
Qed.
Section Line.
  Variables (dot : fvec -> fvec -> float) (solve : (float * float) * (float * float) -> float * float -> res (float * float)).
  Variables (n1 n2 : fvec) (d1 d2 z0 : float) (a b c x y z k1 k2 h : Z).
  Hypotheses (DI : dot_integers dot) (I1 : integral_vec n1 a b c) (I2 : integral_vec n2 x y z) (D1 : integral d1 k1) (D2 : integral d2 k2) (Z0 : integral z0 h)
    (Ba : (Z.abs a < 2 ^ 11)%Z) (Bb : (Z.abs b < 2 ^ 11)%Z) (Bc : (Z.abs c < 2 ^ 11)%Z) (Bx : (Z.abs x < 2 ^ 11)%Z) (By : (Z.abs y < 2 ^ 11)%Z) (Bz : (Z.abs z < 2 ^ 11)%Z)
    (Bk1 : (Z.abs k1 < 2 ^ 40)%Z) (Bk2 : (Z.abs k2 < 2 ^ 40)%Z) (Bh : (Z.abs h < 2 ^ 40)%Z).
  Lemma squares_small : (a * a + b * b + c * c < 2 ^ 50)%Z /\ (x * x + y * y + z * z < 2 ^ 50)%Z.
  Proof.
    pose proof (small_prod a a Ba Ba). pose proof (small_prod b b Bb Bb). pose proof (small_prod c c Bc Bc). pose proof (small_prod x x Bx Bx). pose proof (small_prod y y By By). pose proof (small_prod z z Bz Bz). lia.
  Qed.
  Lemma rhs_int v k d l : integral v k -> (Z.abs k < 2 ^ 11)%Z -> integral d l -> (Z.abs l < 2 ^ 40)%Z -> integral (fsub d (fmul v z0)) (l - k * h).
  Proof.
    intros V K D L. pose proof (abs_mul_lt k h (2 ^ 11) (2 ^ 40) K Bh) as P. apply int_sub; [exact D|apply int_mul; [exact V|exact Z0|clear -P; lia]|clear -P L; lia].
  Qed.
  Lemma line_unfold : ~ (a = 0 /\ b = 0 /\ c = 0)%Z -> ~ (x = 0 /\ y = 0 /\ z = 0)%Z -> ~ same_direction a b c x y z ->
    exists r1 r2, integral r1 (k1 - c * h) /\ integral r2 (k2 - z * h) /\
      plane_plane_intersect_f dot solve n1 d1 n2 d2 z0 =
        bind (solve ((fx n1, fy n1), (fx n2, fy n2)) (r1, r2)) (fun p => Ok (FV (fst p) (snd p) z0, vmap (fun t => fdiv t (norm_f dot (cross_f n1 n2))) (cross_f n1 n2))).
  Proof.
    intros N1 N2 S. eexists _, _. split; [apply (rhs_int _ c d1 k1 (proj2 (proj2 I1)) Bc D1 Bk1)|]. split; [apply (rhs_int _ z d2 k2 (proj2 (proj2 I2)) Bz D2 Bk2)|].
    unfold plane_plane_intersect_f.
    rewrite plane_exists; [|now apply (int_vec_ok n1 a b c)|destruct I1 as ((_ & E1) & (_ & E2) & (_ & E3)); rewrite E1, E2, E3; intros (A & B & C); apply eq_IZR in A, B, C; tauto]. cbn [bind].
    rewrite plane_exists; [|now apply (int_vec_ok n2 x y z)|destruct I2 as ((_ & E1) & (_ & E2) & (_ & E3)); rewrite E1, E2, E3; intros (A & B & C); apply eq_IZR in A, B, C; tauto]. cbn [bind].
    destruct squares_small as [S1 S2].
    destruct (check_parallel_planes_f dot n1 n2) eqn:E; [exfalso; apply S; exact (said_parallel dot n1 n2 a b c x y z DI I1 I2 N1 N2 S1 S2 E)|]. reflexivity.
  Qed.
  Lemma cross_int : integral_vec (cross_f n1 n2) (b * z - c * y) (c * x - a * z) (a * y - b * x) /\ (Z.abs (b * z - c * y) < 2 ^ 23)%Z /\ (Z.abs (c * x - a * z) < 2 ^ 23)%Z /\ (Z.abs (a * y - b * x) < 2 ^ 23)%Z.
  Proof.
    destruct I1 as (A1 & A2 & A3), I2 as (X1 & X2 & X3). unfold cross_f, integral_vec. cbn [fx fy fz].
    destruct (det_int _ _ _ _ _ _ _ _ A2 X3 A3 X2 Bb Bz Bc By) as [P1 Q1]. destruct (det_int _ _ _ _ _ _ _ _ A3 X1 A1 X3 Bc Bx Ba Bz) as [P2 Q2]. destruct (det_int _ _ _ _ _ _ _ _ A1 X2 A2 X1 Ba By Bb Bx) as [P3 Q3]. exact (conj (conj P1 (conj P2 P3)) (conj Q1 (conj Q2 Q3))).
  Qed.
  Lemma line_near : let i := (b * z - c * y)%Z in let j := (c * x - a * z)%Z in let k := (a * y - b * x)%Z in ~ (i = 0 /\ j = 0 /\ k = 0)%Z ->
    exists r1 r2 q, integral r1 (k1 - c * h) /\ integral r2 (k2 - z * h) /\
      plane_plane_intersect_f dot solve n1 d1 n2 d2 z0 = bind (solve ((fx n1, fy n1), (fx n2, fy n2)) (r1, r2)) (fun p => Ok (FV (fst p) (snd p) z0, q)) /\
      let l := sqrt (IZR (i * i + j * j + k * k)) in close 6 (fx q) (IZR i / l) /\ close 6 (fy q) (IZR j / l) /\ close 6 (fz q) (IZR k / l).
  Proof.
    intros i j k N. destruct cross_int as (IC & C1 & C2 & C3). fold i j k in IC, C1, C2, C3.
    assert (N1 : ~ (a = 0 /\ b = 0 /\ c = 0)%Z) by (intros (-> & -> & ->); apply N; unfold i, j, k; lia). assert (N2 : ~ (x = 0 /\ y = 0 /\ z = 0)%Z) by (intros (-> & -> & ->); apply N; unfold i, j, k; lia).
    assert (S : ~ same_direction a b c x y z).
    { intros (m & w & M & W & E1 & E2 & E3). apply N. assert (Q : forall s t s' t', (m * s = w * t)%Z -> (m * s' = w * t')%Z -> (s * t' - s' * t = 0)%Z).
      { clear -M W. intros s t s' t' H H'. assert (G : (w * (s * t' - s' * t) = 0)%Z). { replace (w * (s * t' - s' * t))%Z with (s * (w * t') - s' * (w * t))%Z by ring. rewrite <- H, <- H'. ring. } apply Zmult_integral in G. lia. }
      exact (conj (Q _ _ _ _ E2 E3) (conj (Q _ _ _ _ E3 E1) (Q _ _ _ _ E1 E2))). }
    destruct (line_unfold N1 N2 S) as (r1 & r2 & R1 & R2 & E). exists r1, r2. eexists. split; [exact R1|]. split; [exact R2|]. split; [exact E|]. cbn [vmap fx fy fz]. exact (unit_near dot _ i j k DI IC N C1 C2 C3).
  Qed.
End Line.
Lemma line_refused dot solve n d1 d2 z0 : dot_accurate dot -> ordinary_vec n -> tame_vec n n -> ~ no_normal n -> plane_plane_intersect_f dot solve n d1 n d2 z0 = Err ValueError.
Proof. intros DA O T N. unfold plane_plane_intersect_f. rewrite (plane_exists n O N). cbn [bind]. now rewrite (parallel_self dot n DA O T N). Qed.
Lemma line_no_plane dot solve n1 d1 n2 d2 z0 : ordinary_vec n1 -> ordinary_vec n2 -> no_normal n1 \/ no_normal n2 -> plane_plane_intersect_f dot solve n1 d1 n2 d2 z0 = Err ValueError.
Proof.
  intros O1 O2 N. unfold plane_plane_intersect_f. destruct N as [N|N]; [now rewrite (no_plane_refused n1 O1 N)|]. rewrite (no_plane_refused n2 O2 N).
  unfold check_plane_exists_f. destruct (veq_f n1 _); reflexivity.
Qed.
Lemma zero_int v : integral v 0 -> exists s, v = S754_zero s.
Proof. intros [[_ F] E]. destruct v as [s|s| |s m e]; try discriminate F; [now exists s|]. exfalso. unfold FR in E. cbn in E. apply eq_0_F2R in E. destruct s; discriminate E. Qed.
Lemma line_opposite dot solve n1 d1 n2 d2 z0 a b c k1 k2 h p q : dot_integers dot -> integral_vec n1 a b c -> integral_vec n2 (- a) (- b) (- c) -> integral d1 k1 -> integral d2 k2 -> integral z0 h ->
  ~ (a = 0 /\ b = 0 /\ c = 0)%Z -> (Z.abs a < 2 ^ 11)%Z -> (Z.abs b < 2 ^ 11)%Z -> (Z.abs c < 2 ^ 11)%Z -> (Z.abs k1 < 2 ^ 40)%Z -> (Z.abs k2 < 2 ^ 40)%Z -> (Z.abs h < 2 ^ 40)%Z ->
  (plane_plane_intersect_f dot solve n1 d1 n2 d2 z0 = Ok (p, q) -> q = FV S754_nan S754_nan S754_nan) /\
  (forall e, plane_plane_intersect_f dot solve n1 d1 n2 d2 z0 = Err e -> exists m r, solve m r = Err e).
Proof.
  intros DI I1 I2 D1 D2 Z0 N Ba Bb Bc B1 B2 Bh. assert (Ba' : (Z.abs (- a) < 2 ^ 11)%Z) by (now rewrite Z.abs_opp). assert (Bb' : (Z.abs (- b) < 2 ^ 11)%Z) by (now rewrite Z.abs_opp). assert (Bc' : (Z.abs (- c) < 2 ^ 11)%Z) by (now rewrite Z.abs_opp).
  destruct (line_unfold dot solve n1 n2 d1 d2 z0 a b c (- a) (- b) (- c) k1 k2 h DI I1 I2 D1 D2 Z0 Ba Bb Bc Ba' Bb' Bc' B1 B2 Bh N ltac:(clear -N; lia) (opposite_direction a b c N)) as (r1 & r2 & _ & _ & E).
  destruct (cross_int n1 n2 a b c (- a) (- b) (- c) I1 I2 Ba Bb Bc Ba' Bb' Bc') as ((C1 & C2 & C3) & _).
  replace (b * - c - c * - b)%Z with 0%Z in C1 by ring. replace (c * - a - a * - c)%Z with 0%Z in C2 by ring. replace (a * - b - b * - a)%Z with 0%Z in C3 by ring.
  assert (NI : integral (norm_f dot (cross_f n1 n2)) 0).
  { unfold norm_f. apply (int_sqrt _ 0); [|lia]. exact (DI _ _ _ _ _ _ _ _ (conj C1 (conj C2 C3)) (conj C1 (conj C2 C3)) eq_refl). }
  destruct (zero_int _ NI) as [s0 E0]. destruct (zero_int _ C1) as [s1 E1]. destruct (zero_int _ C2) as [s2 E2]. destruct (zero_int _ C3) as [s3 E3].
  rewrite E. unfold vmap. rewrite E0, E1, E2, E3. split.
  - destruct (solve _ _) as [v|e]; cbn [bind]; [|discriminate]. intros H. injection H as _ <-. reflexivity.
  - intros e. destruct (solve ((fx n1, fy n1), (fx n2, fy n2)) (r1, r2)) as [v|e'] eqn:Q; cbn [bind]; [discriminate|]. intros H. injection H as <-. eauto.
Qed.
