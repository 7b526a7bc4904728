(** Lemmas about the points where segments meet planes, in binary64. *)
From Coq Require Import Reals Lra Lia Floats.SpecFloat.
From Flocq Require Import Core BinarySingleNaN.
From Verif Require Import PyBase PyFacts PyFloat FloatFacts FloatR FloatZ PyFrame Float32 PyArith PyArithR M_const SpecConst P_const M_geomf SpecGeomf P_geomf P_geomf2 P_geomf3 P_geomf4 P_geomf5 P_geomf6 P_geomf8.
Local Open Scope R_scope.

(** * Whole numbers divided by powers of two *)
Definition dyadic (j : Z) (x : float) (m : Z) : Prop := ordinary x /\ FR x = IZR m * bpow radix2 (- j).
Lemma rnd_dyadic m j : (Z.abs m < 2 ^ 53)%Z -> (0 <= j <= 1000)%Z -> rnd (IZR m * bpow radix2 (- j)) = IZR m * bpow radix2 (- j).
Proof.
  intros H J. apply round_generic; [apply valid_rnd_N|]. apply generic_format_FLT. exists (Float radix2 m (- j)); [reflexivity|exact H|cbn; lia].
Qed.
Lemma dyadic_small m j : (Z.abs m < 2 ^ 53)%Z -> (0 <= j)%Z -> Rabs (IZR m * bpow radix2 (- j)) < fmax_bound.
Proof.
  intros H J. rewrite Rabs_mult, (Rabs_pos_eq (bpow _ _)) by apply bpow_ge_0. rewrite <- abs_IZR. apply Rlt_le_trans with (bpow radix2 53 * 1).
  - apply Rle_lt_trans with (IZR (Z.abs m) * 1); [apply Rmult_le_compat_l; [apply IZR_le; lia|change 1 with (bpow radix2 0); apply bpow_le; lia]|].
    rewrite !Rmult_1_r. replace (bpow radix2 53) with (IZR (2 ^ 53)) by reflexivity. now apply IZR_lt.
  - rewrite Rmult_1_r. apply bpow_le. lia.
Qed.
Lemma dyadic_of j r z m : rounded_to r z -> r = IZR m * bpow radix2 (- j) -> (Z.abs m < 2 ^ 53)%Z -> (0 <= j <= 1000)%Z -> dyadic j z m.
Proof.
  intros (V & A & _) -> H J. rewrite (rnd_dyadic m j H J) in A. destruct (A (dyadic_small m j H (proj1 J))) as [E F]. split; [now split|exact E].
Qed.
Lemma dyadic_int x m : integral x m -> dyadic 0 x m.
Proof. intros [O E]. split; [exact O|]. rewrite E. cbn. lra. Qed.
Lemma bpow_split j : (0 <= j)%Z -> bpow radix2 (- j) * IZR (2 ^ j) = 1.
Proof. intros J. change (2 ^ j)%Z with (radix2 ^ j)%Z. rewrite IZR_Zpower by exact J. rewrite <- bpow_plus. now replace (- j + j)%Z with 0%Z by lia. Qed.
Lemma abs_mul_lt a b A B : (Z.abs a < A -> Z.abs b < B -> Z.abs (a * b) < A * B)%Z.
Proof. intros H H'. rewrite Z.abs_mul. apply Z.mul_lt_mono_nonneg; lia. Qed.
(** One coordinate of p0 + (d - h/s) (p1 - p0). *)
Lemma coordinate_f j g d h s p q k m S x u : (0 <= j <= 17)%Z -> (g = 1 \/ g = -1)%Z -> S = (g * 2 ^ j)%Z ->
  integral d k -> integral h m -> integral s S -> integral p x -> integral q (u - x) ->
  (Z.abs k < 2 ^ 16)%Z -> (Z.abs m < 2 ^ 16)%Z -> (Z.abs x < 2 ^ 16)%Z -> (Z.abs u < 2 ^ 16)%Z ->
  let r := fadd p (fmul (fsub d (fdiv h s)) q) in ordinary r /\ FR r = IZR x + (IZR k - IZR m / IZR S) * (IZR u - IZR x).
Proof.
  intros J G ES [[Vd Fd] Ed] [[Vh Fh] Eh] [[Vs Fs] Es] [[Vp Fp] Ep] [[Vq Fq] Eq] Bk Bm Bx Bu r.
  assert (P2 : (0 < 2 ^ j)%Z) by (apply Z.pow_pos_nonneg; lia).
  assert (P3 : (2 ^ j <= 2 ^ 17)%Z) by (apply Z.pow_le_mono_r; lia).
  pose proof (bpow_split j (proj1 J)) as BS. set (B := bpow radix2 (- j)) in *.
  assert (G2 : (g * g = 1)%Z) by (destruct G as [->| ->]; reflexivity).
  assert (SN : IZR S <> 0) by (apply not_0_IZR; rewrite ES; destruct G as [->| ->]; lia).
  assert (SI : / IZR S = IZR g * B).
  { apply Rmult_eq_reg_l with (IZR S); [|exact SN]. rewrite Rinv_r by exact SN. rewrite ES, mult_IZR. transitivity (IZR (g * g) * (B * IZR (2 ^ j))); [rewrite G2, BS; ring|rewrite mult_IZR; ring]. }
  assert (D1 : dyadic j (fdiv h s) (m * g)).
  { apply dyadic_of with (FR h / FR s); [apply fdiv_R; try assumption; now rewrite Es| |destruct G as [->| ->]; lia|lia].
    rewrite Eh, Es. unfold Rdiv. rewrite SI, mult_IZR. fold B. ring. }
  destruct D1 as [[V1 F1] E1].
  set (t := (k * 2 ^ j - m * g)%Z).
  assert (BT : (Z.abs t < 2 ^ 34)%Z) .
  { pose proof (abs_mul_lt k (2 ^ j) (2 ^ 16) (2 ^ 17 + 1) Bk ltac:(lia)) as K. unfold t. clear -K Bm G. set (kk := (k * 2 ^ j)%Z) in *. clearbody kk. change (2 ^ 16 * (2 ^ 17 + 1))%Z with 8590000128%Z in K. change (2 ^ 16)%Z with 65536%Z in Bm. change (2 ^ 34)%Z with 17179869184%Z. destruct G as [->| ->]; lia. }
  assert (D2 : dyadic j (fsub d (fdiv h s)) t).
  { apply dyadic_of with (FR d - FR (fdiv h s)); [apply fsub_R; assumption| |eapply Z.lt_trans; [exact BT|reflexivity]|lia].
    rewrite Ed, E1. unfold t. rewrite minus_IZR, !mult_IZR. fold B. replace (IZR k) with (IZR k * (B * IZR (2 ^ j))) at 1 by (rewrite BS; ring). ring. }
  destruct D2 as [[V2 F2] E2].
  assert (BP : (Z.abs (t * (u - x)) < 2 ^ 51)%Z) .
  { apply Z.lt_le_trans with (2 ^ 34 * 2 ^ 17)%Z; [|reflexivity || discriminate]. apply abs_mul_lt; [exact BT|clear -Bx Bu; lia]. }
  assert (D3 : dyadic j (fmul (fsub d (fdiv h s)) q) (t * (u - x))).
  { apply dyadic_of with (FR (fsub d (fdiv h s)) * FR q); [apply fmul_R; assumption| |eapply Z.lt_trans; [exact BP|reflexivity]|clear -J; lia]. rewrite E2, Eq, mult_IZR. ring. }
  destruct D3 as [[V3 F3] E3].
  assert (D4 : dyadic j r (x * 2 ^ j + t * (u - x))).
  { apply dyadic_of with (FR p + FR (fmul (fsub d (fdiv h s)) q)); [apply fadd_R; assumption| | |clear -J; lia].
    - rewrite Ep, E3, plus_IZR, (mult_IZR x). fold B. replace (IZR x) with (IZR x * (B * IZR (2 ^ j))) at 1 by (rewrite BS; ring). ring.
    - assert (H : (Z.abs (x * 2 ^ j) < 2 ^ 16 * (2 ^ 17 + 1))%Z) by (apply abs_mul_lt; [exact Bx|clear -P2 P3; lia]). clear -H BP. set (X := (x * 2 ^ j)%Z) in *. set (Y := (t * (u - x))%Z) in *. clearbody X Y. lia. }
  destruct D4 as [O4 E4]. split; [exact O4|]. rewrite E4. unfold t, Rdiv. rewrite SI, plus_IZR, !mult_IZR, !minus_IZR, !mult_IZR. fold B.
  transitivity (IZR x * (B * IZR (2 ^ j)) + (IZR k * (B * IZR (2 ^ j)) - IZR m * (IZR g * B)) * (IZR u - IZR x)); [ring|rewrite BS; ring].
Qed.
Lemma segment_exact dot p0 p1 n d a b c k x y z u v w j : dot_integers dot -> integral_vec n a b c -> integral d k -> integral_vec p0 x y z -> integral_vec p1 u v w ->
  (Z.abs k < 2 ^ 16)%Z -> (Z.abs x < 2 ^ 16)%Z -> (Z.abs y < 2 ^ 16)%Z -> (Z.abs z < 2 ^ 16)%Z -> (Z.abs u < 2 ^ 16)%Z -> (Z.abs v < 2 ^ 16)%Z -> (Z.abs w < 2 ^ 16)%Z ->
  (Z.abs (x * a) + Z.abs (y * b) + Z.abs (z * c) < 2 ^ 16)%Z -> (Z.abs (u * a) + Z.abs (v * b) + Z.abs (w * c) < 2 ^ 16)%Z ->
  let h0 := (x * a + y * b + z * c)%Z in let h1 := (u * a + v * b + w * c)%Z in
  (h0 < k < h1 \/ h1 < k < h0)%Z -> (0 <= j)%Z -> (Z.abs (h1 - h0) = 2 ^ j)%Z ->
  exists q, line_segment_plane_intersection_f dot p0 p1 n d = Ok q /\ ordinary_vec q /\
    let t := IZR k - IZR h0 / IZR (h1 - h0) in
    FR (fx q) = IZR x + t * (IZR u - IZR x) /\ FR (fy q) = IZR y + t * (IZR v - IZR y) /\ FR (fz q) = IZR z + t * (IZR w - IZR z).
Proof.
  intros DI N D P Q Bk Bx By Bz Bu Bv Bw S0 S1 h0 h1 C J0 EJ.
  assert (NZ : ~ (a = 0 /\ b = 0 /\ c = 0)%Z) by (intros (-> & -> & ->); unfold h0, h1 in C; rewrite !Z.mul_0_r in C; clear -C; lia).
  destruct (segment_int dot p0 p1 n d a b c k x y z u v w DI N NZ D P Q) as [H _]; [clear -Bk; lia|clear -Bx; lia|clear -By; lia|clear -Bz; lia|clear -Bu; lia|clear -Bv; lia|clear -Bw; lia|clear -S0; lia|clear -S1; lia|].
  fold h0 h1 in H. destruct H as [q E]; [clear -C; clearbody h0 h1; lia|]. exists q. split; [exact E|].
  unfold line_segment_plane_intersection_f in E. destruct (check_plane_exists_f n) as [[]|]; [|discriminate]. cbn [bind] in E.
  destruct (feq _ _); [discriminate|]. destruct (flt _ _); [|discriminate]. injection E as <-.
  assert (IH : integral (dot p0 n) h0) by (apply DI; [exact P|exact N|lia]).
  assert (IV : integral_vec (vmap2 fsub p1 p0) (u - x) (v - y) (w - z)).
  { destruct P as (P1 & P2 & P3), Q as (Q1 & Q2 & Q3). unfold vmap2. split; [|split]; cbn [fx fy fz]; apply int_sub; try assumption; clear -Bx By Bz Bu Bv Bw; lia. }
  assert (IS : integral (dot (vmap2 fsub p1 p0) n) (h1 - h0)).
  { assert (T : forall p q r, (Z.abs ((p - q) * r) <= Z.abs (p * r) + Z.abs (q * r))%Z) by (clear; intros; rewrite Z.mul_sub_distr_r; lia).
    pose proof (T u x a) as T1. pose proof (T v y b) as T2. pose proof (T w z c) as T3.
    replace (h1 - h0)%Z with ((u - x) * a + (v - y) * b + (w - z) * c)%Z by (unfold h0, h1; ring).
    apply DI; [exact IV|exact N|clear -T1 T2 T3 S0 S1; lia]. }
  assert (B0 : (Z.abs h0 < 2 ^ 16)%Z) by (unfold h0; clear -S0; lia). assert (B1 : (Z.abs h1 < 2 ^ 16)%Z) by (unfold h1; clear -S1; lia).
  assert (J : (0 <= j <= 17)%Z). { split; [exact J0|]. apply Znot_lt_ge in J0 || idtac. destruct (Z.le_gt_cases j 17) as [L|L]; [exact L|exfalso].
    assert (2 ^ 17 < 2 ^ j)%Z by (apply Z.pow_lt_mono_r; lia). clear -H EJ B0 B1. clearbody h0 h1. lia. }
  assert (G : exists g, (g = 1 \/ g = -1)%Z /\ (h1 - h0 = g * 2 ^ j)%Z).
  { clear -EJ. clearbody h0 h1. destruct (Z.abs_spec (h1 - h0)) as [[_ A]|[_ A]]; [exists 1%Z|exists (-1)%Z]; lia. }
  destruct G as (g & G & EG). destruct IV as (I1 & I2 & I3), P as (P1 & P2 & P3).
  pose proof (coordinate_f j g d (dot p0 n) (dot (vmap2 fsub p1 p0) n) (fx p0) _ k h0 (h1 - h0) x u J G EG D IH IS P1 I1 Bk B0 Bx Bu) as [O1 E1].
  pose proof (coordinate_f j g d (dot p0 n) (dot (vmap2 fsub p1 p0) n) (fy p0) _ k h0 (h1 - h0) y v J G EG D IH IS P2 I2 Bk B0 By Bv) as [O2 E2].
  pose proof (coordinate_f j g d (dot p0 n) (dot (vmap2 fsub p1 p0) n) (fz p0) _ k h0 (h1 - h0) z w J G EG D IH IS P3 I3 Bk B0 Bz Bw) as [O3 E3].
  split; [exact (conj O1 (conj O2 O3))|]. exact (conj E1 (conj E2 E3)).
Qed.
Section Point.
  Variables (dot : fvec -> fvec -> float) (p0 p1 n : fvec) (d : float) (a b c k x y z u v w j : Z).
  Hypotheses (DI : dot_integers dot) (N : integral_vec n a b c) (D : integral d k) (P : integral_vec p0 x y z) (Q : integral_vec p1 u v w)
    (Bk : (Z.abs k < 2 ^ 16)%Z) (Bx : (Z.abs x < 2 ^ 16)%Z) (By : (Z.abs y < 2 ^ 16)%Z) (Bz : (Z.abs z < 2 ^ 16)%Z)
    (Bu : (Z.abs u < 2 ^ 16)%Z) (Bv : (Z.abs v < 2 ^ 16)%Z) (Bw : (Z.abs w < 2 ^ 16)%Z)
    (S0 : (Z.abs (x * a) + Z.abs (y * b) + Z.abs (z * c) < 2 ^ 16)%Z) (S1 : (Z.abs (u * a) + Z.abs (v * b) + Z.abs (w * c) < 2 ^ 16)%Z).
  Let h0 := (x * a + y * b + z * c)%Z.
  Let h1 := (u * a + v * b + w * c)%Z.
  Lemma segment_on : k = 0%Z -> (h0 < k < h1 \/ h1 < k < h0)%Z -> (0 <= j)%Z -> (Z.abs (h1 - h0) = 2 ^ j)%Z ->
    exists q t, line_segment_plane_intersection_f dot p0 p1 n d = Ok q /\ ordinary_vec q /\ 0 < t < 1 /\
      FR (fx q) = IZR x + t * (IZR u - IZR x) /\ FR (fy q) = IZR y + t * (IZR v - IZR y) /\ FR (fz q) = IZR z + t * (IZR w - IZR z) /\
      IZR a * FR (fx q) + IZR b * FR (fy q) + IZR c * FR (fz q) = 0.
  Proof.
    intros K C J EJ. destruct (segment_exact dot p0 p1 n d a b c k x y z u v w j DI N D P Q Bk Bx By Bz Bu Bv Bw S0 S1 C J EJ) as (q & E & O & E1 & E2 & E3).
    fold h0 h1 in E1, E2, E3. rewrite K in E1, E2, E3, C. set (t := 0 - IZR h0 / IZR (h1 - h0)) in *. exists q, t.
    assert (NZ : IZR (h1 - h0) <> 0) by (apply not_0_IZR; clear -C; clearbody h0 h1; lia).
    repeat apply conj; try assumption; try apply O.
    - unfold t. rewrite minus_IZR in *. destruct C as [[C1 C2]|[C1 C2]]; apply IZR_lt in C1, C2.
      + apply Rmult_lt_reg_r with (IZR h1 - IZR h0); [lra|]. unfold Rdiv. rewrite Rmult_0_l. field_simplify; lra.
      + apply Rmult_lt_reg_r with (IZR h0 - IZR h1); [lra|]. replace ((0 - IZR h0 / (IZR h1 - IZR h0)) * (IZR h0 - IZR h1)) with (IZR h0) by (field; lra). lra.
    - unfold t. rewrite minus_IZR in *. destruct C as [[C1 C2]|[C1 C2]]; apply IZR_lt in C1, C2.
      + apply Rmult_lt_reg_r with (IZR h1 - IZR h0); [lra|]. replace ((0 - IZR h0 / (IZR h1 - IZR h0)) * (IZR h1 - IZR h0)) with (- IZR h0) by (field; lra). lra.
      + apply Rmult_lt_reg_r with (IZR h0 - IZR h1); [lra|]. replace ((0 - IZR h0 / (IZR h1 - IZR h0)) * (IZR h0 - IZR h1)) with (IZR h0) by (field; lra). lra.
    - rewrite E1, E2, E3. transitivity (IZR h0 + t * IZR (h1 - h0)).
      + rewrite minus_IZR. unfold h0, h1. rewrite !plus_IZR, !mult_IZR. ring.
      + unfold t. field. exact NZ.
  Qed.
  Lemma segment_off : (h0 < k < h1 \/ h1 < k < h0)%Z -> (0 <= j)%Z -> (Z.abs (h1 - h0) = 2 ^ j)%Z -> k <> 0%Z -> (h1 - h0 <> 1)%Z ->
    exists q, line_segment_plane_intersection_f dot p0 p1 n d = Ok q /\ ordinary_vec q /\ IZR a * FR (fx q) + IZR b * FR (fy q) + IZR c * FR (fz q) <> IZR k.
  Proof.
    intros C J EJ K H. destruct (segment_exact dot p0 p1 n d a b c k x y z u v w j DI N D P Q Bk Bx By Bz Bu Bv Bw S0 S1 C J EJ) as (q & E & O & E1 & E2 & E3).
    fold h0 h1 in E1, E2, E3. set (t := IZR k - IZR h0 / IZR (h1 - h0)) in *. exists q. split; [exact E|]. split; [exact O|].
    assert (NZ : IZR (h1 - h0) <> 0) by (apply not_0_IZR; clear -C; clearbody h0 h1; lia).
    rewrite E1, E2, E3. intros X. assert (Y : IZR h0 + t * IZR (h1 - h0) = IZR k).
    { rewrite <- X. rewrite minus_IZR. unfold h0, h1. rewrite !plus_IZR, !mult_IZR. ring. }
    unfold t in Y. replace (IZR h0 + (IZR k - IZR h0 / IZR (h1 - h0)) * IZR (h1 - h0)) with (IZR k * IZR (h1 - h0)) in Y by (field; exact NZ).
    rewrite <- mult_IZR in Y. apply eq_IZR in Y. apply H. clear -Y K. clearbody h0 h1. nia.
  Qed.
End Point.

(** * Planes across an axis, with normals of any length *)
Section Scaled.
  Variables (dot : fvec -> fvec -> float) (n p : fvec) (d : float) (e a b c k x y z : Z).
  Hypotheses (DI : dot_integers dot) (N : integral_vec n (e * a) (e * b) (e * c))
    (AX : (a = 1 /\ b = 0 /\ c = 0 \/ a = 0 /\ b = 1 /\ c = 0 \/ a = 0 /\ b = 0 /\ c = 1)%Z) (E0 : e <> 0%Z) (Be : (Z.abs e < 2 ^ 25)%Z)
    (D : integral d (e * k)) (P : integral_vec p x y z) (Bx : (Z.abs x < 2 ^ 24)%Z) (By : (Z.abs y < 2 ^ 24)%Z) (Bz : (Z.abs z < 2 ^ 24)%Z) (Bk : (Z.abs k < 2 ^ 24)%Z).
  Let t := (k - (a * x + b * y + c * z))%Z.
  Lemma scaled_t : (Z.abs t < 2 ^ 25)%Z.
  Proof. unfold t. clear -AX Bx By Bz Bk. destruct AX as [(-> & -> & ->)|[(-> & -> & ->)|(-> & -> & ->)]]; lia. Qed.
  Lemma scaled_exists : check_plane_exists_f n = Ok tt.
  Proof.
    destruct N as ((O1 & E1) & (O2 & E2) & (O3 & E3)). apply plane_exists; [now split; [|split]|]. rewrite E1, E2, E3. intros (A & B & C).
    apply eq_IZR in A, B, C. clear -A B C AX E0. destruct AX as [(-> & -> & ->)|[(-> & -> & ->)|(-> & -> & ->)]]; lia.
  Qed.
  Lemma e_square : (e * e < 2 ^ 50)%Z.
  Proof. rewrite <- Z.abs_square. pose proof (abs_mul_lt (Z.abs e) (Z.abs e) (2 ^ 25) (2 ^ 25) ltac:(lia) ltac:(lia)) as H. rewrite Z.abs_eq in H by apply Z.square_nonneg. exact H. Qed.
  Lemma scaled_norm : integral (norm_f dot n) (Z.abs e).
  Proof.
    unfold norm_f. apply int_sqrt; [|clear -Be; lia]. rewrite Z.abs_square. pose proof (DI _ _ _ _ _ _ _ _ N N) as H.
    replace (e * a * (e * a) + e * b * (e * b) + e * c * (e * c))%Z with (e * e)%Z in H by (clear -AX; destruct AX as [(-> & -> & ->)|[(-> & -> & ->)|(-> & -> & ->)]]; ring).
    apply H. rewrite !Z.abs_eq by apply Z.square_nonneg. pose proof e_square as Q. clear -Q AX. destruct AX as [(-> & -> & ->)|[(-> & -> & ->)|(-> & -> & ->)]]; rewrite ?Z.mul_0_r, ?Z.mul_1_r; lia.
  Qed.
  Lemma scaled_div m v : integral m (t * e * v) -> (v = 1 \/ v = 0)%Z -> integral (fdiv m (norm_f dot n)) (Z.sgn e * t * v).
  Proof.
    intros I V. apply int_div with (Z.abs e); [|exact scaled_norm|clear -E0; lia|].
    - replace (Z.sgn e * t * v * Z.abs e)%Z with (t * e * v)%Z; [exact I|]. transitivity (t * (Z.abs e * Z.sgn e) * v)%Z; [rewrite Z.abs_sgn; reflexivity|clearbody t; ring].
    - pose proof scaled_t as T. clear -T V E0. clearbody t. destruct (Z.sgn_spec e) as [(_ & ->)|[(_ & ->)|(_ & ->)]]; destruct V as [-> | ->]; lia.
  Qed.
  Lemma te_small : (Z.abs (e * t) < 2 ^ 50)%Z.
  Proof. exact (abs_mul_lt e t (2 ^ 25) (2 ^ 25) Be scaled_t). Qed.
  Lemma scaled_distance : exists r, dist_between_point_plane_f dot n d p = Ok r /\ integral r (Z.sgn e * t).
  Proof.
    unfold dist_between_point_plane_f. rewrite scaled_exists. cbn [bind].
    pose proof (abs_mul_lt e x (2 ^ 25) (2 ^ 24) Be Bx) as M1. pose proof (abs_mul_lt e y (2 ^ 25) (2 ^ 24) Be By) as M2. pose proof (abs_mul_lt e z (2 ^ 25) (2 ^ 24) Be Bz) as M3.
    pose proof te_small as T.
    assert (DP : integral (dot n p) (e * (a * x + b * y + c * z))).
    { replace (e * (a * x + b * y + c * z))%Z with (e * a * x + e * b * y + e * c * z)%Z by ring.
      apply DI; [exact N|exact P|]. clear -M1 M2 M3 AX. destruct AX as [(-> & -> & ->)|[(-> & -> & ->)|(-> & -> & ->)]]; rewrite ?Z.mul_0_r, ?Z.mul_1_r, ?Z.mul_0_l; lia. }
    rewrite (feq_int _ _ _ _ DP D). destruct (Z.eqb_spec (e * (a * x + b * y + c * z)) (e * k)) as [Q|Q].
    - exists fzero. split; [reflexivity|]. apply Z.mul_reg_l in Q; [|exact E0]. unfold t. rewrite Q, Z.sub_diag, Z.mul_0_r. exact zero_integral.
    - eexists. split; [reflexivity|]. pose proof N as (N1 & N2 & N3).
      rewrite (feq_int _ _ _ _ N1 zero_integral), (feq_int _ _ _ _ N2 zero_integral), (feq_int _ _ _ _ N3 zero_integral).
      rewrite <- (Z.mul_1_r (Z.sgn e * t)). apply scaled_div; [|now left]. rewrite Z.mul_1_r, (Z.mul_comm t e).
      destruct P as (P1 & P2 & P3).
      assert (DK : forall m, integral m (e * 1) -> integral (fdiv d m) k).
      { intros m I. rewrite Z.mul_1_r in I. apply int_div with e; [now rewrite (Z.mul_comm k)|exact I|exact E0|clear -Bk; lia]. }
      assert (SUB : forall v w f g, integral f v -> integral g w -> (Z.abs v < 2 ^ 24)%Z -> (Z.abs w < 2 ^ 24)%Z -> integral (fsub f g) (v - w)) by (intros v w f g I1 I2 H1 H2; apply int_sub; [exact I1|exact I2|clear -H1 H2; lia]).
      assert (Z0 : forall v, (Z.abs v < 2 ^ 24)%Z -> (Z.abs 0 < 2 ^ 24)%Z) by (intros; reflexivity).
      pose proof (Z0 _ Bx) as B0. clear Z0. unfold t in T |- *.
      destruct AX as [(-> & -> & ->)|[(-> & -> & ->)|(-> & -> & ->)]]; rewrite ?Z.mul_0_r, ?Z.mul_1_r in *.
      + replace (e =? 0)%Z with false by (symmetry; now apply Z.eqb_neq). cbn [negb].
        replace (e * (k - (1 * x + 0 * y + 0 * z)))%Z with ((k - x) * e + (0 - y) * 0 + (0 - z) * 0)%Z in * by ring. apply DI; [|exact N|rewrite ?Z.mul_0_r in *; clear -T; lia].
        split; [|split]; cbn [vmap2 fx fy fz]; apply SUB; try assumption; try exact zero_integral. now apply DK.
      + replace (e =? 0)%Z with false by (symmetry; now apply Z.eqb_neq). cbn [negb Z.eqb].
        replace (e * (k - (0 * x + 1 * y + 0 * z)))%Z with ((0 - x) * 0 + (k - y) * e + (0 - z) * 0)%Z in * by ring. apply DI; [|exact N|rewrite ?Z.mul_0_r in *; clear -T; lia].
        split; [|split]; cbn [vmap2 fx fy fz]; apply SUB; try assumption; try exact zero_integral. now apply DK.
      + replace (e =? 0)%Z with false by (symmetry; now apply Z.eqb_neq). cbn [negb Z.eqb].
        replace (e * (k - (0 * x + 0 * y + 1 * z)))%Z with ((0 - x) * 0 + (0 - y) * 0 + (k - z) * e)%Z in * by ring. apply DI; [|exact N|rewrite ?Z.mul_0_r in *; clear -T; lia].
        split; [|split]; cbn [vmap2 fx fy fz]; apply SUB; try assumption; try exact zero_integral. now apply DK.
  Qed.
  Variables (power : float -> Z -> float) (rad : float) (r : Z).
  Hypotheses (PI : power_integers power) (IR : integral rad r) (Br : (0 <= r < 2 ^ 25)%Z).
  Lemma scaled_sphere :
    ((r < Z.sgn e * t)%Z -> plane_sphere_intersect_f dot power n d p rad = Err ValueError) /\
    ((- r <= t <= r)%Z -> exists rho q, plane_sphere_intersect_f dot power n d p rad = Ok (rho, q) /\ integral_vec q (x + t * a) (y + t * b) (z + t * c) /\
       ordinary rho /\ FR rho = rnd (sqrt (IZR (r * r - t * t)))) /\
    ((Z.sgn e * t < - r)%Z -> exists q, plane_sphere_intersect_f dot power n d p rad = Ok (S754_nan, q)).
  Proof.
    unfold plane_sphere_intersect_f. rewrite scaled_exists. cbn [bind].
    rewrite (check_length rad) by (destruct IR as [O E]; split; [exact O|rewrite E; apply IZR_le; clear -Br; lia]). cbn [bind].
    destruct scaled_distance as (dist & E & ID). rewrite E. cbn [bind]. rewrite (flt_int _ _ _ _ IR ID). pose proof scaled_t as Bt.
    assert (S2 : (Z.sgn e * Z.sgn e = 1)%Z) by (clear -E0; destruct (Z.sgn_spec e) as [(_ & ->)|[(? & ->)|(_ & ->)]]; lia).
    assert (SG : (Z.sgn e = 1 \/ Z.sgn e = -1)%Z) by (clear -E0; destruct (Z.sgn_spec e) as [(_ & ->)|[(? & ->)|(_ & ->)]]; lia).
    pose proof (square_small r Br) as Sr. pose proof (square_small (Z.abs t) ltac:(clear -Bt; clearbody t; lia)) as St. rewrite Z.abs_square in St.
    pose proof (Z.square_nonneg t) as Pt. pose proof (Z.square_nonneg r) as Pr.
    assert (ST : (Z.sgn e * t * (Z.sgn e * t) = t * t)%Z) by (transitivity (Z.sgn e * Z.sgn e * (t * t))%Z; [clearbody t; ring|rewrite S2; clearbody t; ring]).
    assert (IQ : integral (fsub (power rad 2%Z) (power dist 2%Z)) (r * r - t * t)).
    { apply int_sub; [apply PI; [exact IR|clear -Sr; lia]|rewrite <- ST; apply PI; [exact ID|rewrite ST; clear -St; clearbody t; lia]|clear -Sr St Pt Pr; clearbody t; lia]. }
    split; [|split].
    - intros L. apply Z.ltb_lt in L. now rewrite L.
    - intros L. replace (r <? Z.sgn e * t)%Z with false by (symmetry; apply Z.ltb_ge; clear -L SG; clearbody t; destruct SG as [-> | ->]; lia). eexists _, _. split; [reflexivity|]. split.
      + destruct N as (N1 & N2 & N3), P as (P1 & P2 & P3).
        assert (TA : forall m v w q, integral m (e * v) -> (v = 1 \/ v = 0)%Z -> integral q w -> (Z.abs w < 2 ^ 24)%Z -> integral (fadd q (fdiv (fmul dist m) (norm_f dot n))) (w + t * v)).
        { intros m v w q Im V Iq Bw. assert (TV : (Z.abs (t * v) < 2 ^ 25)%Z) by (clear -V Bt; clearbody t; destruct V as [-> | ->]; lia).
          apply int_add; [exact Iq| |clear -TV Bw; clearbody t; lia].
          apply int_div with (Z.abs e); [|exact scaled_norm|clear -E0; lia|clear -TV; clearbody t; lia].
          replace (t * v * Z.abs e)%Z with (Z.sgn e * t * (e * v))%Z by (rewrite <- (Z.sgn_abs e); clearbody t; ring).
          apply int_mul; [exact ID|exact Im|]. replace (Z.sgn e * t * (e * v))%Z with (Z.sgn e * v * (e * t))%Z by (clearbody t; ring). pose proof te_small as TE. clear -TE SG V. set (X := (e * t)%Z) in *. clearbody X.
          destruct SG as [-> | ->], V as [-> | ->]; lia. }
        unfold vmap, vmap2. split; [|split]; cbn [fx fy fz]; apply TA; try assumption; clear -AX; tauto.
      + assert (P0 : 0 <= FR (fsub (power rad 2%Z) (power dist 2%Z))) by (rewrite (proj2 IQ); apply IZR_le; clear -L Br; clearbody t; nia).
        destruct IQ as [[V F] EQ]. destruct (fsqrt_R _ V F P0) as (V' & S & F'). split; [now split|]. now rewrite S, EQ.
    - intros L. replace (r <? Z.sgn e * t)%Z with false by (symmetry; apply Z.ltb_ge; clear -L Br; clearbody t; lia).
      rewrite (sqrt_negative _ (proj1 IQ)) by (rewrite (proj2 IQ); apply IZR_lt; clear -L Br SG; clearbody t; destruct SG as [S | S]; rewrite S in L; nia). eexists. reflexivity.
  Qed.
End Scaled.
Lemma sphere_meet dot n p d e a b c k x y z power rad r : dot_integers dot -> power_integers power -> integral_vec n (e * a) (e * b) (e * c) ->
  (a = 1 /\ b = 0 /\ c = 0 \/ a = 0 /\ b = 1 /\ c = 0 \/ a = 0 /\ b = 0 /\ c = 1)%Z -> e <> 0%Z -> (Z.abs e < 2 ^ 25)%Z ->
  integral d (e * k) -> integral_vec p x y z -> (Z.abs x < 2 ^ 24)%Z -> (Z.abs y < 2 ^ 24)%Z -> (Z.abs z < 2 ^ 24)%Z -> (Z.abs k < 2 ^ 24)%Z -> integral rad r -> (0 <= r < 2 ^ 25)%Z ->
  let t := (k - (a * x + b * y + c * z))%Z in
  ((r < Z.sgn e * t)%Z -> plane_sphere_intersect_f dot power n d p rad = Err ValueError) /\
  ((- r <= t <= r)%Z -> exists rho q, plane_sphere_intersect_f dot power n d p rad = Ok (rho, q) /\ integral_vec q (x + t * a) (y + t * b) (z + t * c) /\
     ordinary rho /\ FR rho = rnd (sqrt (IZR (r * r - t * t)))).
Proof.
  intros DI PI N AX E0 Be D P Bx By Bz Bk IR Br. destruct (scaled_sphere dot n p d e a b c k x y z DI N AX E0 Be D P Bx By Bz Bk power rad r PI IR Br) as (A & B & _). exact (conj A B).
Qed.
Lemma sphere_below dot n p d e a b c k x y z power rad r : dot_integers dot -> power_integers power -> integral_vec n (e * a) (e * b) (e * c) ->
  (a = 1 /\ b = 0 /\ c = 0 \/ a = 0 /\ b = 1 /\ c = 0 \/ a = 0 /\ b = 0 /\ c = 1)%Z -> e <> 0%Z -> (Z.abs e < 2 ^ 25)%Z ->
  integral d (e * k) -> integral_vec p x y z -> (Z.abs x < 2 ^ 24)%Z -> (Z.abs y < 2 ^ 24)%Z -> (Z.abs z < 2 ^ 24)%Z -> (Z.abs k < 2 ^ 24)%Z -> integral rad r -> (0 <= r < 2 ^ 25)%Z ->
  let t := (k - (a * x + b * y + c * z))%Z in (Z.sgn e * t < - r)%Z -> exists q, plane_sphere_intersect_f dot power n d p rad = Ok (S754_nan, q).
Proof.
  intros DI PI N AX E0 Be D P Bx By Bz Bk IR Br. destruct (scaled_sphere dot n p d e a b c k x y z DI N AX E0 Be D P Bx By Bz Bk power rad r PI IR Br) as (_ & _ & C). exact C.
Qed.
