(** Lemmas about rotations and coordinates in binary64. *)
From Coq Require Import Reals Lra Lia Floats.SpecFloat.
From Flocq Require Import Core Relative BinarySingleNaN.
From Verif Require Import PyBase PyFacts PyFloat FloatFacts FloatR FloatZ PyFrame Float32 PyArith PyArithR M_const SpecConst P_const PiBound M_geomf SpecGeomf P_geomf P_geomf2 P_geomf3 P_geomf4 P_geomf5 P_geomf6 P_geomf8 P_geomf9 M_geomt SpecGeomt.
Import ListNotations.
Local Open Scope R_scope.

Lemma FR_opp x : FR (fopp x) = - FR x.
Proof. destruct x as [s|s| |s m e]; cbn; try lra. unfold FR. cbn. rewrite <- F2R_Zopp. destruct s; reflexivity. Qed.
Lemma ordinary_opp x : ordinary x -> ordinary (fopp x).
Proof. intros [V F]. destruct x as [s|s| |s m e]; try discriminate; split; reflexivity || exact V. Qed.
Definition entry (x : float) (X : R) : Prop := two_units x X /\ Rabs X <= 1.
Lemma entry_opp x X : entry x X -> entry (fopp x) (- X).
Proof.
  intros [(O & A & B) C]. split; [|now rewrite Rabs_Ropp]. split; [now apply ordinary_opp|]. rewrite FR_opp, !Rabs_Ropp. split.
  - replace (- FR x - - X) with (- (FR x - X)) by ring. now rewrite Rabs_Ropp.
  - destruct B as [B|B]; [left; lra|now right].
Qed.
Lemma entry_one : entry (f_of_Z 1) 1.
Proof.
  destruct (int_of_Z 1 ltac:(lia)) as [O E]. split; [|rewrite Rabs_R1; lra]. split; [exact O|]. rewrite E. split.
  - rewrite Rminus_diag_eq by reflexivity. rewrite Rabs_R0, Rabs_R1. pose proof (bpow_gt_0 radix2 (-53)). lra.
  - right. rewrite Rabs_R1. change 1 with (bpow radix2 0). apply bpow_le. lia.
Qed.
Lemma entry_zero : entry fzero 0.
Proof.
  split; [|rewrite Rabs_R0; lra]. split; [split; reflexivity|]. cbn. split; [|now left]. rewrite Rminus_diag_eq by reflexivity. rewrite !Rabs_R0. lra.
Qed.
Lemma entry_cos cosf sinf t : trig_accurate cosf sinf t -> entry (cosf t) (cos (FR t)).
Proof. intros [H _]. split; [exact H|]. apply Rabs_le. pose proof (COS_bound (FR t)). lra. Qed.
Lemma entry_sin cosf sinf t : trig_accurate cosf sinf t -> entry (sinf t) (sin (FR t)).
Proof. intros [_ H]. split; [exact H|]. apply Rabs_le. pose proof (SIN_bound (FR t)). lra. Qed.
Lemma u_tiny : 0 < bpow radix2 (-53) <= / 1000.
Proof. split; [apply bpow_gt_0|]. replace (bpow radix2 (-53)) with (/ IZR (2 ^ 53)) by reflexivity. apply Rinv_le_contravar; [lra|]. change 1000 with (IZR 1000). apply IZR_le. lia. Qed.
Lemma entry_big x X : entry x X -> Rabs (FR x) <= (1 + 2 * bpow radix2 (-53)) * Rabs X.
Proof.
  intros [(_ & A & _) _]. pose proof (Rabs_triang (FR x - X) X) as T. replace (FR x - X + X) with (FR x) in T by ring. lra.
Qed.
Lemma entry_tame x X v k : entry x X -> integral v k -> (Z.abs k < 2 ^ 53)%Z -> tame x v.
Proof.
  intros E [_ I] B. pose proof (entry_big x X E) as G. destruct E as [(_ & _ & D) C]. unfold tame. rewrite I.
  destruct D as [D|D]; [left; rewrite D; ring|]. destruct (Z.eq_dec k 0) as [->|N]; [left; ring|right].
  rewrite Rabs_mult, <- abs_IZR. assert (K1 : 1 <= IZR (Z.abs k)) by (apply IZR_le; lia).
  assert (K2 : IZR (Z.abs k) <= bpow radix2 53) by (change (bpow radix2 53) with (IZR (2 ^ 53)); apply IZR_le; lia). split.
  - apply Rle_trans with (bpow radix2 (-300) * 1); [rewrite Rmult_1_r; apply bpow_le; lia|]. apply Rmult_le_compat; try lra. apply bpow_ge_0.
  - apply Rle_trans with (bpow radix2 1 * bpow radix2 53); [|rewrite <- bpow_plus; apply bpow_le; lia]. apply Rmult_le_compat; try lra; [apply Rabs_pos|].
    pose proof u_tiny. change (bpow radix2 1) with 2. apply Rle_trans with ((1 + 2 * bpow radix2 (-53)) * 1); [|lra]. eapply Rle_trans; [exact G|]. apply Rmult_le_compat_l; lra.
Qed.
(** One row of a matrix. *)
Lemma row_near dot e1 e2 e3 E1 E2 E3 v x y z : dot_accurate dot -> entry e1 E1 -> entry e2 E2 -> entry e3 E3 -> integral_vec v x y z ->
  (Z.abs x < 2 ^ 53)%Z -> (Z.abs y < 2 ^ 53)%Z -> (Z.abs z < 2 ^ 53)%Z ->
  off 7 (dot (FV e1 e2 e3) v) (E1 * IZR x + E2 * IZR y + E3 * IZR z) (Rabs (E1 * IZR x) + Rabs (E2 * IZR y) + Rabs (E3 * IZR z)).
Proof.
  intros DA N1 N2 N3 (I1 & I2 & I3) Bx By Bz.
  destruct (DA (FV e1 e2 e3) v) as [O H].
  - repeat split; try apply N1; try apply N2; try apply N3.
  - split; [apply I1|split; [apply I2|apply I3]].
  - split; [|split]; [exact (entry_tame _ _ _ _ N1 I1 Bx)|exact (entry_tame _ _ _ _ N2 I2 By)|exact (entry_tame _ _ _ _ N3 I3 Bz)].
  - split; [exact O|]. unfold inner_f, inner_abs in H. cbn [fx fy fz] in H. rewrite (proj2 I1), (proj2 I2), (proj2 I3) in H.
    pose proof (entry_big _ _ N1) as G1. pose proof (entry_big _ _ N2) as G2. pose proof (entry_big _ _ N3) as G3.
    destruct N1 as [(_ & A1 & _) _], N2 as [(_ & A2 & _) _], N3 as [(_ & A3 & _) _].
    set (u := bpow radix2 (-53)) in *. pose proof u_tiny as U. fold u in U.
    assert (T : forall a A w, Rabs (a - A) <= 2 * u * Rabs A -> Rabs (a * w - A * w) <= 2 * u * Rabs (A * w)).
    { intros a A w L. replace (a * w - A * w) with ((a - A) * w) by ring. rewrite !Rabs_mult, <- Rmult_assoc. apply Rmult_le_compat_r; [apply Rabs_pos|exact L]. }
    assert (T' : forall a A w, Rabs a <= (1 + 2 * u) * Rabs A -> Rabs (a * w) <= (1 + 2 * u) * Rabs (A * w)).
    { intros a A w L. rewrite !Rabs_mult, <- Rmult_assoc. apply Rmult_le_compat_r; [apply Rabs_pos|exact L]. }
    apply (T _ _ (IZR x)) in A1. apply (T _ _ (IZR y)) in A2. apply (T _ _ (IZR z)) in A3. apply (T' _ _ (IZR x)) in G1. apply (T' _ _ (IZR y)) in G2. apply (T' _ _ (IZR z)) in G3.
    set (P1 := Rabs (E1 * IZR x)) in *. set (P2 := Rabs (E2 * IZR y)) in *. set (P3 := Rabs (E3 * IZR z)) in *.
    assert (Q : 0 <= P1 /\ 0 <= P2 /\ 0 <= P3) by (repeat split; apply Rabs_pos).
    set (d := FR (dot _ _)) in *.
    replace (d - (E1 * IZR x + E2 * IZR y + E3 * IZR z)) with
      ((d - (FR e1 * IZR x + FR e2 * IZR y + FR e3 * IZR z)) + ((FR e1 * IZR x - E1 * IZR x) + ((FR e2 * IZR y - E2 * IZR y) + (FR e3 * IZR z - E3 * IZR z)))) by ring.
    eapply Rle_trans; [apply Rabs_triang|]. eapply Rle_trans; [apply Rplus_le_compat_l; eapply Rle_trans; [apply Rabs_triang|apply Rplus_le_compat_l, Rabs_triang]|].
    set (S := P1 + P2 + P3). assert (SS : 0 <= S) by (unfold S; lra).
    apply Rle_trans with (4 * u * ((1 + 2 * u) * S) + 2 * u * S).
    + apply Rle_trans with (4 * u * (Rabs (FR e1 * IZR x) + Rabs (FR e2 * IZR y) + Rabs (FR e3 * IZR z)) + 2 * u * S); [unfold S; lra|].
      apply Rplus_le_compat_r. apply Rmult_le_compat_l; [lra|]. unfold S. lra.
    + assert (X : 4 * u * (1 + 2 * u) + 2 * u <= 7 * u) by nra. apply Rle_trans with ((4 * u * (1 + 2 * u) + 2 * u) * S); [apply Req_le; ring|]. now apply Rmult_le_compat_r.
Qed.
Lemma off_to k x X s X' s' : off k x X s -> X = X' -> s = s' -> off k x X' s'.
Proof. now intros H -> ->. Qed.
Lemma sub_vec p o x y z a b c : integral_vec p x y z -> integral_vec o a b c -> (Z.abs (x - a) < 2 ^ 53)%Z -> (Z.abs (y - b) < 2 ^ 53)%Z -> (Z.abs (z - c) < 2 ^ 53)%Z ->
  integral_vec (vmap2 fsub p o) (x - a) (y - b) (z - c).
Proof. intros (P1 & P2 & P3) (O1 & O2 & O3) B1 B2 B3. split; [|split]; cbn [vmap2 fx fy fz]; now apply int_sub. Qed.
Lemma unit_row dot v x y z : dot_integers dot -> integral_vec v x y z -> (Z.abs x < 2 ^ 53)%Z -> (Z.abs y < 2 ^ 53)%Z -> (Z.abs z < 2 ^ 53)%Z ->
  integral (dot (FV (f_of_Z 1) fzero fzero) v) x /\ integral (dot (FV fzero (f_of_Z 1) fzero) v) y /\ integral (dot (FV fzero fzero (f_of_Z 1)) v) z.
Proof.
  intros DI I Bx By Bz. pose proof (int_of_Z 1 ltac:(lia)) as I1. pose proof zero_integral as I0.
  pose proof (DI (FV (f_of_Z 1) fzero fzero) v 1%Z 0%Z 0%Z x y z (conj I1 (conj I0 I0)) I) as H1.
  pose proof (DI (FV fzero (f_of_Z 1) fzero) v 0%Z 1%Z 0%Z x y z (conj I0 (conj I1 I0)) I) as H2.
  pose proof (DI (FV fzero fzero (f_of_Z 1)) v 0%Z 0%Z 1%Z x y z (conj I0 (conj I0 I1)) I) as H3.
  replace (1 * x + 0 * y + 0 * z)%Z with x in H1 by ring. replace (0 * x + 1 * y + 0 * z)%Z with y in H2 by ring. replace (0 * x + 0 * y + 1 * z)%Z with z in H3 by ring.
  split; [apply H1|split; [apply H2|apply H3]]; clear -Bx By Bz; lia.
Qed.
Section Rotate.
  Variables (dot : fvec -> fvec -> float) (cosf sinf : float -> float) (ps : list fvec) (o : fvec) (theta : float) (i : nat) (p : fvec) (x y z a b c : Z).
  Hypotheses (DA : dot_accurate dot) (DI : dot_integers dot) (T : trig_accurate cosf sinf theta) (NE : nth_error ps i = Some p)
    (P : integral_vec p x y z) (O : integral_vec o a b c) (Bx : (Z.abs (x - a) < 2 ^ 53)%Z) (By : (Z.abs (y - b) < 2 ^ 53)%Z) (Bz : (Z.abs (z - c) < 2 ^ 53)%Z).
  Let X := IZR (x - a).
  Let Y := IZR (y - b).
  Let Z_ := IZR (z - c).
  Let C := cos (FR theta).
  Let S := sin (FR theta).
  Lemma rotate_x_near : exists q, nth_error (rotate_x_f dot cosf sinf ps o theta) i = Some q /\ integral (fx q) (x - a) /\
    off 7 (fy q) (C * Y - S * Z_) (Rabs (C * Y) + Rabs (S * Z_)) /\ off 7 (fz q) (S * Y + C * Z_) (Rabs (S * Y) + Rabs (C * Z_)).
  Proof.
    eexists. split; [unfold rotate_x_f; rewrite nth_error_map, NE; reflexivity|]. unfold mat_vec_f. cbn [fx fy fz].
    pose proof (sub_vec p o x y z a b c P O Bx By Bz) as IV. destruct (unit_row dot _ _ _ _ DI IV Bx By Bz) as (U1 & U2 & U3).
    pose proof (entry_cos _ _ _ T) as EC. pose proof (entry_sin _ _ _ T) as ES. fold C in EC. fold S in ES. split; [exact U1|]. split.
    - eapply off_to; [apply (row_near dot _ _ _ _ _ _ _ _ _ _ DA entry_zero EC (entry_opp _ _ ES) IV Bx By Bz)|fold X Y Z_; ring|]. fold X Y Z_. rewrite Rmult_0_l, Rabs_R0. rewrite <- Ropp_mult_distr_l, Rabs_Ropp. ring.
    - eapply off_to; [apply (row_near dot _ _ _ _ _ _ _ _ _ _ DA entry_zero ES EC IV Bx By Bz)|fold X Y Z_; ring|]. fold X Y Z_. rewrite Rmult_0_l, Rabs_R0. ring.
  Qed.
  Lemma rotate_y_near : exists q, nth_error (rotate_y_f dot cosf sinf ps o theta) i = Some q /\ integral (fy q) (y - b) /\
    off 7 (fx q) (C * X + S * Z_) (Rabs (C * X) + Rabs (S * Z_)) /\ off 7 (fz q) (C * Z_ - S * X) (Rabs (C * Z_) + Rabs (S * X)).
  Proof.
    eexists. split; [unfold rotate_y_f; rewrite nth_error_map, NE; reflexivity|]. unfold mat_vec_f. cbn [fx fy fz].
    pose proof (sub_vec p o x y z a b c P O Bx By Bz) as IV. destruct (unit_row dot _ _ _ _ DI IV Bx By Bz) as (U1 & U2 & U3).
    pose proof (entry_cos _ _ _ T) as EC. pose proof (entry_sin _ _ _ T) as ES. fold C in EC. fold S in ES. split; [exact U2|]. split.
    - eapply off_to; [apply (row_near dot _ _ _ _ _ _ _ _ _ _ DA EC entry_zero ES IV Bx By Bz)|fold X Y Z_; ring|]. fold X Y Z_. rewrite Rmult_0_l, Rabs_R0. ring.
    - eapply off_to; [apply (row_near dot _ _ _ _ _ _ _ _ _ _ DA (entry_opp _ _ ES) entry_zero EC IV Bx By Bz)|fold X Y Z_; ring|]. fold X Y Z_. rewrite Rmult_0_l, Rabs_R0. rewrite <- Ropp_mult_distr_l, Rabs_Ropp. ring.
  Qed.
  Lemma rotate_z_near : exists q, nth_error (rotate_z_f dot cosf sinf ps o theta) i = Some q /\ integral (fz q) (z - c) /\
    off 7 (fx q) (C * X - S * Y) (Rabs (C * X) + Rabs (S * Y)) /\ off 7 (fy q) (S * X + C * Y) (Rabs (S * X) + Rabs (C * Y)).
  Proof.
    eexists. split; [unfold rotate_z_f; rewrite nth_error_map, NE; reflexivity|]. unfold mat_vec_f. cbn [fx fy fz].
    pose proof (sub_vec p o x y z a b c P O Bx By Bz) as IV. destruct (unit_row dot _ _ _ _ DI IV Bx By Bz) as (U1 & U2 & U3).
    pose proof (entry_cos _ _ _ T) as EC. pose proof (entry_sin _ _ _ T) as ES. fold C in EC. fold S in ES. split; [exact U3|]. split.
    - eapply off_to; [apply (row_near dot _ _ _ _ _ _ _ _ _ _ DA EC (entry_opp _ _ ES) entry_zero IV Bx By Bz)|fold X Y Z_; ring|]. fold X Y Z_. rewrite Rmult_0_l, Rabs_R0. rewrite <- Ropp_mult_distr_l, Rabs_Ropp. ring.
    - eapply off_to; [apply (row_near dot _ _ _ _ _ _ _ _ _ _ DA ES EC entry_zero IV Bx By Bz)|fold X Y Z_; ring|]. fold X Y Z_. rewrite Rmult_0_l, Rabs_R0. ring.
  Qed.
End Rotate.
(** The centre of the rotation is moved to the origin. *)
Lemma off_zero x s : off 7 x 0 0 -> s = FR x -> s = 0.
Proof. intros [_ H] ->. rewrite Rmult_0_r, Rminus_0_r in H. destruct (Req_dec (FR x) 0) as [E|N]; [exact E|]. apply Rabs_pos_lt in N. lra. Qed.
Lemma rotate_centre dot cosf sinf o theta a b c : dot_accurate dot -> dot_integers dot -> trig_accurate cosf sinf theta -> integral_vec o a b c ->
  (exists q, rotate_x_f dot cosf sinf [o] o theta = [q] /\ FR (fx q) = 0 /\ FR (fy q) = 0 /\ FR (fz q) = 0) /\
  (exists q, rotate_y_f dot cosf sinf [o] o theta = [q] /\ FR (fx q) = 0 /\ FR (fy q) = 0 /\ FR (fz q) = 0) /\
  (exists q, rotate_z_f dot cosf sinf [o] o theta = [q] /\ FR (fx q) = 0 /\ FR (fy q) = 0 /\ FR (fz q) = 0).
Proof.
  intros DA DI T O. assert (B : forall k, (Z.abs (k - k) < 2 ^ 53)%Z) by (intros; rewrite Z.sub_diag; reflexivity).
  assert (L : forall x A B, off 7 x (A * IZR 0 - B * IZR 0) (Rabs (A * IZR 0) + Rabs (B * IZR 0)) \/ off 7 x (A * IZR 0 + B * IZR 0) (Rabs (A * IZR 0) + Rabs (B * IZR 0)) -> FR x = 0).
  { intros x A B0 H. rewrite !Rmult_0_r, Rabs_R0, Rplus_0_r, Rminus_0_r in H. destruct H as [H|H]; exact (off_zero x _ H eq_refl). }
  destruct (rotate_x_near dot cosf sinf [o] o theta 0 o a b c a b c DA DI T eq_refl O O (B a) (B b) (B c)) as (q1 & E1 & [_ A1] & A2 & A3).
  destruct (rotate_y_near dot cosf sinf [o] o theta 0 o a b c a b c DA DI T eq_refl O O (B a) (B b) (B c)) as (q2 & E2 & [_ B1] & B2 & B3).
  destruct (rotate_z_near dot cosf sinf [o] o theta 0 o a b c a b c DA DI T eq_refl O O (B a) (B b) (B c)) as (q3 & E3 & [_ C1] & C2 & C3).
  rewrite !Z.sub_diag in *. injection E1 as E1. injection E2 as E2. injection E3 as E3.
  split; [exists q1; split; [cbn; now f_equal|]|split; [exists q2; split; [cbn; now f_equal|]|exists q3; split; [cbn; now f_equal|]]];
    repeat apply conj; try assumption; eapply L; (left; eassumption) || (right; eassumption).
Qed.
(** A quarter of a turn. *)
Lemma half_pi_less : 0 < FR half_pi_f < PI / 2.
Proof.
  remember half_pi_f as h eqn:E. vm_compute in E. assert (V : FR h = IZR 7074237752028440 * / IZR (2 ^ 52)) by (rewrite E; reflexivity).
  rewrite V. cbn [Z.pow Z.pow_pos Pos.iter Z.mul Pos.mul]. pose proof PI_near as P. cbn [pow] in P. lra.
Qed.
Lemma quarter_off dot cosf sinf : dot_accurate dot -> dot_integers dot -> trig_accurate cosf sinf half_pi_f ->
  exists q, rotate_z_f dot cosf sinf [fv 1 0 0] (fv 0 0 0) half_pi_f = [q] /\ 0 < FR (fx q).
Proof.
  intros DA DI T. destruct (rotate_z_near dot cosf sinf [fv 1 0 0] (fv 0 0 0) half_pi_f 0 (fv 1 0 0) 1 0 0 0 0 0 DA DI T eq_refl) as (q & E & _ & [_ H] & _); try (apply fv_int; lia); try lia.
  exists q. split; [cbn in E |- *; injection E as E; now f_equal|]. cbn [Z.sub Z.add Z.opp Pos.add] in H. rewrite Rmult_1_r, Rmult_0_r, Rminus_0_r, Rabs_R0, Rplus_0_r in H.
  assert (P : 0 < cos (FR half_pi_f)) by (apply cos_gt_0; pose proof half_pi_less; lra). rewrite (Rabs_pos_eq (cos _)) in H by lra.
  pose proof u_tiny as U. set (u := bpow radix2 (-53)) in *. set (cc := cos (FR half_pi_f)) in *.
  assert (X : FR (fx q) >= cc - 7 * u * cc). { pose proof (Rle_abs (- (FR (fx q) - cc))) as Q. rewrite Rabs_Ropp in Q. lra. } nra.
Qed.

(** * Coordinates *)
Lemma prod_close k x X y Y : (0 <= k <= 10)%Z -> ordinary x -> Rabs (FR x - X) <= IZR k * bpow radix2 (-53) * Rabs X -> two_units y Y -> tame x y -> close (k + 4) (fmul x y) (X * Y).
Proof.
  intros K Ox A (Oy & B & _) T. destruct (tame_mul x y Ox Oy T) as (O & e & Le & E). split; [exact O|]. rewrite E. unfold u53 in Le.
  pose proof u_tiny as U. set (u := bpow radix2 (-53)) in *. rewrite plus_IZR. assert (K1 : 0 <= IZR k <= 10) by (split; apply IZR_le; lia). set (kk := IZR k) in *.
  rewrite Rabs_mult. set (x0 := FR x) in *. set (y0 := FR y) in *. pose proof (Rabs_pos X) as PX. pose proof (Rabs_pos Y) as PY.
  set (M := Rabs X * Rabs Y). assert (PM : 0 <= M) by (unfold M; now apply Rmult_le_pos).
  assert (D : Rabs (x0 * y0 - X * Y) <= (kk + 2 + 2 * kk * u) * u * M).
  { replace (x0 * y0 - X * Y) with ((x0 - X) * Y + (X * (y0 - Y) + (x0 - X) * (y0 - Y))) by ring. eapply Rle_trans; [apply Rabs_triang|]. eapply Rle_trans; [apply Rplus_le_compat_l, Rabs_triang|]. rewrite !Rabs_mult.
    assert (H1 : Rabs (x0 - X) * Rabs Y <= kk * u * M) by (unfold M; rewrite <- !Rmult_assoc; apply Rmult_le_compat_r; assumption).
    assert (H2 : Rabs X * Rabs (y0 - Y) <= 2 * u * M) by (unfold M; apply Rle_trans with (Rabs X * (2 * u * Rabs Y)); [now apply Rmult_le_compat_l|apply Req_le; ring]).
    assert (H3 : Rabs (x0 - X) * Rabs (y0 - Y) <= kk * u * Rabs X * (2 * u * Rabs Y)) by (apply Rmult_le_compat; try assumption; apply Rabs_pos).
    unfold M in *. lra. }
  assert (G : Rabs (x0 * y0) <= (1 + (kk + 2 + 2 * kk * u) * u) * M).
  { pose proof (Rabs_triang (x0 * y0 - X * Y) (X * Y)) as Q. replace (x0 * y0 - X * Y + X * Y) with (x0 * y0) in Q by ring. rewrite (Rabs_mult X Y) in Q. fold M in Q. lra. }
  replace (x0 * y0 * (1 + e) - X * Y) with ((x0 * y0 - X * Y) + x0 * y0 * e) by ring. eapply Rle_trans; [apply Rabs_triang|]. rewrite (Rabs_mult (x0 * y0) e).
  assert (F : Rabs (x0 * y0) * Rabs e <= (1 + (kk + 2 + 2 * kk * u) * u) * M * u) by (apply Rmult_le_compat; try assumption; apply Rabs_pos).
  apply Rle_trans with (((kk + 2 + 2 * kk * u) * u + (1 + (kk + 2 + 2 * kk * u) * u) * u) * M); [lra|]. apply Rmult_le_compat_r; [exact PM|].
  set (w := kk + 2 + 2 * kk * u). assert (W : 0 <= w <= kk + 2 + / 40) by (unfold w; nra). assert (W2 : w * u <= / 50) by nra.
  apply Rle_trans with ((w + (1 + w * u)) * u); [apply Req_le; ring|]. apply Rmult_le_compat_r; lra.
Qed.
Lemma trig_tame lo r y Y : (-600 <= lo)%Z -> ordinary r -> (FR r = 0 \/ bpow radix2 lo <= Rabs (FR r)) -> Rabs (FR r) <= bpow radix2 302 -> entry y Y -> tame r y.
Proof.
  intros L O [Z0|H] B E; [left; rewrite Z0; ring|]. pose proof (entry_big y Y E) as G. destruct E as [(_ & _ & D) C]. destruct D as [D|D]; [left; rewrite D; ring|right].
  rewrite Rabs_mult. split.
  - apply Rle_trans with (bpow radix2 lo * bpow radix2 (-300)); [rewrite <- bpow_plus; apply bpow_le; lia|]. apply Rmult_le_compat; try assumption; apply bpow_ge_0.
  - apply Rle_trans with (bpow radix2 302 * bpow radix2 1); [|rewrite <- bpow_plus; apply bpow_le; lia]. apply Rmult_le_compat; try assumption; try apply Rabs_pos.
    pose proof u_tiny. change (bpow radix2 1) with 2. apply Rle_trans with ((1 + 2 * bpow radix2 (-53)) * 1); [|lra]. eapply Rle_trans; [exact G|]. apply Rmult_le_compat_l; lra.
Qed.
Lemma moderate_tame r y Y : moderate r -> entry y Y -> tame r y.
Proof.
  intros [O [A B]] E. assert (P : 0 < FR r) by (eapply Rlt_le_trans; [apply bpow_gt_0|exact A]). apply (trig_tame (-300) r y Y); [lia|exact O| | |exact E]; rewrite Rabs_pos_eq by lra; [now right|].
  apply Rle_trans with (bpow radix2 300); [exact B|apply bpow_le; lia].
Qed.
Lemma times_close r y Y : moderate r -> entry y Y -> close 4 (fmul r y) (FR r * Y).
Proof.
  intros M E. apply (prod_close 0 r (FR r) y Y); [lia|apply M| |apply E|now apply (moderate_tame r y Y)].
  rewrite Rminus_diag_eq by reflexivity. rewrite Rabs_R0. lra.
Qed.
Lemma times_range r y Y : moderate r -> entry y Y -> (FR (fmul r y) = 0 \/ bpow radix2 (-600) <= Rabs (FR (fmul r y))) /\ Rabs (FR (fmul r y)) <= bpow radix2 302.
Proof.
  intros M E. pose proof (moderate_tame r y Y M E) as T. pose proof (entry_big y Y E) as G. destruct M as [O [A B]]. assert (P : 0 < FR r) by (eapply Rlt_le_trans; [apply bpow_gt_0|exact A]).
  destruct E as [(Oy & _ & D) C]. destruct (tame_mul r y O Oy T) as ([V F] & e & Le & E'). pose proof u_tiny as U. unfold u53 in Le.
  assert (YB : Rabs (FR y) <= 1 + / 500). { apply Rle_trans with ((1 + 2 * bpow radix2 (-53)) * 1); [|lra]. eapply Rle_trans; [exact G|]. apply Rmult_le_compat_l; lra. }
  assert (EB : Rabs (1 + e) <= 1 + / 500). { eapply Rle_trans; [apply Rabs_triang|]. rewrite Rabs_R1. lra. }
  split.
  - destruct D as [D|D]; [left; rewrite E', D; ring|right]. destruct O as [Vr Fr], Oy as [Vy Fy]. destruct (mul64_R r y Vr Vy Fr Fy) as (_ & R1 & R2).
    destruct (Rlt_le_dec (Rabs (rnd (FR r * FR y))) fmax_bound) as [K|K]; [|apply R2 in K; rewrite K in F; discriminate F].
    rewrite (proj1 (R1 K)), <- rnd_abs. rewrite <- (rnd_bpow (-600)) by lia. apply rnd_le. rewrite Rabs_mult, (Rabs_pos_eq (FR r)) by lra.
    apply Rle_trans with (bpow radix2 (-300) * bpow radix2 (-300)); [rewrite <- bpow_plus; apply bpow_le; lia|]. apply Rmult_le_compat; try assumption; apply bpow_ge_0.
  - rewrite E', !Rabs_mult, (Rabs_pos_eq (FR r)) by lra. apply Rle_trans with (bpow radix2 300 * 2 * 2); [|replace (bpow radix2 300 * 2 * 2) with (bpow radix2 302); [lra|]].
    + apply Rmult_le_compat; [apply Rmult_le_pos; [lra|apply Rabs_pos]|apply Rabs_pos| |lra]. apply Rmult_le_compat; try lra. apply Rabs_pos.
    + replace 302%Z with (300 + 1 + 1)%Z by reflexivity. rewrite !bpow_plus. reflexivity.
Qed.
Lemma cylindrical_near cosf sinf rho phi z : moderate rho -> trig_accurate cosf sinf phi ->
  exists x y, cylindrical_to_cartesian_f cosf sinf rho phi z = Ok (x, y, z) /\ close 4 x (FR rho * cos (FR phi)) /\ close 4 y (FR rho * sin (FR phi)).
Proof.
  intros M T. unfold cylindrical_to_cartesian_f. rewrite (check_length rho (moderate_length rho M)). cbn [bind]. eexists _, _. split; [reflexivity|].
  split; apply times_close; try exact M; [exact (entry_cos _ _ _ T)|exact (entry_sin _ _ _ T)].
Qed.
Lemma spherical_near cosf sinf r theta phi : moderate r -> trig_accurate cosf sinf theta -> trig_accurate cosf sinf phi ->
  (exists x y z, spherical_to_cartesian_f cosf sinf r theta phi = Ok (x, y, z) /\ close 8 x (FR r * sin (FR theta) * cos (FR phi)) /\
    close 8 y (FR r * sin (FR theta) * sin (FR phi)) /\ close 4 z (FR r * cos (FR theta))) /\
  (exists rho z, spherical_to_cylindrical_f cosf sinf r theta phi = Ok (rho, phi, z) /\ close 4 rho (FR r * sin (FR theta)) /\ close 4 z (FR r * cos (FR theta))).
Proof.
  intros M T T'. unfold spherical_to_cartesian_f, spherical_to_cylindrical_f. rewrite (check_length r (moderate_length r M)). cbn [bind].
  pose proof (entry_sin _ _ _ T) as ES. pose proof (entry_cos _ _ _ T) as EC. pose proof (entry_sin _ _ _ T') as ES'. pose proof (entry_cos _ _ _ T') as EC'.
  pose proof (times_close _ _ _ M ES) as HS. pose proof (times_close _ _ _ M EC) as HC. destruct (times_range _ _ _ M ES) as [R1 R2]. split.
  - eexists _, _, _. split; [reflexivity|]. destruct HS as [OS HS]. split; [|split; [|exact HC]].
    + apply (prod_close 4); [lia|exact OS|exact HS|apply EC'|]. apply (trig_tame (-600) _ _ (cos (FR phi))); [lia|exact OS|exact R1|exact R2|exact EC'].
    + apply (prod_close 4); [lia|exact OS|exact HS|apply ES'|]. apply (trig_tame (-600) _ _ (sin (FR phi))); [lia|exact OS|exact R1|exact R2|exact ES'].
  - eexists _, _. split; [reflexivity|]. now split.
Qed.
Lemma coordinates_refused power cosf sinf arccosf r a b : ordinary r -> FR r < 0 -> cylindrical_to_cartesian_f cosf sinf r a b = Err ValueError /\
  cylindrical_to_spherical_f power arccosf r a b = Err ValueError /\ spherical_to_cartesian_f cosf sinf r a b = Err ValueError /\ spherical_to_cylindrical_f cosf sinf r a b = Err ValueError.
Proof.
  intros O N. unfold cylindrical_to_cartesian_f, cylindrical_to_spherical_f, spherical_to_cartesian_f, spherical_to_cylindrical_f. rewrite (neg_refused r O N). cbn [bind]. tauto.
Qed.
Lemma axis_plane power arctanf arccosf x y z : is_zero_f x = true -> cartesian_to_cylindrical_f power arctanf x y z = Err ZeroDivisionError /\
  cartesian_to_spherical_f power arctanf arccosf x y z = Err ZeroDivisionError.
Proof. intros H. unfold cartesian_to_cylindrical_f, cartesian_to_spherical_f, azimuth_f, py_fdiv. rewrite H. cbn [bind]. now split. Qed.
Lemma not_zero x : FR x <> 0 -> is_zero_f x = false.
Proof. destruct x; cbn; intros H; try reflexivity. exfalso. now apply H. Qed.
Lemma div_small x y B : ordinary x -> ordinary y -> FR y <> 0 -> (0 <= B)%Z -> (B <= 1000)%Z -> Rabs (FR x / FR y) <= bpow radix2 B -> ordinary (fdiv x y) /\ FR (fdiv x y) = rnd (FR x / FR y).
Proof.
  intros [Vx Fx] [Vy Fy] N B0 B1 H. destruct (fdiv_R x y Vx Vy Fx Fy N) as (V & G & _). destruct G as [G1 G2].
  - apply Rle_lt_trans with (bpow radix2 B); [|apply bpow_lt; lia]. rewrite <- rnd_abs. rewrite <- (rnd_bpow B) by lia. now apply rnd_le.
  - split; [now split|exact G1].
Qed.
Lemma azimuth_int arctanf x y a b : integral x a -> integral y b -> a <> 0%Z -> (Z.abs b < 2 ^ 25)%Z ->
  exists w, ordinary w /\ FR w = rnd (IZR b / IZR a) /\ azimuth_f arctanf x y = Ok (if (0 <? a)%Z then arctanf w else fadd (arctanf w) pi_f).
Proof.
  intros [Ox Ex] [Oy Ey] N B. assert (NZ : FR x <> 0) by (rewrite Ex; now apply not_0_IZR). exists (fdiv y x).
  destruct (div_small y x 25 Oy Ox NZ) as [O E]; [lia|lia| |].
  - rewrite Ex, Ey. unfold Rdiv. rewrite Rabs_mult, Rabs_inv by now apply not_0_IZR. rewrite <- !abs_IZR. apply Rle_trans with (IZR (Z.abs b) * 1).
    + apply Rmult_le_compat_l; [apply IZR_le; lia|]. rewrite <- Rinv_1. apply Rinv_le_contravar; [lra|]. apply IZR_le. lia.
    + rewrite Rmult_1_r. change (bpow radix2 25) with (IZR (2 ^ 25)). apply IZR_le. lia.
  - split; [exact O|]. split; [now rewrite E, Ex, Ey|]. unfold azimuth_f, py_fdiv. rewrite (not_zero x NZ). cbn [bind].
    assert (F : fle fzero x = (0 <? a)%Z). { apply eq_true_iff_eq. rewrite fle_R by (apply Ox || reflexivity). rewrite Z.ltb_lt. change (FR fzero) with 0. rewrite Ex. split; [intros H; apply le_IZR in H; lia|intros H; apply IZR_le; lia]. }
    rewrite F. now destruct (0 <? a)%Z.
Qed.
Lemma square25 a : (Z.abs a < 2 ^ 25)%Z -> (0 <= a * a < 2 ^ 50)%Z.
Proof. intros H. split; [apply Z.square_nonneg|]. pose proof (abs_mul_lt a a (2 ^ 25) (2 ^ 25) H H) as Q. rewrite Z.abs_eq in Q by apply Z.square_nonneg. exact Q. Qed.
Lemma root_int x n : integral x n -> (0 <= n)%Z -> ordinary (fsqrt x) /\ FR (fsqrt x) = rnd (sqrt (IZR n)).
Proof. intros [[V F] E] P. destruct (fsqrt_R x V F) as (V' & S & F'); [rewrite E; now apply IZR_le|]. split; [now split|]. now rewrite S, E. Qed.
Lemma cylindrical_int power arctanf x y z a b : power_integers power -> integral x a -> integral y b -> a <> 0%Z -> (Z.abs a < 2 ^ 25)%Z -> (Z.abs b < 2 ^ 25)%Z ->
  exists rho w, cartesian_to_cylindrical_f power arctanf x y z = Ok (rho, (if (0 <? a)%Z then arctanf w else fadd (arctanf w) pi_f), z) /\
    ordinary rho /\ FR rho = rnd (sqrt (IZR (a * a + b * b))) /\ ordinary w /\ FR w = rnd (IZR b / IZR a).
Proof.
  intros PI I1 I2 N Ba Bb. pose proof (square25 a Ba) as Sa. pose proof (square25 b Bb) as Sb. destruct (azimuth_int arctanf x y a b I1 I2 N Bb) as (w & Ow & Ew & E).
  unfold cartesian_to_cylindrical_f. rewrite E. cbn [bind]. eexists _, w. split; [reflexivity|].
  destruct (root_int (fadd (power x 2%Z) (power y 2%Z)) (a * a + b * b)) as [O R].
  - apply int_add; [apply PI; [exact I1|lia]|apply PI; [exact I2|lia]|lia].
  - lia.
  - now repeat split; try apply O; try apply Ow.
Qed.
Lemma spherical_int power arctanf arccosf x y z a b c : power_integers power -> integral x a -> integral y b -> integral z c -> a <> 0%Z ->
  (Z.abs a < 2 ^ 25)%Z -> (Z.abs b < 2 ^ 25)%Z -> (Z.abs c < 2 ^ 25)%Z ->
  exists r t w, cartesian_to_spherical_f power arctanf arccosf x y z = Ok (r, arccosf t, (if (0 <? a)%Z then arctanf w else fadd (arctanf w) pi_f)) /\
    ordinary r /\ FR r = rnd (sqrt (IZR (a * a + b * b + c * c))) /\ ordinary t /\ FR t = rnd (IZR c / FR r) /\ -1 <= FR t <= 1 /\ ordinary w /\ FR w = rnd (IZR b / IZR a).
Proof.
  intros PI I1 I2 I3 N Ba Bb Bc. pose proof (square25 a Ba) as Sa. pose proof (square25 b Bb) as Sb. pose proof (square25 c Bc) as Sc.
  destruct (azimuth_int arctanf x y a b I1 I2 N Bb) as (w & Ow & Ew & E).
  unfold cartesian_to_spherical_f. rewrite E. cbn [bind]. set (r := fsqrt _). exists r, (fdiv z r), w. split; [reflexivity|].
  destruct (root_int (fadd (fadd (power x 2%Z) (power y 2%Z)) (power z 2%Z)) (a * a + b * b + c * c)) as [O R].
  - apply int_add; [apply int_add; [apply PI; [exact I1|lia]|apply PI; [exact I2|lia]|lia]|apply PI; [exact I3|lia]|lia].
  - lia.
  - fold r in O, R. assert (CR : Rabs (IZR c) <= FR r).
    { rewrite R, <- abs_IZR. rewrite <- (rnd_IZR (Z.abs c)) by lia. apply rnd_le. rewrite <- (sqrt_square (IZR (Z.abs c))) by (apply IZR_le; lia). apply sqrt_le_1_alt.
      rewrite <- mult_IZR, Z.abs_square. apply IZR_le. lia. }
    assert (R1 : 1 <= FR r).
    { rewrite R. replace 1 with (rnd (IZR 1)) by (apply rnd_IZR; lia). apply rnd_le. rewrite <- sqrt_1. apply sqrt_le_1_alt. apply IZR_le. nia. }
    assert (Q : -1 <= IZR c / FR r <= 1).
    { apply Rabs_le_inv in CR. unfold Rdiv. split; apply Rmult_le_reg_r with (FR r); try lra; rewrite Rmult_assoc, Rinv_l by lra; lra. }
    destruct (div_small z r 0 (proj1 I3) O) as [OT ET]; [lra|lia|lia| |].
    + rewrite (proj2 I3). change (bpow radix2 0) with 1. now apply Rabs_le.
    + rewrite (proj2 I3) in ET. repeat apply conj; try apply O; try apply OT; try apply Ow; try assumption; rewrite ET.
      * replace (-1) with (rnd (IZR (-1))) by (apply rnd_IZR; lia). apply rnd_le. apply Q.
      * replace 1 with (rnd (IZR 1)) by (apply rnd_IZR; lia). apply rnd_le. apply Q.
Qed.
Lemma polar_int power arccosf rho phi z a c : power_integers power -> integral rho a -> integral z c -> (0 <= a < 2 ^ 25)%Z -> (Z.abs c < 2 ^ 25)%Z -> ~ (a = 0 /\ c = 0)%Z ->
  exists r t, cylindrical_to_spherical_f power arccosf rho phi z = Ok (r, arccosf t, phi) /\
    ordinary r /\ FR r = rnd (sqrt (IZR (a * a + c * c))) /\ ordinary t /\ FR t = rnd (IZR c / FR r) /\ -1 <= FR t <= 1.
Proof.
  intros PI I1 I3 Ba Bc N. pose proof (square25 a ltac:(lia)) as Sa. pose proof (square25 c Bc) as Sc.
  unfold cylindrical_to_spherical_f. rewrite check_length by (split; [apply I1|rewrite (proj2 I1); apply IZR_le; lia]). cbn [bind]. set (r := fsqrt _). exists r, (fdiv z r). split; [reflexivity|].
  destruct (root_int (fadd (power rho 2%Z) (power z 2%Z)) (a * a + c * c)) as [O R].
  - apply int_add; [apply PI; [exact I1|lia]|apply PI; [exact I3|lia]|lia].
  - lia.
  - fold r in O, R. assert (CR : Rabs (IZR c) <= FR r).
    { rewrite R, <- abs_IZR. rewrite <- (rnd_IZR (Z.abs c)) by lia. apply rnd_le. rewrite <- (sqrt_square (IZR (Z.abs c))) by (apply IZR_le; lia). apply sqrt_le_1_alt.
      rewrite <- mult_IZR, Z.abs_square. apply IZR_le. lia. }
    assert (R1 : 1 <= FR r).
    { rewrite R. replace 1 with (rnd (IZR 1)) by (apply rnd_IZR; lia). apply rnd_le. rewrite <- sqrt_1. apply sqrt_le_1_alt. apply IZR_le. nia. }
    assert (Q : -1 <= IZR c / FR r <= 1).
    { apply Rabs_le_inv in CR. unfold Rdiv. split; apply Rmult_le_reg_r with (FR r); try lra; rewrite Rmult_assoc, Rinv_l by lra; lra. }
    destruct (div_small z r 0 (proj1 I3) O) as [OT ET]; [lra|lia|lia| |].
    + rewrite (proj2 I3). change (bpow radix2 0) with 1. now apply Rabs_le.
    + rewrite (proj2 I3) in ET. repeat apply conj; try apply O; try apply OT; try assumption; rewrite ET.
      * replace (-1) with (rnd (IZR (-1))) by (apply rnd_IZR; lia). apply rnd_le. apply Q.
      * replace 1 with (rnd (IZR 1)) by (apply rnd_IZR; lia). apply rnd_le. apply Q.
Qed.
Lemma origin_nan power arccosf rho phi z : squares power -> ordinary rho -> ordinary z -> FR rho = 0 -> FR z = 0 ->
  exists r, cylindrical_to_spherical_f power arccosf rho phi z = Ok (r, arccosf S754_nan, phi) /\ FR r = 0.
Proof.
  intros SQ O1 O2 Z1 Z2. unfold cylindrical_to_spherical_f. rewrite check_length by (split; [exact O1|lra]). cbn [bind]. rewrite !SQ.
  assert (K : forall x, ordinary x -> FR x = 0 -> exists s, x = S754_zero s).
  { intros x [_ F] Z0. destruct x as [s|s| |s m e]; try discriminate F; [now exists s|]. exfalso. unfold FR in Z0. cbn in Z0. apply eq_0_F2R in Z0. destruct s; discriminate Z0. }
  destruct (K rho O1 Z1) as [[] ->], (K z O2 Z2) as [[] ->]; eexists; (split; [reflexivity|]; reflexivity).
Qed.
(** Numbers whose squares are lost. *)
Lemma tiny_square x : ordinary x -> Rabs (FR x) <= bpow radix2 (-540) -> exists s, fmul x x = S754_zero s.
Proof.
  intros [V F] H. destruct (mul64_R x x V V F F) as (_ & G & _). assert (Z0 : rnd (FR x * FR x) = 0).
  { assert (L : 0 <= rnd (FR x * FR x) <= rnd (bpow radix2 (-1080))).
    { split; [rewrite <- rnd_0; apply rnd_le; nra|]. apply rnd_le. rewrite <- (Rabs_pos_eq (FR x * FR x)) by nra. rewrite Rabs_mult. replace (-1080)%Z with (-540 + -540)%Z by reflexivity. rewrite bpow_plus. apply Rmult_le_compat; try apply Rabs_pos; exact H. }
    assert (W : rnd (bpow radix2 (-1080)) = 0) by (unfold rnd; apply round_N_small_pos with (-1079)%Z; [split; [right; reflexivity|apply bpow_lt; lia]|unfold FLT_exp; lia]).
    lra. }
  rewrite Z0, Rabs_R0 in G. destruct (G (bpow_gt_0 _ _)) as [E Fi]. destruct (fmul x x) as [s|s| |s m e]; try discriminate Fi; [now exists s|].
  exfalso. unfold FR in E. cbn in E. apply eq_0_F2R in E. destruct s; discriminate E.
Qed.
Lemma zero_add s t : exists u, fadd (S754_zero s) (S754_zero t) = S754_zero u.
Proof. destruct s, t; eexists; reflexivity. Qed.
Lemma tiny_lost power arctanf arccosf x y z : squares power -> ordinary x -> ordinary y -> ordinary z -> FR x <> 0 -> FR z <> 0 ->
  Rabs (FR x) <= bpow radix2 (-540) -> Rabs (FR y) <= bpow radix2 (-540) -> Rabs (FR z) <= bpow radix2 (-540) ->
  (exists rho phi, cartesian_to_cylindrical_f power arctanf x y z = Ok (rho, phi, z) /\ FR rho = 0) /\
  (exists r s phi, cartesian_to_spherical_f power arctanf arccosf x y z = Ok (r, arccosf (S754_infinity s), phi) /\ FR r = 0).
Proof.
  intros SQ Ox Oy Oz Nx Nz Hx Hy Hz. unfold cartesian_to_cylindrical_f, cartesian_to_spherical_f, azimuth_f, py_fdiv. rewrite (not_zero x Nx). cbn [bind].
  rewrite !SQ. destruct (tiny_square x Ox Hx) as [s1 ->], (tiny_square y Oy Hy) as [s2 ->], (tiny_square z Oz Hz) as [s3 ->].
  destruct (zero_add s1 s2) as [s4 ->]. destruct (zero_add s4 s3) as [s5 ->].
  assert (D : exists s, fdiv z (fsqrt (S754_zero s5)) = S754_infinity s).
  { destruct Oz as [_ Fz]. destruct z as [sz|sz| |sz m e]; try discriminate Fz; [exfalso; now apply Nz|]. eexists. reflexivity. }
  destruct D as [s ->]. split.
  - destruct (fle fzero x); eexists _, _; split; reflexivity.
  - destruct (fle fzero x); eexists _, s, _; split; reflexivity.
Qed.

(** * Angles between planes *)
Lemma norm_int dot n p q r : dot_integers dot -> integral_vec n p q r -> ~ (p = 0 /\ q = 0 /\ r = 0)%Z -> (p * p + q * q + r * r < 2 ^ 53)%Z ->
  ordinary (norm_f dot n) /\ 1 <= FR (norm_f dot n) <= bpow radix2 27 /\ rel 1 (FR (norm_f dot n)) (sqrt (IZR (p * p + q * q + r * r))).
Proof.
  intros DI I N B. pose proof (Z.square_nonneg p). pose proof (Z.square_nonneg q). pose proof (Z.square_nonneg r).
  assert (J : integral (dot n n) (p * p + q * q + r * r)) by (apply DI; [exact I|exact I|rewrite !Z.abs_eq by apply Z.square_nonneg; exact B]).
  destruct (root_int _ _ J ltac:(lia)) as [O R]. unfold norm_f. split; [exact O|]. rewrite R.
  assert (G : (1 <= p * p + q * q + r * r)%Z) by nia. assert (L : 1 <= rnd (sqrt (IZR (p * p + q * q + r * r)))).
  { replace 1 with (rnd (IZR 1)) by (apply rnd_IZR; lia). apply rnd_le. rewrite <- sqrt_1. apply sqrt_le_1_alt. now apply IZR_le. } split; [split; [exact L|]|].
  - rewrite <- (rnd_bpow 27) by lia. apply rnd_le. rewrite <- (sqrt_square (bpow radix2 27)) by apply bpow_ge_0. apply sqrt_le_1_alt. rewrite <- bpow_plus. change (bpow radix2 (27 + 27)) with (IZR (2 ^ 54)). apply IZR_le. lia.
  - destruct (rnd_rel (sqrt (IZR (p * p + q * q + r * r)))) as (e & Le & E); [|exact (rel_scale _ _ e (sqrt_pos _) Le E)].
    rewrite Rabs_pos_eq by lra. apply Rle_trans with 1; [change 1 with (bpow radix2 0); apply bpow_le; lia|exact L].
Qed.
(** A whole number divided by a length keeps its sign. *)
Lemma div_sign v k n : integral v k -> (Z.abs k < 2 ^ 53)%Z -> ordinary n -> 1 <= FR n <= bpow radix2 27 ->
  ordinary (fdiv v n) /\ ((0 < k)%Z -> 0 < FR (fdiv v n)) /\ ((k < 0)%Z -> FR (fdiv v n) < 0) /\ (k = 0%Z -> FR (fdiv v n) = 0).
Proof.
  intros [Ov Ev] B On [L U]. destruct (div_small v n 53 Ov On) as [O E]; [lra|lia|lia| |].
  - rewrite Ev. unfold Rdiv. rewrite Rabs_mult, Rabs_inv, (Rabs_pos_eq (FR n)) by lra. rewrite <- abs_IZR. apply Rle_trans with (IZR (Z.abs k) * 1).
    + apply Rmult_le_compat_l; [apply IZR_le; lia|]. rewrite <- Rinv_1. apply Rinv_le_contravar; lra.
    + rewrite Rmult_1_r. change (bpow radix2 53) with (IZR (2 ^ 53)). apply IZR_le. lia.
  - split; [exact O|]. rewrite E, Ev.
    assert (P : forall j, (1 <= j)%Z -> bpow radix2 (-27) <= IZR j / FR n).
    { intros j J. unfold Rdiv. apply Rle_trans with (1 * / FR n).
      - rewrite Rmult_1_l. replace (bpow radix2 (-27)) with (/ bpow radix2 27) by reflexivity. apply Rinv_le_contravar; lra.
      - apply Rmult_le_compat_r; [apply Rlt_le, Rinv_0_lt_compat; lra|now apply IZR_le]. }
    split; [|split].
    + intros K. pose proof (rnd_le _ _ (P k ltac:(lia))) as Q. rewrite rnd_bpow in Q by lia. pose proof (bpow_gt_0 radix2 (-27)). lra.
    + intros K. pose proof (P (- k)%Z ltac:(lia)) as Q. rewrite opp_IZR in Q. assert (Q' : IZR k / FR n <= - bpow radix2 (-27)) by (unfold Rdiv in *; lra).
      apply rnd_le in Q'. replace (rnd (- bpow radix2 (-27))) with (- bpow radix2 (-27)) in Q'; [pose proof (bpow_gt_0 radix2 (-27)); lra|].
      unfold rnd. rewrite round_NE_opp. f_equal. symmetry. apply rnd_bpow. lia.
    + intros ->. unfold Rdiv. rewrite Rmult_0_l. apply rnd_0.
Qed.
Lemma square_abs k r : (0 <= r)%Z -> (k * k + r < 2 ^ 53)%Z -> (Z.abs k < 2 ^ 53)%Z.
Proof. intros R H. destruct (Z.abs_spec k) as [[P E]|[P E]]; rewrite E; nia. Qed.
Lemma same_signs dot n1 n2 a b c x y z : dot_integers dot -> integral_vec n1 a b c -> integral_vec n2 x y z ->
  ~ (a = 0 /\ b = 0 /\ c = 0)%Z -> ~ (x = 0 /\ y = 0 /\ z = 0)%Z -> (a * a + b * b + c * c < 2 ^ 53)%Z -> (x * x + y * y + z * z < 2 ^ 53)%Z ->
  check_parallel_planes_f dot n1 n2 = true -> Z.sgn a = Z.sgn x /\ Z.sgn b = Z.sgn y /\ Z.sgn c = Z.sgn z.
Proof.
  intros DI I1 I2 N1 N2 B1 B2 CP. destruct (norm_int dot _ _ _ _ DI I1 N1 B1) as (O1 & L1 & _). destruct (norm_int dot _ _ _ _ DI I2 N2 B2) as (O2 & L2 & _).
  pose proof (Z.square_nonneg a). pose proof (Z.square_nonneg b). pose proof (Z.square_nonneg c). pose proof (Z.square_nonneg x). pose proof (Z.square_nonneg y). pose proof (Z.square_nonneg z).
  assert (S : forall v w j k, integral v j -> integral w k -> (Z.abs j < 2 ^ 53)%Z -> (Z.abs k < 2 ^ 53)%Z -> feq (fdiv v (norm_f dot n1)) (fdiv w (norm_f dot n2)) = true -> Z.sgn j = Z.sgn k).
  { intros v w j k J K Bj Bk Q. destruct (div_sign v j _ J Bj O1 L1) as (Ov & P1 & M1 & Z1). destruct (div_sign w k _ K Bk O2 L2) as (Ow & P2 & M2 & Z2).
    apply feq_R in Q; [|apply Ov|apply Ow|apply Ov|apply Ow].
    destruct (Z.lt_trichotomy j 0) as [A|[A|A]], (Z.lt_trichotomy k 0) as [D|[D|D]];
      try (specialize (P1 A)); try (specialize (M1 A)); try (specialize (Z1 A)); try (specialize (P2 D)); try (specialize (M2 D)); try (specialize (Z2 D)); try lra.
    - rewrite !Z.sgn_neg by assumption. reflexivity.
    - now subst.
    - rewrite !Z.sgn_pos by assumption. reflexivity. }
  unfold check_parallel_planes_f, veq_f, vmap in CP. cbn [fx fy fz] in CP. apply andb_prop in CP. destruct CP as [CP C3]. apply andb_prop in CP. destruct CP as [C1 C2].
  destruct I1 as (I11 & I12 & I13), I2 as (I21 & I22 & I23).
  split; [|split]; [apply (S _ _ _ _ I11 I21)|apply (S _ _ _ _ I12 I22)|apply (S _ _ _ _ I13 I23)]; try assumption;
    match goal with |- (Z.abs ?k < _)%Z => solve [apply (square_abs k (b * b + c * c)); lia|apply (square_abs k (a * a + c * c)); lia|apply (square_abs k (a * a + b * b)); lia|apply (square_abs k (y * y + z * z)); lia|apply (square_abs k (x * x + z * z)); lia|apply (square_abs k (x * x + y * y)); lia] end.
Qed.
(** What arccos is applied to. *)
Lemma angle_near dot power arccosf n1 d1 n2 d2 a b c x y z : dot_integers dot -> power_integers power -> integral_vec n1 a b c -> integral_vec n2 x y z ->
  ~ (a = 0 /\ b = 0 /\ c = 0)%Z -> ~ (x = 0 /\ y = 0 /\ z = 0)%Z -> (a * a + b * b + c * c < 2 ^ 53)%Z -> (x * x + y * y + z * z < 2 ^ 53)%Z ->
  (Z.abs (a * x) + Z.abs (b * y) + Z.abs (c * z) < 2 ^ 26)%Z -> check_parallel_planes_f dot n1 n2 = false ->
  exists t, angle_between_planes_f dot power arccosf n1 d1 n2 d2 = Ok (arccosf t) /\ ordinary t /\
    within 6 (FR t) (IZR (Z.abs (a * x + b * y + c * z)) / (sqrt (IZR (a * a + b * b + c * c)) * sqrt (IZR (x * x + y * y + z * z)))).
Proof.
  intros DI PI I1 I2 N1 N2 B1 B2 B3 CP. unfold angle_between_planes_f.
  rewrite plane_exists; [|now apply (int_vec_ok n1 a b c)|destruct I1 as ((_ & E1) & (_ & E2) & (_ & E3)); rewrite E1, E2, E3; intros (A & B & C); apply eq_IZR in A, B, C; tauto]. cbn [bind].
  rewrite plane_exists; [|now apply (int_vec_ok n2 x y z)|destruct I2 as ((_ & E1) & (_ & E2) & (_ & E3)); rewrite E1, E2, E3; intros (A & B & C); apply eq_IZR in A, B, C; tauto]. cbn [bind].
  rewrite CP. eexists. split; [reflexivity|].
  pose proof (DI _ _ _ _ _ _ _ _ I1 I2 ltac:(lia)) as ID. set (h := (a * x + b * y + c * z)%Z) in *. assert (BH : (Z.abs h < 2 ^ 26)%Z) by (unfold h; lia). clearbody h.
  assert (SQ : (h * h < 2 ^ 53)%Z). { pose proof (abs_mul_lt h h (2 ^ 26) (2 ^ 26) BH BH) as Q. rewrite Z.abs_eq in Q by apply Z.square_nonneg. clear -Q. lia. }
  pose proof (PI _ _ ID SQ) as IP. replace (h * h)%Z with (Z.abs h * Z.abs h)%Z in IP by (rewrite <- Z.abs_mul; apply Z.abs_eq, Z.square_nonneg).
  pose proof (int_sqrt _ (Z.abs h) IP ltac:(clear -BH; lia)) as IS.
  destruct (norm_int dot _ _ _ _ DI I1 N1 B1) as (O1 & [L1 U1] & R1). destruct (norm_int dot _ _ _ _ DI I2 N2 B2) as (O2 & [L2 U2] & R2).
  assert (M : 1 <= FR (norm_f dot n1) * FR (norm_f dot n2) <= bpow radix2 54).
  { split; [nra|]. replace 54%Z with (27 + 27)%Z by reflexivity. rewrite bpow_plus. apply Rmult_le_compat; lra. }
  assert (TM : tame (norm_f dot n1) (norm_f dot n2)). { right. rewrite Rabs_pos_eq by lra. split; [apply Rle_trans with 1; [change 1 with (bpow radix2 0); apply bpow_le; lia|apply M]|apply Rle_trans with (bpow radix2 54); [apply M|apply bpow_le; lia]]. }
  destruct (tame_mul _ _ O1 O2 TM) as (O & e & Le & E). pose proof u_small as US. pose proof (proj1 (Rabs_le_inv _ _ Le)) as Le1. pose proof (proj2 (Rabs_le_inv _ _ Le)) as Le2.
  pose proof (rel_mul 1 1 _ _ _ _ R1 R2) as R3. assert (M0 : 0 <= FR (norm_f dot n1) * FR (norm_f dot n2)) by lra. pose proof (rel_scale _ _ e M0 Le E) as R4. pose proof (rel_trans _ _ _ _ _ R4 R3) as R5. cbn [Nat.add] in R5.
  set (D := FR (fmul (norm_f dot n1) (norm_f dot n2))) in *. assert (DB : / 2 <= D <= bpow radix2 55).
  { rewrite E. change 55%Z with (54 + 1)%Z. rewrite bpow_plus. change (bpow radix2 1) with 2. split; [nra|]. apply Rmult_le_compat; lra. }
  assert (NS : 0 < sqrt (IZR (a * a + b * b + c * c)) * sqrt (IZR (x * x + y * y + z * z))).
  { pose proof (Z.square_nonneg a). pose proof (Z.square_nonneg b). pose proof (Z.square_nonneg c). pose proof (Z.square_nonneg x). pose proof (Z.square_nonneg y). pose proof (Z.square_nonneg z).
    apply Rmult_lt_0_compat; apply sqrt_lt_R0, IZR_lt; nia. }
  pose proof (rel_inv 3 _ _ ltac:(lia) NS R5) as R6. pose proof (rel_refl (IZR (Z.abs h)) ltac:(apply IZR_le; clear; lia)) as R7. pose proof (rel_mul _ _ _ _ _ _ R7 R6) as R8. cbn [Nat.add] in R8.
  destruct (div_small (fsqrt (power (dot n1 n2) 2%Z)) (fmul (norm_f dot n1) (norm_f dot n2)) 28 (proj1 IS) O) as [OT ET]; [fold D; lra|lia|lia| |].
  - rewrite (proj2 IS). fold D. unfold Rdiv. rewrite Rabs_mult, (Rabs_pos_eq (IZR _)) by (apply IZR_le; clear; lia). rewrite Rabs_pos_eq by (apply Rlt_le, Rinv_0_lt_compat; lra).
    apply Rle_trans with (bpow radix2 26 * 2); [|change 2 with (bpow radix2 1); rewrite <- bpow_plus; apply bpow_le; lia]. apply Rmult_le_compat.
    + apply IZR_le. clear; lia.
    + apply Rlt_le, Rinv_0_lt_compat; lra.
    + change (bpow radix2 26) with (IZR (2 ^ 26)). apply IZR_le. clear -BH; lia.
    + replace 2 with (/ / 2) by (rewrite Rinv_inv; reflexivity). apply Rinv_le_contravar; lra.
  - split; [exact OT|]. rewrite ET, (proj2 IS). fold D. unfold Rdiv.
    assert (R9 : rel 1 (rnd (IZR (Z.abs h) * / D)) (IZR (Z.abs h) * / D)).
    { destruct (Z.eq_dec h 0) as [->|NH]; [cbn [Z.abs]; rewrite Rmult_0_l, rnd_0; apply (rel_weaken 0); [lia|]; apply rel_refl; lra|].
      assert (PQ : bpow radix2 (-55) <= IZR (Z.abs h) * / D).
      { replace (bpow radix2 (-55)) with (1 * / bpow radix2 55) by (rewrite Rmult_1_l; reflexivity). apply Rmult_le_compat; [lra|apply Rlt_le, Rinv_0_lt_compat; apply bpow_gt_0|apply IZR_le; clear -NH; lia|apply Rinv_le_contravar; lra]. }
      destruct (rnd_rel (IZR (Z.abs h) * / D)) as (e' & Le' & E').
      - apply rnd_le in PQ. rewrite rnd_bpow in PQ by lia. pose proof (bpow_gt_0 radix2 (-55)). rewrite Rabs_pos_eq by lra. eapply Rle_trans; [|exact PQ]. apply bpow_le. lia.
      - apply (rel_scale _ _ e'); [pose proof (bpow_gt_0 radix2 (-55)); lra|exact Le'|exact E']. }
    pose proof (rel_trans _ _ _ _ _ R9 R8) as R10. exact (rel_within 5 _ _ ltac:(lia) R10).
Qed.
Lemma angle_right dot power arccosf n1 d1 n2 d2 a b c x y z : dot_integers dot -> power_integers power -> integral_vec n1 a b c -> integral_vec n2 x y z ->
  ~ (a = 0 /\ b = 0 /\ c = 0)%Z -> ~ (x = 0 /\ y = 0 /\ z = 0)%Z -> (a * a + b * b + c * c < 2 ^ 53)%Z -> (x * x + y * y + z * z < 2 ^ 53)%Z ->
  (Z.abs (a * x) + Z.abs (b * y) + Z.abs (c * z) < 2 ^ 26)%Z -> (a * x + b * y + c * z = 0)%Z ->
  exists t, angle_between_planes_f dot power arccosf n1 d1 n2 d2 = Ok (arccosf t) /\ ordinary t /\ FR t = 0.
Proof.
  intros DI PI I1 I2 N1 N2 B1 B2 B3 Z0. assert (CP : check_parallel_planes_f dot n1 n2 = false).
  { destruct (check_parallel_planes_f dot n1 n2) eqn:E; [exfalso|reflexivity]. destruct (same_signs dot n1 n2 a b c x y z DI I1 I2 N1 N2 B1 B2 E) as (S1 & S2 & S3).
    assert (P : forall j k, Z.sgn j = Z.sgn k -> (0 <= j * k)%Z /\ (j * k = 0 -> j = 0)%Z) by (clear; intros j k S; destruct j, k; cbn in *; split; lia).
    destruct (P a x S1), (P b y S2), (P c z S3). apply N1. clear -Z0 H H0 H1 H2 H3 H4. set (ax := (a * x)%Z) in *. set (by_ := (b * y)%Z) in *. set (cz := (c * z)%Z) in *. clearbody ax by_ cz. lia. }
  destruct (angle_near dot power arccosf n1 d1 n2 d2 a b c x y z DI PI I1 I2 N1 N2 B1 B2 B3 CP) as (t & E & O & W). exists t. split; [exact E|]. split; [exact O|].
  rewrite Z0 in W. unfold within in W. cbn [Z.abs] in W. unfold Rdiv in W. rewrite Rmult_0_l, Rmult_0_r, Rminus_0_r in W. destruct (Req_dec (FR t) 0) as [Q|Q]; [exact Q|]. apply Rabs_pos_lt in Q. lra.
Qed.
Lemma angle_signs dot power arccosf n1 d1 n2 d2 a b c x y z : dot_integers dot -> power_integers power -> integral_vec n1 a b c -> integral_vec n2 x y z ->
  ~ (a = 0 /\ b = 0 /\ c = 0)%Z -> ~ (x = 0 /\ y = 0 /\ z = 0)%Z -> (a * a + b * b + c * c < 2 ^ 53)%Z -> (x * x + y * y + z * z < 2 ^ 53)%Z ->
  (Z.abs (a * x) + Z.abs (b * y) + Z.abs (c * z) < 2 ^ 26)%Z -> ~ (Z.sgn a = Z.sgn x /\ Z.sgn b = Z.sgn y /\ Z.sgn c = Z.sgn z) ->
  exists t, angle_between_planes_f dot power arccosf n1 d1 n2 d2 = Ok (arccosf t) /\ ordinary t /\
    within 6 (FR t) (IZR (Z.abs (a * x + b * y + c * z)) / (sqrt (IZR (a * a + b * b + c * c)) * sqrt (IZR (x * x + y * y + z * z)))).
Proof.
  intros DI PI I1 I2 N1 N2 B1 B2 B3 S. apply angle_near; try assumption. destruct (check_parallel_planes_f dot n1 n2) eqn:E; [|reflexivity].
  exfalso. apply S. exact (same_signs dot n1 n2 a b c x y z DI I1 I2 N1 N2 B1 B2 E).
Qed.
Lemma angle_lost dot power arccosf d1 d2 : dot_integers dot -> power_integers power ->
  exists t, angle_between_planes_f dot power arccosf (fv 1 1 2) d1 (fv 5 5 10) d2 = Ok (arccosf t) /\ ordinary t /\ 1 < FR t.
Proof.
  intros DI PI. assert (I1 : integral_vec (fv 1 1 2) 1 1 2) by (apply fv_int; lia). assert (I2 : integral_vec (fv 5 5 10) 5 5 10) by (apply fv_int; lia).
  pose proof (DI _ _ _ _ _ _ _ _ I1 I1 eq_refl) as D1. pose proof (DI _ _ _ _ _ _ _ _ I2 I2 eq_refl) as D2. pose proof (DI _ _ _ _ _ _ _ _ I1 I2 eq_refl) as D3.
  apply int_unique in D1; [|discriminate|reflexivity]. apply int_unique in D2; [|discriminate|reflexivity]. pose proof (PI _ _ D3 eq_refl) as P. apply int_unique in P; [|discriminate|reflexivity].
  unfold angle_between_planes_f, check_parallel_planes_f, norm_f. rewrite D1, D2, P. cbn [Z.mul Z.add Pos.mul Pos.add].
  replace (check_plane_exists_f (fv 1 1 2)) with (@Ok unit tt) by reflexivity. replace (check_plane_exists_f (fv 5 5 10)) with (@Ok unit tt) by reflexivity. cbn [bind].
  match goal with |- exists t, (if ?b then _ else _) = _ /\ _ => replace b with false by (vm_compute; reflexivity) end.
  eexists. split; [reflexivity|]. match goal with |- ordinary ?q /\ _ => remember q as t eqn:E end. vm_compute in E. rewrite E. split; [split; reflexivity|].
  match goal with |- 1 < FR (S754_finite false ?m ?e) => assert (V : FR (S754_finite false m e) = IZR (Zpos m) * / IZR (2 ^ 52)) by reflexivity end.
  rewrite V. cbn [Z.pow Z.pow_pos Pos.iter Z.mul Pos.mul]. lra.
Qed.

(** * There are such functions *)
Lemma pow2_ordinary k : (-900 <= k <= 900)%Z -> ordinary (pow2_f k).
Proof.
  intros K. split; [|reflexivity]. unfold pow2_f, valid, SpecFloat.valid_binary, SpecFloat.bounded, SpecFloat.canonical_mantissa. apply andb_true_intro. change (Zpos (digits2_pos (2 ^ 52))) with 53%Z. split.
  - apply Z.eqb_eq || (apply Zeq_is_eq_bool; symmetry). unfold SpecFloat.fexp, SpecFloat.emin. change emax with 1024%Z. change prec with 53%Z. lia.
  - apply Z.leb_le. change emax with 1024%Z. change prec with 53%Z. lia.
Qed.
Lemma float_for r : bpow radix2 (-200) <= Rabs r <= 1 -> exists x, two_units x r.
Proof.
  intros [L H]. assert (G : generic_format radix2 (FLT_exp (-1074) 53) (rnd r)) by (apply generic_format_round; [apply FLT_exp_valid; reflexivity|apply valid_rnd_N]).
  assert (RL : bpow radix2 (-200) <= Rabs (rnd r)) by (rewrite <- rnd_abs, <- (rnd_bpow (-200)) by lia; now apply rnd_le).
  assert (RH : Rabs (rnd r) <= 1) by (rewrite <- rnd_abs; replace 1 with (rnd (IZR 1)) by (apply rnd_IZR; lia); now apply rnd_le).
  destruct (relative_error_N_FLT_ex radix2 (-1074) 53 eq_refl (fun x => negb (Z.even x)) r) as (e & Le & E); [apply Rle_trans with (bpow radix2 (-200)); [apply bpow_le; lia|exact L]|].
  change (round radix2 (FLT_exp (-1074) 53) (Znearest (fun x => negb (Z.even x))) r) with (rnd r) in E. 
  assert (U : / 2 * bpow radix2 (-52) = bpow radix2 (-53)). { change (-52)%Z with (-53 + 1)%Z. rewrite bpow_plus. change (bpow radix2 1) with 2. field. }
  assert (Le' : Rabs e <= bpow radix2 (-53)) by (rewrite <- U; exact Le).
  set (k := cexp radix2 (FLT_exp (-1074) 53) (rnd r)). set (m := Ztrunc (scaled_mantissa radix2 (FLT_exp (-1074) 53) (rnd r))).
  assert (EM : rnd r = IZR m * bpow radix2 k) by exact G.
  assert (NZ : rnd r <> 0) by (intros Z0; rewrite Z0, Rabs_R0 in RL; pose proof (bpow_gt_0 radix2 (-200)); lra).
  assert (MG : (-199 <= mag radix2 (rnd r) <= 1)%Z).
  { split; [apply mag_ge_bpow; exact RL|]. apply mag_le_bpow; [exact NZ|]. apply Rle_lt_trans with 1; [exact RH|]. change (bpow radix2 1) with 2. lra. }
  assert (KB : (-252 <= k <= -52)%Z) by (unfold k, cexp, FLT_exp; lia).
  assert (MB : (Z.abs m < 2 ^ 53)%Z).
  { apply lt_IZR. rewrite abs_IZR. change (IZR (2 ^ 53)) with (bpow radix2 53). apply Rmult_lt_reg_r with (bpow radix2 k); [apply bpow_gt_0|].
    rewrite <- (Rabs_pos_eq (bpow radix2 k)) at 1 by apply bpow_ge_0. rewrite <- Rabs_mult, <- EM, <- bpow_plus. eapply Rlt_le_trans; [apply (bpow_mag_gt radix2)|]. apply bpow_le. unfold k, cexp, FLT_exp. lia. }
  destruct (int_of_Z m MB) as [Om Em]. pose proof (pow2_ordinary k ltac:(lia)) as Ok'. pose proof (pow2_R k) as Ek.
  exists (fmul (f_of_Z m) (pow2_f k)). destruct Om as [Vm Fm], Ok' as [Vk Fk]. destruct (mul64_R _ _ Vm Vk Fm Fk) as (V & Q & _). rewrite Em, Ek, <- EM in Q.
  assert (RR : rnd (rnd r) = rnd r) by (apply round_generic; [apply valid_rnd_N|exact G]). rewrite RR in Q.
  destruct Q as [Q1 Q2]; [apply Rle_lt_trans with 1; [exact RH|]; change 1 with (bpow radix2 0); apply bpow_lt; lia|].
  split; [now split|]. rewrite Q1. split.
  - rewrite E. replace (r * (1 + e) - r) with (e * r) by ring. rewrite Rabs_mult. apply Rmult_le_compat_r; [apply Rabs_pos|]. pose proof (bpow_gt_0 radix2 (-53)). lra.
  - right. apply Rle_trans with (bpow radix2 (-200)); [apply bpow_le; lia|exact RL].
Qed.
Lemma trig_exists t : bpow radix2 (-200) <= Rabs (cos (FR t)) -> bpow radix2 (-200) <= Rabs (sin (FR t)) -> exists cosf sinf, trig_accurate cosf sinf t.
Proof.
  intros C S. destruct (float_for (cos (FR t))) as [c Hc]; [split; [exact C|apply Rabs_le, COS_bound]|]. destruct (float_for (sin (FR t))) as [s Hs]; [split; [exact S|apply Rabs_le, SIN_bound]|].
  exists (fun _ => c), (fun _ => s). now split.
Qed.
Lemma trig_zero : trig_accurate (fun _ => f_of_Z 1) (fun _ => fzero) fzero.
Proof. split; change (FR fzero) with 0; [rewrite cos_0; apply entry_one|rewrite sin_0; apply entry_zero]. Qed.
Lemma sin_small d : 0 < d <= 1 -> d / 2 <= sin d.
Proof.
  intros D. destruct (pre_sin_bound d 0 ltac:(lra) ltac:(lra)) as [H _]. cbn [Nat.mul Nat.add] in H. unfold sin_approx in H. cbn [sum_f_R0] in H. unfold sin_term in H. cbn [pow Nat.mul Nat.add fact INR] in H.
  eapply Rle_trans; [|exact H]. simpl. assert (d * d <= 1) by nra. assert (d * (d * d) <= d) by nra. field_simplify. lra.
Qed.
Lemma half_pi_trig : exists cosf sinf, trig_accurate cosf sinf half_pi_f.
Proof.
  assert (V : FR half_pi_f = 7074237752028440 / 4503599627370496) by (remember half_pi_f as h eqn:E; vm_compute in E; rewrite E; reflexivity).
  pose proof PI_near as P. cbn [pow] in P.
  assert (D : / 10 ^ 17 <= PI / 2 - FR half_pi_f <= / 2) by (rewrite V; cbn [pow]; lra).
  apply trig_exists.
  - rewrite <- sin_shift. pose proof (sin_small (PI / 2 - FR half_pi_f)) as S. cbn [pow] in D. rewrite Rabs_pos_eq by lra. apply Rle_trans with (bpow radix2 (-100)); [apply bpow_le; lia|].
    apply Rle_trans with (/ 10 ^ 17 / 2); [|cbn [pow]; lra]. change (bpow radix2 (-100)) with (/ IZR (2 ^ 100)). cbn [Z.pow Z.pow_pos Pos.iter Z.mul Pos.mul pow]. lra.
  - rewrite <- cos_shift. assert (S : / 2 <= cos (PI / 2 - FR half_pi_f)).
    { cbn [pow] in D. replace (/ 2) with (1 / 2) by lra. rewrite <- cos_PI3. apply cos_decr_1; lra. }
    rewrite Rabs_pos_eq by lra. apply Rle_trans with (/ 2); [|exact S]. change (/ 2) with (bpow radix2 (-1)). apply bpow_le. lia.
Qed.
Lemma rotate_lengths dot cosf sinf ps o theta : length (rotate_x_f dot cosf sinf ps o theta) = length ps /\
  length (rotate_y_f dot cosf sinf ps o theta) = length ps /\ length (rotate_z_f dot cosf sinf ps o theta) = length ps.
Proof. unfold rotate_x_f, rotate_y_f, rotate_z_f. rewrite !map_length. tauto. Qed.
Lemma axis_plane_R power arctanf arccosf x y z : ordinary x -> FR x = 0 -> cartesian_to_cylindrical_f power arctanf x y z = Err ZeroDivisionError /\
  cartesian_to_spherical_f power arctanf arccosf x y z = Err ZeroDivisionError.
Proof.
  intros [_ F] Z0. apply axis_plane. destruct x as [s|s| |s m e]; try discriminate F; [reflexivity|]. exfalso. unfold FR in Z0. cbn in Z0. apply eq_0_F2R in Z0. destruct s; discriminate Z0.
Qed.
Lemma two_moderate : moderate (f_of_Z 2).
Proof.
  destruct (int_of_Z 2 ltac:(lia)) as [O E]. split; [exact O|]. rewrite E. change 2 with (bpow radix2 1). split; apply bpow_le; lia.
Qed.
Lemma angle_same dot power arccosf n d1 d2 : dot_accurate dot -> ordinary_vec n -> tame_vec n n -> ~ no_normal n -> angle_between_planes_f dot power arccosf n d1 n d2 = Err ValueError.
Proof. intros DA O T N. unfold angle_between_planes_f. rewrite (plane_exists n O N). cbn [bind]. now rewrite (parallel_self dot n DA O T N). Qed.
Lemma no_plane_refused n : ordinary_vec n -> no_normal n -> check_plane_exists_f n = Err ValueError.
Proof.
  intros ((V1 & F1) & (V2 & F2) & (V3 & F3)) (Z1 & Z2 & Z3). unfold check_plane_exists_f, veq_f. cbn [fx fy fz].
  assert (Q : forall x, valid x = true -> is_finite_f x = true -> FR x = 0 -> feq x fzero = true) by (intros x V F Z0; apply feq_R; try assumption; reflexivity).
  now rewrite !Q.
Qed.
Lemma angle_no_plane dot power arccosf n1 d1 n2 d2 : ordinary_vec n1 -> ordinary_vec n2 -> no_normal n1 \/ no_normal n2 -> angle_between_planes_f dot power arccosf n1 d1 n2 d2 = Err ValueError.
Proof.
  intros O1 O2 N. unfold angle_between_planes_f. destruct N as [N|N]; [now rewrite (no_plane_refused n1 O1 N)|]. rewrite (no_plane_refused n2 O2 N).
  unfold check_plane_exists_f. destruct (veq_f n1 _); reflexivity.
Qed.
