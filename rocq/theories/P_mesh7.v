(** Lemmas about the size of the errors of sums, mid points of narrow bins and small values. *)
From Coq Require Import Reals Lra Lia Floats.SpecFloat.
From Flocq Require Import Core Relative BinarySingleNaN.
From Verif Require Import PyBase PyFacts PyFloat FloatR FloatZ Float32 SpecMcout PyFrame M_mesh SpecMesh SpecMesh2 P_mesh2 P_mesh3 P_mesh4 P_mesh5 P_mesh6 P_fluxes.
Local Open Scope R_scope.
Local Instance Hp64 : Prec_gt_0 prec := eq_refl _.
Local Instance He64 : Prec_lt_emax prec emax := eq_refl _.

(** * Roundings of one operation *)
Lemma rnd_in_rel s r : bpow radix2 (-120) <= r -> r * (1 - bpow radix2 (-24)) <= rnd_in s r <= r * (1 + bpow radix2 (-24)).
Proof.
  intros H. assert (P : 0 < r) by (apply Rlt_le_trans with (2 := H); apply bpow_gt_0).
  assert (A : Rabs (rnd_in s r - r) <= bpow radix2 (-24) * Rabs r).
  { destruct s; cbn [rnd_in].
    - pose proof (relative_error_N_FLT radix2 (-149) 24 eq_refl (fun x => negb (Z.even x)) r) as K.
      replace (/ 2 * bpow radix2 (- (24) + 1)) with (bpow radix2 (-24)) in K
        by (change (/ 2) with (bpow radix2 (-1)); rewrite <- bpow_plus; reflexivity).
      apply K. rewrite Rabs_pos_eq by lra. apply Rle_trans with (2 := H). apply bpow_le. lia.
    - pose proof (relative_error_N_FLT radix2 (-1074) 53 eq_refl (fun x => negb (Z.even x)) r) as K.
      apply Rle_trans with (/ 2 * bpow radix2 (- (53) + 1) * Rabs r).
      + apply K. rewrite Rabs_pos_eq by lra. apply Rle_trans with (2 := H). apply bpow_le. lia.
      + apply Rmult_le_compat_r; [apply Rabs_pos|]. change (/ 2) with (bpow radix2 (-1)). rewrite <- bpow_plus. apply bpow_le. lia. }
  rewrite (Rabs_pos_eq r) in A by lra. apply Rabs_le_inv in A. lra.
Qed.
Lemma rnd_in_0 s : rnd_in s 0 = 0.
Proof. destruct s; cbn [rnd_in]; apply round_0, valid_rnd_N. Qed.
Lemma u24 : 0 < bpow radix2 (-24) < / 10 ^ 7.
Proof.
  split; [apply bpow_gt_0|]. change (-24)%Z with (- (24))%Z. rewrite bpow_opp, <- IZR_Zpower by lia. rewrite pow10.
  apply Rinv_lt_contravar; [apply Rmult_lt_0_compat; zlt|zlt].
Qed.
(** Zero, or far from the limits of both formats. *)
Definition mid_range (r : R) : Prop := r = 0 \/ bpow radix2 (-120) <= r <= bpow radix2 120.
Lemma rounded_in_mid s r z : mid_range r -> rounded_in s r z ->
  is_finite_f z = true /\ FR z = rnd_in s r /\ r * (1 - bpow radix2 (-24)) <= FR z <= r * (1 + bpow radix2 (-24)).
Proof.
  intros M H. assert (B : r * (1 - bpow radix2 (-24)) <= rnd_in s r <= r * (1 + bpow radix2 (-24)) /\ Rabs (rnd_in s r) <= bpow radix2 121).
  { destruct M as [->|[L U]].
    - rewrite rnd_in_0, Rabs_R0. pose proof (bpow_gt_0 radix2 121). lra.
    - pose proof (rnd_in_rel s r L) as K. split; [exact K|]. pose proof u24 as Hu. pose proof (bpow_gt_0 radix2 (-120)).
      assert (P7 : / 10 ^ 7 < 1 / 2) by lra.
      rewrite Rabs_pos_eq; [|destruct K as [K _]; apply Rle_trans with (2 := K); apply Rmult_le_pos; lra].
      apply Rle_trans with (2 * bpow radix2 120); [|change 2 with (bpow radix2 1); rewrite <- bpow_plus; apply bpow_le; lia].
      destruct K as [_ K]. apply Rle_trans with (1 := K). nra. }
  destruct B as [B L].
  assert (F : is_finite_f z = true).
  { destruct s; cbn [rounded_in rnd_in] in *.
    - destruct H as (_ & H & _). apply H. apply Rle_lt_trans with (1 := L). apply bpow_lt. reflexivity.
    - destruct H as (_ & H & _). apply H. apply Rle_lt_trans with (1 := L). apply bpow_lt. reflexivity. }
  split; [exact F|]. rewrite (rounded_in_fin s r z H F). now split.
Qed.

(** * Errors of sums *)
Lemma sq_range a : mid_range a -> a <= bpow radix2 50 -> (a = 0 \/ bpow radix2 (-50) <= a) -> a * a = 0 \/ bpow radix2 (-100) <= a * a <= bpow radix2 100.
Proof.
  intros M U [->|L]; [left; ring|right]. pose proof (bpow_gt_0 radix2 (-50)) as P.
  change (-100)%Z with (-50 + -50)%Z. change 100%Z with (50 + 50)%Z. rewrite !bpow_plus. split; apply Rmult_le_compat; lra.
Qed.
Lemma err_lower s1 s2 a b q1 q2 t c :
  0 <= a <= bpow radix2 50 -> 0 <= b <= bpow radix2 50 -> a = 0 \/ bpow radix2 (-50) <= a -> b = 0 \/ bpow radix2 (-50) <= b -> 0 < a + b ->
  rounded_in s1 (a * a) q1 -> rounded_in s2 (b * b) q2 ->
  (is_finite_f q1 = true -> is_finite_f q2 = true -> rounded_in (s1 && s2) (FR q1 + FR q2) t /\
     (is_finite_f t = true -> FR c = rnd_in (s1 && s2) (sqrt (FR t)) /\ is_finite_f c = true)) ->
  is_finite_f c = true /\ (1 - bpow radix2 (-24)) * (1 - bpow radix2 (-24)) * sqrt (a * a + b * b) <= FR c.
Proof.
  intros Ha Hb La Lb N Q1 Q2 T. pose proof u24 as Hu. set (u := bpow radix2 (-24)) in *. assert (P7 : / 10 ^ 7 < 1 / 100) by lra.
  assert (A : a * a = 0 \/ bpow radix2 (-100) <= a * a <= bpow radix2 100).
  { apply sq_range; [|lra|exact La]. destruct La as [->|La]; [now left|right]. split; [apply Rle_trans with (2 := La); apply bpow_le; lia|apply Rle_trans with (1 := proj2 Ha); apply bpow_le; lia]. }
  assert (B : b * b = 0 \/ bpow radix2 (-100) <= b * b <= bpow radix2 100).
  { apply sq_range; [|lra|exact Lb]. destruct Lb as [->|Lb]; [now left|right]. split; [apply Rle_trans with (2 := Lb); apply bpow_le; lia|apply Rle_trans with (1 := proj2 Hb); apply bpow_le; lia]. }
  assert (W1 : bpow radix2 (-120) <= bpow radix2 (-100)) by (apply bpow_le; lia). assert (W2 : bpow radix2 100 <= bpow radix2 120) by (apply bpow_le; lia).
  destruct (rounded_in_mid s1 (a * a) q1) as (F1 & _ & L1 & U1); [destruct A as [A|A]; [now left|right; lra]|exact Q1|].
  destruct (rounded_in_mid s2 (b * b) q2) as (F2 & _ & L2 & U2); [destruct B as [B|B]; [now left|right; lra]|exact Q2|].
  destruct (T F1 F2) as (Rt & Rc). fold u in L1, L2, U1, U2.
  assert (Pa : 0 <= a * a) by (apply Rmult_le_pos; lra). assert (Pb : 0 <= b * b) by (apply Rmult_le_pos; lra).
  assert (S : bpow radix2 (-100) <= a * a + b * b).
  { destruct La as [->|La]; destruct Lb as [->|Lb]; [lra| | |]; destruct A as [A|A]; destruct B as [B|B]; try lra; exfalso; pose proof (bpow_gt_0 radix2 (-50)); nra. }
  assert (S' : a * a + b * b <= 2 * bpow radix2 100).
  { pose proof (bpow_gt_0 radix2 100). destruct A as [A|A]; destruct B as [B|B]; lra. }
  set (w := a * a + b * b) in *. assert (Lq : w * (1 - u) <= FR q1 + FR q2) by (unfold w; lra). assert (Uq : FR q1 + FR q2 <= w * (1 + u)) by (unfold w; lra).
  assert (P100 : 0 < bpow radix2 (-100)) by apply bpow_gt_0.
  assert (X1 : 4 * bpow radix2 (-120) <= bpow radix2 (-100)).
  { change 4 with (bpow radix2 2). rewrite <- bpow_plus. apply bpow_le. lia. }
  assert (X2 : 4 * bpow radix2 100 <= bpow radix2 102).
  { change 4 with (bpow radix2 2). rewrite <- bpow_plus. apply bpow_le. lia. }
  assert (X3 : 4 * bpow radix2 (-102) <= bpow radix2 (-100)).
  { change 4 with (bpow radix2 2). rewrite <- bpow_plus. apply bpow_le. lia. }
  assert (X4 : bpow radix2 102 <= bpow radix2 120) by (apply bpow_le; lia).
  assert (Mq : bpow radix2 (-102) * 2 <= FR q1 + FR q2 <= bpow radix2 102) by (split; nra).
  assert (X5 : bpow radix2 (-120) <= bpow radix2 (-102)) by (apply bpow_le; lia). pose proof (bpow_gt_0 radix2 (-102)) as P102.
  destruct (rounded_in_mid (s1 && s2) (FR q1 + FR q2) t) as (Ft & _ & Lt & Ut); [right; lra|exact Rt|]. fold u in Lt, Ut.
  destruct (Rc Ft) as (Ec & Fc). split; [exact Fc|].
  assert (Tw : (1 - u) * (1 - u) * w <= FR t) by nra.
  assert (Sq : (1 - u) * sqrt w <= sqrt (FR t)).
  { apply Rle_trans with (sqrt ((1 - u) * (1 - u) * w)); [|now apply sqrt_le_1_alt].
    rewrite sqrt_mult by nra. rewrite sqrt_square by lra. lra. }
  assert (St : bpow radix2 (-51) <= sqrt (FR t)).
  { rewrite <- (sqrt_square (bpow radix2 (-51))) by apply bpow_ge_0. rewrite <- bpow_plus. apply sqrt_le_1_alt. change (-51 + -51)%Z with (-102)%Z. nra. }
  assert (X6 : bpow radix2 (-120) <= bpow radix2 (-51)) by (apply bpow_le; lia).
  rewrite Ec. destruct (rnd_in_rel (s1 && s2) (sqrt (FR t))) as [K _]; [lra|]. fold u in K.
  pose proof (sqrt_pos (FR t)). nra.
Qed.
Lemma spread_lower x y a b : 0 < x -> 0 < y -> (x + y) / 10 ^ 6 <= x -> (x + y) / 10 ^ 6 <= y -> 0 <= a -> 0 <= b -> 0 < a + b ->
  sqrt ((x * a) * (x * a) + (y * b) * (y * b)) / (x + y) < (1 - bpow radix2 (-24)) * (1 - bpow radix2 (-24)) * sqrt (a * a + b * b).
Proof.
  intros Px Py Hx Hy Pa Pb N. pose proof u24 as Hu. set (u := bpow radix2 (-24)) in *.
  set (k := 1 - / 10 ^ 6). assert (Kx : x <= k * (x + y)) by (unfold k; lra). assert (Ky : y <= k * (x + y)) by (unfold k; lra).
  assert (Kp : 0 < k) by (unfold k; lra). assert (Pw : 0 < a * a + b * b).
  { destruct (Rlt_le_dec 0 a) as [A|A]; [|assert (0 < b) by lra]; nra. }
  assert (Sw : 0 < sqrt (a * a + b * b)) by now apply sqrt_lt_R0.
  apply Rle_lt_trans with (k * sqrt (a * a + b * b)).
  - apply Rmult_le_reg_r with (x + y); [lra|]. unfold Rdiv. rewrite Rmult_assoc, Rinv_l, Rmult_1_r by lra.
    replace (k * sqrt (a * a + b * b) * (x + y)) with (k * (x + y) * sqrt (a * a + b * b)) by ring.
    assert (Pk : 0 <= k * (x + y)) by (apply Rmult_le_pos; lra).
    rewrite <- (sqrt_square (k * (x + y))) by exact Pk. rewrite <- sqrt_mult by (try apply Rmult_le_pos; lra || (apply Rmult_le_pos; exact Pk)).
    apply sqrt_le_1_alt.
    assert (x * x <= k * (x + y) * (k * (x + y))) by (apply Rmult_le_compat; lra).
    assert (y * y <= k * (x + y) * (k * (x + y))) by (apply Rmult_le_compat; lra).
    assert (0 <= a * a) by (apply Rmult_le_pos; lra). assert (0 <= b * b) by (apply Rmult_le_pos; lra).
    replace (x * a * (x * a)) with (x * x * (a * a)) by ring. replace (y * b * (y * b)) with (y * y * (b * b)) by ring. nra.
  - apply Rmult_lt_compat_r; [exact Sw|]. unfold k. assert (/ 10 ^ 7 = / 10 ^ 6 / 10) by lra. assert (0 < / 10 ^ 6 < 1) by lra. nra.
Qed.
Lemma add_error_too_large m1 m2 d1 d2 k v1 v2 r1 r2 g x y z xs ys zs : same_space m1 m2 -> k <> Plain ->
  ctype m1 = Some (ctype_name k) -> ctype m2 = Some (ctype_name k) -> bins k m1 = bins k m2 ->
  numbers (x_bounds m1) xs -> numbers (y_bounds m1) ys -> numbers (z_bounds m1) zs ->
  data m1 = Df d1 -> data m2 = Df d2 -> f_index d1 = f_index d2 ->
  has d1 "value" v1 -> has d2 "value" v2 -> has d1 "rel_err" r1 -> has d2 "rel_err" r2 ->
  has d1 (bin_name k) g -> has d1 "x" x -> has d1 "y" y -> has d1 "z" z ->
  exists m d r, add_mesh m1 m2 = Ok m /\ data m = Df d /\ has d "rel_err" r /\
    forall i p q a b, entry v1 i p -> entry v2 i q -> entry r1 i a -> entry r2 i b -> number_in r1 a -> number_in r2 b ->
      0 < FR p -> 0 < FR q -> (FR p + FR q) / 10 ^ 6 <= FR p -> (FR p + FR q) / 10 ^ 6 <= FR q ->
      FR a = 0 \/ bpow radix2 (-50) <= FR a <= bpow radix2 50 -> FR b = 0 \/ bpow radix2 (-50) <= FR b <= bpow radix2 50 -> 0 < FR a + FR b ->
      exists c, entry r i c /\ is_finite_f c = true /\
        sqrt (FR p * FR a * (FR p * FR a) + FR q * FR b * (FR q * FR b)) / (FR p + FR q) < FR c.
Proof.
  intros S K C1 C2 B X Y Z D1 D2 I V1 V2 R1 R2 G HX HY HZ.
  destruct (add_mesh_sums m1 m2 d1 d2 k v1 v2 r1 r2 g x y z xs ys zs S K C1 C2 B X Y Z D1 D2 I V1 V2 R1 R2 G HX HY HZ)
    as (m & d & v & r & E & _ & _ & _ & _ & _ & _ & Ed & _ & _ & _ & _ & _ & _ & Hr & _ & H).
  exists m, d, r. do 3 (split; [assumption|]). intros i p q a b _ _ Ea Eb Na Nb Pp Pq Lp Lq La Lb N.
  destruct (H i a b Ea Eb Na Nb) as (c & q1 & q2 & t & Ec & Q1 & Q2 & T). exists c. split; [exact Ec|].
  pose proof (bpow_gt_0 radix2 (-50)). pose proof (bpow_gt_0 radix2 50).
  destruct (err_lower (c_single r1) (c_single r2) (FR a) (FR b) q1 q2 t c) as [F L]; try assumption; [lra|lra|lra|lra|].
  split; [exact F|]. apply Rlt_le_trans with (2 := L). apply spread_lower; lra.
Qed.

(** * Narrow bins *)
Lemma rint_small x : valid x = true -> is_finite_f x = true -> Rabs (FR x) < / 2 -> FR (rint x) = 0 /\ is_finite_f (rint x) = true.
Proof.
  intros V F H. destruct x as [s| | |s m e]; try discriminate; [split; reflexivity|].
  rewrite FR_finite, Rabs_mult, (Rabs_pos_eq (bpow radix2 e)), Rabs_mult in H by apply bpow_ge_0.
  replace (Rabs (if s then -1 else 1)) with 1 in H by (destruct s; [rewrite Rabs_left by lra; lra|now rewrite Rabs_R1]).
  rewrite (Rabs_pos_eq (IZR (Z.pos m))), Rmult_1_l in H by (apply IZR_le; lia).
  unfold rint. destruct (Z.leb_spec 0 e) as [He|He].
  - exfalso. assert (1 <= bpow radix2 e) by (change 1 with (bpow radix2 0); now apply bpow_le).
    assert (1 <= IZR (Z.pos m)) by (apply IZR_le; lia). nra.
  - cbv zeta. assert (B : bpow radix2 e = / IZR (2 ^ (- e))).
    { change (2 ^ (- e))%Z with (radix2 ^ (- e))%Z. rewrite IZR_Zpower by lia. rewrite <- bpow_opp. f_equal. lia. }
    rewrite B in H. assert (Pd : (0 < 2 ^ (- e))%Z) by (apply Z.pow_pos_nonneg; lia). assert (Pd' : 0 < IZR (2 ^ (- e))) by (apply IZR_lt; exact Pd).
    assert (L : (2 * Z.pos m < 2 ^ (- e))%Z).
    { apply lt_IZR. rewrite mult_IZR. apply Rmult_lt_reg_r with (/ IZR (2 ^ (- e))); [now apply Rinv_0_lt_compat|]. rewrite Rinv_r by lra. lra. }
    rewrite Z.div_small, Z.mod_small by lia. destruct (Z.ltb_spec (2 * Z.pos m) (2 ^ (- e))); [split; reflexivity|lia].
Qed.
Lemma narrow_mid a b : valid a = true -> valid b = true -> is_finite_f a = true -> is_finite_f b = true ->
  Rabs (FR a) <= 4999 / 10 ^ 9 -> Rabs (FR b) <= 4999 / 10 ^ 9 ->
  FR (np_round 5 (fmul (fadd b a) (fdec 5 (-1)))) = 0 /\ is_finite_f (np_round 5 (fmul (fadd b a) (fdec 5 (-1)))) = true.
Proof.
  intros Va Vb Fa Fb Ba Bb. destruct half_R as (Vh & Fh & Eh). destruct tenk_R as (Vk & Fk & Ek).
  pose proof (fadd_R b a Vb Va Fb Fa) as (V1 & H1 & _).
  assert (B1 : Rabs (FR b + FR a) <= 9998 / 10 ^ 9) by (apply Rle_trans with (1 := Rabs_triang _ _); lra).
  destruct (rnd_bound _ _ B1) as (M1 & D1); [lra|]. destruct (H1 M1) as (E1 & F1). set (s := fadd b a) in *.
  pose proof (fmul_R s _ V1 Vh F1 Fh) as (V2 & H2 & _). rewrite Eh in H2.
  apply Rabs_le_inv in D1. apply Rabs_le_inv in B1. rewrite <- E1 in D1.
  assert (B2 : Rabs (FR s * / 2) <= 49991 / 10 ^ 10) by (apply Rabs_le; lra).
  destruct (rnd_bound _ _ B2) as (M2 & D2); [lra|]. destruct (H2 M2) as (E2 & F2). set (h := fmul s (fdec 5 (-1))) in *.
  apply Rabs_le_inv in D2. apply Rabs_le_inv in B2. rewrite <- E2 in D2.
  pose proof (fmul_R h _ V2 Vk F2 Fk) as (V3 & H3 & _). rewrite Ek in H3.
  assert (B3 : Rabs (FR h * 10 ^ 5) <= 49992 / 10 ^ 5) by (apply Rabs_le; lra).
  destruct (rnd_bound _ _ B3) as (M3 & D3); [lra|]. destruct (H3 M3) as (E3 & F3). set (t := fmul h (fdec 1 5)) in *.
  apply Rabs_le_inv in D3. apply Rabs_le_inv in B3. rewrite <- E3 in D3.
  destruct (rint_R t V3 F3) as (V4 & F4 & _). destruct (rint_small t V3 F3) as (E4 & _); [apply Rabs_def1; lra|].
  unfold np_round. fold h. fold t. set (r := rint t) in *.
  pose proof (fdiv_R r _ V4 Vk F4 Fk) as K. rewrite Ek, E4 in K. destruct K as (V5 & H5 & _); [lra|].
  replace (0 / 10 ^ 5) with 0 in H5 by (field; lra). rewrite rnd_0, Rabs_R0 in H5. apply H5. apply bpow_gt_0.
Qed.
Lemma narrow_bins bs xs : numbers bs xs -> exists ms, calc_mid_points bs = Ok ms /\ length ms = (length bs - 1)%nat /\
  forall i a b m, nth_error xs i = Some a -> nth_error xs (S i) = Some b -> nth_error ms i = Some m ->
    is_finite_f a = true -> is_finite_f b = true -> 0 < FR a -> FR a < FR b -> FR b <= 4999 / 10 ^ 9 -> is_finite_f m = true /\ FR m < FR a.
Proof.
  intros N. exists (mid_points xs). split; [apply numbers_mids; exact N|]. split.
  { rewrite mid_points_length. f_equal. clear -N. induction N; cbn; congruence. }
  assert (V : forall i a, nth_error xs i = Some a -> valid a = true).
  { clear -N. induction N as [|w x ws xs H N IH]; intros [|i] a E; try discriminate; [injection E as <-; exact (py_float_valid _ _ H)|exact (IH i a E)]. }
  intros i a b m Ha Hb Hm Fa Fb Pa L B. rewrite (mid_points_nth xs i a b m Ha Hb Hm).
  destruct (narrow_mid a b (V _ _ Ha) (V _ _ Hb) Fa Fb) as [E F]; [rewrite Rabs_pos_eq; lra|rewrite Rabs_pos_eq; lra|]. split; [exact F|]. rewrite E. exact Pa.
Qed.

(** * Small values *)
Lemma rnd32_small r : Rabs r < bpow radix2 (-150) -> rnd32 r = 0.
Proof.
  intros H. destruct (Req_dec r 0) as [->|N]; [apply round_0, valid_rnd_N|].
  apply (round_N_small radix2 (FLT_exp (-149) 24) (fun x => negb (Z.even x)) r (mag radix2 r)).
  - destruct (mag radix2 r) as [e He]. cbn. now apply He.
  - assert (mag radix2 r <= -150)%Z by (apply mag_le_bpow; assumption). unfold FLT_exp. lia.
Qed.
Lemma rnd32_error r : Rabs (rnd32 r - r) <= bpow radix2 (-24) * Rabs r + bpow radix2 (-150).
Proof.
  destruct (error_N_FLT radix2 (-149) 24 eq_refl (fun x => negb (Z.even x)) r) as (eps & eta & H1 & H2 & _ & E).
  change (rnd32 r = r * (1 + eps) + eta) in E. rewrite E. replace (r * (1 + eps) + eta - r) with (r * eps + eta) by ring.
  apply Rle_trans with (1 := Rabs_triang _ _). rewrite Rabs_mult.
  assert (A : / 2 * bpow radix2 (- (24) + 1) = bpow radix2 (-24)).
  { change (/ 2) with (bpow radix2 (-1)). rewrite <- bpow_plus. reflexivity. }
  assert (B : / 2 * bpow radix2 (-149) = bpow radix2 (-150)).
  { change (/ 2) with (bpow radix2 (-1)). rewrite <- bpow_plus. reflexivity. }
  rewrite A in H1. rewrite B in H2. pose proof (Rabs_pos r). nra.
Qed.
Lemma tiny150 : 0 < bpow radix2 (-150) <= 1 / 10 ^ 30.
Proof.
  split; [apply bpow_gt_0|]. apply Rle_trans with (bpow radix2 (-100)); [apply bpow_le; lia|].
  rewrite pow10. unfold Rdiv. rewrite Rmult_1_l. change (-100)%Z with (- (100))%Z. rewrite bpow_opp.
  apply Rinv_le_contravar; [zlt|]. rewrite <- IZR_Zpower by lia. zle.
Qed.
Lemma fits_1000 v : valid v = true -> Rabs (FR v) <= 1000 -> fits32 v.
Proof.
  intros V B. destruct (is_finite_f v) eqn:F; [|left; exact F]. right. right.
  destruct (f32_R v F) as (V1 & H1 & _). pose proof (rnd32_error (FR v)) as E. pose proof u24 as U. pose proof tiny150 as T. pose proof (Rabs_pos (FR v)) as P.
  assert (K : bpow radix2 (-24) * Rabs (FR v) <= / 10 ^ 7 * 1000) by (apply Rmult_le_compat; lra).
  assert (E' : Rabs (rnd32 (FR v) - FR v) <= 2 / 10 ^ 4) by lra.
  assert (M : Rabs (rnd32 (FR v)) < max32).
  { apply Rle_lt_trans with (IZR 2000); [|unfold max32; rewrite <- IZR_Zpower by lia; zlt].
    replace (rnd32 (FR v)) with ((rnd32 (FR v) - FR v) + FR v) by ring. apply Rle_trans with (1 := Rabs_triang _ _). lra. }
  destruct (H1 M) as (E1 & F1). pose proof (fsub_R (f32 v) v V1 V F1 F) as (V2 & H2 & _). rewrite E1 in H2.
  destruct (rnd_bound _ _ E') as (M2 & D2); [lra|]. destruct (H2 M2) as (E2 & F2).
  assert (F5 : is_finite_f (fdec 5 (-4)) = true) by reflexivity. assert (V5 : valid (fdec 5 (-4)) = true) by reflexivity.
  assert (L5 : 4 / 10 ^ 4 <= FR (fdec 5 (-4))).
  { change (fdec 5 (-4)) with (S754_finite false 4611686018427388 (-63)). rewrite FR_finite, Rmult_1_l. change (-63)%Z with (- (63))%Z. rewrite bpow_opp, <- IZR_Zpower by lia.
    apply Rmult_le_reg_r with (IZR (radix2 ^ 63)); [zlt|]. rewrite Rmult_assoc, Rinv_l by (apply Rgt_not_eq; zlt).
    rewrite pow10. apply Rmult_le_reg_r with (IZR (10 ^ Z.of_nat 4)); [zlt|].
    replace (4 / IZR (10 ^ Z.of_nat 4) * IZR (radix2 ^ 63) * IZR (10 ^ Z.of_nat 4)) with (4 * IZR (radix2 ^ 63)) by (field; apply Rgt_not_eq; zlt).
    rewrite Rmult_1_r, <- !mult_IZR. zle. }
  rewrite fle_R; [|destruct (fsub (f32 v) v); exact V2|exact V5|destruct (fsub (f32 v) v); exact F2|exact F5].
  rewrite fabs_R, E2. apply Rabs_le_inv in E', D2. apply Rle_trans with (2 := L5). apply Rabs_le. lra.
Qed.
(** Column [j] of the table of a mesh. *)
Lemma column_at cs name c : column cs name c -> exists j, nth_error (map fst cs) j = Some name /\ nth_error (map snd cs) j = Some c.
Proof.
  induction 1 as [name c cs|name c other c' cs N H (j & A & B)]; [exists O; split; reflexivity|]. exists (S j). now split.
Qed.
Lemma col_names_nodup k : NoDup (col_names k).
Proof.
  apply NoDup_nth_error. intros i j Hi E. destruct k;
    (do 6 (destruct i as [|i]; [try (exfalso; cbn in Hi; lia); do 6 (destruct j as [|j]; [try reflexivity; vm_compute in E; discriminate E|]); destruct j; vm_compute in E; discriminate E|]); cbn in Hi; lia).
Qed.
Lemma stored_as to_num k rows fr name c j p i r v : frame_of to_num k rows fr -> has fr name c -> nth_error (col_names k) j = Some (lit name) ->
  nth_error (f_index fr) p = Some i -> nth_error rows i = Some r -> cell to_num r j v ->
  entry c p (if c_single c then f32 v else v) /\ ((forall r v, In r rows -> cell to_num r j v -> fits32 v) -> c_single c = true).
Proof.
  intros (_ & Hn & Hc) H Hj Hp Hi Hv. destruct (column_at _ _ _ H) as (j' & A & B). rewrite Hn in A.
  assert (j' = j) as ->.
  { apply (proj1 (NoDup_nth_error _) (col_names_nodup k)); [apply nth_error_Some; congruence|congruence]. }
  destruct (Hc j c B) as [F G]. split; [|exact G]. clear -F Hp Hi Hv. unfold entry. revert p Hp.
  induction F as [|i' y is ys (r' & v' & Hr' & Hv' & E & _) F IH]; intros [|p] Hp; try discriminate; [|exact (IH p Hp)].
  injection Hp as ->. cbn [nth_error]. rewrite Hi in Hr'. injection Hr' as <-. assert (v' = v) as ->; [|now rewrite E].
  unfold cell in *. destruct (nth_error r j); congruence.
Qed.
Lemma small_zero to_num d m fr name c j : mesh_of to_num d m -> data m = Df fr -> has fr name c -> nth_error (col_names (d_kind d)) j = Some (lit name) ->
  (forall r v, In r (d_rows d) -> cell to_num r j v -> valid v = true /\ Rabs (FR v) <= 1000) ->
  forall p i r v, nth_error (f_index fr) p = Some i -> nth_error (d_rows d) i = Some r -> cell to_num r j v -> is_finite_f v = true ->
    Rabs (FR v) < bpow radix2 (-150) -> exists y, entry c p y /\ is_finite_f y = true /\ FR y = 0.
Proof.
  intros (_ & fr' & E & H) E' Hn Hj B p i r v Hp Hi Hv Fv Sm. rewrite E in E'. injection E' as ->.
  destruct (stored_as _ _ _ _ _ _ _ _ _ _ _ H Hn Hj Hp Hi Hv) as [En S]. rewrite S in En.
  - exists (f32 v). split; [exact En|]. destruct (f32_R v Fv) as (_ & K & _). rewrite (rnd32_small _ Sm), Rabs_R0 in K.
    destruct K as [K1 K2]; [apply bpow_gt_0|]. now split.
  - intros r' v' Hr' Hv'. destruct (B r' v' Hr' Hv') as [V' B']. now apply fits_1000.
Qed.
Lemma precision_kept to_num d m fr name c j : mesh_of to_num d m -> data m = Df fr -> has fr name c -> nth_error (col_names (d_kind d)) j = Some (lit name) ->
  forall p i r v, nth_error (f_index fr) p = Some i -> nth_error (d_rows d) i = Some r -> cell to_num r j v -> is_finite_f v = true ->
    FR v = 0 \/ bpow radix2 (-126) <= Rabs (FR v) <= bpow radix2 127 -> exists y, entry c p y /\ is_finite_f y = true /\ Rabs (FR y - FR v) <= bpow radix2 (-24) * Rabs (FR v).
Proof.
  intros (_ & fr' & E & H) E' Hn Hj p i r v Hp Hi Hv Fv Rg. rewrite E in E'. injection E' as ->.
  destruct (stored_as _ _ _ _ _ _ _ _ _ _ _ H Hn Hj Hp Hi Hv) as [En _]. eexists. split; [exact En|]. destruct (c_single c).
  - destruct (f32_R v Fv) as (_ & K & _).
    assert (M : Rabs (rnd32 (FR v)) < max32).
    { destruct Rg as [->|Rg]; [rewrite rnd32_small, Rabs_R0 by (rewrite Rabs_R0; apply bpow_gt_0); apply bpow_gt_0|].
      apply Rle_lt_trans with (bpow radix2 127); [|apply bpow_lt; reflexivity].
      pose proof (FLT_exp_valid (-149) 24 (prec_gt_0_ := eq_refl _)) as VE.
      apply (@abs_round_le_generic radix2 (FLT_exp (-149) 24) VE ZnearestE _); [|apply Rg].
      apply generic_format_bpow. unfold FLT_exp. lia. }
    destruct (K M) as [-> F]. split; [exact F|]. destruct Rg as [Z|Rg].
    + rewrite Z. rewrite rnd32_small by (rewrite Rabs_R0; apply bpow_gt_0). rewrite Rminus_diag_eq, Rabs_R0 by reflexivity. lra.
    + pose proof (relative_error_N_FLT radix2 (-149) 24 eq_refl (fun x => negb (Z.even x)) (FR v)) as L.
      replace (/ 2 * bpow radix2 (- (24) + 1)) with (bpow radix2 (-24)) in L by (change (/ 2) with (bpow radix2 (-1)); rewrite <- bpow_plus; reflexivity).
      apply L. apply Rg.
  - split; [exact Fv|]. rewrite Rminus_diag_eq, Rabs_R0 by reflexivity. apply Rmult_le_pos; [apply bpow_ge_0|apply Rabs_pos].
Qed.

(** * With powers of two *)
Lemma p2 n : bpow radix2 (Z.of_nat n) = 2 ^ n.
Proof. rewrite <- IZR_Zpower by lia. symmetry. apply pow_IZR. Qed.
Lemma p2_neg n : bpow radix2 (- Z.of_nat n) = / 2 ^ n.
Proof. now rewrite bpow_opp, p2. Qed.
Lemma add_error_large m1 m2 d1 d2 k v1 v2 r1 r2 g x y z xs ys zs : same_space m1 m2 -> k <> Plain ->
  ctype m1 = Some (ctype_name k) -> ctype m2 = Some (ctype_name k) -> bins k m1 = bins k m2 ->
  numbers (x_bounds m1) xs -> numbers (y_bounds m1) ys -> numbers (z_bounds m1) zs ->
  data m1 = Df d1 -> data m2 = Df d2 -> f_index d1 = f_index d2 ->
  has d1 "value" v1 -> has d2 "value" v2 -> has d1 "rel_err" r1 -> has d2 "rel_err" r2 ->
  has d1 (bin_name k) g -> has d1 "x" x -> has d1 "y" y -> has d1 "z" z ->
  exists m d r, add_mesh m1 m2 = Ok m /\ data m = Df d /\ has d "rel_err" r /\
    forall i p q a b, entry v1 i p -> entry v2 i q -> entry r1 i a -> entry r2 i b -> number_in r1 a -> number_in r2 b ->
      0 < FR p -> 0 < FR q -> (FR p + FR q) / 10 ^ 6 <= FR p -> (FR p + FR q) / 10 ^ 6 <= FR q ->
      FR a = 0 \/ / 2 ^ 50 <= FR a <= 2 ^ 50 -> FR b = 0 \/ / 2 ^ 50 <= FR b <= 2 ^ 50 -> 0 < FR a + FR b ->
      exists c, entry r i c /\ is_finite_f c = true /\
        sqrt (FR p * FR a * (FR p * FR a) + FR q * FR b * (FR q * FR b)) / (FR p + FR q) < FR c.
Proof. rewrite <- (p2_neg 50), <- (p2 50). exact (add_error_too_large m1 m2 d1 d2 k v1 v2 r1 r2 g x y z xs ys zs). Qed.
Lemma small_is_zero to_num d m fr name c j : mesh_of to_num d m -> data m = Df fr -> has fr name c -> nth_error (col_names (d_kind d)) j = Some (lit name) ->
  (forall r v, In r (d_rows d) -> cell to_num r j v -> valid v = true /\ Rabs (FR v) <= 1000) ->
  forall p i r v, nth_error (f_index fr) p = Some i -> nth_error (d_rows d) i = Some r -> cell to_num r j v -> is_finite_f v = true ->
    Rabs (FR v) < / 2 ^ 150 -> exists y, entry c p y /\ is_finite_f y = true /\ FR y = 0.
Proof. rewrite <- (p2_neg 150). exact (small_zero to_num d m fr name c j). Qed.
Lemma precision_is_kept to_num d m fr name c j : mesh_of to_num d m -> data m = Df fr -> has fr name c -> nth_error (col_names (d_kind d)) j = Some (lit name) ->
  forall p i r v, nth_error (f_index fr) p = Some i -> nth_error (d_rows d) i = Some r -> cell to_num r j v -> is_finite_f v = true ->
    FR v = 0 \/ / 2 ^ 126 <= Rabs (FR v) <= 2 ^ 127 -> exists y, entry c p y /\ is_finite_f y = true /\ Rabs (FR y - FR v) <= / 2 ^ 24 * Rabs (FR v).
Proof. rewrite <- (p2_neg 126), <- (p2 127), <- (p2_neg 24). exact (precision_kept to_num d m fr name c j). Qed.
