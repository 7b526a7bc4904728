(** The binary64 model agrees with Flocq's, hence with rounded real arithmetic. *)
From Coq Require Import Reals Lra Lia Floats.SpecFloat.
From Flocq Require Import Core BinarySingleNaN.
From Verif Require Import PyBase PyFloat.

Local Instance Hprec : Prec_gt_0 prec := eq_refl _.
Local Instance Hmax : Prec_lt_emax prec emax := eq_refl _.

(** Real value of a binary64 number (0 for infinities and NaN). *)
Definition FR (x : float) : R := SF2R radix2 x.
(** Rounding to nearest even in binary64 (without overflow). *)
Definition rnd (r : R) : R := round radix2 (FLT_exp (-1074) 53) ZnearestE r.
Definition fmax_bound : R := bpow radix2 1024.

Definition toB (x : float) (H : valid x = true) : binary_float prec emax := SF2B x H.
Lemma toB_SF x H : B2SF (toB x H) = x.
Proof. apply B2SF_SF2B. Qed.
Lemma toB_R x H : B2R (toB x H) = FR x.
Proof. apply B2R_SF2B. Qed.
Lemma toB_fin x H : BinarySingleNaN.is_finite (toB x H) = is_finite_f x.
Proof. unfold toB. rewrite is_finite_SF2B. destruct x; reflexivity. Qed.

Lemma round_nearest_even_equiv s m l :
  round_nearest_even m l = choice_mode mode_NE s m l.
Proof.
  case l; [reflexivity|intro c]. case c; [ | reflexivity..].
  now simpl; unfold Round.cond_incr; case Z.even.
Qed.
Lemma binary_round_aux_equiv sx mx ex lx :
  SpecFloat.binary_round_aux prec emax sx mx ex lx
  = BinarySingleNaN.binary_round_aux prec emax mode_NE sx mx ex lx.
Proof.
  unfold SpecFloat.binary_round_aux, BinarySingleNaN.binary_round_aux.
  set (mrse' := SpecFloat.shr_fexp _ _ _ _ _). case mrse'; intros mrs' e'; simpl.
  now rewrite (round_nearest_even_equiv sx).
Qed.
Lemma binary_round_equiv s m e :
  SpecFloat.binary_round prec emax s m e = BinarySingleNaN.binary_round prec emax mode_NE s m e.
Proof.
  unfold SpecFloat.binary_round, BinarySingleNaN.binary_round, shl_align_fexp.
  set (mez := shl_align _ _ _); case mez as [mz ez]. apply binary_round_aux_equiv.
Qed.
Lemma binary_normalize_equiv m e szero :
  SpecFloat.binary_normalize prec emax m e szero
  = B2SF (BinarySingleNaN.binary_normalize prec emax Hprec Hmax mode_NE m e szero).
Proof.
  case m as [ | p | p].
  - now simpl.
  - simpl; rewrite B2SF_SF2B; apply binary_round_equiv.
  - simpl; rewrite B2SF_SF2B; apply binary_round_equiv.
Qed.

Lemma fmul_B x y : B2SF (Bmult (prec_gt_0_:=Hprec) (prec_lt_emax_:=Hmax) mode_NE x y) = fmul (B2SF x) (B2SF y).
Proof.
  unfold fmul. destruct x as [sx|sx| |sx mx ex Bx], y as [sy|sy| |sy my ey By]; try reflexivity.
  simpl. rewrite B2SF_SF2B. symmetry. apply binary_round_aux_equiv.
Qed.
Lemma fadd_B x y : B2SF (Bplus (prec_gt_0_:=Hprec) (prec_lt_emax_:=Hmax) mode_NE x y) = fadd (B2SF x) (B2SF y).
Proof.
  unfold fadd. destruct x as [sx|sx| |sx mx ex Bx], y as [sy|sy| |sy my ey By];
    try (now (trivial || simpl; case Bool.eqb)).
  symmetry. apply binary_normalize_equiv.
Qed.
Lemma fsub_B x y : B2SF (Bminus (prec_gt_0_:=Hprec) (prec_lt_emax_:=Hmax) mode_NE x y) = fsub (B2SF x) (B2SF y).
Proof.
  unfold fsub. destruct x as [sx|sx| |sx mx ex Bx], y as [sy|sy| |sy my ey By];
    try (now (trivial || simpl; case Bool.eqb)).
  symmetry. simpl. unfold Zminus. rewrite <- cond_Zopp_negb. apply binary_normalize_equiv.
Qed.
Lemma fdiv_B x y : B2SF (Bdiv (prec_gt_0_:=Hprec) (prec_lt_emax_:=Hmax) mode_NE x y) = fdiv (B2SF x) (B2SF y).
Proof.
  unfold fdiv. destruct x as [sx|sx| |sx mx ex Bx], y as [sy|sy| |sy my ey By]; try reflexivity.
  simpl. rewrite B2SF_SF2B. set (melz := SFdiv_core_binary _ _ _ _ _ _).
  case melz as [[mz ez] lz]. symmetry. apply binary_round_aux_equiv.
Qed.

Lemma fexp_eq : forall e, SpecFloat.fexp prec emax e = FLT_exp (-1074) 53 e.
Proof. reflexivity. Qed.

(** What a rounded operation returns: the rounded real result when it does not overflow,
    an infinity otherwise. *)
Definition rounded_to (r : R) (z : float) : Prop :=
  valid z = true /\
  ((Rabs (rnd r) < fmax_bound)%R -> FR z = rnd r /\ is_finite_f z = true) /\
  ((fmax_bound <= Rabs (rnd r))%R -> exists s, z = S754_infinity s).

Lemma rounded_from (b : binary_float prec emax) r s :
  (if Rlt_bool (Rabs (round radix2 (SpecFloat.fexp prec emax) (round_mode mode_NE) r)) (bpow radix2 emax)
   then B2R b = round radix2 (SpecFloat.fexp prec emax) (round_mode mode_NE) r /\ BinarySingleNaN.is_finite b = true
   else B2SF b = S754_infinity s) ->
  rounded_to r (B2SF b).
Proof.
  intros H. split; [apply valid_binary_B2SF|].
  change (round radix2 (SpecFloat.fexp prec emax) (round_mode mode_NE) r) with (rnd r) in H.
  change (bpow radix2 emax) with fmax_bound in H.
  destruct (Rlt_bool_spec (Rabs (rnd r)) fmax_bound) as [Hl|Hl].
  - split.
    + intros _. destruct H as [H1 H2]. split.
      * unfold FR. rewrite SF2R_B2SF. exact H1.
      * destruct b; try discriminate; reflexivity.
    + intros H'. lra.
  - split; [intros H'; lra|]. intros _. now exists s.
Qed.

Lemma fsub_R x y : valid x = true -> valid y = true -> is_finite_f x = true -> is_finite_f y = true ->
  rounded_to (FR x - FR y) (fsub x y).
Proof.
  intros Vx Vy Fx Fy. rewrite <- (toB_SF x Vx), <- (toB_SF y Vy) at 2. rewrite <- fsub_B.
  pose proof (Bminus_correct prec emax Hprec Hmax mode_NE (toB x Vx) (toB y Vy)) as H.
  rewrite !toB_fin, !toB_R in H. specialize (H Fx Fy).
  eapply rounded_from. revert H. destruct (Rlt_bool _ _); [tauto|].
  unfold binary_overflow. cbn. intros [H _]. exact H.
Qed.
Lemma fadd_R x y : valid x = true -> valid y = true -> is_finite_f x = true -> is_finite_f y = true ->
  rounded_to (FR x + FR y) (fadd x y).
Proof.
  intros Vx Vy Fx Fy. rewrite <- (toB_SF x Vx), <- (toB_SF y Vy) at 2. rewrite <- fadd_B.
  pose proof (Bplus_correct prec emax Hprec Hmax mode_NE (toB x Vx) (toB y Vy)) as H.
  rewrite !toB_fin, !toB_R in H. specialize (H Fx Fy).
  eapply rounded_from. revert H. destruct (Rlt_bool _ _); [tauto|].
  unfold binary_overflow. cbn. intros [H _]. exact H.
Qed.
Lemma fmul_R x y : valid x = true -> valid y = true -> is_finite_f x = true -> is_finite_f y = true ->
  rounded_to (FR x * FR y) (fmul x y).
Proof.
  intros Vx Vy Fx Fy. rewrite <- (toB_SF x Vx), <- (toB_SF y Vy) at 2. rewrite <- fmul_B.
  pose proof (Bmult_correct prec emax Hprec Hmax mode_NE (toB x Vx) (toB y Vy)) as H.
  rewrite !toB_fin, !toB_R in H. rewrite Fx, Fy in H. cbn [andb] in H.
  eapply rounded_from. revert H. destruct (Rlt_bool _ _); [tauto|].
  unfold binary_overflow. cbn. intros H. exact H.
Qed.
Lemma fdiv_R x y : valid x = true -> valid y = true -> is_finite_f x = true -> is_finite_f y = true ->
  FR y <> 0%R -> rounded_to (FR x / FR y) (fdiv x y).
Proof.
  intros Vx Vy Fx Fy Hy. rewrite <- (toB_SF x Vx), <- (toB_SF y Vy) at 2. rewrite <- fdiv_B.
  pose proof (Bdiv_correct prec emax Hprec Hmax mode_NE (toB x Vx) (toB y Vy)) as H.
  rewrite !toB_fin, !toB_R in H. specialize (H Hy). rewrite Fx in H.
  eapply rounded_from. revert H. destruct (Rlt_bool _ _); [tauto|].
  unfold binary_overflow. cbn. intros H. exact H.
Qed.

Lemma flt_R x y : valid x = true -> valid y = true -> is_finite_f x = true -> is_finite_f y = true ->
  flt x y = true <-> (FR x < FR y)%R.
Proof.
  intros Vx Vy Fx Fy.
  pose proof (Bltb_correct prec emax (toB x Vx) (toB y Vy)) as H. rewrite !toB_fin, !toB_R in H.
  specialize (H Fx Fy). unfold Bltb in H. rewrite !toB_SF in H. unfold flt. rewrite H.
  destruct (Rlt_bool_spec (FR x) (FR y)); split; intros; try lra; try discriminate; reflexivity.
Qed.
Lemma fle_R x y : valid x = true -> valid y = true -> is_finite_f x = true -> is_finite_f y = true ->
  fle x y = true <-> (FR x <= FR y)%R.
Proof.
  intros Vx Vy Fx Fy.
  pose proof (Bleb_correct prec emax (toB x Vx) (toB y Vy)) as H. rewrite !toB_fin, !toB_R in H.
  specialize (H Fx Fy). unfold Bleb in H. rewrite !toB_SF in H. unfold fle. rewrite H.
  destruct (Rle_bool_spec (FR x) (FR y)); split; intros; try lra; try discriminate; reflexivity.
Qed.
Lemma fabs_R x : FR (fabs x) = Rabs (FR x).
Proof.
  unfold FR, fabs, SF2R. destruct x as [s|s| |s m e]; cbn; try (now rewrite Rabs_R0).
  rewrite <- F2R_Zabs. now destruct s.
Qed.
Lemma FR_format x : valid x = true -> generic_format radix2 (FLT_exp (-1074) 53) (FR x).
Proof. intros V. rewrite <- (toB_R x V). apply generic_format_B2R. Qed.
Lemma rnd_FR x : valid x = true -> rnd (FR x) = FR x.
Proof. intros V. apply round_generic; [apply valid_rnd_N|]. now apply FR_format. Qed.
Lemma rnd_le a b : (a <= b)%R -> (rnd a <= rnd b)%R.
Proof. apply round_le; [apply FLT_exp_valid; reflexivity|apply valid_rnd_N]. Qed.
Lemma rnd_abs a : rnd (Rabs a) = Rabs (rnd a).
Proof. apply round_NE_abs. apply FLT_exp_valid; reflexivity. Qed.
Lemma FR_lt_max x : valid x = true -> (Rabs (FR x) < fmax_bound)%R.
Proof. intros V. rewrite <- (toB_R x V). apply (abs_B2R_lt_emax prec emax). Qed.


(** The decimal to binary conversion is correctly rounded. *)
Lemma rounded_from_SF z r s :
  SpecFloat.valid_binary prec emax z = true ->
  (if Rlt_bool (Rabs (round radix2 (SpecFloat.fexp prec emax) (round_mode mode_NE) r)) (bpow radix2 emax)
   then SF2R radix2 z = round radix2 (SpecFloat.fexp prec emax) (round_mode mode_NE) r /\ is_finite_SF z = true
   else z = S754_infinity s) ->
  rounded_to r z.
Proof.
  intros V H. split; [exact V|].
  change (round radix2 (SpecFloat.fexp prec emax) (round_mode mode_NE) r) with (rnd r) in H.
  change (bpow radix2 emax) with fmax_bound in H.
  destruct (Rlt_bool_spec (Rabs (rnd r)) fmax_bound) as [Hl|Hl].
  - split.
    + intros _. destruct H as [H1 H2]. split; [exact H1|]. destruct z; try discriminate; reflexivity.
    + intros H'. lra.
  - split; [intros H'; lra|]. intros _. now exists s.
Qed.
Lemma rnd_0 : rnd 0 = 0%R.
Proof. apply round_0. apply valid_rnd_N. Qed.

Definition dec_value (neg : bool) (m : N) (e : Z) : R :=
  ((if neg then -1 else 1) * IZR (Z.of_N m) * powerRZ 10 e)%R.

Lemma powerRZ_IZR_pos k : (0 <= k)%Z -> powerRZ 10 k = IZR (10 ^ k).
Proof.
  intros H. rewrite <- (Z2Nat.id k H). rewrite <- pow_powerRZ.
  induction (Z.to_nat k) as [|n IH]; [reflexivity|].
  rewrite Nat2Z.inj_succ, Z.pow_succ_r by lia. rewrite mult_IZR. cbn [pow]. now rewrite IH.
Qed.

Lemma f_of_dec_R neg m e : rounded_to (dec_value neg m e) (f_of_dec neg m e).
Proof.
  destruct m as [|p].
  - unfold dec_value. cbn. rewrite Rmult_0_r, Rmult_0_l. split; [reflexivity|].
    rewrite rnd_0. split; intros H.
    + split; [|reflexivity]. reflexivity.
    + exfalso. rewrite Rabs_R0 in H. unfold fmax_bound in H.
      pose proof (bpow_gt_0 radix2 1024). lra.
  - unfold f_of_dec, dec_value. destruct e as [|k|k].
    + change (Z.pos p * 10 ^ 0)%Z with (Z.pos p * 1)%Z. rewrite Z.mul_1_r.
      rewrite binary_round_equiv.
      pose proof (binary_round_correct prec emax Hprec Hmax mode_NE neg p 0) as H. cbn zeta in H.
      destruct H as [V H].
      assert (E : F2R (Float radix2 (SpecFloat.cond_Zopp neg (Z.pos p)) 0) = ((if neg then -1 else 1) * IZR (Z.of_N (N.pos p)) * powerRZ 10 0)%R).
      { unfold F2R. cbn. destruct neg; cbn; rewrite ?opp_IZR; try lra. change (IZR (Z.neg p)) with (IZR (- Z.pos p)). rewrite opp_IZR. lra. }
      rewrite E in H. eapply rounded_from_SF; [exact V|].
      revert H. destruct (Rlt_bool _ _); [tauto|]. intros H. exact H.
    + set (e := Z.pos k). assert (Hp : (0 < 10 ^ e)%Z) by (apply Z.pow_pos_nonneg; lia).
      assert (Hq : (0 < Z.pos p * 10 ^ e)%Z) by nia.
      destruct (Z.pos p * 10 ^ e)%Z as [|q|q] eqn:Eq; [lia| |lia].
      rewrite binary_round_equiv.
      pose proof (binary_round_correct prec emax Hprec Hmax mode_NE neg q 0) as H. cbn zeta in H.
      destruct H as [V H].
      assert (E : F2R (Float radix2 (SpecFloat.cond_Zopp neg (Z.pos q)) 0) = ((if neg then -1 else 1) * IZR (Z.of_N (N.pos p)) * powerRZ 10 e)%R).
      { rewrite powerRZ_IZR_pos by lia. rewrite Rmult_assoc, <- mult_IZR. change (Z.of_N (N.pos p)) with (Z.pos p).
        rewrite Eq. unfold F2R. cbn. destruct neg; cbn; try lra. change (IZR (Z.neg q)) with (IZR (- Z.pos q)). rewrite opp_IZR. lra. }
      rewrite E in H. eapply rounded_from_SF; [exact V|].
      revert H. destruct (Rlt_bool _ _); [tauto|]. intros H. exact H.
    + assert (Hp : (0 < 10 ^ Z.pos k)%Z) by (apply Z.pow_pos_nonneg; lia).
      destruct (10 ^ Z.pos k)%Z as [|q|q] eqn:Eq; [lia| |lia].
      pose proof (Bdiv_correct_aux prec emax Hprec Hmax mode_NE neg p 0 false q 0) as H. cbn zeta in H.
      destruct (SFdiv_core_binary prec emax (Z.pos p) 0 (Z.pos q) 0) as [[mz ez] lz].
      rewrite binary_round_aux_equiv. rewrite xorb_false_r in H. destruct H as [V H].
      assert (E : (F2R (Float radix2 (SpecFloat.cond_Zopp neg (Z.pos p)) 0) / F2R (Float radix2 (SpecFloat.cond_Zopp false (Z.pos q)) 0))%R
                  = ((if neg then -1 else 1) * IZR (Z.of_N (N.pos p)) * powerRZ 10 (Z.neg k))%R).
      { change (Z.neg k) with (- Z.pos k)%Z. rewrite powerRZ_neg' . rewrite powerRZ_IZR_pos by lia. rewrite Eq.
        unfold F2R. cbn. unfold Rdiv. rewrite !Rmult_1_r.
        change (Z.of_N (N.pos p)) with (Z.pos p).
        destruct neg; cbn; [|rewrite Rmult_1_l; reflexivity]. change (IZR (Z.neg p)) with (IZR (- Z.pos p)). rewrite opp_IZR.
        ring. }
      rewrite E in H. eapply rounded_from_SF; [exact V|].
      revert H. destruct (Rlt_bool _ _); [tauto|]. intros H. exact H.
Qed.
