(** Arithmetic of any binary format rounds real arithmetic; binary32 columns. *)
From Coq Require Import Reals Lra Lia Floats.SpecFloat.
From Flocq Require Import Core BinarySingleNaN.
From Verif Require Import PyBase PyFloat FloatR PyFrame.

Section Format.
Variables p e : Z.
Context {Hp : Prec_gt_0 p} {He : Prec_lt_emax p e}.
Definition gvalid (x : spec_float) : Prop := SpecFloat.valid_binary p e x = true.
Definition grnd (r : R) : R := round radix2 (SpecFloat.fexp p e) ZnearestE r.
Definition grounded (r : R) (z : spec_float) : Prop :=
  gvalid z /\
  ((Rabs (grnd r) < bpow radix2 e)%R -> FR z = grnd r /\ is_finite_f z = true) /\
  ((bpow radix2 e <= Rabs (grnd r))%R -> z = S754_infinity (Rlt_bool r 0)).

Lemma gaux_equiv sx mx ex lx :
  SpecFloat.binary_round_aux p e sx mx ex lx = BinarySingleNaN.binary_round_aux p e mode_NE sx mx ex lx.
Proof.
  unfold SpecFloat.binary_round_aux, BinarySingleNaN.binary_round_aux.
  set (mrse' := SpecFloat.shr_fexp _ _ _ _ _). case mrse'; intros mrs' e'; simpl.
  now rewrite (round_nearest_even_equiv sx).
Qed.
Lemma gbinary_round_equiv s m k :
  SpecFloat.binary_round p e s m k = BinarySingleNaN.binary_round p e mode_NE s m k.
Proof.
  unfold SpecFloat.binary_round, BinarySingleNaN.binary_round, shl_align_fexp.
  set (mez := shl_align _ _ _); case mez as [mz ez]. apply gaux_equiv.
Qed.
Lemma gnormalize_equiv m k szero :
  SpecFloat.binary_normalize p e m k szero
  = B2SF (BinarySingleNaN.binary_normalize p e Hp He mode_NE m k szero).
Proof.
  case m as [ | q | q]; [now simpl|simpl; rewrite B2SF_SF2B; apply gbinary_round_equiv..].
Qed.
Lemma grounded_of z r s : gvalid z -> (s = Rlt_bool r 0 \/ r = 0%R) ->
  (if Rlt_bool (Rabs (grnd r)) (bpow radix2 e) then FR z = grnd r /\ is_finite_f z = true
   else z = S754_infinity s) -> grounded r z.
Proof.
  intros V Hs H. split; [exact V|]. destruct (Rlt_bool_spec (Rabs (grnd r)) (bpow radix2 e)) as [Hl|Hl].
  - split; [intros _; exact H|intros H'; lra].
  - split; [intros H'; lra|]. intros _. destruct Hs as [<-|Hs]; [exact H|]. exfalso. rewrite Hs in Hl. unfold grnd in Hl.
    rewrite round_0, Rabs_R0 in Hl by apply valid_rnd_N. pose proof (bpow_gt_0 radix2 e). lra.
Qed.
Lemma sign_R (b : binary_float p e) : BinarySingleNaN.is_finite b = true ->
  if Bsign b then (B2R b <= 0)%R else (0 <= B2R b)%R.
Proof.
  destruct b as [s|s| |s m k H]; try discriminate; intros _; cbn; destruct s; try lra.
  - apply F2R_le_0. cbn. lia.
  - apply F2R_ge_0. cbn. lia.
Qed.
Lemma fin_B (b : binary_float p e) : is_finite_f (B2SF b) = BinarySingleNaN.is_finite b.
Proof. destruct b; reflexivity. Qed.
Lemma FR_B (b : binary_float p e) : FR (B2SF b) = B2R b.
Proof. apply SF2R_B2SF. Qed.

Lemma gmul_R x y : gvalid x -> gvalid y -> is_finite_f x = true -> is_finite_f y = true ->
  grounded (FR x * FR y) (SFmul p e x y).
Proof.
  intros Vx Vy. rewrite <- (B2SF_SF2B p e x Vx), <- (B2SF_SF2B p e y Vy).
  generalize (SF2B x Vx), (SF2B y Vy). clear Vx; try clear Vy; clear x; try clear y; intros x y Fx Fy. rewrite fin_B in Fx, Fy.
  replace (SFmul p e (B2SF x) (B2SF y)) with (B2SF (Bmult (prec_gt_0_:=Hp) (prec_lt_emax_:=He) mode_NE x y)).
  - rewrite !FR_B. pose proof (Bmult_correct p e Hp He mode_NE x y) as H.
    eapply (grounded_of _ _ (xorb (Bsign x) (Bsign y))); [apply valid_binary_B2SF| |].
    { pose proof (sign_R x Fx) as Sx. pose proof (sign_R y Fy) as Sy. destruct (Rlt_bool_spec (B2R x * B2R y) 0) as [L|L];
        destruct (Bsign x), (Bsign y); cbn [xorb]; try (left; reflexivity); right; nra. }
    change (round radix2 (SpecFloat.fexp p e) (round_mode mode_NE) (B2R x * B2R y)) with (grnd (B2R x * B2R y)) in H.
    revert H. destruct (Rlt_bool _ _); rewrite ?FR_B, ?fin_B, ?Fx, ?Fy; [cbn [andb]; tauto|].
    unfold binary_overflow. cbn. intros H. exact H.
  - destruct x as [sx|sx| |sx mx ex Bx], y as [sy|sy| |sy my ey By]; try reflexivity.
    simpl. rewrite B2SF_SF2B. symmetry. apply gaux_equiv.
Qed.
Lemma gadd_R x y : gvalid x -> gvalid y -> is_finite_f x = true -> is_finite_f y = true ->
  grounded (FR x + FR y) (SFadd p e x y).
Proof.
  intros Vx Vy. rewrite <- (B2SF_SF2B p e x Vx), <- (B2SF_SF2B p e y Vy).
  generalize (SF2B x Vx), (SF2B y Vy). clear Vx; try clear Vy; clear x; try clear y; intros x y Fx Fy. rewrite fin_B in Fx, Fy.
  replace (SFadd p e (B2SF x) (B2SF y)) with (B2SF (Bplus (prec_gt_0_:=Hp) (prec_lt_emax_:=He) mode_NE x y)).
  - rewrite !FR_B. pose proof (Bplus_correct p e Hp He mode_NE x y Fx Fy) as H.
    change (round radix2 (SpecFloat.fexp p e) (round_mode mode_NE) (B2R x + B2R y)) with (grnd (B2R x + B2R y)) in H.
    pose proof (sign_R x Fx) as Sx. pose proof (sign_R y Fy) as Sy.
    assert (K : Bsign x = Bsign y -> Bsign x = Rlt_bool (B2R x + B2R y) 0 \/ (B2R x + B2R y = 0)%R).
    { intros E. destruct (Rlt_bool_spec (B2R x + B2R y) 0) as [L|L];
        destruct (Bsign x), (Bsign y); try discriminate; try (left; reflexivity); right; lra. }
    destruct (Rlt_bool (Rabs (grnd (B2R x + B2R y))) (bpow radix2 e)) eqn:EL.
    + eapply (grounded_of _ _ (Rlt_bool (B2R x + B2R y) 0)); [apply valid_binary_B2SF|left; reflexivity|]. rewrite EL, FR_B, fin_B. tauto.
    + destruct H as [H E]. apply (grounded_of _ _ (Bsign x)); [apply valid_binary_B2SF|exact (K E)|]. rewrite EL. exact H.
  - destruct x as [sx|sx| |sx mx ex Bx], y as [sy|sy| |sy my ey By]; try (now (trivial || simpl; case Bool.eqb)).
    symmetry. apply gnormalize_equiv.
Qed.
Lemma gsub_R x y : gvalid x -> gvalid y -> is_finite_f x = true -> is_finite_f y = true ->
  grounded (FR x - FR y) (SFsub p e x y).
Proof.
  intros Vx Vy. rewrite <- (B2SF_SF2B p e x Vx), <- (B2SF_SF2B p e y Vy).
  generalize (SF2B x Vx), (SF2B y Vy). clear Vx; try clear Vy; clear x; try clear y; intros x y Fx Fy. rewrite fin_B in Fx, Fy.
  replace (SFsub p e (B2SF x) (B2SF y)) with (B2SF (Bminus (prec_gt_0_:=Hp) (prec_lt_emax_:=He) mode_NE x y)).
  - rewrite !FR_B. pose proof (Bminus_correct p e Hp He mode_NE x y Fx Fy) as H.
    change (round radix2 (SpecFloat.fexp p e) (round_mode mode_NE) (B2R x - B2R y)) with (grnd (B2R x - B2R y)) in H.
    pose proof (sign_R x Fx) as Sx. pose proof (sign_R y Fy) as Sy.
    assert (K : Bsign x = negb (Bsign y) -> Bsign x = Rlt_bool (B2R x - B2R y) 0 \/ (B2R x - B2R y = 0)%R).
    { intros E. destruct (Rlt_bool_spec (B2R x - B2R y) 0) as [L|L];
        destruct (Bsign x), (Bsign y); try discriminate; try (left; reflexivity); right; lra. }
    destruct (Rlt_bool (Rabs (grnd (B2R x - B2R y))) (bpow radix2 e)) eqn:EL.
    + eapply (grounded_of _ _ (Rlt_bool (B2R x - B2R y) 0)); [apply valid_binary_B2SF|left; reflexivity|]. rewrite EL, FR_B, fin_B. tauto.
    + destruct H as [H E]. apply (grounded_of _ _ (Bsign x)); [apply valid_binary_B2SF|exact (K E)|]. rewrite EL. exact H.
  - destruct x as [sx|sx| |sx mx ex Bx], y as [sy|sy| |sy my ey By]; try (now (trivial || simpl; case Bool.eqb)).
    symmetry. simpl. unfold Zminus. rewrite <- cond_Zopp_negb. apply gnormalize_equiv.
Qed.
Lemma gsqrt_R x : gvalid x -> is_finite_f x = true -> (0 <= FR x)%R ->
  gvalid (SFsqrt p e x) /\ FR (SFsqrt p e x) = grnd (sqrt (FR x)) /\ is_finite_f (SFsqrt p e x) = true.
Proof.
  intros Vx. rewrite <- (B2SF_SF2B p e x Vx). generalize (SF2B x Vx). clear Vx; try clear Vy; clear x; try clear y; intros x Fx Nx. rewrite fin_B in Fx. rewrite FR_B in Nx.
  replace (SFsqrt p e (B2SF x)) with (B2SF (Bsqrt (prec_gt_0_:=Hp) (prec_lt_emax_:=He) mode_NE x)).
  - rewrite !FR_B, fin_B. destruct (Bsqrt_correct p e Hp He mode_NE x) as (H1 & H2 & _).
    split; [apply valid_binary_B2SF|]. split; [exact H1|]. rewrite H2. destruct x as [sx|sx| |sx mx ex Bx]; try discriminate; [reflexivity|].
    destruct sx; [|reflexivity]. exfalso. cbn in Nx. pose proof (F2R_lt_0 radix2 (Float radix2 (Z.neg mx) ex) eq_refl). lra.
  - destruct x as [sx|sx| |sx mx ex Bx]; try reflexivity; try (destruct sx; reflexivity).
    destruct sx; [reflexivity|]. simpl. rewrite B2SF_SF2B. set (melz := SFsqrt_core_binary _ _ _ _). case melz as [[mz ez] lz]. symmetry. apply gaux_equiv.
Qed.
Lemma ground_R x : is_finite_f x = true -> grounded (FR x) (round_to p e x).
Proof.
  intros Fx. destruct x as [s|s| |s m k]; try discriminate.
  - split; [reflexivity|]. unfold grnd. cbn [FR SF2R]. change (FR (S754_zero s)) with 0%R. rewrite round_0 by apply valid_rnd_N.
    split; [intros _; split; reflexivity|]. rewrite Rabs_R0. pose proof (bpow_gt_0 radix2 e). lra.
  - unfold round_to. rewrite gbinary_round_equiv. pose proof (binary_round_correct p e Hp He mode_NE s m k) as H. cbn zeta in H.
    destruct H as [V H]. apply (grounded_of _ _ s); [exact V| |].
    { left. destruct (Rlt_bool_spec (FR (S754_finite s m k)) 0) as [L|L]; destruct s; try reflexivity; exfalso.
      - pose proof (F2R_ge_0 radix2 (Float radix2 (Z.pos m) k) (Zle_0_pos m)). unfold FR, SF2R in L. cbn [SpecFloat.cond_Zopp] in L. lra.
      - pose proof (F2R_lt_0 radix2 (Float radix2 (Z.neg m) k) eq_refl). unfold FR, SF2R in L. cbn [SpecFloat.cond_Zopp] in L. change (- Z.pos m)%Z with (Z.neg m) in L. lra. }
    change (F2R (Float radix2 (SpecFloat.cond_Zopp s (Z.pos m)) k)) with (FR (S754_finite s m k)) in H.
    change (round radix2 (SpecFloat.fexp p e) (round_mode mode_NE) (FR (S754_finite s m k))) with (grnd (FR (S754_finite s m k))) in H.
    revert H. destruct (Rlt_bool _ _); [|intros H; exact H]. intros [H1 [H2 _]]. split; [exact H1|].
    revert H2. destruct (BinarySingleNaN.binary_round _ _ _ _ _ _); try discriminate; reflexivity.
Qed.
End Format.

(** * binary32 numbers, kept as binary64 *)
Local Instance Hp32 : Prec_gt_0 24 := eq_refl _.
Local Instance He32 : Prec_lt_emax 24 128 := eq_refl _.
Local Instance Hp64 : Prec_gt_0 prec := eq_refl _.
Local Instance He64 : Prec_lt_emax prec emax := eq_refl _.

(** Rounding to nearest even in binary32 (without overflow). *)
Definition rnd32 (r : R) : R := round radix2 (FLT_exp (-149) 24) ZnearestE r.
Definition max32 : R := bpow radix2 128.
(** A finite number of binary32. *)
Definition single (x : float) : Prop :=
  valid x = true /\ is_finite_f x = true /\ generic_format radix2 (FLT_exp (-149) 24) (FR x) /\ (Rabs (FR x) < max32)%R.
Definition rounded32 (r : R) (z : float) : Prop :=
  valid z = true /\ ((Rabs (rnd32 r) < max32)%R -> FR z = rnd32 r /\ is_finite_f z = true) /\
  ((max32 <= Rabs (rnd32 r))%R -> z = S754_infinity (Rlt_bool r 0)).

Lemma rnd32_le a b : (a <= b)%R -> (rnd32 a <= rnd32 b)%R.
Proof. apply round_le; [apply FLT_exp_valid; reflexivity|apply valid_rnd_N]. Qed.
Lemma rnd32_single x : single x -> rnd32 (FR x) = FR x.
Proof. intros (_ & _ & H & _). apply round_generic; [apply valid_rnd_N|exact H]. Qed.
Lemma format32_64 r : generic_format radix2 (FLT_exp (-149) 24) r -> generic_format radix2 (FLT_exp (-1074) 53) r.
Proof.
  intros H. apply FLT_format_generic in H; [|reflexivity]. destruct H as [f E1 E2 E3].
  apply generic_format_FLT. exists f; [exact E1| |lia]. 
  apply Z.lt_trans with (1 := E2). reflexivity.
Qed.
Lemma rnd32_format r : generic_format radix2 (FLT_exp (-149) 24) (rnd32 r).
Proof. apply generic_format_round; [apply FLT_exp_valid; reflexivity|apply valid_rnd_N]. Qed.
Lemma rnd_of_rnd32 r : rnd (rnd32 r) = rnd32 r.
Proof. apply round_generic; [apply valid_rnd_N|]. apply format32_64, rnd32_format. Qed.
Lemma max32_64 : (max32 < fmax_bound)%R.
Proof. unfold max32, fmax_bound. apply bpow_lt. reflexivity. Qed.

Lemma widen_rounded r z : grounded 24 128 r z -> rounded32 r (widen z).
Proof.
  intros (V & H1 & H2). change (grnd 24 128 r) with (rnd32 r) in *. change (bpow radix2 128) with max32 in *.
  destruct (Rlt_le_dec (Rabs (rnd32 r)) max32) as [Hl|Hl].
  - destruct (H1 Hl) as (E & F). destruct (ground_R prec emax z F) as (V' & K & _).
    rewrite E in K. change (grnd prec emax (rnd32 r)) with (rnd (rnd32 r)) in K. rewrite rnd_of_rnd32 in K.
    change (bpow radix2 emax) with fmax_bound in K. pose proof max32_64.
    split; [exact V'|]. split; [intros _; apply K; lra|intros; lra].
  - rewrite (H2 Hl). split; [reflexivity|]. split; [intros; lra|]. intros _. reflexivity.
Qed.
Lemma narrow_single x : single x -> gvalid 24 128 (narrow x) /\ FR (narrow x) = FR x /\ is_finite_f (narrow x) = true.
Proof.
  intros Hs. pose proof (rnd32_single x Hs) as E. destruct Hs as (V & F & G & M).
  destruct (ground_R 24 128 x F) as (V' & K & _). change (grnd 24 128 (FR x)) with (rnd32 (FR x)) in K.
  rewrite E in K. split; [exact V'|]. apply K. exact M.
Qed.
Lemma f32_R x : is_finite_f x = true -> rounded32 (FR x) (f32 x).
Proof. intros F. apply widen_rounded. apply (ground_R 24 128); exact F. Qed.
Lemma add32_R x y : single x -> single y -> rounded32 (FR x + FR y) (add32 x y).
Proof.
  intros Hx Hy. destruct (narrow_single x Hx) as (Vx & Ex & Fx). destruct (narrow_single y Hy) as (Vy & Ey & Fy).
  rewrite <- Ex, <- Ey. apply widen_rounded. apply (gadd_R 24 128); assumption.
Qed.
Lemma sub32_R x y : single x -> single y -> rounded32 (FR x - FR y) (sub32 x y).
Proof.
  intros Hx Hy. destruct (narrow_single x Hx) as (Vx & Ex & Fx). destruct (narrow_single y Hy) as (Vy & Ey & Fy).
  rewrite <- Ex, <- Ey. apply widen_rounded. apply (gsub_R 24 128); assumption.
Qed.
Lemma mul32_R x y : single x -> single y -> rounded32 (FR x * FR y) (mul32 x y).
Proof.
  intros Hx Hy. destruct (narrow_single x Hx) as (Vx & Ex & Fx). destruct (narrow_single y Hy) as (Vy & Ey & Fy).
  rewrite <- Ex, <- Ey. apply widen_rounded. apply (gmul_R 24 128); assumption.
Qed.
Lemma rounded32_single r z : rounded32 r z -> (Rabs (rnd32 r) < max32)%R -> single z.
Proof.
  intros (V & H & _) Hl. destruct (H Hl) as (E & F). split; [exact V|]. split; [exact F|]. rewrite E. split; [apply rnd32_format|exact Hl].
Qed.
Lemma rounded32_fin r z : rounded32 r z -> is_finite_f z = true -> single z /\ FR z = rnd32 r.
Proof.
  intros H F. destruct (Rlt_le_dec (Rabs (rnd32 r)) max32) as [Hl|Hl].
  - split; [apply (rounded32_single r); assumption|]. apply H. exact Hl.
  - destruct H as (_ & _ & H). rewrite (H Hl) in F. discriminate.
Qed.
Lemma sqrt_bound r : (0 <= r)%R -> (r < max32)%R -> (sqrt r <= bpow radix2 64)%R.
Proof.
  intros H0 H1. replace (bpow radix2 64) with (sqrt max32).
  - apply sqrt_le_1_alt. lra.
  - unfold max32. change (bpow radix2 128) with (bpow radix2 (64 + 64)). rewrite bpow_plus. apply sqrt_square, bpow_ge_0.
Qed.
Lemma sqrt32_R x : single x -> (0 <= FR x)%R -> single (sqrt32 x) /\ FR (sqrt32 x) = rnd32 (sqrt (FR x)).
Proof.
  intros Hx N. destruct (narrow_single x Hx) as (Vx & Ex & Fx). rewrite <- Ex in N.
  destruct (gsqrt_R 24 128 (narrow x) Vx Fx N) as (V & E & F).
  assert (B : (Rabs (rnd32 (sqrt (FR x))) < max32)%R).
  { destruct Hx as (_ & _ & _ & M). rewrite Ex in N. rewrite Rabs_pos_eq in M by exact N.
    pose proof (sqrt_bound _ N M) as S. apply rnd32_le in S.
    assert (G : rnd32 (bpow radix2 64) = bpow radix2 64).
    { apply round_generic; [apply valid_rnd_N|]. apply generic_format_bpow. unfold FLT_exp. cbn. lia. }
    rewrite G in S. rewrite Rabs_pos_eq.
    - apply Rle_lt_trans with (1 := S). apply bpow_lt. reflexivity.
    - rewrite <- (round_0 radix2 (FLT_exp (-149) 24) ZnearestE). apply rnd32_le, sqrt_pos. }
  assert (R : rounded32 (sqrt (FR x)) (sqrt32 x)).
  { apply widen_rounded. rewrite <- Ex in B |- *. split; [exact V|]. split; [intros _; split; [exact E|exact F]|].
    change (grnd 24 128 (sqrt (FR (narrow x)))) with (rnd32 (sqrt (FR (narrow x)))). change (bpow radix2 128) with max32. intros; lra. }
  split; [exact (rounded32_single _ _ R B)|]. apply R. exact B.
Qed.
Lemma fsqrt_R x : valid x = true -> is_finite_f x = true -> (0 <= FR x)%R ->
  valid (fsqrt x) = true /\ FR (fsqrt x) = rnd (sqrt (FR x)) /\ is_finite_f (fsqrt x) = true.
Proof. intros V F N. exact (gsqrt_R prec emax x V F N). Qed.

(** * binary64, with the sign of infinities *)
Definition rounded64 (r : R) (z : float) : Prop :=
  valid z = true /\ ((Rabs (rnd r) < fmax_bound)%R -> FR z = rnd r /\ is_finite_f z = true) /\
  ((fmax_bound <= Rabs (rnd r))%R -> z = S754_infinity (Rlt_bool r 0)).
Lemma add64_R x y : valid x = true -> valid y = true -> is_finite_f x = true -> is_finite_f y = true -> rounded64 (FR x + FR y) (fadd x y).
Proof. exact (gadd_R prec emax x y). Qed.
Lemma sub64_R x y : valid x = true -> valid y = true -> is_finite_f x = true -> is_finite_f y = true -> rounded64 (FR x - FR y) (fsub x y).
Proof. exact (gsub_R prec emax x y). Qed.
Lemma mul64_R x y : valid x = true -> valid y = true -> is_finite_f x = true -> is_finite_f y = true -> rounded64 (FR x * FR y) (fmul x y).
Proof. exact (gmul_R prec emax x y). Qed.
