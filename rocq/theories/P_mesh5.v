(** Lemmas about mid points. *)
From Coq Require Import Reals Lra Lia Floats.SpecFloat.
From Flocq Require Import Core Relative BinarySingleNaN.
From Verif Require Import PyBase PyFacts PyFloat FloatR FloatZ Float32 PyFrame M_mesh SpecMesh SpecMesh2 P_mesh2.
Local Open Scope R_scope.
Local Instance Hp64 : Prec_gt_0 prec := eq_refl _.
Local Instance He64 : Prec_lt_emax prec emax := eq_refl _.

Lemma rnd_error r : Rabs (rnd r - r) <= bpow radix2 (-53) * Rabs r + bpow radix2 (-1075).
Proof.
  destruct (error_N_FLT radix2 (-1074) 53 eq_refl (fun x => negb (Z.even x)) r) as (eps & eta & H1 & H2 & _ & E).
  change (rnd r = r * (1 + eps) + eta) in E. rewrite E. replace (r * (1 + eps) + eta - r) with (r * eps + eta) by ring.
  apply Rle_trans with (1 := Rabs_triang _ _). rewrite Rabs_mult.
  assert (A : / 2 * bpow radix2 (- (53) + 1) = bpow radix2 (-53)).
  { change (/ 2) with (bpow radix2 (-1)). rewrite <- bpow_plus. reflexivity. }
  assert (B : / 2 * bpow radix2 (-1074) = bpow radix2 (-1075)).
  { change (/ 2) with (bpow radix2 (-1)). rewrite <- bpow_plus. reflexivity. }
  rewrite A in H1. rewrite B in H2. pose proof (Rabs_pos r). nra.
Qed.
Ltac zle := apply IZR_le, Z.leb_le; vm_compute; reflexivity.
Ltac zlt := apply IZR_lt, Z.ltb_lt; vm_compute; reflexivity.
Lemma pow10 n : 10 ^ n = IZR (10 ^ Z.of_nat n).
Proof. apply pow_IZR. Qed.
Lemma tiny : 0 < bpow radix2 (-1075) <= 1 / 10 ^ 30.
Proof.
  split; [apply bpow_gt_0|]. apply Rle_trans with (bpow radix2 (-100)); [apply bpow_le; lia|].
  rewrite pow10. unfold Rdiv. rewrite Rmult_1_l. change (-100)%Z with (- (100))%Z. rewrite bpow_opp.
  apply Rinv_le_contravar; [zlt|]. rewrite <- IZR_Zpower by lia. zle.
Qed.
Lemma small53 : 0 < bpow radix2 (-53) <= 1112 / 10 ^ 19.
Proof.
  split; [apply bpow_gt_0|]. rewrite pow10. change (-53)%Z with (- (53))%Z. rewrite bpow_opp, <- IZR_Zpower by lia.
  assert (A : 0 < IZR (radix2 ^ 53)) by zlt. assert (B : 0 < IZR (10 ^ Z.of_nat 19)) by zlt.
  apply Rmult_le_reg_r with (IZR (radix2 ^ 53)); [exact A|]. rewrite Rinv_l by lra.
  apply Rmult_le_reg_r with (IZR (10 ^ Z.of_nat 19)); [exact B|]. rewrite Rmult_1_l.
  replace (1112 / IZR (10 ^ Z.of_nat 19) * IZR (radix2 ^ 53) * IZR (10 ^ Z.of_nat 19)) with (1112 * IZR (radix2 ^ 53)) by (field; lra).
  rewrite <- mult_IZR. zle.
Qed.
Lemma rnd_bound r B : Rabs r <= B -> B <= 10 ^ 12 ->
  Rabs (rnd r) < fmax_bound /\ Rabs (rnd r - r) <= 1112 / 10 ^ 19 * B + 1 / 10 ^ 30.
Proof.
  intros H HB. pose proof (rnd_error r) as E. pose proof tiny as T. pose proof small53 as S. pose proof (Rabs_pos r) as P.
  assert (K : bpow radix2 (-53) * Rabs r <= 1112 / 10 ^ 19 * B) by (apply Rmult_le_compat; lra).
  split; [|lra].
  apply Rle_lt_trans with (bpow radix2 50); [|apply bpow_lt; reflexivity].
  assert (G : rnd (bpow radix2 50) = bpow radix2 50).
  { apply round_generic; [apply valid_rnd_N|]. apply generic_format_bpow. unfold FLT_exp. cbn. lia. }
  rewrite <- rnd_abs, <- G. apply rnd_le. apply Rle_trans with (1 := H). apply Rle_trans with (1 := HB).
  rewrite <- IZR_Zpower by lia. rewrite pow10. zle.
Qed.
Lemma FR_finite s m e : FR (S754_finite s m e) = (if s then -1 else 1) * IZR (Z.pos m) * bpow radix2 e.
Proof.
  unfold FR, SF2R, F2R. cbn [Fnum Fexp]. destruct s; cbn [SpecFloat.cond_Zopp]; [|ring].
  change (- Z.pos m)%Z with (Z.opp (Z.pos m)). rewrite opp_IZR. ring.
Qed.
Lemma valid_mantissa s m e : valid (S754_finite s m e) = true -> (Z.pos m < 2 ^ 53)%Z.
Proof.
  intros V. unfold valid in V. cbn in V. unfold SpecFloat.bounded, SpecFloat.canonical_mantissa in V. apply andb_true_iff in V. destruct V as [V _].
  apply Zeq_bool_eq in V. unfold SpecFloat.fexp, SpecFloat.emin, prec, emax in V.
  assert (D : (Zdigits radix2 (Z.pos m) <= 53)%Z).
  { rewrite <- Zpos_digits2_pos. lia. }
  apply (Zpower_gt_Zdigits radix2 53 (Z.pos m)) in D. exact D.
Qed.
Lemma rint_R x : valid x = true -> is_finite_f x = true ->
  valid (rint x) = true /\ is_finite_f (rint x) = true /\ Rabs (FR (rint x) - FR x) <= / 2.
Proof.
  intros V F. destruct x as [s| | |s m e]; try discriminate.
  - split; [reflexivity|]. split; [reflexivity|]. cbn [rint]. rewrite Rminus_diag_eq, Rabs_R0 by reflexivity. lra.
  - unfold rint. destruct (Z.leb_spec 0 e) as [He|He].
    { split; [exact V|]. split; [reflexivity|]. rewrite Rminus_diag_eq, Rabs_R0 by reflexivity. lra. }
    cbv zeta. set (d := (2 ^ (- e))%Z). set (q := (Z.pos m / d)%Z). set (r := (Z.pos m mod d)%Z).
    pose proof (valid_mantissa _ _ _ V) as Hm.
    assert (Hd : (2 <= d)%Z).
    { unfold d. replace (- e)%Z with (1 + (- e - 1))%Z by lia. rewrite Z.pow_add_r by lia. assert (0 < 2 ^ (- e - 1))%Z by (apply Z.pow_pos_nonneg; lia). lia. }
    assert (Em : Z.pos m = (d * q + r)%Z) by (apply Z.div_mod; lia). assert (Hr : (0 <= r < d)%Z) by (apply Z.mod_pos_bound; lia).
    assert (Hq : (0 <= q)%Z) by (apply Z.div_pos; lia).
    set (q' := (if (2 * r <? d)%Z then q else if (d <? 2 * r)%Z then (q + 1)%Z else if Z.even q then q else (q + 1)%Z)).
    assert (Hq' : (0 <= q' < 2 ^ 53 /\ - d <= 2 * (d * q' - Z.pos m) <= d)%Z).
    { assert (2 * q < 2 ^ 53)%Z by nia. unfold q'. destruct (Z.ltb_spec (2 * r) d); [lia|]. destruct (Z.ltb_spec d (2 * r)); [lia|]. destruct (Z.even q); lia. }
    assert (B : bpow radix2 e = / IZR d).
    { change d with (radix2 ^ (- e))%Z. rewrite IZR_Zpower by lia. rewrite <- bpow_opp. f_equal. lia. }
    assert (Pd : 0 < IZR d) by (apply IZR_lt; lia).
    assert (G : Rabs (IZR q' - IZR (Z.pos m) / IZR d) <= / 2).
    { destruct Hq' as (_ & Hl & Hh). apply IZR_le in Hl, Hh. rewrite mult_IZR, minus_IZR, mult_IZR in Hl, Hh. rewrite opp_IZR in Hl.
      apply Rabs_le. split.
      - apply Rmult_le_reg_r with (IZR d); [exact Pd|]. unfold Rdiv. rewrite Rmult_minus_distr_r, Rmult_assoc, Rinv_l by lra. lra.
      - apply Rmult_le_reg_r with (IZR d); [exact Pd|]. unfold Rdiv. rewrite Rmult_minus_distr_r, Rmult_assoc, Rinv_l by lra. lra. }
    destruct q' as [|p|p] eqn:Eq'; [| |lia].
    + split; [reflexivity|]. split; [reflexivity|]. rewrite FR_finite, B. change (FR (S754_zero s)) with 0.
      replace (0 - (if s then -1 else 1) * IZR (Z.pos m) * / IZR d) with ((if s then -1 else 1) * (0 - IZR (Z.pos m) / IZR d)) by (unfold Rdiv; ring).
      rewrite Rabs_mult. replace (Rabs (if s then -1 else 1)) with 1; [lra|]. destruct s; [rewrite Rabs_left by lra; lra|rewrite Rabs_R1; reflexivity].
    + destruct (ground_R prec emax (S754_finite s p 0) eq_refl) as (V' & K & _).
      change (round_to prec emax (S754_finite s p 0)) with (SpecFloat.binary_round prec emax s p 0) in *.
      assert (EF : FR (S754_finite s p 0) = IZR (if s then Z.neg p else Z.pos p)).
      { rewrite FR_finite. cbn [bpow]. destruct s; [change (Z.neg p) with (- Z.pos p)%Z; rewrite opp_IZR|]; ring. }
      change (grnd prec emax (FR (S754_finite s p 0))) with (rnd (FR (S754_finite s p 0))) in K. rewrite EF, rnd_IZR in K by (destruct s; lia).
      destruct K as (K1 & K2).
      { rewrite <- abs_IZR. apply Rlt_trans with (IZR (2 ^ 53)); [apply IZR_lt; destruct s; lia|]. change (IZR (2 ^ 53)) with (bpow radix2 53). apply bpow_lt. reflexivity. }
      split; [exact V'|]. split; [exact K2|]. rewrite K1, FR_finite, B.
      replace (IZR (if s then Z.neg p else Z.pos p) - (if s then -1 else 1) * IZR (Z.pos m) * / IZR d)
        with ((if s then -1 else 1) * (IZR (Z.pos p) - IZR (Z.pos m) / IZR d)) by (destruct s; [change (Z.neg p) with (- Z.pos p)%Z; rewrite opp_IZR|]; unfold Rdiv; ring).
      rewrite Rabs_mult. replace (Rabs (if s then -1 else 1)) with 1; [lra|]. destruct s; [rewrite Rabs_left by lra; lra|rewrite Rabs_R1; reflexivity].
Qed.
Lemma half_R : valid (fdec 5 (-1)) = true /\ is_finite_f (fdec 5 (-1)) = true /\ FR (fdec 5 (-1)) = / 2.
Proof.
  split; [reflexivity|]. split; [reflexivity|].
  change (fdec 5 (-1)) with (S754_finite false 4503599627370496 (-53)). rewrite FR_finite. cbn [bpow].
  replace (IZR (Z.pow_pos radix2 53)) with (2 * IZR 4503599627370496) by (rewrite <- mult_IZR; reflexivity). field. 
Qed.
Lemma tenk_R : valid (fdec 1 5) = true /\ is_finite_f (fdec 1 5) = true /\ FR (fdec 1 5) = 10 ^ 5.
Proof.
  split; [reflexivity|]. split; [reflexivity|]. replace (fdec 1 5) with (f_of_Z 100000) by reflexivity.
  destruct (f_of_Z_R 100000 eq_refl) as (_ & _ & ->). lra.
Qed.
Lemma mid_R a b : valid a = true -> is_finite_f a = true -> Rabs (FR a) <= 10 ^ 6 -> valid b = true -> is_finite_f b = true -> Rabs (FR b) <= 10 ^ 6 ->
  Rabs (FR (np_round 5 (fmul (fadd b a) (fdec 5 (-1)))) - (FR a + FR b) / 2) <= 5001 / 10 ^ 9.
Proof.
  intros Va Fa Ba Vb Fb Bb. destruct half_R as (Vh & Fh & Eh). destruct tenk_R as (Vk & Fk & Ek).
  pose proof (fadd_R b a Vb Va Fb Fa) as (V1 & H1 & _).
  assert (B1 : Rabs (FR b + FR a) <= 2 * 10 ^ 6) by (apply Rle_trans with (1 := Rabs_triang _ _); lra).
  destruct (rnd_bound _ _ B1) as (M1 & D1); [lra|]. destruct (H1 M1) as (E1 & F1). set (s := fadd b a) in *.
  pose proof (fmul_R s _ V1 Vh F1 Fh) as (V2 & H2 & _). rewrite Eh in H2.
  apply Rabs_le_inv in D1. apply Rabs_le_inv in B1. rewrite <- E1 in D1.
  assert (B2 : Rabs (FR s * / 2) <= 10 ^ 6 + 1) by (apply Rabs_le; lra).
  destruct (rnd_bound _ _ B2) as (M2 & D2); [lra|]. destruct (H2 M2) as (E2 & F2). set (h := fmul s (fdec 5 (-1))) in *.
  apply Rabs_le_inv in D2. apply Rabs_le_inv in B2. rewrite <- E2 in D2.
  pose proof (fmul_R h _ V2 Vk F2 Fk) as (V3 & H3 & _). rewrite Ek in H3.
  assert (B3 : Rabs (FR h * 10 ^ 5) <= 10 ^ 11 + 2 * 10 ^ 5) by (apply Rabs_le; lra).
  destruct (rnd_bound _ _ B3) as (M3 & D3); [lra|]. destruct (H3 M3) as (E3 & F3). set (t := fmul h (fdec 1 5)) in *.
  apply Rabs_le_inv in D3. apply Rabs_le_inv in B3. rewrite <- E3 in D3.
  destruct (rint_R t V3 F3) as (V4 & F4 & D4). apply Rabs_le_inv in D4. set (r := rint t) in *.
  pose proof (fdiv_R r _ V4 Vk F4 Fk) as K. rewrite Ek in K. destruct K as (V5 & H5 & _); [lra|].
  assert (B5 : Rabs (FR r / 10 ^ 5) <= 10 ^ 6 + 10) by (apply Rabs_le; lra).
  destruct (rnd_bound _ _ B5) as (M5 & D5); [lra|]. destruct (H5 M5) as (E5 & F5).
  apply Rabs_le_inv in D5. apply Rabs_le_inv in B5. rewrite <- E5 in D5.
  unfold np_round. fold h. fold t. fold r. apply Rabs_le. lra.
Qed.
Lemma mid_points_length xs : length (mid_points xs) = (length xs - 1)%nat.
Proof. induction xs as [|a [|b xs] IH]; [reflexivity..|]. cbn [mid_points length] in *. rewrite IH. cbn. lia. Qed.
Lemma mid_points_nth xs : forall i a b m, nth_error xs i = Some a -> nth_error xs (S i) = Some b -> nth_error (mid_points xs) i = Some m ->
  m = np_round 5 (fmul (fadd b a) (fdec 5 (-1))).
Proof.
  induction xs as [|x [|y xs] IH]; intros i a b m; [destruct i; discriminate|destruct i; discriminate|].
  destruct i as [|i].
  - intros [= <-] [= <-] [= <-]. reflexivity.
  - intros Ha Hb Hm. apply (IH i a b m Ha Hb Hm).
Qed.
Lemma mids_spec bs xs : numbers bs xs -> Forall (fun x => valid x = true /\ is_finite_f x = true /\ Rabs (FR x) <= 10 ^ 6) xs ->
  exists ms, calc_mid_points bs = Ok ms /\ length ms = (length bs - 1)%nat /\
    forall i a b m, nth_error xs i = Some a -> nth_error xs (S i) = Some b -> nth_error ms i = Some m ->
      Rabs (FR m - (FR a + FR b) / 2) <= 5001 / 10 ^ 9 /\ (FR a + 11 / 10 ^ 6 <= FR b -> FR a < FR m < FR b).
Proof.
  intros Hn HF. exists (mid_points xs). split; [apply numbers_mids; exact Hn|]. split.
  - rewrite mid_points_length. f_equal. clear -Hn. induction Hn; cbn; congruence.
  - intros i a b m Ha Hb Hm. rewrite (mid_points_nth _ _ _ _ _ Ha Hb Hm). rewrite Forall_forall in HF.
    destruct (HF a (nth_error_In _ _ Ha)) as (Va & Fa & Ba). destruct (HF b (nth_error_In _ _ Hb)) as (Vb & Fb & Bb).
    pose proof (mid_R a b Va Fa Ba Vb Fb Bb) as K. split; [exact K|]. intros W. apply Rabs_le_inv in K. lra.
Qed.
