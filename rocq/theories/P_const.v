(** Proofs about neut_constants. *)
From Coq Require Import Reals Lra Lia Floats.SpecFloat.
From Flocq Require Import Core Relative BinarySingleNaN.
From Verif Require Import PyBase PyFloat PyFacts PyArith PyArithR M_const FloatR SpecConst.

(** * The table *)
Lemma Z_dict_elements : map fst Z_dict = elements /\ map snd Z_dict = seq 1 118.
Proof. split; vm_compute; reflexivity. Qed.
Lemma elements_nodup_b : forallb (fun i => forallb (fun j => (i =? j) || negb (str_eqb (nth i elements []) (nth j elements []))) (seq 0 118)) (seq 0 118) = true.
Proof. vm_compute. reflexivity. Qed.
Lemma elements_length : List.length elements = 118.
Proof. vm_compute. reflexivity. Qed.
Lemma elements_NoDup : NoDup elements.
Proof.
  apply (NoDup_nth elements []). intros i j Hi Hj E. rewrite elements_length in *.
  pose proof elements_nodup_b as H. rewrite forallb_forall in H.
  specialize (H i ltac:(apply in_seq; lia)). rewrite forallb_forall in H.
  specialize (H j ltac:(apply in_seq; lia)). rewrite E in H.
  destruct (Nat.eqb_spec i j) as [|_]; [assumption|].
  cbn [orb] in H. rewrite (proj2 (str_eqb_eq _ _) eq_refl) in H. discriminate.
Qed.
Lemma dict_get_combine (ks : list str) (vs : list nat) k n :
  NoDup ks -> (dict_get str_eqb k (combine ks vs) = Some n <-> exists i, nth_error ks i = Some k /\ nth_error vs i = Some n).
Proof.
  intros Hn. revert vs. induction Hn as [|x ks Hx Hn IH]; intros vs.
  - cbn. split; [discriminate|]. intros (i & Hi & _). destruct i; discriminate.
  - destruct vs as [|v vs].
    + cbn. split; [discriminate|]. intros (i & _ & Hi). destruct i; discriminate.
    + cbn [combine dict_get]. destruct (str_eqb k x) eqn:E.
      * apply str_eqb_eq in E. subst x. split.
        -- intros H; injection H as <-. exists 0. auto.
        -- intros (i & Hi & Hv). destruct i as [|i]; [now injection Hv as ->|].
           cbn in Hi. exfalso. apply Hx. eapply nth_error_In; eassumption.
      * rewrite IH. split.
        -- intros (i & Hi & Hv). exists (S i). auto.
        -- intros (i & Hi & Hv). destruct i as [|i]; [|exists i; auto].
           cbn in Hi. injection Hi as ->. rewrite (proj2 (str_eqb_eq _ _) eq_refl) in E. discriminate.
Qed.
Lemma combine_split {A B} (l : list (A * B)) : l = combine (map fst l) (map snd l).
Proof. induction l as [|[a b] l IH]; cbn; [reflexivity|now rewrite <- IH]. Qed.
Lemma nth_error_seq s n i : i < n -> nth_error (seq s n) i = Some (s + i).
Proof.
  revert s i. induction n as [|n IH]; intros s i H; [lia|]. destruct i as [|i]; cbn; [f_equal; lia|].
  rewrite IH by lia. f_equal; lia.
Qed.
Lemma Z_dict_get s z : dict_get str_eqb s Z_dict = Some z <-> 1 <= z /\ nth_error elements (z - 1) = Some s.
Proof.
  rewrite (combine_split Z_dict). destruct Z_dict_elements as [E1 E2]. rewrite E1, E2.
  rewrite dict_get_combine by apply elements_NoDup. split.
  - intros (i & Hi & Hz). assert (i < 118).
    { assert (H : nth_error (seq 1 118) i <> None) by congruence. apply nth_error_Some in H. now rewrite seq_length in H. }
    rewrite nth_error_seq in Hz by assumption. injection Hz as <-. split; [lia|].
    replace (S i - 1)%nat with i by lia. exact Hi.
  - intros [Hz Hs]. exists (z - 1). split; [assumption|]. rewrite nth_error_seq; [f_equal; lia|].
    assert (H : nth_error elements (z - 1) <> None) by congruence. apply nth_error_Some in H. now rewrite elements_length in H.
Qed.
Lemma Z_dict_all :
  NoDup (map fst Z_dict) /\ NoDup (map snd Z_dict) /\
  (forall n, In n (map snd Z_dict) <-> 1 <= n <= 118) /\
  (forall s z, dict_get str_eqb s Z_dict = Some z <-> 1 <= z /\ nth_error elements (z - 1) = Some s).
Proof.
  destruct Z_dict_elements as [E1 E2]. rewrite E1, E2. split; [apply elements_NoDup|]. split; [apply seq_NoDup|].
  split; [|apply Z_dict_get]. intros n. rewrite in_seq. lia.
Qed.

(** * Real conversions *)
Open Scope R_scope.
Lemma Rdiv_res_ok x y : y <> 0 -> Rdiv_res x y = Ok (x / y).
Proof. intros H. unfold Rdiv_res. destruct (Req_EM_T y 0); [contradiction|reflexivity]. Qed.
Lemma Rdec_nz m e : (m <> 0)%Z -> Rdec m e <> 0.
Proof.
  intros H. unfold Rdec. apply Rmult_integral_contrapositive_currified; [now apply not_0_IZR|].
  apply powerRZ_NOR. lra.
Qed.
Lemma Rmul_div m e v : (m <> 0)%Z -> Rdiv_res (v * Rdec m e) (Rdec m e) = Ok v.
Proof. intros H. pose proof (Rdec_nz m e H). rewrite Rdiv_res_ok by assumption. f_equal. now field. Qed.
Lemma Rdiv_mul m e v : (m <> 0)%Z -> (do w <- Rdiv_res v (Rdec m e); Ok (w * Rdec m e)) = Ok v.
Proof. intros H. pose proof (Rdec_nz m e H). rewrite Rdiv_res_ok by assumption. cbn [bind]. f_equal. now field. Qed.


Lemma real_roundtrips v :
  after (rem_to_Sv RA) (sv_to_rem RA) v = Ok v /\ after (sv_to_rem RA) (rem_to_Sv RA) v = Ok v /\
  after (hour_to_second RA) (second_to_hour RA) v = Ok v /\ after (second_to_hour RA) (hour_to_second RA) v = Ok v /\
  after (day_to_second RA) (second_to_day RA) v = Ok v /\ after (second_to_day RA) (day_to_second RA) v = Ok v /\
  after (shake_to_second RA) (second_to_shake RA) v = Ok v /\ after (second_to_shake RA) (shake_to_second RA) v = Ok v /\
  after (barn_to_cm2 RA) (cm2_to_barn RA) v = Ok v /\ after (cm2_to_barn RA) (barn_to_cm2 RA) v = Ok v /\
  after (eV_to_joule RA) (joule_to_ev RA) v = Ok v /\ after (joule_to_ev RA) (eV_to_joule RA) v = Ok v.
Proof.
  unfold after, rem_to_Sv, sv_to_rem, hour_to_second, second_to_hour, day_to_second, second_to_day,
    shake_to_second, second_to_shake, barn_to_cm2, cm2_to_barn, eV_to_joule, joule_to_ev.
  change (ndec RA) with Rdec. change (ndiv RA) with Rdiv_res. change (nmul RA) with Rmult. change (num RA) with R in *.
  assert (E : Rdec 1 (-8) * Rdec 1 8 = 1).
  { unfold Rdec. rewrite !Rmult_1_l. change (-8)%Z with (- (8))%Z. rewrite powerRZ_neg'. apply Rinv_l. apply powerRZ_NOR. lra. }
  repeat split; try (apply Rmul_div; discriminate); try (apply Rdiv_mul; discriminate).
  - cbn [bind]. f_equal. rewrite Rmult_assoc, E. lra.
  - cbn [bind]. f_equal. rewrite Rmult_assoc, (Rmult_comm (Rdec 1 8)), E. lra.
Qed.

Ltac rdec := unfold Rdec; cbn; repeat match goal with |- context [Pos.to_nat ?p] =>
    let n := eval vm_compute in (Pos.to_nat p) in change (Pos.to_nat p) with n end; cbn [pow].
Lemma year_factor v : after (years_to_seconds RA) (second_to_year RA) v = Ok (v * (31557600 / 31536000)).
Proof.
  unfold after, years_to_seconds, second_to_year.
  change (ndec RA) with Rdec. change (ndiv RA) with Rdiv_res. change (nmul RA) with Rmult. cbn [bind].
  rewrite Rdiv_res_ok by (apply Rdec_nz; discriminate). f_equal. rdec. field.
Qed.
Lemma curie_factor : bq_to_curie RA (Rdec 37 9) = Ok (10001100000000000000000).
Proof.
  unfold bq_to_curie. change (ndec RA) with Rdec. change (nmul RA) with Rmult. f_equal. rdec. lra.
Qed.
Lemma year_not_inverse v : v <> 0 -> after (years_to_seconds RA) (second_to_year RA) v <> Ok v.
Proof. intros H. rewrite year_factor. intros E; injection E as E. apply H. lra. Qed.
Lemma years_consistent v :
  after (years_to_hrs RA) (hour_to_second RA) v = years_to_seconds RA v /\
  after (years_to_days RA) (day_to_second RA) v = years_to_seconds RA v.
Proof.
  unfold after, years_to_hrs, years_to_days, hour_to_second, day_to_second, years_to_seconds.
  change (ndec RA) with Rdec. change (nmul RA) with Rmult. cbn [bind]. rdec. split; f_equal; lra.
Qed.
Lemma bq_curie_factor v : after (bq_to_curie RA) (curie_to_bq RA) v = Ok (v * (100011 / 100000)).
Proof.
  unfold after, bq_to_curie, curie_to_bq. change (ndec RA) with Rdec. change (nmul RA) with Rmult. cbn [bind].
  f_equal. rdec. field.
Qed.
Lemma wavelength_total v :
  (v <> 0 -> exists w, eV_to_wavelength_photon RA v = Ok w /\ w <> 0 /\ eV_to_wavelength_photon RA w = Ok v) /\
  (v = 0 -> eV_to_wavelength_photon RA v = Err ZeroDivisionError).
Proof.
  unfold eV_to_wavelength_photon. change (ndec RA) with Rdec. change (ndiv RA) with Rdiv_res. split.
  - intros Hv. pose proof (Rdec_nz 124 (-8) ltac:(discriminate)) as Hc.
    exists (Rdec 124 (-8) / v). rewrite Rdiv_res_ok by assumption.
    assert (Rdec 124 (-8) / v <> 0).
    { unfold Rdiv. apply Rmult_integral_contrapositive_currified; [assumption|now apply Rinv_neq_0_compat]. }
    repeat split; [assumption|]. rewrite Rdiv_res_ok by assumption. f_equal. field. auto.
  - intros ->. unfold Rdiv_res. destruct (Req_EM_T 0 0); [reflexivity|now elim n].
Qed.
Lemma neutron_wavelength v :
  (v <> 0 -> exists w, wavelength_to_meV_neutron RA v = Ok w /\ 0 < w /\ w * (v * v) = 8181 / 100 /\
     wavelength_to_meV_neutron RA (- v) = Ok w) /\
  (v = 0 -> wavelength_to_meV_neutron RA v = Err ZeroDivisionError).
Proof.
  unfold wavelength_to_meV_neutron. change (ndec RA) with Rdec. change (ndiv RA) with Rdiv_res. change (nmul RA) with Rmult. split.
  - intros Hv. assert (0 < v * v) by nra. assert (E : Rdec 8181 (-2) = 8181 / 100) by (rdec; field).
    exists (Rdec 8181 (-2) / (v * v)). rewrite Rdiv_res_ok by lra. repeat split.
    + rewrite E. apply Rdiv_lt_0_compat; lra.
    + rewrite E. field. lra.
    + replace (- v * - v) with (v * v) by ring. now rewrite Rdiv_res_ok by lra.
  - intros ->. unfold Rdiv_res. rewrite Rmult_0_l. destruct (Req_EM_T 0 0); [reflexivity|now elim n].
Qed.

(** * Binary64 conversions *)
Definition u53 : R := bpow radix2 (-53).
Lemma u53_val : u53 = / 9007199254740992.
Proof. unfold u53. cbn. lra. Qed.
Lemma bpow51 : bpow radix2 (-51) = 4 * u53.
Proof. rewrite u53_val. cbn. lra. Qed.
Lemma rnd_min : rnd (bpow radix2 (-1022)) = bpow radix2 (-1022).
Proof. apply round_generic; [apply valid_rnd_N|]. apply generic_format_bpow. unfold FLT_exp. lia. Qed.
Lemma rnd_rel r : bpow radix2 (-1021) <= Rabs (rnd r) ->
  exists eps, Rabs eps <= u53 /\ rnd r = r * (1 + eps).
Proof.
  intros H. assert (Hr : bpow radix2 (-1022) <= Rabs r).
  { destruct (Rle_or_lt (bpow radix2 (-1022)) (Rabs r)) as [|Hl]; [assumption|exfalso].
    assert (H1 : rnd (Rabs r) <= bpow radix2 (-1022)) by (rewrite <- rnd_min; apply rnd_le; lra).
    rewrite rnd_abs in H1. pose proof (bpow_lt radix2 (-1022) (-1021) ltac:(lia)). lra. }
  destruct (relative_error_N_FLT_ex radix2 (-1074) 53 ltac:(reflexivity) (fun x => negb (Z.even x)) r Hr) as (eps & He & E).
  exists eps. split; [|exact E]. eapply Rle_trans; [exact He|]. rewrite u53_val. cbn. lra.
Qed.
Lemma rounded_rel r z : rounded_to r z -> normal_f z ->
  exists eps, Rabs eps <= u53 /\ FR z = r * (1 + eps).
Proof.
  intros (V & H1 & H2) [Hf Hn]. destruct (Rlt_or_le (Rabs (rnd r)) fmax_bound) as [Hl|Hl].
  - destruct (H1 Hl) as [E _]. rewrite E in *. now apply rnd_rel.
  - destruct (H2 Hl) as [s ->]. discriminate.
Qed.
Lemma rounded_valid r z : rounded_to r z -> valid z = true.
Proof. now intros (V & _). Qed.

Lemma two_steps v w e1 e2 k : Rabs e1 <= u53 -> Rabs e2 <= u53 -> Rabs k <= u53 ->
  w = v * (1 + e1) * (1 + k) * (1 + e2) -> Rabs (w - v) <= bpow radix2 (-51) * Rabs v.
Proof.
  intros H1 H2 H3 ->. rewrite bpow51.
  replace (v * (1 + e1) * (1 + k) * (1 + e2) - v) with (v * ((1 + e1) * (1 + k) * (1 + e2) - 1)) by ring.
  rewrite Rabs_mult, Rmult_comm. apply Rmult_le_compat_r; [apply Rabs_pos|].
  pose proof u53_val as U. assert (Hu : 0 < u53 < / 1000) by (rewrite U; lra).
  apply Rabs_le. apply Rabs_le_inv in H1. apply Rabs_le_inv in H2. apply Rabs_le_inv in H3.
  assert (B12 : - (u53 / 100) <= e1 * k <= u53 / 100) by nra.
  assert (B13 : - (u53 / 100) <= e1 * e2 <= u53 / 100) by nra.
  assert (B23 : - (u53 / 100) <= k * e2 <= u53 / 100) by nra.
  assert (B123 : - (u53 / 100) <= (e1 * k) * e2 <= u53 / 100) by nra.
  replace ((1 + e1) * (1 + k) * (1 + e2) - 1) with (e1 + k + e2 + e1 * k + e1 * e2 + k * e2 + (e1 * k) * e2) by ring.
  lra.
Qed.
Lemma zero_le_u53 : Rabs 0 <= u53.
Proof. rewrite Rabs_R0, u53_val. lra. Qed.

Definition good (c : float) : Prop := valid c = true /\ is_finite_f c = true /\ FR c <> 0 /\ is_zero_f c = false.

Lemma undo_div_mul c : good c -> undoes (fun v => py_fdiv v c) (fun w => Ok (fmul w c)).
Proof.
  intros (Vc & Fc & Nc & Zc) v Vv Fv. unfold py_fdiv. rewrite Zc. eexists _, _. split; [reflexivity|]. split; [reflexivity|].
  intros Hw Hz. pose proof (fdiv_R v c Vv Vc Fv Fc Nc) as R1.
  destruct (rounded_rel _ _ R1 Hw) as (e1 & He1 & E1).
  pose proof (fmul_R _ c (rounded_valid _ _ R1) Vc (proj1 Hw) Fc) as R2.
  destruct (rounded_rel _ _ R2 Hz) as (e2 & He2 & E2).
  unfold close. apply (two_steps _ _ e1 e2 0 He1 He2 zero_le_u53). rewrite E2, E1. now field.
Qed.
Lemma undo_mul_div c : good c -> undoes (fun v => Ok (fmul v c)) (fun w => py_fdiv w c).
Proof.
  intros (Vc & Fc & Nc & Zc) v Vv Fv. unfold py_fdiv. rewrite Zc. eexists _, _. split; [reflexivity|]. split; [reflexivity|].
  intros Hw Hz. pose proof (fmul_R v c Vv Vc Fv Fc) as R1.
  destruct (rounded_rel _ _ R1 Hw) as (e1 & He1 & E1).
  pose proof (fdiv_R _ c (rounded_valid _ _ R1) Vc (proj1 Hw) Fc Nc) as R2.
  destruct (rounded_rel _ _ R2 Hz) as (e2 & He2 & E2).
  unfold close. apply (two_steps _ _ e1 e2 0 He1 He2 zero_le_u53). rewrite E2, E1. now field.
Qed.
Lemma undo_mul_mul c d : good c -> good d -> Rabs (FR c * FR d - 1) <= u53 ->
  undoes (fun v => Ok (fmul v c)) (fun w => Ok (fmul w d)).
Proof.
  intros (Vc & Fc & Nc & Zc) (Vd & Fd & Nd & Zd) Hk v Vv Fv. eexists _, _. split; [reflexivity|]. split; [reflexivity|].
  intros Hw Hz. pose proof (fmul_R v c Vv Vc Fv Fc) as R1.
  destruct (rounded_rel _ _ R1 Hw) as (e1 & He1 & E1).
  pose proof (fmul_R _ d (rounded_valid _ _ R1) Vd (proj1 Hw) Fd) as R2.
  destruct (rounded_rel _ _ R2 Hz) as (e2 & He2 & E2).
  unfold close. apply (two_steps _ _ e1 e2 (FR c * FR d - 1) He1 He2 Hk). rewrite E2, E1. ring.
Qed.

Lemma good_finite c s m e : c = S754_finite s m e -> SpecFloat.valid_binary prec emax c = true -> good c.
Proof.
  intros E V. repeat split; [assumption|now rewrite E| |now rewrite E].
  rewrite E. unfold FR, SF2R, F2R. cbn. apply Rmult_integral_contrapositive_currified.
  - apply not_0_IZR. destruct s; discriminate.
  - pose proof (bpow_gt_0 radix2 e). lra.
Qed.
Ltac good_tac := eapply good_finite; [vm_compute; reflexivity|vm_compute; reflexivity].
Lemma good_100 : good (fdec 100 0). Proof. good_tac. Qed.
Lemma good_3600 : good (fdec 3600 0). Proof. good_tac. Qed.
Lemma good_86400 : good (fdec 86400 0). Proof. good_tac. Qed.
Lemma good_1e24 : good (fdec 1 24). Proof. good_tac. Qed.
Lemma good_ev : good (fdec 1602 (-22)). Proof. good_tac. Qed.
Lemma good_1em8 : good (fdec 1 (-8)). Proof. good_tac. Qed.
Lemma good_1e8 : good (fdec 1 8). Proof. good_tac. Qed.
Lemma shake_product : Rabs (FR (fdec 1 (-8)) * FR (fdec 1 8) - 1) <= u53.
Proof.
  rewrite u53_val. let a := eval vm_compute in (fdec 1 (-8)) in change (fdec 1 (-8)) with a || replace (fdec 1 (-8)) with a by (vm_compute; reflexivity).
  let a := eval vm_compute in (fdec 1 8) in replace (fdec 1 8) with a by (vm_compute; reflexivity).
  unfold FR, SF2R, F2R. cbn. apply Rabs_le. lra.
Qed.
Lemma float_roundtrips :
  undoes (rem_to_Sv FA) (sv_to_rem FA) /\ undoes (sv_to_rem FA) (rem_to_Sv FA) /\
  undoes (hour_to_second FA) (second_to_hour FA) /\ undoes (second_to_hour FA) (hour_to_second FA) /\
  undoes (day_to_second FA) (second_to_day FA) /\ undoes (second_to_day FA) (day_to_second FA) /\
  undoes (shake_to_second FA) (second_to_shake FA) /\ undoes (second_to_shake FA) (shake_to_second FA) /\
  undoes (barn_to_cm2 FA) (cm2_to_barn FA) /\ undoes (cm2_to_barn FA) (barn_to_cm2 FA) /\
  undoes (eV_to_joule FA) (joule_to_ev FA) /\ undoes (joule_to_ev FA) (eV_to_joule FA).
Proof.
  repeat split.
  - apply undo_div_mul, good_100.
  - apply undo_mul_div, good_100.
  - apply undo_mul_div, good_3600.
  - apply undo_div_mul, good_3600.
  - apply undo_mul_div, good_86400.
  - apply undo_div_mul, good_86400.
  - apply undo_mul_mul; [apply good_1em8|apply good_1e8|apply shake_product].
  - apply undo_mul_mul; [apply good_1e8|apply good_1em8|rewrite Rmult_comm; apply shake_product].
  - apply undo_div_mul, good_1e24.
  - apply undo_mul_div, good_1e24.
  - apply undo_mul_div, good_ev.
  - apply undo_div_mul, good_ev.
Qed.
