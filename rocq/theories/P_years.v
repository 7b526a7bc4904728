(** Proofs about the time columns of the FISPACT summary. *)
From Coq Require Import Reals Lra Lia Floats.SpecFloat.
From Flocq Require Import Core.
From Verif Require Import PyBase PyFacts PyFloat FloatFacts FloatR FloatZ PyFrame Float32 PyArith PyArithR M_const SpecConst P_const PiBound M_geomf SpecGeomf P_geomf P_geomf2 M_util M_fisout.
Local Open Scope R_scope.

Lemma days_approx : approx days_per_year 1 (3654 / 10) 8 9.
Proof. unfold days_per_year. const_approx 44%Z. Qed.
Lemma hours_approx : approx hours_per_year 2 (3654 / 10 * 24) 13 14.
Proof. unfold hours_per_year, days_per_year. const_approx 39%Z. Qed.
Lemma seconds_approx : approx seconds_per_year 2 (3654 / 10 * 86400) 24 25.
Proof. unfold seconds_per_year, days_per_year. const_approx 28%Z. Qed.
Lemma julian_approx : approx (fdec 36525 (-2)) 0 (36525 / 100) 8 9.
Proof. const_approx 44%Z. Qed.
Lemma c24_approx : approx (fdec 24 0) 0 24 4 5.
Proof. const_approx 48%Z. Qed.
Lemma c60_approx : approx (fdec 60 0) 0 60 5 6.
Proof. const_approx 47%Z. Qed.

Lemma summary_in data out r dhs : read_summary_data data = Ok out -> In (r, dhs) out ->
  dhs = (fmul (time_years r) days_per_year, fmul (time_years r) hours_per_year, fmul (time_years r) seconds_per_year).
Proof.
  unfold read_summary_data. destruct (find_summary_block _ _) as [se|e]; cbn [bind]; [|discriminate]. destruct (isFisII data).
  - destruct (sum_loop _ _ _ _) as [rows|e]; cbn [bind]; [|discriminate]. intros [= <-] H. apply in_map_iff in H as (x & E & _). unfold add_time_columns in E. now injection E as <- <-.
  - destruct (slice_btw _ _ _); [|discriminate]. intros [= <-] [].
Qed.
Lemma columns_scale data out r d h s : read_summary_data data = Ok out -> In (r, (d, h, s)) out -> moderate (time_years r) ->
  within 3 (FR d) (FR (time_years r) * (3654 / 10)) /\ within 4 (FR h) (FR (time_years r) * (3654 / 10 * 24)) /\ within 4 (FR s) (FR (time_years r) * (3654 / 10 * 86400)).
Proof.
  intros H I M. pose proof (summary_in _ _ _ _ H I) as E. injection E as -> -> ->. apply moderate_approx in M. repeat split.
  - exact (proj2 (approx_out _ _ _ _ _ (approx_mul _ _ _ _ _ _ _ _ _ _ M days_approx ltac:(lia) ltac:(lia)) ltac:(lia))).
  - exact (proj2 (approx_out _ _ _ _ _ (approx_mul _ _ _ _ _ _ _ _ _ _ M hours_approx ltac:(lia) ltac:(lia)) ltac:(lia))).
  - exact (proj2 (approx_out _ _ _ _ _ (approx_mul _ _ _ _ _ _ _ _ _ _ M seconds_approx ltac:(lia) ltac:(lia)) ltac:(lia))).
Qed.
Lemma const_le c n X a b : approx c n X a b -> le_l c c.
Proof. intros (O & L & B). pose proof (rel_nonneg _ _ _ L). split; [|split]; try (split; assumption). apply Rle_refl. Qed.
Lemma columns_order data out r d h s r' d' h' s' : read_summary_data data = Ok out -> In (r, (d, h, s)) out -> In (r', (d', h', s')) out ->
  length_f (time_years r) -> length_f (time_years r') -> is_finite_f s' = true -> FR (time_years r) <= FR (time_years r') ->
  (is_finite_f d' = true -> fle d d' = true) /\ (is_finite_f h' = true -> fle h h' = true) /\ fle s s' = true.
Proof.
  intros H I I' L L' F Q. pose proof (summary_in _ _ _ _ H I) as E. injection E as -> -> ->. pose proof (summary_in _ _ _ _ H I') as E. injection E as -> -> ->.
  assert (K : le_l (time_years r) (time_years r')) by (now repeat split; try apply L; try apply L').
  assert (G : forall c, le_l c c -> is_finite_f (fmul (time_years r') c) = true -> fle (fmul (time_years r) c) (fmul (time_years r') c) = true).
  { intros c Hc Fc. pose proof (mul_mono _ _ _ _ K Hc Fc) as (A & B & C). apply fle_R; [apply A|apply B|apply A|apply B|exact C]. }
  repeat split; intros; apply G; try assumption; eapply const_le; [apply days_approx|apply hours_approx|apply seconds_approx].
Qed.
(** 365.25 days of neut_constants.py. *)
Lemma years_differ data out r d h s : read_summary_data data = Ok out -> In (r, (d, h, s)) out -> moderate (time_years r) ->
  exists d' h' s', years_to_days FA (time_years r) = Ok d' /\ years_to_hrs FA (time_years r) = Ok h' /\ years_to_seconds FA (time_years r) = Ok s' /\
    flt d' d = true /\ flt h' h = true /\ flt s' s = true.
Proof.
  intros H I M. pose proof (summary_in _ _ _ _ H I) as E. injection E as -> -> ->. assert (P : 0 < FR (time_years r)) by (destruct M as (_ & B); pose proof (bpow_gt_0 radix2 (-300)); lra).
  apply moderate_approx in M. do 3 eexists. split; [reflexivity|]. split; [reflexivity|]. split; [reflexivity|]. cbn [nmul ndec FA].
  pose proof (approx_mul _ _ _ _ _ _ _ _ _ _ M julian_approx ltac:(lia) ltac:(lia)) as J.
  pose proof (approx_mul _ _ _ _ _ _ _ _ _ _ J c24_approx ltac:(lia) ltac:(lia)) as J2.
  pose proof (approx_mul _ _ _ _ _ _ _ _ _ _ J2 c60_approx ltac:(lia) ltac:(lia)) as J3.
  pose proof (approx_mul _ _ _ _ _ _ _ _ _ _ J3 c60_approx ltac:(lia) ltac:(lia)) as J4.
  pose proof (approx_mul _ _ _ _ _ _ _ _ _ _ M days_approx ltac:(lia) ltac:(lia)) as D.
  pose proof (approx_mul _ _ _ _ _ _ _ _ _ _ M hours_approx ltac:(lia) ltac:(lia)) as D2.
  pose proof (approx_mul _ _ _ _ _ _ _ _ _ _ M seconds_approx ltac:(lia) ltac:(lia)) as D4.
  assert (G : forall x n X a b y m Y c e, approx x n X a b -> approx y m Y c e -> (n <= 20)%nat -> (m <= 20)%nat -> X * (1 + / 5000) <= Y -> 0 < X -> flt x y = true).
  { intros x n X a b y m Y c e (O & L & _) (O' & L' & _) Hn Hm Q Px. apply flt_R; [apply O|apply O'|apply O|apply O'|].
    apply (rel_within n _ _ Hn) in L. apply (rel_within m _ _ Hm) in L'. unfold within in L, L'. fold u53 in L, L'. apply Rabs_le_inv in L, L'.
    assert (N : IZR (Z.of_nat n + 1) <= 21) by (apply IZR_le; lia). assert (N' : IZR (Z.of_nat m + 1) <= 21) by (apply IZR_le; lia).
    assert (N0 : 0 <= IZR (Z.of_nat n + 1)) by (apply IZR_le; lia). assert (N0' : 0 <= IZR (Z.of_nat m + 1)) by (apply IZR_le; lia).
    pose proof u_pos as U. pose proof u_small as U2. assert (IZR (Z.of_nat n + 1) * u53 <= 21 / 1000000) by nra. assert (IZR (Z.of_nat m + 1) * u53 <= 21 / 1000000) by nra. nra. }
  split; [|split].
  - eapply G; [exact J|exact D|lia|lia|lra|lra].
  - eapply G; [exact J2|exact D2|lia|lia|lra|lra].
  - eapply G; [exact J4|exact D4|lia|lia|lra|lra].
Qed.
