(** Lemmas about the integral of a spectrum, ratios, slices and heat maps. *)
From Coq Require Import Reals Lra Lia Sorted Floats.SpecFloat.
From Flocq Require Import Core Relative BinarySingleNaN.
From Verif Require Import PyBase PyFacts PyFloat FloatFacts FloatR FloatZ PyFs SpecStr M_util SpecUtil P_util M_fisana M_mcout M_mcana SpecFis P_fisout SpecMcana P_mcana P_mcana2 P_mcana3.
From Verif Require P_mesh5.
Import ListNotations.

(** * Dividing by the width and multiplying with it again *)
Lemma width_integral a b r : nonneg a -> nonneg b -> (FR a < FR b)%R -> finite r -> is_finite_f (fdiv r (fsub b a)) = true ->
  (Rabs (FR (fdiv r (fsub b a)) * (FR b - FR a) - FR r) <= 4 * u53 * Rabs (FR r) + bpow radix2 (-1075) * (FR b - FR a))%R.
Proof.
  intros Na Nb L [Vr Fr] Fq. destruct (fsub_edges a b Na Nb ltac:(lra)) as ([[Vw Fw] _] & Ew & Pw). specialize (Pw L).
  set (w := fsub b a) in *. set (W := (FR b - FR a)%R) in *. assert (PW : (0 < W)%R) by (unfold W; lra).
  destruct (fdiv_R r w Vr Vw Fr Fw ltac:(lra)) as (Vq & O1 & O2).
  destruct (Rlt_le_dec (Rabs (rnd (FR r / FR w))) fmax_bound) as [B|B]; [|destruct (O2 B) as [s Es]; rewrite Es in Fq; discriminate].
  destruct (O1 B) as [E1 _]. rewrite E1. pose proof (P_mesh5.rnd_error (FR r / FR w)) as Q. fold u53 in Q.
  set (x := (FR r / FR w)%R) in *. set (eta := bpow radix2 (-1075)) in *. pose proof u53_pos as U.
  replace (rnd x * W - FR r)%R with ((rnd x - x) * W + x * (W - FR w))%R by (unfold x; field; lra).
  apply Rle_trans with (1 := Rabs_triang _ _). rewrite !Rabs_mult, (Rabs_pos_eq W) by lra.
  assert (Ax : (Rabs x * FR w = Rabs (FR r))%R).
  { rewrite <- (Rabs_pos_eq (FR w)) at 1 by lra. rewrite <- Rabs_mult. f_equal. unfold x. field. lra. }
  rewrite Rabs_minus_sym in Ew. pose proof (Rabs_pos x) as Px.
  assert (WW : (W <= 2 * FR w)%R) by (apply Rabs_le_inv in Ew; nra).
  assert (K : (Rabs x * W <= 2 * Rabs (FR r))%R) by (rewrite <- Ax; nra).
  assert (K1 : (Rabs (rnd x - x) * W <= (u53 * Rabs x + eta) * W)%R) by (apply Rmult_le_compat_r; lra).
  assert (K2 : (Rabs x * Rabs (W - FR w) <= Rabs x * (u53 * W))%R) by (apply Rmult_le_compat_l; lra).
  nra.
Qed.

(** * Ratios *)
Lemma ratio_spec eng a b ra rb : length a = length eng -> length b = length eng -> 2 <= length eng ->
  exists y, plot_spectra_ratio eng (a :: ra) (b :: rb) = Ok [DCurve None eng y] /\ length y = length eng /\
    forall i p q, nth_error a i = Some p -> nth_error b i = Some q -> nth_error y i = Some (fdiv p q).
Proof.
  intros La Lb L. unfold plot_spectra_ratio. change 0%Z with (Z.of_nat 0). rewrite !py_nth_nat. cbn [nth_error bind].
  rewrite array_div_same by lia. cbn [bind]. unfold mpl_curve. rewrite map_length, combine_length, La, Lb, Nat.min_id, Nat.eqb_refl. cbn [bind].
  eexists. split; [reflexivity|]. split; [rewrite map_length, combine_length; lia|]. intros i p q Hp Hq.
  exact (map_nth_error (fun p => fdiv (fst p) (snd p)) i _ (combine_nth_error _ _ i _ _ Hp Hq)).
Qed.
Lemma div_self x : finite x -> (FR x <> 0)%R -> FR (fdiv x x) = 1%R.
Proof.
  intros [V F] N. destruct (fdiv_R x x V V F F N) as (_ & O & _). replace (FR x / FR x)%R with 1%R in O by (field; exact N).
  assert (E : rnd 1 = 1%R).
  { destruct (f_of_Z_R 1 eq_refl) as (V1 & _ & E1). change (IZR 1) with 1%R in E1. rewrite <- E1. now apply rnd_FR. }
  rewrite E in O. apply O. rewrite Rabs_R1. unfold fmax_bound. change 1%R with (bpow radix2 0). apply bpow_lt. reflexivity.
Qed.
Lemma ratio_errors eng a b ra rb rows : plot_spectra_ratio eng [] rows = Err IndexError /\
  plot_spectra_ratio eng (a :: ra) [] = Err IndexError /\
  (length a <> length b -> 2 <= length a -> 2 <= length b -> plot_spectra_ratio eng (a :: ra) (b :: rb) = Err ValueError).
Proof.
  split; [reflexivity|]. split; [reflexivity|]. intros N La Lb. unfold plot_spectra_ratio. change 0%Z with (Z.of_nat 0). rewrite !py_nth_nat. cbn [nth_error bind].
  destruct a as [|a1 [|a2 a]], b as [|b1 [|b2 b]]; cbn in La, Lb; try lia. unfold array_div, series_div.
  apply Nat.eqb_neq in N. rewrite N. reflexivity.
Qed.

(** * A spectrum at one time *)
Lemma time_slice_spec tt es ts m f ds : no_nan (map (fun t => dist t tt) ts) ->
  time_slice tt es ts m f = Ok ds <->
  exists j y, first_least (map (fun t => dist t tt) ts) j /\ ds = [DCurve None es y] /\ length m = length es /\
    Forall2 (fun row v => exists x, nth_error row j = Some x /\ v = fmul x f) m y.
Proof.
  intros N. unfold time_slice. split.
  - intros H. destruct (nearest ts tt) as [j|] eqn:E; [|discriminate]. cbn [bind] in H.
    destruct (mapM _ m) as [col|] eqn:M; [|discriminate]. cbn [bind] in H.
    unfold mpl_curve in H. destruct (Nat.eqb_spec (length es) (length (normalise col f))) as [L|]; [|discriminate]. injection H as <-.
    exists j, (normalise col f). split; [now apply nearest_iff|]. split; [reflexivity|].
    apply (mapM_Forall2 _ _ _ _ (fun x y => iff_refl _)) in M. unfold normalise in *. rewrite map_length in L.
    split; [|].
    + rewrite L. clear -M. induction M; cbn; congruence.
    + clear -M. induction M as [|row x m col H M IH]; constructor; auto. exists x. split; [|reflexivity].
      rewrite py_nth_nat in H. destruct (nth_error row j); congruence.
  - intros (j & y & Hj & -> & L & F). apply nearest_iff in Hj; auto. rewrite Hj. cbn [bind].
    assert (M : exists col, mapM (fun row => py_nth row (Z.of_nat j)) m = Ok col /\ y = normalise col f).
    { clear -F. induction F as [|row v m y (x & Hx & ->) F (col & M & ->)]; [exists []; now split|].
      exists (x :: col). cbn. rewrite py_nth_nat, Hx. cbn. rewrite M. now split. }
    destruct M as (col & -> & ->). cbn [bind]. unfold mpl_curve.
    assert (Q : length es = length (normalise col f)) by (rewrite <- L; clear -F; induction F; cbn; congruence).
    apply Nat.eqb_eq in Q. rewrite Q. reflexivity.
Qed.

(** * Time distributions *)
(** A matrix with as many columns as there are times is always refused. *)
Lemma energy_slice_shape np te es ts m a b w f tot : Forall (fun r => length r = length ts) m ->
  exists e, energy_slice np te es ts m a b w f tot = Err e.
Proof.
  intros M. unfold energy_slice. destruct (mapM (nearest es) te) as [ix|e]; [|now exists e]. cbn [bind].
  destruct ix as [|i ix].
  - cbn [mapM bind map]. destruct tot.
    + destruct (mpl_curve _ _ _); [|now eexists]. cbn [bind].
      destruct a as [a|], b as [b|]; cbn [bind fst snd mpl_lim_opt]; unfold mpl_lim;
        repeat (match goal with |- context [if is_finite_f ?x then _ else _] => destruct (is_finite_f x) end; cbn [bind]); now eexists.
    + cbn [bind]. destruct a as [a|], b as [b|]; cbn [bind fst snd mpl_lim_opt]; unfold mpl_lim;
        repeat (match goal with |- context [if is_finite_f ?x then _ else _] => destruct (is_finite_f x) end; cbn [bind]); now eexists.
  - assert (Q : exists e, one_energy (shakes_to_ms ts) m f i = Err e).
    { unfold one_energy. rewrite py_nth_nat. destruct (nth_error m i) as [row|] eqn:R; [|now eexists]. cbn [bind].
      apply nth_error_In in R. apply (proj1 (Forall_forall _ _) M) in R.
      destruct (np_argmax _) as [j|] eqn:J; [|now eexists]. cbn [bind]. apply argmax_bound in J.
      rewrite py_nth_nat. destruct (nth_error _ j); [|now eexists]. cbn [bind]. rewrite py_nth_nat.
      destruct (nth_error (shakes_to_ms ts) j); [|now eexists]. cbn [bind]. unfold mpl_curve.
      change (-1)%Z with (- Z.of_nat 1)%Z. rewrite slice_to_neg, firstn_length. unfold zlen in J. rewrite slice_to_nat, firstn_length in J.
      unfold normalise, shakes_to_ms in *. rewrite !map_length in *. rewrite R in *.
      destruct (Nat.eqb_spec (length ts) (Nat.min (length ts - 1) (length ts))); [lia|]. now eexists. }
    destruct Q as [e Q]. cbn [mapM]. rewrite Q. now exists e.
Qed.
