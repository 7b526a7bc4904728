(** Lemmas about the view of a time distribution, heat maps and run comparisons. *)
From Coq Require Import Reals Lra Lia Sorted Floats.SpecFloat.
From Flocq Require Import Core Relative BinarySingleNaN.
From Verif Require Import PyBase PyFacts PyFloat FloatFacts FloatR FloatZ PyFs SpecStr M_util SpecUtil P_util M_fisana M_mcout M_mcana SpecFis P_fisout SpecMcana P_mcana P_mcana2 P_mcana3 P_mcana4.
Import ListNotations.

Lemma rounded_finite r z : rounded_to r z -> is_finite_f z = true -> FR z = rnd r.
Proof.
  intros (_ & O1 & O2) F. destruct (Rlt_le_dec (Rabs (rnd r)) fmax_bound) as [B|B]; [now apply O1|].
  destruct (O2 B) as [s E]. rewrite E in F. discriminate.
Qed.
Lemma rounded_not_nan r z : rounded_to r z -> is_nan_f z = false.
Proof.
  intros (_ & O1 & O2). destruct (Rlt_le_dec (Rabs (rnd r)) fmax_bound) as [B|B].
  - destruct (O1 B) as [_ F]. now apply finite_not_nan.
  - destruct (O2 B) as [s E]. now rewrite E.
Qed.
Lemma fmul_finite_l x y : is_finite_f (fmul x y) = true -> is_finite_f x = true /\ is_finite_f y = true.
Proof. destruct x, y; cbn; intros; try discriminate; auto. Qed.
(** Multiplying with a number that is not negative keeps the order. *)
Lemma fmul_mono x y f : nonneg x -> valid y = true -> nonneg f -> is_finite_f (fmul y f) = true -> (FR x <= FR y)%R ->
  nonneg (fmul x f) /\ (FR (fmul x f) <= FR (fmul y f))%R.
Proof.
  intros [[Vx Fx] Px] Vy [[Vf Ff] Pf] F L. destruct (fmul_finite_l _ _ F) as [Fy _].
  pose proof (fmul_R y f Vy Vf Fy Ff) as Ry. pose proof (fmul_R x f Vx Vf Fx Ff) as Rx.
  pose proof (rounded_finite _ _ Ry F) as Ey. destruct Ry as (V & _ & _). 
  assert (A : (0 <= FR x * FR f <= FR y * FR f)%R) by (split; [apply Rmult_le_pos; lra|apply Rmult_le_compat_r; lra]).
  assert (B : (0 <= rnd (FR x * FR f) <= rnd (FR y * FR f))%R) by (split; [rewrite <- rnd_0; apply rnd_le|apply rnd_le]; lra).
  pose proof (FR_lt_max _ V) as M. rewrite Ey in M.
  assert (C : (Rabs (rnd (FR x * FR f)) < fmax_bound)%R).
  { rewrite Rabs_pos_eq by lra. rewrite Rabs_pos_eq in M by lra. lra. }
  destruct Rx as (Vz & O & _). destruct (O C) as [Ez Fz]. split; [split; [now split|]; rewrite Ez; lra|]. rewrite Ez, Ey. lra.
Qed.
Lemma headroom : nonneg (fdec 105 (-2)) /\ (1 <= FR (fdec 105 (-2)))%R.
Proof.
  assert (V : valid (fdec 105 (-2)) = true) by reflexivity. assert (F : is_finite_f (fdec 105 (-2)) = true) by reflexivity.
  assert (L : (1 <= FR (fdec 105 (-2)))%R).
  { destruct (f_of_Z_R 1 eq_refl) as (V1 & F1 & E1). change (IZR 1) with 1%R in E1. rewrite <- E1. apply fle_R; auto. }
  split; [split; [now split|lra]|exact L].
Qed.
Lemma fmul_headroom x : nonneg x -> is_finite_f (fmul x (fdec 105 (-2))) = true -> (FR x <= FR (fmul x (fdec 105 (-2))))%R.
Proof.
  intros [[V F] P] Fm. destruct headroom as [[[Vh Fh] _] H]. rewrite (rounded_finite _ _ (fmul_R x _ V Vh F Fh) Fm).
  rewrite <- (rnd_FR x V) at 1. apply rnd_le. nra.
Qed.
Lemma hundred_R : finite (f_of_Z 100) /\ FR (f_of_Z 100) = 100%R.
Proof. destruct (f_of_Z_R 100 eq_refl) as (V & F & E). repeat split; auto. Qed.
Lemma div_hundred t : finite t -> finite (fdiv t (f_of_Z 100)) /\ FR (fdiv t (f_of_Z 100)) = rnd (FR t / 100).
Proof.
  intros [V F]. destruct hundred_R as [[Vh Fh] Eh]. destruct (fdiv_R t (f_of_Z 100) V Vh F Fh ltac:(rewrite Eh; lra)) as (Vq & O & _).
  rewrite Eh in O.
  assert (B : (Rabs (rnd (FR t / 100)) < fmax_bound)%R).
  { rewrite <- rnd_abs. pose proof (FR_lt_max t V) as M. apply Rle_lt_trans with (2 := M).
    rewrite <- (rnd_FR t V) at 2. rewrite <- rnd_abs. apply rnd_le. unfold Rdiv. rewrite Rabs_mult, (Rabs_pos_eq (/ 100)) by lra.
    pose proof (Rabs_pos (FR t)). lra. }
  destruct (O B) as [E Fq]. now repeat split.
Qed.
Lemma div_hundred_mono a b : finite a -> finite b -> (FR a <= FR b)%R -> fle (fdiv a (f_of_Z 100)) (fdiv b (f_of_Z 100)) = true.
Proof.
  intros Fa Fb L. destruct (div_hundred a Fa) as [[Va Ga] Ea]. destruct (div_hundred b Fb) as [[Vb Gb] Eb].
  apply fle_R; auto. rewrite Ea, Eb. apply rnd_le. lra.
Qed.
Lemma sorted_le_nth (l : list float) : StronglySorted (fun a b => (FR a <= FR b)%R) l -> forall i j a b, i <= j ->
  nth_error l i = Some a -> nth_error l j = Some b -> (FR a <= FR b)%R.
Proof.
  induction 1 as [|x l S IH L]; intros [|i] [|j] a b H Ha Hb; try discriminate; try lia.
  - injection Ha as <-. injection Hb as <-. lra.
  - injection Ha as <-. apply (nth_error_In l j) in Hb. now apply (proj1 (Forall_forall _ _) L) in Hb.
  - apply (IH i j a b); auto. lia.
Qed.
Lemma times_nth ts i t : nth_error ts i = Some t -> nth_error (shakes_to_ms ts) i = Some (fdiv t (f_of_Z 100)).
Proof. intros H. exact (map_nth_error (fun t => fdiv t (f_of_Z 100)) i ts H). Qed.
Lemma times_length ts : length (shakes_to_ms ts) = length ts.
Proof. apply map_length. Qed.
Lemma median_one p : median_idx [p] = Ok p.
Proof.
  unfold median_idx. change (sort_nat [p]) with [p]. cbn [length]. change (1 - 1) with 0. change (Nat.div 0 2) with 0. change (Nat.div 1 2) with 0.
  cbn [nth]. f_equal. replace (p + p) with (p * 2) by lia. apply Nat.div_mul. lia.
Qed.

Lemma one_energy_spec times m f i p v c : nonneg f -> Forall (Forall nonneg) m ->
  one_energy times m f i = Ok (p, v, c) -> exists row x, nth_error m i = Some row /\ length row = S (length times) /\ nth_error row p = Some x /\
    v = fmul x f /\ p < length times /\ c = DCurve None times (firstn (length times) (normalise row f)) /\
    first_greatest (firstn (length times) (normalise row f)) p.
Proof.
  intros Nf M H. unfold one_energy in H. unbind H. injection H as <- <- <-.
  rewrite py_nth_nat in E. destruct (nth_error m i) as [row|] eqn:R; [|discriminate]. injection E as <-.
  unfold zlen in *. rewrite slice_to_nat in *.
  pose proof (argmax_bound _ _ E0) as B. rewrite firstn_length in B.
  rewrite py_nth_nat in E1. rewrite nth_error_firstn_lt in E1 by lia. unfold normalise in E1 at 1. rewrite nth_error_map in E1.
  destruct (nth_error row v1) as [x|] eqn:X; [|discriminate]. injection E1 as <-.
  unfold mpl_curve in E3. change (-1)%Z with (- Z.of_nat 1)%Z in E3. rewrite slice_to_neg in E3.
  match type of E3 with (if ?c then _ else _) = _ => destruct c eqn:L; [|discriminate] end. injection E3 as <-.
  apply Nat.eqb_eq in L. rewrite firstn_length in L. unfold normalise in L, B |- *. rewrite map_length in L, B |- *.
  assert (Lr : length row = S (length times)) by lia.
  exists row, x. split; [reflexivity|]. split; [exact Lr|]. split; [exact X|]. split; [reflexivity|]. split; [lia|].
  replace (length row - 1) with (length times) by lia. split; [reflexivity|].
  apply argmax_iff; [|exact E0]. apply Forall_forall. intros z Hz. 
  assert (Hz' : In z (map (fun x => fmul x f) row)) by (rewrite <- (firstn_skipn (length times) (map _ row)); apply in_or_app; now left).
  apply in_map_iff in Hz'. destruct Hz' as (q & <- & Hq). apply nth_error_In in R. apply (proj1 (Forall_forall _ _) M) in R.
  apply (proj1 (Forall_forall _ _) R) in Hq. destruct Hq as [[Vq Fq] _]. destruct Nf as [[Vf Ff] _]. exact (rounded_not_nan _ _ (fmul_R q f Vq Vf Fq Ff)).
Qed.

Lemma peak_in_view np te es ts m w f tot ds : sums np -> nonneg f -> Forall (Forall nonneg) m -> (0 <= w)%Z ->
  (forall r1 r2, In r1 m -> In r2 m -> length r1 = length r2) ->
  no_nan (map (fun e => dist e te) es) ->
  Forall finite ts -> StronglySorted (fun a b => (FR a <= FR b)%R) ts ->
  energy_slice np [te] es ts m None None w f tot = Ok ds ->
  exists i row j t x a b top, first_least (map (fun e => dist e te) es) i /\ nth_error m i = Some row /\
    first_greatest (firstn (length ts) (map (fun v => fmul v f) row)) j /\
    nth_error ts j = Some t /\ nth_error row j = Some x /\
    In (DXlim (Some a) (Some b)) ds /\ In (DYlim fzero top) ds /\
    fle a (fdiv t (f_of_Z 100)) = true /\ fle (fdiv t (f_of_Z 100)) b = true /\
    fle fzero (fmul x f) = true /\ fle (fmul x f) top = true.
Proof.
  intros Hs Nf M Hw Rect Nn Ft Sd H. unfold energy_slice in H. unbind H. injection H as <-.
  cbn [mapM] in E. unbind E. injection E as <-. cbn [mapM bind] in E0. unbind E0. injection E0 as <-.
  destruct v as [[j v] c]. cbn [map fst snd] in *.
  destruct (one_energy_spec _ _ _ _ _ _ _ Nf M E) as (row & x & R & Lr & X & -> & Bj & -> & G).
  rewrite times_length in *. cbn [bind] in E2. rewrite median_one in E2. cbn [bind] in E2.
  assert (Cj : clip j (zlen (shakes_to_ms ts)) = Z.of_nat j) by (unfold clip, zlen; rewrite times_length; lia).
  rewrite Cj in E2. unfold zlen in E2. rewrite times_length in E2.
  set (lo := j - Z.to_nat w). set (hi := Nat.min (length ts - 1) (j + Z.to_nat w)).
  replace (Z.max 0 (Z.of_nat j - w)) with (Z.of_nat lo) in E2 by lia.
  replace (Z.min (Z.of_nat (length ts) - 1) (Z.of_nat j + w)) with (Z.of_nat hi) in E2 by lia.
  rewrite !py_nth_nat in E2.
  destruct (nth_error ts lo) as [ta|] eqn:Ta; [|apply nth_error_None in Ta; lia].
  destruct (nth_error ts hi) as [tb|] eqn:Tb; [|apply nth_error_None in Tb; lia].
  destruct (nth_error ts j) as [t|] eqn:Tj; [|apply nth_error_None in Tj; lia].
  rewrite (times_nth _ _ _ Ta), (times_nth _ _ _ Tb) in E2. cbn [bind] in E2. injection E2 as <-. cbn [fst snd mpl_lim_opt] in *.
  unfold mpl_lim in E3, E4, E6.
  destruct (is_finite_f (fdiv ta _)) eqn:Fa; [|discriminate]. destruct (is_finite_f (fdiv tb _)) eqn:Fb; [|discriminate].
  cbn [bind] in E3, E4. injection E3 as <-. injection E4 as <-.
  destruct (is_finite_f v5) eqn:Fv; [|discriminate]. injection E6 as <-.
  exists v7, row, j, t, x, (fdiv ta (f_of_Z 100)), (fdiv tb (f_of_Z 100)), v5.
  assert (Fin : forall k q, nth_error ts k = Some q -> finite q) by (intros k q Hq; apply nth_error_In in Hq; now apply (proj1 (Forall_forall _ _) Ft) in Hq).
  split; [now apply nearest_iff|]. split; [exact R|]. split; [exact G|]. split; [exact Tj|]. split; [exact X|].
  split; [apply in_or_app; right; apply in_or_app; right; now left|]. split; [apply in_or_app; right; apply in_or_app; right; right; now left|].
  split; [apply div_hundred_mono; eauto; apply (sorted_le_nth ts Sd lo j); auto; lia|].
  split; [apply div_hundred_mono; eauto; apply (sorted_le_nth ts Sd j hi); auto; lia|].
  (* the height *)
  assert (Nrow : Forall nonneg row) by (apply nth_error_In in R; now apply (proj1 (Forall_forall _ _) M) in R).
  assert (Nx : nonneg x) by (apply nth_error_In in X; now apply (proj1 (Forall_forall _ _) Nrow) in X).
  destruct headroom as [[[Vh Fh] Ph] Lh].
  assert (K : nonneg (fmul x f) /\ (FR (fmul x f) <= FR v5)%R /\ valid v5 = true).
  { destruct tot.
    - unbind E5. injection E5 as <-. rewrite median_one in E0. injection E0 as <-. 
      destruct m as [|r0 m]; [now destruct v7|].
      assert (L0 : length r0 = S (length ts)) by (rewrite <- Lr; apply Rect; [now left|eapply nth_error_In; eassumption]).
      unfold zlen in E2. unfold normalise, column_sums in E2. rewrite !map_length, seq_length in E2.
      replace (clip j (Z.of_nat (length r0))) with (Z.of_nat j) in E2 by (unfold clip; lia).
      rewrite py_nth_nat, !nth_error_map in E2.
      assert (Sq : nth_error (seq 0 (length r0)) j = Some j).
      { rewrite (nth_error_nth' _ 0) by (rewrite seq_length; lia). now rewrite seq_nth by lia. }
      rewrite Sq in E2. cbn [option_map] in E2. injection E2 as <-.
      set (colj := map (fun r => nth j r fzero) (r0 :: m)) in *.
      assert (Nc : Forall nonneg colj).
      { unfold colj. apply Forall_map. apply Forall_forall. intros r Hr. apply (proj1 (Forall_forall _ _) M) in Hr.
        destruct (nth_in_or_default j r fzero) as [I|I]; [now apply (proj1 (Forall_forall _ _) Hr) in I|rewrite I; apply nonneg_zero]. }
      assert (Ic : In x colj).
      { unfold colj. apply in_map_iff. exists row. split; [apply nth_error_nth; exact X|eapply nth_error_In; eassumption]. }
      destruct (Hs colj Nc) as [Vs Ls]. destruct (fmul_finite_l _ _ Fv) as [Ft1 _]. destruct (fmul_finite_l _ _ Ft1) as [Fs _].
      specialize (Ls Fs x Ic). destruct (fmul_mono x (np colj) f Nx Vs Nf Ft1 Ls) as [A B]. split; [exact A|].
      assert (Nn2 : nonneg (fmul (np colj) f)).
      { split; [split; [|exact Ft1]|]. { destruct Nf as [[Vf Ff] _]. exact (proj1 (fmul_R _ _ Vs Vf Fs Ff)). } destruct A as [_ A]. lra. }
      pose proof (fmul_headroom _ Nn2 Fv) as Hh. destruct Nn2 as [[Vn Fn] _]. split; [exact (Rle_trans _ _ _ B Hh)|exact (proj1 (fmul_R _ _ Vn Vh Fn Fh))].
    - unbind E5. injection E5 as <-. cbn in E0. injection E0 as <-. destruct (fmul_finite_l _ _ Fv) as [Ft1 _].
      assert (A : nonneg (fmul x f)) by (destruct Nx as [[Vx Fx] Px]; apply (fmul_mono x x f); auto; try lra; now repeat split).
      split; [exact A|]. split; [now apply fmul_headroom|]. destruct A as [[Va Fa2] _]. exact (proj1 (fmul_R _ _ Va Vh Fa2 Fh)). }
  destruct K as (A & B & V5).
  destruct A as [[Va Fa2] Pa]. split.
  - apply fle_R; auto. 
  - apply fle_R; auto.
Qed.

(** * Sums from left to right *)
Lemma fadd_finite_l x y : is_finite_f (fadd x y) = true -> is_finite_f x = true /\ is_finite_f y = true.
Proof. destruct x as [s|s| |s m e], y as [s'|s'| |s' m' e']; cbn; intros H; try discriminate; auto. now destruct (Bool.eqb s s'). Qed.
Lemma add_up_from l : forall acc, Forall nonneg l -> valid acc = true -> (0 <= FR acc)%R ->
  valid (fold_left fadd l acc) = true /\
  (is_finite_f (fold_left fadd l acc) = true -> is_finite_f acc = true /\ (FR acc <= FR (fold_left fadd l acc))%R /\
     forall x, In x l -> (FR x <= FR (fold_left fadd l acc))%R).
Proof.
  induction l as [|x l IH]; intros acc N V P.
  - cbn. split; [exact V|]. intros F. repeat split; auto; [lra|]. intros x [].
  - inversion N as [|? ? [[Vx Fx] Px] N']; subst. cbn [fold_left].
    destruct (is_finite_f acc) eqn:Fa.
    + destruct (fadd_R acc x V Vx Fa Fx) as (Vs & O1 & O2).
      assert (A : (0 <= rnd (FR acc + FR x) /\ FR acc <= rnd (FR acc + FR x) /\ FR x <= rnd (FR acc + FR x))%R).
      { split; [rewrite <- rnd_0; apply rnd_le; lra|]. split; [rewrite <- (rnd_FR acc V) at 1|rewrite <- (rnd_FR x Vx) at 1]; apply rnd_le; lra. }
      destruct (Rlt_le_dec (Rabs (rnd (FR acc + FR x))) fmax_bound) as [B|B].
      * destruct (O1 B) as [E Fs]. destruct (IH (fadd acc x) N' Vs ltac:(rewrite E; lra)) as [IV IL]. split; [exact IV|].
        intros F. destruct (IL F) as (_ & L1 & L2). rewrite E in L1. split; [reflexivity|]. split; [lra|].
        intros z [<-|Hz]; [lra|now apply L2].
      * destruct (O2 B) as [s E]. destruct (IH (fadd acc x) N' Vs) as [IV IL]; [rewrite E; cbn; unfold FR, SF2R; lra|]. split; [exact IV|].
        intros F. destruct (IL F) as [F' _]. rewrite E in F'. discriminate.
    + assert (Fs : is_finite_f (fadd acc x) = false).
      { destruct (is_finite_f (fadd acc x)) eqn:Q; [|reflexivity]. apply fadd_finite_l in Q. destruct Q. congruence. }
      assert (Vs : valid (fadd acc x) = true) by (destruct acc, x; try discriminate; reflexivity).
      destruct (IH (fadd acc x) N' Vs) as [IV IL].
      * destruct (fadd acc x); try discriminate; unfold FR, SF2R; lra.
      * split; [exact IV|]. intros F. destruct (IL F) as [F' _]. congruence.
Qed.
Lemma sums_add_up : sums add_up.
Proof.
  intros l N. destruct (add_up_from l fzero N eq_refl) as [V L]; [cbn; unfold FR, SF2R; lra|]. split; [exact V|]. intros F. apply L, F.
Qed.

(** * Heat maps *)
Lemma heatmap_spec log10 es ts m f : length m = length es -> Forall (fun r => length r = S (length ts)) m -> es <> [] -> ts <> [] ->
  exists c, plot_ET_heatmap log10 es ts m f = Ok [DGrid (shakes_to_ms ts) es c] /\ length c = length es - 1 /\
    Forall (fun r => length r = length ts - 1) c /\
    forall i j row v, S i < length es -> S j < length ts -> nth_error m i = Some row -> nth_error row j = Some v ->
      exists r, nth_error c i = Some r /\ nth_error r j = Some (log10 (if flt fzero v then fmul v f else S754_nan)).
Proof.
  intros L R He Ht. unfold plot_ET_heatmap.
  set (g := fun v => log10 (if flt fzero v then fmul v f else S754_nan)).
  assert (G : map (map log10) (map (fun row => normalise row f) (map (map (fun v => if flt fzero v then v else S754_nan)) m)) = map (map g) m).
  { rewrite !map_map. apply map_ext. intros row. unfold normalise. rewrite !map_map. apply map_ext. intros v. unfold g. destruct (flt fzero v); [reflexivity|]. now destruct f. }
  rewrite G. clear G. change (-1)%Z with (- Z.of_nat 1)%Z. change (-2)%Z with (- Z.of_nat 2)%Z.
  rewrite slice_to_neg, map_length, L.
  set (c := map (slice_to (- Z.of_nat 2)) (firstn (length es - 1) (map (map g) m))).
  assert (Lc : length c = length es - 1) by (unfold c; rewrite map_length, firstn_length, map_length; lia).
  assert (Rc : Forall (fun r => length r = length ts - 1) c).
  { unfold c. apply Forall_map. apply Forall_forall. intros r Hr. rewrite slice_to_neg, firstn_length.
    assert (Hr' : In r (map (map g) m)) by (rewrite <- (firstn_skipn (length es - 1)); apply in_or_app; now left).
    apply in_map_iff in Hr'. destruct Hr' as (row & <- & Hrow). apply (proj1 (Forall_forall _ _) R) in Hrow. rewrite map_length. lia. }
  exists c. split; [|split; [exact Lc|split; [exact Rc|]]].
  - assert (B : ((zlen c =? zlen es - 1)%Z && forallb (fun row => (zlen row =? zlen (shakes_to_ms ts) - 1)%Z) c = true)%bool).
    { unfold zlen. rewrite times_length, Lc. assert (length es <> 0) by (destruct es; [congruence|discriminate]).
      assert (length ts <> 0) by (destruct ts; [congruence|discriminate]).
      apply andb_true_iff. split; [apply Z.eqb_eq; lia|]. apply forallb_forall. intros r Hr. apply (proj1 (Forall_forall _ _) Rc) in Hr.
      apply Z.eqb_eq. rewrite Hr. lia. }
    rewrite B, orb_true_r. reflexivity.
  - intros i j row v Hi Hj Hm Hv. exists (slice_to (- Z.of_nat 2) (map g row)). split.
    + unfold c. rewrite nth_error_map, nth_error_firstn_lt, nth_error_map, Hm by lia. reflexivity.
    + assert (Lr : length row = S (length ts)) by (apply nth_error_In in Hm; now apply (proj1 (Forall_forall _ _) R) in Hm).
      rewrite slice_to_neg, nth_error_firstn_lt by (rewrite map_length; lia). rewrite nth_error_map, Hv. reflexivity.
Qed.
Lemma heatmap_shifted log10 es ts m f : length m = length es -> Forall (fun r => length r = S (length ts)) m -> es <> [] -> ts <> [] ->
  exists c, plot_ET_heatmap log10 es ts m f = Ok [DGrid (shakes_to_ms ts) es c] /\
    forall i j low up v w, S i < length es -> S j < length ts ->
      nth_error m i = Some low -> nth_error low j = Some v -> nth_error m (S i) = Some up -> nth_error up (S j) = Some w ->
      log10 (if flt fzero v then fmul v f else S754_nan) <> log10 (if flt fzero w then fmul w f else S754_nan) ->
      exists r x, nth_error c i = Some r /\ nth_error r j = Some x /\ x <> log10 (if flt fzero w then fmul w f else S754_nan).
Proof.
  intros L R He Ht. destruct (heatmap_spec log10 es ts m f L R He Ht) as (c & E & _ & _ & H). exists c. split; [exact E|].
  intros i j low up v w Hi Hj Hl Hv _ _ N. destruct (H i j low v Hi Hj Hl Hv) as (r & Hr & Hx). eauto.
Qed.

(** * Run comparisons *)
Lemma run_comp_spec data err : (length data <> length err -> plot_run_comp data err = Err ValueError) /\
  (length data = length err -> (exists e, In e err /\ flt e (fopp e) = true) -> plot_run_comp data err = Err ValueError) /\
  (length data = length err -> (forall e, In e err -> flt e (fopp e) = false) ->
     exists x, plot_run_comp data err = Ok [DXlim (Some (f_of_Z 0)) (Some (f_of_Z (Z.of_nat (length data) + 1))); DBars x data err] /\
       length x = length data /\ forall i, i < length data -> nth_error x i = Some (f_of_Z (Z.of_nat (S i)))).
Proof.
  unfold plot_run_comp, mpl_bars, zlen. rewrite map_length, seq_length, Nat.eqb_refl. cbn [andb].
  split; [|split].
  - intros N. apply Nat.eqb_neq in N. now rewrite N.
  - intros E (e & He & Fe). apply Nat.eqb_eq in E. rewrite E. cbn [negb].
    assert (X : existsb (fun d => flt d (fopp d)) err = true) by (apply existsb_exists; now exists e). now rewrite X.
  - intros E H. apply Nat.eqb_eq in E. rewrite E. cbn [negb].
    assert (X : existsb (fun d => flt d (fopp d)) err = false).
    { destruct (existsb _ err) eqn:Q; [|reflexivity]. apply existsb_exists in Q. destruct Q as (e & He & Fe). rewrite (H e He) in Fe. discriminate. }
    rewrite X. cbn [bind]. eexists. split; [reflexivity|]. split; [now rewrite map_length, seq_length|].
    intros i Hi. rewrite nth_error_map. rewrite (nth_error_nth' _ 0) by (rewrite seq_length; lia). rewrite seq_nth by lia. reflexivity.
Qed.

(** * Several energies, for any window of at least one bin *)
Definition v_times : list float := [f_of_Z 100; f_of_Z 200; f_of_Z 300].
Definition v_matrix : list (list float) := [[f_of_Z 10; f_of_Z 1; f_of_Z 1; f_of_Z 12]; [f_of_Z 0; f_of_Z 0; f_of_Z 10; f_of_Z 10]].
Lemma several_view w : (1 <= w)%Z ->
  energy_slice add_up [f_of_Z 1; f_of_Z 3] [f_of_Z 1; f_of_Z 3] v_times v_matrix None None w (f_of_Z 1) true =
  Ok [DCurve None [f_of_Z 1; f_of_Z 2; f_of_Z 3] [f_of_Z 10; f_of_Z 1; f_of_Z 1];
      DCurve None [f_of_Z 1; f_of_Z 2; f_of_Z 3] [f_of_Z 0; f_of_Z 0; f_of_Z 10];
      DCurve None [f_of_Z 1; f_of_Z 2; f_of_Z 3] [f_of_Z 10; f_of_Z 1; f_of_Z 11];
      DXlim (Some (f_of_Z 1)) (Some (f_of_Z 3)); DYlim fzero (fdec 105 (-2))].
Proof.
  intros Hw. unfold energy_slice.
  assert (E1 : mapM (nearest [f_of_Z 1; f_of_Z 3]) [f_of_Z 1; f_of_Z 3] = Ok [0; 1]) by (vm_compute; reflexivity). rewrite E1. cbn [bind].
  assert (E2 : mapM (one_energy (shakes_to_ms v_times) v_matrix (f_of_Z 1)) [0; 1] =
    Ok [(0, f_of_Z 10, DCurve None [f_of_Z 1; f_of_Z 2; f_of_Z 3] [f_of_Z 10; f_of_Z 1; f_of_Z 1]);
        (2, f_of_Z 10, DCurve None [f_of_Z 1; f_of_Z 2; f_of_Z 3] [f_of_Z 0; f_of_Z 0; f_of_Z 10])]) by (vm_compute; reflexivity).
  rewrite E2. cbn [bind map fst snd].
  assert (E3 : median_idx [0; 2] = Ok 1) by reflexivity. rewrite E3. cbn [bind].
  assert (E4 : shakes_to_ms v_times = [f_of_Z 1; f_of_Z 2; f_of_Z 3]) by (vm_compute; reflexivity). rewrite E4.
  assert (E5 : normalise (column_sums add_up v_matrix) (f_of_Z 1) = [f_of_Z 10; f_of_Z 1; f_of_Z 11; f_of_Z 22]) by (vm_compute; reflexivity). rewrite E5.
  change (clip 1 (zlen [f_of_Z 1; f_of_Z 2; f_of_Z 3])) with 1%Z. change (zlen [f_of_Z 1; f_of_Z 2; f_of_Z 3] - 1)%Z with 2%Z.
  replace (Z.max 0 (1 - w)) with 0%Z by lia. replace (Z.min 2 (1 + w)) with 2%Z by lia. vm_compute. reflexivity.
Qed.
