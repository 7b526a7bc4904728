(** Lemmas about the window of energy_slice and the shapes plot_spectra refuses. *)
From Coq Require Import Reals Lra Lia Sorted Permutation Floats.SpecFloat.
From Flocq Require Import Core Relative BinarySingleNaN.
From Verif Require Import PyBase PyFacts PyFloat FloatFacts FloatR FloatZ PyFs SpecStr M_util SpecUtil P_util M_fisana M_mcout M_mcana SpecFis P_fisout SpecMcana SpecMcana2 P_mcana P_mcana2 P_mcana3 P_mcana4 P_mcana5.
Import ListNotations.

Lemma insert_nat_perm x l : Permutation (insert_nat x l) (x :: l).
Proof.
  induction l as [|y l IH]; [apply Permutation_refl|]. cbn [insert_nat]. destruct (Nat.leb x y); [apply Permutation_refl|].
  rewrite IH. apply perm_swap.
Qed.
Lemma insert_nat_sorted x l : StronglySorted le l -> StronglySorted le (insert_nat x l).
Proof.
  induction 1 as [|y l S IH F]; cbn [insert_nat].
  - constructor; constructor.
  - destruct (Nat.leb x y) eqn:E.
    + apply Nat.leb_le in E. constructor; [now constructor|]. constructor; [exact E|]. revert F. apply Forall_impl. intros z. lia.
    + apply Nat.leb_gt in E. constructor; [exact IH|]. apply Forall_forall. intros z Hz.
      apply (Permutation_in _ (insert_nat_perm x l)) in Hz. destruct Hz as [<-|Hz]; [lia|]. now apply (proj1 (Forall_forall _ _) F).
Qed.
Lemma sort_nat_perm l : Permutation (sort_nat l) l.
Proof. induction l as [|x l IH]; [apply Permutation_refl|]. cbn. rewrite insert_nat_perm. now apply perm_skip. Qed.
Lemma sort_nat_sorted l : StronglySorted le (sort_nat l).
Proof. induction l as [|x l IH]; [constructor|]. cbn. now apply insert_nat_sorted. Qed.

Lemma median_idx_spec l m : median_idx l = Ok m -> median_of l m.
Proof.
  unfold median_idx. destruct l as [|x l]; [discriminate|]. set (s := sort_nat (x :: l)). intros H. injection H as <-.
  pose proof (sort_nat_perm (x :: l)) as P. fold s in P.
  assert (L : length s = S (length l)) by exact (Permutation_length P).
  exists s, (nth (Nat.div (length s - 1) 2) s 0), (nth (Nat.div (length s) 2) s 0).
  split; [exact P|]. split; [apply sort_nat_sorted|].
  assert (Nat.div (length s - 1) 2 < length s /\ Nat.div (length s) 2 < length s) as [A B].
  { split; apply Nat.div_lt_upper_bound; lia. }
  split; [now apply nth_error_nth'|]. split; [now apply nth_error_nth'|]. reflexivity.
Qed.
Lemma median_below l m n : median_of l m -> Forall (fun p => p < n) l -> m < n.
Proof.
  intros (s & a & b & P & _ & A & B & ->) F. apply nth_error_In in A, B.
  apply (Permutation_in _ P) in A, B. apply (proj1 (Forall_forall _ _) F) in A, B.
  apply Nat.div_lt_upper_bound; lia.
Qed.

Lemma peaks_spec es ts m f : nonneg f -> Forall (Forall nonneg) m -> forall tes is ps,
  Forall (fun te => no_nan (map (fun e => dist e te) es)) tes -> mapM (nearest es) tes = Ok is -> mapM (one_energy (shakes_to_ms ts) m f) is = Ok ps ->
  Forall2 (peak_at es ts m f) tes (map (fun p => fst (fst p)) ps) /\ Forall (fun p => p < length ts) (map (fun p => fst (fst p)) ps).
Proof.
  intros Nf M. induction tes as [|te tes IH]; intros is ps N E1 E2.
  - injection E1 as <-. injection E2 as <-. split; constructor.
  - cbn [mapM] in E1. unbind E1. injection E1 as <-. cbn [mapM] in E2. unbind E2. injection E2 as <-.
    destruct (IH _ _ (Forall_inv_tail N) E0 E3) as [A B]. destruct v1 as [[p x] c]. cbn [map fst snd].
    destruct (one_energy_spec _ _ _ _ _ _ _ Nf M E1) as (row & y & R & Lr & X & -> & Bj & -> & G). rewrite times_length in *.
    split; constructor; auto. exists v, row. split; [apply nearest_iff; [exact (Forall_inv N)|exact E]|]. split; [exact R|exact G].
Qed.

Lemma window_spec np tes es ts m w f tot ds : nonneg f -> Forall (Forall nonneg) m -> (0 <= w)%Z ->
  Forall (fun te => no_nan (map (fun e => dist e te) es)) tes ->
  energy_slice np tes es ts m None None w f tot = Ok ds ->
  exists peaks j ta tb, Forall2 (peak_at es ts m f) tes peaks /\ median_of peaks j /\ j < length ts /\
    nth_error ts (j - Z.to_nat w) = Some ta /\ nth_error ts (Nat.min (length ts - 1) (j + Z.to_nat w)) = Some tb /\
    In (DXlim (Some (fdiv ta (f_of_Z 100))) (Some (fdiv tb (f_of_Z 100)))) ds.
Proof.
  intros Nf M Hw N H. unfold energy_slice in H. unbind H. injection H as <-.
  destruct (peaks_spec es ts m f Nf M _ _ _ N E E0) as [A B].
  destruct (map (fun p => fst (fst p)) v0) as [|p0 ps] eqn:EP.
  { destruct v0; [|discriminate]. destruct tot; [discriminate E5|]. cbn in E5. discriminate. }
  unbind E2. pose proof (median_idx_spec _ _ E7) as Md.
  pose proof (median_below _ _ _ Md B) as Bj. set (j := v7) in *.
  assert (Cj : clip j (zlen (shakes_to_ms ts)) = Z.of_nat j) by (unfold clip, zlen; rewrite times_length; lia).
  rewrite Cj in *. unfold zlen in *. rewrite times_length in *.
  set (lo := j - Z.to_nat w). set (hi := Nat.min (length ts - 1) (j + Z.to_nat w)).
  replace (Z.max 0 (Z.of_nat j - w)) with (Z.of_nat lo) in * by lia.
  replace (Z.min (Z.of_nat (length ts) - 1) (Z.of_nat j + w)) with (Z.of_nat hi) in * by lia.
  rewrite !py_nth_nat in *.
  destruct (nth_error ts lo) as [ta|] eqn:Ta; [|apply nth_error_None in Ta; lia].
  destruct (nth_error ts hi) as [tb|] eqn:Tb; [|apply nth_error_None in Tb; lia].
  exists (p0 :: ps), j, ta, tb. split; [exact A|]. split; [exact Md|]. split; [exact Bj|]. split; [exact Ta|]. split; [exact Tb|].
  rewrite (times_nth _ _ _ Ta) in E8. injection E8 as <-. rewrite (times_nth _ _ _ Tb) in E9. injection E9 as <-. injection E2 as <-. cbn [fst snd mpl_lim_opt] in *.
  unfold mpl_lim in E3, E4.
  destruct (is_finite_f (fdiv ta _)) eqn:Fa; [|discriminate]. destruct (is_finite_f (fdiv tb _)) eqn:Fb; [|discriminate].
  cbn [bind] in E3, E4. injection E3 as <-. injection E4 as <-.
  apply in_or_app; right; apply in_or_app; right; now left.
Qed.

(** * Surface currents *)
Section S.
  Variable oc : tally -> res (list draw * list float).
  Variable ob : tally -> res (list draw).
Lemma current_several t eng surfs ang data err xlow : current t eng surfs ang -> 2 <= length surfs -> 2 <= length ang ->
  plot_spectra oc ob (t :: data) err xlow = Err NotImplementedError.
Proof.
  intros (T & E & L & S & A) Ls La. unfold plot_spectra. cbn [foldM]. unfold spectra_step, tally_curves. rewrite E. unfold calc_bin_width, zlen.
  destruct (Z.ltb_spec (Z.of_nat (length eng)) 2); [lia|]. cbn [bind]. rewrite T, S, A. change (Ascii.eqb "1" (chr 49)) with true. cbn match.
  destruct (Z.ltb_spec 1 (Z.of_nat (length surfs))); [|lia]. destruct (Z.ltb_spec 1 (Z.of_nat (length ang))); [|lia]. reflexivity.
Qed.
Lemma current_tables t eng surfs ang d x : current t eng surfs ang -> length ang <= 1 -> b_result (t_body t) = TTable d ->
  Forall (fun kv => length (snd kv) = length eng) d -> is_finite_f x = true ->
  exists cs, plot_spectra oc ob [t] false (Some x) = Ok (cs ++ [DXmin x]) /\
    Forall2 (fun kv c => exists y, c = DCurve (Some (fst kv)) eng y /\ per_width eng (snd kv) y) d cs.
Proof.
  intros (T & E & L & S & A) La R F Fx. exists (map (table_curve eng) d). split; [|now apply table_curves_spec].
  unfold plot_spectra. cbn [foldM]. unfold spectra_step, tally_curves. rewrite E. unfold calc_bin_width, zlen.
  destruct (Z.ltb_spec (Z.of_nat (length eng)) 2); [lia|]. cbn [bind]. rewrite T, S, A, R. change (Ascii.eqb "1" (chr 49)) with true. cbn match.
  destruct (Z.ltb_spec 1 (Z.of_nat (length ang))); [lia|].
  rewrite (object_curves_ok eng d F). unfold mpl_lim. rewrite Fx.
  destruct (Z.ltb_spec 1 (Z.of_nat (length surfs))); cbn [bind app fst snd]; now rewrite app_nil_r.
Qed.
Lemma row_list_rows rows : row_list (TList (map ERow rows)) = Some rows.
Proof. unfold row_list. induction rows as [|r rows IH]; [reflexivity|]. cbn [map list_rect]. cbn [map list_rect] in IH. now rewrite IH. Qed.
Lemma array_div_eq y z : length y = length z -> array_div y z = Ok (map (fun p => fdiv (fst p) (snd p)) (combine y z)).
Proof.
  intros L. unfold array_div, series_div. rewrite L, Nat.eqb_refl. destruct y as [|a [|b y]]; destruct z as [|c [|e z]]; try discriminate L; reflexivity.
Qed.
Definition row_curve (eng row : list float) : draw := DCurve None eng (map (fun p => fdiv (fst p) (snd p)) (combine row (diffs fzero eng))).
Lemma row_curve_spec eng row : length row = length eng -> exists y, row_curve eng row = DCurve None eng y /\ row_per_width eng row y.
Proof.
  intros L. eexists. split; [reflexivity|]. split.
  - rewrite map_length, combine_length, diffs_length. lia.
  - intros i b r Hb Hr. pose proof (diffs_nth eng fzero i b Hb) as D. fold (lower_edge eng i) in D.
    exact (map_nth_error (fun p => fdiv (fst p) (snd p)) i _ (combine_nth_error _ _ _ _ _ Hr D)).
Qed.
Lemma current_angles t eng s ang rows x : current t eng [s] ang -> 2 <= length ang -> b_result (t_body t) = TList (map ERow rows) ->
  Forall (fun row => length row = length eng) rows -> is_finite_f x = true ->
  exists cs, plot_spectra oc ob [t] false (Some x) = Ok (cs ++ [DXmin x]) /\
    Forall2 (fun row c => exists y, c = DCurve None eng y /\ row_per_width eng row y) rows cs.
Proof.
  intros (T & E & L & S & A) La R F Fx. exists (map (row_curve eng) rows). split; cycle 1.
  { clear R. induction F as [|row rows H F IH]; constructor; auto. now apply row_curve_spec. }
  unfold plot_spectra. cbn [foldM]. unfold spectra_step, tally_curves. rewrite E. unfold calc_bin_width, zlen.
  destruct (Z.ltb_spec (Z.of_nat (length eng)) 2); [lia|]. cbn [bind]. rewrite T, S, A. change (Ascii.eqb "1" (chr 49)) with true. cbn match.
  destruct (Z.ltb_spec 1 (Z.of_nat (length ang))); [|lia]. change (1 <? Z.of_nat (length [s]))%Z with false. cbn match.
  unfold angle_curves. rewrite R, row_list_rows.
  assert (G : forall acc y, exists y', foldM (fun (st : list draw * option (list float)) row => do y <- array_div row (diffs fzero eng); do c <- mpl_curve None eng y; Ok (fst st ++ [c], Some y)) rows (acc, y)
    = Ok (acc ++ map (row_curve eng) rows, y')).
  { clear R. induction F as [|row rows H1 F IH]; intros acc y; [exists y; cbn; now rewrite app_nil_r|].
    cbn [foldM]. rewrite array_div_eq by (now rewrite diffs_length). cbn [bind]. unfold mpl_curve at 1. rewrite map_length, combine_length, diffs_length, H1, Nat.min_id, Nat.eqb_refl.
    cbn [bind fst]. destruct (IH (acc ++ [DCurve None eng (map (fun p => fdiv (fst p) (snd p)) (combine row (diffs fzero eng)))]) (Some (map (fun p => fdiv (fst p) (snd p)) (combine row (diffs fzero eng))))) as [y' ->].
    exists y'. rewrite <- app_assoc. reflexivity. }
  destruct (G [] None) as [y' G']. cbn [app] in G'. rewrite G'. cbn [bind fst snd app]. unfold mpl_lim. rewrite Fx. cbn [bind]. now rewrite app_nil_r.
Qed.
End S.
