(** Properties of mcnp_analysis. *)
From Coq Require Import Reals Lra Lia Sorted Floats.SpecFloat.
From Flocq Require Import Core.
From Verif Require Import PyBase PyFacts PyFloat FloatFacts FloatR FloatZ SpecStr SpecUtil M_fisana M_mcout M_mcana SpecFis SpecMcana P_mcana P_mcana2 P_mcana3 P_mcana4 P_mcana5.

(** * C87: element-wise helpers *)
Theorem C87_normalise : forall data n, List.length (normalise data n) = List.length data /\
  forall i x, nth_error data i = Some x -> exists y, nth_error (normalise data n) i = Some y /\
    (finite x -> finite n -> rounded_to (FR x * FR n) y).
Proof. exact normalise_spec. Qed.
Print Assumptions C87_normalise.
Example C87_normalise_ex : normalise [f_of_Z 3; fdec 25 (-1)] (f_of_Z 2) = [f_of_Z 6; f_of_Z 5].
Proof. vm_compute. reflexivity. Qed.

Theorem C87_abs_errors : forall rs es,
  (List.length rs <> List.length es -> calc_err_abs rs es = Err ValueError) /\
  (List.length rs = List.length es -> forall out, calc_err_abs rs es = Ok out <->
     List.length out = List.length rs /\ forall i r e, nth_error rs i = Some r -> nth_error es i = Some e ->
       exists x, to_float e = Ok x /\ nth_error out i = Some (fmul r x)).
Proof. exact err_abs_spec. Qed.
Print Assumptions C87_abs_errors.
Example C87_abs_errors_ex : calc_err_abs [f_of_Z 4; f_of_Z 6] [NNum (fdec 5 (-1)); NText (lit "0.25")] = Ok [f_of_Z 2; fdec 15 (-1)].
Proof. vm_compute. reflexivity. Qed.

Theorem C87_bin_widths : forall bins, edges bins -> 2 <= List.length bins ->
  exists ws, calc_bin_width bins = Ok ws /\ List.length ws = List.length bins /\
    (forall i b w, nth_error bins i = Some b -> nth_error ws i = Some w ->
       (Rabs (FR w - (FR b - FR (lower_edge bins i))) <= u53 * (FR b - FR (lower_edge bins i)))%R /\
       (0 < FR b -> 0 < FR w)%R) /\
    (Rabs (Rsum (map FR ws) - FR (last bins fzero)) <= u53 * FR (last bins fzero))%R.
Proof. exact bin_widths_spec. Qed.
Print Assumptions C87_bin_widths.
Theorem C87_few_bins : forall bins, calc_bin_width bins = Err ValueError <-> List.length bins < 2.
Proof. exact bin_width_error. Qed.
Print Assumptions C87_few_bins.
Example C87_bin_widths_ex : edges [f_of_Z 1; f_of_Z 4] /\ calc_bin_width [f_of_Z 1; f_of_Z 4] = Ok [f_of_Z 1; f_of_Z 3].
Proof.
  destruct (f_of_Z_R 1 eq_refl) as (V1 & F1 & E1). destruct (f_of_Z_R 4 eq_refl) as (V4 & F4 & E4).
  split; [split|vm_compute; reflexivity].
  - apply Forall_cons; [|apply Forall_cons; [|apply Forall_nil]]; (split; [now split|]); rewrite ?E1, ?E4; lra.
  - apply SSorted_cons; [apply SSorted_cons; [apply SSorted_nil|apply Forall_nil]|apply Forall_cons; [|apply Forall_nil]]. rewrite E1, E4. lra.
Qed.

Theorem C87_mid_points : forall l, Forall moderate l -> List.length (calc_mid_points l) = List.length l - 1 /\
  forall i a b m, nth_error l i = Some a -> nth_error l (S i) = Some b -> nth_error (calc_mid_points l) i = Some m ->
    (FR a <= FR b)%R -> finite m /\ (FR a <= FR m <= FR b)%R /\
    (Rabs (FR m - (FR a + FR b) / 2) <= 2 * u53 * Rabs (FR a + FR b) + bpow radix2 (-1075))%R /\
    (4 * u53 * Rabs (FR a + FR b) + bpow radix2 (-1074) < FR b - FR a -> FR a < FR m < FR b)%R.
Proof. exact mids_between. Qed.
Print Assumptions C87_mid_points.
Example C87_mid_points_ex : calc_mid_points [f_of_Z 1; f_of_Z 4; f_of_Z 5] = [fdec 25 (-1); fdec 45 (-1)].
Proof. vm_compute. reflexivity. Qed.
(** Between neighbouring numbers there is nothing: the mid point is then one of the edges. *)
Theorem C87_strictly_between_refuted : exists a b, moderate a /\ moderate b /\ flt a b = true /\ calc_mid_points [a; b] = [a].
Proof.
  exists (f_of_Z 1), (S754_finite false 4503599627370497 (-52)).
  assert (B : forall x, valid x = true -> is_finite_f x = true -> fle x (f_of_Z 2) = true -> fle fzero x = true -> moderate x).
  { intros x V F L P. split; [exact V|]. split; [exact F|]. destruct (f_of_Z_R 2 eq_refl) as (V2 & F2 & E2).
    apply fle_R in L; auto. apply fle_R in P; auto. rewrite E2 in L. change (FR fzero) with 0%R in P. rewrite Rabs_pos_eq by exact P.
    apply Rle_trans with (1 := L). change 2%R with (bpow radix2 1). apply bpow_le. lia. }
  split; [apply B; reflexivity|]. split; [apply B; reflexivity|]. split; [reflexivity|vm_compute; reflexivity].
Qed.
Print Assumptions C87_strictly_between_refuted.

(** * C88: the time of the peak *)
Theorem C88_peak_time : forall te es ts m t,
  no_nan (map (fun e => dist e te) es) -> Forall no_nan m ->
  find_peak_time te es ts m = Ok t <->
  exists i row j, first_least (map (fun e => dist e te) es) i /\ nth_error m i = Some row /\
    first_greatest (firstn (List.length ts) row) j /\ nth_error ts j = Some t.
Proof. exact peak_time_iff. Qed.
Print Assumptions C88_peak_time.
Theorem C88_nearest : forall arr t, moderate t -> Forall moderate arr -> arr <> [] ->
  exists i e, nearest arr t = Ok i /\ nth_error arr i = Some e /\
    forall j e', nth_error arr j = Some e' -> (Rabs (FR e - FR t) <= Rabs (FR e' - FR t) * (1 + 4 * u53))%R.
Proof. exact nearest_R. Qed.
Print Assumptions C88_nearest.
Theorem C88_total : forall te es ts m, es <> [] -> ts <> [] -> List.length m = List.length es -> Forall (fun r => r <> []) m ->
  exists t, find_peak_time te es ts m = Ok t.
Proof. exact peak_time_total. Qed.
Print Assumptions C88_total.
Theorem C88_errors : forall te es ts m, (es = [] -> find_peak_time te es ts m = Err ValueError) /\
  (es <> [] -> List.length m >= List.length es -> ts = [] -> find_peak_time te es ts m = Err ValueError) /\
  (m = [] -> es <> [] -> find_peak_time te es ts m = Err IndexError).
Proof. exact peak_time_empty. Qed.
Print Assumptions C88_errors.
Example C88_ex : find_peak_time (f_of_Z 3) [f_of_Z 1; f_of_Z 2; f_of_Z 4] [f_of_Z 10; f_of_Z 20; f_of_Z 30]
  [[f_of_Z 9; f_of_Z 1; f_of_Z 1; f_of_Z 11]; [f_of_Z 1; f_of_Z 5; f_of_Z 5; f_of_Z 11]; [f_of_Z 0; f_of_Z 0; f_of_Z 3; f_of_Z 3]] = Ok (f_of_Z 20).
Proof. vm_compute. reflexivity. Qed.

(** * C164: plotted spectra *)
Theorem C164_curves : forall oc ob data x,
  Forall (fun p => binned (fst p) (fst (snd p)) (snd (snd p))) data -> is_finite_f x = true ->
  exists ds, plot_spectra oc ob (map fst data) false (Some x) = Ok ds /\ In (DXmin x) ds /\
    exists css, curves_of ds = concat css /\
    Forall2 (fun p cs => Forall2 (fun kv c => exists y, c = DCurve (Some (fst kv)) (fst (snd p)) y /\ per_width (fst (snd p)) (snd kv) y) (snd (snd p)) cs)
      data css.
Proof. exact spectra_curves. Qed.
Print Assumptions C164_curves.
Theorem C164_auto_limit : forall oc ob t eng d kv, binned t eng (d ++ [kv]) -> Forall (fun e => is_finite_f e = true) eng ->
  exists cs y, Forall2 (fun kv c => exists y, c = DCurve (Some (fst kv)) eng y /\ per_width eng (snd kv) y) (d ++ [kv]) cs /\
    per_width eng (snd kv) y /\
    (forall i e, first_index (fun v => ~ fp_zero v) y (S i) -> nth_error eng (S i) = Some e ->
       plot_spectra oc ob [t] false None = Ok (cs ++ [DXmin e])) /\
    (first_index (fun v => ~ fp_zero v) y 0 \/ (forall v, In v y -> fp_zero v) -> plot_spectra oc ob [t] false None = Ok cs).
Proof. exact spectra_auto. Qed.
Print Assumptions C164_auto_limit.
Theorem C164_integral : forall a b r, nonneg a -> nonneg b -> (FR a < FR b)%R -> finite r -> is_finite_f (fdiv r (fsub b a)) = true ->
  (Rabs (FR (fdiv r (fsub b a)) * (FR b - FR a) - FR r) <= 4 * u53 * Rabs (FR r) + bpow radix2 (-1075) * (FR b - FR a))%R.
Proof. exact width_integral. Qed.
Print Assumptions C164_integral.
(** A type 1 tally whose reader found energy bins but no angle bins cannot be plotted. *)
Theorem C164_current_refuted : forall oc ob t data err xlow, t_type t = "1"%char -> b_ang (t_body t) = None ->
  (exists eng, b_eng (t_body t) = Some eng /\ 2 <= List.length eng) ->
  plot_spectra oc ob (t :: data) err xlow = Err TypeError.
Proof. exact current_error. Qed.
Print Assumptions C164_current_refuted.
(** With no object drawn there is no last curve to take the limit or the error bars from. *)
Theorem C164_nothing : forall oc ob data err xlow, Forall (fun t => exists eng, binned t eng []) data -> xlow = None \/ err = true /\ data <> [] ->
  plot_spectra oc ob data err xlow = Err UnboundLocalError.
Proof. exact nothing_drawn. Qed.
Print Assumptions C164_nothing.
(** Surface and cell tallies whose results are a list (with time bins) cannot be plotted. *)
Theorem C164_listed_refuted : forall oc ob t data err xlow l eng, t_type t = "2"%char \/ t_type t = "4"%char ->
  b_eng (t_body t) = Some eng -> 2 <= List.length eng -> b_result (t_body t) = TList l ->
  plot_spectra oc ob (t :: data) err xlow = Err AttributeError.
Proof. exact listed_error. Qed.
Print Assumptions C164_listed_refuted.
Definition ex_table : etable := [(7%Z, [(f_of_Z 1, f_of_Z 0, f_of_Z 0); (f_of_Z 3, f_of_Z 8, fdec 5 (-1))]);
                                 (9%Z, [(f_of_Z 1, f_of_Z 0, f_of_Z 0); (f_of_Z 3, f_of_Z 6, fdec 5 (-1))])].
Definition ex_eng : list float := [f_of_Z 1; f_of_Z 3].
Definition ex_tally (ty : ascii) (r e : tresult) : tally :=
  Tally 4 ty (lit "neutrons") (NpsInt 100) (TBody r e (Some ex_eng) None None None (Some [lit "1"]) None None None None None).
Example C164_ex : binned (ex_tally "4" (TTable ex_table) (TList [])) ex_eng ex_table /\
  plot_spectra (fun _ => Err TypeError) (fun _ => Err TypeError) [ex_tally "4" (TTable ex_table) (TList [])] false None =
  Ok [DCurve (Some 7%Z) ex_eng [f_of_Z 0; f_of_Z 4]; DCurve (Some 9%Z) ex_eng [f_of_Z 0; f_of_Z 3]; DXmin (f_of_Z 3)].
Proof.
  split; [|vm_compute; reflexivity]. split; [now right|]. split; [reflexivity|]. split; [reflexivity|]. split; [cbn; lia|].
  apply Forall_cons; [reflexivity|]. apply Forall_cons; [reflexivity|apply Forall_nil].
Qed.

(** * C165: error bars of plotted spectra *)
(** The bar on the value of one bin has the length belonging to the bin before. *)
Theorem C165_bars_drawn : forall oc ob t eng rs us ds xlow, point_like t eng rs us -> plot_spectra oc ob [t] true xlow = Ok ds ->
  exists y ms vs es, In (DCurve None eng y) ds /\ In (DBars ms vs es) ds /\
    (forall i b r, nth_error eng i = Some b -> nth_error rs i = Some r -> nth_error y i = Some (fdiv r (fsub b (lower_edge eng i)))) /\
    List.length ms = List.length eng - 1 /\
    forall i a b v0 v1 u, nth_error eng i = Some a -> nth_error eng (S i) = Some b ->
      nth_error y i = Some v0 -> nth_error y (S i) = Some v1 -> nth_error us i = Some u ->
      nth_error ms i = Some (fdiv (fadd a b) (f_of_Z 2)) /\ nth_error vs i = Some v1 /\ nth_error es i = Some (fmul v0 u).
Proof. exact bars_drawn. Qed.
Print Assumptions C165_bars_drawn.
Definition ex_point : tally := ex_tally "5" (TList [EFloat (f_of_Z 2); EFloat (f_of_Z 8)]) (TList [EFloat (fdec 5 (-1)); EFloat (fdec 5 (-1))]).
Theorem C165_own_error_refuted : exists t eng rs us ds ms vs es v u e, point_like t eng rs us /\
  (forall oc ob, plot_spectra oc ob [t] true None = Ok ds) /\ In (DBars ms vs es) ds /\
  nth_error vs 0 = Some v /\ nth_error us 1 = Some u /\ nth_error es 0 = Some e /\ feq e (fmul v u) = false.
Proof.
  exists ex_point, ex_eng, [f_of_Z 2; f_of_Z 8], [fdec 5 (-1); fdec 5 (-1)],
    [DCurve None ex_eng [f_of_Z 2; f_of_Z 4]; DBars [f_of_Z 2] [f_of_Z 4] [f_of_Z 1]], [f_of_Z 2], [f_of_Z 4], [f_of_Z 1], (f_of_Z 4), (fdec 5 (-1)), (f_of_Z 1).
  split; [repeat split; try discriminate; cbn; lia|]. split; [intros oc ob; vm_compute; reflexivity|].
  split; [right; now left|]. repeat split.
Qed.
Print Assumptions C165_own_error_refuted.
(** On surface and cell tallies the errors are in the tables and the separate list is empty: asking for
    error bars always fails. *)
Theorem C165_table_refuted : forall oc ob t eng d kv xlow, binned t eng (d ++ [kv]) -> b_err (t_body t) = TList [] ->
  plot_spectra oc ob [t] true xlow = Err ValueError.
Proof. exact bars_table. Qed.
Print Assumptions C165_table_refuted.

(** * C166: the ratio of two spectra *)
Theorem C166_ratio : forall eng a b ra rb, List.length a = List.length eng -> List.length b = List.length eng -> 2 <= List.length eng ->
  exists y, plot_spectra_ratio eng (a :: ra) (b :: rb) = Ok [DCurve None eng y] /\ List.length y = List.length eng /\
    forall i p q, nth_error a i = Some p -> nth_error b i = Some q -> nth_error y i = Some (fdiv p q).
Proof. exact ratio_spec. Qed.
Print Assumptions C166_ratio.
Theorem C166_same : forall x, finite x -> FR x <> 0%R -> FR (fdiv x x) = 1%R.
Proof. exact div_self. Qed.
Print Assumptions C166_same.
Theorem C166_errors : forall eng a b ra rb rows, plot_spectra_ratio eng [] rows = Err IndexError /\
  plot_spectra_ratio eng (a :: ra) [] = Err IndexError /\
  (List.length a <> List.length b -> 2 <= List.length a -> 2 <= List.length b -> plot_spectra_ratio eng (a :: ra) (b :: rb) = Err ValueError).
Proof. exact ratio_errors. Qed.
Print Assumptions C166_errors.
Example C166_ex : plot_spectra_ratio ex_eng [[f_of_Z 6; f_of_Z 5]] [[f_of_Z 3; f_of_Z 2]] = Ok [DCurve None ex_eng [f_of_Z 2; fdec 25 (-1)]].
Proof. vm_compute. reflexivity. Qed.

(** * C167: a spectrum at one time *)
Theorem C167_time_slice : forall tt es ts m f ds, no_nan (map (fun t => dist t tt) ts) ->
  time_slice tt es ts m f = Ok ds <->
  exists j y, first_least (map (fun t => dist t tt) ts) j /\ ds = [DCurve None es y] /\ List.length m = List.length es /\
    Forall2 (fun row v => exists x, nth_error row j = Some x /\ v = fmul x f) m y.
Proof. exact time_slice_spec. Qed.
Print Assumptions C167_time_slice.
Example C167_ex : time_slice (f_of_Z 19) ex_eng [f_of_Z 10; f_of_Z 20] [[f_of_Z 1; f_of_Z 2; f_of_Z 3]; [f_of_Z 4; f_of_Z 5; f_of_Z 9]] (f_of_Z 2) =
  Ok [DCurve None ex_eng [f_of_Z 4; f_of_Z 10]].
Proof. vm_compute. reflexivity. Qed.

(** * C168: time distributions *)
Theorem C168_peak_in_view : forall np te es ts m w f tot ds, sums np -> nonneg f -> Forall (Forall nonneg) m -> (0 <= w)%Z ->
  (forall r1 r2, In r1 m -> In r2 m -> List.length r1 = List.length r2) ->
  no_nan (map (fun e => dist e te) es) ->
  Forall finite ts -> StronglySorted (fun a b => (FR a <= FR b)%R) ts ->
  energy_slice np [te] es ts m None None w f tot = Ok ds ->
  exists i row j t x a b top, first_least (map (fun e => dist e te) es) i /\ nth_error m i = Some row /\
    first_greatest (firstn (List.length ts) (map (fun v => fmul v f) row)) j /\
    nth_error ts j = Some t /\ nth_error row j = Some x /\
    In (DXlim (Some a) (Some b)) ds /\ In (DYlim fzero top) ds /\
    fle a (fdiv t (f_of_Z 100)) = true /\ fle (fdiv t (f_of_Z 100)) b = true /\
    fle fzero (fmul x f) = true /\ fle (fmul x f) top = true.
Proof. exact peak_in_view. Qed.
Print Assumptions C168_peak_in_view.
(** Adding up from left to right is one sum of this kind. *)
Theorem C168_sums : sums add_up.
Proof. exact sums_add_up. Qed.
Print Assumptions C168_sums.
(** The documented shape, one column per time, is never accepted. *)
Theorem C168_documented_shape_refuted : forall np te es ts m a b w f tot, Forall (fun r => List.length r = List.length ts) m ->
  exists e, energy_slice np te es ts m a b w f tot = Err e.
Proof. exact energy_slice_shape. Qed.
Print Assumptions C168_documented_shape_refuted.
Definition ex_times : list float := [f_of_Z 100; f_of_Z 200; f_of_Z 300].
Definition ex_matrix : list (list float) := [[f_of_Z 10; f_of_Z 1; f_of_Z 1; f_of_Z 12]; [f_of_Z 0; f_of_Z 0; f_of_Z 10; f_of_Z 10]].
Example C168_ex : energy_slice add_up [f_of_Z 3] ex_eng ex_times ex_matrix None None 50 (f_of_Z 1) true =
  Ok [DCurve None [f_of_Z 1; f_of_Z 2; f_of_Z 3] [f_of_Z 0; f_of_Z 0; f_of_Z 10];
      DCurve None [f_of_Z 1; f_of_Z 2; f_of_Z 3] [f_of_Z 10; f_of_Z 1; f_of_Z 11];
      DXlim (Some (f_of_Z 1)) (Some (f_of_Z 3)); DYlim fzero (fmul (f_of_Z 11) (fdec 105 (-2)))].
Proof. vm_compute. reflexivity. Qed.
(** With several energies the height is that of the total at the median of the peaks, whatever the window:
    the peaks can lie above it. *)
Theorem C168_several_refuted : exists te es ts m peak top, forall w, (0 <= w)%Z -> exists ds x y,
  energy_slice add_up te es ts m None None w (f_of_Z 1) true = Ok ds /\
  In (DCurve None x y) ds /\ In peak y /\ In (DYlim fzero top) ds /\ flt top peak = true.
Proof.
  exists [f_of_Z 1; f_of_Z 3], ex_eng, ex_times, ex_matrix, (f_of_Z 10), (fdec 105 (-2)). intros w Hw.
  destruct (Z.eq_dec w 0) as [->|N].
  - eexists _, _, _. split; [vm_compute; reflexivity|]. split; [now left|]. split; [now left|]. split; [|reflexivity].
    right. right. right. right. now left.
  - exists [DCurve None [f_of_Z 1; f_of_Z 2; f_of_Z 3] [f_of_Z 10; f_of_Z 1; f_of_Z 1];
      DCurve None [f_of_Z 1; f_of_Z 2; f_of_Z 3] [f_of_Z 0; f_of_Z 0; f_of_Z 10];
      DCurve None [f_of_Z 1; f_of_Z 2; f_of_Z 3] [f_of_Z 10; f_of_Z 1; f_of_Z 11];
      DXlim (Some (f_of_Z 1)) (Some (f_of_Z 3)); DYlim fzero (fdec 105 (-2))], [f_of_Z 1; f_of_Z 2; f_of_Z 3], [f_of_Z 10; f_of_Z 1; f_of_Z 1].
    split; [|split; [now left|split; [now left|split; [right; right; right; right; now left|reflexivity]]]].
    exact (several_view w ltac:(lia)).
Qed.
Print Assumptions C168_several_refuted.

(** * C169: heat maps *)
Theorem C169_heatmap : forall log10 es ts m f, List.length m = List.length es -> Forall (fun r => List.length r = S (List.length ts)) m -> es <> [] -> ts <> [] ->
  exists c, plot_ET_heatmap log10 es ts m f = Ok [DGrid (map (fun t => fdiv t (f_of_Z 100)) ts) es c] /\ List.length c = List.length es - 1 /\
    Forall (fun r => List.length r = List.length ts - 1) c /\
    forall i j row v, S i < List.length es -> S j < List.length ts -> nth_error m i = Some row -> nth_error row j = Some v ->
      exists r, nth_error c i = Some r /\ nth_error r j = Some (log10 (if flt fzero v then fmul v f else S754_nan)).
Proof. exact heatmap_spec. Qed.
Print Assumptions C169_heatmap.
(** The bounds of MCNP are upper bounds, so the rectangle from bound i to bound i+1 is bin i+1; what is
    drawn in it is bin i. *)
Theorem C169_own_bin_refuted : forall log10 es ts m f, List.length m = List.length es -> Forall (fun r => List.length r = S (List.length ts)) m ->
  es <> [] -> ts <> [] ->
  exists c, plot_ET_heatmap log10 es ts m f = Ok [DGrid (map (fun t => fdiv t (f_of_Z 100)) ts) es c] /\
    forall i j low up v w, S i < List.length es -> S j < List.length ts ->
      nth_error m i = Some low -> nth_error low j = Some v -> nth_error m (S i) = Some up -> nth_error up (S j) = Some w ->
      log10 (if flt fzero v then fmul v f else S754_nan) <> log10 (if flt fzero w then fmul w f else S754_nan) ->
      exists r x, nth_error c i = Some r /\ nth_error r j = Some x /\ x <> log10 (if flt fzero w then fmul w f else S754_nan).
Proof. exact heatmap_shifted. Qed.
Print Assumptions C169_own_bin_refuted.
Example C169_shift_ex : exists es ts m c v, List.length m = List.length es /\ Forall (fun r => List.length r = S (List.length ts)) m /\
  (exists row, nth_error m 1 = Some row /\ nth_error row 1 = Some v) /\
  (forall log10, log10 (f_of_Z 1) <> log10 v -> plot_ET_heatmap log10 es ts m (f_of_Z 1) = Ok [DGrid (map (fun t => fdiv t (f_of_Z 100)) ts) es (c log10)] /\
     exists x, nth_error (c log10) 0 = Some [x] /\ x <> log10 v).
Proof.
  exists ex_eng, [f_of_Z 100; f_of_Z 200], [[f_of_Z 1; f_of_Z 2; f_of_Z 3]; [f_of_Z 3; f_of_Z 4; f_of_Z 7]], (fun g => [[g (f_of_Z 1)]]), (f_of_Z 4).
  split; [reflexivity|]. split; [apply Forall_cons; [reflexivity|apply Forall_cons; [reflexivity|apply Forall_nil]]|].
  split; [eexists; split; reflexivity|]. intros log10 N. split; [vm_compute; reflexivity|]. exists (log10 (f_of_Z 1)). now split.
Qed.

(** * C170: comparing runs *)
Theorem C170_runs : forall data err, (List.length data <> List.length err -> plot_run_comp data err = Err ValueError) /\
  (List.length data = List.length err -> (exists e, In e err /\ flt e (fopp e) = true) -> plot_run_comp data err = Err ValueError) /\
  (List.length data = List.length err -> (forall e, In e err -> flt e (fopp e) = false) ->
     exists x, plot_run_comp data err = Ok [DXlim (Some (f_of_Z 0)) (Some (f_of_Z (Z.of_nat (List.length data) + 1))); DBars x data err] /\
       List.length x = List.length data /\ forall i, i < List.length data -> nth_error x i = Some (f_of_Z (Z.of_nat (S i)))).
Proof. exact run_comp_spec. Qed.
Print Assumptions C170_runs.
Example C170_ex : plot_run_comp [f_of_Z 5; f_of_Z 6] [f_of_Z 1; f_of_Z 0] =
  Ok [DXlim (Some (f_of_Z 0)) (Some (f_of_Z 3)); DBars [f_of_Z 1; f_of_Z 2] [f_of_Z 5; f_of_Z 6] [f_of_Z 1; f_of_Z 0]].
Proof. vm_compute. reflexivity. Qed.
