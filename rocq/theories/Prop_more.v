(** Properties C233-C235: times and plots of the FISPACT summary, surface tallies with angle
    bins.  Vocabulary: SpecStr.v, SpecGeomf.v, SpecMcout.v, SpecFisana.v, SpecFisum.v. *)
From Coq Require Import Reals Lra Lia Floats.SpecFloat.
From Flocq Require Import Core.
From Verif Require Import PyBase PyFloat FloatR FloatZ PyArith PyArithR PyFs SpecStr SpecUtil SpecOutput M_util M_const M_mcout SpecMcout SpecMcout2 P_mcout9 M_ptrac M_fisout SpecFis ExFis PyTable M_fisana SpecFisana M_geomf SpecGeomf P_geomf P_geomf2 P_years M_fisum SpecFisum P_fisum TextTac.
Local Open Scope nat_scope.

(** C233: days, hours and seconds of the summary are multiples of the years, with 365.4 days. *)
Theorem C233_scale : forall data out r d h s, read_summary_data data = Ok out -> In (r, (d, h, s)) out -> moderate (time_years r) ->
  within 3 (FR d) (FR (time_years r) * (3654 / 10)) /\ within 4 (FR h) (FR (time_years r) * (3654 / 10 * 24)) /\ within 4 (FR s) (FR (time_years r) * (3654 / 10 * 86400)).
Proof. exact columns_scale. Qed.
Print Assumptions C233_scale.
Theorem C233_order : forall data out r d h s r' d' h' s', read_summary_data data = Ok out -> In (r, (d, h, s)) out -> In (r', (d', h', s')) out ->
  length_f (time_years r) -> length_f (time_years r') -> is_finite_f s' = true -> (FR (time_years r) <= FR (time_years r'))%R ->
  (is_finite_f d' = true -> fle d d' = true) /\ (is_finite_f h' = true -> fle h h' = true) /\ fle s s' = true.
Proof. exact columns_order. Qed.
Print Assumptions C233_order.
(** The year of the conversions of neut_constants is another one. *)
Theorem C233_same_year_refuted : forall data out r d h s, read_summary_data data = Ok out -> In (r, (d, h, s)) out -> moderate (time_years r) ->
  exists d' h' s', years_to_days FA (time_years r) = Ok d' /\ years_to_hrs FA (time_years r) = Ok h' /\ years_to_seconds FA (time_years r) = Ok s' /\
    flt d' d = true /\ flt h' h = true /\ flt s' s = true.
Proof. exact years_differ. Qed.
Print Assumptions C233_same_year_refuted.
Definition C233_data : list str := ex_first ++ ex_step ++ ex_summary.
Example C233_ex : exists out r dhs, read_summary_data C233_data = Ok out /\ In (r, dhs) out /\ time_years r = fdec 19 (-6) /\ moderate (time_years r).
Proof.
  do 3 eexists. split; [vm_compute; reflexivity|]. split; [left; reflexivity|]. assert (T : forall x, x = fdec 19 (-6) -> x = fdec 19 (-6) /\ moderate x); [|apply T; vm_compute; reflexivity].
  intros x ->. split; [reflexivity|]. split; [split; vm_compute; reflexivity|].
  assert (E : fdec 19 (-6) = S754_finite false 5607810198407704 (-68)) by (vm_compute; reflexivity). rewrite E. change (FR _) with (IZR 5607810198407704 * bpow radix2 (-68))%R. split.
  - apply Rle_trans with (1 * bpow radix2 (-68))%R; [rewrite Rmult_1_l; apply bpow_le; lia|apply Rmult_le_compat_r; [apply bpow_ge_0|apply IZR_le; lia]].
  - apply Rle_trans with (bpow radix2 60 * bpow radix2 (-68))%R; [apply Rmult_le_compat_r; [apply bpow_ge_0|change (bpow radix2 60) with (IZR (2 ^ 60)); apply IZR_le; lia]|rewrite <- bpow_plus; apply bpow_le; lia].
Qed.

(** C234: a tally over a surface with bins of angle and energy. *)
Theorem C234_angle_energy : forall order pre h al rest b bs, none_of (prefix_of (lit " surface ")) pre -> prefix_of (lit " surface ") h -> occurs (lit "angle") al -> ~ occurs (lit "energy") al ->
  angle_blocks (h :: al :: lit "      energy   " :: rest) (b :: bs) ->
  exists t, read_type_surface order (chr 49) (pre ++ h :: al :: lit "      energy   " :: rest) = Ok t /\
    b_ang t = Some (fdec (-1) 0 :: map fst (b :: bs)) /\
    b_result t = TList (map (fun b => ERow (map (fun r => snd (fst r)) (snd b))) (b :: bs)) /\
    b_err t = TList (map (fun b => ERow (map snd (snd b))) (b :: bs)).
Proof. exact angle_tally. Qed.
Print Assumptions C234_angle_energy.
(** Bins of angle alone: neither the angles nor the values are read. *)
Theorem C234_angle_only_refuted : forall order pre h al l2 rest, none_of (prefix_of (lit " surface ")) pre -> prefix_of (lit " surface ") h -> occurs (lit "angle") al -> ~ occurs (lit "energy") al -> l2 <> lit "      energy   " ->
  exists b, read_type_surface order (chr 49) (pre ++ h :: al :: l2 :: rest) = Ok b /\ b_result b = TList [] /\ b_err b = TList [] /\ b_ang b = None.
Proof. exact angle_only. Qed.
Print Assumptions C234_angle_only_refuted.
(** Several surfaces: their bins are one list. *)
Theorem C234_surfaces_refuted : forall order pre h al rest ls b bs bs', none_of (prefix_of (lit " surface ")) pre -> prefix_of (lit " surface ") h -> occurs (lit "angle") al -> ~ occurs (lit "energy") al ->
  angle_blocks (h :: al :: lit "      energy   " :: rest) (b :: bs) -> angle_blocks ls bs' ->
  exists t, read_type_surface order (chr 49) (pre ++ (h :: al :: lit "      energy   " :: rest) ++ ls) = Ok t /\
    b_ang t = Some (fdec (-1) 0 :: map fst (b :: bs) ++ map fst bs') /\
    b_result t = TList (map (fun b => ERow (map (fun r => snd (fst r)) (snd b))) ((b :: bs) ++ bs')).
Proof. exact angle_merged. Qed.
Print Assumptions C234_surfaces_refuted.
(** Bins of energy and time: the number of columns need not be the number of times. *)
Theorem C234_columns_refuted : forall gap tl el rows fin rest ts tot es m k, none_of (heads (lit "time:")) gap -> time_line tl ts tot -> heads (lit "energy") el -> energy_rows rows es m -> es <> [] ->
  Forall (fun ps => List.length ps = k) m -> blank fin \/ heads (lit "total") fin -> none_of (heads (lit "time:")) rest ->
  exists T E, process_e_t_userbin (gap ++ tl :: el :: rows ++ fin :: rest) = Ok (T, E, map (map fst) m, map (map snd) m).
Proof. exact columns_free. Qed.
Print Assumptions C234_columns_refuted.
Definition C234_lines (s e : str) : list str :=
  [s; lit " angle  bin:  -1.          to  0.00000E+00 mu"; e; lit "    1.0000E+00   5.0E-04 0.0100"; lit "      total      5.0E-04 0.0100"; []].
Example C234_ex : angle_blocks (C234_lines (lit " surface  1") (lit "      energy   ")) [(fdec 0 0, [(fdec 1 0, fdec 5 (-4), fdec 1 (-2))])] /\
  (exists t, read_type_surface (fun l => l) (chr 49) (lit "1tally  1" :: C234_lines (lit " surface  1") (lit "      energy   ") ++ C234_lines (lit " surface  2") (lit "      energy   ")) = Ok t /\
     b_ang t = Some [fdec (-1) 0; fdec 0 0; fdec 0 0] /\ b_result t = TList [ERow [fdec 5 (-4)]; ERow [fdec 5 (-4)]]) /\
  exists T E, process_e_t_userbin [lit " detector"; lit "      time:         1.0000E+00           2.0000E+00"; lit "      energy";
    lit "    1.0000E-01   1.5E-03 0.0100"; lit "      total      5.0E-03 0.02"; []] = Ok (T, E, [[fdec 15 (-4)]], [[fdec 1 (-2)]]) /\ List.length T = 2.
Proof.
  split; [|split].
  - unfold C234_lines. apply (ab_one [_] _ [_] _ _ _ [_]); [text| | | |text|apply ab_end; text].
    + split; [text|]. exists (lit " angle  bin"), (lit "  -1.          to  0.00000E+00 mu"), [lit "-1."; lit "to"], (lit "0.00000E+00"), (lit "mu"). repeat split; text.
    + apply Forall2_cons; [exists (lit "1.0000E+00"), (lit "5.0E-04"), (lit "0.0100"); repeat split; text|apply Forall2_nil].
    + text.
  - eexists. split; [vm_compute; reflexivity|]. split; vm_compute; reflexivity.
  - do 2 eexists. split; [vm_compute; reflexivity|]. reflexivity.
Qed.

(** C235: the plot of a column of the summary. *)
Theorem C235_curve : forall sd rows column x_units name y_units (cooling : bool) data times k, unit_column x_units name ->
  (if cooling then picked (fun x => is_cooling (fst x) = true) sd rows else rows = sd) ->
  Forall2 (shows column) rows data -> Forall2 (shows name) rows times -> leading data k -> 0 < k -> (forall x, In x times -> is_nan_f x = false) ->
  exists c, plot_summary (DataFrame (summary_table sd)) column [] [] x_units y_units cooling = Ok c /\ cv_x c = firstn k times /\ cv_xlabel c = name /\
    (column <> lit "dose_rate" -> cv_y c = firstn k data) /\ (column = lit "dose_rate" -> cv_y c = map (fun v => fmul v (fdec 1 6)) (firstn k data)).
Proof. exact summary_drawn. Qed.
Print Assumptions C235_curve.
Theorem C235_dose_label : forall t vl hl xu yu cooling c, plot_summary t (lit "dose_rate") vl hl xu yu cooling = Ok c -> cv_ylabel c = lit "Dose rate $\mu$Sv/h".
Proof. exact label_units. Qed.
Print Assumptions C235_dose_label.
Theorem C235_activity_label : forall t vl hl xu yu cooling c, plot_summary t (lit "act") vl hl xu yu cooling = Ok c ->
  (yu = Some (lit "Bq/kg") -> cv_ylabel c = lit "Specific Activity Bq/kg") /\ (yu = Some (lit "Bq/g") -> cv_ylabel c = lit "Specific Activity Bq/g") /\
  (yu <> Some (lit "Bq/kg") -> yu <> Some (lit "Bq/g") -> cv_ylabel c = lit "Activity Bq").
Proof. exact label_act. Qed.
Print Assumptions C235_activity_label.
(** The other columns of a summary have labels without units. *)
Theorem C235_units_refuted : forall t column vl hl xu yu cooling c, In column (map lit ["heating"; "ingestion"; "inhalation"; "tritium"]%string) ->
  plot_summary t column vl hl xu yu cooling = Ok c -> cv_ylabel c = column.
Proof. exact label_bare. Qed.
Print Assumptions C235_units_refuted.
Example C235_ex : match read_summary_data C233_data with
  | Ok sd => (exists c, plot_summary (DataFrame (summary_table sd)) (lit "dose_rate") [] [] (lit "Hrs") None true = Ok c /\ List.length (cv_x c) = 5 /\ cv_y c = map (fun v => fmul v (fdec 1 6)) [fdec 102 (-9); fdec 18 (-9); fdec 237 (-11); fdec 29 (-11); fdec 424 (-13)]) /\
             (exists c, plot_summary (DataFrame (summary_table sd)) (lit "heating") [] [] (lit "y") None false = Ok c /\ List.length (cv_x c) = 9 /\ cv_ylabel c = lit "heating") /\
             plot_summary (DataFrame (summary_table sd)) (lit "ingestion") [] [] (lit "y") None false = Err ValueError
  | Err _ => False end.
Proof. vm_compute read_summary_data. cbv iota. split; [|split]; [eexists; split; [vm_compute; reflexivity|split; vm_compute; reflexivity]..|vm_compute; reflexivity]. Qed.
Example C235_ex_units : unit_column (lit "Hrs") (lit "time_hours").
Proof.
  constructor. right. right. constructor; [right; left; exists 72%N; repeat split; lia|]. constructor; [left; reflexivity|]. constructor; [left; reflexivity|constructor].
Qed.

(** C161: the contributions of nuclides in a file that was read.  The total exists for the activity
    and the dose rate only. *)
Theorem C161_file : forall sd (ts : list time_step) nucs param,
  In param (map lit ["atoms"; "mass"; "act"; "b_energy"; "a_energy"; "g_energy"; "dose_rate"]%string) ->
  List.length sd = List.length ts -> sd <> [] -> nucs <> [] -> (forall x, In x sd -> is_nan_f (snd (fst (snd x))) = false) ->
  let invs := map (fun t => inventory_table (inventory t)) ts in let times := map (fun x => snd (fst (snd x))) sd in
  exists curves m, largest times m /\ Forall2 (curve_of invs param) nucs curves /\
    plot_nuc_cont invs (summary_table sd) nucs param false = Ok (times, curves, flt (f_of_Z 10) m) /\
    (forall tot, Forall2 (shows param) sd tot -> plot_nuc_cont invs (summary_table sd) nucs param true = Ok (times, curves ++ [(lit "Total", tot)], flt (f_of_Z 10) m)) /\
    (~ In param (map lit ["act"; "dose_rate"]%string) -> plot_nuc_cont invs (summary_table sd) nucs param true = Err KeyError).
Proof. exact contributions. Qed.
Print Assumptions C161_file.
Theorem C161_total_refuted : forall sd (ts : list time_step) nucs param,
  In param (map lit ["atoms"; "mass"; "b_energy"; "a_energy"; "g_energy"]%string) ->
  List.length sd = List.length ts -> sd <> [] -> nucs <> [] -> (forall x, In x sd -> is_nan_f (snd (fst (snd x))) = false) ->
  plot_nuc_cont (map (fun t => inventory_table (inventory t)) ts) (summary_table sd) nucs param true = Err KeyError.
Proof. exact contributions_total. Qed.
Print Assumptions C161_total_refuted.
Definition C161_step : time_step := TimeStep 1 fzero true 1 fzero fzero fzero fzero fzero fzero fzero fzero fzero fzero (Num fzero) fzero fzero fzero fzero fzero None []
  [Nuclide (lit "Co60") (f_of_Z 3) (f_of_Z 1) (f_of_Z 5000000) fzero (f_of_Z 2) (f_of_Z 7) fzero (lit "Co") (lit "60")] [] [].
Example C161_file_ex : match read_summary_data C233_data with
  | Ok sd => let ts := repeat C161_step (List.length sd) in let invs := map (fun t => inventory_table (inventory t)) ts in
             sd <> [] /\ forallb (fun x => negb (is_nan_f (snd (fst (snd x))))) sd = true /\
             match plot_nuc_cont invs (summary_table sd) [lit "Co60"] (lit "act") true with
             | Ok (times, curves, log) => List.length times = 9 /\ map fst curves = [lit "Co60"; lit "Total"] /\ nth 0 (map snd curves) [] = repeat (f_of_Z 5000000) 9 /\ log = false
             | Err _ => False end /\
             plot_nuc_cont invs (summary_table sd) [lit "Co60"] (lit "mass") true = Err KeyError
  | Err _ => False end.
Proof. vm_compute read_summary_data. cbv iota zeta. split; [discriminate|split; [vm_compute; reflexivity|split; [vm_compute; repeat split|vm_compute; reflexivity]]]. Qed.
