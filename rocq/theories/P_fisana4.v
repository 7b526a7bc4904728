(** Proofs about the remaining filters, time units and plotted data of fispact_analysis.py. *)
From Coq Require Import Reals Lra Lia Floats.SpecFloat.
From Flocq Require Import Core.
From Verif Require Import PyBase PyFloat FloatR FloatFacts PyFs SpecStr SpecUtil SpecOutput SpecFis SpecConst PyTable PyFacts TextFacts P_util P_const P_fisout P_fisout4 M_util M_ptrac M_const M_fisout M_fisana SpecFisana P_fisana P_output3 P_table P_fisana2 P_fisana3.
Local Open Scope nat_scope.

(** * Time units *)
Lemma is_spelled s w : forallb lowercase (lit w) = true -> str_eqb (lower s) (lit w) = false <-> ~ spells s w.
Proof. intros H. rewrite <- (lower_spells s w H). destruct (str_eqb _ _); intuition congruence. Qed.
Lemma spells_lower s w : forallb lowercase (lit w) = true -> spells s w -> lower s = lit w.
Proof. intros H K. apply str_eqb_eq. now apply lower_spells. Qed.
Lemma time_units_spec u :
  ((spells u "s" \/ spells u "seconds") -> check_time_units u = lit "time_secs") /\
  ((spells u "d" \/ spells u "days") -> check_time_units u = lit "time_days") /\
  ((spells u "h" \/ spells u "hours" \/ spells u "hrs") -> check_time_units u = lit "time_hours") /\
  ((spells u "y" \/ spells u "yrs" \/ spells u "years") -> check_time_units u = lit "time_years") /\
  ((forall w, In w ["s"; "seconds"; "d"; "days"; "h"; "hours"; "hrs"; "y"; "yrs"; "years"]%string -> ~ spells u w) -> check_time_units u = u).
Proof.
  unfold check_time_units. repeat split.
  - intros [H|H]; apply spells_lower in H; try reflexivity; rewrite H; reflexivity.
  - intros [H|H]; apply spells_lower in H; try reflexivity; rewrite H; reflexivity.
  - intros [H|[H|H]]; apply spells_lower in H; try reflexivity; rewrite H; reflexivity.
  - intros [H|[H|H]]; apply spells_lower in H; try reflexivity; rewrite H; reflexivity.
  - intros H. repeat match goal with |- context[str_eqb (lower u) (lit ?w)] => rewrite (proj2 (is_spelled u w eq_refl)) by (apply H; cbn; tauto) end. reflexivity.
Qed.

(** * printlib filters *)
Lemma energy_filter_spec t x t' : well_formed t -> energy_filter (DataFrame t) x = Ok t' <-> numeric t (lit "energy_ev") /\ rows_where t (exceeds (lit "energy_ev") x t) t'.
Proof.
  intros W. unfold energy_filter. destruct (has_col t (lit "energy_ev")) eqn:E; [apply select_gt, W|]. apply has_col_not in E. split; [discriminate|]. intros ((H & _) & _). contradiction.
Qed.
Lemma cell_is_spec s c : cell_is s c = true <-> c = CS s.
Proof. destruct c; cbn; split; try discriminate; intros H; [apply str_eqb_eq in H; now subst|]. injection H as ->. apply str_eqb_refl. Qed.
Lemma select_is t name s t' : well_formed t -> select t name (fun c => Ok (cell_is s c)) = Ok t' <-> In name (t_names t) /\ rows_where t (fun r => text_at t name r s) t'.
Proof.
  intros W. rewrite (select_spec t W). unfold rows_where.
  assert (Q : forall r, (exists c, at_col t name r c /\ Ok (cell_is s c) = Ok true) <-> text_at t name r s).
  { intros r. unfold text_at. split; [|intros H; exists (CS s); split; [exact H|]; f_equal; now apply cell_is_spec]. intros (c & H & K). assert (cell_is s c = true) as K' by congruence. apply cell_is_spec in K'. now subst. }
  split.
  - intros (I & _ & N & P). split; [exact I|]. split; [exact N|]. eapply picked_iff; [|exact P]. intros r _. symmetry. apply Q.
  - intros (I & N & P). split; [exact I|]. split; [|split; [exact N|eapply picked_iff; [|exact P]; intros r _; apply Q]].
    intros r Hr. destruct (row_cell_total t name r W Hr I) as (c & _ & Hc). exists c, (cell_is s c). split; [exact Hc|reflexivity].
Qed.
Lemma particle_filter_spec t s t' : well_formed t -> particle_filter (DataFrame t) s = Ok t' <-> In (lit "particle") (t_names t) /\ rows_where t (fun r => text_at t (lit "particle") r s) t'.
Proof.
  intros W. unfold particle_filter. destruct (has_col t (lit "particle")) eqn:E; [apply select_is, W|]. apply has_col_not in E. split; [discriminate|]. tauto.
Qed.
Lemma filters_reject : (forall x, energy_filter NotFrame x = Err ValueError) /\ (forall s, particle_filter NotFrame s = Err ValueError) /\
  (forall t x, ~ In (lit "energy_ev") (t_names t) -> energy_filter (DataFrame t) x = Err ValueError) /\
  (forall t s, ~ In (lit "particle") (t_names t) -> particle_filter (DataFrame t) s = Err ValueError).
Proof.
  repeat split; intros t x H; apply has_col_not in H; unfold energy_filter, particle_filter; now rewrite H.
Qed.
(** The frames of the readers are accepted. *)
Lemma enum_rows {A B} (f : A -> B) (l : list A) k r : In r (enum_from k (map f l)) -> exists x, In x l /\ snd r = f x.
Proof. revert k. induction l as [|x l IH]; intros k H; [contradiction|]. destruct H as [<-|H]; [exists x; split; [now left|reflexivity]|]. destruct (IH _ H) as (y & Hy & E). exists y. split; [now right|exact E]. Qed.
Lemma emission_wf rows : well_formed (emission_table rows).
Proof.
  split; [apply distinct_NoDup; reflexivity|]. apply Forall_forall. intros r Hr. apply enum_rows in Hr. destruct Hr as (e & _ & ->). reflexivity.
Qed.
Lemma emission_numeric rows : numeric (emission_table rows) (lit "energy_ev") /\ In (lit "particle") (t_names (emission_table rows)).
Proof.
  split; [split; [cbn; tauto|]|cbn; tauto]. intros r Hr. apply enum_rows in Hr. destruct Hr as (e & _ & E). exists (e_energy e), (CF (e_energy e)). split; [|constructor]. exists 2. rewrite E. split; reflexivity.
Qed.
(** The filters on the lines of a file. *)
Definition emission_cells (e : emission) : list cell := [CS (e_nuclide e); CS (e_particle e); CF (e_energy e); CF (e_intensity e)].
Lemma emission_select rows name test (P : emission -> bool) :
  has_col (emission_table rows) name = true ->
  (forall e k, bind (row_cell (emission_table rows) name (k, emission_cells e)) test = Ok (P e)) ->
  exists t, select (emission_table rows) name test = Ok t /\ t_names t = t_names (emission_table rows) /\ map snd (t_rows t) = map emission_cells (filter P rows).
Proof.
  intros C H. unfold select, column. rewrite C. cbn [emission_table t_rows]. unfold row_cell in *. cbn [emission_table t_names snd] in *.
  set (names := [lit "nuclide"; lit "particle"; lit "energy_ev"; lit "intensity"]) in *.
  unfold enumerate. change (fun e => [CS (e_nuclide e); CS (e_particle e); CF (e_energy e); CF (e_intensity e)]) with emission_cells.
  enough (G : forall k, exists cs m, mapM (fun r : row => get_cell names (snd r) name) (enum_from k (map emission_cells rows)) = Ok cs /\ mapM test cs = Ok m /\
    map snd (keep m (enum_from k (map emission_cells rows))) = map emission_cells (filter P rows)).
  { destruct (G 0) as (cs & m & A & B & D). rewrite A. cbn [bind]. rewrite B. cbn [bind]. eexists. split; [reflexivity|]. split; [reflexivity|exact D]. }
  induction rows as [|e rows IH]; intros k; [exists [], []; repeat split|].
  cbn [map enum_from mapM snd]. specialize (H e 0) as He. destruct (get_cell names (emission_cells e) name) as [c|]; [|discriminate].
  cbn [bind] in He. destruct (IH C (S k)) as (cs & m & A & B & D). rewrite A. exists (c :: cs), (P e :: m). cbn [bind mapM]. rewrite He, B. cbn [bind].
  split; [reflexivity|]. split; [reflexivity|]. cbn [keep filter]. destruct (P e); cbn [map snd]; rewrite D; reflexivity.
Qed.
Lemma energy_lines rows x : exists kept t, picked (fun e => flt x (e_energy e) = true) rows kept /\ energy_filter (DataFrame (emission_table rows)) x = Ok t /\
  t_names t = map lit ["nuclide"; "particle"; "energy_ev"; "intensity"]%string /\
  map snd (t_rows t) = map (fun e => [CS (e_nuclide e); CS (e_particle e); CF (e_energy e); CF (e_intensity e)]) kept.
Proof.
  destruct (emission_select rows (lit "energy_ev") (cell_gt x) (fun e => flt x (e_energy e)) eq_refl (fun _ _ => eq_refl)) as (t & A & B & C).
  exists (filter (fun e => flt x (e_energy e)) rows), t. split; [now apply (P_output3.picked_filter _ (fun e => flt x (e_energy e)))|].
  split; [exact A|]. split; [exact B|exact C].
Qed.
Lemma particle_lines rows s : exists kept t, picked (fun e => e_particle e = s) rows kept /\ particle_filter (DataFrame (emission_table rows)) s = Ok t /\
  t_names t = map lit ["nuclide"; "particle"; "energy_ev"; "intensity"]%string /\
  map snd (t_rows t) = map (fun e => [CS (e_nuclide e); CS (e_particle e); CF (e_energy e); CF (e_intensity e)]) kept.
Proof.
  destruct (emission_select rows (lit "particle") (fun c => Ok (cell_is s c)) (fun e => str_eqb s (e_particle e)) eq_refl (fun _ _ => eq_refl)) as (t & A & B & C).
  exists (filter (fun e => str_eqb s (e_particle e)) rows), t. split.
  { apply (P_output3.picked_filter _ (fun e => str_eqb s (e_particle e))); [|reflexivity]. intros e. rewrite str_eqb_eq. intuition congruence. }
  split; [exact A|]. split; [exact B|exact C].
Qed.
Lemma inventory_numeric inv name : In name (map lit ["atoms"; "mass"; "act"; "b_energy"; "a_energy"; "g_energy"; "dose_rate"]%string) -> numeric (inventory_table inv) name.
Proof.
  intros H. split; [cbn in *; tauto|]. intros r Hr. apply enum_rows in Hr. destruct Hr as (n & _ & E). unfold number_at, at_col. rewrite E. cbn [inventory_table t_names].
  cbn [map] in H. repeat (destruct H as [<-|H]; [eexists; eexists; split; [|constructor]; (exists 1 + exists 2 + exists 3 + exists 4 + exists 5 + exists 6 + exists 7); split; reflexivity|]). contradiction.
Qed.
Lemma inventory_is_like inv : inventory_like (inventory_table inv).
Proof.
  split; [apply inventory_wf|]. split; [apply inventory_numeric; cbn; tauto|]. split; [cbn; tauto|]. intros r Hr. apply enum_rows in Hr. destruct Hr as (n & _ & E). exists (n_name n), 0. rewrite E. split; reflexivity.
Qed.
(** The four filters never raise on inventories of the output reader. *)
Lemma positive_rows_total t name : well_formed t -> numeric t name -> exists t', positive_rows (DataFrame t) name = Ok t'.
Proof.
  intros W N. destruct (positive_rows (DataFrame t) name) as [t'|e] eqn:E; [now exists t'|exfalso].
  assert (exists l, picked (emits name t) (t_rows t) l) as (l & P).
  { apply picked_exists. intros r Hr. destruct (proj2 N r Hr) as (x & c & Hc & Hx). destruct (flt fzero x) eqn:F.
    - left. exists x. split; [now exists c|now apply flt_zero].
    - right. intros (y & (d & Hd & Hy) & G). assert (d = c) by (eapply at_col_fun; [apply W|exact Hd|exact Hc]). subst d. assert (y = x) by (eapply holds_fun; eassumption). subst y. apply flt_zero in G. congruence. }
  assert (positive_rows (DataFrame t) name = Ok (Table (t_names t) l)); [|congruence]. apply positive_rows_spec; [exact W|]. split; [exact N|]. split; [reflexivity|exact P].
Qed.
Lemma is_nuc_present_spec t nuc : well_formed t -> In (lit "nuclide") (t_names t) ->
  exists b, is_nuc_present (DataFrame t) nuc = Ok b /\ (b = true <-> exists r, In r (t_rows t) /\ text_at t (lit "nuclide") r nuc).
Proof.
  intros W I. unfold is_nuc_present. replace (has_col t (lit "nuclide")) with true by (symmetry; now apply has_col_In).
  assert (exists cs, column t (lit "nuclide") = Ok cs) as (cs & Hc).
  { unfold column. replace (has_col t (lit "nuclide")) with true by (symmetry; now apply has_col_In). apply mapM_all. intros r Hr. destruct (row_cell_total t (lit "nuclide") r W Hr I) as (c & H & _). now exists c. }
  rewrite Hc. cbn [bind]. exists (existsb (cell_is nuc) cs). split; [reflexivity|]. apply column_spec in Hc; [|exact W]. destruct Hc as (_ & F). destruct W as (ND & _). clear I.
  unfold text_at. induction F as [|r c rs cs Hc F IH]; cbn [existsb In]; [split; [discriminate|intros (r & [] & _)]|].
  rewrite orb_true_iff, IH, cell_is_spec. split.
  - intros [->|(r' & Hr' & Ht)]; [exists r; auto|exists r'; auto].
  - intros (r' & [<-|Hr'] & Ht); [left; eapply at_col_fun; eassumption|right; now exists r'].
Qed.

(** * plot_summary *)
Lemma fold_max l : forall x, (forall y, In y (x :: l) -> is_nan_f y = false) ->
  largest (x :: l) (fold_left (fun m y => if flt m y then y else m) l x).
Proof.
  induction l as [|y l IH]; intros x N; cbn [fold_left].
  - split; [now left|]. intros z [<-|[]]. apply flt_irrefl.
  - destruct (flt x y) eqn:E.
    + destruct (IH y) as (H1 & H2); [intros z Hz; apply N; now right|]. split; [now right|]. intros z [<-|Hz]; [|now apply H2].
      set (m := fold_left _ l y) in *. destruct (flt m x) eqn:G; [|reflexivity]. specialize (H2 y (or_introl eq_refl)). now rewrite (flt_trans _ _ _ G E) in H2.
    + destruct (IH x) as (H1 & H2); [intros z [<-|Hz]; apply N; [now left|right; now right]|]. split; [destruct H1 as [H1|H1]; [now left|right; now right]|].
      intros z [<-|[<-|Hz]]; [apply H2; now left| |apply H2; now right].
      set (m := fold_left _ l x) in *. destruct (flt m y) eqn:G; [|reflexivity]. assert (Hm : flt m x = false) by (apply H2; now left).
      assert (Nm : is_nan_f m = false) by (destruct H1 as [H1|H1]; [rewrite <- H1; apply N; now left|apply N; right; now right]).
      assert (Nx : is_nan_f x = false) by (apply N; now left).
      assert (L : fle x m = true). { apply fle_key. repeat split; auto. intros K. assert (flt m x = true) by (apply flt_key; auto). congruence. }
      assert (flt x y = true); [|congruence]. apply flt_key in G. apply fle_key in L. apply flt_key. destruct G as (_ & Ny & G), L as (_ & _ & L). repeat split; auto.
      destruct (klt_total (fkey x) (fkey m)) as [K|[K|K]]; [eapply klt_trans; eassumption|now rewrite K|contradiction].
Qed.
Lemma py_max_spec l : l <> [] -> (forall y, In y l -> is_nan_f y = false) -> exists m, py_max l = Ok m /\ largest l m.
Proof. destruct l as [|x l]; [contradiction|]. intros _ N. cbn [py_max]. eexists. split; [reflexivity|]. now apply fold_max. Qed.

Lemma reduce_leading {T} (values : list float) (times : list T) k : List.length values = List.length times -> leading values k ->
  reduce_to_non_zero values times = Ok (firstn k values, firstn k times).
Proof. intros L (H1 & H2 & H3). apply reduce_spec. split; [exact L|]. exists k. auto. Qed.
Lemma leading_exists values : exists k, leading values k.
Proof.
  destruct (reduce_total values values eq_refl) as (v & t & H). apply reduce_spec in H. destruct H as (_ & k & H1 & -> & _ & H2 & H3). exists k. repeat split; assumption.
Qed.
Lemma plotted_rows_run t cooling t1 : well_formed t -> plotted_rows t cooling t1 -> (if cooling then select t (lit "is_cooling") cell_true else Ok t) = Ok t1.
Proof.
  intros W H. destruct cooling; cbn [plotted_rows] in H; [|now subst]. destruct H as (I & B & N & P). apply select_spec; [exact W|]. split; [exact I|]. split.
  - intros r Hr. destruct (B r Hr) as (b & Hb). exists (CB b), b. auto.
  - split; [exact N|]. eapply picked_iff; [|exact P]. intros r Hr. split.
    + intros (c & Hc & E). destruct c; try discriminate. cbn in E. injection E as ->. exact Hc.
    + intros Hc. exists (CB true). auto.
Qed.
Lemma plotted_rows_wf t cooling t1 : well_formed t -> plotted_rows t cooling t1 -> well_formed t1.
Proof. intros W H. destruct cooling; cbn in H; [eapply rows_where_wf; [exact W|apply H]|now subst]. Qed.
Lemma plotted_rows_names t cooling t1 : plotted_rows t cooling t1 -> t_names t1 = t_names t.
Proof. intros H. destruct cooling; cbn in H; [apply H|now subst]. Qed.
Lemma plot_summary_curve t column x_units y_units cooling t1 data times k : well_formed t -> plotted_rows t cooling t1 ->
  numbers_of t1 column data -> numbers_of t1 (check_time_units x_units) times -> leading data k -> 0 < k -> (forall x, In x times -> is_nan_f x = false) ->
  exists m c, largest (firstn k times) m /\ plot_summary (DataFrame t) column [] [] x_units y_units cooling = Ok c /\
    cv_x c = firstn k times /\
    cv_y c = (if str_eqb column (lit "dose_rate") then map (fun v => fmul v (fdec 1 6)) (firstn k data) else firstn k data) /\
    cv_xlabel c = check_time_units x_units /\ cv_xlog c = flt (f_of_Z 10) m.
Proof.
  intros W PR ND NT LD Hk NN. pose proof (plotted_rows_wf _ _ _ W PR) as W1. pose proof (plotted_rows_names _ _ _ PR) as EN.
  unfold plot_summary. replace (has_col t column) with true by (symmetry; apply has_col_In; rewrite <- EN; apply ND). cbn [negb].
  rewrite (plotted_rows_run t cooling t1 W PR). cbn [bind]. rewrite (proj2 (num_column_spec t1 column data W1) ND). cbn [bind].
  replace (has_col t1 (check_time_units x_units)) with true by (symmetry; apply has_col_In; apply NT). cbn [negb].
  rewrite (proj2 (num_column_spec t1 _ times W1) NT). cbn [bind]. pose proof (numbers_of_len _ _ _ ND) as L1. pose proof (numbers_of_len _ _ _ NT) as L2.
  rewrite (reduce_leading data times k) by (congruence || assumption). cbn [bind fst snd].
  destruct (py_max_spec (firstn k times)) as (m & Hm & Lm).
  - intros E. assert (List.length (firstn k times) = 0) as E' by now rewrite E. rewrite firstn_length in E'. destruct LD as (LD & _). lia.
  - intros y Hy. apply NN. rewrite <- (firstn_skipn k times). apply in_or_app. now left.
  - rewrite Hm. cbn [bind]. exists m. eexists. repeat split; try reflexivity; apply Lm.
Qed.
(** A series that starts with zero. *)
Lemma plot_summary_zero t column vl hl x_units y_units cooling t1 data times : well_formed t -> plotted_rows t cooling t1 ->
  numbers_of t1 column data -> numbers_of t1 (check_time_units x_units) times -> (forall x, nth_error data 0 = Some x -> fp_zero x) ->
  plot_summary (DataFrame t) column vl hl x_units y_units cooling = Err ValueError.
Proof.
  intros W PR ND NT Z. pose proof (plotted_rows_wf _ _ _ W PR) as W1. pose proof (plotted_rows_names _ _ _ PR) as EN.
  unfold plot_summary. replace (has_col t column) with true by (symmetry; apply has_col_In; rewrite <- EN; apply ND). cbn [negb].
  rewrite (plotted_rows_run t cooling t1 W PR). cbn [bind]. rewrite (proj2 (num_column_spec t1 column data W1) ND). cbn [bind].
  replace (has_col t1 (check_time_units x_units)) with true by (symmetry; apply has_col_In; apply NT). cbn [negb].
  rewrite (proj2 (num_column_spec t1 _ times W1) NT). cbn [bind]. pose proof (numbers_of_len _ _ _ ND) as L1. pose proof (numbers_of_len _ _ _ NT) as L2.
  rewrite (reduce_leading data times 0); [reflexivity|congruence|]. split; [lia|]. split; [constructor|]. destruct data as [|x data]; [now left|right]. exists x. split; [reflexivity|]. now apply Z.
Qed.
Lemma plot_summary_lines inv column vl hl x_units y_units cooling c : plot_summary inv column vl hl x_units y_units cooling = Ok c -> vl = [] /\ hl = [].
Proof.
  unfold plot_summary. destruct inv as [t|]; [|discriminate]. destruct (negb (has_col t column)); [discriminate|]. intros H. apply bind_Ok in H. destruct H as (t1 & _ & H). apply bind_Ok in H. destruct H as (d & _ & H).
  destruct (negb (has_col t1 (check_time_units x_units))); [discriminate|]. apply bind_Ok in H. destruct H as (ts & _ & H). apply bind_Ok in H. destruct H as (dt & _ & H). apply bind_Ok in H. destruct H as (m & _ & H).
  destruct vl, hl; try discriminate. auto.
Qed.

(** * Other plots *)
Lemma group_bounds_24 : List.length group_bounds = 24.
Proof. reflexivity. Qed.
Lemma plot_spectra_Ok g : List.length g = 24 -> (forall x, In x g -> is_nan_f x = false) ->
  exists m, largest g m /\
    (is_finite_f (fadd m (fmul m (fdec 5 (-1)))) = true -> plot_spectra g = Ok (group_bounds, g, fadd m (fmul m (fdec 5 (-1))))) /\
    (is_finite_f (fadd m (fmul m (fdec 5 (-1)))) = false -> plot_spectra g = Err ValueError).
Proof.
  intros L N. destruct (py_max_spec g) as (m & Hm & Lm); [intros ->; discriminate|exact N|]. exists m. split; [exact Lm|]. unfold plot_spectra. rewrite Hm, L. cbn [bind].
  split; intros ->; reflexivity.
Qed.
Lemma plot_spectra_other g : List.length g <> 24 -> plot_spectra g = Err ValueError.
Proof.
  intros L. unfold plot_spectra. destruct g as [|x g]; [reflexivity|]. cbn [py_max bind]. destruct (is_finite_f _); [|reflexivity]. cbn [negb]. rewrite group_bounds_24. apply Nat.neq_sym, Nat.eqb_neq in L. now rewrite L.
Qed.
Lemma rnd_power e : (-1074 <= e)%Z -> rnd (bpow radix2 e) = bpow radix2 e.
Proof. intros H. apply round_generic; [apply valid_rnd_N|]. apply generic_format_bpow. unfold FLT_exp. lia. Qed.
(** Half as much again does not overflow up to 2^1022. *)
Lemma half_more_finite x : valid x = true -> is_finite_f x = true -> (0 <= FR x <= bpow radix2 1022)%R -> is_finite_f (fadd x (fmul x (fdec 5 (-1)))) = true.
Proof.
  intros V F (P & Q).
  assert (H5 : FR (fdec 5 (-1)) = (/2)%R) by (unfold FR; vm_compute; lra).
  pose proof (fmul_R x (fdec 5 (-1)) V eq_refl F eq_refl) as (Vm & O1 & O2). rewrite H5 in *.
  assert (B1 : (bpow radix2 1021 = bpow radix2 1022 / 2)%R) by (change 1022%Z with (1 + 1021)%Z; rewrite bpow_plus; simpl (bpow radix2 1); lra).
  assert (B2 : (bpow radix2 1023 = 2 * bpow radix2 1022)%R) by (change 1023%Z with (1 + 1022)%Z; rewrite bpow_plus; simpl (bpow radix2 1); lra).
  assert (B3 : (0 < bpow radix2 1022)%R) by apply bpow_gt_0.
  assert (M : (bpow radix2 1023 < fmax_bound)%R) by (apply bpow_lt; reflexivity).
  assert (R1 : (0 <= rnd (FR x * / 2) <= bpow radix2 1021)%R).
  { split; [rewrite <- rnd_0; apply rnd_le; lra|]. rewrite <- (rnd_power 1021) by discriminate. apply rnd_le. lra. }
  assert (L1 : (Rabs (rnd (FR x * / 2)) < fmax_bound)%R) by (rewrite Rabs_pos_eq by lra; lra).
  destruct (O1 L1) as (E1 & F1).
  pose proof (fadd_R x (fmul x (fdec 5 (-1))) V Vm F F1) as (_ & P1 & _). rewrite E1 in P1. apply P1.
  assert (R2 : (0 <= rnd (FR x + rnd (FR x * / 2)) <= bpow radix2 1023)%R).
  { split; [rewrite <- rnd_0; apply rnd_le; lra|]. rewrite <- (rnd_power 1023) by discriminate. apply rnd_le. lra. }
  rewrite Rabs_pos_eq by lra. lra.
Qed.
Lemma plot_spectra_range g : List.length g = 24 -> Forall (fun x => valid x = true /\ is_finite_f x = true /\ (0 <= FR x <= bpow radix2 1022)%R) g ->
  exists m, largest g m /\ plot_spectra g = Ok (group_bounds, g, fadd m (fmul m (fdec 5 (-1)))).
Proof.
  intros L F. rewrite Forall_forall in F. destruct (plot_spectra_Ok g L) as (m & Lm & A & _).
  { intros x Hx. destruct (F x Hx) as (_ & Fx & _). destruct x; cbn in *; congruence. }
  exists m. split; [exact Lm|]. apply A. destruct (F m (proj1 Lm)) as (V & Fm & R). now apply half_more_finite.
Qed.
Lemma plot_pie_spec t param thres labels sizes : well_formed t -> plot_pie t param thres = Ok (labels, sizes) <->
  In param (t_names t) /\ numeric t (param ++ lit "_percent") /\
  exists t1, rows_where t (exceeds (param ++ lit "_percent") thres t) t1 /\ In (param ++ lit "_nuc") (t_names t) /\
    Forall2 (at_col t (param ++ lit "_nuc")) (t_rows t1) labels /\ Forall2 (number_at t param) (t_rows t1) sizes /\
    Forall (fun v => flt v fzero = false) sizes.
Proof.
  assert (G : existsb (fun v => flt v fzero) sizes = false <-> Forall (fun v => flt v fzero = false) sizes).
  { induction sizes as [|v l IH]; cbn [existsb]; [split; constructor|]. rewrite orb_false_iff, Forall_cons_iff, IH. reflexivity. }
  intros W. unfold plot_pie. destruct (has_col t param) eqn:E; cbn [negb].
  2:{ apply has_col_not in E. split; [discriminate|]. intros (H & _). contradiction. }
  apply has_col_In in E. rewrite bind_Ok. split.
  - intros (t1 & H1 & H). apply select_gt in H1; [|exact W]. destruct H1 as (NU & RW). pose proof (rows_where_wf _ _ _ W RW) as W1. unbind H. destruct (existsb _ _) eqn:EG in H; [discriminate|]. injection H as <- <-. apply G in EG.
    apply column_spec in E0; [|exact W1]. apply num_column_spec in E1; [|exact W1]. destruct RW as (N & P). split; [exact E|]. split; [exact NU|]. exists t1. split; [split; assumption|]. split; [rewrite <- N; apply E0|].
    split; [eapply Forall2_impl; [|apply E0]; intros r c; now apply same_names_at|]. split; [|exact EG]. eapply Forall2_impl; [|apply E1]. intros r c. now apply same_names_number.
  - intros (_ & NU & t1 & RW & I & F1 & F2 & F3). pose proof (rows_where_wf _ _ _ W RW) as W1. exists t1. split; [now apply select_gt|]. destruct RW as (N & P).
    rewrite (proj2 (column_spec t1 (param ++ lit "_nuc") labels W1)); [|split; [now rewrite N|]; eapply Forall2_impl; [|exact F1]; intros r c; now apply same_names_at]. cbn [bind].
    rewrite (proj2 (num_column_spec t1 param sizes W1)); [cbn [bind]; now rewrite (proj2 G F3)|]. split; [now rewrite N|]. eapply Forall2_impl; [|exact F2]. intros r c. now apply same_names_number.
Qed.
Lemma picked_head {A} (P : A -> Prop) l x l' : picked P l (x :: l') <-> exists a b, l = a ++ x :: b /\ Forall (fun y => ~ P y) a /\ P x /\ picked P b l'.
Proof.
  split.
  - intros H. remember (x :: l') as m. induction H as [|y l m Py G IH|y l m Py G IH]; [discriminate| |].
    + injection Heqm as -> ->. exists [], l. repeat split; auto.
    + destruct (IH Heqm) as (a & b & -> & Fa & Px & Pb). exists (y :: a), b. repeat split; auto.
  - intros (a & b & -> & Fa & Px & Pb). induction Fa as [|y a Hy Fa IH]; cbn [app]; constructor; auto.
Qed.
Lemma nuc_value_spec t nuc param x : well_formed t -> In (lit "nuclide") (t_names t) -> In param (t_names t) ->
  nuc_value t nuc param = Ok x <-> contribution t nuc param x.
Proof.
  intros W I1 I2. unfold nuc_value. destruct (is_nuc_present_spec t nuc W I1) as (b & Hb & Sb). rewrite Hb. cbn [bind]. unfold contribution. destruct b.
  - assert (exists t1, select t (lit "nuclide") (fun c => Ok (cell_is nuc c)) = Ok t1) as (t1 & H1).
    { destruct (select t (lit "nuclide") (fun c => Ok (cell_is nuc c))) as [t1|e] eqn:E; [now exists t1|exfalso].
      assert (exists l, picked (fun r => text_at t (lit "nuclide") r nuc) (t_rows t) l) as (l & P).
      { apply picked_exists. intros r Hr. destruct (row_cell_total t (lit "nuclide") r W Hr I1) as (c & _ & Hc). destruct (cell_is nuc c) eqn:C.
        - left. apply cell_is_spec in C. now subst.
        - right. intros Ht. assert (c = CS nuc) by (eapply at_col_fun; [apply W|exact Hc|exact Ht]). apply cell_is_spec in H. congruence. }
      assert (select t (lit "nuclide") (fun c => Ok (cell_is nuc c)) = Ok (Table (t_names t) l)); [|congruence]. apply select_is; [exact W|]. split; [exact I1|]. split; [reflexivity|exact P]. }
    rewrite H1. cbn [bind]. apply select_is in H1; [|exact W]. destruct H1 as (_ & RW). pose proof (rows_where_wf _ _ _ W RW) as W1. destruct RW as (N & P).
    destruct (proj1 Sb eq_refl) as (r0 & Hr0 & Ht0).
    assert (exists cs, column t1 param = Ok cs) as (cs & Hcs).
    { unfold column. replace (has_col t1 param) with true by (symmetry; apply has_col_In; now rewrite N). apply mapM_all. intros r Hr. destruct (row_cell_total t1 param r W1 Hr) as (c & H & _); [now rewrite N|]. now exists c. }
    rewrite Hcs. cbn [bind]. apply column_spec in Hcs; [|exact W1]. destruct Hcs as (_ & F).
    destruct (t_rows t1) as [|r rs] eqn:E1; [exfalso; exact (proj2 (picked_In _ _ _ r0 P) (conj Hr0 Ht0))|]. inversion F as [|? c ? cs' Hc F']; subst. change (py_nth (c :: cs') 0) with (Ok c). cbn [bind].
    apply picked_head in P. destruct P as (a & bb & El & Fa & Pr & _). rewrite <- holds_num. 
    assert (FI : first_index (fun r => text_at t (lit "nuclide") r nuc) (t_rows t) (List.length a)) by (apply first_index_split; exists a, r, bb; auto).
    assert (Er : nth_error (t_rows t) (List.length a) = Some r) by (rewrite El, nth_error_app2, Nat.sub_diag by lia; reflexivity).
    split.
    + intros Hx. left. exists (List.length a), r. split; [exact FI|]. split; [exact Er|]. exists c. split; [|exact Hx]. now apply (same_names_at t t1).
    + intros [(i & r' & FI' & Er' & c' & Hc' & Hx)|(Hn & _)]; [|elim (Hn r0 Hr0 Ht0)].
      assert (i = List.length a). { destruct FI as ((y & Ey & Py) & B), FI' as ((y' & Ey' & Py') & B'). destruct (Nat.lt_trichotomy i (List.length a)) as [G|[G|G]]; [elim (B i y' G Ey' Py')|exact G|elim (B' _ y G Ey Py)]. }
      subst i. assert (r' = r) by congruence. subst r'. apply (same_names_at t t1 param r c N) in Hc. assert (c' = c) by (eapply at_col_fun; [apply W|exact Hc'|exact Hc]). now subst.
  - assert (NP : forall r, In r (t_rows t) -> ~ text_at t (lit "nuclide") r nuc). { intros r Hr Ht. assert (false = true); [|discriminate]. apply Sb. now exists r. }
    split; [intros H; injection H as <-; right; auto|]. intros [(i & r & ((y & Ey & Py) & _) & _)|(_ & ->)]; [|reflexivity]. elim (NP y); [eapply nth_error_In; exact Ey|exact Py].
Qed.
