(** Properties of the FISPACT analysis functions and of the printlib reader.  Statements
    only; the proofs are in P_fisana*.v and P_table.v.  [np_sum] is the sum of a column,
    [show] and [show_e] turn numbers into text, [read_csv] reads the table of limits. *)
From Coq Require Import Reals Lia Lra Floats.SpecFloat.
From Flocq Require Import Core.
From Verif Require Import PyBase PyFloat PyFs FloatR SpecStr SpecUtil SpecOutput M_util M_ptrac M_fisout SpecFis SpecConst PyTable M_fisana SpecFisana TextTac P_util P_fisout P_fisana P_table P_fisana2 P_fisana3 P_fisana4 P_fisana5.
Local Open Scope nat_scope.

(** C80 *)
Theorem C80_rows : forall lines rows, printlib_lines lines = Ok rows <->
  exists section dl, discrete_section lines section /\ picked data_line section dl /\ emissions dl rows.
Proof. exact printlib_iff. Qed.
Print Assumptions C80_rows.
Theorem C80_no_end : forall lines, Forall (fun l => ~ run_time_line l) lines -> exists e, printlib_lines lines = Err e.
Proof. exact printlib_no_end. Qed.
Print Assumptions C80_no_end.
Theorem C80_unnamed : forall lines section l dl, discrete_section lines section -> picked data_line section (l :: dl) -> names_none l -> printlib_lines lines = Err OSError.
Proof. exact printlib_unnamed. Qed.
Print Assumptions C80_unnamed.
Theorem C80_file : forall f p t, path_isfile f p = true -> read_text f p = Ok t -> read_fispact_printlib f p = printlib_lines (file_lines t).
Proof. exact printlib_file. Qed.
Print Assumptions C80_file.
Theorem C80_paths : forall f p, (path_exists f p = false -> read_fispact_printlib f p = Err FileNotFoundError) /\
  (path_exists f p = true -> is_dir f p = true -> read_fispact_printlib f p = Err ValueError).
Proof. exact printlib_paths. Qed.
Print Assumptions C80_paths.
Definition ex_printlib : list str := map lit
  ["  FD  spectral lines";
   "  Nuclide   Type";
   "  H  3                   beta              1.86000E+04                 1.00000E+00";
   "                         gamma             2.00000E+04                 5.00000E-01";
   "  Be 8        no spectral data";
   "  Co60                   gamma             1.33250E+06                 9.99800E-01";
   " fispact run time 1 s"]%string.
Example C80_ex : printlib_lines ex_printlib = Ok
  [Emission (lit "H3") (lit "beta") (fdec 186 2) (f_of_Z 1); Emission (lit "H3") (lit "gamma") (f_of_Z 20000) (fdec 5 (-1));
   Emission (lit "Co60") (lit "gamma") (f_of_Z 1332500) (fdec 9998 (-4))].
Proof. vm_compute. reflexivity. Qed.

(** C81 *)
Theorem C81_positive : forall t t', well_formed t ->
  (remove_stable (DataFrame t) = Ok t' <-> numeric t (lit "act") /\ rows_where t (emits (lit "act") t) t') /\
  (filter_emits_gamma (DataFrame t) = Ok t' <-> numeric t (lit "g_energy") /\ rows_where t (emits (lit "g_energy") t) t') /\
  (filter_emits_beta (DataFrame t) = Ok t' <-> numeric t (lit "b_energy") /\ rows_where t (emits (lit "b_energy") t) t') /\
  (filter_emits_alpha (DataFrame t) = Ok t' <-> numeric t (lit "a_energy") /\ rows_where t (emits (lit "a_energy") t) t').
Proof. intros t t' W. exact (conj (positive_rows_spec t _ t' W) (conj (positive_rows_spec t _ t' W) (conj (positive_rows_spec t _ t' W) (positive_rows_spec t _ t' W)))). Qed.
Print Assumptions C81_positive.
Theorem C81_missing : forall t,
  (~ In (lit "act") (t_names t) -> remove_stable (DataFrame t) = Err ValueError) /\
  (~ In (lit "g_energy") (t_names t) -> filter_emits_gamma (DataFrame t) = Err ValueError) /\
  (~ In (lit "b_energy") (t_names t) -> filter_emits_beta (DataFrame t) = Err ValueError) /\
  (~ In (lit "a_energy") (t_names t) -> filter_emits_alpha (DataFrame t) = Err ValueError) /\
  remove_stable NotFrame = Err ValueError /\ filter_emits_gamma NotFrame = Err ValueError /\
  filter_emits_beta NotFrame = Err ValueError /\ filter_emits_alpha NotFrame = Err ValueError.
Proof. intros t. repeat split; intros H; now apply positive_rows_missing. Qed.
Print Assumptions C81_missing.
Definition the_filters : list (arg -> res table) := [remove_stable; filter_emits_gamma; filter_emits_beta; filter_emits_alpha].
Theorem C81_idempotent : forall f t t', In f the_filters -> well_formed t -> f (DataFrame t) = Ok t' -> f (DataFrame t') = Ok t'.
Proof. intros f t t' H W. repeat (destruct H as [<-|H]; [exact (positive_rows_idem t _ t' W)|]). destruct H. Qed.
Print Assumptions C81_idempotent.
Theorem C81_commute : forall f g t a b, In f the_filters -> In g the_filters -> well_formed t -> f (DataFrame t) = Ok a -> g (DataFrame t) = Ok b ->
  exists c, g (DataFrame a) = Ok c /\ f (DataFrame b) = Ok c.
Proof.
  intros f g t a b Hf Hg W. assert (exists n m, f = (fun x => positive_rows x n) /\ g = (fun x => positive_rows x m)) as (n & m & -> & ->).
  { repeat (destruct Hf as [<-|Hf]; [repeat (destruct Hg as [<-|Hg]; [do 2 eexists; split; reflexivity|]); destruct Hg|]). destruct Hf. }
  intros H1 H2. destruct (positive_rows_comm t n m a b W H1 H2) as (c & A & B & _). now exists c.
Qed.
Print Assumptions C81_commute.
Theorem C81_energy_filter : forall t x t', well_formed t -> energy_filter (DataFrame t) x = Ok t' <-> numeric t (lit "energy_ev") /\ rows_where t (exceeds (lit "energy_ev") x t) t'.
Proof. exact energy_filter_spec. Qed.
Print Assumptions C81_energy_filter.
Theorem C81_particle_filter : forall t s t', well_formed t -> particle_filter (DataFrame t) s = Ok t' <-> In (lit "particle") (t_names t) /\ rows_where t (fun r => text_at t (lit "particle") r s) t'.
Proof. exact particle_filter_spec. Qed.
Print Assumptions C81_particle_filter.
(** The filters on the lines a file gave. *)
Theorem C81_energy_lines : forall rows x, exists kept t,
  picked (fun e => flt x (e_energy e) = true) rows kept /\ energy_filter (DataFrame (emission_table rows)) x = Ok t /\
  t_names t = map lit ["nuclide"; "particle"; "energy_ev"; "intensity"]%string /\
  map snd (t_rows t) = map (fun e => [CS (e_nuclide e); CS (e_particle e); CF (e_energy e); CF (e_intensity e)]) kept.
Proof. exact energy_lines. Qed.
Print Assumptions C81_energy_lines.
Theorem C81_particle_lines : forall rows s, exists kept t,
  picked (fun e => e_particle e = s) rows kept /\ particle_filter (DataFrame (emission_table rows)) s = Ok t /\
  t_names t = map lit ["nuclide"; "particle"; "energy_ev"; "intensity"]%string /\
  map snd (t_rows t) = map (fun e => [CS (e_nuclide e); CS (e_particle e); CF (e_energy e); CF (e_intensity e)]) kept.
Proof. exact particle_lines. Qed.
Print Assumptions C81_particle_lines.
Theorem C81_filters_reject : (forall x, energy_filter NotFrame x = Err ValueError) /\ (forall s, particle_filter NotFrame s = Err ValueError) /\
  (forall t x, ~ In (lit "energy_ev") (t_names t) -> energy_filter (DataFrame t) x = Err ValueError) /\
  (forall t s, ~ In (lit "particle") (t_names t) -> particle_filter (DataFrame t) s = Err ValueError).
Proof. exact filters_reject. Qed.
Print Assumptions C81_filters_reject.
Theorem C81_inventories : forall f inv, In f the_filters -> exists t', f (DataFrame (inventory_table inv)) = Ok t'.
Proof.
  intros f inv H. repeat (destruct H as [<-|H]; [apply positive_rows_total; [apply inventory_wf|apply inventory_numeric; cbn; tauto]|]). destruct H.
Qed.
Print Assumptions C81_inventories.
Definition ex_inv : list nuclide :=
  [Nuclide (lit "H1") (f_of_Z 9) fzero fzero fzero fzero fzero fzero (lit "H") (lit "1");
   Nuclide (lit "Co60") (f_of_Z 3) (f_of_Z 1) (f_of_Z 5000000) fzero (f_of_Z 2) (f_of_Z 7) fzero (lit "Co") (lit "60");
   Nuclide (lit "Tc99m") (f_of_Z 4) (f_of_Z 1) (f_of_Z 20) fzero fzero (f_of_Z 8) fzero (lit "Tc") (lit "99m")].
Example C81_ex : let rows r := match r with Ok t => map fst (t_rows t) | Err _ => [] end in
  well_formed (inventory_table ex_inv) /\
  rows (remove_stable (DataFrame (inventory_table ex_inv))) = [1; 2] /\ rows (filter_emits_alpha (DataFrame (inventory_table ex_inv))) = [1] /\
  match printlib_lines ex_printlib with
  | Ok l => rows (energy_filter (DataFrame (emission_table l)) (f_of_Z 20000)) = [2] /\ rows (particle_filter (DataFrame (emission_table l)) (lit "gamma")) = [1; 2]
  | Err _ => False
  end.
Proof. split; [apply inventory_wf|vm_compute; repeat split]. Qed.

(** C82 *)
Theorem C82_prefix : forall T (values : list float) (times : list T) v t, reduce_to_non_zero values times = Ok (v, t) <->
  List.length values = List.length times /\
  exists k, k <= List.length values /\ v = firstn k values /\ t = firstn k times /\ Forall (fun x => ~ fp_zero x) v /\
    (k = List.length values \/ exists z, nth_error values k = Some z /\ fp_zero z).
Proof. exact @reduce_spec. Qed.
Print Assumptions C82_prefix.
Theorem C82_lengths : forall T (values : list float) (times : list T), List.length values <> List.length times -> reduce_to_non_zero values times = Err ValueError.
Proof. exact @reduce_lengths. Qed.
Print Assumptions C82_lengths.
Theorem C82_total : forall T (values : list float) (times : list T), List.length values = List.length times -> exists v t, reduce_to_non_zero values times = Ok (v, t).
Proof. exact @reduce_total. Qed.
Print Assumptions C82_total.
Example C82_ex : reduce_to_non_zero [f_of_Z 3; f_of_Z 2; fzero; f_of_Z 1] [1; 2; 3; 4] = Ok ([f_of_Z 3; f_of_Z 2], [1; 2]).
Proof. vm_compute. reflexivity. Qed.

(** C83 *)
Theorem C83_check : forall read_csv base p oos t, read_csv (path_join base p) = Ok oos -> inventory_like t -> limits_known oos t ->
  exists b, check_inventory_oos read_csv base (DataFrame t) p = Ok b /\
    (b = true <-> forall r, In r (t_rows t) -> active t r -> ~ above_limit oos t r).
Proof. intros read_csv base p oos t R IL. exact (check_inventory_spec read_csv base p oos R t IL). Qed.
Print Assumptions C83_check.
Theorem C83_reported : forall read_csv base p oos t, read_csv (path_join base p) = Ok oos -> inventory_like t -> limits_known oos t ->
  ~ In (lit "oos_result") (t_names t) -> (exists r, In r (t_rows t) /\ active t r) ->
  exists t' rs, get_not_oos_nuclides read_csv base (DataFrame t) p = Ok t' /\ t_names t' = t_names t ++ [lit "oos_result"] /\
    picked (fun r => active t r /\ above_limit oos t r) (t_rows t) rs /\ t_rows t' = map (fun r => (fst r, snd r ++ [CB false])) rs.
Proof. intros read_csv base p oos t R IL. exact (not_oos_spec read_csv base p oos R t IL). Qed.
Print Assumptions C83_reported.
Theorem C83_agree : forall read_csv base inv p,
  (check_inventory_oos read_csv base inv p = Ok true <-> exists t', get_not_oos_nuclides read_csv base inv p = Ok t' /\ t_rows t' = []) /\
  (check_inventory_oos read_csv base inv p = Ok false <-> exists t', get_not_oos_nuclides read_csv base inv p = Ok t' /\ t_rows t' <> []).
Proof. intros read_csv base inv p. split; [apply check_iff_none|apply check_false_some]. Qed.
Print Assumptions C83_agree.
Theorem C83_nuclide : forall n x oos mass b, check_nuclide_oos (Some n) x oos mass = Ok b <->
  exists v q, limit_of oos n v /\ py_fdiv x mass = Ok q /\ b = negb (flt v q).
Proof. exact check_nuclide_spec. Qed.
Print Assumptions C83_nuclide.
Theorem C83_other_suffices : forall oos t, complete_limits oos -> limits_known oos t.
Proof. exact complete_known. Qed.
Print Assumptions C83_other_suffices.
Theorem C83_no_other : forall read_csv base p oos t, read_csv (path_join base p) = Ok oos -> inventory_like t -> ~ complete_limits oos ->
  (forall r, In r (t_rows t) -> ~ active t r) ->
  check_inventory_oos read_csv base (DataFrame t) p = Err ValueError /\ get_not_oos_nuclides read_csv base (DataFrame t) p = Err ValueError.
Proof. intros read_csv base p oos t R IL. exact (inactive_no_default read_csv base p oos R t IL). Qed.
Print Assumptions C83_no_other.
Definition ex_limits : str -> res oos_table := fun p => if str_eqb p (lit "/m/data/t1.txt") then Ok [(lit "Co60", f_of_Z 1000); (lit "Other", fdec 1 (-2))] else Ok [(lit "Other", f_of_Z 1000000)].
Example C83_ex : inventory_like (inventory_table ex_inv) /\ limits_known [(lit "Co60", f_of_Z 1000); (lit "Other", fdec 1 (-2))] (inventory_table ex_inv) /\
  check_inventory_oos ex_limits (lit "/m") (DataFrame (inventory_table ex_inv)) default_oos = Ok false /\
  check_inventory_oos ex_limits (lit "/m") (DataFrame (inventory_table ex_inv)) (lit "mine.txt") = Ok true /\
  match get_not_oos_nuclides ex_limits (lit "/m") (DataFrame (inventory_table ex_inv)) default_oos with Ok t => map fst (t_rows t) = [1; 2] | Err _ => False end.
Proof. split; [apply inventory_is_like|]. split; [apply complete_known; cbn; tauto|]. vm_compute. repeat split. Qed.

(** C84: the first step that passes, by the default table only. *)
Theorem C84_first_partial : forall read_csv base ts p n, find_when_oos read_csv base ts p = Ok (Some n) <->
  exists pre inv post, ts = pre ++ (n, inv) :: post /\ check_inventory_oos read_csv base inv default_oos = Ok true /\
    Forall (fun s => check_inventory_oos read_csv base (snd s) default_oos = Ok false) pre.
Proof. exact find_when_spec. Qed.
Print Assumptions C84_first_partial.
Theorem C84_none_partial : forall read_csv base ts p, find_when_oos read_csv base ts p = Ok None <-> Forall (fun s => check_inventory_oos read_csv base (snd s) default_oos = Ok false) ts.
Proof. exact find_when_none. Qed.
Print Assumptions C84_none_partial.
Theorem C84_path_refuted : (forall read_csv base ts p q, find_when_oos read_csv base ts p = find_when_oos read_csv base ts q) /\
  exists read_csv base inv p, check_inventory_oos read_csv base inv p = Ok true /\ find_when_oos read_csv base [(1, inv)] p = Ok None.
Proof.
  split; [exact find_when_path|]. exists ex_limits, (lit "/m"), (DataFrame (inventory_table ex_inv)), (lit "mine.txt"). vm_compute. split; reflexivity.
Qed.
Print Assumptions C84_path_refuted.
Example C84_ex : find_when_oos ex_limits (lit "/m") [(1, DataFrame (inventory_table ex_inv)); (2, DataFrame (inventory_table (firstn 1 ex_inv)))] default_oos = Ok (Some 2).
Proof. vm_compute. reflexivity. Qed.

(** C85, C157, C158: materials *)
Theorem C85_rows : forall np_sum show show_e t lib zaids atoms, well_formed t -> In (lit "element") (t_names t) -> In (lit "A") (t_names t) ->
  Forall2 (zaid_of t) (t_rows t) zaids -> numbers_of t (lit "atoms") atoms ->
  exists t', output_mcnp_mat np_sum show show_e t lib = Ok (t', map (mat_line show show_e) (combine zaids (map (fun a => fdiv a (np_sum atoms)) atoms))).
Proof. exact material_run. Qed.
Print Assumptions C85_rows.
Theorem C85_fractions : forall np_sum show show_e t lib zaids atoms eps, well_formed t -> In (lit "element") (t_names t) -> In (lit "A") (t_names t) ->
  Forall2 (zaid_of t) (t_rows t) zaids -> numbers_of t (lit "atoms") atoms ->
  Forall (fun a => valid a = true /\ is_finite_f a = true /\ (0 <= FR a)%R) atoms ->
  valid (np_sum atoms) = true -> is_finite_f (np_sum atoms) = true -> (0 < FR (np_sum atoms))%R -> (0 <= eps <= 1 / 2)%R ->
  (Rabs (FR (np_sum atoms) - Rsum (map FR atoms)) <= eps * Rsum (map FR atoms))%R ->
  exists t' mat, output_mcnp_mat np_sum show show_e t lib = Ok (t', mat) /\
    Forall (fun m => is_finite_f (snd (fst m)) = true /\ (0 <= FR (snd (fst m)))%R) mat /\
    (Rabs (Rsum (map (fun m => FR (snd (fst m))) mat) - 1) <= (eps + bpow radix2 (-53)) / (1 - eps) + INR (List.length atoms) * bpow radix2 (-1075))%R.
Proof. exact material_sum. Qed.
Print Assumptions C85_fractions.
Theorem C85_injective : forall t r r' n, well_formed t -> zaid_of t r n -> zaid_of t r' n ->
  (forall a, at_col t (lit "A") r (CI a) \/ at_col t (lit "A") r' (CI a) -> (0 <= a < 1000)%Z) ->
  exists e a, text_at t (lit "element") r e /\ text_at t (lit "element") r' e /\ at_col t (lit "A") r (CI a) /\ at_col t (lit "A") r' (CI a).
Proof. exact zaid_injective. Qed.
Print Assumptions C85_injective.
Theorem C85_parsed_refuted : forall np_sum show show_e inv lib, inv <> [] -> output_mcnp_mat np_sum show show_e (inventory_table inv) lib = Err TypeError.
Proof. exact material_parsed. Qed.
Print Assumptions C85_parsed_refuted.
Definition ex_mat : table := Table (map lit ["element"; "A"; "atoms"]%string) [(0, [CS (lit "Fe"); CI 56; CF (f_of_Z 3)]); (1, [CS (lit "H"); CI 1; CF (f_of_Z 1)])].
Definition seq_sum (l : list float) : float := fold_left fadd l fzero.
Example C85_ex : well_formed ex_mat /\ Forall2 (zaid_of ex_mat) (t_rows ex_mat) [26056; 1001]%Z /\ numbers_of ex_mat (lit "atoms") [f_of_Z 3; f_of_Z 1] /\
  match output_mcnp_mat seq_sum (fun _ => lit "x") (fun _ => lit "y") ex_mat (lit ".70c") with
  | Ok (t', mat) => map fst mat = [(CI 26056, fdec 75 (-2)); (CI 1001, fdec 25 (-2))]
  | Err _ => False
  end.
Proof.
  split; [split; [apply distinct_NoDup; reflexivity|repeat constructor]|]. split; [|split; [|vm_compute; reflexivity]].
  - constructor; [|constructor; [|constructor]]; unfold zaid_of.
    + exists (lit "Fe"), 26, 56%Z. split; [exists 0; split; reflexivity|]. split; [split; [lia|vm_compute; reflexivity]|]. split; [exists 1; split; reflexivity|lia].
    + exists (lit "H"), 1, 1%Z. split; [exists 0; split; reflexivity|]. split; [split; [lia|vm_compute; reflexivity]|]. split; [exists 1; split; reflexivity|lia].
  - split; [cbn; tauto|]. repeat constructor; (eexists; split; [exists 2; split; reflexivity|constructor]).
Qed.
(** C157: whole numbers are shown as floats ([show] is str() of a float), and the library is ignored. *)
Theorem C157_zaid_refuted : forall np_sum show show_e t lib zaids atoms, (forall n, (0 < n < 10 ^ 6)%Z -> show (f_of_Z n) = str_of_Z n ++ lit ".0") ->
  well_formed t -> In (lit "element") (t_names t) -> In (lit "A") (t_names t) -> Forall2 (zaid_of t) (t_rows t) zaids -> numbers_of t (lit "atoms") atoms ->
  Forall (fun n => 0 < n < 10 ^ 6)%Z zaids ->
  exists t' mat, output_mcnp_mat np_sum show show_e t lib = Ok (t', mat) /\ Forall2 (fun n m => exists s, snd m = lit "     " ++ str_of_Z n ++ lit ".0  " ++ s) zaids mat.
Proof.
  intros np_sum show show_e t lib zaids atoms S W Ie Ia F NA B. destruct (material_run np_sum show show_e t lib zaids atoms W Ie Ia F NA) as (t' & H). eexists. eexists. split; [exact H|].
  assert (L : List.length zaids = List.length atoms) by (rewrite (numbers_of_len _ _ _ NA); symmetry; eapply Forall2_len; exact F).
  generalize (fun a => fdiv a (np_sum atoms)). intros d. clear -S B L. revert atoms L. induction B as [|n zs Hn B IH]; intros [|a l] L; try discriminate; cbn [combine map]; constructor.
  - exists (show_e (d a)). cbn [mat_line snd fst]. rewrite (S n Hn). now rewrite <- !app_assoc.
  - apply IH. now injection L.
Qed.
Print Assumptions C157_zaid_refuted.
Theorem C157_library_refuted : forall np_sum show show_e t lib lib', output_mcnp_mat np_sum show show_e t lib = output_mcnp_mat np_sum show show_e t lib'.
Proof. exact material_lib. Qed.
Print Assumptions C157_library_refuted.
(** C158 *)
Theorem C158_caller_refuted : forall np_sum show show_e t lib t' mat, well_formed t -> output_mcnp_mat np_sum show show_e t lib = Ok (t', mat) ->
  In (lit "Z") (t_names t') /\ In (lit "ZAID") (t_names t') /\ In (lit "atoms_norm") (t_names t') /\
  (forall name, name <> lit "Z" -> name <> lit "ZAID" -> name <> lit "atoms_norm" ->
     Forall2 (fun r r' => fst r = fst r' /\ forall c, at_col t name r c <-> at_col t' name r' c) (t_rows t) (t_rows t')).
Proof. exact material_frame. Qed.
Print Assumptions C158_caller_refuted.
(** The columns it leaves there, whether or not there were such columns before. *)
Theorem C158_columns : forall np_sum show show_e t lib t' mat, well_formed t -> output_mcnp_mat np_sum show show_e t lib = Ok (t', mat) ->
  Forall2 (fun r' m => at_col t' (lit "ZAID") r' (fst (fst m)) /\ at_col t' (lit "atoms_norm") r' (CF (snd (fst m)))) (t_rows t') mat /\
  Forall2 (fun r' m => forall z a, at_col t' (lit "Z") r' (CI z) -> at_col t' (lit "A") r' (CI a) -> fst (fst m) = CI (1000 * z + a)) (t_rows t') mat.
Proof. exact material_columns. Qed.
Print Assumptions C158_columns.

(** C86 *)
Theorem C86_time_units : forall u,
  ((spells u "s" \/ spells u "seconds") -> check_time_units u = lit "time_secs") /\
  ((spells u "d" \/ spells u "days") -> check_time_units u = lit "time_days") /\
  ((spells u "h" \/ spells u "hours" \/ spells u "hrs") -> check_time_units u = lit "time_hours") /\
  ((spells u "y" \/ spells u "yrs" \/ spells u "years") -> check_time_units u = lit "time_years") /\
  ((forall w, In w ["s"; "seconds"; "d"; "days"; "h"; "hours"; "hrs"; "y"; "yrs"; "years"]%string -> ~ spells u w) -> check_time_units u = u).
Proof. exact time_units_spec. Qed.
Print Assumptions C86_time_units.
Example C86_ex : spells (lit "HrS") "hrs" /\ check_time_units (lit "HrS") = lit "time_hours" /\ check_time_units (lit "weeks") = lit "weeks".
Proof. split; [apply lower_spells; reflexivity|split; reflexivity]. Qed.

(** C159 *)
Theorem C159_curve_partial : forall t column x_units y_units cooling t1 data times k, well_formed t -> plotted_rows t cooling t1 ->
  numbers_of t1 column data -> numbers_of t1 (check_time_units x_units) times -> leading data k -> 0 < k -> (forall x, In x times -> is_nan_f x = false) ->
  exists m c, largest (firstn k times) m /\ plot_summary (DataFrame t) column [] [] x_units y_units cooling = Ok c /\
    cv_x c = firstn k times /\
    cv_y c = (if str_eqb column (lit "dose_rate") then map (fun v => fmul v (fdec 1 6)) (firstn k data) else firstn k data) /\
    cv_xlabel c = check_time_units x_units /\ cv_xlog c = flt (f_of_Z 10) m.
Proof. exact plot_summary_curve. Qed.
Print Assumptions C159_curve_partial.
Theorem C159_zero_refuted : forall t column vl hl x_units y_units cooling t1 data times, well_formed t -> plotted_rows t cooling t1 ->
  numbers_of t1 column data -> numbers_of t1 (check_time_units x_units) times -> (forall x, nth_error data 0 = Some x -> fp_zero x) ->
  plot_summary (DataFrame t) column vl hl x_units y_units cooling = Err ValueError.
Proof. exact plot_summary_zero. Qed.
Print Assumptions C159_zero_refuted.
Theorem C159_lines_refuted : forall inv column vl hl x_units y_units cooling c, plot_summary inv column vl hl x_units y_units cooling = Ok c -> vl = [] /\ hl = [].
Proof. exact plot_summary_lines. Qed.
Print Assumptions C159_lines_refuted.
Definition ex_sum : table := Table (map lit ["act"; "dose_rate"; "time_hours"; "is_cooling"]%string)
  [(0, [CF fzero; CF fzero; CF (f_of_Z 1); CB false]); (1, [CF (f_of_Z 8); CF (fdec 25 (-7)); CF (f_of_Z 2); CB true]); (2, [CF (f_of_Z 4); CF fzero; CF (f_of_Z 20); CB true])].
Example C159_ex : plot_summary (DataFrame ex_sum) (lit "act") [] [] (lit "H") None true = Ok (Curve [f_of_Z 2; f_of_Z 20] [f_of_Z 8; f_of_Z 4] (lit "time_hours") (lit "Activity Bq") true) /\
  match plot_summary (DataFrame ex_sum) (lit "dose_rate") [] [] (lit "H") None true with Ok c => cv_x c = [f_of_Z 2] /\ cv_y c = [fdec 25 (-1)] | Err _ => False end /\
  plot_summary (DataFrame ex_sum) (lit "act") [] [] (lit "H") None false = Err ValueError.
Proof. vm_compute. repeat split. Qed.

(** C160 *)
Theorem C160_accepts : forall g, List.length g = 24 ->
  Forall (fun x => valid x = true /\ is_finite_f x = true /\ (0 <= FR x <= bpow radix2 1022)%R) g ->
  exists m, largest g m /\ plot_spectra g = Ok (group_bounds, g, fadd m (fmul m (fdec 5 (-1)))).
Proof. exact plot_spectra_range. Qed.
Print Assumptions C160_accepts.
Theorem C160_parsed : forall data g, parse_spectra data = Ok g -> (forall x, In x g -> is_nan_f x = false) ->
  exists m, largest g m /\
    (is_finite_f (fadd m (fmul m (fdec 5 (-1)))) = true -> plot_spectra g = Ok (group_bounds, g, fadd m (fmul m (fdec 5 (-1))))) /\
    (is_finite_f (fadd m (fmul m (fdec 5 (-1)))) = false -> plot_spectra g = Err ValueError).
Proof. intros data g H. apply plot_spectra_Ok. exact (parse_spectra_24 data g H). Qed.
Print Assumptions C160_parsed.
Theorem C160_others : forall g, List.length g <> 24 -> plot_spectra g = Err ValueError.
Proof. exact plot_spectra_other. Qed.
Print Assumptions C160_others.
Theorem C160_bounds : List.length group_bounds = 24 /\ hd fzero group_bounds = fdec 1 (-2) /\ last group_bounds fzero = f_of_Z 20 /\
  forall i x y, nth_error group_bounds i = Some x -> nth_error group_bounds (S i) = Some y -> flt x y = true.
Proof.
  split; [reflexivity|]. split; [reflexivity|]. split; [vm_compute; reflexivity|]. intros i x y.
  do 24 (destruct i as [|i]; [intros Hx Hy; vm_compute in Hx, Hy; try discriminate Hy; injection Hx as <-; injection Hy as <-; vm_compute; reflexivity|]).
  intros Hx. apply (f_equal (fun o => match o with Some _ => true | None => false end)) in Hx. cbn in Hx. destruct i; discriminate.
Qed.
Print Assumptions C160_bounds.
Example C160_ex : match plot_spectra (map f_of_Z (map Z.of_nat (seq 1 24))) with Ok (_, _, y) => y = f_of_Z 36 | Err _ => False end.
Proof. vm_compute. reflexivity. Qed.

(** C161 *)
Theorem C161_curves : forall invs sd times nucs param (total : bool) tot,
  Forall (fun t => well_formed t /\ In (lit "nuclide") (t_names t) /\ numeric t param) invs ->
  well_formed sd -> numbers_of sd (lit "time_hours") times -> (total = true -> numbers_of sd param tot) ->
  List.length times = List.length invs -> times <> [] -> (forall x, In x times -> is_nan_f x = false) -> nucs <> [] ->
  exists curves m, largest times m /\ Forall2 (curve_of invs param) nucs curves /\
    plot_nuc_cont invs sd nucs param total = Ok (times, curves ++ (if total then [(lit "Total", tot)] else []), flt (f_of_Z 10) m).
Proof. exact plot_nuc_cont_spec. Qed.
Print Assumptions C161_curves.
Theorem C161_lengths : forall invs sd times nucs param total,
  Forall (fun t => well_formed t /\ In (lit "nuclide") (t_names t) /\ numeric t param) invs ->
  well_formed sd -> numbers_of sd (lit "time_hours") times -> List.length times <> List.length invs ->
  plot_nuc_cont invs sd nucs param total = Err ValueError.
Proof. exact plot_nuc_cont_length. Qed.
Print Assumptions C161_lengths.
Theorem C161_present : forall t nuc, well_formed t -> In (lit "nuclide") (t_names t) ->
  exists b, is_nuc_present (DataFrame t) nuc = Ok b /\ (b = true <-> exists r, In r (t_rows t) /\ text_at t (lit "nuclide") r nuc).
Proof. exact is_nuc_present_spec. Qed.
Print Assumptions C161_present.
Example C161_ex : Forall (fun t => well_formed t /\ In (lit "nuclide") (t_names t) /\ numeric t (lit "act")) [inventory_table ex_inv; inventory_table (firstn 1 ex_inv)] /\
  plot_nuc_cont [inventory_table ex_inv; inventory_table (firstn 1 ex_inv)]
    (Table [lit "act"; lit "time_hours"] [(0, [CF (f_of_Z 7); CF (f_of_Z 1)]); (1, [CF (f_of_Z 8); CF (f_of_Z 11)])]) [lit "Co60"; lit "H2"] (lit "act") true
  = Ok ([f_of_Z 1; f_of_Z 11], [(lit "Co60", [f_of_Z 5000000; fzero]); (lit "H2", [fzero; fzero]); (lit "Total", [f_of_Z 7; f_of_Z 8])], true).
Proof.
  split; [|vm_compute; reflexivity].
  assert (H : forall inv, well_formed (inventory_table inv) /\ In (lit "nuclide") (t_names (inventory_table inv)) /\ numeric (inventory_table inv) (lit "act")).
  { intros inv. split; [apply inventory_wf|]. split; [left; reflexivity|]. apply inventory_numeric. right. right. left. reflexivity. }
  apply Forall_cons; [apply H|]. apply Forall_cons; [apply H|apply Forall_nil].
Qed.

(** C162 *)
Theorem C162_chart_partial : forall to_numeric t prop arange zrange, well_formed t -> chart_like t prop ->
  let '(amin, amax) := match arange with Some ab => ab | None => (0, 294)%Z end in
  let '(zmin, zmax) := match zrange with Some ab => ab | None => (0, 118)%Z end in
  (0 <= amin /\ amax <= 294)%Z -> (0 <= zmin /\ zmax <= 118)%Z ->
  exists d, plot_nuc_chart to_numeric (DataFrame t) prop arange zrange = Ok d /\
    forall a z, (exists pre r post, t_rows t = pre ++ r :: post /\ placed to_numeric t amin amax zmin zmax r a z /\
                   Forall (fun r => ~ placed to_numeric t amin amax zmin zmax r a z) post /\ number_at t prop r (d a z)) \/
                (Forall (fun r => ~ placed to_numeric t amin amax zmin zmax r a z) (t_rows t) /\ d a z = fzero).
Proof. exact chart_spec. Qed.
Print Assumptions C162_chart_partial.
Theorem C162_metastable_refuted : forall to_numeric t amin amax zmin zmax r a z s, well_formed t -> at_col t (lit "A") r (CS s) -> to_numeric s = None ->
  placed to_numeric t amin amax zmin zmax r a z -> a = 0%Z.
Proof. exact metastable_at_0. Qed.
Print Assumptions C162_metastable_refuted.
Example C162_ex : let num s := if str_eqb s (lit "60") then Some 60%Z else if str_eqb s (lit "1") then Some 1%Z else None in
  well_formed (inventory_table ex_inv) /\ chart_like (inventory_table ex_inv) (lit "act") /\
  match plot_nuc_chart num (DataFrame (inventory_table ex_inv)) (lit "act") None None with
  | Ok d => d 60%Z 27%Z = f_of_Z 5000000 /\ d 99%Z 43%Z = fzero /\ d 0%Z 43%Z = f_of_Z 20
  | Err _ => False
  end.
Proof. cbv zeta. split; [apply inventory_wf|]. split; [apply inventory_chart; cbn; tauto|]. vm_compute. repeat split. Qed.

(** C163 *)
Theorem C163_wedges : forall t param thres labels sizes, well_formed t -> plot_pie t param thres = Ok (labels, sizes) <->
  In param (t_names t) /\ numeric t (param ++ lit "_percent") /\
  exists t1, rows_where t (exceeds (param ++ lit "_percent") thres t) t1 /\ In (param ++ lit "_nuc") (t_names t) /\
    Forall2 (at_col t (param ++ lit "_nuc")) (t_rows t1) labels /\ Forall2 (number_at t param) (t_rows t1) sizes /\
    Forall (fun v => flt v fzero = false) sizes.
Proof. exact plot_pie_spec. Qed.
Print Assumptions C163_wedges.
Example C163_ex : plot_pie (Table (map lit ["act_nuc"; "act"; "act_percent"]%string) [(0, [CS (lit "Co60"); CF (f_of_Z 9); CF (f_of_Z 90)]); (1, [CS (lit "H3"); CF (f_of_Z 1); CF (f_of_Z 1)])]) (lit "act") (f_of_Z 1)
  = Ok ([CS (lit "Co60")], [f_of_Z 9]).
Proof. vm_compute. reflexivity. Qed.
