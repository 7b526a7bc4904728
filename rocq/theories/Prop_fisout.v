(** Properties of the FISPACT output reader.  Statements only; the proofs are in P_fisout*.v.
    [np_sum] is the sum of a column, whatever its order of summation. *)
From Coq Require Import Reals Lia.
From Flocq Require Import Core.
From Verif Require Import PyBase PyFloat PyFs FloatR SpecStr SpecUtil SpecOutput M_util M_ptrac M_fisout SpecFis ExFis TextTac P_util P_fisout P_fisout2 P_fisout3 P_fisout4 P_fisout5 P_fisout6.
Local Open Scope nat_scope.

(** C74: every file is cut in one way; step i of the result is segment i+1 of the file. *)
Theorem C74_cut : forall lines, exists pre segs, cut lines pre segs /\ forall pre' segs', cut lines pre' segs' -> pre' = pre /\ segs' = segs.
Proof. intros lines. destruct (cut_exists lines) as (pre & segs & C). exists pre, segs. split; [exact C|]. intros pre' segs' C'. exact (cut_unique lines pre' segs' pre segs C' C). Qed.
Print Assumptions C74_cut.
Theorem C74_steps : forall np_sum p lines fo pre s0 segs, cut lines pre (s0 :: segs) -> read_fis_lines np_sum p lines = Ok fo ->
  List.length (timestep_data fo) = List.length segs /\
  forall i s t, nth_error segs i = Some s -> nth_error (timestep_data fo) i = Some t -> step_num t = i + 2 /\ step_holds np_sum s (i + 1) t.
Proof. exact steps_of_file. Qed.
Print Assumptions C74_steps.
Theorem C74_no_steps : forall np_sum p lines fo pre, cut lines pre [] -> read_fis_lines np_sum p lines = Ok fo -> timestep_data fo = [].
Proof. exact no_steps_of_file. Qed.
Print Assumptions C74_no_steps.
Definition ex_file : list str := ex_first ++ ex_step ++ ex_summary.
Example C74_ex : cut ex_file [] [ex_first; ex_step ++ ex_summary] /\
  match read_fis_lines seq_sum [lit "a.out"] ex_file with
  | Ok fo => List.length (timestep_data fo) = 1 /\ map step_num (timestep_data fo) = [2] /\ map num_nuclides (timestep_data fo) = [3%Z] /\ map total_act (timestep_data fo) = [fdec 966689 1]
  | Err _ => False
  end.
Proof.
  split; [|vm_compute; repeat split].
  split; [reflexivity|]. split; [constructor|]. constructor; [|constructor; [|constructor]].
  - exists (hd [] ex_first), (tl ex_first). split; [reflexivity|]. split; [apply is_step_spec; vm_compute; reflexivity|constructor].
  - exists (hd [] ex_step), (tl ex_step ++ ex_summary). split; [reflexivity|]. split; [apply is_step_spec; vm_compute; reflexivity|].
    apply Forall_forall. intros l Hl. apply is_step_false. revert l Hl. apply Forall_forall. repeat (constructor; [vm_compute; reflexivity|]). constructor.
Qed.

(** C75: the summary table of FISPACT-II. *)
Theorem C75_two_phases : forall data irr sep cool rs last cs, ~ old_version data -> summary_lines data (irr ++ sep :: cool) -> separator sep ->
  Forall2 (row_of fzero false) irr (rs ++ [last]) -> Forall2 (row_of (time_years last) true) cool cs ->
  exists out, read_summary_data data = Ok out /\ timed ((rs ++ [last]) ++ cs) out.
Proof. exact summary_two. Qed.
Print Assumptions C75_two_phases.
Theorem C75_one_phase : forall data irr rs, ~ old_version data -> summary_lines data irr -> Forall2 (row_of fzero false) irr rs ->
  exists out, read_summary_data data = Ok out /\ timed rs out.
Proof. exact summary_one. Qed.
Print Assumptions C75_one_phase.
(** Whatever the lines: success means that each one is a separator or a row. *)
Theorem C75_exactly : forall data ls out, ~ old_version data -> summary_lines data ls ->
  read_summary_data data = Ok out <-> exists rows, timed rows out /\ table fzero false None ls rows.
Proof. exact summary_iff. Qed.
Print Assumptions C75_exactly.
Theorem C75_cooling : forall data irr sep cool rs last cs out, ~ old_version data -> summary_lines data (irr ++ sep :: cool) -> separator sep ->
  Forall2 (row_of fzero false) irr (rs ++ [last]) -> Forall2 (row_of (time_years last) true) cool cs -> read_summary_data data = Ok out ->
  map snd (retrieve_cooling_data out) = skipn (List.length irr) out /\ timed cs (skipn (List.length irr) out) /\
  find_first_cooling_index out = (match cool with [] => None | _ => Some (List.length irr) end).
Proof. exact cooling_of_two. Qed.
Print Assumptions C75_cooling.
Theorem C75_labels : forall sd i r, In (i, r) (retrieve_cooling_data sd) <-> nth_error sd i = Some r /\ is_cooling (fst r) = true.
Proof. exact retrieve_labels. Qed.
Print Assumptions C75_labels.
Theorem C75_first_cooling : forall sd i, find_first_cooling_index sd = Some i <-> first_index (fun r => is_cooling (fst r) = true) sd i.
Proof. exact first_cooling. Qed.
Print Assumptions C75_first_cooling.
Theorem C75_no_cooling : forall sd, find_first_cooling_index sd = None <-> Forall (fun r => is_cooling (fst r) = false) sd.
Proof. exact no_cooling. Qed.
Print Assumptions C75_no_cooling.
(** A file without the title, without the mass line, or with a separator first. *)
Theorem C75_no_title : forall data, ~ old_version data -> ~ In irradiation_title data -> read_summary_data data = Err ValueError.
Proof. exact summary_no_title. Qed.
Print Assumptions C75_no_title.
Theorem C75_no_mass : forall data, ~ old_version data -> In irradiation_title data -> (forall l, In l data -> ~ ends_summary l) -> read_summary_data data = Err StopIteration.
Proof. exact summary_no_mass. Qed.
Print Assumptions C75_no_mass.
Theorem C75_separator_first : forall data sep ls, ~ old_version data -> summary_lines data (sep :: ls) -> separator sep -> read_summary_data data = Err IndexError.
Proof. exact summary_separator_first. Qed.
Print Assumptions C75_separator_first.
Example C75_ex : ~ old_version ex_summary /\ summary_lines ex_summary (summary_span 5 9 ++ nth 9 ex_summary [] :: summary_span 10 15) /\ separator (nth 9 ex_summary []).
Proof. exact ex_summary_ok. Qed.

(** C76: the inventory. *)
Theorem C76_rows : forall data inv, parse_inventory data = Ok inv <->
  exists p, first_index (occurs inventory_total) data p /\ Forall2 nuclide_line (span 4 p data) inv.
Proof. exact parse_inventory_spec. Qed.
Print Assumptions C76_rows.
Theorem C76_errors : forall data e, parse_inventory data = Err e -> e = ValueError.
Proof. exact parse_inventory_Err. Qed.
Print Assumptions C76_errors.
Example C76_ex : match parse_inventory ex_step with
  | Ok inv => map n_name inv = map lit ["H3"; "V50"; "V52"]%string /\ map n_element inv = map lit ["H"; "V"; "V"]%string /\ map n_A inv = map lit ["3"; "50"; "52"]%string /\
      map n_atoms inv = [fdec 325774 2; fdec 295542 17; fdec 312655 4]
  | Err _ => False end.
Proof. vm_compute. repeat split. Qed.

(** C77: atom fractions. *)
Theorem C77_rows : forall np_sum data rows s e, first_index (occurs composition_title) data s -> first_index (occurs spectrum_title) data e -> 3 <= e ->
  parse_composition np_sum data = Ok rows <->
  Forall2 element_line (span (s + 5) (e - 3) data) rows /\
  Forall (fun r => row_fraction r = fdiv (row_atoms r) (np_sum (map row_atoms rows))) rows.
Proof. exact parse_composition_spec. Qed.
Print Assumptions C77_rows.
(** The sum has relative error eps, each division one rounding. *)
Theorem C77_normalised : forall np_sum data rows eps, parse_composition np_sum data = Ok rows ->
  Forall (fun r => is_finite_f (row_atoms r) = true /\ (0 <= FR (row_atoms r))%R) rows ->
  let total := np_sum (map row_atoms rows) in
  valid total = true -> is_finite_f total = true -> (0 < FR total)%R -> (0 <= eps <= 1 / 2)%R ->
  (Rabs (FR total - Rsum (map FR (map row_atoms rows))) <= eps * Rsum (map FR (map row_atoms rows)))%R ->
  Forall (fun r => is_finite_f (row_fraction r) = true /\ (0 <= FR (row_fraction r))%R) rows /\
  (Rabs (Rsum (map FR (map row_fraction rows)) - 1) <= (eps + bpow radix2 (-53)) / (1 - eps) + INR (List.length rows) * bpow radix2 (-1075))%R.
Proof. exact composition_normalised. Qed.
Print Assumptions C77_normalised.
Theorem C77_errors : forall np_sum data e, parse_composition np_sum data = Err e -> e = ValueError.
Proof. exact parse_composition_Err. Qed.
Print Assumptions C77_errors.
Example C77_ex : match parse_composition seq_sum ex_step with
  | Ok rows => map row_element rows = map lit ["H "; "Ti"; "V "]%string /\ map row_atoms rows = [fdec 78597 4; fdec 38382 4; fdec 11822 21] /\
      seq_sum (map row_atoms rows) = fadd (fadd (fdec 78597 4) (fdec 38382 4)) (fdec 11822 21) /\ forallb (fun r => fle fzero (row_fraction r)) rows = true
  | Err _ => False end.
Proof. vm_compute. repeat split. Qed.

Example C77_ex2 : exists rows, parse_composition seq_sum ex_comp = Ok rows /\ Forall (fun r => is_finite_f (row_atoms r) = true /\ (0 <= FR (row_atoms r))%R) rows /\
  valid (seq_sum (map row_atoms rows)) = true /\ is_finite_f (seq_sum (map row_atoms rows)) = true /\ (0 < FR (seq_sum (map row_atoms rows)))%R /\
  (Rabs (FR (seq_sum (map row_atoms rows)) - Rsum (map FR (map row_atoms rows))) <= 0 * Rsum (map FR (map row_atoms rows)))%R /\
  map row_fraction rows = [fdec 25 (-2); fdec 75 (-2)].
Proof. exact ex_comp_ok. Qed.

(** C78: the spectrum. *)
Theorem C78_groups : forall data g, parse_spectra data = Ok g <->
  exists p, first_index (occurs spectrum_title) data p /\ p + 31 <= List.length data /\ Forall2 (field 130 141) (span (p + 7) (p + 31) data) g.
Proof. exact parse_spectra_spec. Qed.
Print Assumptions C78_groups.
Theorem C78_number : forall data g, parse_spectra data = Ok g -> List.length g = 24.
Proof. exact parse_spectra_24. Qed.
Print Assumptions C78_number.
Theorem C78_short : forall data p, first_index (occurs spectrum_title) data p -> List.length data < p + 31 -> parse_spectra data = Err ValueError.
Proof. exact parse_spectra_short. Qed.
Print Assumptions C78_short.
Theorem C78_errors : forall data e, parse_spectra data = Err e -> e = ValueError.
Proof. exact parse_spectra_Err. Qed.
Print Assumptions C78_errors.
Example C78_ex : exists g, parse_spectra ex_step = Ok g /\ List.length g = 24 /\ nth_error g 11 = Some (f_of_Z 60650) /\ parse_spectra (firstn 60 ex_step) = Err ValueError.
Proof. eexists. split; [vm_compute; reflexivity|]. repeat split. Qed.

(** C79: parameters and mass. *)
Theorem C79_parameter : forall data sub x, read_parameter data sub = Ok x <-> exists l, line_after data sub 0 l /\ parameter_line l x.
Proof. exact read_parameter_spec. Qed.
Print Assumptions C79_parameter.
Theorem C79_parameter_errors : forall data sub e, read_parameter data sub = Err e -> e = ValueError.
Proof. exact read_parameter_Err. Qed.
Print Assumptions C79_parameter_errors.
Theorem C79_mass : forall lines num, first_mass lines num -> read_mass lines = py_float num.
Proof. exact read_mass_first. Qed.
Print Assumptions C79_mass.
Theorem C79_no_mass : forall lines, (forall l num, In l lines -> ~ mass_line l num) -> read_mass lines = Ok fzero.
Proof. exact read_mass_no. Qed.
Print Assumptions C79_no_mass.
Theorem C79_mass_cases : forall lines, (forall l num, In l lines -> ~ mass_line l num) \/ exists num, first_mass lines num.
Proof. exact mass_either. Qed.
Print Assumptions C79_mass_cases.
Example C79_ex : read_parameter ex_summary (lit "Mean flux") = Ok (f_of_Z 6000000) /\ read_mass ex_summary = Ok (f_of_Z 1) /\ mass_line (nth 15 ex_summary []) (lit "1.0000E+00") /\
  read_parameter ex_summary (lit "Material density") = Ok (f_of_Z 1).
Proof. split; [vm_compute; reflexivity|]. split; [vm_compute; reflexivity|]. split; [apply match_mass_spec; vm_compute; reflexivity|vm_compute; reflexivity]. Qed.

(** C150: the values of a time step. *)
Theorem C150_time_step : forall np_sum lines i ts, read_time_step np_sum lines i = Ok ts <-> step_holds np_sum lines i ts.
Proof. exact read_time_step_iff. Qed.
Print Assumptions C150_time_step.
Example C150_ex : exists ts, step_holds seq_sum ex_step 1 ts /\ step_num ts = 2 /\ step_length ts = f_of_Z 600 /\ beta_act ts = f_of_Z 9666840 /\ density ts = fdec 58 (-1) /\ List.length (dom_data ts) = 3.
Proof. exact ex_step_ok. Qed.

(** C151: the dominant nuclides. *)
Theorem C151_rows : forall data tops lows rows, dominant_tables data tops lows ->
  parse_dominant data = Ok rows <->
  exists ts ls, Forall2 top_line tops ts /\ Forall2 low_line lows ls /\
    ((ts = [] /\ rows = map (fun l => (None, l)) ls) \/ (ts <> [] /\ List.length ts = List.length ls /\ rows = combine (map Some ts) ls)).
Proof. exact parse_dominant_spec. Qed.
Print Assumptions C151_rows.
Example C151_ex : exists tops lows, dominant_tables ex_step tops lows /\ List.length tops = 3 /\ List.length lows = 3.
Proof. exact ex_dominant_ok. Qed.

(** C152: cooling is never reported by the steps. *)
Theorem C152_cooling_refuted : forall np_sum p lines fo, read_fis_lines np_sum p lines = Ok fo ->
  num_cool_step fo = 0%Z /\ Forall (fun t => ts_is_cooling t = false) (timestep_data fo).
Proof. exact steps_never_cooling. Qed.
Print Assumptions C152_cooling_refuted.
Example C152_ex : occurs (lit "COOLING TIME IS") (hd [] ex_step) /\
  match read_fis_lines seq_sum [] ex_file with Ok fo => cooling_step_index fo = Some 4 /\ List.length (retrieve_cooling_data (sumdat fo)) = 5 /\ num_cool_step fo = 0%Z | Err _ => False end.
Proof. split; [text|]. vm_compute. repeat split. Qed.

(** C153: one-letter elements of the composition are not the elements of the inventory. *)
Theorem C153_names_refuted : forall l r c ln n, element_line l r -> columns 12 14 l = [c; chr 32] -> nuclide_line ln n -> row_element r <> n_element n.
Proof. exact element_blank. Qed.
Print Assumptions C153_names_refuted.
Example C153_ex : exists r n, element_line (nth 38 ex_step []) r /\ columns 12 14 (nth 38 ex_step []) = [chr 86; chr 32] /\ nuclide_line (nth 5 ex_step []) n /\ n_element n = lit "V".
Proof. exact ex_names. Qed.

(** C154: a number without an E stays a text. *)
Theorem C154_text_refuted : forall np_sum lines i ts l, read_time_step np_sum lines i = Ok ts -> line_after lines (lit "TOTAL ALPHA HEAT") 6 l -> ~ In (chr 69) (columns 39 51 l) ->
  num_fissions ts = Text (columns 39 51 l).
Proof. exact fissions_text. Qed.
Print Assumptions C154_text_refuted.
Example C154_ex : py_float (lit " 1.00000-110") = Err ValueError /\ py_float (lit "   12.500000") = Ok (fdec 125 (-1)) /\ with_E (lit "   12.500000") = Ok (Text (lit "   12.500000")).
Proof. vm_compute. repeat split. Qed.

(** C155: outputs of FISPACT-07 cannot be read. *)
Theorem C155_old_refuted : forall np_sum p data s e, old_version data -> first_index (fun y => y = lit "  COOLING STEPS") data s -> first_index ends_summary data e -> s + 1 < e ->
  read_summary_data data = Err TypeError /\ read_fis_lines np_sum p data = Err TypeError.
Proof. exact old_unreadable. Qed.
Print Assumptions C155_old_refuted.
Example C155_ex : read_summary_data [lit " FISPACT VERSION 07.0/0"; lit "  COOLING STEPS"; lit "  1 2 3"; lit "0 Mass"] = Err TypeError.
Proof. vm_compute. reflexivity. Qed.

(** C156: the whole file. *)
Theorem C156_file : forall np_sum p lines fo, read_fis_lines np_sum p lines = Ok fo <-> file_holds np_sum p lines fo.
Proof. exact read_fis_lines_iff. Qed.
Print Assumptions C156_file.
Theorem C156_path : forall np_sum f p ls, get_lines f p = Ok ls -> read_fis_out np_sum f p = read_fis_lines np_sum p ls.
Proof. exact read_fis_out_lines. Qed.
Print Assumptions C156_path.
Theorem C156_missing : forall np_sum f p, wf_fs f -> p <> [] -> f p = None -> read_fis_out np_sum f p = Err FileNotFoundError.
Proof. exact read_fis_out_missing. Qed.
Print Assumptions C156_missing.
Theorem C156_directory : forall np_sum f p, wf_fs f -> p = [] \/ f p = Some Dir -> read_fis_out np_sum f p = Err ValueError.
Proof. exact read_fis_out_dir. Qed.
Print Assumptions C156_directory.
Example C156_ex : match read_fis_lines seq_sum [lit "a.out"] ex_file with Ok fo => mass_g fo = f_of_Z 1000 /\ tot_irrad_time fo = f_of_Z 1200 /\ fo_isFisII fo = true | Err _ => False end.
Proof. vm_compute. repeat split. Qed.
