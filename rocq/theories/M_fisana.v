(** Model of fispact_analysis.py and fispact_printlib_reader.py.  Plotting functions give
    the data and settings handed to matplotlib; printing and logging are not modelled. *)
From Coq Require Import Floats.SpecFloat.
From Verif Require Import PyBase PyFloat PyFs PyTable M_util M_ptrac M_const M_fisout.
Local Open Scope Z_scope.

(** * fispact_printlib_reader.py *)

(** fispact_printlib_reader.py:13-19. *)
Definition energy_filter (data : arg) (energy : float) : res table :=
  match data with
  | NotFrame => Err ValueError
  | DataFrame t => if has_col t (lit "energy_ev") then select t (lit "energy_ev") (cell_gt energy) else Err ValueError
  end.
(** fispact_printlib_reader.py:22-28; the particle is a text. *)
Definition particle_filter (data : arg) (particle : str) : res table :=
  match data with
  | NotFrame => Err ValueError
  | DataFrame t => if has_col t (lit "particle") then select t (lit "particle") (fun c => Ok (cell_is particle c)) else Err ValueError
  end.

Record emission : Type := Emission { e_nuclide : str; e_particle : str; e_energy : float; e_intensity : float }.
(** fispact_printlib_reader.py:49-75, the loop over the lines.  [cur] is cur_nuc, [rows] the
    rows so far, last one first; the result [None] means that the loop ended without the line
    of the run time.  The lines of averages are collected but never used, and left out. *)
Fixpoint printlib_loop (lines : list str) (in_discrete : bool) (cur : option str) (rows : list emission) : res (option (list emission)) :=
  match lines with
  | [] => Ok None
  | line :: lines' =>
      if contains (lit "fispact run time") line then Ok (Some (rev rows))
      else if in_discrete then
        if negb (contains (lit "Type") line) && negb (contains (lit "no spectral data") line) then
          do c <- py_nth line 2;
          let cur := if negb (Ascii.eqb c c_space) then Some (replace [c_space] [] (slice_btw 2 8 line)) else cur in
          match cur with
          | None => Err UnboundLocalError
          | Some nuc =>
              let part := string_cleaner (slice_btw 25 34 line) in
              do en <- py_float (slice_btw 43 54 line);
              do inten <- py_float (slice_btw 71 82 line);
              printlib_loop lines' in_discrete cur (Emission nuc part en inten :: rows)
          end
        else printlib_loop lines' in_discrete cur rows
      else if contains (lit " FD ") line then printlib_loop lines' true cur rows
      else printlib_loop lines' in_discrete cur rows
  end.
(** fispact_printlib_reader.py:31-80. *)
Definition printlib_lines (lines : list str) : res (list emission) :=
  match printlib_loop lines false None [] with
  | Err _ => Err OSError
  | Ok None => Err UnboundLocalError
  | Ok (Some rows) => Ok rows
  end.
Definition read_fispact_printlib (f : fs) (fpath : path) : res (list emission) :=
  if negb (path_exists f fpath) then Err FileNotFoundError
  else if negb (path_isfile f fpath) then Err ValueError
  else match read_text f fpath with
       | Err _ => Err OSError
       | Ok t => printlib_lines (file_lines t)
       end.
(** fispact_printlib_reader.py:52-56: the data frame of the rows. *)
Definition emission_table (rows : list emission) : table :=
  Table [lit "nuclide"; lit "particle"; lit "energy_ev"; lit "intensity"]
        (enumerate (map (fun e => [CS (e_nuclide e); CS (e_particle e); CF (e_energy e); CF (e_intensity e)]) rows)).

(** * fispact_analysis.py *)

(** fispact_output_reader.py:543-552: the inventory as a data frame. *)
Definition inventory_table (inv : list nuclide) : table :=
  Table (map lit ["nuclide"; "atoms"; "mass"; "act"; "b_energy"; "a_energy"; "g_energy"; "dose_rate"; "element"; "A"]%string)
        (enumerate (map (fun n => [CS (n_name n); CF (n_atoms n); CF (n_mass n); CF (n_act n); CF (n_beta n); CF (n_alpha n);
                                   CF (n_gamma n); CF (n_dose n); CS (n_element n); CS (n_A n)]) inv)).

(** fispact_analysis.py:13-24. *)
Definition reduce_to_non_zero {T} (values : list float) (time_values : list T) : res (list float * list T) :=
  if negb (List.length values =? List.length time_values)%nat then Err ValueError
  else match find_first_zero values with
       | Some zero_pos => Ok (slice_to (Z.of_nat zero_pos) values, slice_to (Z.of_nat zero_pos) time_values)
       | None => Ok (values, time_values)
       end.

(** fispact_analysis.py:27-33. *)
Definition is_nuc_present (inv : arg) (nuc : str) : res bool :=
  match inv with
  | NotFrame => Err ValueError
  | DataFrame t =>
      if has_col t (lit "nuclide") then do cs <- column t (lit "nuclide"); Ok (existsb (cell_is nuc) cs)
      else Err ValueError
  end.

(** Body of the four filters. *)
Definition positive_rows (inv : arg) (name : str) : res table :=
  match inv with
  | NotFrame => Err ValueError
  | DataFrame t => if has_col t name then select t name (cell_gt fzero) else Err ValueError
  end.
(** fispact_analysis.py:36-42. *)
Definition remove_stable (inv : arg) : res table := positive_rows inv (lit "act").
(** fispact_analysis.py:45-51. *)
Definition filter_emits_gamma (inv : arg) : res table := positive_rows inv (lit "g_energy").
(** fispact_analysis.py:54-60. *)
Definition filter_emits_beta (inv : arg) : res table := positive_rows inv (lit "b_energy").
(** fispact_analysis.py:63-69. *)
Definition filter_emits_alpha (inv : arg) : res table := positive_rows inv (lit "a_energy").

(** fispact_analysis.py:92-107. *)
Definition check_time_units (t_units : str) : str :=
  let is s := str_eqb (lower t_units) (lit s) in
  if is "s"%string || is "seconds"%string then lit "time_secs"
  else if is "d"%string || is "days"%string then lit "time_days"
  else if is "h"%string || is "hours"%string || is "hrs"%string then lit "time_hours"
  else if is "y"%string || is "yrs"%string || is "years"%string then lit "time_years"
  else t_units.

(** fispact_analysis.py:72-89.  [np_sum] is the sum of a column, [show] is str() and
    [show_e] is format ".5e" of a float.  An element that is not in the dictionary has the
    atomic number NaN.  The rows given to the formatting function hold two numbers of
    different types, so pandas gives the ZAID as a float.  A whole number in a column of
    floats (because another row has NaN) is kept as a whole number here.  The result is the caller's frame
    as the function leaves it, and the material. *)
Section Material.
  Variable np_sum : list float -> float.
  Variable show : float -> str.
  Variable show_e : float -> str.
  Definition element_z (c : cell) : res cell :=
    match c with
    | CS s => match dict_get str_eqb s Z_dict with Some z => Ok (CI (Z.of_nat z)) | None => Ok (CF S754_nan) end
    | _ => Ok (CF S754_nan)
    end.
  (** [Z * 1000 + A]: whole numbers if both columns are, numbers with NaN otherwise. *)
  Definition zaid (z a : cell) : res cell :=
    match z, a with
    | CI z, CI a => Ok (CI (z * 1000 + a))
    | _, _ => do x <- cell_num z; do y <- cell_num a; Ok (CF (fadd (fmul x (f_of_Z 1000)) y))
    end.
  Definition mat_row (zn : cell * float) : res (cell * float * str) :=
    do x <- cell_num (fst zn);
    Ok (fst zn, snd zn, lit "     " ++ show x ++ lit "  " ++ show_e (snd zn)).
  Definition output_mcnp_mat (inv : table) (lib : str) : res (table * list (cell * float * str)) :=
    do els <- column inv (lit "element");
    do zs <- mapM element_z els;
    let inv := set_col (lit "Z") zs inv in
    do aa <- column inv (lit "A");
    do zaids <- mapM (fun za => zaid (fst za) (snd za)) (combine zs aa);
    let inv := set_col (lit "ZAID") zaids inv in
    do atoms <- num_column inv (lit "atoms");
    let norm := map (fun a => fdiv a (np_sum atoms)) atoms in
    let inv := set_col (lit "atoms_norm") (map CF norm) inv in
    do mat <- mapM mat_row (combine zaids norm);
    Ok (inv, mat).
End Material.

(** The table of limits: nuclide and limit, in the order of the file. *)
Definition oos_table : Type := list (str * float).
(** os.path.join *)
Definition path_join (base p : str) : str :=
  if starts_with (lit "/") p then p
  else match base with
       | [] => p
       | _ :: _ => if ends_with (lit "/") base then base ++ p else base ++ lit "/" ++ p
       end.
Definition default_oos : str := lit "data/t1.txt".

(** fispact_analysis.py:122-139; [nuclide] is [None] if it is not a text.  Activity and mass
    are Python floats. *)
Definition limits_of (oos_data : oos_table) (nuclide : str) : list float :=
  map snd (filter (fun nl => str_eqb (fst nl) nuclide) oos_data).
Definition check_nuclide_oos (nuclide : option str) (nuc_act : float) (oos_data : oos_table) (mass : float) : res bool :=
  let own := match nuclide with Some n => limits_of oos_data n | None => [] end in
  do oos_value <- match own with
                  | v :: _ => Ok v
                  | [] => py_nth (limits_of oos_data (lit "Other")) 0
                  end;
  do q <- py_fdiv nuc_act mass;
  if flt oos_value q then Ok false else Ok true.
Definition cell_text (c : cell) : option str := match c with CS s => Some s | _ => None end.
Definition row_oos (t : table) (oos_data : oos_table) (r : row) : res bool :=
  do n <- row_cell t (lit "nuclide") r;
  do a <- row_cell t (lit "act") r;
  do x <- cell_num a;
  check_nuclide_oos (cell_text n) x oos_data (f_of_Z 1000).

Section Oos.
  (** pandas.read_csv of the file of limits, and the directory of the module. *)
  Variable read_csv : str -> res oos_table.
  Variable base : str.
  (** fispact_analysis.py:110-119. *)
  Definition read_OOS (oos_path : str) : res oos_table := read_csv (path_join base oos_path).

  (** DataFrame.apply on a frame without rows calls the function once with a row of NaN to
      find out whether it gives a scalar; if that raises, the result is the frame itself. *)
  Definition probe_ok (t : table) (oos_data : oos_table) : bool :=
    has_col t (lit "nuclide") && has_col t (lit "act") &&
    match check_nuclide_oos None S754_nan oos_data (f_of_Z 1000) with Ok _ => true | Err _ => false end.
  (** fispact_analysis.py:142-160.  The truth value of a series of more than one entry
      raises ValueError. *)
  Definition check_inventory_oos (inv : arg) (oos_path : str) : res bool :=
    do oos_data <- read_OOS oos_path;
    do inv <- remove_stable inv;
    match t_rows inv with
    | [] => if probe_ok inv oos_data || (List.length (t_names inv) =? 1)%nat then Ok true else Err ValueError
    | _ :: _ => do oos_result <- mapM (row_oos inv oos_data) (t_rows inv); Ok (forallb (fun b => b) oos_result)
    end.
  (** fispact_analysis.py:163-170.  Without rows the column of results holds floats, so it
      selects columns (none) instead of rows. *)
  Definition get_not_oos_nuclides (inv : arg) (oos_path : str) : res table :=
    do oos_data <- read_OOS oos_path;
    do inv <- remove_stable inv;
    match t_rows inv with
    | [] => if probe_ok inv oos_data || (List.length (t_names inv) =? 1)%nat then Ok (Table [] []) else Err ValueError
    | _ :: _ =>
        do oos_result <- mapM (row_oos inv oos_data) (t_rows inv);
        let inv := set_col (lit "oos_result") (map CB oos_result) inv in
        Ok (Table (t_names inv) (keep (map negb oos_result) (t_rows inv)))
    end.
  (** fispact_analysis.py:173-181; a time step is its number and its inventory. *)
  Fixpoint find_when_oos (ts_data : list (nat * arg)) (oos_path : str) : res (option nat) :=
    match ts_data with
    | [] => Ok None
    | ts :: ts_data' =>
        do oos_result <- check_inventory_oos (snd ts) default_oos;
        if oos_result then Ok (Some (fst ts)) else find_when_oos ts_data' oos_path
    end.
End Oos.

(** fispact_analysis.py:184-187; a slice from None is the whole list. *)
Definition cooling_ts_data {T} (timestep_data : list T) (cooling_step_index : option nat) : list T :=
  match cooling_step_index with Some i => slice_from (Z.of_nat i) timestep_data | None => timestep_data end.

(** * What the plots show *)
(** max() of Python floats. *)
Definition py_max (l : list float) : res float :=
  match l with
  | [] => Err ValueError
  | x :: l' => Ok (fold_left (fun m y => if flt m y then y else m) l' x)
  end.
Record curve : Type := Curve { cv_x : list float; cv_y : list float; cv_xlabel : str; cv_ylabel : str; cv_xlog : bool }.
Definition summary_label (column : str) (y_units : option str) : str :=
  let is s := str_eqb column (lit s) in
  if is "dose_rate"%string then lit "Dose rate $\mu$Sv/h"
  else if is "act"%string then
    match y_units with
    | Some u => if str_eqb u (lit "Bq/kg") || str_eqb u (lit "Bq/g") then lit "Specific Activity " ++ u else lit "Activity Bq"
    | None => lit "Activity Bq"
    end
  else if is "heat_output"%string then lit "Heat output (kW)"
  else if is "ingestion_dose"%string then lit "Ingestion dose (Sv)"
  else if is "inhalation_dose"%string then lit "Inhalation dose (Sv)"
  else if is "tritium_activity"%string then lit "Tritium activity (Bq)"
  else column.
(** [frame[frame[name]]] for a column of truth values. *)
Definition cell_true (c : cell) : res bool := match c with CB b => Ok b | _ => Err KeyError end.
(** fispact_analysis.py:190-264, for columns of numbers.  matplotlib.pyplot has no functions
    vline and hline, so a non-empty list of lines raises AttributeError. *)
Definition plot_summary (sum_dat : arg) (column : str) (vlines hlines : list float) (x_units : str) (y_units : option str) (cooling : bool) : res curve :=
  match sum_dat with
  | NotFrame => Err ValueError
  | DataFrame t =>
      if negb (has_col t column) then Err ValueError else
      do t <- (if cooling then select t (lit "is_cooling") cell_true else Ok t);
      do data <- num_column t column;
      let x_units := check_time_units x_units in
      if negb (has_col t x_units) then Err ValueError else
      do time_vals <- num_column t x_units;
      do dt <- reduce_to_non_zero data time_vals;
      let data := if str_eqb column (lit "dose_rate") then map (fun v => fmul v (fdec 1 6)) (fst dt) else fst dt in
      do m <- py_max (snd dt);
      match vlines, hlines with
      | [], [] => Ok (Curve (snd dt) data x_units (summary_label column y_units) (flt (f_of_Z 10) m))
      | _, _ => Err AttributeError
      end
  end.

(** fispact_analysis.py:267-288: the group bounds; ylim() refuses limits that are not finite and
    step() lists of different lengths. *)
Definition group_bounds : list float :=
  [fdec 1 (-2); fdec 2 (-2); fdec 5 (-2); fdec 1 (-1); fdec 2 (-1); fdec 3 (-1); fdec 4 (-1); fdec 6 (-1); fdec 8 (-1);
   f_of_Z 1; fdec 122 (-2); fdec 144 (-2); fdec 166 (-2); f_of_Z 2; fdec 25 (-1); f_of_Z 3; f_of_Z 4; f_of_Z 5; fdec 65 (-1);
   f_of_Z 8; f_of_Z 10; f_of_Z 12; f_of_Z 14; f_of_Z 20].
Definition plot_spectra (gspec : list float) : res (list float * list float * float) :=
  do m <- py_max gspec;
  let y_upper_lim := fadd m (fmul m (fdec 5 (-1))) in
  if negb (is_finite_f y_upper_lim) then Err ValueError
  else if negb (List.length group_bounds =? List.length gspec)%nat then Err ValueError
  else Ok (group_bounds, gspec, y_upper_lim).

(** fispact_analysis.py:291-320: labels and sizes of the wedges.  pie() refuses negative sizes; that
    it cannot draw sizes that add up to zero is left out. *)
Definition plot_pie (dom_data : table) (param : str) (thres : float) : res (list cell * list float) :=
  if negb (has_col dom_data param) then Err ValueError else
  do dom_data <- select dom_data (param ++ lit "_percent") (cell_gt thres);
  do labels <- column dom_data (param ++ lit "_nuc");
  do sizes <- num_column dom_data param;
  if existsb (fun v => flt v fzero) sizes then Err ValueError else Ok (labels, sizes).

(** fispact_analysis.py:323-369: one curve for each nuclide over the hours of the summary, and one
    for the total.  [iloc[0]] of the rows of the nuclide; plot() refuses lists of different
    lengths. *)
Definition nuc_value (inv : table) (nuc param : str) : res float :=
  do present <- is_nuc_present (DataFrame inv) nuc;
  if present then
    do rows <- select inv (lit "nuclide") (fun c => Ok (cell_is nuc c));
    do cs <- column rows param;
    do c <- py_nth cs 0;
    cell_num c
  else Ok fzero.
Definition plot_nuc_cont (invs : list table) (sumdat : table) (nuc_list : list str) (param : str) (total : bool)
  : res (list float * list (str * list float) * bool) :=
  match nuc_list with
  | [] => Err ValueError
  | _ :: _ =>
      do time_vals <- num_column sumdat (lit "time_hours");
      do curves <- mapM (fun nuc => do vals <- mapM (fun inv => nuc_value inv nuc param) invs;
                                    if (List.length vals =? List.length time_vals)%nat then Ok (nuc, vals) else Err ValueError) nuc_list;
      do last <- (if total then do vals <- num_column sumdat param; Ok [(lit "Total", vals)] else Ok []);
      do m <- py_max time_vals;
      Ok (time_vals, curves ++ last, flt (f_of_Z 10) m)
  end.

(** fispact_analysis.py:372-436: the array shown.  [to_numeric] is the whole number that
    pandas.to_numeric reads from a text, [None] if it reads none. *)
Section Chart.
  Variable to_numeric : str -> option Z.
  Definition a_int (c : cell) : res Z :=
    match c with
    | CI z => Ok z
    | CS s => match to_numeric s with Some z => Ok z | None => Ok 0 end
    | _ => Err TypeError
    end.
  Definition chart : Type := Z -> Z -> float.
  Definition chart_set (d : chart) (a z : Z) (v : float) : chart :=
    fun a' z' => if (a =? a') && (z =? z') then v else d a' z'.
  Definition chart_row (t : table) (prop : str) (a_min a_max z_min z_max : Z) (d : chart) (r : row) : res chart :=
    do e <- row_cell t (lit "element") r;
    do z <- element_z e;
    do ac <- row_cell t (lit "A") r;
    do a <- a_int ac;
    match z with
    | CI z =>
        if (a_min <=? a) && (a <? a_max) && (z_min <=? z) && (z <? z_max) then
          if (294 <=? a) || (118 <=? z) || (a <? -294) || (z <? -118) then Err IndexError else
          do vc <- row_cell t prop r;
          do v <- cell_num vc;
          Ok (chart_set d (if a <? 0 then a + 294 else a) (if z <? 0 then z + 118 else z) v)
        else Ok d
    | _ => Ok d
    end.
  Definition plot_nuc_chart (inv_dat : arg) (prop : str) (arange zrange : option (Z * Z)) : res chart :=
    match inv_dat with
    | NotFrame => Err ValueError
    | DataFrame t =>
        if negb (has_col t prop) then Err ValueError
        else if negb (has_col t (lit "element")) || negb (has_col t (lit "A")) then Err ValueError
        else
          let '(a_min, a_max) := match arange with Some ab => ab | None => (0, 294) end in
          let '(z_min, z_max) := match zrange with Some ab => ab | None => (0, 118) end in
          foldM (chart_row t prop a_min a_max z_min z_max) (t_rows t) (fun _ _ => fzero)
    end.
End Chart.
