(** Model of fispact_output_reader.py.
    Data frames are lists of rows; the label of a row is its position.  Arguments are
    always lists of lines, so the isinstance checks only test for the empty list.  Fields
    of FispactOutput and FispactTimeStep that the module never assigns keep the value
    given by the constructor. *)
From Verif Require Import PyBase PyFloat PyFs M_util M_ptrac.
Local Open Scope Z_scope.

(** Fixed columns of a line as a number. *)
Definition cols (a b : Z) (line : str) : str := slice_btw a b line.
Definition fcols (a b : Z) (line : str) : res float := py_float (cols a b line).
(** Exceptions of a block [try: ... except (ValueError, IndexError) as e: raise ValueError]. *)
Definition as_value_error {A} (r : res A) : res A :=
  match r with
  | Err ValueError | Err IndexError => Err ValueError
  | _ => r
  end.
Definition no_blanks (s : str) : str := replace [c_space] [] s.

(** fispact_output_reader.py:220-233 *)
Definition check_fisp_version (data : list str) : str :=
  match find (contains (lit "FISPACT VERSION 07.0/0")) (slice_to 50 data) with
  | Some s => match s with [] => lit "FISPACT-II" | _ :: _ => lit "FISP07" end
  | None => lit "FISPACT-II"
  end.
(** fispact_output_reader.py:236-242 *)
Definition isFisII (data : list str) : bool :=
  str_eqb (check_fisp_version data) (lit "FISPACT-II").

(** fispact_output_reader.py:245-260: data.index raises ValueError, next raises
    StopIteration, which the handler does not catch. *)
Fixpoint index_of (x : str) (data : list str) (i : nat) : res nat :=
  match data with
  | [] => Err ValueError
  | y :: data' => if str_eqb x y then Ok i else index_of x data' (S i)
  end.
Definition find_summary_block (data : list str) (fisII : bool) : res (nat * nat) :=
  let cool_str := if fisII then lit " -----Irradiation Phase-----" else lit "  COOLING STEPS" in
  do start_ind <- index_of cool_str data 0;
  match find_ind data (lit "0 Mass") with
  | Ok end_ind => Ok (start_ind, end_ind)
  | Err _ => Err StopIteration
  end.

(** One row of the summary table of FISPACT-II.  The five columns of uncertainties are
    always empty and left out. *)
Record sum_row : Type := SumRow {
  time_years : float; s_act : float; dose_rate : float; heating : float;
  ingestion : float; inhalation : float; tritium : float; is_cooling : bool }.
(** fispact_output_reader.py:263-288, for the rows of one table: time in days, hours, seconds. *)
Definition days_per_year : float := fdec 3654 (-1).
Definition hours_per_year : float := fmul days_per_year (f_of_Z 24).
Definition seconds_per_year : float := fmul (fmul days_per_year (f_of_Z 24)) (f_of_Z 3600).
Definition add_time_columns (r : sum_row) : sum_row * (float * float * float) :=
  (r, (fmul (time_years r) days_per_year, fmul (time_years r) hours_per_year, fmul (time_years r) seconds_per_year)).

(** fispact_output_reader.py:291-365, the loop of read_summary_data for FISPACT-II.  [to] is
    the offset, [rows] the rows read so far, last one first. *)
Fixpoint sum_loop (lines : list str) (rows : list sum_row) (to : float) (cooling : bool) : res (list sum_row) :=
  match lines with
  | [] => Ok (rev rows)
  | line :: lines' =>
      do c <- py_nth line 1;
      if Ascii.eqb c (chr 45) then
        match rows with
        | [] => Err IndexError
        | r :: _ => sum_loop lines' rows (time_years r) true
        end
      else
        do t <- fcols 24 32 line;
        do a <- fcols 35 43 line;
        do d <- fcols 58 66 line;
        do h <- fcols 81 89 line;
        do g <- fcols 104 112 line;
        do i <- fcols 127 135 line;
        do u <- fcols 150 158 line;
        sum_loop lines' (SumRow (fadd t to) a d h g i u cooling :: rows) to cooling
  end.
Definition summary : Type := list (sum_row * (float * float * float)).
(** fispact_output_reader.py:291-365.  For the older version the columns are texts, and
    multiplying a text by a float raises TypeError as soon as there is a row. *)
Definition read_summary_data (data : list str) : res summary :=
  let fisII := isFisII data in
  do se <- find_summary_block data fisII;
  let sum_lines := slice_btw (Z.of_nat (fst se) + 1) (Z.of_nat (snd se)) data in
  if fisII then
    do rows <- sum_loop sum_lines [] fzero false;
    Ok (map add_time_columns rows)
  else match sum_lines with [] => Ok [] | _ :: _ => Err TypeError end.

(** fispact_output_reader.py:368-373: the rows kept, with their labels. *)
Definition retrieve_cooling_data (sumdat : summary) : list (nat * (sum_row * (float * float * float))) :=
  filter (fun ir => is_cooling (fst (snd ir))) (enumerate sumdat).

(** fispact_output_reader.py:376-454.  A row of the table of dominant nuclides: name, value and
    percentage for activity, heat and dose rate, then for gamma and beta heat. *)
Definition entry : Type := str * float * float.
Record dom_top : Type := DomTop { d_act : entry; d_heat : entry; d_dose : entry }.
Record dom_low : Type := DomLow { d_gheat : entry; d_bheat : entry }.
Definition read_entry (a : Z) (line : str) : res entry :=
  do v <- fcols (a + 8) (a + 18) line;
  do p <- fcols (a + 20) (a + 29) line;
  Ok (no_blanks (cols a (a + 6) line), v, p).
Definition read_top (line : str) : res dom_top :=
  as_value_error (
    do x <- read_entry 7 line; do y <- read_entry 38 line; do z <- read_entry 69 line; Ok (DomTop x y z)).
Fixpoint read_lower (lines : list str) : res (list dom_low) :=
  match lines with
  | [] => Ok []
  | line :: lines' =>
      do c <- py_nth line 0;
      if Ascii.eqb c (chr 49) then Ok [] else
      do r <- as_value_error (do x <- read_entry 7 line; do y <- read_entry 38 line; Ok (DomLow x y));
      do rs <- read_lower lines';
      Ok (r :: rs)
  end.
(** Columns of another length are refused by pandas unless the table is still empty; then
    the earlier columns hold nan ([None] here). *)
Definition dom_table (top : list dom_top) (low : list dom_low) : res (list (option dom_top * dom_low)) :=
  match top with
  | [] => Ok (map (fun l => (None, l)) low)
  | _ :: _ => if Nat.eqb (List.length top) (List.length low) then Ok (combine (map Some top) low) else Err ValueError
  end.
Definition parse_dominant (data : list str) : res (list (option dom_top * dom_low)) :=
  match data with [] => Err ValueError | _ :: _ =>
  do p1_ind <- find_ind data (lit "DOMINANT NUCLIDES");
  let data := slice_from (Z.of_nat p1_ind) data in
  do d1_ind <- find_ind data (lit "(Bq) ");
  do d2_ind <- find_ind data (lit "GAMMA HEAT");
  let topset := slice_btw (Z.of_nat d1_ind + 2) (Z.of_nat d2_ind - 1) data in
  let lowerset := slice_from (Z.of_nat d2_ind + 3) data in
  do top <- mapM read_top topset;
  do low <- read_lower lowerset;
  dom_table top low
  end.

(** fispact_output_reader.py:516-554.  A row of the inventory. *)
Record nuclide : Type := Nuclide {
  n_name : str; n_atoms : float; n_mass : float; n_act : float; n_beta : float;
  n_alpha : float; n_gamma : float; n_dose : float; n_element : str; n_A : str }.
Definition read_nuclide (nuc : str) : res nuclide :=
  as_value_error (
    let name := cols 2 8 nuc in
    do at_ <- fcols 14 25 nuc;
    do m <- fcols 28 37 nuc;
    do ac <- fcols 40 49 nuc;
    do b <- fcols 52 61 nuc;
    do a <- fcols 64 72 nuc;
    do g <- fcols 75 84 nuc;
    do d <- fcols 87 96 nuc;
    Ok (Nuclide (no_blanks name) at_ m ac b a g d (strip (slice_btw 0 2 name)) (strip (slice_from 2 name)))).
Definition parse_inventory (data : list str) : res (list nuclide) :=
  match data with [] => Err ValueError | _ :: _ =>
  do p2 <- find_ind data (lit "0  TOTAL NUMBER OF NUCLIDES PRINTED IN INVENTORY");
  mapM read_nuclide (slice_btw 4 (Z.of_nat p2) data)
  end.

(** fispact_output_reader.py:492-513 *)
Definition parse_spectra (data : list str) : res (list float) :=
  match data with [] => Err ValueError | _ :: _ =>
  do p1 <- find_ind data (lit "GAMMA SPECTRUM AND ENERGIES/SECOND");
  if (Nat.ltb (List.length data) (p1 + 31))%nat then Err ValueError else
  mapM (fun line => as_value_error (fcols 130 141 line)) (slice_btw (Z.of_nat p1 + 7) (Z.of_nat p1 + 31) data)
  end.

(** fispact_output_reader.py:457-489.  [np_sum] is the sum of a column; a row is element, atoms
    and atom fraction.  Dividing by a numpy zero gives nan or inf, as in IEEE. *)
Definition comp_row : Type := str * float * float.
Section Composition.
  Variable np_sum : list float -> float.
  Definition read_comp (line : str) : res (str * float) :=
    as_value_error (do x <- fcols 20 30 line; Ok (cols 12 14 line, x)).
  Definition parse_composition (data : list str) : res (list comp_row) :=
    match data with [] => Err ValueError | _ :: _ =>
    do s <- find_ind data (lit "COMPOSITION  OF  MATERIAL  BY  ELEMENT");
    do e <- find_ind data (lit "GAMMA SPECTRUM AND ENERGIES/SECOND");
    do rows <- mapM read_comp (slice_btw (Z.of_nat s + 5) (Z.of_nat e - 3) data);
    let total_atoms := np_sum (map snd rows) in
    Ok (map (fun r => (fst r, snd r, fdiv (snd r) total_atoms)) rows)
    end.
End Composition.

(** fispact_output_reader.py:557-565, read_mass: re.match of
    ^0\s+Mass of material input\s*=\s*([0-9.Ee+-]+)\s*kg\.  Blanks, the characters of the
    number and the letters around them are disjoint, so matching is deterministic. *)
Definition eat (p : str) (s : str) : option str :=
  if starts_with p s then Some (skipn (List.length p) s) else None.
Definition is_numeral (c : ascii) : bool :=
  is_decimal c || existsb (Ascii.eqb c) (lit ".Ee+-").
Fixpoint span_by (p : ascii -> bool) (s : str) : str * str :=
  match s with
  | [] => ([], [])
  | c :: s' => if p c then let '(a, b) := span_by p s' in (c :: a, b) else ([], s)
  end.
Definition obind {A B} (o : option A) (f : A -> option B) : option B := match o with Some a => f a | None => None end.
Definition match_mass (line : str) : option str :=
  obind (eat (lit "0") line) (fun s =>
  match span_by is_ws s with
  | ([], _) => None
  | (_, s) =>
      obind (eat (lit "Mass of material input") s) (fun s =>
      obind (eat (lit "=") (lstrip s)) (fun s =>
      match span_by is_numeral (lstrip s) with
      | ([], _) => None
      | (num, s) => obind (eat (lit "kg.") (lstrip s)) (fun _ => Some num)
      end))
  end).
Fixpoint read_mass (lines : list str) : res float :=
  match lines with
  | [] => Ok fzero
  | line :: lines' =>
      match match_mass (strip line) with
      | Some num => py_float num
      | None => read_mass lines'
      end
  end.

(** fispact_output_reader.py:568-576 *)
Definition find_first_cooling_index (sumdat : summary) : option nat :=
  match retrieve_cooling_data sumdat with
  | [] => None
  | (i, _) :: _ => Some i
  end.

(** fispact_output_reader.py:579-595 *)
Definition read_parameter (data : list str) (sub : str) : res float :=
  match data with [] => Err ValueError | _ :: _ =>
  do ind <- find_ind data sub;
  do line <- py_nth data (Z.of_nat ind);
  match split_on (chr 61) line with
  | _ :: v :: _ =>
      as_value_error (do w <- py_nth (split_on c_space (strip v)) 0; py_float w)
  | _ => Err ValueError
  end
  end.

(** fispact_output_reader.py:50-84: a time step.  A number that may be kept as text. *)
Inductive num_text : Type := Num (x : float) | Text (s : str).
(** The text is converted only if it has an E. *)
Definition with_E (s : str) : res num_text :=
  if contains (lit "E") s then do x <- py_float s; Ok (Num x) else Ok (Text s).
Record time_step : Type := TimeStep {
  step_num : nat; step_length : float; ts_is_cooling : bool; num_nuclides : Z;
  alpha_act : float; beta_act : float; gamma_act : float; total_act : float; total_act_no_trit : float;
  alpha_heat : float; beta_heat : float; gamma_heat : float; total_heat : float; total_heat_no_trit : float;
  num_fissions : num_text; neutron_flux : float; initial_mass : float; total_mass : float; density : float; actinide_burn : float;
  appm : option (num_text * num_text * num_text * num_text * num_text);   (* He4 He3 H3 H2 H1; None: left at 0 *)
  dom_data : list (option dom_top * dom_low); inventory : list nuclide; gspec : list float; composition : list comp_row }.

(** A line found by its text, and a number in its columns or in those of a later line. *)
Definition at_line (lines : list str) (ind : nat) (k : Z) (a b : Z) : res float :=
  do line <- py_nth lines (Z.of_nat ind + k); fcols a b line.
Definition text_at (lines : list str) (ind : nat) (k : Z) (a b : Z) : res num_text :=
  do line <- py_nth lines (Z.of_nat ind + k); with_E (cols a b line).

Section Reader.
  Variable np_sum : list float -> float.
  (** fispact_output_reader.py:142-217 *)
  Definition read_time_step (lines : list str) (i : nat) : res time_step :=
    match lines with [] => Err ValueError | line0 :: _ =>
    do sl <- as_value_error (fcols 50 60 line0);
    do ind <- find_ind lines (lit "TOTAL NUMBER OF NUCLIDES PRINTED IN INVENTORY");
    do nn <- as_value_error (do line <- py_nth lines (Z.of_nat ind); py_int (slice_from 50 line));
    do ind <- find_ind lines (lit "ALPHA BECQUERELS");
    do aa <- at_line lines ind 0 22 34;
    do ba <- at_line lines ind 0 54 66;
    do ga <- at_line lines ind 0 87 99;
    do ind <- find_ind lines (lit "TOTAL ACTIVITY FOR ALL MATERIALS ");
    do ta <- at_line lines ind 0 40 51;
    do ind <- find_ind lines (lit "TOTAL ACTIVITY EXCLUDING TRITIUM ");
    do tant <- at_line lines ind 0 40 51;
    do ind <- find_ind lines (lit "TOTAL ALPHA HEAT");
    do ah <- at_line lines ind 0 40 51;
    do bh <- at_line lines ind 1 40 51;
    do gh <- at_line lines ind 2 40 51;
    do th <- at_line lines ind 2 90 101;
    do im <- at_line lines ind 3 40 51;
    do thnt <- at_line lines ind 3 90 101;
    do tm <- at_line lines ind 4 40 51;
    do nf <- at_line lines ind 5 40 51;
    do fi <- text_at lines ind 6 39 51;
    do ab <- at_line lines ind 6 90 101;
    do ind <- find_ind lines (lit "DENSITY");
    do de <- at_line lines ind 0 78 86;
    do act <- (if flt fzero ta then
      do ind <- find_ind lines (lit "APPM OF He  4 ");
      do he4 <- text_at lines ind 0 23 33;
      do he3 <- text_at lines ind 1 23 33;
      do h3 <- text_at lines ind 2 23 33;
      do h2 <- text_at lines ind 3 23 33;
      do h1 <- text_at lines ind 4 23 33;
      do dom <- parse_dominant lines;
      do comp <- parse_composition np_sum lines;
      do gs <- parse_spectra lines;
      Ok (Some (he4, he3, h3, h2, h1), dom, comp, gs)
      else Ok (None, [], [], []));
    do inv <- parse_inventory lines;
    let '(ap, dom, comp, gs) := act in
    Ok (TimeStep (i + 1) sl false nn aa ba ga ta tant ah bh gh th thnt fi nf im tm de ab ap dom inv gs comp)
    end.

  (** fispact_output_reader.py:28-47: the output; num_cool_step is never assigned. *)
  Record fis_out : Type := FisOut {
    file_name : path; sumdat : summary; timestep_data : list time_step; cooling_step_index : option nat;
    num_cool_step : Z; num_irrad_step : float; version : str; fo_isFisII : bool; cpu_time : float;
    tot_irrad_time : float; tot_fluence : float; ave_flux : float; mass_kg : float; mass_g : float }.

  (** fispact_output_reader.py:87-139, the positions of the markers and the steps. *)
  Definition is_step (line : str) : bool := str_eqb (slice_btw 0 7 line) (lit "1 * * *").
  Definition step_inds (lines : list str) : list nat := map fst (filter (fun il => is_step (snd il)) (enumerate lines)).
  Fixpoint read_steps (lines : list str) (i : nat) (inds : list nat) : res (list time_step) :=
    match inds with
    | [] => Ok []
    | start :: inds' =>
        let end_ := match inds' with [] => None | e :: _ => Some (Z.of_nat e) end in
        do t <- read_time_step (slice (Some (Z.of_nat start)) end_ lines) i;
        do ts <- read_steps lines (S i) inds';
        Ok (t :: ts)
    end.
  (** fispact_output_reader.py:87-139.  A file without the first marker is read without steps. *)
  Definition read_fis_lines (fpath : path) (lines : list str) : res fis_out :=
    let version := check_fisp_version lines in
    let fisII := isFisII lines in
    do sd <- read_summary_data lines;
    do af <- read_parameter lines (lit "Mean flux");
    do it <- read_parameter lines (lit "Total irradiation time");
    do tf <- read_parameter lines (lit "Total fluence");
    do ni <- read_parameter lines (lit "Number of on-times");
    do mk <- read_mass lines;
    do cpu <- read_parameter lines (if fisII then lit "fispact run time" else lit "CPU Time used for case");
    do ts <- read_steps lines 1 (slice_from 1 (step_inds lines));
    Ok (FisOut fpath sd ts (find_first_cooling_index sd) 0 ni version fisII cpu it tf af mk (fmul mk (f_of_Z 1000))).
  Definition read_fis_out (f : fs) (fpath : path) : res fis_out :=
    if negb (path_exists f fpath) then Err FileNotFoundError
    else if negb (path_isfile f fpath) then Err ValueError
    else match get_lines f fpath with
         | Err _ => Err OSError
         | Ok lines => read_fis_lines fpath lines
         end.
End Reader.
