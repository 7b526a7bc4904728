(** Specifications for the properties of the FISPACT output reader: what the lines of an
    output file say, in terms of positions of lines and columns of characters. *)
From Coq Require Import Reals.
From Verif Require Import PyBase PyFloat PyFs SpecStr SpecUtil SpecOutput M_fisout.

(** The number written in some columns (blanks around it are ignored by float()). *)
Definition field (a b : nat) (l : str) (x : float) : Prop := py_float (columns a b l) = Ok x.
(** Entries i (included) to j (excluded) of a list. *)
Definition span {A} (i j : nat) (l : list A) : list A := firstn (j - i) (skipn i l).
(** The line [k] lines after the first one containing a text. *)
Definition line_after (data : list str) (text : str) (k : nat) (l : str) : Prop :=
  exists i, first_index (occurs text) data i /\ nth_error data (i + k) = Some l.
Definition labelled (data : list str) (text : str) (k a b : nat) (x : float) : Prop :=
  exists l, line_after data text k l /\ field a b l x.
(** A text without its blanks. *)
Definition without_spaces (s : str) : str := filter (fun c => negb (Ascii.eqb c (chr 32))) s.

(** * Time steps *)
Definition marker (l : str) : Prop := prefix_of (lit "1 * * *") l.
(** [cut lines pre segs]: [pre] is what comes before the first marker, each segment starts
    with a marker and has no other. *)
Definition segment (s : list str) : Prop := exists m body, s = m :: body /\ marker m /\ Forall (fun l => ~ marker l) body.
Definition cut (lines pre : list str) (segs : list (list str)) : Prop :=
  lines = pre ++ concat segs /\ Forall (fun l => ~ marker l) pre /\ Forall segment segs.

(** * The inventory *)
Definition inventory_total : str := lit "0  TOTAL NUMBER OF NUCLIDES PRINTED IN INVENTORY".
Definition nuclide_line (l : str) (n : nuclide) : Prop :=
  n_name n = without_spaces (columns 2 8 l) /\ trimmed (columns 2 4 l) (n_element n) /\ trimmed (columns 4 8 l) (n_A n) /\
  field 14 25 l (n_atoms n) /\ field 28 37 l (n_mass n) /\ field 40 49 l (n_act n) /\ field 52 61 l (n_beta n) /\
  field 64 72 l (n_alpha n) /\ field 75 84 l (n_gamma n) /\ field 87 96 l (n_dose n).

(** * Spectrum and composition *)
Definition spectrum_title : str := lit "GAMMA SPECTRUM AND ENERGIES/SECOND".
Definition composition_title : str := lit "COMPOSITION  OF  MATERIAL  BY  ELEMENT".
Definition row_element (r : comp_row) : str := fst (fst r).
Definition row_atoms (r : comp_row) : float := snd (fst r).
Definition row_fraction (r : comp_row) : float := snd r.
Definition element_line (l : str) (r : comp_row) : Prop :=
  row_element r = columns 12 14 l /\ field 20 30 l (row_atoms r).

(** * Dominant nuclides: name, value and percentage in columns starting at a *)
Definition entry_at (a : nat) (l : str) (e : entry) : Prop :=
  fst (fst e) = without_spaces (columns a (a + 6) l) /\ field (a + 8) (a + 18) l (snd (fst e)) /\ field (a + 20) (a + 29) l (snd e).
Definition top_line (l : str) (t : dom_top) : Prop := entry_at 7 l (d_act t) /\ entry_at 38 l (d_heat t) /\ entry_at 69 l (d_dose t).
Definition low_line (l : str) (t : dom_low) : Prop := entry_at 7 l (d_gheat t) /\ entry_at 38 l (d_bheat t).
Definition starts_with_1 (l : str) : Prop := exists r, l = chr 49 :: r.

(** * Summary table *)
Definition old_version (data : list str) : Prop := exists l, In l (firstn 50 data) /\ occurs (lit "FISPACT VERSION 07.0/0") l.
Definition irradiation_title : str := lit " -----Irradiation Phase-----".
Definition ends_summary (l : str) : Prop := occurs (lit "0 Mass") l.
(** A separator line and a line with numbers. *)
Definition separator (l : str) : Prop := nth_error l 1 = Some (chr 45).
Record sum_line (l : str) (time act dose heat ing inh trit : float) : Prop := SumLine {
  sl_second : exists c, nth_error l 1 = Some c /\ c <> chr 45;
  sl_time : field 24 32 l time; sl_act : field 35 43 l act; sl_dose : field 58 66 l dose; sl_heat : field 81 89 l heat;
  sl_ing : field 104 112 l ing; sl_inh : field 127 135 l inh; sl_trit : field 150 158 l trit }.
(** The row of a line whose time is counted from [t0]. *)
Definition row_of (t0 : float) (cooling : bool) (l : str) (r : sum_row) : Prop :=
  exists t, sum_line l t (s_act r) (dose_rate r) (heating r) (ingestion r) (inhalation r) (tritium r) /\
    time_years r = fadd t t0 /\ is_cooling r = cooling.
(** Time in days, hours and seconds, with 365.4 days in a year. *)
Definition times_of (y d h s : float) : Prop :=
  d = fmul y (fdec 3654 (-1)) /\ h = fmul y (fmul (fdec 3654 (-1)) (f_of_Z 24)) /\
  s = fmul y (fmul (fmul (fdec 3654 (-1)) (f_of_Z 24)) (f_of_Z 3600)).

(** * The mass line: 0, blanks, "Mass of material input", =, number, kg. *)
Definition numeral (c : ascii) : Prop := In c (lit "0123456789.Ee+-").
Definition mass_line (l num : str) : Prop :=
  exists t b1 b2 b3 b4 rest, trimmed l t /\ blank b1 /\ b1 <> [] /\ blank b2 /\ blank b3 /\ blank b4 /\
    num <> [] /\ Forall numeral num /\
    t = lit "0" ++ b1 ++ lit "Mass of material input" ++ b2 ++ lit "=" ++ b3 ++ num ++ b4 ++ lit "kg." ++ rest.

(** * The number after the first = of a line, up to the first blank after it *)
Definition upto (c : ascii) (s w : str) : Prop :=
  ~ In c w /\ (s = w \/ exists r, s = w ++ c :: r).
Definition parameter_line (l : str) (x : float) : Prop :=
  exists a v u t w, l = a ++ chr 61 :: v /\ ~ In (chr 61) a /\ upto (chr 61) v u /\ trimmed u t /\ upto (chr 32) t w /\ py_float w = Ok x.

(** * Numbers that may be kept as text *)
Definition number_or_text (data : list str) (text : str) (k a b : nat) (v : num_text) : Prop :=
  exists l, line_after data text k l /\
    match v with
    | Num x => In (chr 69) (columns a b l) /\ field a b l x
    | Text s => s = columns a b l /\ ~ In (chr 69) s
    end.

(** The two parts of the table of dominant nuclides. *)
Definition dominant_tables (data tops lows : list str) : Prop :=
  exists p d1 d2 tail, first_index (occurs (lit "DOMINANT NUCLIDES")) data p /\
    first_index (occurs (lit "(Bq) ")) (skipn p data) d1 /\ first_index (occurs (lit "GAMMA HEAT")) (skipn p data) d2 /\ 1 <= d2 /\
    tops = span (d1 + 2) (d2 - 1) (skipn p data) /\ skipn (d2 + 3) (skipn p data) = lows ++ tail /\
    Forall (fun l => ~ starts_with_1 l) lows /\ (tail = [] \/ exists l r, tail = l :: r /\ starts_with_1 l).

(** * The contents of a time step *)
Record step_reads (lines : list str) (ts : time_step) : Prop := StepReads {
  sr_length : exists l, nth_error lines 0 = Some l /\ field 50 60 l (step_length ts);
  sr_nuclides : exists l, line_after lines (lit "TOTAL NUMBER OF NUCLIDES PRINTED IN INVENTORY") 0 l /\ py_int (skipn 50 l) = Ok (num_nuclides ts);
  sr_alpha : labelled lines (lit "ALPHA BECQUERELS") 0 22 34 (alpha_act ts);
  sr_beta : labelled lines (lit "ALPHA BECQUERELS") 0 54 66 (beta_act ts);
  sr_gamma : labelled lines (lit "ALPHA BECQUERELS") 0 87 99 (gamma_act ts);
  sr_total : labelled lines (lit "TOTAL ACTIVITY FOR ALL MATERIALS ") 0 40 51 (total_act ts);
  sr_no_tritium : labelled lines (lit "TOTAL ACTIVITY EXCLUDING TRITIUM ") 0 40 51 (total_act_no_trit ts);
  sr_alpha_heat : labelled lines (lit "TOTAL ALPHA HEAT") 0 40 51 (alpha_heat ts);
  sr_beta_heat : labelled lines (lit "TOTAL ALPHA HEAT") 1 40 51 (beta_heat ts);
  sr_gamma_heat : labelled lines (lit "TOTAL ALPHA HEAT") 2 40 51 (gamma_heat ts);
  sr_total_heat : labelled lines (lit "TOTAL ALPHA HEAT") 2 90 101 (total_heat ts);
  sr_initial_mass : labelled lines (lit "TOTAL ALPHA HEAT") 3 40 51 (initial_mass ts);
  sr_heat_no_tritium : labelled lines (lit "TOTAL ALPHA HEAT") 3 90 101 (total_heat_no_trit ts);
  sr_total_mass : labelled lines (lit "TOTAL ALPHA HEAT") 4 40 51 (total_mass ts);
  sr_flux : labelled lines (lit "TOTAL ALPHA HEAT") 5 40 51 (neutron_flux ts);
  sr_fissions : number_or_text lines (lit "TOTAL ALPHA HEAT") 6 39 51 (num_fissions ts);
  sr_burn : labelled lines (lit "TOTAL ALPHA HEAT") 6 90 101 (actinide_burn ts);
  sr_density : labelled lines (lit "DENSITY") 0 78 86 (density ts) }.
(** Gas production, read only for an active material. *)
Definition gas_reads (lines : list str) (v : num_text * num_text * num_text * num_text * num_text) : Prop :=
  let '(he4, he3, h3, h2, h1) := v in
  number_or_text lines (lit "APPM OF He  4 ") 0 23 33 he4 /\ number_or_text lines (lit "APPM OF He  4 ") 1 23 33 he3 /\
  number_or_text lines (lit "APPM OF He  4 ") 2 23 33 h3 /\ number_or_text lines (lit "APPM OF He  4 ") 3 23 33 h2 /\
  number_or_text lines (lit "APPM OF He  4 ") 4 23 33 h1.
(** What a time step holds: the labelled values, the inventory, and for an active material
    (total activity above zero) the gas production and the three tables. *)
Definition step_holds (np_sum : list float -> float) (lines : list str) (i : nat) (ts : time_step) : Prop :=
  step_num ts = i + 1 /\ ts_is_cooling ts = false /\ step_reads lines ts /\ parse_inventory lines = Ok (inventory ts) /\
  (flt fzero (total_act ts) = true ->
     (exists g, appm ts = Some g /\ gas_reads lines g) /\ parse_dominant lines = Ok (dom_data ts) /\
     parse_composition np_sum lines = Ok (composition ts) /\ parse_spectra lines = Ok (gspec ts)) /\
  (flt fzero (total_act ts) = false -> appm ts = None /\ dom_data ts = [] /\ composition ts = [] /\ gspec ts = []).

(** The contents of an output file. *)
Definition param_is (lines : list str) (name : str) (x : float) : Prop := exists l, line_after lines name 0 l /\ parameter_line l x.
Definition file_holds (np_sum : list float -> float) (p : path) (lines : list str) (fo : fis_out) : Prop :=
  file_name fo = p /\ version fo = (if fo_isFisII fo then lit "FISPACT-II" else lit "FISP07") /\ (fo_isFisII fo = true <-> ~ old_version lines) /\
  read_summary_data lines = Ok (sumdat fo) /\ cooling_step_index fo = find_first_cooling_index (sumdat fo) /\
  param_is lines (lit "Mean flux") (ave_flux fo) /\ param_is lines (lit "Total irradiation time") (tot_irrad_time fo) /\
  param_is lines (lit "Total fluence") (tot_fluence fo) /\ param_is lines (lit "Number of on-times") (num_irrad_step fo) /\
  param_is lines (if fo_isFisII fo then lit "fispact run time" else lit "CPU Time used for case") (cpu_time fo) /\
  read_mass lines = Ok (mass_kg fo) /\ mass_g fo = fmul (mass_kg fo) (f_of_Z 1000) /\ num_cool_step fo = 0%Z /\
  exists pre segs, cut lines pre segs /\ List.length (timestep_data fo) = List.length (tl segs) /\
    forall i s t, nth_error (tl segs) i = Some s -> nth_error (timestep_data fo) i = Some t -> step_holds np_sum s (i + 1) t.
(** The lines between the title and the mass line. *)
Definition summary_lines (data ls : list str) : Prop :=
  exists s e, first_index (fun y => y = irradiation_title) data s /\ first_index ends_summary data e /\ ls = span (s + 1) e data.
(** A table of summary lines read one after the other: [to] is added to the times, [c] is the
    flag, [last] the time of the last row; a separator makes [last] the offset and sets the flag. *)
Inductive table : float -> bool -> option float -> list str -> list sum_row -> Prop :=
| tab_nil to c last : table to c last [] []
| tab_row to c last l ls r rs : row_of to c l r -> table to c (Some (time_years r)) ls rs -> table to c last (l :: ls) (r :: rs)
| tab_sep to c y l ls rs : separator l -> table y true (Some y) ls rs -> table to c (Some y) (l :: ls) rs.
(** The first line giving a mass. *)
Definition first_mass (lines : list str) (num : str) : Prop :=
  exists a l b, lines = a ++ l :: b /\ Forall (fun x => forall n, ~ mass_line x n) a /\ mass_line l num.
(** The sum of a list of reals. *)
Definition Rsum (l : list R) : R := fold_right Rplus 0%R l.
(** Rows together with their times in days, hours and seconds. *)
Definition timed (rows : list sum_row) (out : summary) : Prop :=
  Forall2 (fun r o => fst o = r /\ let '(d, h, s) := snd o in times_of (time_years r) d h s) rows out.
